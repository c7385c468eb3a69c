(** * Proofs about [EvalModel.v] *)
From Coq Require Import Reals Lra.
From Verif Require Export EvalModel ShapeProofs.
Local Open Scope R_scope.

Lemma map_store_floating l : map (store Floating) l = l.
Proof. induction l; simpl; congruence. Qed.
Lemma values_floating shp pcoords : shape_function_values shp Floating pcoords = mapM shp pcoords.
Proof.
  apply mapM_ext. intros p _. destruct (shp p); cbn [bind]; auto. rewrite map_store_floating. auto.
Qed.
Lemma derivatives_floating dshp pcoords : shape_function_derivatives dshp Floating pcoords = mapM dshp pcoords.
Proof.
  apply mapM_ext. intros p _. destruct (dshp p) as [D|]; cbn [bind]; auto. f_equal.
  rewrite <- (map_id D) at 2. apply map_ext. apply map_store_floating.
Qed.

Lemma truncate_IZR z : truncate (IZR z) = IZR z.
Proof.
  unfold truncate, Int_part.
  assert (E : forall z, (up (IZR z) - 1)%Z = z).
  { intros y. rewrite <- (tech_up (IZR y) (y + 1)); [lia| |]; rewrite plus_IZR; simpl; lra. }
  destruct (Rle_dec 0 (IZR z)); [rewrite E; auto|]. rewrite <- (opp_IZR z), E, opp_IZR. ring.
Qed.
Lemma truncate_small x : -1 < x < 1 -> truncate x = 0.
Proof.
  intros H. unfold truncate, Int_part.
  assert (E : forall y, 0 <= y < 1 -> (up y - 1)%Z = 0%Z).
  { intros y Hy. rewrite <- (tech_up y 1); [lia| |]; simpl; lra. }
  destruct (Rle_dec 0 x); rewrite E by lra; simpl; lra.
Qed.
Lemma truncate_ints ws : map truncate (map IZR ws) = map IZR ws.
Proof. rewrite map_map. apply map_ext. intros; apply truncate_IZR. Qed.

(** a function that takes integer points to integer values *)
Definition integral (dim : nat) (shp : list R -> res (list R)) : Prop :=
  forall zs, length zs = dim -> exists ws, shp (map IZR zs) = Ok (map IZR ws).
Definition integral2 (dim : nat) (dshp : list R -> res (list (list R))) : Prop :=
  forall zs, length zs = dim -> exists ws, dshp (map IZR zs) = Ok (map (map IZR) ws).
Lemma values_integral dim shp pcoords dt : integral dim shp -> rect dim pcoords -> has_dtype dt pcoords ->
  shape_function_values shp dt pcoords = mapM shp pcoords.
Proof.
  intros H Hr Hd. destruct dt; [apply values_floating|]. destruct Hd as [zs ->].
  unfold shape_function_values, shp_multi. induction zs as [|z zs IH]; [reflexivity|].
  pose proof (Forall_inv Hr) as Hz. pose proof (Forall_inv_tail Hr) as Hzs. simpl in Hz. cbn [map mapM]. rewrite map_length in Hz. destruct (H z Hz) as [ws E].
  rewrite E. cbn [bind]. simpl store. rewrite truncate_ints, (IH Hzs). reflexivity.
Qed.
Lemma derivatives_integral dim dshp pcoords dt : integral2 dim dshp -> rect dim pcoords -> has_dtype dt pcoords ->
  shape_function_derivatives dshp dt pcoords = mapM dshp pcoords.
Proof.
  intros H Hr Hd. destruct dt; [apply derivatives_floating|]. destruct Hd as [zs ->].
  unfold shape_function_derivatives, dshp_multi. induction zs as [|z zs IH]; [reflexivity|].
  pose proof (Forall_inv Hr) as Hz. pose proof (Forall_inv_tail Hr) as Hzs. simpl in Hz. cbn [map mapM]. rewrite map_length in Hz. destruct (H z Hz) as [ws E].
  rewrite E. cbn [bind]. rewrite (IH Hzs).
  replace (map (map (store Integral)) (map (map IZR) ws)) with (map (map IZR) ws); [reflexivity|].
  rewrite map_map. apply map_ext. intros a; symmetry; exact (truncate_ints a).
Qed.

Definition is_int (x : R) : Prop := exists z, x = IZR z.
Lemma int_add x y : is_int x -> is_int y -> is_int (x + y).
Proof. intros [a ->] [b ->]. exists (a + b)%Z. symmetry. apply plus_IZR. Qed.
Lemma int_mul x y : is_int x -> is_int y -> is_int (x * y).
Proof. intros [a ->] [b ->]. exists (a * b)%Z. symmetry. apply mult_IZR. Qed.
Lemma int_opp x : is_int x -> is_int (- x).
Proof. intros [a ->]. exists (- a)%Z. symmetry. apply opp_IZR. Qed.
Lemma int_sub x y : is_int x -> is_int y -> is_int (x - y).
Proof. intros. apply int_add; auto. apply int_opp; auto. Qed.
Lemma int_Z z : is_int (IZR z). Proof. exists z; auto. Qed.
Lemma ints_ok l : Forall is_int l -> exists ws, l = map IZR ws.
Proof. induction 1 as [|x l [z ->] _ [ws ->]]; [exists []; auto|]. exists (z :: ws). auto. Qed.
Lemma ints_ok2 l : Forall (Forall is_int) l -> exists ws, l = map (map IZR) ws.
Proof.
  induction 1 as [|x l Hx _ [ws ->]]; [exists []; auto|]. destruct (ints_ok x Hx) as [w ->]. exists (w :: ws). auto.
Qed.
Ltac int_tac := repeat first [apply int_Z | apply int_add | apply int_sub | apply int_mul | apply int_opp].
Ltac integral_tac :=
  let zs := fresh "zs" in let H := fresh in intros zs H; list_cases zs H; cbn [map]; unfold shp_T3, shp_T6, shp_TET4, dshp_T3, dshp_T6, dshp_TET4;
  match goal with
  | |- exists ws, Ok ?l = Ok (map IZR ws) => destruct (ints_ok l) as [ws ->];
      [cbn [map]; numR; repeat (apply Forall_cons || apply Forall_nil); int_tac | exists ws; reflexivity]
  | |- exists ws, Ok ?l = Ok (map (map IZR) ws) => destruct (ints_ok2 l) as [ws ->];
      [cbn [map]; numR; repeat (apply Forall_cons || apply Forall_nil); int_tac | exists ws; reflexivity]
  end.
Lemma integral_T3 : integral 2 shp_T3.
Proof. integral_tac. Qed.
Lemma integral_T6 : integral 2 shp_T6.
Proof. integral_tac. Qed.
Lemma integral_TET4 : integral 3 shp_TET4.
Proof. integral_tac. Qed.
Lemma integral2_T3 : integral2 2 dshp_T3.
Proof. integral_tac. Qed.
Lemma integral2_T6 : integral2 2 dshp_T6.
Proof. integral_tac. Qed.
Lemma integral2_TET4 : integral2 3 dshp_TET4.
Proof. integral_tac. Qed.

Lemma lag_int c x : In c [-1; 0; 1] -> is_int x -> is_int (lag c x).
Proof.
  intros Hc [z ->]. unfold lag.
  destruct Hc as [<-|[<-|[<-|[]]]].
  - destruct (Z.Even_or_Odd z) as [[k ->]|[k ->]];
      [exists (k * (2 * k - 1))%Z|exists ((2 * k + 1) * k)%Z]; repeat rewrite ?mult_IZR, ?plus_IZR, ?minus_IZR; simpl; field.
  - exists (1 - z * z)%Z. rewrite minus_IZR, mult_IZR. field.
  - destruct (Z.Even_or_Odd z) as [[k ->]|[k ->]];
      [exists (k * (2 * k + 1))%Z|exists ((2 * k + 1) * (k + 1))%Z]; repeat rewrite ?mult_IZR, ?plus_IZR, ?minus_IZR; simpl; field.
Qed.
Lemma Q9_product r s : shp_Q9 [r; s] = Ok (map (fun q => lag (nth 0 q 0) r * lag (nth 1 q 0) s) lcoords_Q9).
Proof.
  unfold shp_Q9, lcoords_Q9. cbn [map]. apply f_equal.
  list_eq ltac:(unfold lag; cbn [nth]; numR; field).
Qed.
Lemma integral_Q9 : integral 2 shp_Q9.
Proof.
  intros zs H. list_cases zs H. cbn [map]. rewrite Q9_product.
  match goal with |- exists ws, Ok ?l = _ => destruct (ints_ok l) as [ws ->]; [|exists ws; auto] end.
  rewrite Forall_map, Forall_forall. intros q Hq.
  assert (Hc : In (nth 0 q 0) [-1; 0; 1] /\ In (nth 1 q 0) [-1; 0; 1]).
  { repeat (destruct Hq as [<-|Hq]; [cbn; auto|]). destruct Hq. }
  apply int_mul; apply lag_int; try apply int_Z; tauto.
Qed.
Lemma integral_H27 : integral 3 shp_H27.
Proof.
  intros zs H. list_cases zs H. cbn [map]. rewrite H27_product.
  match goal with |- exists ws, Ok ?l = _ => destruct (ints_ok l) as [ws ->]; [|exists ws; auto] end.
  rewrite Forall_map, Forall_forall. intros q Hq. destruct (H27_nodes_coords q Hq) as (a & b & c & -> & Ha & Hb & Hc).
  unfold lag3. cbn [nth]. repeat apply int_mul; apply lag_int; auto using int_Z.
Qed.

(** the centre given by integers *)
Lemma L2_at_integers : shape_function_values shp_L2 Integral [[0]] = Ok [[0; 0]].
Proof. unfold shape_function_values, shp_multi. cbn. repeat f_equal; apply truncate_small; lra. Qed.
Lemma Q4_at_integers : shape_function_values shp_Q4 Integral [[0; 0]] = Ok [repeat 0 4].
Proof. unfold shape_function_values, shp_multi. cbn. repeat f_equal; apply truncate_small; lra. Qed.
Lemma H8_at_integers : shape_function_values shp_H8 Integral [[0; 0; 0]] = Ok [repeat 0 8].
Proof. unfold shape_function_values, shp_multi. cbn. repeat f_equal; apply truncate_small; lra. Qed.
Lemma dL2_at_integers z : shape_function_derivatives dshp_L2 Integral [[IZR z]] = Ok [[[0]; [0]]].
Proof. unfold shape_function_derivatives, dshp_multi. cbn. repeat f_equal; apply truncate_small; lra. Qed.
Lemma dQ4_at_integers : shape_function_derivatives dshp_Q4 Integral [[0; 0]] = Ok [repeat [0; 0] 4].
Proof. unfold shape_function_derivatives, dshp_multi. cbn. repeat f_equal; apply truncate_small; lra. Qed.
Lemma dH8_at_integers : shape_function_derivatives dshp_H8 Integral [[0; 0; 0]] = Ok [repeat [0; 0; 0] 8].
Proof. unfold shape_function_derivatives, dshp_multi. cbn. repeat f_equal; apply truncate_small; lra. Qed.
