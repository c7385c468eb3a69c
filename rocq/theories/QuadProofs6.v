(** * Proofs about quadrature, part 6: curved cells *)
From Coq Require Import Reals Lra Psatz.
From Verif Require Import ShapeProofs4.
From Verif Require Export QuadProofs5.
Local Open Scope R_scope.

Lemma pol0_intro f : (forall x, f x = f 0) -> pol 0 f.
Proof. intros H. apply (pol_ext 0 (fun _ => f 0)); [intros; symmetry; apply H|]. apply pol_const. Qed.
Lemma pol1_intro f : (forall x, f x = f 0 + (f 1 - f 0) * x) -> pol 1 f.
Proof.
  intros H. apply (pol_ext 1 (fun x => f 0 + (f 1 - f 0) * x)); [intros; symmetry; apply H|].
  apply pol_add; [apply pol_const|]. apply pol_scale, pol_id. lia.
Qed.
Lemma pol2_intro f : (forall x, f x = f 0 + ((f 1 - f (-1)) / 2 * x + ((f 1 + f (-1)) / 2 - f 0) * x ^ 2)) -> pol 2 f.
Proof.
  intros H. eapply pol_ext; [intros; symmetry; apply H|].
  apply pol_add; [apply pol_const|]. apply pol_add; apply pol_scale; [apply pol_id|apply pol_pow]; lia.
Qed.

(** the determinant takes one factor from each column *)
Lemma pol_det3 m d0 d1 d2 (E : nat -> nat -> R -> R) : (d0 + d1 + d2 <= m)%nat ->
  (forall a, (a < 3)%nat -> pol d0 (E a 0%nat)) -> (forall a, (a < 3)%nat -> pol d1 (E a 1%nat)) -> (forall a, (a < 3)%nat -> pol d2 (E a 2%nat)) ->
  pol m (fun z => det_uvw (fun d => E 0%nat d z) (fun d => E 1%nat d z) (fun d => E 2%nat d z)).
Proof.
  intros Hm H0 H1 H2.
  assert (T : forall a b c, (a < 3)%nat -> (b < 3)%nat -> (c < 3)%nat -> pol m (fun z => E a 0%nat z * E b 1%nat z * E c 2%nat z)).
  { intros a b c Ha Hb Hc. apply (pol_mul (d0 + d1) d2 m (fun z => E a 0%nat z * E b 1%nat z)); auto.
    apply (pol_mul d0 d1); auto. }
  apply (pol_ext m (fun z =>
    (E 0%nat 0%nat z * E 1%nat 1%nat z * E 2%nat 2%nat z - E 0%nat 0%nat z * E 2%nat 1%nat z * E 1%nat 2%nat z)
    - (E 1%nat 0%nat z * E 0%nat 1%nat z * E 2%nat 2%nat z - E 2%nat 0%nat z * E 0%nat 1%nat z * E 1%nat 2%nat z)
    + (E 1%nat 0%nat z * E 2%nat 1%nat z * E 0%nat 2%nat z - E 2%nat 0%nat z * E 1%nat 1%nat z * E 0%nat 2%nat z))).
  - intros z. unfold det_uvw. ring.
  - apply pol_add; [apply pol_sub; apply pol_sub|apply pol_sub]; apply T; lia.
Qed.
(** entries of the Jacobian matrix have the degree of the derivatives of the functions *)
Lemma pol_entry m n cell a d (D : R -> list (list R)) : length cell = n ->
  (forall j, (j < n)%nat -> pol m (fun z => nth j (column (D z) d) 0)) -> pol m (fun z => entry cell (D z) a d).
Proof.
  intros Hl H.
  assert (Hcl : length (column cell a) = n) by (unfold column; rewrite map_length; auto).
  apply (pol_ext m (fun z => rsum (map (fun j => nth j (column (D z) d) 0 * nth j (column cell a) 0) (seq 0 n)))).
  - intros z. unfold entry. rewrite dot_comm, dot_short, Hcl. reflexivity.
  - apply (pol_rsum m (fun j z => nth j (column (D z) d) 0 * nth j (column cell a) 0)). intros j Hj. apply in_seq in Hj.
    eapply pol_ext; [intros z; apply Rmult_comm|]. apply pol_scale. apply H. lia.
Qed.

(** H8: every derivative is linear in every variable *)
Ltac each3 tac :=
  let j := fresh "j" in let d := fresh "d" in let Hj := fresh in let Hd := fresh in
  intros j d Hj Hd;
  repeat (first [exfalso; lia | destruct d as [|d]; [
    repeat (first [exfalso; lia | destruct j as [|j]; [cbn [column dvalues map nth]; tac|]])|]]).
Lemma H8_degree v : (v < 3)%nat -> forall x y j d, (j < 8)%nat -> (d < 3)%nat ->
  pol 1 (fun z => nth j (column (dvalues dshp_H8 (match v with 0 => [z; x; y] | 1 => [x; z; y] | _ => [x; y; z] end%nat)) d) 0).
Proof.
  intros Hv x y. destruct v as [|[|[|v]]]; [..|exfalso; lia];
    each3 ltac:(apply pol1_intro; intros z; unfold dvalues, dshp_H8; cbn [column map nth]; numR; field).
Qed.
Lemma volume_H8 cells : shaped 8 3 cells ->
  exists vs, volumes_H8 cells = Ok vs /\ Forall2 (cell_volume integral_cube shp_H8) cells vs.
Proof.
  intros H. unfold volumes_H8. destruct (gauss_cube 2 2 2) as [q|] eqn:Eq; [|discriminate]. cbn [bind].
  assert (Hq : rect 3 (fst q)) by (injection Eq as <-; once (repeat constructor)).
  rewrite (quad_volumes_value 3 8 shp_H8 dshp_H8) by auto using diff_H8.
  eexists. split; [reflexivity|]. clear Hq. unfold shaped in H.
  induction H as [|c cells [Hl Hr] _ IH]; [constructor|]. constructor; [clear IH|exact IH].
  exists (fun p a d => entry c (dvalues dshp_H8 p) a d). split; [apply (jacobian_values 3 8); auto using diff_H8|].
  apply (exact_cube 2 q); auto.
  - intros x y. apply (pol_det3 3 1 1 1 (fun a d z => entry c (dvalues dshp_H8 [x; y; z]) a d)); auto;
      intros a Ha; apply (pol_entry 1 8); auto; intros j Hj; apply (H8_degree 2); auto.
  - intros x z. apply (pol_det3 3 1 1 1 (fun a d y => entry c (dvalues dshp_H8 [x; y; z]) a d)); auto;
      intros a Ha; apply (pol_entry 1 8); auto; intros j Hj; apply (H8_degree 1); auto.
  - intros y z. apply (pol_det3 3 1 1 1 (fun a d x => entry c (dvalues dshp_H8 [x; y; z]) a d)); auto;
      intros a Ha; apply (pol_entry 1 8); auto; intros j Hj; apply (H8_degree 0); auto.
Qed.

(** H27: quadratic, the derivatives being linear in their own variable *)
Definition dlag (c x : R) : R := (1 - c * c) * (- 2 * x) + c * c * (2 * x + c) / 2.
Definition lagd (v d : nat) (c x : R) : R := if Nat.eqb v d then dlag c x else lag c x.
Lemma lag_pol v d c : pol (if Nat.eqb v d then 1 else 2) (lagd v d c).
Proof.
  unfold lagd. destruct (Nat.eqb v d).
  - apply pol1_intro. intros x. unfold dlag. field.
  - apply pol2_intro. intros x. unfold lag. field.
Qed.
Lemma H27_derivative x y z j d : (j < 27)%nat -> (d < 3)%nat ->
  nth j (column (dvalues dshp_H27 [x; y; z]) d) 0 =
  lagd 0 d (nth 0 (nth j lcoords_H27 []) 0) x * lagd 1 d (nth 1 (nth j lcoords_H27 []) 0) y * lagd 2 d (nth 2 (nth j lcoords_H27 []) 0) z.
Proof.
  intros Hj Hd. destruct (diff_H27 [x; y; z] eq_refl) as (D & E & H1 & H2 & H3).
  unfold dvalues. rewrite E.
  replace (nth j (column D d) 0) with (nth d (nth j D []) 0).
  2: { unfold column. symmetry. rewrite (nth_indep _ 0 ((fun row => nth d row 0) [])) by (rewrite map_length; lia).
       rewrite (map_nth (fun row => nth d row 0) D []). reflexivity. }
  specialize (H3 j d Hj Hd).
  assert (A : forall r s t, match shp_H27 [r; s; t] with Ok N => nth j N 0 | Err _ => 0 end = lag3 r s t (nth j lcoords_H27 [])).
  { intros. rewrite H27_product. rewrite (nth_indep _ 0 (lag3 r s t [])) by (rewrite map_length; exact Hj). apply map_nth. }
  eapply uniqueness_limite; [exact H3|]. clear H3 H1 H2 E.
  generalize (nth j (lcoords_H27 (K := R)) []) as q, A. intros q A'.
  destruct d as [|[|[|d]]]; [..|exfalso; lia]; cbn [nth lagd Nat.eqb].
  - apply (dlim_ext (fun r => lag3 r y z q)); [intros r; symmetry; apply A'|].
    unfold lag3. apply quadratic_derivative. intros h. unfold lag, lagd, dlag. cbn [Nat.eqb]. unfold lag. field.
  - apply (dlim_ext (fun s => lag3 x s z q)); [intros r; symmetry; apply A'|].
    unfold lag3. apply quadratic_derivative. intros h. unfold lagd, dlag. cbn [Nat.eqb]. unfold lag. field.
  - apply (dlim_ext (fun t => lag3 x y t q)); [intros r; symmetry; apply A'|].
    unfold lag3. apply quadratic_derivative. intros h. unfold lagd, dlag. cbn [Nat.eqb]. unfold lag. field.
Qed.
Lemma H27_degree v : (v < 3)%nat -> forall x y j d, (j < 27)%nat -> (d < 3)%nat ->
  pol (if Nat.eqb v d then 1 else 2)
    (fun z => nth j (column (dvalues dshp_H27 (match v with 0 => [z; x; y] | 1 => [x; z; y] | _ => [x; y; z] end%nat)) d) 0).
Proof.
  intros Hv x y j d Hj Hd. destruct v as [|[|[|v]]]; [..|exfalso; lia];
    (eapply pol_ext; [intros z; symmetry; apply H27_derivative; auto|]).
  - generalize (nth j (lcoords_H27 (K := R)) []) as q. intros q.
    eapply pol_ext; [|apply (pol_scale _ (lagd 0 d (nth 0 q 0)) (lagd 1 d (nth 1 q 0) x * lagd 2 d (nth 2 q 0) y)), (lag_pol 0 d (nth 0 q 0))]. intros z; simpl. ring.
  - generalize (nth j (lcoords_H27 (K := R)) []) as q. intros q.
    eapply pol_ext; [|apply (pol_scale _ (lagd 1 d (nth 1 q 0)) (lagd 0 d (nth 0 q 0) x * lagd 2 d (nth 2 q 0) y)), (lag_pol 1 d (nth 1 q 0))]. intros z; simpl. ring.
  - generalize (nth j (lcoords_H27 (K := R)) []) as q. intros q.
    eapply pol_ext; [|apply (pol_scale _ (lagd 2 d (nth 2 q 0)) (lagd 0 d (nth 0 q 0) x * lagd 1 d (nth 1 q 0) y)), (lag_pol 2 d (nth 2 q 0))]. intros z; simpl. ring.
Qed.
Lemma volume_H27 cells : shaped 27 3 cells ->
  exists vs, volumes_H27 cells = Ok vs /\ Forall2 (cell_volume integral_cube shp_H27) cells vs.
Proof.
  intros H. unfold volumes_H27. destruct (gauss_cube 3 3 3) as [q|] eqn:Eq; [|discriminate]. cbn [bind].
  assert (Hq : rect 3 (fst q)) by (injection Eq as <-; once (repeat constructor)).
  rewrite (quad_volumes_value 3 27 shp_H27 dshp_H27) by auto using diff_H27.
  eexists. split; [reflexivity|]. clear Hq. unfold shaped in H.
  induction H as [|c cells [Hl Hr] _ IH]; [constructor|]. constructor; [clear IH|exact IH].
  exists (fun p a d => entry c (dvalues dshp_H27 p) a d). split; [apply (jacobian_values 3 27); auto using diff_H27|].
  apply (exact_cube 3 q); auto.
  - intros x y. apply (pol_det3 5 2 2 1 (fun a d z => entry c (dvalues dshp_H27 [x; y; z]) a d)); auto;
      intros a Ha; (apply (pol_entry _ 27); [exact Hl|]); intros j Hj; match goal with |- pol _ (fun _ => nth _ (column _ ?d) _) => exact (H27_degree 2 ltac:(lia) x y j d Hj ltac:(lia)) end.
  - intros x z. apply (pol_det3 5 2 1 2 (fun a d y => entry c (dvalues dshp_H27 [x; y; z]) a d)); auto;
      intros a Ha; (apply (pol_entry _ 27); [exact Hl|]); intros j Hj; match goal with |- pol _ (fun _ => nth _ (column _ ?d) _) => exact (H27_degree 1 ltac:(lia) x z j d Hj ltac:(lia)) end.
  - intros y z. apply (pol_det3 5 1 2 2 (fun a d x => entry c (dvalues dshp_H27 [x; y; z]) a d)); auto;
      intros a Ha; (apply (pol_entry _ 27); [exact Hl|]); intros j Hj; match goal with |- pol _ (fun _ => nth _ (column _ ?d) _) => exact (H27_degree 0 ltac:(lia) y z j d Hj ltac:(lia)) end.
Qed.
