(** * Proofs about [SpaceModel.v], part 2: lines, planes, local coordinates *)
From Coq Require Import Reals Lra Lia List Psatz.
From Verif Require Import BaseFacts TrModel TrProofs EvalProofs ShapeProofs3 ShapeProofs4 TriProofs TriProofs3 TriProofs4 TriProofs5 LocProofs9 SpaceModel SpaceSpec NodalProofs NodalProofs4 NodalProofs5 SpaceProofs.
Import ListNotations.
Local Open Scope R_scope.

(** ** the least and the greatest entry *)
Definition first_min (l : list R) (i : nat) : Prop :=
  exists x, nth_error l i = Some x /\ (forall j y, nth_error l j = Some y -> x <= y) /\ forall j y, (j < i)%nat -> nth_error l j = Some y -> x < y.
Lemma arg_best_min : forall l pre b x, nth_error pre b = Some x -> (forall j y, nth_error pre j = Some y -> x <= y) -> (forall j y, (j < b)%nat -> nth_error pre j = Some y -> x < y) ->
  first_min (pre ++ l) (arg_best (fun y x => if Rlt_dec y x then true else false) b x (length pre) l).
Proof.
  induction l as [|y l IH]; intros pre b x Hb Hm Hf; cbn [arg_best].
  - rewrite app_nil_r. exists x. auto.
  - replace (pre ++ y :: l) with ((pre ++ [y]) ++ l) by (rewrite <- app_assoc; reflexivity). replace (S (length pre)) with (length (pre ++ [y])) by (rewrite app_length; cbn; lia).
    assert (HL : forall j z, nth_error (pre ++ [y]) j = Some z -> (nth_error pre j = Some z /\ (j < length pre)%nat) \/ (j = length pre /\ z = y)).
    { intros j z Hj. destruct (lt_dec j (length pre)) as [L|L]; [left; rewrite nth_error_app1 in Hj by exact L; auto|]. right. rewrite nth_error_app2 in Hj by lia.
      destruct (j - length pre)%nat as [|k] eqn:K; cbn in Hj; [injection Hj as <-; split; [lia|reflexivity]|destruct k; discriminate]. }
    assert (BL : (b < length pre)%nat) by (apply nth_error_Some; congruence).
    destruct (Rlt_dec y x) as [L|L]; apply IH.
    + rewrite nth_error_app2, Nat.sub_diag by lia. reflexivity.
    + intros j z Hj. destruct (HL j z Hj) as [[E _]|[_ ->]]; [|lra]. pose proof (Hm j z E). lra.
    + intros j z Hlt Hj. destruct (HL j z Hj) as [[E _]|[-> _]]; [|lia]. pose proof (Hm j z E). lra.
    + rewrite nth_error_app1 by exact BL. exact Hb.
    + intros j z Hj. destruct (HL j z Hj) as [[E _]|[_ ->]]; [exact (Hm j z E)|lra].
    + intros j z Hlt Hj. destruct (HL j z Hj) as [[E _]|[-> _]]; [exact (Hf j z Hlt E)|lia].
Qed.
Lemma argmin_spec l : l <> [] -> exists i, argmin l = Ok i /\ first_min l i.
Proof.
  destruct l as [|x l]; [congruence|]. intros _. eexists. split; [reflexivity|]. apply (arg_best_min l [x] 0 x).
  - reflexivity. - intros [|[|j]] y H; cbn in H; try discriminate; injection H as <-; lra. - intros j y H. lia.
Qed.
Lemma arg_best_opp : forall l b x i, arg_best (fun y x => if Rlt_dec x y then true else false) b x i l = arg_best (fun y x => if Rlt_dec y x then true else false) b (- x) i (map Ropp l).
Proof.
  induction l as [|y l IH]; intros b x i; [reflexivity|]. cbn [arg_best map]. destruct (Rlt_dec x y), (Rlt_dec (- y) (- x)); try lra; apply IH.
Qed.
Lemma argmax_opp l : argmax l = argmin (map Ropp l).
Proof. destruct l as [|x l]; [reflexivity|]. cbn [argmax argmin map]. now rewrite arg_best_opp. Qed.
Lemma argmax_spec l : l <> [] -> exists i x, argmax l = Ok i /\ nth_error l i = Some x /\ (forall j y, nth_error l j = Some y -> y <= x) /\ forall j y, (j < i)%nat -> nth_error l j = Some y -> y < x.
Proof.
  intros H. destruct (argmin_spec (map Ropp l)) as (i & E & x & Hx & Hm & Hf); [destruct l; [congruence|discriminate]|]. rewrite <- argmax_opp in E. rewrite nth_error_map in Hx. destruct (nth_error l i) as [x'|] eqn:Hl; [|discriminate]. cbn in Hx. injection Hx as <-.
  exists i, x'. split; [exact E|]. split; [exact Hl|]. split.
  - intros j y Hj. assert (- x' <= - y) by (apply (Hm j); rewrite nth_error_map, Hj; reflexivity). lra.
  - intros j y Hlt Hj. assert (- x' < - y) by (apply (Hf j); [exact Hlt|]; rewrite nth_error_map, Hj; reflexivity). lra.
Qed.

(** ** frames of lines *)
Lemma perp_frame (a k : list R) : dim 3 a -> dim 3 k -> sprod a a = 1 -> sub k (vscale (sprod a k) a) <> [0; 0; 0] ->
  exists b c, normalize (sub k (vscale (sprod a k) a)) = Ok c /\ vcross c a = Ok b /\ right_handed a b c /\ sprod b k = 0 /\ 0 < sprod c k.
Proof.
  intros Da Dk Ua HN. destruct (dim3 _ Da) as (a0 & a1 & a2 & ->), (dim3 _ Dk) as (k0 & k1 & k2 & ->).
  set (d := sprod [a0; a1; a2] [k0; k1; k2]) in *. assert (Ed : d = a0 * k0 + a1 * k1 + a2 * k2) by (unfold d; comps; ring). clearbody d. comps.
  assert (EW : sub [k0; k1; k2] (vscale d [a0; a1; a2]) = [k0 - d * a0; k1 - d * a1; k2 - d * a2]) by reflexivity. rewrite EW in *.
  destruct (normalize_pos _ _ _ HN) as (t & Ht & Et & Ut). pose proof (sq3_pos _ _ _ HN) as P.
  assert (PE : a0 * (k0 - d * a0) + a1 * (k1 - d * a1) + a2 * (k2 - d * a2) = 0). { transitivity (a0 * k0 + a1 * k1 + a2 * k2 - d * (a0 * a0 + (a1 * a1 + (a2 * a2 + 0)))); [ring|]. rewrite Ua, <- Ed. ring. }
  eexists _, _. split; [exact Et|]. split; [reflexivity|]. split; [|split].
  - apply frame_from; [lra|exact Ut|]. transitivity (t * (a0 * (k0 - d * a0) + a1 * (k1 - d * a1) + a2 * (k2 - d * a2))); [ring|rewrite PE; ring].
  - comps. ring.
  - comps. replace (t * (k0 - d * a0) * k0 + (t * (k1 - d * a1) * k1 + (t * (k2 - d * a2) * k2 + 0)))
      with (t * ((k0 - d * a0) * (k0 - d * a0) + (k1 - d * a1) * (k1 - d * a1) + (k2 - d * a2) * (k2 - d * a2) + d * (a0 * (k0 - d * a0) + a1 * (k1 - d * a1) + a2 * (k2 - d * a2)))) by ring.
    rewrite PE. apply Rmult_lt_0_compat; lra.
Qed.
Lemma line_get coords nodes ec p0 pl : nodes_at coords nodes ec -> rect 3 coords -> nth_error ec 0 = Some p0 -> nth_error ec (length ec - 1) = Some pl ->
  dim 3 p0 /\ dim 3 pl /\ exists n0 nl, get nodes 0 = Ok n0 /\ get coords n0 = Ok p0 /\ get nodes (length nodes - 1) = Ok nl /\ get coords nl = Ok pl.
Proof.
  intros HN HR C0 CL. destruct (Forall2_nth_error_r _ _ _ _ _ HN C0) as (n0 & N0 & G0). destruct (Forall2_nth_error_r _ _ _ _ _ HN CL) as (nl & NL & GL).
  assert (L : length nodes = length ec) by (apply (Forall2_len _ _ _ HN)).
  split; [exact (rect_nth _ _ _ _ HR G0)|]. split; [exact (rect_nth _ _ _ _ HR GL)|]. exists n0, nl. rewrite L. repeat split; now apply get_Ok.
Qed.
Lemma sub_zero p q : dim 3 p -> dim 3 q -> sub p q = [0; 0; 0] -> p = q.
Proof. intros Hp Hq H. destruct (dim3 _ Hp) as (a & b & c & ->), (dim3 _ Hq) as (x & y & z & ->). cbn in H. injection H as H1 H2 H3. apply vec3; lra. Qed.
Lemma direction p q : dim 3 p -> dim 3 q -> p <> q -> exists a, normalize (sub q p) = Ok a /\ dim 3 a /\ sprod a a = 1 /\ along (sub q p) a.
Proof.
  intros Hp Hq H. assert (HN : sub q p <> [0; 0; 0]) by (intros E; apply H; symmetry; now apply sub_zero).
  destruct (dim3 _ (proj2 (vsub_dim3 q p Hq Hp))) as (x & y & z & E). rewrite E in *. destruct (normalize_pos _ _ _ HN) as (t & Ht & Et & Ut). eexists. split; [exact Et|]. split; [reflexivity|]. split; [comps; lra|].
  exists t. split; [exact Ht|]. split; [reflexivity|]. intros [|[|[|k]]]; unfold at_; cbn [nth]; try reflexivity. destruct k; ring.
Qed.
Lemma vdot_sprod a b : dim 3 a -> dim 3 b -> vdot a b = Ok (sprod a b).
Proof. intros Ha Hb. destruct (dim3 _ Ha) as (? & ? & ? & ->), (dim3 _ Hb) as (? & ? & ? & ->). rewrite vdot3. f_equal. comps. ring. Qed.

Lemma line_ref_one coords nodes ec p0 pl ref : nodes_at coords nodes ec -> rect 3 coords -> nth_error ec 0 = Some p0 -> nth_error ec (length ec - 1) = Some pl -> dim 3 ref -> ~ on_common_line [p0; pl; ref] ->
  exists a b c, frame_of_line_ref coords nodes ref = Ok [a; b; c] /\ right_handed a b c /\ along (sub pl p0) a /\ sprod b (sub ref p0) = 0 /\ 0 < sprod c (sub ref p0).
Proof.
  intros HN HR C0 CL HF HO. destruct (line_get _ _ _ _ _ HN HR C0 CL) as (D0 & DL & n0 & nl & E0 & G0 & EL & GL).
  rewrite <- cross_line in HO by assumption.
  assert (NE : p0 <> pl). { intros ->. apply HO. destruct (dim3 _ DL) as (x & y & z & ->), (dim3 _ HF) as (x' & y' & z' & ->). unfold cross3, sub. comps. apply vec3; ring. }
  destruct (direction p0 pl D0 DL NE) as (a & Ea & Da & Ua & Aa).
  assert (Dk : dim 3 (sub ref p0)) by (apply vsub_dim3; assumption).
  destruct (perp_frame a (sub ref p0) Da Dk Ua) as (b & c & Ec & Eb & RH & Pb & Pc).
  { intros Z. apply HO. destruct Aa as (t & Ht & LA & SA). set (k := sub ref p0) in *. set (u := sub pl p0) in *. assert (Du : dim 3 u) by (apply vsub_dim3; assumption).
    set (d := sprod a k) in *. clearbody d k u. destruct (dim3 _ Da) as (a0 & a1 & a2 & ->), (dim3 _ Dk) as (k0 & k1 & k2 & ->), (dim3 _ Du) as (u0 & u1 & u2 & ->). pose proof (SA 0%nat) as S0. pose proof (SA 1%nat) as S1. pose proof (SA 2%nat) as S2. unfold at_ in S0, S1, S2. cbn [nth] in S0, S1, S2.
    cbn [sub vscale combine map fst snd kmul NumR] in Z. injection Z as Z0 Z1 Z2. unfold cross3. comps. cbn in Z0, Z1, Z2.
    replace k0 with (d * (t * u0)) by (rewrite <- S0; lra). replace k1 with (d * (t * u1)) by (rewrite <- S1; lra). replace k2 with (d * (t * u2)) by (rewrite <- S2; lra). apply vec3; ring. }
  exists a, b, c. split; [|now split].
  unfold frame_of_line_ref. rewrite EL. cbn [bind]. rewrite GL. cbn [bind]. rewrite E0. cbn [bind]. rewrite G0. cbn [bind]. rewrite (proj1 (vsub_dim3 pl p0 DL D0)). cbn [bind]. rewrite Ea. cbn [bind].
  rewrite (proj1 (vsub_dim3 ref p0 HF D0)). cbn [bind]. rewrite (vdot_sprod a (sub ref p0) Da Dk). cbn [bind].
  rewrite (proj1 (vsub_dim3 (sub ref p0) (vscale (sprod a (sub ref p0)) a) Dk ltac:(unfold dim; rewrite vscale_length; exact Da))). cbn [bind]. rewrite Ec. cbn [bind]. rewrite Eb. reflexivity.
Qed.
Lemma unit_ijk i : (i < 3)%nat -> get ijk i = Ok (unit_vector i).
Proof. intros H. destruct i as [|[|[|i]]]; [reflexivity|reflexivity|reflexivity|lia]. Qed.
Lemma line_auto_one coords nodes ec p0 pl : nodes_at coords nodes ec -> rect 3 coords -> nth_error ec 0 = Some p0 -> nth_error ec (length ec - 1) = Some pl -> p0 <> pl ->
  exists a b c, frame_of_line_auto coords nodes = Ok [a; b; c] /\ right_handed a b c /\ along (sub pl p0) a /\ leans a b c.
Proof.
  intros HN HR C0 CL NE. destruct (line_get _ _ _ _ _ HN HR C0 CL) as (D0 & DL & n0 & nl & E0 & G0 & EL & GL).
  destruct (direction p0 pl D0 DL NE) as (a & Ea & Da & Ua & Aa).
  assert (EM : matvec ijk a = Ok a). { destruct (dim3 _ Da) as (x & y & z & ->). unfold matvec, ijk. cbn [mapM]. rewrite !vdot3. cbn [bind]. f_equal. apply vec3; ring. }
  destruct (argmin_spec (map Rabs a)) as (i & Ei & x & Hx & Hm & Hf); [destruct a; discriminate|].
  assert (Hi : (i < 3)%nat) by (apply nth_error_Some_lt in Hx; rewrite map_length, Da in Hx; exact Hx).
  assert (Hn : forall j, (j < 3)%nat -> nth_error (map Rabs a) j = Some (Rabs (at_ j a))).
  { intros j Hj. rewrite nth_error_map. destruct (nth_error_lt a j) as [y Hy]; [unfold dim in Da; lia|]. rewrite Hy. cbn. unfold at_. now rewrite (nth_error_nth a j 0 Hy). }
  assert (x = Rabs (at_ i a)) by (rewrite (Hn i Hi) in Hx; congruence). subst x.
  assert (De : dim 3 (unit_vector i)) by reflexivity.
  assert (Sa : sprod a (unit_vector i) = at_ i a). { rewrite sprod3 by assumption. destruct i as [|[|[|i]]]; [| | |lia]; unfold at_, unit_vector; cbn; ring. }
  assert (Sm : at_ i a * at_ i a < 1).
  { assert (Q : forall j, (j < 3)%nat -> at_ i a * at_ i a <= at_ j a * at_ j a). { intros j Hj. pose proof (Hm j _ (Hn j Hj)) as L. apply Rsqr_le_abs_1 in L. exact L. }
    rewrite sprod3 in Ua by assumption. pose proof (Q 0%nat ltac:(lia)). pose proof (Q 1%nat ltac:(lia)). pose proof (Q 2%nat ltac:(lia)). lra. }
  destruct (perp_frame a (unit_vector i) Da De Ua) as (b & c & Ec & Eb & RH & Pb & Pc).
  { rewrite Sa. intros Z. assert (at_ i (sub (unit_vector i) (vscale (at_ i a) a)) = 0) by (rewrite Z; destruct i as [|[|[|i]]]; [reflexivity|reflexivity|reflexivity|lia]).
    destruct (dim3 _ Da) as (a0 & a1 & a2 & ->). destruct i as [|[|[|i]]]; [| | |lia]; unfold at_, unit_vector in *; cbn in H; cbn [nth] in Sm; lra. }
  exists a, b, c. split; [|split; [exact RH|]; split; [exact Aa|]].
  - unfold frame_of_line_auto. rewrite EL. cbn [bind]. rewrite GL. cbn [bind]. rewrite E0. cbn [bind]. rewrite G0. cbn [bind]. rewrite (proj1 (vsub_dim3 pl p0 DL D0)). cbn [bind]. rewrite Ea. cbn [bind].
    rewrite EM. cbn [bind]. rewrite Ei. cbn [bind]. rewrite (unit_ijk i Hi). cbn [bind]. rewrite (vdot_sprod (unit_vector i) a De Da). cbn [bind].
    replace (sprod (unit_vector i) a) with (sprod a (unit_vector i)) by (rewrite !sprod3 by assumption; ring).
    rewrite (proj1 (vsub_dim3 (unit_vector i) (vscale (sprod a (unit_vector i)) a) De ltac:(unfold dim; rewrite vscale_length; exact Da))). cbn [bind]. rewrite Ec. cbn [bind]. rewrite Eb. reflexivity.
  - exists i. split; [exact Hi|]. split; [intros j Hj; exact (Hm j _ (Hn j Hj))|]. split; [intros j Hj; apply (Hf j _ Hj), Hn; lia|]. now split.
Qed.
