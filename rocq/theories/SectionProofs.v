(** * Proofs about [SectionModel.v], part 1: the size of the elements and the parameters of sections *)
From Coq Require Import Reals Lra Lia List String Psatz ZArith Bool.
From Verif Require Import BaseFacts SectionModel SectionSpec TriProofs.
Import ListNotations.
Local Open Scope R_scope.

Lemma fold_min_le l x : fold_left Rmin l x <= x /\ forall y, In y l -> fold_left Rmin l x <= y.
Proof.
  revert x. induction l as [|a l IH]; intros x; cbn [fold_left]; [split; [lra|intros y []]|]. destruct (IH (Rmin x a)) as [H1 H2]. split.
  - eapply Rle_trans; [exact H1|apply Rmin_l].
  - intros y [<-|Hy]; [eapply Rle_trans; [exact H1|apply Rmin_r]|now apply H2].
Qed.
Lemma fold_min_in l x : In (fold_left Rmin l x) (x :: l).
Proof.
  revert x. induction l as [|a l IH]; intros x; cbn [fold_left]; [now left|]. destruct (IH (Rmin x a)) as [E|E]; [|right; now right].
  rewrite <- E. unfold Rmin. destruct (Rle_dec x a); [now left|right; now left].
Qed.
Lemma smallest_spec l m : smallest l = Some m -> In m l /\ forall y, In y l -> m <= y.
Proof.
  destruct l as [|x l]; [discriminate|]. cbn. intros H. injection H as <-. split; [apply fold_min_in|]. intros y [<-|Hy]; [exact (proj1 (fold_min_le l x))|exact (proj2 (fold_min_le l x) y Hy)].
Qed.
Lemma smallest_none l : smallest l = None <-> l = [].
Proof. destruct l; cbn; split; congruence. Qed.

(** which limits there are *)
Lemma mesh_size_value : forall A l a n s, mesh_size A l a n = Ok s ->
  match s with
  | Some m => (forall x, l = Some (Float x) -> m <= x * x * sqrt 3 / 4) /\ (forall x, a = Some (Float x) -> m <= x) /\ (forall k, n = Some (Int k) -> m <= A / IZR k) /\
      ((exists x, l = Some (Float x) /\ m = x * x * sqrt 3 / 4) \/ (a = Some (Float m)) \/ (exists k, n = Some (Int k) /\ m = A / IZR k))
  | None => (forall x, l <> Some (Float x)) /\ (forall x, a <> Some (Float x)) /\ (forall k, n <> Some (Int k))
  end.
Proof.
  intros A l a n s H. unfold mesh_size in H.
  assert (HN : exists ns, size_of_number A n = Ok ns /\ s = smallest (size_of_edge l ++ size_of_area a ++ ns)%list) by (destruct (size_of_number A n) as [ns|]; [cbn [bind] in H; exists ns; split; [reflexivity|congruence]|discriminate]).
  destruct HN as (ns & EN & ->). clear H.
  assert (HE : forall k, n = Some (Int k) -> ns = [A / IZR k]) by (intros k ->; cbn in EN; destruct (Z.eqb k 0); congruence).
  assert (HE' : ns <> [] -> exists k, n = Some (Int k)) by (destruct n as [[k|x]|]; cbn in EN; [eauto|injection EN as <-; congruence..]).
  destruct (smallest _) as [m|] eqn:ES.
  - apply smallest_spec in ES. destruct ES as [HI HL]. rewrite !in_app_iff in HI.
    split; [intros x ->; apply HL; rewrite in_app_iff; left; now left|]. split; [intros x ->; apply HL; rewrite !in_app_iff; right; left; now left|].
    split; [intros k Hk; apply HL; rewrite !in_app_iff; right; right; rewrite (HE k Hk); now left|].
    destruct HI as [HI|[HI|HI]].
    + left. destruct l as [[z|x]|]; cbn in HI; [contradiction|destruct HI as [<-|[]]; eauto|contradiction].
    + right. left. destruct a as [[z|x]|]; cbn in HI; [contradiction|destruct HI as [<-|[]]; reflexivity|contradiction].
    + right. right. destruct (HE' ltac:(intros ->; contradiction)) as [k Hk]. rewrite (HE k Hk) in HI. destruct HI as [<-|[]]. eauto.
  - apply (proj1 (smallest_none _)) in ES. apply app_eq_nil in ES. destruct ES as [E1 E2]. apply app_eq_nil in E2. destruct E2 as [E2 E3].
    split; [intros x ->; discriminate|]. split; [intros x ->; discriminate|]. intros k Hk. rewrite (HE k Hk) in E3. discriminate.
Qed.
Lemma mesh_size_total : forall A l a n, n <> Some (Int 0%Z) -> exists s, mesh_size A l a n = Ok s.
Proof.
  intros A l a n H. unfold mesh_size. assert (HN : exists ns, size_of_number A n = Ok ns).
  { destruct n as [[k|x]|]; cbn; eauto. destruct (Z.eqb k 0) eqn:E; [apply Z.eqb_eq in E; subst; congruence|eauto]. }
  destruct HN as [ns ->]. cbn [bind]. eauto.
Qed.

(** areas of equilateral triangles *)
Lemma sqrt3_pos : 0 < sqrt 3. Proof. apply sqrt_lt_R0. lra. Qed.
Lemma flat2 (a : list R) : dim 2 a -> exists x y, a = [x; y].
Proof. destruct a as [|x [|y [|]]]; intros H; try discriminate. eauto. Qed.
Lemma equilateral_area t e : flat_triangle t -> equilateral t -> In e (edges_of t) -> area_of t = e * e * sqrt 3 / 4.
Proof.
  destruct t as [[a b] c]. intros (Ha & Hb & Hc) HE He.
  assert (H1 : dist a b = e) by (apply HE; [now left|exact He]). assert (H2 : dist b c = e) by (apply HE; [right; now left|exact He]). assert (H3 : dist c a = e) by (apply HE; [right; right; now left|exact He]).
  destruct (flat2 a Ha) as (ax & ay & ->). destruct (flat2 b Hb) as (bx & by_ & ->). destruct (flat2 c Hc) as (cx & cy & ->).
  assert (P : 0 <= e) by (rewrite <- H1; apply sqrt_pos).
  assert (SQ : forall u v, 0 <= u -> sqrt u = v -> u = v * v) by (intros u v Hu <-; now rewrite sqrt_sqrt).
  assert (PD : forall x y x' y', 0 <= dist2 [x; y] [x'; y']) by (intros x y x' y'; unfold dist2; cbn [combine map fold_right fst snd]; pose proof (Rle_0_sqr (x - x')) as U; pose proof (Rle_0_sqr (y - y')) as V; unfold Rsqr in U, V; lra).
  apply (SQ _ _ (PD _ _ _ _)) in H1. apply (SQ _ _ (PD _ _ _ _)) in H2. apply (SQ _ _ (PD _ _ _ _)) in H3. unfold dist2 in H1, H2, H3. cbn in H1, H2, H3.
  cbn [area_of]. unfold signed_area, px, py, at_. cbn [nth].
  set (D := (bx - ax) * (cy - ay) - (cx - ax) * (by_ - ay)).
  assert (ED : D * D = 3 / 4 * (e * e) * (e * e)).
  { assert (Q1 : (bx - ax) * (bx - ax) + (by_ - ay) * (by_ - ay) = e * e) by nra. assert (Q2 : (cx - ax) * (cx - ax) + (cy - ay) * (cy - ay) = e * e) by nra.
    assert (Q3 : (bx - ax) * (cx - ax) + (by_ - ay) * (cy - ay) = e * e / 2) by nra.
    unfold D. replace (((bx - ax) * (cy - ay) - (cx - ax) * (by_ - ay)) * ((bx - ax) * (cy - ay) - (cx - ax) * (by_ - ay)))
      with (((bx - ax) * (bx - ax) + (by_ - ay) * (by_ - ay)) * ((cx - ax) * (cx - ax) + (cy - ay) * (cy - ay)) - ((bx - ax) * (cx - ax) + (by_ - ay) * (cy - ay)) * ((bx - ax) * (cx - ax) + (by_ - ay) * (cy - ay))) by ring.
    rewrite Q1, Q2, Q3. field. }
  assert (EA : Rabs D = e * e * sqrt 3 / 2).
  { pose proof sqrt3_pos as P3. assert (S3 : sqrt 3 * sqrt 3 = 3) by (apply sqrt_sqrt; lra).
    assert (PN : 0 <= e * e * sqrt 3 / 2) by (assert (0 <= e * e) by nra; nra).
    apply Rsqr_inj; [apply Rabs_pos|exact PN|]. rewrite <- Rsqr_abs. unfold Rsqr. rewrite ED. replace (e * e * sqrt 3 / 2 * (e * e * sqrt 3 / 2)) with (e * e * (e * e) * (sqrt 3 * sqrt 3) / 4) by field. rewrite S3. field. }
  unfold Rdiv at 1. rewrite Rabs_mult, EA, (Rabs_right (/ 2)) by lra. field.
Qed.

Lemma mesh_size_limits : forall A l a n s ts, mesh_size A l a n = Ok s -> elements A s ts ->
  (forall x, a = Some (Float x) -> Forall (fun t => area_of t <= x) ts) /\
  (forall x, l = Some (Float x) -> 0 <= x -> forall t e, In t ts -> equilateral t -> In e (edges_of t) -> e <= x).
Proof.
  intros A l a n s ts H (HF & _ & HS). pose proof (mesh_size_value A l a n s H) as HV. split.
  - intros x ->. destruct s as [m|]; [|destruct HV as (_ & HV & _); now destruct (HV x)]. destruct HV as (_ & HV & _). specialize (HV x eq_refl).
    eapply Forall_impl; [|exact (HS m eq_refl)]. cbn. intros t Ht. lra.
  - intros x -> Hx t e Ht HE He. destruct s as [m|]; [|destruct HV as (HV & _); now destruct (HV x)]. destruct HV as (HV & _). specialize (HV x eq_refl).
    pose proof (proj1 (Forall_forall _ _) (HS m eq_refl) t Ht) as HA. cbn in HA. pose proof (proj1 (Forall_forall _ _) HF t Ht) as Hf. cbn in Hf. rewrite (equilateral_area t e Hf HE He) in HA. pose proof sqrt3_pos as P3.
    destruct (Rle_lt_dec e x) as [|Hlt]; [assumption|]. exfalso. assert (x * x < e * e) by nra. assert (x * x * sqrt 3 < e * e * sqrt 3) by (apply Rmult_lt_compat_r; assumption). lra.
Qed.
Lemma rsum_le_const (A : Type) (f : A -> R) m l : Forall (fun t => f t <= m) l -> rsum (map f l) <= INR (List.length l) * m /\ (rsum (map f l) = INR (List.length l) * m -> Forall (fun t => f t = m) l).
Proof.
  induction 1 as [|x l Hx HF [IH1 IH2]]; [cbn; split; [lra|constructor]|]. change (List.length (x :: l)) with (S (List.length l)). rewrite S_INR. cbn [map rsum fold_right]. change (fold_right Rplus 0 (map f l)) with (rsum (map f l)). split; [lra|].
  intros E. constructor; [lra|apply IH2; lra].
Qed.
(** the number of elements is at least the greatest number asked for *)
Lemma number_is_least : forall A l a n s ts, 0 < A -> (0 < n)%Z -> mesh_size A l a (Some (Int n)) = Ok s -> elements A s ts ->
  (n < Z.of_nat (List.length ts))%Z \/ (n = Z.of_nat (List.length ts) /\ Forall (fun t => area_of t = A / IZR n) ts).
Proof.
  intros A l a n s ts HA Hn H (HF & HS & HL). pose proof (mesh_size_value _ _ _ _ _ H) as HV. destruct s as [m|]; [|destruct HV as (_ & _ & HV); now destruct (HV n)].
  destruct HV as (_ & _ & HV & _). specialize (HV n eq_refl). assert (Pn : 0 < IZR n) by (apply IZR_lt; lia).
  assert (HL' : Forall (fun t => area_of t <= A / IZR n) ts) by (eapply Forall_impl; [|exact (HL m eq_refl)]; cbn; intros t Ht; lra).
  destruct (rsum_le_const _ area_of (A / IZR n) ts HL') as [H1 H2]. rewrite HS in H1, H2. rewrite INR_IZR_INZ in H1, H2.
  assert (HC : IZR n <= IZR (Z.of_nat (List.length ts))).
  { assert (IZR n * (A / IZR n) <= IZR (Z.of_nat (List.length ts)) * (A / IZR n)) by (replace (IZR n * (A / IZR n)) with A by (field; lra); exact H1).
    apply Rmult_le_reg_r with (A / IZR n); [apply Rdiv_lt_0_compat; assumption|assumption]. }
  apply le_IZR in HC. destruct (Z.eq_dec n (Z.of_nat (List.length ts))) as [E|E]; [right|left; lia]. split; [exact E|]. apply H2. rewrite <- E. field. lra.
Qed.
(** no edge length is respected *)
Lemma edge_not_limited : forall A x a n s M, 0 < x -> mesh_size A (Some (Float x)) a n = Ok (Some s) -> 0 < s -> exists t, flat_triangle t /\ 0 < area_of t <= s /\ exists e, In e (edges_of t) /\ M < e.
Proof.
  intros A x a n s M Hx H Hs. set (L := Rabs M + 1). assert (PL : 0 < L) by (pose proof (Rabs_pos M); unfold L; lra).
  exists ([0; 0], [L; 0], [0; s / L]). split; [repeat split|]. split.
  - cbn [area_of]. unfold signed_area, px, py, at_. cbn [nth]. replace (((L - 0) * (s / L - 0) - (0 - 0) * (0 - 0)) / 2) with (s / 2) by (field; lra). rewrite Rabs_right; lra.
  - exists (dist [0; 0] [L; 0]). split; [now left|]. unfold dist, dist2. cbn. replace ((0 - L) * (0 - L) + ((0 - 0) * (0 - 0) + 0)) with (L * L) by ring. rewrite sqrt_square by lra. unfold L. pose proof (Rle_abs M). lra.
Qed.
(** limits of the wrong type are dropped *)
Lemma wrong_type_dropped : forall A z z' x, mesh_size A (Some (Int z)) (Some (Int z')) (Some (Float x)) = Ok None.
Proof. reflexivity. Qed.
Lemma number_zero : forall A l a, mesh_size A l a (Some (Int 0%Z)) = Err ZeroDivisionError.
Proof. reflexivity. Qed.
