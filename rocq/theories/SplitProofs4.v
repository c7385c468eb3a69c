(** * Proofs about [TrModel.v], part 8: tetrahedra cover solids, or fail to *)
From Coq Require Import Reals Lra.
From Verif Require Export SplitProofs.
Local Open Scope R_scope.
Arguments coord : simpl never.

Lemma local_unique u v w r s t :
  det_uvw u v w <> 0 -> (forall d, (d < 3)%nat -> r * u d + s * v d + t * w d = 0) -> r = 0 /\ s = 0 /\ t = 0.
Proof.
  intros HD H. pose proof (H 0%nat ltac:(lia)) as E0. pose proof (H 1%nat ltac:(lia)) as E1.
  pose proof (H 2%nat ltac:(lia)) as E2. clear H. unfold det_uvw in HD.
  generalize dependent (u 0%nat). generalize dependent (u 1%nat). generalize dependent (u 2%nat).
  generalize dependent (v 0%nat). generalize dependent (v 1%nat). generalize dependent (v 2%nat).
  generalize dependent (w 0%nat). generalize dependent (w 1%nat). generalize dependent (w 2%nat).
  intros w2 w1 w0 v2 v1 v0 u2 E2 u1 E1 u0 HD E0.
  set (D := u0 * (v1 * w2 - v2 * w1) - u1 * (v0 * w2 - v2 * w0) + u2 * (v0 * w1 - v1 * w0)) in *.
  assert (Hr : r * D = 0).
  { replace (r * D) with ((r * u0 + s * v0 + t * w0) * (v1 * w2 - v2 * w1)
      - (r * u1 + s * v1 + t * w1) * (v0 * w2 - v2 * w0) + (r * u2 + s * v2 + t * w2) * (v0 * w1 - v1 * w0)) by (unfold D; ring).
    rewrite E0, E1, E2; ring. }
  assert (Hs : s * D = 0).
  { replace (s * D) with (- (r * u0 + s * v0 + t * w0) * (u1 * w2 - u2 * w1)
      + (r * u1 + s * v1 + t * w1) * (u0 * w2 - u2 * w0) - (r * u2 + s * v2 + t * w2) * (u0 * w1 - u1 * w0)) by (unfold D; ring).
    rewrite E0, E1, E2; ring. }
  assert (Ht : t * D = 0).
  { replace (t * D) with ((r * u0 + s * v0 + t * w0) * (u1 * v2 - u2 * v1)
      - (r * u1 + s * v1 + t * w1) * (u0 * v2 - u2 * v0) + (r * u2 + s * v2 + t * w2) * (u0 * v1 - u1 * v0)) by (unfold D; ring).
    rewrite E0, E1, E2; ring. }
  apply Rmult_integral in Hr, Hs, Ht. repeat split; tauto.
Qed.

(** a point of a piece, in local coordinates *)
Lemma barycentric_local lcoords coords cell o u v w p q l0 l1 l2 l3 a b c e ra sa ta rb sb tb rc sc tc re se te :
  affine_at lcoords coords cell o u v w -> p = [a; b; c; e] ->
  nth_error lcoords a = Some [ra; sa; ta] -> nth_error lcoords b = Some [rb; sb; tb] ->
  nth_error lcoords c = Some [rc; sc; tc] -> nth_error lcoords e = Some [re; se; te] ->
  (barycentric coords (reorder p cell) q l0 l1 l2 l3 <->
   l0 + l1 + l2 + l3 = 1 /\
   forall d, (d < 3)%nat -> q d = image o u v w (l0 * ra + l1 * rb + l2 * rc + l3 * re)
     (l0 * sa + l1 * sb + l2 * sc + l3 * se) (l0 * ta + l1 * tb + l2 * tc + l3 * te) d).
Proof.
  intros Haff -> Ha Hb Hc He.
  destruct (Haff _ _ _ _ Ha) as [na [Na Ca]], (Haff _ _ _ _ Hb) as [nb [Nb Cb]],
           (Haff _ _ _ _ Hc) as [nc [Nc Cc]], (Haff _ _ _ _ He) as [ne [Ne Ce]].
  unfold barycentric, reorder. simpl map.
  rewrite (nth_error_nth _ _ _ Na), (nth_error_nth _ _ _ Nb), (nth_error_nth _ _ _ Nc), (nth_error_nth _ _ _ Ne).
  split.
  - intros [Hs [a' [b' [c' [e' [rest [[= <- <- <- <- <-] H]]]]]]]. split; auto. intros d Hd.
    rewrite (H d Hd), (Ca d Hd), (Cb d Hd), (Cc d Hd), (Ce d Hd). unfold image.
    replace l3 with (1 - l0 - l1 - l2) by lra. ring.
  - intros [Hs H]. split; auto. exists na, nb, nc, ne, []. split; auto. intros d Hd.
    rewrite (H d Hd), (Ca d Hd), (Cb d Hd), (Cc d Hd), (Ce d Hd). unfold image.
    replace l3 with (1 - l0 - l1 - l2) by lra. ring.
Qed.

Section H8.
  Context (coords : list (list R)) (cell : list nat) (o u v w : nat -> R).
  Context (Haff : affine_at lcoords_H8 coords cell o u v w).
  Ltac local_form a b c e q l0 l1 l2 l3 :=
    constr:(barycentric_local lcoords_H8 coords cell o u v w [a; b; c; e] q l0 l1 l2 l3
       a b c e _ _ _ _ _ _ _ _ _ _ _ _ Haff eq_refl eq_refl eq_refl eq_refl eq_refl).
  Ltac to_local :=
    match goal with
    | |- barycentric _ (reorder [?a; ?b; ?c; ?e] _) ?q ?l0 ?l1 ?l2 ?l3 =>
        let h := local_form a b c e q l0 l1 l2 l3 in apply (proj2 h)
    end.
  Ltac to_local_in H :=
    match type of H with
    | barycentric _ (reorder [?a; ?b; ?c; ?e] _) ?q ?l0 ?l1 ?l2 ?l3 =>
        let h := local_form a b c e q l0 l1 l2 l3 in apply (proj1 h) in H
    end.
  Ltac place l0 l1 l2 l3 :=
    exists l0, l1, l2, l3; split;
    [to_local;
     cbn [kofZ NumR]; split; [field|intros d Hd; unfold image; field]|];
    repeat split; lra.

  Lemma H8_cover r s t : cube r s t ->
    exists k p, nth_error path_H8_to_TET4 k = Some p /\ in_tet coords (reorder p cell) (image o u v w r s t).
  Proof.
    intros [Hr [Hs Ht]].
    destruct (Rle_dec 1 (r - s - t)) as [H1|H1].
    { exists 0%nat, [1;2;0;5]%nat. split; auto. place ((r-s-t-1)/2) ((1+s)/2) ((1-r)/2) ((1+t)/2). }
    destruct (Rle_dec 1 (- r + s - t)) as [H2|H2].
    { exists 1%nat, [3;0;2;7]%nat. split; auto. place ((-r+s-t-1)/2) ((1-s)/2) ((1+r)/2) ((1+t)/2). }
    destruct (Rle_dec 1 (- r - s + t)) as [H3|H3].
    { exists 2%nat, [5;4;7;0]%nat. split; auto. place ((1+r)/2) ((-r-s+t-1)/2) ((1+s)/2) ((1-t)/2). }
    destruct (Rle_dec 1 (r + s + t)) as [H4|H4].
    { exists 3%nat, [6;5;7;2]%nat. split; auto. place ((r+s+t-1)/2) ((1-s)/2) ((1-r)/2) ((1-t)/2). }
    exists 4%nat, [0;2;7;5]%nat. split; auto.
    place ((1-r-s-t)/4) ((1+r+s-t)/4) ((1-r+s+t)/4) ((1+r-s+t)/4).
  Qed.

  (** the region of the reference cube that piece [k] occupies *)
  Definition cut (k : nat) (r s t : R) : R :=
    nth k [r - s - t; - r + s - t; - r - s + t; r + s + t] 0.
  Definition region (k : nat) (r s t : R) : Prop :=
    cube r s t /\ match k with
    | 4%nat => forall j, (j < 4)%nat -> cut j r s t <= 1
    | _ => 1 <= cut k r s t
    end.
  Definition open_region (k : nat) (r s t : R) : Prop :=
    match k with
    | 4%nat => forall j, (j < 4)%nat -> cut j r s t < 1
    | _ => -1 < r < 1 /\ -1 < s < 1 /\ -1 < t < 1 /\ 1 < cut k r s t
    end.

  Ltac each_piece Hk :=
    repeat match type of Hk with
    | nth_error (?x :: _) ?k = Some _ => destruct k as [|k]; [injection Hk as <-|simpl in Hk]
    | nth_error [] ?k = _ => destruct k; discriminate
    end.

  Lemma H8_within k p q : nth_error path_H8_to_TET4 k = Some p -> in_tet coords (reorder p cell) q ->
    exists r s t, cube r s t /\ forall d, (d < 3)%nat -> q d = image o u v w r s t d.
  Proof.
    intros Hk [l0 [l1 [l2 [l3 [Hb Hl]]]]]. unfold path_H8_to_TET4 in Hk.
    each_piece Hk;
      to_local_in Hb;
      cbn [kofZ NumR] in Hb; destruct Hb as [Hs Hb]; do 3 eexists; (split; [|exact Hb]); unfold cube; lra.
  Qed.

  Lemma H8_open k p q : nth_error path_H8_to_TET4 k = Some p -> inside_tet coords (reorder p cell) q ->
    exists r s t, open_region k r s t /\ forall d, (d < 3)%nat -> q d = image o u v w r s t d.
  Proof.
    intros Hk [l0 [l1 [l2 [l3 [Hb Hl]]]]]. unfold path_H8_to_TET4 in Hk.
    each_piece Hk;
      to_local_in Hb;
      cbn [kofZ NumR] in Hb; destruct Hb as [Hs Hb]; do 3 eexists; (split; [|exact Hb]); unfold open_region, cut; simpl; try lra.
    intros j Hj. destruct j as [|[|[|[|j]]]]; [..|lia]; simpl; lra.
  Qed.

  Lemma H8_disjoint k k' p p' q : det_uvw u v w <> 0 ->
    nth_error path_H8_to_TET4 k = Some p -> nth_error path_H8_to_TET4 k' = Some p' ->
    inside_tet coords (reorder p cell) q -> inside_tet coords (reorder p' cell) q -> k = k'.
  Proof.
    intros HD Hk Hk' Hi Hi'.
    destruct (H8_open k p q Hk Hi) as [r [s [t [Ho Hq]]]], (H8_open k' p' q Hk' Hi') as [r' [s' [t' [Ho' Hq']]]].
    destruct (local_unique u v w (r - r') (s - s') (t - t') HD) as [E1 [E2 E3]].
    { intros d Hd. specialize (Hq d Hd). specialize (Hq' d Hd). unfold image in *. lra. }
    assert (r' = r) by lra. assert (s' = s) by lra. assert (t' = t) by lra. subst r' s' t'.
    clear - Ho Ho' Hk Hk'.
    assert (Hlt : (k < 5)%nat) by (apply nth_error_Some_lt in Hk; auto).
    assert (Hlt' : (k' < 5)%nat) by (apply nth_error_Some_lt in Hk'; auto).
    clear Hk Hk'.
    destruct k as [|[|[|[|[|k]]]]]; destruct k' as [|[|[|[|[|k']]]]]; try lia; try reflexivity; exfalso;
      unfold open_region, cut in *; simpl in *;
      try (pose proof (Ho 0%nat ltac:(lia)) as X0; pose proof (Ho 1%nat ltac:(lia)) as X1;
           pose proof (Ho 2%nat ltac:(lia)) as X2; pose proof (Ho 3%nat ltac:(lia)) as X3; simpl in *);
      try (pose proof (Ho' 0%nat ltac:(lia)) as X0; pose proof (Ho' 1%nat ltac:(lia)) as X1;
           pose proof (Ho' 2%nat ltac:(lia)) as X2; pose proof (Ho' 3%nat ltac:(lia)) as X3; simpl in *);
      lra.
  Qed.
End H8.
