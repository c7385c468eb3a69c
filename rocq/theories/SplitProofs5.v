(** * Proofs about [TrModel.v], part 9: quadratic solids split into linear ones *)
From Coq Require Import Reals Lra.
From Verif Require Export SplitProofs2 SplitProofs3 SplitProofs4.
Local Open Scope R_scope.
Arguments coord : simpl never.

Lemma det_mapped u v w U V W :
  det_uvw (direction u v w U) (direction u v w V) (direction u v w W)
  = det_uvw (fun d => nth d U 0) (fun d => nth d V 0) (fun d => nth d W 0) * det_uvw u v w.
Proof. unfold det_uvw, direction. ring. Qed.

(** a row of a path picks a cell that is affine again *)
Definition row_fits (L L' : list (list R)) (p : list nat) (m : lmap) : Prop :=
  let '(A, U, V, W) := m in
  Forall2 (fun q xi => exists r s t r' s' t', xi = [r; s; t] /\ nth_error L q = Some [r'; s'; t'] /\
     r' = nth 0 A 0 + r * nth 0 U 0 + s * nth 0 V 0 + t * nth 0 W 0 /\
     s' = nth 1 A 0 + r * nth 1 U 0 + s * nth 1 V 0 + t * nth 1 W 0 /\
     t' = nth 2 A 0 + r * nth 2 U 0 + s * nth 2 V 0 + t * nth 2 W 0) p L'.

Lemma row_mapped L L' coords cell o u v w p m :
  affine_at L coords cell o u v w -> row_fits L L' p m ->
  mapped_at L' coords (reorder p cell) o u v w m.
Proof.
  destruct m as [[[A U] V] W]. intros Haff Hf c r s t Hc.
  destruct (Forall2_nth_error_r _ _ _ _ _ Hf Hc) as [q [Hq [r0 [s0 [t0 [r' [s' [t' [[= <- <- <-] [HL [-> [-> ->]]]]]]]]]]]].
  destruct (Haff _ _ _ _ HL) as [n [Hn Hd]]. exists n. split.
  - unfold reorder. rewrite nth_error_map, Hq. simpl. f_equal. apply nth_error_nth; auto.
  - intros d Hdd. rewrite (Hd d Hdd). unfold image, direction. ring.
Qed.

Ltac fits :=
  repeat (apply Forall2_cons || apply Forall2_nil);
  (do 6 eexists; split; [reflexivity|]; split; [reflexivity|]; cbn [nth kofZ kdiv NumR]; repeat split; lra).

Lemma H27_rows : Forall2 (row_fits lcoords_H27 lcoords_H8) path_H27_to_H8 octants.
Proof. unfold path_H27_to_H8, octants, octant, half_axes. simpl map. repeat (apply Forall2_cons || apply Forall2_nil); fits. Qed.
Lemma W18_rows : Forall2 (row_fits lcoords_W18 lcoords_W6) path_W18_to_W6 subprisms.
Proof. unfold path_W18_to_W6, subprisms. repeat (apply Forall2_cons || apply Forall2_nil); fits. Qed.

Lemma lmap_det (m : lmap) : forall u v w, let '(A, U, V, W) := m in
  det_uvw (fun d => nth d U 0) (fun d => nth d V 0) (fun d => nth d W 0) = 1/8 ->
  det_uvw (direction u v w U) (direction u v w V) (direction u v w W) = det_uvw u v w / 8.
Proof. destruct m as [[[A U] V] W]. intros u v w H. rewrite det_mapped, H. field. Qed.

Definition lmap_eighth (m : lmap) : Prop := let '(A, U, V, W) := m in
  det_uvw (fun d => nth d U 0) (fun d => nth d V 0) (fun d => nth d W 0) = 1/8.
Lemma octants_eighth : Forall lmap_eighth octants.
Proof. unfold octants, octant, half_axes. simpl map. repeat (apply Forall_cons || apply Forall_nil); unfold lmap_eighth, det_uvw; simpl; lra. Qed.
Lemma subprisms_eighth : Forall lmap_eighth subprisms.
Proof. unfold subprisms. repeat (apply Forall_cons || apply Forall_nil); unfold lmap_eighth, det_uvw; simpl; lra. Qed.

Lemma cell_long L coords cell o u v w : affine_at L coords cell o u v w ->
  Forall (fun xi => exists r s t, xi = [r; s; t]) L -> (length L <= length cell)%nat.
Proof.
  intros Haff HL. destruct (le_lt_dec (length L) (length cell)) as [|Hlt]; auto. exfalso.
  destruct (nth_error_lt L (length cell) Hlt) as [xi Hxi]. rewrite Forall_forall in HL.
  destruct (HL xi (nth_error_In _ _ Hxi)) as [r [s [t ->]]].
  destruct (Haff _ _ _ _ Hxi) as [n [Hn _]]. apply nth_error_Some_lt in Hn. lia.
Qed.

Lemma F2_length {A B} (P : A -> B -> Prop) l l' : Forall2 P l l' -> length l = length l'.
Proof. induction 1; simpl; auto. Qed.

Section Pieces.
  Context (coords : list (list R)) (cell : list nat) (o u v w : nat -> R).
  Local Notation D := (det_uvw u v w).

  Lemma H27_pieces k p : affine_at lcoords_H27 coords cell o u v w -> nth_error path_H27_to_H8 k = Some p ->
    exists m, nth_error octants k = Some m /\ mapped_at lcoords_H8 coords (reorder p cell) o u v w m /\
      enclosed_volume hull_H8 coords (reorder p cell) = D.
  Proof.
    intros Haff Hk. destruct (Forall2_nth_error _ _ _ _ _ H27_rows Hk) as [m [Hm Hfit]].
    exists m. split; auto. pose proof (row_mapped _ _ _ _ _ _ _ _ _ _ Haff Hfit) as Hmap. split; auto.
    assert (H8 : lmap_eighth m) by (eapply Forall_forall; [apply octants_eighth|eapply nth_error_In; eauto]).
    assert (Hl : length (reorder p cell) = 8%nat).
    { unfold reorder. rewrite map_length. destruct m as [[[A U] V] W]. apply F2_length in Hfit. exact Hfit. }
    pose proof (lmap_det m u v w) as HD. destruct m as [[[A U] V] W]. simpl in Hmap, H8.
    rewrite (H8_det coords (reorder p cell) _ _ _ _ Hl Hmap), (HD H8). field.
  Qed.

  Lemma W18_pieces k p : affine_at lcoords_W18 coords cell o u v w -> nth_error path_W18_to_W6 k = Some p ->
    exists m, nth_error subprisms k = Some m /\ mapped_at lcoords_W6 coords (reorder p cell) o u v w m /\
      enclosed_volume hull_W6 coords (reorder p cell) = D / 8.
  Proof.
    intros Haff Hk. destruct (Forall2_nth_error _ _ _ _ _ W18_rows Hk) as [m [Hm Hfit]].
    exists m. split; auto. pose proof (row_mapped _ _ _ _ _ _ _ _ _ _ Haff Hfit) as Hmap. split; auto.
    assert (H8 : lmap_eighth m) by (eapply Forall_forall; [apply subprisms_eighth|eapply nth_error_In; eauto]).
    assert (Hl : length (reorder p cell) = 6%nat).
    { unfold reorder. rewrite map_length. destruct m as [[[A U] V] W]. apply F2_length in Hfit. exact Hfit. }
    pose proof (lmap_det m u v w) as HD. destruct m as [[[A U] V] W]. simpl in Hmap, H8.
    rewrite (W6_det coords (reorder p cell) _ _ _ _ Hl Hmap), (HD H8). field.
  Qed.
End Pieces.

(** ** The pieces fill the cell *)

Ltac put r s t := exists r, s, t; split; [repeat split; lra|
  intros d Hd; unfold image, direction; cbn [nth]; field].

Lemma octants_cover o u v w r s t : cube r s t ->
  exists k m, nth_error octants k = Some m /\ in_mapped cube o u v w m (image o u v w r s t).
Proof.
  intros [Hr [Hs Ht]].
  destruct (Rle_dec r 0), (Rle_dec s 0), (Rle_dec t 0).
  - exists 0%nat; eexists; split; [reflexivity|]. put (2*r+1) (2*s+1) (2*t+1).
  - exists 4%nat; eexists; split; [reflexivity|]. put (2*r+1) (2*s+1) (2*t-1).
  - exists 3%nat; eexists; split; [reflexivity|]. put (2*r+1) (2*s-1) (2*t+1).
  - exists 7%nat; eexists; split; [reflexivity|]. put (2*r+1) (2*s-1) (2*t-1).
  - exists 1%nat; eexists; split; [reflexivity|]. put (2*r-1) (2*s+1) (2*t+1).
  - exists 5%nat; eexists; split; [reflexivity|]. put (2*r-1) (2*s+1) (2*t-1).
  - exists 2%nat; eexists; split; [reflexivity|]. put (2*r-1) (2*s-1) (2*t+1).
  - exists 6%nat; eexists; split; [reflexivity|]. put (2*r-1) (2*s-1) (2*t-1).
Qed.

Lemma subprisms_cover o u v w r s t : prism r s t ->
  exists k m, nth_error subprisms k = Some m /\ in_mapped prism o u v w m (image o u v w r s t).
Proof.
  intros [Hr [Hs [Hrs Ht]]].
  destruct (Rle_dec t 0) as [Hn|Hn].
  - destruct (Rle_dec (1/2) r).
    { exists 4%nat; eexists; split; [reflexivity|]. put (2*r-1) (2*s) (2*t+1). }
    destruct (Rle_dec (1/2) s).
    { exists 6%nat; eexists; split; [reflexivity|]. put (2*r) (2*s-1) (2*t+1). }
    destruct (Rle_dec (r + s) (1/2)).
    { exists 7%nat; eexists; split; [reflexivity|]. put (1-2*s-2*r) (2*r) (2*t+1). }
    exists 5%nat; eexists; split; [reflexivity|]. put (1-2*s) (2*r+2*s-1) (2*t+1).
  - destruct (Rle_dec (1/2) r).
    { exists 0%nat; eexists; split; [reflexivity|]. put (2*r-1) (2*s) (2*t-1). }
    destruct (Rle_dec (1/2) s).
    { exists 1%nat; eexists; split; [reflexivity|]. put (2*r) (2*s-1) (2*t-1). }
    destruct (Rle_dec (r + s) (1/2)).
    { exists 3%nat; eexists; split; [reflexivity|]. put (2*r) (2*s) (2*t-1). }
    exists 2%nat; eexists; split; [reflexivity|]. put (1-2*s) (2*r+2*s-1) (2*t-1).
Qed.

Lemma same_point u v w r s t r' s' t' o q : det_uvw u v w <> 0 ->
  (forall d, (d < 3)%nat -> q d = image o u v w r s t d) ->
  (forall d, (d < 3)%nat -> q d = image o u v w r' s' t' d) -> r' = r /\ s' = s /\ t' = t.
Proof.
  intros HD H H'. destruct (local_unique u v w (r' - r) (s' - s) (t' - t) HD) as [A [B C]]; [|lra].
  intros d Hd. specialize (H d Hd). specialize (H' d Hd). unfold image in *. lra.
Qed.

Definition lpoint (m : lmap) (r s t : R) (d : nat) : R :=
  let '(A, U, V, W) := m in nth d A 0 + r * nth d U 0 + s * nth d V 0 + t * nth d W 0.
Lemma in_mapped_local S o u v w m q : in_mapped S o u v w m q ->
  exists r s t, S r s t /\ forall d, (d < 3)%nat -> q d = image o u v w (lpoint m r s t 0) (lpoint m r s t 1) (lpoint m r s t 2) d.
Proof.
  destruct m as [[[A U] V] W]. intros [r [s [t [HS H]]]]. exists r, s, t. split; auto. intros d Hd.
  rewrite (H d Hd). unfold image, direction, lpoint. ring.
Qed.

Ltac each_piece Hk :=
  repeat match type of Hk with
  | nth_error (?x :: _) ?k = Some _ => destruct k as [|k]; [injection Hk as <-|simpl in Hk]
  | nth_error [] ?k = _ => destruct k; discriminate
  end.

Lemma mapped_disjoint (S : R -> R -> R -> Prop) o u v w ms k k' m m' q : det_uvw u v w <> 0 ->
  (forall k k' m m' r s t r' s' t', nth_error ms k = Some m -> nth_error ms k' = Some m' -> S r s t -> S r' s' t' ->
     lpoint m r s t 0 = lpoint m' r' s' t' 0 -> lpoint m r s t 1 = lpoint m' r' s' t' 1 ->
     lpoint m r s t 2 = lpoint m' r' s' t' 2 -> k = k') ->
  nth_error ms k = Some m -> nth_error ms k' = Some m' ->
  in_mapped S o u v w m q -> in_mapped S o u v w m' q -> k = k'.
Proof.
  intros HD Hsep Hk Hk' H H'. apply in_mapped_local in H, H'.
  destruct H as [r [s [t [HS H]]]], H' as [r' [s' [t' [HS' H']]]].
  destruct (same_point u v w _ _ _ _ _ _ o q HD H' H) as [A [B C]].
  exact (Hsep k k' m m' r s t r' s' t' Hk Hk' HS HS' A B C).
Qed.

Lemma octants_disjoint o u v w k k' m m' q : det_uvw u v w <> 0 ->
  nth_error octants k = Some m -> nth_error octants k' = Some m' ->
  in_mapped open_cube o u v w m q -> in_mapped open_cube o u v w m' q -> k = k'.
Proof.
  intros HD. apply mapped_disjoint; auto. clear.
  intros k k' m m' r s t r' s' t' Hk Hk' [H1 [H2 H3]] [H1' [H2' H3']] E0 E1 E2.
  unfold octants, octant, half_axes in *; simpl map in *.
  each_piece Hk; each_piece Hk'; try reflexivity; exfalso; cbn [lpoint nth] in *; lra.
Qed.

Lemma subprisms_disjoint o u v w k k' m m' q : det_uvw u v w <> 0 ->
  nth_error subprisms k = Some m -> nth_error subprisms k' = Some m' ->
  in_mapped open_prism o u v w m q -> in_mapped open_prism o u v w m' q -> k = k'.
Proof.
  intros HD. apply mapped_disjoint; auto. clear.
  intros k k' m m' r s t r' s' t' Hk Hk' [H1 [H2 [H3 H4]]] [H1' [H2' [H3' H4']]] E0 E1 E2.
  unfold subprisms in *.
  each_piece Hk; each_piece Hk'; try reflexivity; exfalso; cbn [lpoint nth] in *; lra.
Qed.

(** pieces lie inside the cell *)
Lemma octants_within o u v w k m q : nth_error octants k = Some m -> in_mapped cube o u v w m q -> in_cell cube o u v w q.
Proof.
  intros Hk H. apply in_mapped_local in H. destruct H as [r [s [t [[H1 [H2 H3]] H]]]].
  unfold octants, octant, half_axes in *; simpl map in *.
  each_piece Hk; (do 3 eexists; split; [|exact H]); cbn [lpoint nth] in *; unfold cube; lra.
Qed.
Lemma subprisms_within o u v w k m q : nth_error subprisms k = Some m -> in_mapped prism o u v w m q -> in_cell prism o u v w q.
Proof.
  intros Hk H. apply in_mapped_local in H. destruct H as [r [s [t [[H1 [H2 [H3 H4]]] H]]]].
  unfold subprisms in *.
  each_piece Hk; (do 3 eexists; split; [|exact H]); cbn [lpoint nth] in *; unfold prism; lra.
Qed.
