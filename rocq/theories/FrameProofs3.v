(** * Indices of point clouds: what goes wrong, sorting (lemmas) *)
From Coq Require Import Reals Lra Lia ZArith List Permutation Sorted.
From Verif Require Import BaseFacts.
From Verif Require Export FrameProofs2.
Import ListNotations.

Definition two_points : cloud := Cloud [(0, 0, 0); (1, 0, 0)]%R standard None.
Lemma getitem_negative_wrong : exists c a c', refers_to (array c) c /\ (- Z.of_nat (length (array c)) <= a < 0)%Z /\
  getitem c (KSlice (Some a) None None) = Ok c' /\ ~ refers_to (array c) c'.
Proof.
  exists two_points, (-1)%Z. eexists. split; [reflexivity|]. split; [cbn; lia|]. split; [cbv; reflexivity|].
  unfold refers_to. cbn [inds array]. intros L. inversion L as [|? ? ? ? _ L']. inversion L'.
Qed.
Lemma getitem_long_wrong : exists c b c', refers_to (array c) c /\ (0 <= b)%Z /\ getitem c (KSlice None (Some b) None) = Ok c' /\ ~ refers_to (array c) c'.
Proof.
  exists two_points, 3%Z. eexists. split; [reflexivity|]. split; [lia|]. split; [cbv; reflexivity|].
  unfold refers_to. cbn [inds array]. intros L. inversion L as [|? ? ? ? _ L']. inversion L' as [|? ? ? ? _ L'']. inversion L''.
Qed.
Lemma getitem_long_fails : exists c b, refers_to (array c) c /\ (0 <= b)%Z /\ inds c = Some [0; 1]%Z /\ getitem c (KSlice None (Some b) None) = Err IndexError.
Proof.
  exists (Cloud (array two_points) standard (Some [0; 1]%Z)), 3%Z. split; [|split; [lia|split; reflexivity]].
  unfold refers_to. cbn [inds array]. constructor; [exists 0%nat; split; [reflexivity|now left]|]. constructor; [exists 1%nat; split; [reflexivity|now left]|constructor].
Qed.
Lemma getitem_reverse_wrong : exists c c', refers_to (array c) c /\ getitem c (KSlice None None (Some (-1))%Z) = Ok c' /\ ~ refers_to (array c) c'.
Proof.
  exists two_points. eexists. split; [reflexivity|]. split; [cbv; reflexivity|]. unfold refers_to. cbn [inds array]. intros L. inversion L.
Qed.
Lemma getitem_mask_wrong : exists c m c', refers_to (array c) c /\ length m = length (array c) /\ getitem c (KMask m) = Ok c' /\ ~ refers_to (array c) c'.
Proof.
  exists two_points, [true; false]. eexists. split; [reflexivity|]. split; [reflexivity|]. split; [cbv; reflexivity|].
  unfold refers_to. cbn [inds array]. intros L. inversion L as [|? ? ? ? _ L']. inversion L'.
Qed.
Lemma getitem_mask_own c own m c' top : refers_to top c -> inds c = Some own -> getitem c (KMask m) = Ok c' -> refers_to top c'.
Proof.
  intros Hr Ho. unfold getitem. cbn [key_inds bind]. rewrite Ho. unfold refers_to in Hr. rewrite Ho in Hr. unfold np_getitem, masked.
  destruct (Nat.eqb (length own) (length m)); cbn [bind]; [|discriminate]. destruct (Nat.eqb (length (array c)) (length m)); cbn [bind]; [|discriminate].
  intros E. injection E as <-. unfold refers_to. cbn [inds array]. clear Ho. revert m. induction Hr as [|p i ps is Hpi _ IH]; intros [|b m]; [constructor..|].
  cbn [combine filter snd]. destruct b; cbn [map fst]; [constructor; [assumption|]|]; apply IH.
Qed.

Lemma getitem_mask_length c m top : refers_to top c -> length m <> length (array c) -> getitem c (KMask m) = Err IndexError.
Proof.
  intros Hr Hl. unfold getitem. cbn [key_inds bind]. unfold refers_to in Hr. unfold np_getitem, masked.
  destruct (inds c) as [own|].
  - assert (HL : length (array c) = length own) by (clear - Hr; induction Hr; cbn [length]; congruence). rewrite <- HL. destruct (Nat.eqb_spec (length (array c)) (length m)) as [E|E]; [now symmetry in E|reflexivity].
  - cbn [bind]. destruct (Nat.eqb_spec (length (array c)) (length m)) as [E|E]; [now symmetry in E|reflexivity].
Qed.

(** ** Sorting *)
Lemma insert_perm key i l : Permutation (i :: l) (insert_by key i l).
Proof. induction l as [|j t IH]; cbn; [reflexivity|]. destruct (Z.leb (key i) (key j)); [reflexivity|]. rewrite <- IH. apply perm_swap. Qed.
Lemma argsort_perm l : Permutation (seq 0 (length l)) (argsort l).
Proof. unfold argsort. induction (seq 0 (length l)) as [|i s IH]; cbn [fold_right]; [reflexivity|]. rewrite <- insert_perm. now constructor. Qed.
Lemma insert_sorted key i l : StronglySorted (fun a b => (key a <= key b)%Z) l -> StronglySorted (fun a b => (key a <= key b)%Z) (insert_by key i l).
Proof.
  induction 1 as [|j t Ht IH Hj]; cbn; [repeat constructor|]. destruct (Z.leb_spec (key i) (key j)).
  - constructor; [now constructor|]. constructor; [assumption|]. eapply Forall_impl; [|exact Hj]. cbn. intros; lia.
  - constructor; [assumption|]. eapply Permutation_Forall; [apply insert_perm|]. constructor; [lia|assumption].
Qed.
Lemma argsort_sorted l : StronglySorted (fun a b => (nth a l 0 <= nth b l 0)%Z) (argsort l).
Proof. unfold argsort. induction (seq 0 (length l)) as [|i s IH]; cbn [fold_right]; [constructor|]. now apply insert_sorted. Qed.
Lemma combine_map {A B C} (f : A -> B) (g : A -> C) l : combine (map f l) (map g l) = map (fun x => (f x, g x)) l.
Proof. induction l as [|x l IH]; [reflexivity|]. cbn. now rewrite IH. Qed.
Lemma map_nth_seq {A} (d : A) l : map (fun i => nth i l d) (seq 0 (length l)) = l.
Proof.
  apply (nth_ext _ _ d d); [now rewrite map_length, seq_length|]. intros n H. rewrite map_length, seq_length in H.
  rewrite (nth_indep _ d ((fun i => nth i l d) 0%nat)) by (now rewrite map_length, seq_length). rewrite (map_nth (fun i => nth i l d)), seq_nth by assumption. reflexivity.
Qed.
Lemma sort_indices_correct c l : inds c = Some l -> length l = length (array c) ->
  exists c' l', sort_indices c = Ok c' /\ inds c' = Some l' /\ cframe c' = cframe c /\ length l' = length (array c') /\
    Permutation (pairs_of c) (pairs_of c') /\ StronglySorted Z.le l'.
Proof.
  intros E Hl. unfold sort_indices. rewrite E. pose proof (argsort_perm l) as P. pose proof (argsort_sorted l) as S'.
  assert (Hin : forall i, In i (argsort l) -> (i < length l)%nat) by (intros i Hi; apply Permutation_sym in P; pose proof (Permutation_in _ P Hi) as Hs; apply in_seq in Hs; lia).
  set (d := (0, 0, 0)%R : vec).
  rewrite (mapM_map _ (fun i => nth i (array c) d)).
  2:{ intros i Hi. apply get_Ok. apply nth_error_nth'. rewrite <- Hl. now apply Hin. }
  rewrite (mapM_map _ (fun i => nth i l 0%Z)).
  2:{ intros i Hi. apply get_Ok. apply nth_error_nth'. now apply Hin. }
  cbn [bind]. eexists _, _. split; [reflexivity|]. split; [reflexivity|]. cbn [cframe array inds pairs_of]. split; [reflexivity|]. split; [now rewrite !map_length|]. split.
  - unfold pairs_of. rewrite E. cbn [inds array]. rewrite combine_map. rewrite <- P. rewrite <- combine_map, map_nth_seq, Hl, map_nth_seq. reflexivity.
  - clear -S'. induction S' as [|i s Hs IH Hi]; cbn [map]; constructor; [assumption|]. apply Forall_map. assumption.
Qed.
Lemma getitem_mask_flags c m c' : inds c = None -> getitem c (KMask m) = Ok c' -> length m = length (array c) /\ inds c' = Some (map Z.b2z m).
Proof.
  intros Hi. unfold getitem. cbn [key_inds bind]. rewrite Hi. cbn [bind np_getitem]. unfold masked. destruct (Nat.eqb_spec (length (array c)) (length m)) as [E|]; cbn [bind]; [|discriminate].
  intros H. injection H as <-. split; [now symmetry|]. cbn [inds]. f_equal.
Qed.
