(** * Proofs about [ProbeModel.v]: points in hexahedra and hits *)
From Coq Require Import Reals List Lia Lra Permutation.
From Verif Require Import BaseFacts TrModel TrProofs ShapeProofs3 ShapeProofs4 LocSpec LocProofs9 ClassProofs.
From Verif Require Export ProbeProofs2.
Import ListNotations.
Local Open Scope R_scope.

(** ** Tables of hits *)
Lemma in_cube_iff tol x : in_cube tol x = true <-> cube tol x.
Proof.
  unfold in_cube, cube. rewrite Bool.andb_true_iff, !forallb_forall, Forall_forall. split.
  - intros [H1 H2] c Hc. split.
    + specialize (H1 c Hc). unfold kltb in H1. cbn in H1. destruct (Rlt_dec (-1 - tol) c); [assumption|discriminate H1].
    + specialize (H2 c Hc). unfold kltb in H2. cbn in H2. destruct (Rlt_dec c (1 + tol)); [assumption|discriminate H2].
  - intros H. split; intros c Hc; destruct (H c Hc); unfold kltb; cbn.
    + destruct (Rlt_dec (-1 - tol) c); [reflexivity|contradiction].
    + destruct (Rlt_dec c (1 + tol)); [reflexivity|contradiction].
Qed.
Definition entry (x : list (list (list R))) (j i : nat) : list R := nth i (nth j x []) [].
Lemma entry_get x nP j i : Forall (fun row => length row = nP) x -> (j < length x)%nat -> (i < nP)%nat -> get2 x j i = Ok (entry x j i).
Proof.
  intros H Hj Hi. rewrite Forall_forall in H. unfold get2, entry.
  rewrite (proj2 (get_Ok x j (nth j x []))) by (apply nth_error_nth'; exact Hj). cbn [bind].
  apply get_Ok, nth_error_nth'. rewrite (H (nth j x [])); [exact Hi|now apply nth_In].
Qed.
Lemma ncols_rows (x : list (list (list R))) nP : x <> [] -> Forall (fun row => length row = nP) x -> ncols x = nP.
Proof. intros H1 H2. destruct x as [|r x]; [contradiction|]. exact (Forall_inv H2). Qed.
Lemma nth_error_map_seq {A} (f : nat -> A) n i y : nth_error (map f (seq 0 n)) i = Some y <-> (i < n)%nat /\ y = f i.
Proof.
  rewrite nth_error_map. split.
  - intros H. destruct (nth_error (seq 0 n) i) as [z|] eqn:E; [|discriminate H]. injection H as <-.
    assert (Hi : (i < n)%nat) by (rewrite <- (seq_length n 0); apply nth_error_Some; rewrite E; discriminate).
    split; [exact Hi|]. f_equal. apply nth_error_nth with (d := 0%nat) in E. rewrite seq_nth in E by exact Hi. lia.
  - intros [Hi ->]. rewrite (nth_error_nth' (seq 0 n) 0%nat) by (rewrite seq_length; exact Hi). rewrite seq_nth by exact Hi. reflexivity.
Qed.
Lemma pip_table : forall x nP tol,
  x <> [] -> Forall (fun row => length row = nP) x ->
  exists t, pip_H8_bulk x tol = Ok t /\ length t = nP /\ Forall (fun r => length r = length x) t /\
    forall i j, hit t i j <-> exists row c, nth_error x j = Some row /\ nth_error row i = Some c /\ cube tol c.
Proof.
  intros x nP tol Hx H. exists (map (fun i => map (fun j => in_cube tol (entry x j i)) (seq 0 (length x))) (seq 0 nP)).
  split; [|split; [now rewrite map_length, seq_length|split]].
  - unfold pip_H8_bulk. rewrite (ncols_rows x nP Hx H). apply mapM_map. intros i Hi. apply in_seq in Hi. apply mapM_map. intros j Hj. apply in_seq in Hj.
    rewrite (entry_get x nP) by (try assumption; lia). reflexivity.
  - apply Forall_forall. intros r Hr. apply in_map_iff in Hr as (i & <- & _). now rewrite map_length, seq_length.
  - intros i j. unfold hit. split.
    + intros (row & Hrow & Hj). apply nth_error_map_seq in Hrow as [Hi ->]. apply nth_error_map_seq in Hj as [Hj E].
      exists (nth j x []), (entry x j i). split; [now apply nth_error_nth'|]. split; [|now apply in_cube_iff].
      apply nth_error_nth'. rewrite Forall_forall in H. rewrite (H (nth j x [])); [exact Hi|now apply nth_In].
    + intros (row & c & Hrow & Hc & Hq). assert (Hj : (j < length x)%nat) by (apply nth_error_Some; rewrite Hrow; discriminate).
      assert (Hi : (i < nP)%nat).
      { rewrite Forall_forall in H. rewrite <- (H row) by (now apply nth_error_In in Hrow). apply nth_error_Some. rewrite Hc. discriminate. }
      eexists. split; [apply nth_error_map_seq; split; [exact Hi|reflexivity]|]. apply nth_error_map_seq. split; [exact Hj|]. symmetry. apply in_cube_iff.
      unfold entry. rewrite (nth_error_nth x j [] Hrow), (nth_error_nth row i [] Hc). exact Hq.
Qed.
Lemma pip_knn_table : forall x nP knn nK tol,
  x <> [] -> Forall (fun row => length row = nP) x -> knn <> [] -> Forall (fun row => length row = nK) knn -> (nK <= length x)%nat ->
  exists t, pip_H8_bulk_knn x knn tol = Ok t /\ length t = nP /\ Forall (fun r => length r = length x) t /\
    forall i k, hit t i k <-> (k < nK)%nat /\ exists row c, nth_error x k = Some row /\ nth_error row i = Some c /\ cube tol c.
Proof.
  intros x nP knn nK tol Hx H Hk HK HnK. exists (map (fun i => map (fun j => in_cube tol (entry x j i)) (seq 0 nK) ++ repeat false (length x - nK)) (seq 0 nP)).
  split; [|split; [now rewrite map_length, seq_length|split]].
  - unfold pip_H8_bulk_knn. replace (ncols knn) with nK by (destruct knn as [|r knn]; [contradiction|symmetry; exact (Forall_inv HK)]).
    rewrite (proj2 (Nat.leb_le _ _) HnK). cbn [guard bind]. rewrite (ncols_rows x nP Hx H). apply mapM_map. intros i Hi. apply in_seq in Hi.
    rewrite (mapM_map _ (fun j => in_cube tol (entry x j i))).
    + reflexivity.
    + intros j Hj. apply in_seq in Hj. rewrite (entry_get x nP) by (try assumption; lia). reflexivity.
  - apply Forall_forall. intros r Hr. apply in_map_iff in Hr as (i & <- & _). rewrite app_length, map_length, seq_length, repeat_length. lia.
  - intros i k. unfold hit. split.
    + intros (row & Hrow & Hj). apply nth_error_map_seq in Hrow as [Hi ->]. destruct (Nat.lt_ge_cases k nK) as [L|L].
      * rewrite nth_error_app1 in Hj by (rewrite map_length, seq_length; exact L). apply nth_error_map_seq in Hj as [_ E].
        split; [exact L|]. exists (nth k x []), (entry x k i). split; [apply nth_error_nth'; lia|]. split; [|now apply in_cube_iff].
        apply nth_error_nth'. rewrite Forall_forall in H. rewrite (H (nth k x [])); [exact Hi|apply nth_In; lia].
      * rewrite nth_error_app2 in Hj by (rewrite map_length, seq_length; exact L). apply nth_error_In, repeat_spec in Hj. discriminate Hj.
    + intros (L & row & c & Hrow & Hc & Hq).
      assert (Hi : (i < nP)%nat).
      { rewrite Forall_forall in H. rewrite <- (H row) by (now apply nth_error_In in Hrow). apply nth_error_Some. rewrite Hc. discriminate. }
      eexists. split; [apply nth_error_map_seq; split; [exact Hi|reflexivity]|]. rewrite nth_error_app1 by (rewrite map_length, seq_length; exact L).
      apply nth_error_map_seq. split; [exact L|]. symmetry. apply in_cube_iff.
      unfold entry. rewrite (nth_error_nth x k [] Hrow), (nth_error_nth row i [] Hc). exact Hq.
Qed.
Lemma knn_narrow : forall x knn tol, (length x < ncols knn)%nat -> pip_H8_bulk_knn x knn tol = Err IndexError.
Proof.
  intros x knn tol H. unfold pip_H8_bulk_knn. rewrite (proj2 (Nat.leb_gt _ _) H). reflexivity.
Qed.

(** ** First hits *)
Lemma hits_steps indices : forall its r, (forall i, In i its -> (i < length indices)%nat) -> (forall v, In v indices -> (v < length r)%nat) ->
  exists r', foldM (fun r i => do v <- get indices i; set r v i) its r = Ok r' /\ length r' = length r /\
    forall v, (exists i, In i its /\ nth_error indices i = Some v /\ nth_error r' v = Some i) \/
              ((forall i, In i its -> nth_error indices i <> Some v) /\ nth_error r' v = nth_error r v).
Proof.
  induction its as [|i its IH]; intros r Hi Hv.
  - exists r. split; [reflexivity|]. split; [reflexivity|]. intros v. right. split; [intros i []|reflexivity].
  - assert (L : (i < length indices)%nat) by (apply Hi; left; reflexivity). pose proof (nth_error_nth' indices 0%nat L) as E.
    set (v0 := nth i indices 0%nat) in *. cbn [foldM]. rewrite (proj2 (get_Ok _ _ _) E). cbn [bind].
    assert (L0 : (v0 < length r)%nat) by (apply Hv; now apply nth_error_In in E).
    destruct (proj2 (set_Ok_iff r v0 i) L0) as [r1 E1]. rewrite E1. cbn [bind].
    pose proof (set_length _ _ _ _ E1) as LL.
    destruct (IH r1) as (r' & Er & Lr & Hr).
    + intros k Hk. apply Hi. right. exact Hk.
    + intros v Hin. rewrite LL. apply Hv, Hin.
    + exists r'. split; [exact Er|]. split; [lia|]. intros v. destruct (Hr v) as [(k & Hk & Hkv & Hrv)|[Hno Heq]].
      * left. exists k. split; [right; exact Hk|]. split; assumption.
      * destruct (Nat.eq_dec v v0) as [->|Hne].
        -- left. exists i. split; [left; reflexivity|]. split; [exact E|]. rewrite Heq. rewrite (set_nth_error _ _ _ _ v0 E1). rewrite Nat.eqb_refl. reflexivity.
        -- right. split.
           ++ intros k [<-|Hk]; [|now apply Hno]. intros X. rewrite E in X. injection X as X. congruence.
           ++ rewrite Heq. rewrite (set_nth_error _ _ _ _ v E1). destruct (Nat.eqb_spec v v0); [contradiction|reflexivity].
Qed.
Lemma hits_1d : forall its indices,
  indices <> [] -> Permutation (seq 0 (length indices)) its ->
  exists r m, find_first_hits_1d_in its indices = Ok r /\ In m indices /\ Forall (fun v => (v <= m)%nat) indices /\ length r = S m /\
    (forall v, In v indices -> exists i, nth_error r v = Some i /\ nth_error indices i = Some v) /\
    (forall v, (v <= m)%nat -> ~ In v indices -> nth_error r v = Some 0%nat) /\
    (NoDup indices -> forall i v, nth_error indices i = Some v -> nth_error r v = Some i).
Proof.
  intros its indices Hne HP. destruct (np_max_ok indices Hne) as [m Em]. pose proof (proj1 (np_max_spec _ _) Em) as [Hm Hmax].
  destruct (hits_steps indices its (zeros 0%nat (m + 1))) as (r & Er & Lr & Hr).
  - intros i Hi. apply (Permutation_in _ (Permutation_sym HP)) in Hi. apply in_seq in Hi. lia.
  - intros v Hv. unfold zeros. rewrite repeat_length. specialize (Hmax v Hv). lia.
  - assert (Lz : length r = S m) by (rewrite Lr; unfold zeros; rewrite repeat_length; lia).
    assert (Hin : forall v, In v indices -> exists i, nth_error r v = Some i /\ nth_error indices i = Some v).
    { intros v Hv. destruct (Hr v) as [(i & _ & Hi & Hv')|[Hno _]]; [exists i; split; assumption|].
      apply In_nth_error in Hv as [i Hi]. exfalso. apply (Hno i); [|exact Hi]. apply (Permutation_in _ HP), in_seq.
      split; [lia|]. cbn. apply nth_error_Some. rewrite Hi. discriminate. }
    exists r, m. split; [unfold find_first_hits_1d_in; rewrite Em; exact Er|]. split; [exact Hm|]. split; [now apply Forall_forall|]. split; [exact Lz|].
    split; [exact Hin|]. split.
    + intros v Hv Hno. destruct (Hr v) as [(i & _ & Hi & _)|[_ E]]; [exfalso; apply Hno; now apply nth_error_In in Hi|].
      rewrite E. unfold zeros. apply nth_error_repeat. lia.
    + intros Hnd i v Hi. destruct (Hin v) as (k & Hk & Hkv); [now apply nth_error_In in Hi|]. rewrite Hk. f_equal.
      apply (proj1 (NoDup_nth_error indices) Hnd); [apply nth_error_Some; rewrite Hkv; discriminate|congruence].
Qed.
Lemma hits_last : forall indices v i,
  nth_error indices i = Some v -> (forall k, (i < k)%nat -> nth_error indices k <> Some v) ->
  exists r, find_first_hits_1d indices = Ok r /\ nth_error r v = Some i.
Proof.
  intros indices v i Hi Hlast. assert (Hne : indices <> []) by (intros ->; destruct i; discriminate Hi).
  destruct (np_max_ok indices Hne) as [m Em]. pose proof (proj1 (np_max_spec _ _) Em) as [Hm Hmax].
  assert (L : (i < length indices)%nat) by (apply nth_error_Some; rewrite Hi; discriminate).
  unfold find_first_hits_1d, find_first_hits_1d_in. rewrite Em. cbn [bind].
  assert (Eseq : seq 0 (length indices) = seq 0 i ++ i :: seq (S i) (length indices - S i)).
  { replace (length indices) with (i + (1 + (length indices - S i)))%nat at 1 by lia. rewrite !seq_app. cbn [Nat.add seq app]. now rewrite Nat.add_1_r. }
  rewrite Eseq, foldM_app.
  destruct (hits_steps indices (seq 0 i) (zeros 0%nat (m + 1))) as (r0 & E0 & L0 & _).
  { intros k Hk. apply in_seq in Hk. lia. }
  { intros w Hw. unfold zeros. rewrite repeat_length. specialize (Hmax w Hw). lia. }
  assert (LZ : length r0 = S m) by (rewrite L0; unfold zeros; rewrite repeat_length; lia).
  rewrite E0. cbn [bind foldM]. rewrite (proj2 (get_Ok _ _ _) Hi). cbn [bind].
  destruct (proj2 (set_Ok_iff r0 v i)) as [r1 Es]; [specialize (Hmax v (nth_error_In _ _ Hi)); lia|]. rewrite Es. cbn [bind]. pose proof (set_length _ _ _ _ Es) as L1.
  destruct (hits_steps indices (seq (S i) (length indices - S i)) r1) as (r & E & Lr & Hr).
  { intros k Hk. apply in_seq in Hk. lia. }
  { intros w Hw. specialize (Hmax w Hw). lia. }
  exists r. split; [exact E|]. destruct (Hr v) as [(k & Hk & Hkv & _)|[_ Eq]].
  - exfalso. apply in_seq in Hk. apply (Hlast k); [lia|exact Hkv].
  - rewrite Eq. rewrite (set_nth_error _ _ _ _ v Es), Nat.eqb_refl. reflexivity.
Qed.
Lemma hits_empty : forall its, find_first_hits_1d_in its [] = Err ValueError.
Proof. reflexivity. Qed.
