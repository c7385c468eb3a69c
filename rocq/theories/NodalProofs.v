(** * Proofs about [NodalModel.v]: nodal distribution factors *)
From Coq Require Import Reals Lra Lia List Permutation.
From Verif Require Import NodalModel NodalSpec BaseFacts FillFacts TopoProofs TrModel TrProofs ShapeProofs2 ShapeProofs3 ShapeProofs4.
Import ListNotations.
Local Open Scope R_scope.

Lemma rsum_cons x l : rsum (x :: l) = x + rsum l.
Proof. reflexivity. Qed.

(** ** writes given by a function of the index *)
Lemma run_writes_fun {A} (g : nat -> A) inds a : (forall i, In i inds -> (i < length a)%nat) ->
  exists r, run_writes (map (fun i => (i, g i)) inds) a = Ok r /\ length r = length a /\
    forall m, nth_error r m = if existsb (Nat.eqb m) inds then (if Nat.ltb m (length a) then Some (g m) else None) else nth_error a m.
Proof.
  intros H. destruct (proj2 (run_writes_in_range (map (fun i => (i, g i)) inds) a)) as [r Hr].
  { intros i v Hi. apply in_map_iff in Hi. destruct Hi as (i' & E & Hi). injection E as <- <-. auto. }
  exists r. split; [exact Hr|]. pose proof (run_writes_length _ _ _ Hr) as HL. split; [exact HL|]. intros m.
  assert (Hc : consistent (map (fun i => (i, g i)) inds)).
  { intros i v v' H1 H2. apply in_map_iff in H1, H2. destruct H1 as (? & E1 & _), H2 as (? & E2 & _). congruence. }
  destruct (existsb (Nat.eqb m) inds) eqn:E.
  - apply existsb_exists in E. destruct E as (x & Hx & E). apply Nat.eqb_eq in E. subst x.
    replace (Nat.ltb m (length a)) with true by (symmetry; apply Nat.ltb_lt; auto).
    apply (run_writes_written _ _ _ _ _ Hr Hc). apply in_map_iff. exists m. auto.
  - apply (run_writes_untouched _ _ _ _ Hr). intros v Hv. apply in_map_iff in Hv. destruct Hv as (i & Ei & Hi). injection Ei as -> <-.
    assert (existsb (Nat.eqb m) inds = true) by (apply existsb_exists; exists m; split; [assumption|apply Nat.eqb_refl]). congruence.
Qed.

Lemma add_at_value a inds v : (forall i, In i inds -> (i < length a)%nat) ->
  exists r, add_at a inds v = Ok r /\ length r = length a /\
    forall m x, nth_error a m = Some x -> nth_error r m = Some (if existsb (Nat.eqb m) inds then x + v else x).
Proof.
  intros H. unfold add_at.
  assert (E : take a inds = Ok (map (fun i => nth i a 0) inds)).
  { unfold take. apply mapM_map. intros i Hi. destruct (nth_error_lt a i (H i Hi)) as [x Hx]. rewrite (nth_error_nth a i 0 Hx). now apply get_Ok. }
  rewrite E. cbn [bind]. rewrite map_map.
  replace (combine inds (map (fun x => nth x a 0 + v) inds)) with (map (fun i => (i, nth i a 0 + v)) inds)
    by (clear; induction inds; cbn; congruence).
  destruct (run_writes_fun (fun i => nth i a 0 + v) inds a H) as (r & Hr & HL & HV). exists r. split; [exact Hr|]. split; [exact HL|].
  intros m x Hx. rewrite HV. destruct (existsb (Nat.eqb m) inds); [|assumption].
  replace (Nat.ltb m (length a)) with true by (symmetry; apply Nat.ltb_lt; eapply nth_error_Some_lt; eauto).
  now rewrite (nth_error_nth a m 0 Hx).
Qed.

Lemma nodal_weights_loop : forall rows w k a, length w = (k + length rows)%nat ->
  (forall r i, In r rows -> In i r -> (i < length a)%nat) ->
  exists r, foldM (fun a ir => do wi <- get w (fst ir); add_at a (snd ir) wi) (enum_from k rows) a = Ok r /\ length r = length a /\
    forall m x, nth_error a m = Some x -> nth_error r m = Some (x + total_weight rows (skipn k w) m).
Proof.
  induction rows as [|row rows IH]; intros w k a HL HI; cbn [enum_from foldM].
  - exists a. split; [reflexivity|]. split; [reflexivity|]. intros m x Hx. rewrite Hx. f_equal. unfold total_weight. cbn. lra.
  - cbn [fst snd]. cbn [length] in HL. destruct (nth_error_lt w k) as [wk Hk]; [lia|].
    rewrite (proj2 (get_Ok w k wk) Hk). cbn [bind].
    destruct (add_at_value a row wk) as (a' & E & L & V); [intros i Hi; apply (HI row); [now left|assumption]|]. rewrite E. cbn [bind].
    destruct (IH w (S k) a') as (r & Er & Lr & Vr); [lia|intros r i Hr Hi; rewrite L; apply (HI r); [now right|assumption]|].
    exists r. split; [exact Er|]. split; [congruence|]. intros m x Hx. rewrite (Vr m _ (V m x Hx)). f_equal.
    assert (Es : skipn k w = wk :: skipn (S k) w).
    { clear - Hk. revert k Hk. induction w as [|y w IH]; intros [|k] Hk; cbn in *; try discriminate; [congruence|]. rewrite (IH k Hk). reflexivity. }
    rewrite Es. unfold total_weight. cbn [combine filter fst]. destruct (existsb (Nat.eqb m) row); cbn [map snd]; rewrite ?rsum_cons; lra.
Qed.
Lemma nodal_weights_value rows w n : length w = length rows -> (forall r i, In r rows -> In i r -> (i < n)%nat) ->
  exists nw, nodal_weights rows w n = Ok nw /\ forall m, (m < n)%nat -> nth_error nw m = Some (total_weight rows w m).
Proof.
  intros HL HI. destruct (nodal_weights_loop rows w 0 (zeros 0 n)) as (r & E & _ & V); [exact HL|intros; unfold zeros; rewrite repeat_length; eauto|].
  exists r. split; [exact E|]. intros m Hm. rewrite (V m 0); [f_equal; cbn [skipn]; lra|]. now apply nth_error_repeat.
Qed.

(** ** the factors *)
Definition share_table (st : R -> R) (topo : list (list nat)) (w : list R) : list (list R) :=
  map (fun rw => map (fun n => st (snd rw / total_weight topo w n)) (fst rw)) (combine topo w).
Lemma table_shape (g : R -> nat -> R) : forall t w, length w = length t -> map (@length R) (map (fun rw => map (g (snd rw)) (fst rw)) (combine t w)) = map (@length nat) t.
Proof.
  induction t as [|r t IH]; intros [|x w] H; try discriminate; [reflexivity|]. cbn [combine map fst snd]. rewrite map_length. f_equal. apply IH. now injection H.
Qed.
Lemma share_table_shape st topo w : length w = length topo -> shape2 (share_table st topo w) = shape2 topo.
Proof. exact (table_shape (fun x n => st (x / total_weight topo w n)) topo w). Qed.
Lemma share_table_entry st topo w i j n wi : entry topo i j n -> nth_error w i = Some wi ->
  cell_entry (share_table st topo w) i j (st (wi / total_weight topo w n)).
Proof.
  intros (r & Hr & Hj) Hw. unfold cell_entry, share_table. rewrite nth_error_map.
  assert (E : nth_error (combine topo w) i = Some (r, wi)).
  { generalize dependent w. revert i Hr. clear Hj. induction topo as [|r0 t IH]; intros [|i] Hr [|x w] Hw; try discriminate; cbn in *; [congruence|]. now apply IH. }
  rewrite E. cbn [option_map]. eexists. split; [reflexivity|]. cbn [fst snd]. rewrite nth_error_map, Hj. reflexivity.
Qed.
Lemma share_table_get2o st topo w i j x : length w = length topo -> get2o (share_table st topo w) i j = Some x ->
  exists n wi, entry topo i j n /\ nth_error w i = Some wi /\ x = st (wi / total_weight topo w n).
Proof.
  intros HL H.
  assert (exists y, get2o topo i j = Some y) as [n Hn].
  { apply get2o_shape. rewrite <- (share_table_shape st topo w HL). apply get2o_shape. eauto. }
  assert (Hen : entry topo i j n). { unfold get2o in Hn. destruct (nth_error topo i) as [r|] eqn:E; [|discriminate]. exists r. auto. }
  destruct Hen as (r & Hr & Hj). destruct (nth_error_lt w i) as [wi Hwi]; [rewrite HL; eapply nth_error_Some_lt; eauto|].
  exists n, wi. split; [exists r; auto|]. split; [assumption|].
  destruct (share_table_entry st topo w i j n wi (ex_intro _ r (conj Hr Hj)) Hwi) as (r' & Hr' & Hj'). unfold get2o in H. rewrite Hr' in H. congruence.
Qed.
Lemma max_bound topo m : np_max (concat topo) = Ok m -> forall r i, In r topo -> In i r -> (i < m + 1)%nat.
Proof. intros H r i Hr Hi. apply np_max_spec in H. destruct H as [_ H]. assert (i <= m)%nat; [|lia]. apply H. apply in_concat. eauto. Qed.
Lemma total_used topo i j n : entry topo i j n -> In n (concat topo).
Proof. intros (r & Hr & Hj). apply in_concat. exists r. split; eapply nth_error_In; eauto. Qed.

Lemma ndf_dense_value : forall es dt topo w, rect (ncols topo) topo -> concat topo <> [] -> length w = length topo ->
  (forall n, used topo n -> total_weight topo w n <> 0) -> Permutation (entries topo) es ->
  ndf_dense_in es dt topo w = Ok (share_table (store dt) topo w).
Proof.
  intros es dt topo w HR HN HL HT HP. unfold ndf_dense_in. destruct (np_max_ok _ HN) as [m Hm]. rewrite Hm. cbn [bind].
  pose proof (max_bound _ _ Hm) as HB. destruct (nodal_weights_value topo w (m + 1) HL HB) as (nw & En & Vn). rewrite En. cbn [bind].
  set (f := fun e : nat * nat * nat => do wi <- get w (fst (fst e)); do s <- get nw (snd e); do q <- div wi s; Ok (fst e, store dt q)).
  assert (HF : forall i j n, entry topo i j n -> exists wi, nth_error w i = Some wi /\ f (i, j, n) = Ok (i, j, store dt (wi / total_weight topo w n))).
  { intros i j n He. destruct He as (r & Hr & Hj). destruct (nth_error_lt w i) as [wi Hwi]; [rewrite HL; eapply nth_error_Some_lt; eauto|]. exists wi. split; [assumption|].
    unfold f. cbn [fst snd]. rewrite (proj2 (get_Ok _ _ _) Hwi). cbn [bind].
    assert (Hm' : (n < m + 1)%nat) by (apply (HB r); eapply nth_error_In; eauto). rewrite (proj2 (get_Ok _ _ _) (Vn n Hm')). cbn [bind].
    unfold div. destruct (Req_EM_T (total_weight topo w n) 0) as [E|_]; [exfalso; apply (HT n); [exists i, j, r; auto|assumption]|]. reflexivity. }
  assert (HE : forall i j n, In (i, j, n) es <-> entry topo i j n).
  { intros i j n. split.
    - intros H. apply Permutation_sym in HP. apply (Permutation_in _ HP) in H. apply entries_in in H. unfold get2o in H. destruct (nth_error topo i) as [r|] eqn:E; [|discriminate]. exists r. auto.
    - intros (r & Hr & Hj). apply (Permutation_in _ HP). apply entries_in. unfold get2o. now rewrite Hr. }
  destruct (mapM_total f es) as [ws Hws]. { intros ((i & j) & n) Hin. apply HE in Hin. destruct (HF i j n Hin) as (wi & _ & E). eauto. }
  rewrite Hws. cbn [bind]. apply run_writes2_fill.
  - rewrite shape2_zeros2, share_table_shape by assumption. symmetry. now apply shape2_rect.
  - intros i j x Hin. apply (mapM_In _ _ _ _ Hws) in Hin. destruct Hin as (((i' & j') & n) & Hin & E). apply HE in Hin. destruct (HF _ _ _ Hin) as (wi & Hwi & E').
    rewrite E' in E. injection E as -> -> <-. destruct (share_table_entry (store dt) topo w i j n wi Hin Hwi) as (r & Hr & Hj). unfold get2o. now rewrite Hr.
  - intros i j x Hx. destruct (share_table_get2o _ _ _ _ _ _ HL Hx) as (n & wi & He & Hwi & ->). destruct (HF i j n He) as (wi' & Hwi' & E).
    exists (store dt (wi' / total_weight topo w n)). apply (mapM_In _ _ _ _ Hws). exists (i, j, n). split; [now apply HE|exact E].
Qed.

Lemma csr_rows_of {A} (t : list (list A)) : csr_rows (indptr (map (@length A) t)) (concat t) = Ok t.
Proof.
  unfold csr_rows. rewrite indptr_length, map_length. cbn [Nat.sub]. rewrite Nat.sub_0_r. apply mapM_Ok.
  assert (G : forall k, (k <= length t)%nat -> Forall2 (fun i r => csr_row (indptr (map (@length A) t)) (concat t) i = Ok r) (seq k (length t - k)) (skipn k t)).
  { intros k Hk. remember (length t - k)%nat as m eqn:E. revert k Hk E. induction m as [|m IH]; intros k Hk E.
    - rewrite skipn_all2 by lia. constructor.
    - destruct (nth_error_lt t k) as [r Hr]; [lia|].
      assert (Es : skipn k t = r :: skipn (S k) t).
      { clear - Hr. revert k Hr. induction t as [|y t IH]; intros [|k] Hk; cbn in *; try discriminate; [congruence|]. rewrite (IH k Hk). reflexivity. }
      rewrite Es. cbn [seq]. constructor; [|apply IH; lia]. unfold csr_row, get. rewrite !indptr_nth by (rewrite map_length; lia). cbn [bind].
      f_equal. now apply slice_concat. }
  specialize (G 0%nat (Nat.le_0_l _)). rewrite Nat.sub_0_r in G. exact G.
Qed.
Lemma csr_row_of {A} (t : list (list A)) i r : nth_error t i = Some r -> csr_row (indptr (map (@length A) t)) (concat t) i = Ok r.
Proof.
  intros H. pose proof (csr_rows_of t) as E. unfold csr_rows in E.
  destruct (mapM_nth_error_r _ _ _ _ _ E H) as (x & Hx & Hr). apply nth_error_seq_some in Hx. destruct Hx as [-> _]. exact Hr.
Qed.
(** position of an entry in the concatenation *)
Lemma concat_entry {A} (t : list (list A)) i j r x : nth_error t i = Some r -> nth_error r j = Some x ->
  nth_error (concat t) (np_sum (firstn i (map (@length A) t)) + j) = Some x.
Proof.
  revert i. induction t as [|r0 t IH]; intros [|i] Hr Hj; try discriminate; cbn [map firstn concat].
  - injection Hr as ->. rewrite np_sum_nil. cbn [Nat.add]. rewrite nth_error_app1 by (eapply nth_error_Some_lt; eauto). exact Hj.
  - rewrite np_sum_cons, nth_error_app2 by lia. replace (length r0 + np_sum (firstn i (map (@length A) t)) + j - length r0)%nat with (np_sum (firstn i (map (@length A) t)) + j)%nat by lia. now apply IH.
Qed.
Lemma concat_entry_inv {A} (t : list (list A)) k x : nth_error (concat t) k = Some x ->
  exists i j r, nth_error t i = Some r /\ nth_error r j = Some x /\ k = (np_sum (firstn i (map (@length A) t)) + j)%nat.
Proof.
  revert k. induction t as [|r0 t IH]; intros k H; [destruct k; discriminate|]. cbn [concat] in H.
  destruct (le_lt_dec (length r0) k) as [Hk|Hk].
  - rewrite nth_error_app2 in H by assumption. destruct (IH _ H) as (i & j & r & Hr & Hj & E). exists (S i), j, r. split; [exact Hr|]. split; [exact Hj|]. cbn [map firstn]. rewrite np_sum_cons. lia.
  - rewrite nth_error_app1 in H by assumption. exists 0%nat, k, r0. split; [reflexivity|]. split; [exact H|]. cbn [map firstn]. rewrite np_sum_nil. lia.
Qed.

Lemma ndf_csr_value : forall es dt topo w, concat topo <> [] -> length w = length topo ->
  (forall n, used topo n -> total_weight topo w n <> 0) -> Permutation (entries topo) es ->
  ndf_csr_in es dt (indptr (map (@length nat) topo)) (concat topo) w = Ok (concat (share_table (store dt) topo w)).
Proof.
  intros es dt topo w HN HL HT HP. unfold ndf_csr_in. destruct (np_max_ok _ HN) as [m Hm]. rewrite Hm. cbn [bind]. rewrite csr_rows_of. cbn [bind].
  pose proof (max_bound _ _ Hm) as HB. destruct (nodal_weights_value topo w (m + 1) HL HB) as (nw & En & Vn). rewrite En. cbn [bind].
  set (ptr := indptr (map (@length nat) topo)). set (start := fun i => np_sum (firstn i (map (@length nat) topo))).
  assert (Hst : start = fun i => np_sum (firstn i (map (@length R) (share_table (store dt) topo w)))).
  { unfold start. change (map (@length R) (share_table (store dt) topo w)) with (shape2 (share_table (store dt) topo w)). now rewrite share_table_shape. }
  set (f := fun e : nat * nat * nat => do lo <- get ptr (fst (fst e)); do wi <- get w (fst (fst e));
                          do n <- get (concat topo) (lo + snd (fst e)); do s <- get nw n; do q <- div wi s;
                          Ok ((lo + snd (fst e))%nat, store dt q)).
  assert (HF : forall i j n, entry topo i j n -> exists wi, nth_error w i = Some wi /\ f (i, j, n) = Ok ((start i + j)%nat, store dt (wi / total_weight topo w n))).
  { intros i j n He. destruct He as (r & Hr & Hj). destruct (nth_error_lt w i) as [wi Hwi]; [rewrite HL; eapply nth_error_Some_lt; eauto|]. exists wi. split; [assumption|].
    unfold f. cbn [fst snd]. assert (Hp : get ptr i = Ok (start i)). { apply get_Ok. apply indptr_nth. rewrite map_length. apply Nat.lt_le_incl. eapply nth_error_Some_lt; eauto. }
    rewrite Hp. cbn [bind]. rewrite (proj2 (get_Ok _ _ _) Hwi). cbn [bind]. assert (Hd : get (concat topo) (start i + j) = Ok n) by (apply get_Ok; exact (concat_entry _ _ _ _ _ Hr Hj)). rewrite Hd. cbn [bind].
    assert (Hm' : (n < m + 1)%nat) by (apply (HB r); eapply nth_error_In; eauto). rewrite (proj2 (get_Ok _ _ _) (Vn n Hm')). cbn [bind].
    unfold div. destruct (Req_EM_T (total_weight topo w n) 0) as [E|_]; [exfalso; apply (HT n); [exists i, j, r; auto|assumption]|]. reflexivity. }
  assert (HE : forall i j n, In (i, j, n) es <-> entry topo i j n).
  { intros i j n. split.
    - intros H. apply Permutation_sym in HP. apply (Permutation_in _ HP) in H. apply entries_in in H. unfold get2o in H. destruct (nth_error topo i) as [r|] eqn:E; [|discriminate]. exists r. auto.
    - intros (r & Hr & Hj). apply (Permutation_in _ HP). apply entries_in. unfold get2o. now rewrite Hr. }
  destruct (mapM_total f es) as [ws Hws]. { intros ((i & j) & n) Hin. apply HE in Hin. destruct (HF i j n Hin) as (wi & _ & E). eauto. }
  rewrite Hws. cbn [bind]. apply run_writes_fill.
  - unfold zeros. rewrite repeat_length, !length_concat. f_equal. change (shape2 topo = shape2 (share_table (store dt) topo w)). now rewrite share_table_shape.
  - intros k x Hin. apply (mapM_In _ _ _ _ Hws) in Hin. destruct Hin as (((i & j) & n) & Hin & E). apply HE in Hin. destruct (HF _ _ _ Hin) as (wi & Hwi & E').
    rewrite E' in E. injection E as <- <-. destruct (share_table_entry (store dt) topo w i j n wi Hin Hwi) as (r & Hr & Hj). rewrite Hst. now apply concat_entry with r.
  - intros k x Hx. destruct (concat_entry_inv _ _ _ Hx) as (i & j & r & Hr & Hj & ->).
    destruct (share_table_get2o (store dt) topo w i j x HL) as (n & wi & He & Hwi & ->); [unfold get2o; now rewrite Hr|]. destruct (HF i j n He) as (wi' & Hwi' & E).
    exists (store dt (wi' / total_weight topo w n)). apply (mapM_In _ _ _ _ Hws). exists (i, j, n). split; [now apply HE|]. rewrite E. now rewrite Hst.
Qed.

(** ** sums at the nodes *)
Definition count (n : nat) (row : list nat) : R := INR (count_occ Nat.eq_dec row n).
Lemma combine_app {A B} (a a' : list A) (b b' : list B) : length a = length b -> combine (a ++ a') (b ++ b') = combine a b ++ combine a' b'.
Proof. revert b. induction a; intros [|y b] H; try discriminate; cbn; auto. f_equal. apply IHa. now injection H. Qed.
Lemma at_node_cons {A} (row : list nat) topo (v : list A) rows n : length row = length v ->
  at_node (row :: topo) (v :: rows) n = map snd (filter (fun kx => Nat.eqb (fst kx) n) (combine row v)) ++ at_node topo rows n.
Proof. intros H. unfold at_node. cbn [concat]. rewrite combine_app by assumption. now rewrite filter_app, map_app. Qed.
Lemma share_row_sum row (g : nat -> R) n :
  rsum (map snd (filter (fun kx => Nat.eqb (fst kx) n) (combine row (map g row)))) = count n row * g n.
Proof.
  unfold count. induction row as [|m row IH]; [cbn; lra|]. cbn [map combine filter fst count_occ].
  destruct (Nat.eqb_spec m n) as [->|E].
  - cbn [map snd]. rewrite rsum_cons, IH. destruct (Nat.eq_dec n n) as [_|F]; [|easy]. rewrite S_INR. lra.
  - rewrite IH. destruct (Nat.eq_dec m n); [easy|reflexivity].
Qed.
Lemma share_sum : forall topo w (T : nat -> R) n, length w = length topo ->
  rsum (at_node topo (map (fun rw => map (fun m => snd rw / T m) (fst rw)) (combine topo w)) n)
  = rsum (map (fun rw => count n (fst rw) * (snd rw / T n)) (combine topo w)).
Proof.
  induction topo as [|row topo IH]; intros [|x w] T n HL; try discriminate; [reflexivity|]. cbn [combine map fst snd].
  rewrite at_node_cons by (now rewrite map_length). rewrite rsum_app, IH by (now injection HL). rewrite rsum_cons. f_equal. apply (share_row_sum row (fun m => x / T m)).
Qed.
Lemma count_nodup n row : NoDup row -> count n row = if existsb (Nat.eqb n) row then 1 else 0.
Proof.
  intros H. unfold count. destruct (existsb (Nat.eqb n) row) eqn:E.
  - apply existsb_exists in E. destruct E as (m & Hm & E). apply Nat.eqb_eq in E. subst m.
    rewrite (proj1 (NoDup_count_occ' Nat.eq_dec row) H n Hm). reflexivity.
  - rewrite (proj1 (count_occ_not_In Nat.eq_dec row n)); [reflexivity|]. intros Hin.
    assert (existsb (Nat.eqb n) row = true) by (apply existsb_exists; exists n; split; [assumption|apply Nat.eqb_refl]). congruence.
Qed.
Lemma proper_sum : forall topo w c n, proper topo ->
  rsum (map (fun rw => count n (fst rw) * (snd rw * c)) (combine topo w)) = total_weight topo w n * c.
Proof.
  induction topo as [|row topo IH]; intros [|x w] c n HP; try (unfold total_weight; cbn; lra).
  inversion HP as [|? ? H1 H2]; subst. unfold total_weight in *. cbn [combine map filter fst snd]. rewrite rsum_cons, (IH w c n H2), (count_nodup n row H1).
  destruct (existsb (Nat.eqb n) row); cbn [map snd]; rewrite ?rsum_cons; lra.
Qed.
Lemma shares_unique topo w f : length w = length topo -> shares topo w f -> f = share_table (fun x => x) topo w.
Proof.
  intros HL [HS HE]. apply get2o_ext.
  - rewrite share_table_shape by assumption. symmetry. exact HS.
  - intros i j. destruct (get2o (share_table (fun x => x) topo w) i j) as [x|] eqn:E.
    + destruct (share_table_get2o _ _ _ _ _ _ HL E) as (n & wi & He & Hwi & ->). destruct (HE i j n wi He Hwi) as (r & Hr & Hj). unfold get2o. now rewrite Hr.
    + destruct (get2o f i j) as [y|] eqn:Ey; [|reflexivity].
      assert (exists z, get2o (share_table (fun x => x) topo w) i j = Some z) as [z Hz]; [|congruence].
      apply get2o_shape. rewrite share_table_shape by assumption. change (shape2 topo) with (map (@length nat) topo). rewrite HS. apply get2o_shape. eauto.
Qed.
Lemma shares_table topo w : length w = length topo -> shares topo w (share_table (fun x => x) topo w).
Proof. intros HL. split; [symmetry; now apply share_table_shape|]. intros i j n wi He Hw. now apply (share_table_entry (fun x => x)). Qed.

Lemma shares_add_up : forall topo w f n, length w = length topo -> proper topo -> shares topo w f -> total_weight topo w n <> 0 ->
  rsum (at_node topo f n) = 1.
Proof.
  intros topo w f n HL HP HS HT. rewrite (shares_unique topo w f HL HS). unfold share_table.
  rewrite (share_sum topo w (total_weight topo w) n HL). unfold Rdiv. rewrite (proper_sum topo w (/ total_weight topo w n) n HP). field. exact HT.
Qed.

Lemma factors_dense : forall es topo w, rect (ncols topo) topo -> concat topo <> [] -> length w = length topo ->
  (forall n, used topo n -> total_weight topo w n <> 0) -> Permutation (entries topo) es ->
  exists f, ndf_dense_in es Floating topo w = Ok f /\ shares topo w f.
Proof.
  intros es topo w HR HN HL HT HP. exists (share_table (fun x => x) topo w). split; [now apply (ndf_dense_value es Floating)|now apply shares_table].
Qed.
Lemma factors_csr : forall es topo w ptr data, csr_of topo ptr data -> data <> [] -> length w = length topo ->
  (forall n, used topo n -> total_weight topo w n <> 0) -> Permutation (entries topo) es ->
  exists f, ndf_csr_in es Floating ptr data w = Ok (concat f) /\ shares topo w f.
Proof.
  intros es topo w ptr data [-> ->] HN HL HT HP. exists (share_table (fun x => x) topo w). split; [now apply (ndf_csr_value es Floating)|now apply shares_table].
Qed.
Lemma factors_any : forall topo t w, represents topo t -> (forall rows, topo <> TAk rows) -> rect (ncols t) t \/ is_csr topo -> concat t <> [] -> length w = length t ->
  (forall n, used t n -> total_weight t w n <> 0) ->
  exists r f, nodal_distribution_factors Floating topo w = Ok r /\ shares t w f /\ same_factors t f r.
Proof.
  intros topo t w HR HK HS HN HL HT. destruct HR as [t|t|t].
  - assert (R : rect (ncols t) t) by (destruct HS as [H|H]; [exact H|destruct H]).
    destruct (factors_dense (entries t) t w R HN HL HT (Permutation_refl _)) as (f & E & Hf). exists (FacDense f), f.
    unfold nodal_distribution_factors, ndf_dense. rewrite E. split; [reflexivity|]. split; [assumption|reflexivity].
  - exfalso. now apply (HK t).
  - destruct (factors_csr (entries t) t w _ _ (conj eq_refl eq_refl) HN HL HT (Permutation_refl _)) as (f & E & Hf). exists (FacCsr (indptr (map (@length nat) t)) (concat f)), f.
    unfold nodal_distribution_factors, ndf_csr. rewrite entries_csr_ok. cbn [bind]. rewrite E. split; [reflexivity|]. split; [assumption|]. split; [|reflexivity]. destruct Hf as [Hs _]. now rewrite Hs.
Qed.
(** cells that list a node more than once: the shares at this node do not add up to one *)
Lemma repeated_nodes : forall topo w f n, length w = length topo -> shares topo w f ->
  rsum (at_node topo f n) = rsum (map (fun rw => INR (count_occ Nat.eq_dec (fst rw) n) * snd rw) (combine topo w)) / total_weight topo w n.
Proof.
  intros topo w f n HL HS. rewrite (shares_unique topo w f HL HS). unfold share_table. rewrite (share_sum topo w (total_weight topo w) n HL).
  unfold count, Rdiv. generalize (/ total_weight topo w n) as c. intros c. generalize (combine topo w) as l. induction l as [|x l IH]; [cbn; lra|]. cbn [map]. rewrite !rsum_cons, IH. lra.
Qed.
