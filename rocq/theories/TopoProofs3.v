(** * Proofs about [TopoModel.v], part 3: the public functions *)
From Verif Require Export TopoProofs2.

Lemma entry_get2o t i j n : entry t i j n <-> get2o t i j = Some n.
Proof.
  unfold entry, get2o. split.
  - intros [r [-> H]]; auto.
  - destruct (nth_error t i); [eauto|discriminate].
Qed.

Lemma entry_in_concat t n : used t n <-> In n (concat t).
Proof.
  unfold used. split.
  - intros [i [j [r [H1 H2]]]]. apply in_concat. exists r; split; eapply nth_error_In; eauto.
  - intros H. apply in_concat in H. destruct H as [r [H1 H2]].
    apply In_nth_error in H1, H2. destruct H1 as [i H1], H2 as [j H2]. exists i, j, r; auto.
Qed.

(** ** C01 *)

Lemma np_sum_list_sum l : np_sum l = list_sum l.
Proof. induction l as [|x l IH]; simpl; auto. rewrite np_sum_cons, IH; auto. Qed.

Lemma list_sum_map_plus {A} (f g : A -> nat) l :
  list_sum (map (fun x => f x + g x) l) = list_sum (map f l) + list_sum (map g l).
Proof. induction l as [|x l IH]; simpl; auto. rewrite IH; lia. Qed.

Lemma list_sum_indicator k ks :
  NoDup ks -> In k ks -> list_sum (map (fun n => if Nat.eqb n k then 1 else 0) ks) = 1.
Proof.
  induction ks as [|x ks IH]; intros Hnd Hin; [contradiction|]. inversion Hnd; subst. simpl.
  destruct (Nat.eqb_spec x k).
  - subst. assert (Hz : list_sum (map (fun n => if Nat.eqb n k then 1 else 0) ks) = 0).
    { clear - H1. induction ks as [|y ks IH]; simpl; auto. destruct (Nat.eqb_spec y k).
      - subst; exfalso; apply H1; left; auto.
      - apply IH; intros H; apply H1; right; auto. }
    lia.
  - destruct Hin; [congruence|]. rewrite IH; auto.
Qed.

Lemma list_sum_counts l ks :
  NoDup ks -> (forall x, In x l -> In x ks) ->
  list_sum (map (fun n => count_occ Nat.eq_dec l n) ks) = length l.
Proof.
  intros Hnd. induction l as [|x l IH]; intros H.
  - simpl. clear. induction ks; simpl; auto.
  - simpl length. rewrite <- IH by (intros; apply H; right; auto).
    transitivity (list_sum (map (fun n => count_occ Nat.eq_dec l n + (if Nat.eqb n x then 1 else 0)) ks)).
    + f_equal. apply map_ext; intros n. simpl. destruct (Nat.eq_dec x n), (Nat.eqb_spec n x); subst; try congruence; lia.
    + rewrite (list_sum_map_plus (fun n => count_occ Nat.eq_dec l n)).
      rewrite list_sum_indicator; [apply Nat.add_1_r|auto|apply H; left; auto].
Qed.

Lemma counts_regular topo t :
  represents topo t -> concat t <> [] ->
  exists m c,
    (used t m /\ forall n, used t n -> n <= m) /\
    count_cells_at_nodes topo true = (topo, Ok (CArr c)) /\
    length c = m + 1 /\
    (forall n, n <= m -> nth_error c n = Some (count_occ Nat.eq_dec (concat t) n)) /\
    list_sum c = length (concat t).
Proof.
  intros Hr Hne. destruct (np_max_ok _ Hne) as [m Hm]. exists m, (counts_of t (m + 1)).
  pose proof Hm as Hm'. apply np_max_spec in Hm'. destruct Hm' as [Hm1 Hm2].
  split; [split; [apply entry_in_concat; auto|intros n Hn; apply Hm2, entry_in_concat; auto]|].
  split; [|split; [|split]].
  - destruct Hr; unfold count_cells_at_nodes.
    + rewrite (count_reg_np_ok _ _ Hm); auto.
    + rewrite Hm; cbn [bind]. rewrite (count_reg_ak_ok _ _ Hm); auto.
    + rewrite (count_reg_csr_ok _ _ Hm); auto.
  - unfold counts_of. rewrite map_length, seq_length; auto.
  - intros n Hn. unfold counts_of. apply nth_error_map_seq; lia.
  - unfold counts_of. apply list_sum_counts; [apply seq_NoDup|].
    intros x Hx. apply in_seq. specialize (Hm2 x Hx). lia.
Qed.

(** ** Regularize *)

Lemma regularize_ok topo t :
  represents topo t ->
  exists u inv topo',
    unique_inverse Nat.compare (concat t) = Ok (u, inv) /\
    snd (regularize topo) = Ok (topo', u) /\
    represents topo' (split_by (map (@length nat) t) inv) /\
    same_kind topo topo' /\
    fst (regularize topo) = (match topo with TCsr _ _ => topo' | _ => topo end).
Proof.
  intros Hr. destruct (unique_inverse_ok Nat.compare nat_cmp_eq (concat t)) as [inv Hinv].
  exists (unique Nat.compare (concat t)), inv.
  destruct Hr; cbn [regularize].
  - exists (TNp (split_by (map (@length nat) t) inv)). rewrite Hinv. simpl. repeat split; constructor.
  - exists (TAk (split_by (map (@length nat) t) inv)). rewrite Hinv. simpl. repeat split; constructor.
  - exists (TCsr (indptr (map (@length nat) t)) inv). rewrite Hinv. simpl.
    split; [auto|]. split; [auto|]. split; [|auto].
    rewrite <- (unique_inverse_concat _ _ _ Hinv) at 1.
    rewrite <- (inverse_row_lengths _ _ _ Hinv) at 1. constructor.
Qed.

Lemma take2_entry t' u t i j :
  take2 u t' = Ok t ->
  (forall k, entry t' i j k -> exists n, nth_error u k = Some n /\ entry t i j n) /\
  (forall n, entry t i j n -> exists k, nth_error u k = Some n /\ entry t' i j k).
Proof.
  intros H. split.
  - intros k [r [H1 H2]]. destruct (mapM_nth_error _ _ _ _ _ H H1) as [r' [H3 H4]].
    destruct (take_nth _ _ _ _ _ H4 H2) as [x [H5 H6]]. exists x; split; auto. exists r'; auto.
  - intros n [r [H1 H2]]. destruct (mapM_nth_error_r _ _ _ _ _ H H1) as [r' [H3 H4]].
    destruct (mapM_nth_error_r _ _ _ _ _ H4 H2) as [k [H5 H6]]. apply get_Ok in H6.
    exists k; split; auto. exists r'; auto.
Qed.

(** the renumbered cells have the same incidences *)
Lemma incidence_regular t u inv k n :
  unique_inverse Nat.compare (concat t) = Ok (u, inv) -> nth_error u k = Some n ->
  inc (entries (split_by (map (@length nat) t) inv)) k = inc (entries t) n.
Proof.
  intros H Hk. apply (incidence_unique t n); [|apply inc_incidence].
  destruct (inc_incidence (split_by (map (@length nat) t) inv) k) as [H1 H2].
  split; auto. intros i j. rewrite H1.
  pose proof (regular_rows_take _ _ _ H) as Ht. destruct (take2_entry _ _ _ i j Ht) as [Ha Hb].
  split.
  - intros He. destruct (Ha _ He) as [n' [Hn' He']]. rewrite Hk in Hn'. inversion Hn'; subst; auto.
  - intros He. destruct (Hb _ He) as [k' [Hk' He']].
    assert (k = k'); [|subst; auto].
    eapply (proj1 (NoDup_nth_error u)); [|eapply nth_error_Some_lt; eauto|congruence].
    apply unique_inverse_spec in H; [|apply nat_cmp_eq]. destruct H as [-> _]. apply np_unique_NoDup.
Qed.

Lemma counts_dict topo t :
  represents topo t ->
  exists d,
    snd (count_cells_at_nodes topo false) = Ok (CDict d) /\
    (forall n, In n (dkeys d) <-> used t n) /\ StronglySorted lt (dkeys d) /\
    (forall n, used t n -> dget d n = Ok (count_occ Nat.eq_dec (concat t) n)) /\
    list_sum (map snd d) = length (concat t).
Proof.
  intros Hr. destruct (regularize_ok _ _ Hr) as [u [inv [topo' [Hui [Hreg [Hrep [Hk _]]]]]]].
  pose proof Hui as Hsp. apply unique_inverse_spec in Hsp; [|apply nat_cmp_eq]. destruct Hsp as [Hu [Hl _]].
  assert (Hnd : NoDup u) by (rewrite Hu; apply np_unique_NoDup).
  assert (Hin : forall n, In n u <-> In n (concat t)) by (intros n; rewrite Hu; apply np_unique_in).
  exists (map (fun g => (g, count_occ Nat.eq_dec (concat t) g)) u).
  split; [|split; [|split; [|split]]].
  - unfold count_cells_at_nodes. destruct (regularize topo) as [ta r] eqn:E. simpl in Hreg. subst r.
    cbn [snd bind fst].
    assert (Hloop : forall t', t' = split_by (map (@length nat) t) inv ->
              count_loop_dict (entries t') u = Ok (map (fun g => (g, count_occ Nat.eq_dec (concat t) g)) u)).
    { intros t' ->. apply count_loop_dict_ok; auto. rewrite entries_nodes.
      rewrite (unique_inverse_concat _ _ _ Hui). apply (unique_inverse_take _ _ _ Hui). }
    inversion Hrep; subst topo'.
    + rewrite Hloop; auto.
    + rewrite Hloop; auto.
    + rewrite entries_csr_ok. cbn [bind]. rewrite Hloop; auto.
  - intros n. rewrite dkeys_map, Hin, entry_in_concat. tauto.
  - rewrite dkeys_map, Hu. apply np_unique_sorted.
  - intros n Hn. apply entry_in_concat in Hn. apply dget_map_in. apply Hin; auto.
  - rewrite map_map. simpl. apply list_sum_counts; auto. intros x; apply Hin.
Qed.

(** one row per cell containing the node, when no cell repeats a node *)
Lemma count_occ_cells t n :
  (forall r, In r t -> NoDup r) ->
  count_occ Nat.eq_dec (concat t) n = length (filter (fun r => if in_dec Nat.eq_dec n r then true else false) t).
Proof.
  induction t as [|r t IH]; intros H; simpl; auto.
  rewrite count_occ_app, IH by (intros; apply H; right; auto).
  assert (Hr : NoDup r) by (apply H; left; auto).
  destruct (in_dec Nat.eq_dec n r) as [Hin|Hin]; simpl.
  - assert (count_occ Nat.eq_dec r n = 1) by (apply (proj1 (NoDup_count_occ' Nat.eq_dec r)); auto). lia.
  - apply (count_occ_not_In Nat.eq_dec) in Hin. lia.
Qed.

(** ** C02 *)

Lemma tight_is_regular topo t : represents topo t -> concat t <> [] ->
  is_regular topo = Ok true <-> tight (concat t).
Proof.
  intros Hr Hne. unfold is_regular. destruct Hr; simpl flat; apply is_regular_flat; auto.
Qed.

Lemma is_regular_total topo t : represents topo t -> concat t <> [] -> exists b, is_regular topo = Ok b.
Proof.
  intros Hr Hne. unfold is_regular. assert (Hf : flat topo = concat t) by (destruct Hr; auto). rewrite Hf.
  destruct (np_max_ok _ Hne) as [m ->].
  assert (exists mn, np_min (concat t) = Ok mn) as [mn ->] by (destruct (concat t); [congruence|simpl; eauto]).
  simpl; eauto.
Qed.

Lemma is_regular_empty topo t : represents topo t -> concat t = [] -> is_regular topo = Err ValueError.
Proof.
  intros Hr Hne. unfold is_regular. assert (Hf : flat topo = concat t) by (destruct Hr; auto). rewrite Hf, Hne. auto.
Qed.

Lemma cells_tight topo t f cids rc :
  represents topo t -> concat t <> [] -> tight (concat t) ->
  cells_at_nodes topo f false cids rc = cells_at_nodes topo f true cids rc.
Proof.
  intros Hr Hne Ht. unfold cells_at_nodes.
  apply (tight_is_regular _ _ Hr Hne) in Ht. rewrite Ht. auto.
Qed.

Lemma cells_raw topo t f rc :
  represents topo t -> concat t <> [] -> f = FNone \/ f = FOther ->
  exists m k counts ereg nreg,
    (used t m /\ forall n, used t n -> n <= m) /\
    snd (cells_at_nodes topo f true None rc) = Ok (ORaw counts ereg nreg) /\
    length counts = m + 1 /\ length ereg = m + 1 /\ length nreg = m + 1 /\
    forall n, n <= m -> exists L, incidence t n L /\ length L <= k /\
      nth_error counts n = Some (length L) /\
      nth_error ereg n = Some (map fst L ++ repeat 0 (k - length L)) /\
      nth_error nreg n = Some (map snd L ++ repeat 0 (k - length L)).
Proof.
  intros Hr Hne Hf. destruct (np_max_ok _ Hne) as [m Hm]. destruct (counts_nonempty t m) as [k Hk].
  pose proof Hm as Hm'. apply np_max_spec in Hm'. destruct Hm' as [Hm1 Hm2].
  exists m, k, (counts_of t (m + 1)), (eregs (entries t) (m + 1) k), (nregs (entries t) (m + 1) k).
  split; [split; [apply entry_in_concat; auto|intros n Hn; apply Hm2, entry_in_concat; auto]|].
  split.
  - unfold cells_at_nodes.
    destruct Hf as [-> | ->]; cbn [is_dicts snd bind guard]; fold (core topo); rewrite (core_ok _ _ _ _ Hr Hm Hk); auto.
  - unfold counts_of, eregs, nregs. rewrite !map_length, !seq_length. split; [auto|]. split; [auto|]. split; [auto|].
    intros n Hn. exists (inc (entries t) n). split; [apply inc_incidence|].
    rewrite !nth_error_map_seq by lia. unfold pad. rewrite !map_length, inc_length, entries_nodes.
    split; [|auto]. apply np_max_spec in Hk. apply Hk. unfold counts_of.
    apply in_map_iff. exists n; split; auto. apply in_seq; lia.
Qed.

Lemma cells_csr topo t f rc :
  represents topo t -> concat t <> [] -> f = FCsr \/ f = FScipyCsr ->
  exists m counts data indices ptr shape,
    (used t m /\ forall n, used t n -> n <= m) /\
    snd (cells_at_nodes topo f true None rc) = Ok (OCsr (if rc then Some counts else None) data indices ptr shape) /\
    length counts = m + 1 /\ length ptr = m + 2 /\ nth_error ptr 0 = Some 0 /\
    nth_error ptr (m + 1) = Some (length indices) /\ length data = length indices /\
    fst shape = m + 1 /\ snd shape <= length t /\
    (forall r, nth_error t (length t - 1) = Some r -> r <> [] -> snd shape = length t) /\
    forall n, n <= m -> exists L lo hi, incidence t n L /\ nth_error counts n = Some (length L) /\
      nth_error ptr n = Some lo /\ nth_error ptr (S n) = Some hi /\ hi = lo + length L /\
      slice indices lo hi = map fst L /\ slice data lo hi = map snd L.
Proof.
  intros Hr Hne Hf. destruct (np_max_ok _ Hne) as [m Hm]. destruct (counts_nonempty t m) as [k Hk].
  pose proof Hm as Hm'. apply np_max_spec in Hm'. destruct Hm' as [Hm1 Hm2].
  destruct (spdata_ok t m k Hm Hk) as [e [Hsp [He1 He2]]].
  exists m, (counts_of t (m + 1)), (concat (nrows t (m + 1))), (concat (erows t (m + 1))),
    (indptr (counts_of t (m + 1))), (m + 1, e).
  split; [split; [apply entry_in_concat; auto|intros n Hn; apply Hm2, entry_in_concat; auto]|].
  split.
  { unfold cells_at_nodes.
    destruct Hf as [-> | ->]; cbn [is_dicts snd bind guard]; fold (core topo); rewrite (core_ok _ _ _ _ Hr Hm Hk); cbn [bind];
      rewrite Hsp; auto. }
  assert (Hcl : length (counts_of t (m + 1)) = m + 1) by (unfold counts_of; rewrite map_length, seq_length; auto).
  rewrite indptr_length, Hcl. split; [auto|]. split; [lia|].
  split; [rewrite indptr_nth by lia; auto|].
  split.
  { rewrite indptr_nth by lia. rewrite firstn_all2 by lia. rewrite <- erows_widths, <- length_concat; auto. }
  split; [rewrite !length_concat, nrows_widths, erows_widths; auto|].
  split; [auto|]. split; [auto|]. split; [auto|].
  intros n Hn. exists (inc (entries t) n).
  assert (Hcn : nth_error (counts_of t (m + 1)) n = Some (length (inc (entries t) n))).
  { rewrite <- cnts_counts. unfold cnts. apply (nth_error_map_seq (fun n => length (inc (entries t) n))); lia. }
  exists (np_sum (firstn n (counts_of t (m + 1)))), (np_sum (firstn (S n) (counts_of t (m + 1)))).
  split; [apply inc_incidence|]. split; [auto|].
  split; [apply indptr_nth; lia|]. split; [apply indptr_nth; lia|].
  split; [apply sum_firstn_S; auto|].
  split.
  - rewrite <- erows_widths. apply slice_concat. unfold erows. rewrite nth_error_map_seq by lia; auto.
  - rewrite <- nrows_widths. apply slice_concat. unfold nrows. rewrite nth_error_map_seq by lia; auto.
Qed.

Lemma cells_jagged topo t rc :
  represents topo t -> concat t <> [] ->
  exists m counts ereg nreg,
    (used t m /\ forall n, used t n -> n <= m) /\
    snd (cells_at_nodes topo FJagged true None rc) = Ok (OJagged (if rc then Some counts else None) ereg nreg) /\
    length counts = m + 1 /\ length ereg = m + 1 /\ length nreg = m + 1 /\
    forall n, n <= m -> exists L, incidence t n L /\ nth_error counts n = Some (length L) /\
      nth_error ereg n = Some (map fst L) /\ nth_error nreg n = Some (map snd L).
Proof.
  intros Hr Hne. destruct (np_max_ok _ Hne) as [m Hm]. destruct (counts_nonempty t m) as [k Hk].
  pose proof Hm as Hm'. apply np_max_spec in Hm'. destruct Hm' as [Hm1 Hm2].
  destruct (spdata_ok t m k Hm Hk) as [e [Hsp [He1 He2]]].
  exists m, (counts_of t (m + 1)), (erows t (m + 1)), (nrows t (m + 1)).
  split; [split; [apply entry_in_concat; auto|intros n Hn; apply Hm2, entry_in_concat; auto]|].
  split.
  { unfold cells_at_nodes. cbn [is_dicts snd bind guard]. fold (core topo).
    rewrite (core_ok _ _ _ _ Hr Hm Hk); cbn [bind]. rewrite Hsp. cbn [bind].
    do 2 f_equal.
    - rewrite <- (erows_widths t (m + 1)). apply split_by_concat.
    - rewrite <- (nrows_widths t (m + 1)). apply split_by_concat. }
  unfold erows, nrows, counts_of. rewrite !map_length, seq_length. split; [auto|]. split; [auto|]. split; [auto|].
  intros n Hn. exists (inc (entries t) n). split; [apply inc_incidence|].
  rewrite !nth_error_map_seq by lia. rewrite inc_length, entries_nodes; auto.
Qed.

Lemma mapM_total_fun {A} (P : nat -> A -> Prop) n :
  (forall i, i < n -> exists x, P i x) -> exists f : nat -> option A, forall i, i < n -> exists x, f i = Some x /\ P i x.
Proof.
  induction n as [|n IH]; intros H.
  - exists (fun _ => None). intros; lia.
  - destruct IH as [f Hf]; [intros; apply H; lia|]. destruct (H n) as [x Hx]; [lia|].
    exists (fun i => if Nat.eqb i n then Some x else f i). intros i Hi.
    destruct (Nat.eqb_spec i n); [subst; eauto|]. apply Hf; lia.
Qed.

Lemma dicts_core topo t t' u cids :
  represents topo t' -> (forall k n, nth_error u k = Some n -> inc (entries t') k = inc (entries t) n) ->
  NoDup u -> forall m kmax, np_max (concat t') = Ok m -> np_max (counts_of t' (m + 1)) = Ok kmax ->
  length u = m + 1 -> length t' <= length cids ->
  exists ereg nreg,
    nodal_cell_data_to_dicts (counts_of t' (m + 1)) (eregs (entries t') (m + 1) kmax) (nregs (entries t') (m + 1) kmax) cids u = Ok (ereg, nreg) /\
    dkeys ereg = u /\ dkeys nreg = u /\
    forall k n, nth_error u k = Some n -> exists L E, incidence t n L /\
      nth_error (counts_of t' (m + 1)) k = Some (length L) /\
      take cids (map fst L) = Ok E /\ dget ereg n = Ok E /\ dget nreg n = Ok (map snd L).
Proof.
  intros Hr Hinc Hnd m kmax Hm Hk Hlen Hcl.
  assert (Htake : forall n, exists E, take cids (map fst (inc (entries t') n)) = Ok E).
  { intros n. apply take_ok. intros i Hi. apply in_map_iff in Hi. destruct Hi as [[i' j] [<- Hi]].
    apply inc_incidence in Hi. destruct Hi as [r [Hi _]]. simpl.
    apply nth_error_Some_lt in Hi. lia. }
  pose (crow := fun n => match take cids (map fst (inc (entries t') n)) with Ok E => E | Err _ => [] end).
  assert (Hcrow : forall n, take cids (map fst (inc (entries t') n)) = Ok (crow n)).
  { intros n. destruct (Htake n) as [E HE]. unfold crow. rewrite HE; auto. }
  exists (combine u (map crow (seq 0 (m + 1)))), (combine u (nrows t' (m + 1))).
  split; [apply to_dicts_ok; auto|].
  split; [apply dkeys_combine; rewrite map_length, seq_length; auto|].
  split; [apply dkeys_combine; unfold nrows; rewrite map_length, seq_length; auto|].
  intros k n Hkn. assert (Hkl : k < m + 1) by (rewrite <- Hlen; eapply nth_error_Some_lt; eauto).
  exists (inc (entries t) n), (crow k). split; [apply inc_incidence|].
  rewrite <- (Hinc k n Hkn). split.
  { rewrite <- cnts_counts. unfold cnts. apply (nth_error_map_seq (fun n => length (inc (entries t') n))); auto. }
  split; [apply Hcrow|]. split.
  - eapply dget_combine; eauto. rewrite nth_error_map_seq; auto.
  - eapply dget_combine; eauto. unfold nrows. rewrite nth_error_map_seq; auto.
Qed.

Lemma n_cells_rep topo t : represents topo t -> n_cells topo = length t.
Proof.
  intros Hr; destruct Hr; simpl; auto. rewrite indptr_length, map_length. lia.
Qed.

Lemma cells_dicts topo t assume cids rc :
  represents topo t -> concat t <> [] ->
  (forall c, cids = Some c -> length t <= length c) ->
  exists counts ereg nreg,
    snd (cells_at_nodes topo FDicts assume cids rc) = Ok (ODicts (if rc then Some counts else None) ereg nreg) /\
    node_keys t assume (dkeys ereg) /\ dkeys nreg = dkeys ereg /\ length counts = length (dkeys ereg) /\
    forall k n, nth_error (dkeys ereg) k = Some n ->
      exists L E, incidence t n L /\
        nth_error counts k = Some (length L) /\
        match cids with None => E = map fst L | Some c => take c (map fst L) = Ok E end /\
        dget ereg n = Ok E /\ dget nreg n = Ok (map snd L).
Proof.
  intros Hr Hne Hcids.
  set (cc := match cids with Some c => c | None => seq 0 (length t) end).
  assert (Hcc : length t <= length cc) by (unfold cc; destruct cids; [apply Hcids; auto|rewrite seq_length; auto]).
  assert (Hfin : forall n L E, incidence t n L -> take cc (map fst L) = Ok E ->
     match cids with None => E = map fst L | Some c => take c (map fst L) = Ok E end).
  { intros n L E HL HE. unfold cc in HE. destruct cids; auto.
    assert (Hid : take (seq 0 (length t)) (map fst L) = Ok (map (fun x => x) (map fst L))).
    { apply mapM_map. intros x Hx. apply in_map_iff in Hx. destruct Hx as [[i j] [<- Hx]].
      apply HL in Hx. destruct Hx as [r [Hx _]]. apply nth_error_Some_lt in Hx. apply get_Ok.
      simpl. rewrite nth_error_seq by auto. auto. }
    rewrite map_id in Hid. congruence. }
  assert (Hcase : (assume = true \/ tight (concat t)) \/ (assume = false /\ ~ tight (concat t))).
  { destruct assume; auto. destruct (is_regular_total _ _ Hr Hne) as [b Hb].
    destruct b.
    - left; right. apply (tight_is_regular _ _ Hr Hne); auto.
    - right. split; auto. rewrite <- (tight_is_regular _ _ Hr Hne). congruence. }
  destruct Hcase as [Hcase|[Ha Hnt]].
  - (* identity numbering *)
    destruct (np_max_ok _ Hne) as [m Hm]. destruct (counts_nonempty t m) as [k Hk].
    pose proof Hm as Hm'. apply np_max_spec in Hm'. destruct Hm' as [Hm1 Hm2].
    destruct (dicts_core topo t t (seq 0 (m + 1)) cc Hr) with (m := m) (kmax := k) as [ereg [nreg [Hd [Hke [Hkn Hall]]]]]; auto.
    { intros k0 n Hn. apply nth_error_seq_some in Hn. f_equal. lia. }
    { apply seq_NoDup. }
    { apply seq_length. }
    exists (counts_of t (m + 1)), ereg, nreg.
    assert (Heq : snd (cells_at_nodes topo FDicts assume cids rc) = snd (cells_at_nodes topo FDicts true cids rc)).
    { destruct assume; auto. destruct Hcase as [Hc|Hc]; [discriminate|]. rewrite cells_tight with (t := t); auto. }
    rewrite Heq. split.
    { unfold cells_at_nodes. cbn [is_dicts].
      assert (Hl : length (counts_of t (m + 1)) = m + 1) by (unfold counts_of; rewrite map_length, seq_length; auto).
      destruct cids; cbn [snd bind guard]; fold (core topo); rewrite (core_ok _ _ _ _ Hr Hm Hk); cbn [bind];
      rewrite ?(n_cells_rep _ _ Hr); fold cc; rewrite Hl, Hd; auto. }
    rewrite Hke. split.
    { split; [apply seq_sorted|]. destruct assume.
      - intros n. rewrite in_seq. split.
        + intros Hn. exists m; split; [apply entry_in_concat; auto|lia].
        + intros [m' [H1 H2]]. apply entry_in_concat in H1. specialize (Hm2 _ H1). lia.
      - destruct Hcase as [Hc|[m' Hc]]; [discriminate|]. intros n. rewrite entry_in_concat, Hc, in_seq.
        assert (m = m') by (apply Nat.le_antisymm; [apply Hc; auto|apply Hm2; apply Hc; auto]). lia. }
    split; [congruence|].
    split; [unfold counts_of; rewrite map_length; auto|].
    intros k0 n Hn. destruct (Hall k0 n Hn) as [L [E [HL [HE1 [HE [H1 H2]]]]]]. exists L, E.
    split; [auto|]. split; [auto|]. split; [apply (Hfin n); auto|]. auto.
  - (* renumbered *)
    subst assume.
    destruct (regularize_ok _ _ Hr) as [u [inv [topo' [Hui [Hreg [Hrep [Hkind _]]]]]]].
    set (t' := split_by (map (@length nat) t) inv) in *.
    pose proof Hui as Hsp. apply unique_inverse_spec in Hsp; [|apply nat_cmp_eq]. destruct Hsp as [Hu [Hl _]].
    assert (Hct' : concat t' = inv) by (apply (unique_inverse_concat _ _ _ Hui)).
    assert (Hine : inv <> []) by (intros ->; destruct (concat t); [congruence|discriminate]).
    destruct (np_max_ok _ Hine) as [m Hm].
    assert (Hlu : length u = m + 1).
    { pose proof Hm as Hm'. apply np_max_spec in Hm'. destruct Hm' as [H1 H2].
      assert (Hcov := fun k => inverse_covers _ _ _ k Hui).
      pose proof (proj1 (Hcov m) H1). assert (length u - 1 <= m) by (apply H2, Hcov; lia). lia. }
    rewrite <- Hct' in Hm. destruct (counts_nonempty t' m) as [k Hk].
    assert (Hlt : length t' = length t) by (unfold t'; rewrite split_by_length, map_length; auto).
    destruct (dicts_core topo' t t' u cc Hrep) with (m := m) (kmax := k) as [ereg [nreg [Hd [Hke [Hkn Hall]]]]]; auto.
    { intros k0 n Hn. apply (incidence_regular _ _ _ _ _ Hui Hn). }
    { rewrite Hu; apply np_unique_NoDup. }
    { lia. }
    exists (counts_of t' (m + 1)), ereg, nreg.
    assert (Hirr : is_regular topo = Ok false).
    { destruct (is_regular_total _ _ Hr Hne) as [[] Hb]; auto.
      exfalso; apply Hnt. apply (tight_is_regular _ _ Hr Hne); auto. }
    split.
    { unfold cells_at_nodes. rewrite Hirr. cbn [is_dicts].
      destruct (regularize topo) as [ta r] eqn:Er. simpl in Hreg. subst r. cbn [bind fst snd].
      destruct cids; cbn [snd bind guard]; fold (core topo'); rewrite (core_ok _ _ _ _ Hrep Hm Hk); cbn [bind];
      rewrite ?(n_cells_rep _ _ Hrep), ?Hlt; fold cc; rewrite Hd; auto. }
    rewrite Hke. split.
    { split; [rewrite Hu; apply np_unique_sorted|]. intros n. rewrite Hu. rewrite entry_in_concat. apply np_unique_in. }
    split; [congruence|].
    split; [unfold counts_of; rewrite map_length, seq_length; auto|].
    intros k0 n Hn. destruct (Hall k0 n Hn) as [L [E [HL [HE1 [HE [H1 H2]]]]]]. exists L, E.
    split; [auto|]. split; [auto|]. split; [apply (Hfin n); auto|]. auto.
Qed.

Lemma cells_irregular_rejected topo t f rc :
  represents topo t -> concat t <> [] -> ~ tight (concat t) -> f <> FDicts ->
  snd (cells_at_nodes topo f false None rc) = Err AssertionError.
Proof.
  intros Hr Hne Hnt Hf.
  assert (Hirr : is_regular topo = Ok false).
  { destruct (is_regular_total _ _ Hr Hne) as [[] Hb]; auto.
    exfalso; apply Hnt. apply (tight_is_regular _ _ Hr Hne); auto. }
  destruct (regularize_ok _ _ Hr) as [u [inv [topo' [Hui [Hreg [Hrep [Hkind _]]]]]]].
  unfold cells_at_nodes. rewrite Hirr.
  destruct (regularize topo) as [ta r] eqn:Er. simpl in Hreg. subst r.
  destruct f; try congruence; reflexivity.
Qed.

Lemma cellIDs_need_dicts topo f assume c rc :
  f <> FDicts -> cells_at_nodes topo f assume (Some c) rc = (topo, Err AssertionError).
Proof. intros Hf. unfold cells_at_nodes. destruct f; try congruence; auto. Qed.
