(** * Proofs about [TopoModel.v], part 2: incidence, adjacency, rewiring, detaching *)
From Verif Require Export TopoProofs.

(** ** The fill loop *)

Definition pad (m : nat) (l : list nat) : list nat := l ++ repeat 0 (m - length l).

Lemma pad_length m l : length l <= m -> length (pad m l) = m.
Proof. intros H; unfold pad. rewrite app_length, repeat_length; lia. Qed.

Lemma firstn_pad m l : firstn (length l) (pad m l) = l.
Proof. unfold pad. rewrite firstn_app, Nat.sub_diag, firstn_all. simpl. apply app_nil_r. Qed.

Lemma set_app_r {A} (l1 l2 : list A) v x : set (l1 ++ x :: l2) (length l1) v = Ok (l1 ++ v :: l2).
Proof. induction l1 as [|y l1 IH]; simpl; auto. rewrite IH; auto. Qed.

Lemma set_pad m l v : length l < m -> set (pad m l) (length l) v = Ok (pad m (l ++ [v])).
Proof.
  intros H. unfold pad. destruct (m - length l) as [|k] eqn:E; [lia|]. simpl repeat.
  rewrite set_app_r. f_equal. rewrite <- app_assoc. simpl. do 2 f_equal.
  rewrite app_length; simpl. f_equal; lia.
Qed.

Lemma set_map_seq {A} (f : nat -> A) nN n v :
  n < nN -> set (map f (seq 0 nN)) n v = Ok (map (fun k => if Nat.eqb k n then v else f k) (seq 0 nN)).
Proof.
  intros H. destruct (proj2 (set_Ok_iff (map f (seq 0 nN)) n v)) as [a Ha].
  { rewrite map_length, seq_length; auto. }
  rewrite Ha. f_equal. apply nth_error_ext; intros k. erewrite set_nth_error by eauto.
  rewrite !nth_error_map. destruct (le_lt_dec nN k) as [Hk|Hk].
  - rewrite nth_error_ge by (rewrite seq_length; auto). destruct (Nat.eqb_spec k n); auto; lia.
  - rewrite nth_error_seq by auto. simpl. destruct (Nat.eqb_spec k n); auto.
Qed.

Lemma set2_map_seq (f : nat -> list nat) nN n m l v :
  n < nN -> f n = pad m l -> length l < m ->
  set2 (map f (seq 0 nN)) n (length l) v =
  Ok (map (fun k => if Nat.eqb k n then pad m (l ++ [v]) else f k) (seq 0 nN)).
Proof.
  intros H1 H2 H3. unfold set2, get. rewrite nth_error_map, nth_error_seq by auto. simpl.
  rewrite H2, set_pad by auto. simpl. apply set_map_seq; auto.
Qed.

Definition eregs (es : list (nat * nat * nat)) (nN cmax : nat) : list (list nat) :=
  map (fun n => pad cmax (map fst (inc es n))) (seq 0 nN).
Definition nregs (es : list (nat * nat * nat)) (nN cmax : nat) : list (list nat) :=
  map (fun n => pad cmax (map snd (inc es n))) (seq 0 nN).
Definition cnts (es : list (nat * nat * nat)) (nN : nat) : list nat :=
  map (fun n => length (inc es n)) (seq 0 nN).

Lemma inc_snoc es e n :
  inc (es ++ [e]) n = if Nat.eqb n (node_of e) then inc es n ++ [fst e] else inc es n.
Proof.
  rewrite inc_app. unfold inc at 2. simpl. rewrite Nat.eqb_sym.
  destruct (Nat.eqb n (node_of e)); simpl; auto. apply app_nil_r.
Qed.

Lemma cells_step_ok es e nN cmax :
  node_of e < nN -> length (inc es (node_of e)) < cmax ->
  cells_step (cnts es nN, eregs es nN cmax, nregs es nN cmax) e =
  Ok (cnts (es ++ [e]) nN, eregs (es ++ [e]) nN cmax, nregs (es ++ [e]) nN cmax).
Proof.
  destruct e as [[i j] n]. unfold node_of. cbn [snd]. intros Hn Hc.
  unfold cells_step.
  assert (Hg : get (cnts es nN) n = Ok (length (inc es n))).
  { apply get_Ok. unfold cnts. rewrite nth_error_map, nth_error_seq by auto. auto. }
  rewrite Hg. cbn [bind].
  assert (He : set2 (eregs es nN cmax) n (length (inc es n)) i = Ok (eregs (es ++ [(i, j, n)]) nN cmax)).
  { unfold eregs. rewrite <- (map_length fst (inc es n)).
    rewrite set2_map_seq with (m := cmax) (l := map fst (inc es n)); auto.
    - f_equal. apply map_ext; intros k. rewrite inc_snoc. unfold node_of; cbn [snd fst].
      destruct (Nat.eqb_spec k n); auto. subst. rewrite map_app; auto.
    - rewrite map_length; auto. }
  assert (Hnr : set2 (nregs es nN cmax) n (length (inc es n)) j = Ok (nregs (es ++ [(i, j, n)]) nN cmax)).
  { unfold nregs. rewrite <- (map_length snd (inc es n)).
    rewrite set2_map_seq with (m := cmax) (l := map snd (inc es n)); auto.
    - f_equal. apply map_ext; intros k. rewrite inc_snoc. unfold node_of; cbn [snd fst].
      destruct (Nat.eqb_spec k n); auto. subst. rewrite map_app; auto.
    - rewrite map_length; auto. }
  rewrite He, Hnr. cbn [bind].
  assert (Hi : incr (cnts es nN) n = Ok (cnts (es ++ [(i, j, n)]) nN)).
  { unfold cnts. rewrite incr_map by auto. f_equal. apply map_ext; intros k. rewrite inc_snoc.
    unfold node_of; cbn [snd fst]. destruct (Nat.eqb_spec k n); auto. rewrite app_length; auto. }
  rewrite Hi. auto.
Qed.

Lemma zeros_map_seq {A} (z : A) n : zeros z n = map (fun _ => z) (seq 0 n).
Proof. unfold zeros. generalize 0. induction n as [|n IH]; intros k; simpl; f_equal; auto. Qed.

Lemma cells_fold_ok es nN cmax :
  (forall e, In e es -> node_of e < nN) -> (forall n, n < nN -> length (inc es n) <= cmax) ->
  foldM cells_step es (zeros 0 nN, zeros2 0 nN cmax, zeros2 0 nN cmax) =
  Ok (cnts es nN, eregs es nN cmax, nregs es nN cmax).
Proof.
  intros Hn Hc.
  assert (Hgen : forall es1 es2, es = es1 ++ es2 ->
     foldM cells_step es2 (cnts es1 nN, eregs es1 nN cmax, nregs es1 nN cmax) =
     Ok (cnts es nN, eregs es nN cmax, nregs es nN cmax)).
  { intros es1 es2; revert es1; induction es2 as [|e es2 IH]; intros es1 He; cbn [foldM].
    - rewrite app_nil_r in He. subst; auto.
    - assert (Hin : In e es) by (rewrite He; apply in_or_app; right; left; auto).
      rewrite cells_step_ok.
      + cbn [bind]. apply IH. rewrite <- app_assoc; auto.
      + auto.
      + specialize (Hc _ (Hn e Hin)). rewrite He in Hc. rewrite inc_app in Hc.
        unfold inc at 2 in Hc. simpl in Hc. rewrite Nat.eqb_refl in Hc. simpl in Hc.
        rewrite app_length in Hc. simpl in Hc. lia. }
  rewrite <- (Hgen [] es eq_refl). f_equal.
  unfold cnts, eregs, nregs, inc. simpl. rewrite zeros_map_seq.
  f_equal; [f_equal|]; unfold zeros2; fold (zeros (repeat 0 cmax) nN); rewrite zeros_map_seq;
    apply map_ext; intros k; unfold pad; simpl; rewrite Nat.sub_0_r; auto.
Qed.

Lemma cnts_counts t nN : cnts (entries t) nN = counts_of t nN.
Proof.
  unfold cnts, counts_of. apply map_ext; intros n. rewrite inc_length, entries_nodes; auto.
Qed.

Lemma cells_loop_ok t m cmax :
  np_max (concat t) = Ok m -> np_max (counts_of t (m + 1)) = Ok cmax ->
  cells_loop (entries t) (m + 1) (counts_of t (m + 1)) =
  Ok (counts_of t (m + 1), eregs (entries t) (m + 1) cmax, nregs (entries t) (m + 1) cmax).
Proof.
  intros Hm Hc. unfold cells_loop. rewrite Hc. cbn [bind].
  rewrite cells_fold_ok.
  - rewrite cnts_counts; auto.
  - eapply np_max_nodes; eauto.
  - intros n Hn. apply np_max_spec in Hc. destruct Hc as [_ Hc].
    apply Hc. rewrite <- cnts_counts. unfold cnts. apply in_map_iff. exists n; split; auto.
    apply in_seq; lia.
Qed.

(** ** What a topology argument stands for *)

Definition core (topo : topo_like) : res (list nat * list (list nat) * list (list nat)) :=
  match topo with
  | TNp1 _ => Err TypeError
  | TNp t => cells_at_nodes_reg_np t
  | TAk t => do m <- np_max (concat t); cells_at_nodes_reg_ak t (m + 1)
  | TCsr ptr data => cells_at_nodes_reg_csr ptr data
  end.

Lemma counts_nonempty t m : exists c, np_max (counts_of t (m + 1)) = Ok c.
Proof. apply np_max_ok. unfold counts_of. rewrite Nat.add_1_r. simpl. discriminate. Qed.

Lemma core_ok topo t m cmax :
  represents topo t -> np_max (concat t) = Ok m -> np_max (counts_of t (m + 1)) = Ok cmax ->
  core topo = Ok (counts_of t (m + 1), eregs (entries t) (m + 1) cmax, nregs (entries t) (m + 1) cmax).
Proof.
  intros Hr Hm Hc. destruct Hr; simpl.
  - unfold cells_at_nodes_reg_np. rewrite Hm. cbn [bind]. rewrite (count_reg_np_ok _ _ Hm). cbn [bind].
    apply cells_loop_ok; auto.
  - rewrite Hm. cbn [bind]. unfold cells_at_nodes_reg_ak. rewrite (count_reg_ak_ok _ _ Hm). cbn [bind].
    apply cells_loop_ok; auto.
  - unfold cells_at_nodes_reg_csr. rewrite (count_reg_csr_ok _ _ Hm). cbn [bind]. rewrite Hm. cbn [bind].
    rewrite entries_csr_ok. cbn [bind]. apply cells_loop_ok; auto.
Qed.

(** ** Specification of incidence *)

Lemma inc_incidence t n : incidence t n (inc (entries t) n).
Proof.
  split.
  - intros i j. unfold inc, entry. rewrite in_map_iff. split.
    + intros [[[i' j'] n'] [H1 H2]]. simpl in H1. inversion H1; subst.
      apply filter_In in H2. destruct H2 as [H2 H3]. apply Nat.eqb_eq in H3. unfold node_of in H3; simpl in H3; subst.
      apply entries_in in H2. unfold get2o in H2. destruct (nth_error t i); eauto. discriminate.
    + intros [r [H1 H2]]. exists (i, j, n); split; auto. apply filter_In. split.
      * apply entries_in. unfold get2o. rewrite H1; auto.
      * apply Nat.eqb_refl.
  - unfold inc. eapply SS_map; [|apply SS_filter, entries_sorted]. auto.
Qed.

Lemma lex2_irrefl p : ~ lex2 p p.
Proof. unfold lex2; lia. Qed.
Lemma lex2_trans p q r : lex2 p q -> lex2 q r -> lex2 p r.
Proof. unfold lex2; lia. Qed.

Lemma incidence_unique t n L L' : incidence t n L -> incidence t n L' -> L = L'.
Proof.
  intros [H1 H2] [H3 H4].
  assert (Hin : forall x, In x L <-> In x L') by (intros [i j]; rewrite H1, H3; tauto).
  clear H1 H3. revert L' H4 Hin. induction H2 as [|x l Hs IH Hf]; intros L' H4 Hin.
  - destruct L' as [|y L']; auto. exfalso; apply (Hin y); left; auto.
  - destruct L' as [|y L']; [exfalso; apply (Hin x); left; auto|].
    inversion H4 as [|? ? Hs2 Hf2]; subst. rewrite Forall_forall in *.
    assert (x = y).
    { destruct (proj1 (Hin x) (or_introl eq_refl)) as [|Hx]; auto.
      destruct (proj2 (Hin y) (or_introl eq_refl)) as [|Hy]; auto.
      exfalso; apply (lex2_irrefl x). eapply lex2_trans; [apply Hf; eauto|apply Hf2; eauto]. }
    subst y. f_equal. apply IH; auto. intros z; split; intros Hz.
    + destruct (proj1 (Hin z) (or_intror Hz)) as [<-|]; auto. exfalso; apply (lex2_irrefl x), Hf; auto.
    + destruct (proj2 (Hin z) (or_intror Hz)) as [<-|]; auto. exfalso; apply (lex2_irrefl x), Hf2; auto.
Qed.

Lemma incidence_length t n L : incidence t n L -> length L = count_occ Nat.eq_dec (concat t) n.
Proof.
  intros H. rewrite (incidence_unique _ _ _ _ H (inc_incidence t n)). rewrite inc_length, entries_nodes; auto.
Qed.

(** ** Scatter loops *)

Lemma slice_writes_in {A} s (vals : list A) i v :
  In (i, v) (slice_writes s vals) <-> exists k, i = s + k /\ nth_error vals k = Some v.
Proof.
  unfold slice_writes. rewrite in_map_iff. split.
  - intros [[k x] [H1 H2]]. simpl in H1. inversion H1; subst. apply enum_in in H2. eauto.
  - intros [k [-> H]]. exists (k, v); split; auto. apply enum_in; auto.
Qed.

Lemma concat_position {A} (rows : list (list A)) i r k x :
  nth_error rows i = Some r -> nth_error r k = Some x ->
  nth_error (concat rows) (np_sum (firstn i (map (@length A) rows)) + k) = Some x.
Proof.
  revert i; induction rows as [|r0 rows IH]; intros i Hi Hk; [destruct i; discriminate|].
  destruct i as [|i]; simpl in Hi.
  - injection Hi as ->. simpl. rewrite nth_error_app1; auto. eapply nth_error_Some_lt; eauto.
  - simpl. rewrite np_sum_cons. rewrite nth_error_app2 by lia.
    rewrite <- (IH _ Hi Hk). f_equal. lia.
Qed.

Lemma concat_position_inv {A} (rows : list (list A)) p x :
  nth_error (concat rows) p = Some x ->
  exists i r k, nth_error rows i = Some r /\ nth_error r k = Some x /\
                p = np_sum (firstn i (map (@length A) rows)) + k.
Proof.
  revert p; induction rows as [|r0 rows IH]; intros p H; simpl in H; [destruct p; discriminate|].
  destruct (le_lt_dec (length r0) p) as [Hp|Hp].
  - rewrite nth_error_app2 in H by auto. destruct (IH _ H) as [i [r [k [H1 [H2 H3]]]]].
    exists (S i), r, k. split; auto. split; auto. simpl. rewrite np_sum_cons. lia.
  - rewrite nth_error_app1 in H by auto. exists 0, r0, p. auto.
Qed.

Lemma scatter_writes_ok {A} (rows : list (list A)) :
  exists ws, scatter_writes (indptr (map (@length A) rows)) rows = Ok ws /\
    forall i v, In (i, v) ws <-> nth_error (concat rows) i = Some v.
Proof.
  unfold scatter_writes.
  rewrite mapM_map with
    (g := fun ir => slice_writes (np_sum (firstn (fst ir) (map (@length A) rows))) (snd ir)).
  - cbn [bind]. eexists; split; [reflexivity|]. intros p v. split.
    + intros H. apply in_concat in H. destruct H as [ws [H1 H2]].
      apply in_map_iff in H1. destruct H1 as [[i r] [<- H1]]. apply enum_in in H1. cbn [fst snd] in H2.
      apply slice_writes_in in H2. destruct H2 as [k [-> H2]]. eapply concat_position; eauto.
    + intros H. apply concat_position_inv in H. destruct H as [i [r [k [H1 [H2 ->]]]]].
      apply in_concat. eexists; split; [apply in_map_iff; exists (i, r); split; [reflexivity|apply enum_in; auto]|].
      cbn [fst snd]. apply slice_writes_in. eauto.
  - intros [i r] H. apply enum_in in H. cbn [fst snd].
    assert (Hi : i < length rows) by (eapply nth_error_Some_lt; eauto).
    unfold get. rewrite !indptr_nth by (rewrite map_length; lia). cbn [bind].
    erewrite sum_firstn_S by (rewrite nth_error_map, H; simpl; eauto).
    replace (np_sum (firstn i (map (@length A) rows)) + length r - np_sum (firstn i (map (@length A) rows)))
      with (length r) by lia.
    rewrite Nat.eqb_refl. auto.
Qed.

(** the scatter loop gives the concatenation of the rows, in every order of its writes *)
Lemma scatter_any_order {A} (z : A) (rows : list (list A)) ws ws' :
  scatter_writes (indptr (map (@length A) rows)) rows = Ok ws -> Permutation ws ws' ->
  run_writes ws' (zeros z (np_sum (map (@length A) rows))) = Ok (concat rows).
Proof.
  intros Hws Hp. destruct (scatter_writes_ok rows) as [ws0 [H0 Hin]].
  rewrite Hws in H0. injection H0 as <-.
  assert (Hc : consistent ws) by (intros i v v' H1 H2; apply Hin in H1, H2; congruence).
  rewrite (run_writes_perm ws ws') by auto.
  destruct (proj2 (run_writes_in_range ws (zeros z (np_sum (map (@length A) rows))))) as [a Ha].
  { intros i v H. apply Hin in H. apply nth_error_Some_lt in H.
    unfold zeros; rewrite repeat_length. rewrite length_concat in H; auto. }
  rewrite Ha. f_equal. apply nth_error_ext; intros i.
  destruct (nth_error (concat rows) i) as [v|] eqn:E.
  - apply (run_writes_written _ _ _ _ _ Ha Hc). apply Hin; auto.
  - apply nth_error_ge. rewrite (run_writes_length _ _ _ Ha). unfold zeros; rewrite repeat_length.
    apply nth_error_None in E. rewrite <- length_concat; auto.
Qed.

Lemma scatter_ok {A} (z : A) (rows : list (list A)) :
  scatter z (np_sum (map (@length A) rows)) (indptr (map (@length A) rows)) rows = Ok (concat rows).
Proof.
  unfold scatter. destruct (scatter_writes_ok rows) as [ws [Hws _]]. rewrite Hws. cbn [bind].
  eapply scatter_any_order; eauto.
Qed.

(** ** Converters *)

Definition erows (t : list (list nat)) (nN : nat) := map (fun n => map fst (inc (entries t) n)) (seq 0 nN).
Definition nrows (t : list (list nat)) (nN : nat) := map (fun n => map snd (inc (entries t) n)) (seq 0 nN).

Lemma erows_widths t nN : map (@length nat) (erows t nN) = counts_of t nN.
Proof.
  unfold erows. rewrite map_map. rewrite <- cnts_counts. unfold cnts.
  apply map_ext; intros; apply map_length.
Qed.
Lemma nrows_widths t nN : map (@length nat) (nrows t nN) = counts_of t nN.
Proof.
  unfold nrows. rewrite map_map. rewrite <- cnts_counts. unfold cnts.
  apply map_ext; intros; apply map_length.
Qed.

Lemma nth_error_map_seq {A} (f : nat -> A) n i : i < n -> nth_error (map f (seq 0 n)) i = Some (f i).
Proof. intros H; rewrite nth_error_map, nth_error_seq by auto; auto. Qed.

Lemma mapM_enum_rows (g : nat -> list nat) t nN cmax :
  (forall n, length (g n) = length (inc (entries t) n)) ->
  mapM (fun ic : nat * nat => do r <- get (map (fun n => pad cmax (g n)) (seq 0 nN)) (fst ic); Ok (firstn (snd ic) r))
       (enum (counts_of t nN)) = Ok (map g (seq 0 nN)).
Proof.
  intros Hg.
  rewrite mapM_map with (g := fun ic => g (fst ic)).
  - f_equal. apply nth_error_ext; intros i. rewrite !nth_error_map, nth_error_enum. unfold counts_of.
    rewrite nth_error_map. destruct (nth_error (seq 0 nN) i) as [k|] eqn:E; auto.
    apply nth_error_seq_some in E. simpl. do 2 f_equal. lia.
  - intros [i c] H. apply enum_in in H. unfold counts_of in H. rewrite nth_error_map in H.
    destruct (nth_error (seq 0 nN) i) as [k|] eqn:E; [|discriminate].
    apply nth_error_seq_some in E. simpl in H. injection H as <-. destruct E as [-> E].
    cbn [fst snd]. unfold get. rewrite nth_error_map_seq by auto. cbn [bind Nat.add].
    replace (count_occ Nat.eq_dec (concat t) i) with (length (g i)).
    + rewrite firstn_pad; auto.
    + rewrite Hg, inc_length, entries_nodes; auto.
Qed.

Lemma np_max_concat_eregs t nN cmax :
  np_max (concat t) = Ok (nN - 1) -> 0 < nN ->
  np_max (counts_of t nN) = Ok cmax ->
  exists e, np_max (concat (eregs (entries t) nN cmax)) = Ok e /\
    (forall r, nth_error t (length t - 1) = Some r -> r <> [] -> e + 1 = length t) /\
    e < length t.
Proof.
  intros Hm Hn Hc.
  assert (Hlen : forall n, n < nN -> length (inc (entries t) n) <= cmax).
  { intros n H. apply np_max_spec in Hc. destruct Hc as [_ Hc]. apply Hc.
    rewrite <- cnts_counts. unfold cnts. apply in_map_iff. exists n; split; auto. apply in_seq; lia. }
  assert (Hin : forall x, In x (concat (eregs (entries t) nN cmax)) ->
     x < length t).
  { intros x Hx. apply in_concat in Hx. destruct Hx as [row [H1 H2]]. unfold eregs in H1.
    apply in_map_iff in H1. destruct H1 as [n [<- H1]]. unfold pad in H2. apply in_app_or in H2.
    destruct H2 as [H2|H2].
    - apply in_map_iff in H2. destruct H2 as [[i j] [<- H2]]. apply inc_incidence in H2.
      destruct H2 as [r [H2 _]]. simpl. eapply nth_error_Some_lt; eauto.
    - apply repeat_spec in H2. subst. destruct t; simpl in *; [discriminate|lia]. }
  assert (Hex : forall i r, nth_error t i = Some r -> r <> [] -> In i (concat (eregs (entries t) nN cmax))).
  { intros i r Hi Hr. destruct r as [|n r]; [congruence|].
    assert (Hni : In n (concat t)) by (apply in_concat; exists (n :: r); split; [eapply nth_error_In; eauto|left; auto]).
    apply np_max_spec in Hm. destruct Hm as [_ Hm]. specialize (Hm n Hni).
    apply in_concat. exists (pad cmax (map fst (inc (entries t) n))). split.
    - unfold eregs. apply in_map_iff. exists n; split; auto. apply in_seq; lia.
    - unfold pad. apply in_or_app; left. apply in_map_iff. exists (i, 0); split; auto.
      apply inc_incidence. exists (n :: r); auto. }
  assert (Hne : concat (eregs (entries t) nN cmax) <> []).
  { apply np_max_spec in Hm. destruct Hm as [Hm _]. apply in_concat in Hm. destruct Hm as [r [H1 H2]].
    apply In_nth_error in H1. destruct H1 as [i H1]. intros E.
    assert (Hx : In i (concat (eregs (entries t) nN cmax))) by (eapply Hex; eauto; destruct r; [contradiction|discriminate]).
    rewrite E in Hx; contradiction. }
  destruct (np_max_ok _ Hne) as [e He]. exists e. split; auto.
  apply np_max_spec in He. destruct He as [He1 He2]. specialize (Hin _ He1). split; auto.
  intros r Hr Hr'. specialize (He2 _ (Hex _ _ Hr Hr')). lia.
Qed.

Lemma spdata_ok t m cmax :
  np_max (concat t) = Ok m -> np_max (counts_of t (m + 1)) = Ok cmax ->
  exists e,
  nodal_cell_data_to_spdata (counts_of t (m + 1)) (eregs (entries t) (m + 1) cmax) (nregs (entries t) (m + 1) cmax)
  = Ok (concat (nrows t (m + 1)), concat (erows t (m + 1)), indptr (counts_of t (m + 1)), (m + 1, e)) /\
    (forall r, nth_error t (length t - 1) = Some r -> r <> [] -> e = length t) /\ e <= length t.
Proof.
  intros Hm Hc.
  destruct (np_max_concat_eregs t (m + 1) cmax) as [e [He1 [He2 He3]]]; auto; try lia.
  { rewrite Nat.add_sub; auto. }
  exists (e + 1). split; [|split; [auto|lia]].
  unfold nodal_cell_data_to_spdata. rewrite He1. cbn [bind].
  unfold eregs at 1. rewrite mapM_enum_rows by (intros; apply map_length). cbn [bind].
  unfold nregs at 1. rewrite mapM_enum_rows by (intros; apply map_length). cbn [bind].
  fold (erows t (m + 1)). fold (nrows t (m + 1)).
  rewrite <- (erows_widths t (m + 1)) at 1 2. rewrite scatter_ok. cbn [bind].
  rewrite <- (nrows_widths t (m + 1)) at 1 2. rewrite scatter_ok. cbn [bind].
  unfold counts_of at 2. rewrite map_length, seq_length. auto.
Qed.

Lemma to_dicts_ok t nN cmax cids nids :
  length nids = nN -> NoDup nids ->
  forall crow, (forall n, n < nN -> take cids (map fst (inc (entries t) n)) = Ok (crow n)) ->
  nodal_cell_data_to_dicts (counts_of t nN) (eregs (entries t) nN cmax) (nregs (entries t) nN cmax) cids nids
  = Ok (combine nids (map crow (seq 0 nN)), combine nids (nrows t nN)).
Proof.
  intros Hl Hnd crow Hcrow. unfold nodal_cell_data_to_dicts.
  assert (Hgen : forall k cs d1 d2,
     (forall i c, nth_error cs i = Some c -> k + i < nN /\ c = length (inc (entries t) (k + i))) ->
     length cs + k = nN ->
     dkeys d1 = firstn k nids -> dkeys d2 = firstn k nids ->
     foldM (fun dd ic => let '(i, c) := ic in
      do g <- get nids i;
      do er <- get (eregs (entries t) nN cmax) i;
      do nr <- get (nregs (entries t) nN cmax) i;
      do ids <- take cids (firstn c er);
      Ok (dset (fst dd) g ids, dset (snd dd) g (firstn c nr))) (enum_from k cs) (d1, d2) =
     Ok (d1 ++ combine (skipn k nids) (map crow (seq k (length cs))),
         d2 ++ combine (skipn k nids) (map (fun n => map snd (inc (entries t) n)) (seq k (length cs))))).
  { intros k cs; revert k; induction cs as [|c cs IH]; intros k d1 d2 Hcs Hk Hd1 Hd2; simpl enum_from.
    - simpl. destruct (skipn k nids); simpl; rewrite !app_nil_r; auto.
    - cbn [foldM]. destruct (Hcs 0 c eq_refl) as [Hk1 Hc]. rewrite Nat.add_0_r in Hk1, Hc.
      destruct (nth_error_lt nids k) as [g Hg]; [lia|].
      unfold get at 1. rewrite Hg. cbn [bind].
      unfold get at 1. unfold eregs at 1. rewrite nth_error_map_seq by auto. cbn [bind].
      unfold get at 1. unfold nregs at 1. rewrite nth_error_map_seq by auto. cbn [bind].
      rewrite Hc. rewrite <- (map_length fst (inc (entries t) k)) at 1. rewrite firstn_pad.
      rewrite (Hcrow k Hk1). cbn [bind fst snd].
      rewrite <- (map_length snd (inc (entries t) k)). rewrite firstn_pad.
      assert (Hsk : skipn k nids = g :: skipn (S k) nids).
      { clear - Hg. revert k Hg; induction nids as [|x l IH]; intros [|k] Hg; simpl in *; try discriminate.
        - congruence.
        - apply IH; auto. }
      assert (Hfresh : ~ In g (firstn k nids)).
      { intros Hin. rewrite <- (firstn_skipn k nids) in Hnd. rewrite Hsk in Hnd.
        apply NoDup_remove_2 in Hnd. apply Hnd. apply in_or_app; left; auto. }
      assert (Hf1 : firstn (S k) nids = firstn k nids ++ [g]).
      { clear - Hg. revert k Hg; induction nids as [|x l IH]; intros [|k] Hg; simpl in *; try discriminate.
        - congruence.
        - f_equal. apply IH; auto. }
      assert (Hset : forall (d : dict (list nat)) v, dkeys d = firstn k nids -> dset d g v = d ++ [(g, v)]).
      { intros d v Hd. rewrite <- (app_nil_r d) at 1. rewrite dset_app; auto. rewrite Hd; auto. }
      rewrite !Hset by auto.
      rewrite IH.
      + rewrite Hsk. simpl length. simpl seq. simpl map. simpl combine. rewrite <- !app_assoc. auto.
      + intros i c' Hi. specialize (Hcs (S i) c' Hi). rewrite <- Nat.add_succ_comm in Hcs. auto.
      + simpl in Hk. lia.
      + unfold dkeys in *. rewrite map_app, Hd1, Hf1; auto.
      + unfold dkeys in *. rewrite map_app, Hd2, Hf1; auto. }
  unfold enum. rewrite Hgen; auto.
  - simpl. unfold counts_of. rewrite map_length, seq_length. auto.
  - intros i c Hi. unfold counts_of in Hi. apply nth_error_map_some in Hi. destruct Hi as [n [H1 ->]].
    apply nth_error_seq_some in H1. simpl in *. destruct H1 as [-> H1]. split; auto.
    rewrite inc_length, entries_nodes; auto.
  - unfold counts_of. rewrite map_length, seq_length. lia.
Qed.

Lemma dkeys_combine {A} ks (vs : list A) : length vs = length ks -> dkeys (combine ks vs) = ks.
Proof.
  unfold dkeys. revert vs; induction ks as [|k ks IH]; intros [|v vs] H; simpl in *; try discriminate; auto.
  f_equal; auto.
Qed.

Lemma dget_combine {A} ks (vs : list A) i k v :
  NoDup ks -> nth_error ks i = Some k -> nth_error vs i = Some v -> dget (combine ks vs) k = Ok v.
Proof.
  revert vs i; induction ks as [|k0 ks IH]; intros [|v0 vs] [|i] Hnd Hk Hv; simpl in *; try discriminate.
  - inversion Hk; inversion Hv; subst. rewrite Nat.eqb_refl; auto.
  - inversion Hnd; subst. destruct (Nat.eqb_spec k k0).
    + subst. exfalso. apply H1. eapply nth_error_In; eauto.
    + eauto.
Qed.
