(** * Proofs about [TopoModel.v] *)
From Verif Require Export BaseFacts TopoModel TopoSpec.
Arguments node_of : simpl never.

(** ** Loop entries *)

Lemma row_entries_in ir i j n :
  In (i, j, n) (row_entries ir) <-> i = fst ir /\ nth_error (snd ir) j = Some n.
Proof.
  unfold row_entries. rewrite in_map_iff. split.
  - intros [[j' n'] [H1 H2]]. simpl in H1. inversion H1; subst. apply enum_in in H2. auto.
  - intros [-> H]. exists (j, n); simpl; split; auto. apply enum_in; auto.
Qed.

Lemma entries_in t i j n : In (i, j, n) (entries t) <-> get2o t i j = Some n.
Proof.
  unfold entries, get2o. rewrite in_flat_map. split.
  - intros [[i' r] [H1 H2]]. apply row_entries_in in H2. simpl in H2. destruct H2 as [-> H2].
    apply enum_in in H1. rewrite H1; auto.
  - destruct (nth_error t i) as [r|] eqn:E; [|discriminate]. intros H.
    exists (i, r); split; [apply enum_in; auto|]. apply row_entries_in; auto.
Qed.

Lemma flat_map_enum_from {A B} (f : nat * list A -> list B) (g : list A -> list nat) (h : B -> nat) t k :
  (forall i r, map h (f (i, r)) = g r) ->
  map h (flat_map f (enum_from k t)) = flat_map g t.
Proof.
  intros H. revert k; induction t as [|r t IH]; intros k; simpl; auto.
  rewrite map_app, H, IH; auto.
Qed.

Lemma entries_nodes t : map node_of (entries t) = concat t.
Proof.
  unfold entries, enum. rewrite flat_map_enum_from with (g := fun r => r).
  - rewrite flat_map_concat_map, map_id; auto.
  - intros i r. unfold row_entries. simpl. rewrite map_map. simpl.
    unfold enum, node_of. simpl. rewrite enum_from_map_snd; auto.
Qed.

Lemma SS_app {A} (R : A -> A -> Prop) l1 l2 :
  StronglySorted R l1 -> StronglySorted R l2 ->
  (forall x y, In x l1 -> In y l2 -> R x y) -> StronglySorted R (l1 ++ l2).
Proof.
  intros H1 H2 H. induction H1 as [|x l1 Hs IH Hf]; simpl; auto.
  constructor.
  - apply IH. intros; apply H; simpl; auto.
  - rewrite Forall_app. split; auto. rewrite Forall_forall; intros; apply H; simpl; auto.
Qed.

Lemma SS_map {A B} (R : A -> A -> Prop) (Q : B -> B -> Prop) (f : A -> B) l :
  (forall x y, R x y -> Q (f x) (f y)) -> StronglySorted R l -> StronglySorted Q (map f l).
Proof.
  intros H; induction 1 as [|x l Hs IH Hf]; simpl; constructor; auto.
  rewrite Forall_forall in *. intros y Hy. apply in_map_iff in Hy. destruct Hy as [z [<- Hz]]. auto.
Qed.

Lemma SS_filter {A} (R : A -> A -> Prop) (p : A -> bool) l :
  StronglySorted R l -> StronglySorted R (filter p l).
Proof.
  induction 1 as [|x l Hs IH Hf]; simpl; [constructor|].
  destruct (p x); auto. constructor; auto.
  rewrite Forall_forall in *. intros y Hy. apply filter_In in Hy. apply Hf; tauto.
Qed.

Lemma enum_from_sorted {A} (l : list A) k : StronglySorted (fun p q => fst p < fst q) (enum_from k l).
Proof.
  revert k; induction l as [|x xs IH]; intros k; simpl; constructor; auto.
  rewrite Forall_forall; intros [i y] H. apply enum_from_in in H. simpl; lia.
Qed.

Lemma row_entries_sorted ir : StronglySorted (fun e e' => lex2 (fst e) (fst e')) (row_entries ir).
Proof.
  unfold row_entries. eapply SS_map; [|apply enum_from_sorted].
  intros x y H. right; simpl; auto.
Qed.

Lemma entries_sorted t : StronglySorted (fun e e' => lex2 (fst e) (fst e')) (entries t).
Proof.
  unfold entries, enum. generalize 0.
  induction t as [|r t IH]; intros k; simpl; [constructor|].
  apply SS_app; auto using row_entries_sorted.
  intros [[i j] n] [[i' j'] n'] H1 H2. apply row_entries_in in H1. simpl in H1.
  apply in_flat_map in H2. destruct H2 as [[i2 r2] [H2 H3]].
  apply row_entries_in in H3; simpl in H3. apply enum_from_in in H2.
  left; simpl. lia.
Qed.

(** csr data that stores the rows [t] *)
Lemma entries_csr_ok t :
  entries_csr (indptr (map (@length nat) t)) (concat t) = Ok (entries t).
Proof.
  unfold entries_csr. rewrite indptr_length, map_length. cbn [Nat.sub]. rewrite Nat.sub_0_r.
  assert (Hrow : forall k i, i < length t -> i = k ->
            (do lo <- get (indptr (map (@length nat) t)) i;
             do hi <- get (indptr (map (@length nat) t)) (S i);
             mapM (fun j => do n <- get (concat t) (lo + j); Ok (i, j, n)) (seq 0 (hi - lo)))
            = Ok (row_entries (i, nth i t []))).
  { intros k i Hi _. destruct (nth_error_lt t i Hi) as [r Hr].
    assert (Hnth : nth i t [] = r) by (apply nth_error_nth; auto).
    unfold get. rewrite !indptr_nth by (rewrite map_length; lia). cbn [bind].
    erewrite sum_firstn_S by (rewrite nth_error_map, Hr; simpl; eauto).
    replace (np_sum (firstn i (map (@length nat) t)) + length r - np_sum (firstn i (map (@length nat) t)))
      with (length r) by lia.
    rewrite Hnth. unfold row_entries. cbn [fst snd].
    pose proof (slice_concat t i r Hr) as Hsl. unfold slice in Hsl.
    erewrite sum_firstn_S in Hsl by (rewrite nth_error_map, Hr; simpl; eauto).
    replace (np_sum (firstn i (map (@length nat) t)) + length r - np_sum (firstn i (map (@length nat) t)))
      with (length r) in Hsl by lia.
    set (s := np_sum (firstn i (map (@length nat) t))) in *.
    assert (Hget : forall j n, nth_error r j = Some n -> nth_error (concat t) (s + j) = Some n).
    { intros j n Hj. assert (Hjl : j < length r) by (eapply nth_error_Some_lt; eauto).
      rewrite <- Hsl in Hj.
      assert (Hsk : forall (l : list nat) a b, b < length r -> nth_error (firstn (length r) (skipn a l)) b = nth_error l (a + b)).
      { clear. generalize (length r) as m. intros m l a b Hb.
        revert l; induction a as [|a IH]; intros l; simpl.
        - revert m b Hb; induction l as [|x l IHl]; intros [|m] [|b] Hb; simpl; auto; try lia.
          apply IHl; lia.
        - destruct l; simpl; auto. destruct m; destruct b; auto; try lia. }
      rewrite Hsk in Hj by auto. auto. }
    apply mapM_Ok.
    assert (Hgen : forall r' k0, (forall j n, nth_error r' j = Some n -> nth_error (concat t) (s + (k0 + j)) = Some n) ->
              Forall2 (fun x y => (do n <- get (concat t) (s + x); Ok (i, x, n)) = Ok y)
                (seq k0 (length r')) (map (fun jn => (i, fst jn, snd jn)) (enum_from k0 r'))).
    { induction r' as [|x r' IH]; intros k0 H0; simpl; constructor.
      - unfold get. specialize (H0 0 x eq_refl). rewrite Nat.add_0_r in H0. rewrite H0; auto.
      - apply IH. intros j n Hj. specialize (H0 (S j) n Hj). rewrite <- H0. f_equal; lia. }
    apply Hgen. intros j n Hj; simpl; auto. }
  rewrite mapM_map with (g := fun i => row_entries (i, nth i t [])).
  2:{ intros i Hi. apply in_seq in Hi. apply (Hrow i i); lia. }
  simpl. f_equal. unfold entries.
  rewrite flat_map_concat_map. f_equal.
  apply nth_error_ext; intros i. rewrite !nth_error_map.
  rewrite nth_error_enum.
  destruct (nth_error t i) as [r|] eqn:E; simpl.
  - rewrite nth_error_seq by (eapply nth_error_Some_lt; eauto). simpl.
    rewrite (nth_error_nth _ _ _ E); auto.
  - apply nth_error_None in E. rewrite (nth_error_ge (seq 0 (length t)) i); auto. rewrite seq_length; auto.
Qed.

(** ** Counting *)

Lemma incr_spec c n c' :
  incr c n = Ok c' <->
  exists v, nth_error c n = Some v /\ length c' = length c /\
    (forall k, nth_error c' k = if Nat.eqb k n then Some (v + 1) else nth_error c k).
Proof.
  unfold incr. split.
  - intros H; inv_ok. apply get_Ok in Hok. exists a; split; auto. split; [eapply set_length; eauto|].
    intros k. eapply set_nth_error; eauto.
  - intros [v [H1 [H2 H3]]]. unfold get; rewrite H1; simpl.
    destruct (proj2 (set_Ok_iff c n (v + 1))) as [c'' Hc]; [eapply nth_error_Some_lt; eauto|].
    rewrite Hc. f_equal. apply nth_error_ext; intros k. rewrite H3. eapply set_nth_error; eauto.
Qed.

Lemma incr_map f nN n :
  n < nN ->
  incr (map f (seq 0 nN)) n = Ok (map (fun k => if Nat.eqb k n then f k + 1 else f k) (seq 0 nN)).
Proof.
  intros H. apply incr_spec. exists (f n). rewrite !map_length. split.
  - rewrite nth_error_map, nth_error_seq; auto.
  - split; auto. intros k. rewrite !nth_error_map.
    destruct (le_lt_dec nN k) as [Hk|Hk].
    + rewrite nth_error_ge by (rewrite seq_length; auto). destruct (Nat.eqb_spec k n); auto. lia.
    + rewrite nth_error_seq by auto. simpl. destruct (Nat.eqb_spec k n); subst; auto.
Qed.

Lemma incr_out c n : length c <= n -> incr c n = Err IndexError.
Proof. intros H; unfold incr, get. rewrite nth_error_ge; auto. Qed.

(** positions of node [n], in loop order *)
Definition inc (es : list (nat * nat * nat)) (n : nat) : list (nat * nat) :=
  map fst (filter (fun e => Nat.eqb (node_of e) n) es).

Lemma inc_app es1 es2 n : inc (es1 ++ es2) n = inc es1 n ++ inc es2 n.
Proof. unfold inc. rewrite filter_app, map_app; auto. Qed.

Lemma inc_length es n : length (inc es n) = count_occ Nat.eq_dec (map node_of es) n.
Proof.
  unfold inc. rewrite map_length. induction es as [|e es IH]; simpl; auto.
  destruct (Nat.eq_dec (node_of e) n), (Nat.eqb_spec (node_of e) n); simpl; auto; congruence.
Qed.

Lemma count_loop_ok es nN :
  (forall e, In e es -> node_of e < nN) ->
  count_loop es nN = Ok (map (fun n => count_occ Nat.eq_dec (map node_of es) n) (seq 0 nN)).
Proof.
  unfold count_loop. intros H.
  assert (Hgen : forall f, (forall e, In e es -> node_of e < nN) ->
     foldM (fun c e => incr c (node_of e)) es (map f (seq 0 nN)) =
     Ok (map (fun n => f n + count_occ Nat.eq_dec (map node_of es) n) (seq 0 nN))).
  { clear H. induction es as [|e es IH]; intros f H; simpl.
    - f_equal. apply map_ext; intros; lia.
    - rewrite incr_map by (apply H; simpl; auto). simpl.
      rewrite IH by (intros; apply H; simpl; auto). f_equal. apply map_ext; intros n.
      destruct (Nat.eq_dec (node_of e) n), (Nat.eqb_spec n (node_of e)); subst; try congruence; lia. }
  replace (zeros 0 nN) with (map (fun _ => 0) (seq 0 nN)).
  - rewrite Hgen; auto.
  - unfold zeros. clear. generalize 0 at 2. induction nN as [|n IH]; intros k; simpl; f_equal; auto.
Qed.

Lemma count_loop_fail es nN :
  (exists e, In e es /\ nN <= node_of e) -> count_loop es nN = Err IndexError.
Proof.
  unfold count_loop.
  assert (Hgen : forall c, length c = nN -> (exists e, In e es /\ nN <= node_of e) ->
                 foldM (fun c e => incr c (node_of e)) es c = Err IndexError).
  { induction es as [|e es IH]; intros c Hc [e' [H1 H2]]; [contradiction|]. simpl.
    destruct (le_lt_dec nN (node_of e)) as [Hl|Hl].
    - rewrite incr_out by lia; auto.
    - destruct (incr c (node_of e)) as [c'|x] eqn:E; simpl.
      + apply IH.
        * apply incr_spec in E. destruct E as [v [_ [E _]]]; lia.
        * destruct H1 as [->|H1]; [lia|eauto].
      + exfalso. destruct (nth_error_lt c (node_of e)) as [v Hv]; [lia|].
        unfold incr, get in E. rewrite Hv in E. simpl in E.
        destruct (proj2 (set_Ok_iff c (node_of e) (v+1))) as [c' Hc']; [lia|]. congruence. }
  apply Hgen. apply repeat_length.
Qed.

Lemma np_max_nodes t m :
  np_max (concat t) = Ok m -> forall e, In e (entries t) -> node_of e < m + 1.
Proof.
  intros H e He. apply np_max_spec in H. destruct H as [_ H].
  assert (In (node_of e) (concat t)) by (rewrite <- entries_nodes; apply in_map; auto).
  specialize (H _ H0). lia.
Qed.

Definition counts_of (t : list (list nat)) (nN : nat) : list nat :=
  map (fun n => count_occ Nat.eq_dec (concat t) n) (seq 0 nN).

Lemma count_reg_np_ok t m :
  np_max (concat t) = Ok m -> count_cells_at_nodes_reg_np t = Ok (counts_of t (m + 1)).
Proof.
  intros H. unfold count_cells_at_nodes_reg_np. rewrite H; simpl.
  rewrite count_loop_ok by (eapply np_max_nodes; eauto). rewrite entries_nodes; auto.
Qed.

Lemma count_reg_ak_ok t m :
  np_max (concat t) = Ok m -> count_cells_at_nodes_reg_ak t (m + 1) = Ok (counts_of t (m + 1)).
Proof.
  intros H. unfold count_cells_at_nodes_reg_ak.
  rewrite count_loop_ok by (eapply np_max_nodes; eauto). rewrite entries_nodes; auto.
Qed.

Lemma count_reg_csr_ok t m :
  np_max (concat t) = Ok m ->
  count_cells_at_nodes_reg_csr (indptr (map (@length nat) t)) (concat t) = Ok (counts_of t (m + 1)).
Proof.
  intros H. unfold count_cells_at_nodes_reg_csr. rewrite H; simpl. rewrite entries_csr_ok; simpl.
  rewrite count_loop_ok by (eapply np_max_nodes; eauto). rewrite entries_nodes; auto.
Qed.

(** dictionary counts *)
Lemma dset_map_in {A} (f : nat -> A) ks k v :
  NoDup ks -> In k ks ->
  dset (map (fun g => (g, f g)) ks) k v = map (fun g => (g, if Nat.eqb g k then v else f g)) ks.
Proof.
  induction ks as [|g ks IH]; intros Hnd Hin; simpl; [contradiction|].
  inversion Hnd; subst. destruct (Nat.eqb_spec k g).
  - subst. rewrite Nat.eqb_refl. f_equal. apply map_ext_in. intros a Ha.
    destruct (Nat.eqb_spec a g); auto. subst; contradiction.
  - destruct (Nat.eqb_spec g k); [congruence|]. f_equal. apply IH; auto.
    destruct Hin; [congruence|auto].
Qed.

Lemma dget_map {A} (f : nat -> A) ks k :
  dget (map (fun g => (g, f g)) ks) k = if existsb (Nat.eqb k) ks then Ok (f k) else Err KeyError.
Proof.
  induction ks as [|g ks IH]; simpl; auto.
  destruct (Nat.eqb_spec k g); simpl; subst; auto.
Qed.

Lemma existsb_eqb_in k ks : existsb (Nat.eqb k) ks = true <-> In k ks.
Proof.
  rewrite existsb_exists. split.
  - intros [x [H1 H2]]. apply Nat.eqb_eq in H2; subst; auto.
  - intros H; exists k; split; auto. apply Nat.eqb_refl.
Qed.

Lemma dget_map_in {A} (f : nat -> A) ks k :
  In k ks -> dget (map (fun g => (g, f g)) ks) k = Ok (f k).
Proof. intros H. rewrite dget_map. apply existsb_eqb_in in H. rewrite H; auto. Qed.

Lemma dkeys_map {A} (f : nat -> A) ks : dkeys (map (fun g => (g, f g)) ks) = ks.
Proof. unfold dkeys. rewrite map_map. simpl. apply map_id. Qed.

Lemma count_loop_dict_ok es ids gs :
  NoDup ids -> mapM (get ids) (map node_of es) = Ok gs ->
  count_loop_dict es ids = Ok (map (fun g => (g, count_occ Nat.eq_dec gs g)) ids).
Proof.
  intros Hnd Hgs. unfold count_loop_dict.
  assert (Hinit : fold_left (fun d g => dset d g 0) ids [] = map (fun g => (g, 0)) ids).
  { rewrite (fold_dset_fresh (fun g => g) (fun _ => 0)); simpl; auto. rewrite map_id; auto. }
  rewrite Hinit.
  assert (Hgen : forall f gs, mapM (get ids) (map node_of es) = Ok gs ->
     foldM (fun d e => do g <- get ids (node_of e); dincr d g) es (map (fun g => (g, f g)) ids) =
     Ok (map (fun g => (g, f g + count_occ Nat.eq_dec gs g)) ids)).
  { clear gs Hgs Hinit. induction es as [|e es IH]; intros f gs Hgs; simpl in *; inv_ok.
    - simpl. f_equal. apply map_ext; intros; simpl. f_equal; lia.
    - assert (Hin : In a ids) by (apply get_Ok in Hok; eapply nth_error_In; eauto).
      assert (Hd : dincr (map (fun g => (g, f g)) ids) a =
                   Ok (map (fun g => (g, if Nat.eqb g a then f a + 1 else f g)) ids)).
      { unfold dincr. rewrite dget_map_in by auto. cbn [bind]. rewrite dset_map_in by auto. auto. }
      rewrite Hok; cbn [bind]. rewrite Hd. cbn [bind].
      rewrite (IH (fun g => if Nat.eqb g a then f a + 1 else f g) a0) by auto.
      f_equal. apply map_ext; intros g. simpl. f_equal.
      destruct (Nat.eq_dec a g), (Nat.eqb_spec g a); subst; try congruence; lia. }
  rewrite (Hgen (fun _ => 0) gs) by auto. reflexivity.
Qed.

(** ** Regularization *)

Lemma unique_inverse_take l u inv :
  unique_inverse Nat.compare l = Ok (u, inv) -> take u inv = Ok l.
Proof.
  intros H. apply unique_inverse_spec in H; [|apply nat_cmp_eq]. destruct H as [-> [Hl H]].
  unfold take. apply mapM_Ok.
  assert (Hgen : forall (l inv : list nat), length inv = length l ->
     (forall i x, nth_error l i = Some x -> exists k, nth_error inv i = Some k /\ nth_error (unique Nat.compare l) k = Some x) ->
     True) by auto.
  clear Hgen. set (u := unique Nat.compare l) in *. clearbody u.
  revert inv Hl H; induction l as [|x l IH]; intros [|k inv] Hl H; simpl in *; try discriminate; constructor.
  - destruct (H 0 x eq_refl) as [k' [H1 H2]]. simpl in H1. inversion H1; subst. apply get_Ok; auto.
  - apply IH; [lia|]. intros i y Hi. apply (H (S i) y Hi).
Qed.

Lemma take_nth {A} (a : list A) inds r i k :
  take a inds = Ok r -> nth_error inds i = Some k -> exists x, nth_error r i = Some x /\ nth_error a k = Some x.
Proof.
  intros H Hi. destruct (mapM_nth_error _ _ _ _ _ H Hi) as [x [H1 H2]]. apply get_Ok in H2. eauto.
Qed.

Lemma take_ok {A} (a : list A) inds : (forall k, In k inds -> k < length a) -> exists r, take a inds = Ok r.
Proof. intros H. apply mapM_total. intros k Hk. apply get_lt; auto. Qed.

Lemma take_app {A} (a : list A) i1 i2 :
  take a (i1 ++ i2) = (do r1 <- take a i1; do r2 <- take a i2; Ok (r1 ++ r2)).
Proof. apply mapM_app. Qed.

(** cutting by widths commutes with row-wise lookup *)
Lemma mapM_split_by {A B} (f : A -> res B) cuts l r :
  mapM f l = Ok r -> mapM (mapM f) (split_by cuts l) = Ok (split_by cuts r).
Proof.
  revert l r; induction cuts as [|c cs IH]; intros l r H; simpl; auto.
  rewrite <- (firstn_skipn c l) in H. rewrite mapM_app in H. inv_ok.
  rewrite Hok. simpl. rewrite (IH _ _ Hok0). simpl. do 2 f_equal.
  - apply mapM_length in Hok. assert (length a <= c) by (rewrite Hok, firstn_length; lia).
    rewrite firstn_app. destruct (Nat.eq_dec (length a) c) as [E|E].
    + rewrite E, Nat.sub_diag. simpl. rewrite app_nil_r. symmetry; rewrite <- E at 1; apply firstn_all.
    + assert (a0 = []).
      { apply mapM_length in Hok0. destruct a0; auto. rewrite firstn_length in Hok. rewrite skipn_length in Hok0.
        simpl in Hok0. lia. }
      subst. rewrite firstn_nil, app_nil_r. rewrite firstn_all2; auto.
  - f_equal. apply mapM_length in Hok. assert (length a <= c) by (rewrite Hok, firstn_length; lia).
    rewrite skipn_app. destruct (Nat.eq_dec (length a) c) as [E|E].
    + rewrite E, Nat.sub_diag. simpl. rewrite (skipn_all2 a) by lia. auto.
    + assert (a0 = []).
      { apply mapM_length in Hok0. destruct a0; auto. rewrite firstn_length in Hok. rewrite skipn_length in Hok0.
        simpl in Hok0. lia. }
      subst. rewrite skipn_nil, app_nil_r. rewrite skipn_all2 by lia. auto.
Qed.

Definition take2 {A} (a : list A) (t : list (list nat)) : res (list (list A)) := mapM (take a) t.

Lemma regular_rows_take t u inv :
  unique_inverse Nat.compare (concat t) = Ok (u, inv) ->
  take2 u (split_by (map (@length nat) t) inv) = Ok t.
Proof.
  intros H. apply unique_inverse_take in H. unfold take2, take.
  rewrite (mapM_split_by _ _ _ _ H). rewrite split_by_concat; auto.
Qed.

Lemma unique_inverse_concat t u inv :
  unique_inverse Nat.compare (concat t) = Ok (u, inv) ->
  concat (split_by (map (@length nat) t) inv) = inv.
Proof.
  intros H. apply concat_split_by.
  apply unique_inverse_spec in H; [|apply nat_cmp_eq]. destruct H as [_ [H _]].
  rewrite H, length_concat; auto.
Qed.

Lemma split_by_lengths {A} cuts (l : list A) :
  np_sum cuts = length l -> map (@length A) (split_by cuts l) = cuts.
Proof.
  revert l; induction cuts as [|c cs IH]; intros l H; simpl; auto.
  rewrite np_sum_cons in H. rewrite firstn_length, IH by (rewrite skipn_length; lia).
  f_equal; lia.
Qed.

Lemma inverse_row_lengths t u inv :
  unique_inverse Nat.compare (concat t) = Ok (u, inv) ->
  map (@length nat) (split_by (map (@length nat) t) inv) = map (@length nat) t.
Proof.
  intros H. apply split_by_lengths.
  apply unique_inverse_spec in H; [|apply nat_cmp_eq]. destruct H as [_ [H _]].
  rewrite H, length_concat; auto.
Qed.

(** the inverse uses exactly the positions of the unique list *)
Lemma inverse_covers l u inv k :
  unique_inverse Nat.compare l = Ok (u, inv) -> (In k inv <-> k < length u).
Proof.
  intros H. pose proof (unique_inverse_take _ _ _ H) as Ht.
  pose proof H as H'. apply unique_inverse_spec in H; [|apply nat_cmp_eq]. destruct H as [Hu [Hl H]].
  split.
  - intros Hin. apply In_nth_error in Hin. destruct Hin as [i Hi].
    destruct (take_nth _ _ _ _ _ Ht Hi) as [x [H1 H2]]. eapply nth_error_Some_lt; eauto.
  - intros Hk. destruct (nth_error_lt u k Hk) as [x Hx].
    assert (Hin : In x l) by (apply (unique_in Nat.compare nat_cmp_eq); rewrite <- Hu; eapply nth_error_In; eauto).
    apply In_nth_error in Hin. destruct Hin as [i Hi].
    destruct (H i x Hi) as [k' [H1 H2]].
    assert (k = k').
    { eapply (proj1 (NoDup_nth_error u)); [rewrite Hu; apply np_unique_NoDup|auto|congruence]. }
    subst. eapply nth_error_In; eauto.
Qed.

(** order is preserved *)
Lemma inverse_monotone l u inv i j x y a b :
  unique_inverse Nat.compare l = Ok (u, inv) ->
  nth_error l i = Some x -> nth_error l j = Some y ->
  nth_error inv i = Some a -> nth_error inv j = Some b ->
  (x < y <-> a < b).
Proof.
  intros H Hx Hy Ha Hb.
  pose proof H as H'. apply unique_inverse_spec in H; [|apply nat_cmp_eq]. destruct H as [Hu [Hl H]].
  destruct (H i x Hx) as [a' [H1 H2]]. destruct (H j y Hy) as [b' [H3 H4]].
  rewrite Ha in H1; rewrite Hb in H3. inversion H1; inversion H3; subst a' b'.
  rewrite <- Nat.compare_lt_iff. symmetry.
  eapply sorted_nth_lt with (cmp := Nat.compare) (l := u); eauto.
  - apply nat_cmp_eq.
  - apply nat_cmp_anti.
  - rewrite Hu. apply unique_sorted; [apply nat_cmp_eq|apply nat_cmp_anti|apply nat_cmp_trans].
Qed.

(** ** is_regular *)

Lemma NoDup_bounded_length l m :
  NoDup l -> (forall k, In k l -> k <= m) -> length l <= m + 1.
Proof.
  intros H1 H2. rewrite <- (seq_length (m + 1) 0). apply NoDup_incl_length; auto.
  intros k Hk. apply in_seq. specialize (H2 k Hk). lia.
Qed.

Lemma is_regular_flat l :
  l <> [] ->
  (do mn <- np_min l; do mx <- np_max l;
   Ok (Nat.eqb mn 0 && Nat.eqb (length (np_unique l)) (mx + 1))%bool) = Ok true <-> tight l.
Proof.
  intros Hne.
  destruct (np_max_ok l Hne) as [mx Hmx].
  assert (exists mn, np_min l = Ok mn) as [mn Hmn] by (destruct l; [congruence|simpl; eauto]).
  rewrite Hmn, Hmx; simpl.
  apply np_max_spec in Hmx. apply np_min_spec in Hmn. destruct Hmx as [Hx1 Hx2], Hmn as [Hn1 Hn2].
  split.
  - intros H. injection H as H. apply andb_true_iff in H. destruct H as [H1 H2].
    apply Nat.eqb_eq in H1, H2. subst mn. exists mx. intros k; split; [apply Hx2|].
    intros Hk.
    assert (Hincl : incl (seq 0 (mx + 1)) (np_unique l)).
    { apply NoDup_length_incl.
      - apply np_unique_NoDup.
      - rewrite seq_length; lia.
      - intros x Hx. apply (np_unique_in l x) in Hx. apply in_seq. specialize (Hx2 x Hx). lia. }
    apply np_unique_in. apply Hincl. apply in_seq; lia.
  - intros [m Hm].
    assert (m = mx).
    { apply Nat.le_antisymm; [apply Hx2; apply Hm; lia|apply Hm; auto]. }
    subst m. assert (mn = 0) by (assert (mn <= 0) by (apply Hn2; apply Hm; lia); lia). subst mn.
    f_equal. apply andb_true_iff; split; [reflexivity|]. apply Nat.eqb_eq.
    rewrite (np_unique_ext l (seq 0 (mx + 1))).
    + apply seq_length.
    + apply seq_sorted.
    + intros k. rewrite Hm, in_seq. lia.
Qed.

Lemma tight_inverse l u inv : l <> [] -> unique_inverse Nat.compare l = Ok (u, inv) -> tight inv.
Proof.
  intros Hne H. exists (length u - 1). intros k. rewrite (inverse_covers _ _ _ k H).
  assert (length u <> 0).
  { apply unique_inverse_spec in H; [|apply nat_cmp_eq]. destruct H as [-> _].
    destruct l as [|x l]; [congruence|]. intros E. apply length_zero_iff_nil in E.
    assert (In x (np_unique (x :: l))) by (apply np_unique_in; left; auto).
    unfold np_unique in H. rewrite E in H; contradiction. }
  lia.
Qed.

(** regularizing regular data changes nothing *)
Lemma inverse_tight_id l u inv :
  tight l -> unique_inverse Nat.compare l = Ok (u, inv) -> u = seq 0 (length u) /\ inv = l.
Proof.
  intros [m Hm] H. pose proof H as H'.
  apply unique_inverse_spec in H; [|apply nat_cmp_eq]. destruct H as [Hu [Hl H]].
  assert (Hseq : u = seq 0 (m + 1)).
  { rewrite Hu. apply (np_unique_ext l); [apply seq_sorted|].
    intros k; rewrite Hm, in_seq; lia. }
  split.
  - rewrite Hseq, seq_length; auto.
  - apply nth_error_ext; intros i.
    destruct (nth_error l i) as [x|] eqn:E.
    + destruct (H i x E) as [k [H1 H2]]. rewrite Hseq in H2. apply nth_error_seq_some in H2.
      rewrite H1. f_equal. lia.
    + apply nth_error_None in E. apply nth_error_ge. lia.
Qed.
