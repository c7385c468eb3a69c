(** * Proofs about [TrModel.v], part 3: data, Q9_to_T6, edges of a mesh *)
From Verif Require Export ElevProofs.

(** ** Data *)

Lemma nodal_data_follows {A} (z : A) w topo d path :
  topo <> [] -> rect w topo -> length d = length topo -> rect w d -> valid_path w path ->
  exists t d', transform_topology z topo (P2 path) (DArr (D2 d)) = Ok (t, DArr (D2 d')) /\
    split_along topo path t /\ split_along d path d'.
Proof.
  intros Hne Hw Hl Hd Hv.
  destruct (transform_value 0 w topo path Hw Hv) as [t [V T]].
  destruct (tr_value_total w d path Hd Hv) as [d' V'].
  exists t, d'. split; [|split; apply tr_value_split; auto].
  unfold transform_topology, transform_topology_data. cbn [path_rows].
  assert (Hdne : d <> []) by (intros ->; destruct topo; [congruence|discriminate]).
  rewrite (rect_ncols w d), (rect_ncols w topo), Hl, !Nat.eqb_refl by auto. cbn [andb].
  unfold repeat_cell_nodal_data. rewrite (repeat_any_order z _ d path d'); auto; [|apply Hv].
  cbn [bind]. rewrite T. reflexivity.
Qed.

(** a value computed from the node is carried along *)
Lemma split_along_map {A} w (topo : list (list nat)) (d : list (list A)) (f : nat -> A) path t d' :
  rect w topo -> valid_path w path -> d = map (map f) topo ->
  split_along topo path t -> split_along d path d' -> d' = map (map f) t.
Proof.
  intros Hw [[n Hn] Hv] -> [Lt St] Sd.
  apply (split_along_unique n (map (map f) topo) path); auto.
  2: { intros p q Hp Hq c Hc. apply in_map_iff in Hc. destruct Hc as [c0 [<- Hc]]. rewrite map_length.
       unfold rect in Hw. rewrite Forall_forall in Hw. rewrite (Hw _ Hc). eauto. }
  split; [rewrite !map_length; auto|].
  intros i k cell p Hi Hk. apply nth_error_map_some in Hi. destruct Hi as [c [Hc ->]].
  destruct (St _ _ _ _ Hc Hk) as [row [R1 [R2 R3]]].
  exists (map f row). rewrite nth_error_map, R1, map_length. repeat split; auto.
  intros j q Hj. rewrite !nth_error_map, (R3 _ _ Hj). auto.
Qed.

Lemma cell_data_1d {A} (z : A) w topo d path :
  rect w topo -> length d = length topo -> valid_path w path ->
  exists t d', transform_topology z topo (P2 path) (DArr (D1 d)) = Ok (t, DArr (D1 d')) /\
    split_along topo path t /\ length d' = length t /\
    forall i k x, nth_error d i = Some x -> k < length path -> nth_error d' (i * length path + k) = Some x.
Proof.
  intros Hw Hl Hv. destruct (transform_value 0 w topo path Hw Hv) as [t [V T]].
  do 2 eexists. unfold transform_topology, transform_topology_data. cbn [path_rows].
  rewrite Hl, Nat.eqb_refl. cbn [bind]. rewrite T. split; [reflexivity|].
  pose proof (tr_value_split _ _ _ V) as S. split; auto. split.
  - rewrite repeated_length. destruct S as [S _]. rewrite S, Hl; auto.
  - intros i k x Hi Hk. apply repeated_rows; auto.
Qed.

Lemma cell_data_2d {A} (z : A) w topo (d : list (list A)) path :
  rect w topo -> length d = length topo -> ncols d <> ncols topo -> valid_path w path ->
  exists t d', transform_topology z topo (P2 path) (DArr (D2 d)) = Ok (t, DArr (D2 d')) /\
    split_along topo path t /\ length d' = length t /\
    forall i k x, nth_error d i = Some x -> k < length path -> nth_error d' (i * length path + k) = Some x.
Proof.
  intros Hw Hl Hnc Hv. destruct (transform_value 0 w topo path Hw Hv) as [t [V T]].
  do 2 eexists. unfold transform_topology, transform_topology_data. cbn [path_rows].
  apply Nat.eqb_neq in Hnc. rewrite Hl, Nat.eqb_refl, Hnc. cbn [bind andb]. rewrite T. split; [reflexivity|].
  pose proof (tr_value_split _ _ _ V) as S. split; auto. split.
  - rewrite repeated_length. destruct S as [S _]. rewrite S, Hl; auto.
  - intros i k x Hi Hk. apply repeated_rows; auto.
Qed.

Lemma other_data_rejected {A} (z : A) topo (d : cdata A) path :
  (match d with D1 d => length d | D2 d => length d end) <> length topo ->
  transform_topology z topo (P2 path) (DArr d) = Err NotImplementedError.
Proof.
  intros H. unfold transform_topology, transform_topology_data. cbn [path_rows].
  destruct d as [d|d]; apply Nat.eqb_neq in H; rewrite H; reflexivity.
Qed.

Lemma data_sequence {A} (z : A) topo path ds t ds' :
  transform_topology z topo path (DSeq ds) = Ok (t, DSeq ds') <->
  transform_topology z topo path DNone = Ok (t, DNone) /\ length ds' = length ds /\
  forall i d d', nth_error ds i = Some d -> nth_error ds' i = Some d' ->
    transform_topology z topo path (DArr d) = Ok (t, DArr d').
Proof.
  unfold transform_topology. split.
  - intros H. apply bind_Ok in H. destruct H as [t0 [Ht H]]. apply bind_Ok in H. destruct H as [ds0 [Hds H]].
    injection H as <- <-. rewrite Ht. cbn [bind]. split; auto. split; [eapply mapM_length; eauto|].
    intros i d d' Hi Hi'. destruct (mapM_nth_error _ _ _ _ _ Hds Hi) as [d0 [H1 H2]].
    assert (d0 = d') by congruence. subst d0. rewrite H2. reflexivity.
  - intros [Ht [Hl H]]. apply bind_Ok in Ht. destruct Ht as [t0 [Ht E]]. injection E as ->.
    rewrite Ht in *. cbn [bind] in *.
    assert (Hm : mapM (fun d => transform_topology_data z topo d (path_rows path)) ds = Ok ds').
    { apply mapM_Ok. clear Ht. revert ds' Hl H; induction ds as [|d ds IH]; intros [|d' ds'] Hl H; try discriminate; constructor.
      - specialize (H 0 d d' eq_refl eq_refl). apply bind_Ok in H. destruct H as [x [Hx E]]. injection E as ->. auto.
      - apply IH; [injection Hl; auto|]. intros i a b Ha Hb. apply (H (S i)); auto. }
    rewrite Hm. reflexivity.
Qed.

(** ** Q9_to_T6 *)

Lemma Q9_to_T6_value {C} (coords : C) topo path : rect 9 topo -> valid_path 9 path -> rect 6 path -> length path = 2 ->
  forall op, match op with None => path_Q9_to_T6 | Some p => p end = path ->
  exists t, tr_value topo path = Ok t /\ Q9_to_T6 coords topo op = Ok (coords, t).
Proof.
  intros Hr Hv H6 H2 op Hop. destruct (tr_value_total 9 topo path Hr Hv) as [t V]. exists t. split; auto.
  unfold Q9_to_T6. rewrite Hop.
  assert (Hnc : ncols path = 6) by (apply rect_ncols; auto; destruct path; discriminate).
  set (its := flat_map _ _).
  assert (Hits : forall i j, In (i, j) its <-> i < length topo /\ j < 6).
  { intros i j. unfold its. rewrite in_flat_map. split.
    - intros [x [Hx H]]. apply in_map_iff in H. destruct H as [y [[= -> ->] Hy]]. apply in_seq in Hx, Hy. lia.
    - intros [Hi Hj]. exists i. split; [apply in_seq; lia|]. apply in_map_iff. exists j. split; auto. apply in_seq; lia. }
  assert (Hf : forall i j, i < length topo -> j < 6 -> exists v0 v1,
     Q9_to_T6_writes topo path (i, j) = Ok [(i * 2, j, v0); (i * 2 + 1, j, v1)] /\
     get2o t (i * 2) j = Some v0 /\ get2o t (i * 2 + 1) j = Some v1).
  { intros i j Hi Hj.
    destruct (tr_read topo path t i j 0 6 V H6 Hi Hj ltac:(lia)) as [p0 [v0 [A1 [A2 A3]]]].
    destruct (tr_read topo path t i j 1 6 V H6 Hi Hj ltac:(lia)) as [p1 [v1 [B1 [B2 B3]]]].
    rewrite H2 in A3, B3. exists v0, v1. unfold Q9_to_T6_writes. rewrite A1. cbn [bind]. rewrite A2. cbn [bind].
    rewrite B1. cbn [bind]. rewrite B2. cbn [bind]. split; auto. split; auto. rewrite <- A3. f_equal. lia. }
  destruct (mapM_total (Q9_to_T6_writes topo path) its) as [wss Hwss].
  { intros [i j] Hin. apply Hits in Hin. destruct (Hf i j) as [v0 [v1 [H _]]]; try tauto. eauto. }
  rewrite Hwss. cbn [bind].
  assert (Hrun : run_writes2 (concat wss) (zeros2 0 (2 * length topo) 6) = Ok t); [|rewrite Hrun; reflexivity].
  rewrite <- Hnc, <- H2. apply (tr_fill 0 topo path t 6); [exact V|exact H6|left; exact Hnc|].
  intros a b x. rewrite in_concat, Hnc, H2. split.
  - intros [ws [Hws Hin]]. apply (proj1 (mapM_In _ _ _ _ Hwss)) in Hws. destruct Hws as [[i j] [Hij E]].
    apply Hits in Hij. destruct (Hf i j) as [v0 [v1 [H [G0 G1]]]]; try tauto. rewrite H in E. injection E as <-.
    destruct Hin as [[= <- <- <-]|[[= <- <- <-]|[]]].
    + exists i, j, 0. rewrite Nat.add_0_r. repeat split; auto; lia.
    + exists i, j, 1. repeat split; auto; lia.
  - intros [i [j [k [-> [-> [Hi [Hj [Hk Hx]]]]]]]]. destruct (Hf i j Hi Hj) as [v0 [v1 [H [G0 G1]]]].
    exists [(i * 2, j, v0); (i * 2 + 1, j, v1)]. split.
    + apply (mapM_In _ _ _ _ Hwss). exists (i, j). split; [apply Hits; auto|auto].
    + destruct k as [|[|k]]; [| |lia].
      * left. rewrite Nat.add_0_r in *. congruence.
      * right; left. congruence.
Qed.

(** ** Edges of a mesh *)

(** the groups of sub-cells, cell by cell *)
Lemma split_by_regular {A} n (t : list (list A)) m i k row :
  length t = m * n -> nth_error t (i * n + k) = Some row -> k < n ->
  exists r, nth_error (split_by (repeat n m) t) i = Some r /\ nth_error r k = Some row.
Proof.
  revert t i; induction m as [|m IH]; intros t i Hl Hrow Hk.
  { simpl in Hl. destruct t; [|discriminate]. rewrite nth_error_ge in Hrow by (simpl; lia). discriminate. }
  simpl. destruct i as [|i]; simpl.
  - exists (firstn n t). split; auto. simpl in Hrow. rewrite <- Hrow. clear - Hk.
    revert k Hk t; induction n as [|n IHn]; intros k Hk [|x t]; try lia; [destruct k; auto|]. destruct k; simpl; auto. apply IHn; lia.
  - apply IH; auto; [rewrite skipn_length; lia|].
    rewrite <- Hrow. clear - Hl. rewrite <- (firstn_skipn n t) at 2. rewrite nth_error_app2; rewrite firstn_length; [|lia].
    f_equal. simpl in Hl. lia.
Qed.

Lemma cells_to_L2_ok {C} w ids (coords : C) topo : rect w topo -> valid_path w ids ->
  exists es, cells_to_L2 ids coords topo = Ok (coords, es) /\
    (* every edge of every cell is there *)
    (forall e, edge_of ids topo e -> exists x, In x es /\ Permutation e x) /\
    (* nothing else *)
    (forall x, In x es -> exists e, edge_of ids topo e /\ Permutation e x) /\
    (* no edge twice, not even with its ends exchanged *)
    (forall i j x y, nth_error es i = Some x -> nth_error es j = Some y -> Permutation x y -> i = j).
Proof.
  intros Hw Hv. destruct (transform_value 0 w topo ids Hw Hv) as [t [V T]].
  unfold cells_to_L2. rewrite T. cbn [bind].
  set (t3 := split_by _ t).
  destruct (unique_topo_data_ok t3) as [us [inv [Hu [Hs [Hsort [Hsh [Hall Hback]]]]]]].
  rewrite Hu. cbn [bind fst]. exists us. split; auto.
  assert (Hl : length t = length topo * length ids) by (unfold tr_value in V; apply mapM_length in V; rewrite V, prod_length; auto).
  split; [|split].
  - intros e [cell [ls [Hc [Hls He]]]]. apply In_nth_error in Hc, Hls. destruct Hc as [i Hi], Hls as [k Hk].
    destruct (tr_value_get _ _ _ _ _ _ _ V Hi Hk) as [row [H1 H2]]. assert (row = e) by congruence. subst row.
    assert (Hkl : k < length ids) by (eapply nth_error_Some_lt; eauto).
    destruct (split_by_regular (length ids) t (length topo) i k e Hl H1 Hkl) as [r [R1 R2]].
    destruct (Hall i k e) as [q [x [_ [H3 H4]]]]; [exists r; auto|].
    exists x. split; auto. eapply nth_error_In; eauto.
  - intros x Hx. destruct (Hback x Hx) as [i [j [e [[r [R1 R2]] Hp]]]]. exists e. split; auto.
    assert (Hin : In e t).
    { apply nth_error_In in R1, R2. rewrite <- (concat_split_by (repeat (length ids) (length topo)) t).
      - apply in_concat. exists r; auto.
      - rewrite Hl. clear. induction (length topo) as [|m IH]; simpl repeat; [reflexivity|]. rewrite np_sum_cons, IH; lia. }
    apply (proj1 (mapM_In _ _ _ _ V)) in Hin. destruct Hin as [[cell ls] [Hin He]]. apply in_prod_iff in Hin.
    exists cell, ls. tauto.
  - intros i j x y Hi Hj Hp.
    assert (x = y).
    { apply (sorted_perm_nat x y); [apply Hsort; eapply nth_error_In; eauto..|auto]. }
    subst y. apply (proj1 (NoDup_nth_error us)); [|eapply nth_error_Some_lt; eauto|congruence].
    apply (sorted_NoDup lex_cmp lex_cmp_eq). exact Hs.
Qed.

Lemma split_along_unique_mesh {A} w (topo : list (list A)) path r r' :
  rect w topo -> valid_path w path -> split_along topo path r -> split_along topo path r' -> r = r'.
Proof.
  intros Hw [[n Hn] Hv] H H'. apply (split_along_unique n topo path); auto.
  intros p q Hp Hq c Hc. unfold rect in Hw. rewrite Forall_forall in Hw. rewrite (Hw _ Hc). eauto.
Qed.

Lemma cell_data_ambiguous : exists topo path (d : list (list nat)) t d',
  rect 4 topo /\ valid_path 4 path /\ length d = length topo /\
  transform_topology 0 topo (P2 path) (DArr (D2 d)) = Ok (t, DArr (D2 d')) /\
  exists i k x, nth_error d i = Some x /\ k < length path /\ nth_error d' (i * length path + k) <> Some x.
Proof.
  exists [[0;1;2;3]], [[0;1;2];[0;2;3]], [[5;6;7;8]]. do 2 eexists.
  split; [repeat constructor|]. split; [split; [exists 3; repeat constructor|]|].
  - intros p q [<-|[<-|[]]] H; simpl in H; repeat (destruct H as [<-|H]; [lia|]); contradiction.
  - split; [reflexivity|]. split; [reflexivity|]. exists 0, 0, [5;6;7;8]. simpl. repeat split; auto. discriminate.
Qed.

Ltac valid_edges :=
  split; [eexists; repeat constructor|];
  let p := fresh in let q := fresh in let H := fresh in intros p q H; simpl in H;
  repeat (destruct H as [<-|H]; [let H' := fresh in intros H'; simpl in H'; repeat (destruct H' as [<-|H']; [lia|]); contradiction|]);
  contradiction.
Lemma T3_to_L2_ok {C} (coords : C) topo : rect 3 topo ->
  exists es, T3_to_L2 coords topo = Ok (coords, es) /\
    (forall e, edge_of triangle_edges topo e -> exists x, In x es /\ Permutation e x) /\
    (forall x, In x es -> exists e, edge_of triangle_edges topo e /\ Permutation e x) /\
    (forall i j x y, nth_error es i = Some x -> nth_error es j = Some y -> Permutation x y -> i = j).
Proof. intros H. apply (cells_to_L2_ok 3 edgeIds_T3 coords topo H). valid_edges. Qed.
Lemma TET4_to_L2_ok {C} (coords : C) topo : rect 4 topo ->
  exists es, TET4_to_L2 coords topo = Ok (coords, es) /\
    (forall e, edge_of tetrahedron_edges topo e -> exists x, In x es /\ Permutation e x) /\
    (forall x, In x es -> exists e, edge_of tetrahedron_edges topo e /\ Permutation e x) /\
    (forall i j x y, nth_error es i = Some x -> nth_error es j = Some y -> Permutation x y -> i = j).
Proof. intros H. apply (cells_to_L2_ok 4 edgeIds_TET4 coords topo H). valid_edges. Qed.
Lemma H8_to_L2_ok {C} (coords : C) topo : rect 8 topo ->
  exists es, H8_to_L2 coords topo = Ok (coords, es) /\
    (forall e, edge_of hexahedron_edges topo e -> exists x, In x es /\ Permutation e x) /\
    (forall x, In x es -> exists e, edge_of hexahedron_edges topo e /\ Permutation e x) /\
    (forall i j x y, nth_error es i = Some x -> nth_error es j = Some y -> Permutation x y -> i = j).
Proof. intros H. apply (cells_to_L2_ok 8 edgeIds_H8 coords topo H). valid_edges. Qed.
