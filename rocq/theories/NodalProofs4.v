(** * Proofs about [NodalModel.v]: exploding and decomposing meshes, centres *)
From Coq Require Import Reals Lra Lia List Permutation.
From Verif Require Import NodalModel NodalSpec BaseFacts FillFacts TopoProofs TrModel TrProofs ElevProofs ShapeProofs2 ShapeProofs3 ShapeProofs4 TriProofs3 LocProofs3 LocProofs9 NodalProofs NodalProofs2 NodalProofs3.
Import ListNotations.
Local Open Scope R_scope.

Lemma concat_inv {A} m (t : list (list A)) k x : rect m t -> nth_error (concat t) k = Some x ->
  exists i j r, k = (i * m + j)%nat /\ (j < m)%nat /\ nth_error t i = Some r /\ nth_error r j = Some x.
Proof.
  intros HR Hk. destruct (nth_error_concat_rect_inv m t k x HR Hk) as (Hm & r & Hr & Hx). exists (k / m)%nat, (k mod m)%nat, r. split; [rewrite Nat.mul_comm; apply Nat.div_mod; lia|]. split; [apply Nat.mod_upper_bound; lia|]. auto.
Qed.
Lemma es_entry es topo i j n : Permutation (entries topo) es -> (In (i, j, n) es <-> entry topo i j n).
Proof.
  intros HP. split.
  - intros H. apply (Permutation_in _ (Permutation_sym HP)) in H. apply entries_in in H. unfold get2o in H. destruct (nth_error topo i) as [r|] eqn:E; [|discriminate]. exists r. auto.
  - intros (r & Hr & Hj). apply (Permutation_in _ HP). apply entries_in. unfold get2o. now rewrite Hr.
Qed.
(** ** exploding *)
Definition own_nodes (nE nNE : nat) : list (list nat) := map (fun i => seq (i * nNE) nNE) (seq 0 nE).
Lemma own_concat nE nNE : concat (own_nodes nE nNE) = seq 0 (nE * nNE).
Proof.
  unfold own_nodes. assert (G : forall n k, concat (map (fun i => seq (i * nNE) nNE) (seq k n)) = seq (k * nNE) (n * nNE)).
  { induction n as [|n IH]; intros k; [reflexivity|]. cbn [seq map concat]. rewrite IH. cbn [Nat.mul]. rewrite seq_app. f_equal. f_equal. lia. }
  exact (G nE 0%nat).
Qed.
Lemma own_rect nE nNE : rect nNE (own_nodes nE nNE) /\ length (own_nodes nE nNE) = nE.
Proof.
  unfold own_nodes. split; [|now rewrite map_length, seq_length]. apply Forall_forall. intros r Hr. apply in_map_iff in Hr. destruct Hr as (i & <- & _). apply seq_length.
Qed.
Lemma own_entry nE nNE i j : (i < nE)%nat -> (j < nNE)%nat -> cell_entry (own_nodes nE nNE) i j (i * nNE + j)%nat.
Proof.
  intros Hi Hj. unfold cell_entry, own_nodes. rewrite nth_error_map, nth_error_seq by assumption. exists (seq (i * nNE) nNE). split; [reflexivity|]. now rewrite nth_error_seq.
Qed.
Lemma own_entry_inv nE nNE i j x : cell_entry (own_nodes nE nNE) i j x -> (i < nE)%nat /\ (j < nNE)%nat /\ x = (i * nNE + j)%nat.
Proof.
  intros (r & Hr & Hj). unfold own_nodes in Hr. rewrite nth_error_map in Hr. destruct (nth_error (seq 0 nE) i) as [k|] eqn:E; [|discriminate]. apply nth_error_seq_some in E. destruct E as [-> Hi].
  injection Hr as <-. apply nth_error_seq_some in Hj. destruct Hj as [-> Hj]. auto.
Qed.
Lemma entry_bounds nNE topo i j n : rect nNE topo -> entry topo i j n -> (i < length topo)%nat /\ (j < nNE)%nat.
Proof. intros HR (r & Hr & Hj). split; [eapply nth_error_Some_lt; eauto|]. rewrite <- (rect_nth nNE topo i r HR Hr). eapply nth_error_Some_lt; eauto. Qed.
Lemma bounds_entry nNE topo i j : rect nNE topo -> (i < length topo)%nat -> (j < nNE)%nat -> exists n, entry topo i j n.
Proof. intros HR Hi Hj. destruct (nth_error_lt topo i Hi) as [r Hr]. destruct (nth_error_lt r j) as [n Hn]; [rewrite (rect_nth nNE topo i r HR Hr); assumption|]. exists n, r. auto. Qed.
Lemma mesh_entry coords topo ecs i j n p : mesh_at coords topo ecs -> entry topo i j n -> nth_error coords n = Some p -> cell_entry ecs i j p.
Proof.
  intros HM (r & Hr & Hj) Hp. destruct (Forall2_nth_error _ _ _ _ _ HM Hr) as (ec & Hec & HN). destruct (Forall2_nth_error _ _ _ _ _ HN Hj) as (q & Hq & Hq2). exists ec. split; [assumption|]. congruence.
Qed.
Lemma mesh_shape coords topo ecs : mesh_at coords topo ecs -> same_shape topo ecs.
Proof.
  intros HM. unfold same_shape. induction HM as [|r ec topo ecs H HM IH]; [reflexivity|]. cbn. f_equal; [|assumption]. clear - H. induction H; cbn; congruence.
Qed.
Lemma mesh_rect nNE coords topo ecs : mesh_at coords topo ecs -> rect nNE topo -> rect nNE ecs.
Proof.
  intros HM HR. pose proof (mesh_shape _ _ _ HM) as HS. apply Forall_forall. intros ec Hec. apply In_nth_error in Hec. destruct Hec as (i & Hi).
  assert (E : nth_error (map (@length nat) topo) i = nth_error (map (@length (list R)) ecs) i) by (now rewrite HS). rewrite !nth_error_map, Hi in E. destruct (nth_error topo i) as [r|] eqn:Er; [|discriminate].
  injection E as <-. apply (rect_nth nNE topo i r HR Er).
Qed.
Lemma mesh_exists coords topo : (forall n, used topo n -> (n < length coords)%nat) -> exists ecs, mesh_at coords topo ecs.
Proof.
  intros HU. destruct (mapM_total (mapM (get coords)) topo) as [ecs E].
  { intros r Hr. apply mapM_total. intros n Hn. destruct (nth_error_lt coords n) as [p Hp]; [|exists p; now apply get_Ok]. apply HU. apply In_nth_error in Hr, Hn. destruct Hr as (i & Hi), Hn as (j & Hj). exists i, j, r. auto. }
  exists ecs. apply mapM_Ok in E. apply (Forall2_weak (fun r ec => mapM (get coords) r = Ok ec)); [|exact E]. intros r ec H. apply mapM_Ok in H. apply (Forall2_weak (fun n p => get coords n = Ok p)); [|exact H]. intros n p Hp. now apply get_Ok.
Qed.

Lemma explode_value : forall es coords topo ecs, rect (ncols topo) topo -> mesh_at coords topo ecs -> Permutation (entries topo) es ->
  explode_in es coords topo = Ok (concat ecs, own_nodes (length topo) (ncols topo)).
Proof.
  intros es coords topo ecs HR HM HP. unfold explode_in. set (m := ncols topo) in *.
  set (f := fun e : nat * nat * nat => do p <- get coords (snd e); Ok ((fst (fst e) * m + snd (fst e))%nat, p)).
  assert (HF : forall i j n, entry topo i j n -> exists p, cell_entry ecs i j p /\ f (i, j, n) = Ok ((i * m + j)%nat, p)).
  { intros i j n (r & Hr & Hj). destruct (Forall2_nth_error _ _ _ _ _ HM Hr) as (ec & Hec & HN). destruct (Forall2_nth_error _ _ _ _ _ HN Hj) as (q & Hq & Hq2). exists q. split; [exists ec; auto|].
    unfold f. cbn [fst snd]. now rewrite (proj2 (get_Ok _ _ _) Hq2). }
  destruct (mapM_total f es) as [cw Hcw]. { intros ((i & j) & n) Hin. apply (es_entry es topo i j n HP) in Hin. destruct (HF i j n Hin) as (p & _ & E). eauto. }
  rewrite Hcw. cbn [bind]. pose proof (mesh_rect m _ _ _ HM HR) as HRe. pose proof (mesh_shape _ _ _ HM) as HS.
  assert (Lecs : length ecs = length topo) by (rewrite <- (map_length (@length (list R)) ecs), <- HS, map_length; reflexivity).
  assert (E1 : run_writes cw (zeros2 0 (length topo * m) (ncols coords)) = Ok (concat ecs)).
  { apply run_writes_fill.
    - unfold zeros2. rewrite repeat_length, (length_concat_rect m ecs HRe). now rewrite Lecs.
    - intros k x Hin. apply (mapM_In _ _ _ _ Hcw) in Hin. destruct Hin as (((i & j) & n) & Hin & E). apply (es_entry es topo i j n HP) in Hin. destruct (HF i j n Hin) as (p & (ec & Hec & Hj) & E').
      rewrite E' in E. injection E as <- <-. rewrite (nth_error_concat_rect m ecs i j ec HRe Hec); [assumption|]. rewrite <- (rect_nth m ecs i ec HRe Hec). eapply nth_error_Some_lt; eauto.
    - intros k x Hx. destruct (concat_inv m ecs k x HRe Hx) as (i & j & ec & -> & Hj & Hec & Hx').
      assert (Hi : (i < length topo)%nat) by (rewrite <- Lecs; eapply nth_error_Some_lt; eauto). destruct (bounds_entry m topo i j HR Hi Hj) as (n & Hn).
      destruct (HF i j n Hn) as (p & _ & E). exists p. apply (mapM_In _ _ _ _ Hcw). exists (i, j, n). split; [now apply (es_entry es topo i j n HP)|exact E]. }
  rewrite E1. cbn [bind].
  assert (E2 : run_writes2 (map (fun e : nat * nat * nat => (fst e, (fst (fst e) * m + snd (fst e))%nat)) es) (zeros2 0%nat (length topo) m) = Ok (own_nodes (length topo) m)).
  { destruct (own_rect (length topo) m) as [O1 O2]. apply run_writes2_fill.
    - rewrite shape2_zeros2, (shape2_rect m) by assumption. now rewrite O2.
    - intros i j x Hin. apply in_map_iff in Hin. destruct Hin as (((i' & j') & n) & E & Hin). cbn [fst snd] in E. injection E as -> -> <-. apply (es_entry es topo i j n HP) in Hin. destruct (entry_bounds m topo i j n HR Hin) as [Hi Hj].
      destruct (own_entry (length topo) m i j Hi Hj) as (r & Hr & Hx). unfold get2o. now rewrite Hr.
    - intros i j x Hx. unfold get2o in Hx. destruct (nth_error (own_nodes (length topo) m) i) as [r|] eqn:Er; [|discriminate]. destruct (own_entry_inv (length topo) m i j x (ex_intro _ r (conj Er Hx))) as (Hi & Hj & ->).
      destruct (bounds_entry m topo i j HR Hi Hj) as (n & Hn). exists (i * m + j)%nat. apply in_map_iff. exists (i, j, n). split; [reflexivity|now apply (es_entry es topo i j n HP)]. }
  rewrite E2. reflexivity.
Qed.
Lemma own_mesh : forall m nE (ecs : list (list (list R))), rect m ecs -> length ecs = nE -> mesh_at (concat ecs) (own_nodes nE m) ecs.
Proof.
  intros m nE ecs HR HL. assert (G : forall k t, (k + length t = nE)%nat -> (forall i ec, nth_error t i = Some ec -> nth_error ecs (k + i) = Some ec) -> Forall2 (nodes_at (concat ecs)) (map (fun i => seq (i * m) m) (seq k (length t))) t).
  { intros k t. revert k. induction t as [|ec t IH]; intros k Hk H; [constructor|]. cbn [length seq map]. constructor.
    - pose proof (H 0%nat ec eq_refl) as H0. rewrite Nat.add_0_r in H0. pose proof (rect_nth m ecs k ec HR H0) as Lec.
      assert (G2 : forall q j, (q + length j = m)%nat -> (forall i p, nth_error j i = Some p -> nth_error ec (q + i) = Some p) -> nodes_at (concat ecs) (seq (k * m + q) (length j)) j).
      { intros q j. revert q. induction j as [|p j IHj]; intros q Hq Hp; [constructor|]. cbn [length seq]. constructor.
        - pose proof (Hp 0%nat p eq_refl) as Hp0. rewrite Nat.add_0_r in Hp0. rewrite (nth_error_concat_rect m ecs k q ec HR H0); [exact Hp0|]. cbn in Hq. lia.
        - rewrite <- Nat.add_succ_r. apply IHj; [cbn in Hq; lia|]. intros i p' Hi. rewrite Nat.add_succ_comm. now apply (Hp (S i)). }
      specialize (G2 0%nat ec). rewrite Nat.add_0_r, Lec in G2. apply G2; [reflexivity|auto].
    - apply IH; [cbn in Hk; lia|]. intros i ec' Hi. rewrite Nat.add_succ_comm. now apply (H (S i)). }
  unfold own_nodes. rewrite <- HL. apply G; [lia|]. auto.
Qed.
(** exploding gives every cell its own points *)
Lemma explode_correct : forall es coords topo, rect (ncols topo) topo -> (forall n, used topo n -> (n < length coords)%nat) -> Permutation (entries topo) es ->
  exists c t, explode_in es coords topo = Ok (c, t) /\ same_shape topo t /\ concat t = seq 0 (length topo * ncols topo) /\ length c = (length topo * ncols topo)%nat /\
    forall ecs, mesh_at coords topo ecs -> mesh_at c t ecs.
Proof.
  intros es coords topo HR HU HP. destruct (mesh_exists coords topo HU) as (ecs & HM). exists (concat ecs), (own_nodes (length topo) (ncols topo)).
  pose proof (mesh_rect _ _ _ _ HM HR) as HRe. pose proof (mesh_shape _ _ _ HM) as HS.
  assert (Lecs : length ecs = length topo) by (rewrite <- (map_length (@length (list R)) ecs), <- HS, map_length; reflexivity).
  split; [now apply explode_value|]. destruct (own_rect (length topo) (ncols topo)) as [O1 O2]. split; [|split; [apply own_concat|split]].
  - unfold same_shape. rewrite (map_length_repeat _ _ HR), (map_length_repeat _ _ O1). now rewrite O2.
  - rewrite (length_concat_rect _ _ HRe). now rewrite Lecs.
  - intros ecs' HM'. assert (ecs' = ecs).
    { apply cell_entry_ext; [rewrite <- HS; symmetry; apply (mesh_shape _ _ _ HM')|]. intros i j x Hx. destruct (shape_entry ecs' topo i j x) as (n & Hn); [symmetry; apply (mesh_shape _ _ _ HM')|exact Hx|].
      destruct (nth_error_lt coords n) as [p Hp]; [apply HU; exists i, j; exact Hn|]. pose proof (mesh_entry _ _ _ _ _ _ _ HM' Hn Hp) as H1. rewrite (cell_entry_fun _ _ _ _ _ Hx H1). exact (mesh_entry _ _ _ _ _ _ _ HM Hn Hp). }
    subst ecs'. now apply own_mesh.
Qed.
Lemma explode_data_value : forall es dt coords topo data, rect (ncols topo) topo -> (forall n, used topo n -> (n < length coords)%nat) -> same_shape topo data -> Permutation (entries topo) es ->
  exists c t d, explode_in es coords topo = Ok (c, t) /\ explode_data_in es dt coords topo data = Ok (c, t, d) /\ d = map (store dt) (concat data).
Proof.
  intros es dt coords topo data HR HU HD HP. destruct (explode_correct es coords topo HR HU HP) as (c & t & E & _). exists c, t, (map (store dt) (concat data)). split; [exact E|]. split; [|reflexivity].
  unfold explode_data_in. rewrite E. cbn [bind]. set (m := ncols topo) in *.
  set (f := fun e : nat * nat * nat => do x <- get2 data (fst (fst e)) (snd (fst e)); Ok ((fst (fst e) * m + snd (fst e))%nat, store dt x)).
  assert (HF : forall i j n, entry topo i j n -> exists x, cell_entry data i j x /\ f (i, j, n) = Ok ((i * m + j)%nat, store dt x)).
  { intros i j n He. destruct (shape_entry topo data i j n HD He) as (x & Hx). exists x. split; [assumption|]. unfold f. cbn [fst snd]. now rewrite (proj2 (get2_Ok _ _ _ _) Hx). }
  assert (HRd : rect m data).
  { apply Forall_forall. intros r Hr. apply In_nth_error in Hr. destruct Hr as (i & Hi). assert (Ex : nth_error (map (@length nat) topo) i = nth_error (map (@length R) data) i) by (now rewrite HD).
    rewrite !nth_error_map, Hi in Ex. destruct (nth_error topo i) as [q|] eqn:Eq; [|discriminate]. injection Ex as <-. apply (rect_nth m topo i q HR Eq). }
  assert (Ld : length data = length topo) by (rewrite <- (map_length (@length R) data), <- HD, map_length; reflexivity).
  destruct (mapM_total f es) as [dw Hdw]. { intros ((i & j) & n) Hin. apply (es_entry es topo i j n HP) in Hin. destruct (HF i j n Hin) as (x & _ & Ex). eauto. }
  rewrite Hdw. cbn [bind].
  assert (E1 : run_writes dw (zeros 0 (length topo * m)) = Ok (map (store dt) (concat data))); [|rewrite E1; reflexivity].
  apply run_writes_fill.
  - unfold zeros. rewrite repeat_length, map_length, (length_concat_rect m data HRd). now rewrite Ld.
  - intros k x Hin. apply (mapM_In _ _ _ _ Hdw) in Hin. destruct Hin as (((i & j) & n) & Hin & Ex). apply (es_entry es topo i j n HP) in Hin. destruct (HF i j n Hin) as (p & (row & Hrow & Hj) & E').
    rewrite E' in Ex. injection Ex as <- <-. rewrite nth_error_map, (nth_error_concat_rect m data i j row HRd Hrow), Hj; [reflexivity|]. rewrite <- (rect_nth m data i row HRd Hrow). eapply nth_error_Some_lt; eauto.
  - intros k x Hx. rewrite nth_error_map in Hx. destruct (nth_error (concat data) k) as [y|] eqn:Ey; [|discriminate]. destruct (concat_inv m data k y HRd Ey) as (i & j & row & -> & Hj & Hrow & Hx').
    assert (Hi : (i < length topo)%nat) by (rewrite <- Ld; eapply nth_error_Some_lt; eauto). destruct (bounds_entry m topo i j HR Hi Hj) as (n & Hn).
    destruct (HF i j n Hn) as (p & _ & Ep). exists (store dt p). apply (mapM_In _ _ _ _ Hdw). exists (i, j, n). split; [now apply (es_entry es topo i j n HP)|exact Ep].
Qed.

(** ** decomposing *)
Lemma decompose_correct : forall es coords topo ecs out, mesh_at coords topo ecs -> (forall n, used topo n -> (n < length out)%nat) -> Permutation (entries topo) es ->
  exists r, decompose_in es ecs out = Ok r /\ length r = length out /\ (forall n, used topo n -> nth_error r n = nth_error coords n) /\ (forall n, ~ used topo n -> nth_error r n = nth_error out n).
Proof.
  intros es coords topo ecs out HM HU HP. unfold decompose_in.
  set (f := fun e : nat * nat * nat => do p <- get2 ecs (fst (fst e)) (snd (fst e)); Ok (snd e, p)).
  assert (HF : forall i j n, entry topo i j n -> exists p, nth_error coords n = Some p /\ f (i, j, n) = Ok (n, p)).
  { intros i j n (r & Hr & Hj). destruct (Forall2_nth_error _ _ _ _ _ HM Hr) as (ec & Hec & HN). destruct (Forall2_nth_error _ _ _ _ _ HN Hj) as (q & Hq & Hq2). exists q. split; [exact Hq2|].
    unfold f. cbn [fst snd]. rewrite (proj2 (get2_Ok ecs i j q)); [reflexivity|exists ec; auto]. }
  destruct (mapM_total f es) as [ws Hws]. { intros ((i & j) & n) Hin. apply (es_entry es topo i j n HP) in Hin. destruct (HF i j n Hin) as (p & _ & E). eauto. }
  rewrite Hws. cbn [bind].
  assert (HW : forall n p, In (n, p) ws <-> used topo n /\ nth_error coords n = Some p).
  { intros n p. rewrite (mapM_In _ _ _ _ Hws). split.
    - intros (((i & j) & m) & Hin & E). apply (es_entry es topo i j m HP) in Hin. destruct (HF i j m Hin) as (q & Hq & E'). rewrite E' in E. injection E as -> ->. split; [exists i, j; exact Hin|exact Hq].
    - intros ((i & j & He) & Hp). destruct (HF i j n He) as (q & Hq & E). exists (i, j, n). split; [now apply (es_entry es topo i j n HP)|]. rewrite E. congruence. }
  destruct (proj2 (run_writes_in_range ws out)) as [r Hr]. { intros n p Hin. apply HW in Hin. apply HU. apply Hin. }
  exists r. split; [exact Hr|]. split; [exact (run_writes_length _ _ _ Hr)|]. split.
  - intros n Hn. destruct (HW n) with (p := nth n coords []) as [_ _]. destruct Hn as (i & j & He). destruct (HF i j n He) as (p & Hp & _). rewrite Hp.
    apply (run_writes_written ws out r n p Hr); [|apply HW; split; [exists i, j; exact He|exact Hp]]. intros k v v' H1 H2. apply HW in H1, H2. destruct H1 as [_ H1], H2 as [_ H2]. congruence.
  - intros n Hn. apply (run_writes_untouched ws out r n Hr). intros v Hv. apply HW in Hv. apply Hn. apply Hv.
Qed.

(** ** centres *)
Lemma col_value d rows a : rect d rows -> (a < d)%nat -> mapM (fun r => get r a) rows = Ok (map (at_ a) rows).
Proof.
  intros HR Ha. apply mapM_map. intros r Hr. unfold rect in HR. rewrite Forall_forall in HR. destruct (nth_error_lt r a) as [x Hx]; [rewrite (HR r Hr); assumption|]. unfold at_. rewrite (nth_error_nth r a 0 Hx). now apply get_Ok.
Qed.
Lemma column_mean_value d rows a : rows <> [] -> rect d rows -> (a < d)%nat -> column_mean rows a = Ok (rsum (map (at_ a) rows) / INR (length rows)).
Proof.
  intros HN HR Ha. unfold column_mean. rewrite (col_value d rows a HR Ha). cbn [bind]. rewrite map_length, ksum_rsum. destruct rows; [easy|]. reflexivity.
Qed.
Lemma len_pos {A} (l : list A) : l <> [] -> INR (length l) <> 0.
Proof. intros H. apply not_0_INR. destruct l; [easy|]. cbn. lia. Qed.
Lemma mean_unique d rows c c' : rows <> [] -> mean_row d rows c -> mean_row d rows c' -> c = c'.
Proof.
  intros HN [H1 H2] [H3 H4]. unfold dim in *. apply (nth_ext c c' 0 0); [congruence|]. intros a Ha. rewrite H1 in Ha. specialize (H2 a Ha). specialize (H4 a Ha). unfold at_ in *. pose proof (len_pos rows HN).
  apply (Rmult_eq_reg_r (INR (length rows))); [congruence|assumption].
Qed.
Definition means (d : nat) (rows : list (list R)) : list R := map (fun a => rsum (map (at_ a) rows) / INR (length rows)) (seq 0 d).
Lemma means_nth d rows a : (a < d)%nat -> at_ a (means d rows) = rsum (map (at_ a) rows) / INR (length rows).
Proof.
  intros Ha. unfold at_ at 1, means. rewrite (nth_error_nth _ a 0 (x := rsum (map (at_ a) rows) / INR (length rows))); [reflexivity|]. rewrite nth_error_map, nth_error_seq by assumption. reflexivity.
Qed.
Lemma means_mean d rows : rows <> [] -> mean_row d rows (means d rows).
Proof. intros HN. split; [unfold dim, means; now rewrite map_length, seq_length|]. intros a Ha. rewrite means_nth by assumption. field. now apply len_pos. Qed.
Lemma cell_center_value d rows : rows <> [] -> rect d rows -> cell_center Floating rows = Ok (means d rows).
Proof.
  intros HN HR. unfold cell_center. rewrite (rect_ncols d rows HR HN). cbn [store].
  rewrite (mapM_map _ (fun a => rsum (map (at_ a) rows) / INR (length rows))).
  - cbn [bind]. now rewrite map_id.
  - intros a Ha. apply in_seq in Ha. apply (column_mean_value d); [assumption|assumption|lia].
Qed.
Lemma cell_center_correct d rows : rows <> [] -> rect d rows -> exists c, cell_center Floating rows = Ok c /\ mean_row d rows c.
Proof. intros HN HR. exists (means d rows). split; [now apply cell_center_value|now apply means_mean]. Qed.
Lemma cell_center_2d_correct rows : rows <> [] -> Forall (has_dim 2) rows -> exists c, cell_center_2d Floating rows = Ok c /\ mean_row 2 rows c.
Proof.
  intros HN HR. assert (HC : forall a, (a < 2)%nat -> column_mean rows a = Ok (rsum (map (at_ a) rows) / INR (length rows))).
  { intros a Ha. unfold column_mean. assert (E : mapM (fun r => get r a) rows = Ok (map (at_ a) rows)).
    { apply mapM_map. intros r Hr. rewrite Forall_forall in HR. specialize (HR r Hr). unfold has_dim in HR. destruct (nth_error_lt r a) as [x Hx]; [lia|]. unfold at_. rewrite (nth_error_nth r a 0 Hx). now apply get_Ok. }
    rewrite E. cbn [bind]. rewrite map_length, ksum_rsum. destruct rows; [easy|]. reflexivity. }
  eexists. split; [unfold cell_center_2d; rewrite !HC by lia; reflexivity|]. cbn [store]. split; [reflexivity|]. intros a Ha. pose proof (len_pos rows HN).
  destruct a as [|[|a]]; [| |lia]; unfold at_ at 1; cbn [nth]; field; assumption.
Qed.
Lemma vmean_means d rows : rows <> [] -> rect d rows -> vmean (K := R) rows = Ok (means d rows).
Proof.
  intros HN HR. destruct (vmean_R d rows HN HR) as (P & E & L & V). rewrite E. f_equal. apply (nth_ext P (means d rows) 0 0); [unfold means; now rewrite map_length, seq_length|]. intros a Ha. rewrite L in Ha. rewrite (V a Ha). symmetry. exact (means_nth d rows a Ha).
Qed.
Lemma centers_bulk_correct : forall d nNE coords topo ecs, mesh_at coords topo ecs -> rect d coords -> rect nNE topo -> (0 < nNE)%nat ->
  exists cs, cell_centers_bulk coords topo = Ok cs /\ Forall2 (mean_row d) ecs cs.
Proof.
  intros d nNE coords topo ecs HM HC HT Hn. unfold cell_centers_bulk, cells_coords.
  assert (E : mapM (mapM (get coords)) topo = Ok ecs).
  { apply mapM_Ok. apply (Forall2_weak (nodes_at coords)); [|exact HM]. intros r ec H. apply mapM_Ok. apply (Forall2_weak (fun n p => nth_error coords n = Some p)); [|exact H]. intros n p Hp. now apply get_Ok. }
  rewrite E. cbn [bind]. unfold cell_centers_bulk2. apply mapM_Forall2. intros ec Hec. destruct (mesh_cells coords topo ecs d nNE HM HC HT ec Hec) as [L Rr].
  assert (ec <> []) by (intros ->; cbn in L; lia). exists (means d ec). split; [now apply vmean_means|now apply means_mean].
Qed.
(** moving and reordering the nodes *)
Lemma rsum_moved t : forall ps qs a d, Forall2 (moved_by t) ps qs -> rect d qs -> (a < d)%nat -> rsum (map (at_ a) ps) = rsum (map (at_ a) qs) + INR (length qs) * at_ a t.
Proof.
  intros ps qs a d H HR Ha. induction H as [|p q ps qs [HL Hp] H IH]; [cbn; lra|]. inversion HR as [|? ? Hq HR']; subst. cbn [map]. rewrite !rsum_cons, (IH HR'), (Hp a Ha). cbn [length]. rewrite S_INR. lra.
Qed.
Lemma Forall2_len {A B} (P : A -> B -> Prop) l r : Forall2 P l r -> length l = length r.
Proof. intros H. induction H; cbn; congruence. Qed.
Lemma mean_moved : forall d ps qs t c c', qs <> [] -> rect d qs -> Forall2 (moved_by t) ps qs -> mean_row d ps c -> mean_row d qs c' -> moved_by t c c'.
Proof.
  intros d ps qs t c c' HN HR HM [H1 H2] [H3 H4]. unfold dim in *. split; [congruence|]. intros a Ha. rewrite H3 in Ha. specialize (H2 a Ha). specialize (H4 a Ha). rewrite (rsum_moved t ps qs a d HM HR Ha) in H2.
  rewrite (Forall2_len _ _ _ HM) in H2. pose proof (len_pos qs HN). apply (Rmult_eq_reg_r (INR (length qs))); [|assumption]. lra.
Qed.
Lemma rsum_permutation (l l' : list R) : Permutation l l' -> rsum l = rsum l'.
Proof. intros H. induction H; [reflexivity| | |congruence]; rewrite ?rsum_cons; [congruence|lra]. Qed.
Lemma mean_perm : forall d ps qs c, Permutation ps qs -> mean_row d ps c -> mean_row d qs c.
Proof.
  intros d ps qs c HP [H1 H2]. split; [assumption|]. intros a Ha. rewrite <- (Permutation_length HP), (H2 a Ha). apply rsum_permutation. now apply Permutation_map.
Qed.

(** ** centralization *)
Lemma set_value_nth (r r' : list R) i v a : set r i v = Ok r' -> at_ a r' = if Nat.eqb a i then v else at_ a r.
Proof.
  intros H. unfold at_. pose proof (set_nth_error _ _ _ _ a H) as E. pose proof (set_Ok_lt _ _ _ _ H) as Hi. pose proof (set_length _ _ _ _ H) as HL.
  destruct (Nat.eqb_spec a i) as [->|Hne].
  - now apply nth_error_nth.
  - destruct (nth_error r a) as [x|] eqn:Ex; [rewrite (nth_error_nth r a 0 Ex); now apply nth_error_nth|]. rewrite !nth_overflow; [reflexivity| |].
    + now apply nth_error_None. + rewrite HL. now apply nth_error_None.
Qed.
Lemma sub_column_value : forall d rows i c, rect d rows -> (i < d)%nat ->
  exists r, sub_column rows i c = Ok r /\ Forall2 (fun p q => length p = d /\ forall a, at_ a p = if Nat.eqb a i then at_ a q - c else at_ a q) r rows.
Proof.
  intros d rows i c HR Hi. unfold sub_column. destruct (mapM_Forall2 (fun r => do x <- get r i; set r i (x - c)) (fun q p => length p = d /\ forall a, at_ a p = if Nat.eqb a i then at_ a q - c else at_ a q) rows) as (r & E & H).
  - intros q Hq. unfold rect in HR. rewrite Forall_forall in HR. specialize (HR q Hq). destruct (nth_error_lt q i) as [x Hx]; [lia|]. rewrite (proj2 (get_Ok _ _ _) Hx). cbn [bind].
    destruct (proj2 (set_Ok_iff q i (x - c))) as [p Hp]; [lia|]. exists p. split; [exact Hp|]. split; [rewrite (set_length _ _ _ _ Hp); exact HR|]. intros a. rewrite (set_value_nth _ _ _ _ a Hp).
    destruct (Nat.eqb_spec a i) as [->|_]; [|reflexivity]. unfold at_. now rewrite (nth_error_nth q i 0 Hx).
  - exists r. split; [exact E|]. clear E HR. induction H as [|x y l l' Hxy H IH]; constructor; [exact Hxy|exact IH].
Qed.
Lemma Forall2_rect d (P : list R -> list R -> Prop) r rows : Forall2 (fun p q => length p = d /\ P p q) r rows -> rect d r.
Proof. intros H. induction H as [|? ? ? ? [H1 _] H IH]; constructor; auto. Qed.
Lemma Forall2_trans_ {A} (P Q S : A -> A -> Prop) l m n : (forall x y z, P x y -> Q y z -> S x z) -> Forall2 P l m -> Forall2 Q m n -> Forall2 S l n.
Proof. intros H HP. revert n. induction HP; intros n HQ; inversion HQ; subst; constructor; eauto. Qed.
Lemma moved_opp d m : forall r rows, (forall q, In q rows -> length q = d) -> Forall2 (fun p q => length p = d /\ forall a, (a < d)%nat -> at_ a p = at_ a q - at_ a m) r rows ->
  Forall2 (moved_by (map Ropp m)) r rows.
Proof.
  intros r rows L H. induction H as [|p q r rows [H1 H2] H IH]; constructor; [|apply IH; intros; apply L; now right].
  pose proof (L q (or_introl eq_refl)) as Lq. split; [congruence|]. intros a Ha. rewrite Lq in Ha. rewrite (H2 a Ha).
  assert (E : at_ a (map Ropp m) = - at_ a m). { unfold at_. rewrite <- (map_nth Ropp). f_equal. lra. } rewrite E. lra.
Qed.
Lemma centralize_value : forall d rows, (d = 2 \/ d = 3)%nat -> rows <> [] -> rect d rows ->
  exists r, centralize Floating rows = Ok r /\ rect d r /\ Forall2 (moved_by (map Ropp (means d rows))) r rows.
Proof.
  intros d rows Hd HN HR. unfold centralize, center_of_points. rewrite (cell_center_value d rows HN HR). cbn [bind].
  assert (HG : forall a, (a < d)%nat -> get (means d rows) a = Ok (at_ a (means d rows))).
  { intros a Ha. apply get_Ok. destruct (nth_error_lt (means d rows) a) as [x Hx]; [unfold means; now rewrite map_length, seq_length|]. unfold at_. now rewrite (nth_error_nth _ _ 0 Hx). }
  rewrite (HG 0%nat) by lia. cbn [bind]. destruct (sub_column_value d rows 0 (at_ 0 (means d rows)) HR) as (r0 & E0 & H0); [lia|]. rewrite E0. cbn [bind].
  rewrite (HG 1%nat) by lia. cbn [bind]. pose proof (Forall2_rect _ _ _ _ H0) as R0. destruct (sub_column_value d r0 1 (at_ 1 (means d rows)) R0) as (r1 & E1 & H1); [lia|]. rewrite E1. cbn [bind].
  rewrite (rect_ncols d rows HR HN). pose proof (Forall2_rect _ _ _ _ H1) as R1.
  assert (L : forall q, In q rows -> length q = d) by (unfold rect in HR; now rewrite Forall_forall in HR).
  destruct (Nat.ltb 2 d) eqn:E.
  - apply Nat.ltb_lt in E. rewrite (HG 2%nat) by lia. cbn [bind]. destruct (sub_column_value d r1 2 (at_ 2 (means d rows)) R1) as (r2 & E2 & H2); [lia|]. exists r2. split; [exact E2|]. split; [exact (Forall2_rect _ _ _ _ H2)|].
    assert (H10 : Forall2 (fun p q => forall a, (a < d)%nat -> at_ a p = if Nat.ltb a 2 then at_ a q - at_ a (means d rows) else at_ a q) r1 rows).
    { refine (Forall2_trans_ _ _ _ r1 r0 rows _ H1 H0). intros x y z [HA1 HA2] [HB1 HB2] a Ha. rewrite HA2, HB2. destruct a as [|[|a]]; reflexivity. }
    assert (H : Forall2 (fun p q => length p = d /\ forall a, (a < d)%nat -> at_ a p = at_ a q - at_ a (means d rows)) r2 rows).
    { refine (Forall2_trans_ _ _ _ r2 r1 rows _ H2 H10). intros x y z [HA1 HA2] HB. split; [assumption|]. intros a Ha. rewrite HA2, (HB a Ha). destruct a as [|[|[|a]]]; [reflexivity|reflexivity|reflexivity|lia]. }
    now apply (moved_opp d).
  - apply Nat.ltb_ge in E. exists r1. split; [reflexivity|]. split; [exact R1|].
    assert (H : Forall2 (fun p q => length p = d /\ forall a, (a < d)%nat -> at_ a p = at_ a q - at_ a (means d rows)) r1 rows).
    { refine (Forall2_trans_ _ _ _ r1 r0 rows _ H1 H0). intros x y z [HA1 HA2] [HB1 HB2]. split; [assumption|]. intros a Ha. rewrite HA2, HB2. destruct a as [|[|a]]; [reflexivity|reflexivity|lia]. }
    now apply (moved_opp d).
Qed.
