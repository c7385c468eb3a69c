(** * Proofs about [NodalModel.v]: collecting data of cells at the nodes *)
From Coq Require Import Reals Lra Lia List Permutation.
From Verif Require Import NodalModel NodalSpec BaseFacts FillFacts TopoProofs TrModel TrProofs ElevProofs ShapeProofs2 ShapeProofs3 ShapeProofs4 TriProofs3 LocProofs9 NodalProofs NodalProofs2.
Import ListNotations.
Local Open Scope R_scope.

Lemma at_node_app {A} t1 t2 (f1 f2 : list (list A)) n : same_shape t1 f1 -> at_node (t1 ++ t2) (f1 ++ f2) n = at_node t1 f1 n ++ at_node t2 f2 n.
Proof. intros H. unfold at_node. rewrite !concat_app, combine_app, filter_app, map_app; [reflexivity|]. rewrite !length_concat. now rewrite H. Qed.
Lemma at_node_length {A B} topo (f : list (list A)) (g : list (list B)) n : same_shape topo f -> same_shape topo g -> length (at_node topo f n) = length (at_node topo g n).
Proof.
  intros HF HG. unfold at_node. rewrite !map_length.
  assert (L1 : length (concat f) = length (concat topo)) by (rewrite !length_concat; now rewrite HF).
  assert (L2 : length (concat g) = length (concat topo)) by (rewrite !length_concat; now rewrite HG).
  revert L1 L2. generalize (concat f), (concat g), (concat topo). intros a b l. revert a b. induction l as [|m l IH]; intros [|x a] [|y b] L1 L2; try discriminate; [reflexivity|].
  cbn [combine filter fst]. destruct (Nat.eqb m n); cbn [length]; rewrite (IH a b); cbn in L1, L2; lia.
Qed.
Lemma weighted_sum_app a f1 f2 v1 v2 : length f1 = length v1 -> weighted_sum a (f1 ++ f2) (v1 ++ v2) = weighted_sum a f1 v1 + weighted_sum a f2 v2.
Proof. intros H. unfold weighted_sum. rewrite combine_app by assumption. now rewrite map_app, rsum_app. Qed.
(** one cell without repeated nodes *)
Lemma at_node_one {A} (row : list nat) (v : list A) n j x : NoDup row -> nth_error row j = Some n -> nth_error v j = Some x -> length v = length row ->
  at_node [row] [v] n = [x].
Proof.
  intros HN Hn Hx HL. unfold at_node. cbn [concat]. rewrite !app_nil_r. revert v j Hn Hx HL. induction row as [|m row IH]; intros [|y v] [|j] Hn Hx HL; try discriminate.
  - injection Hn as ->. injection Hx as ->. cbn [combine filter fst]. rewrite Nat.eqb_refl. cbn [map snd]. f_equal. inversion HN as [|? ? Hnot _]; subst.
    clear - Hnot. revert v. induction row as [|m row IH]; intros [|y v]; try reflexivity. cbn [combine filter fst]. destruct (Nat.eqb_spec m n) as [->|_]; [exfalso; apply Hnot; now left|]. apply IH. intros H. apply Hnot. now right.
  - cbn in Hn, Hx. inversion HN as [|? ? Hnot HN']; subst. cbn [combine filter fst]. destruct (Nat.eqb_spec m n) as [->|_].
    + exfalso. apply Hnot. eapply nth_error_In; eauto.
    + apply (IH HN' v j Hn Hx). now injection HL.
Qed.
Lemma at_node_none {A} (topo : list (list nat)) (f : list (list A)) n : ~ In n (concat topo) -> at_node topo f n = [].
Proof.
  intros H. unfold at_node. revert H. generalize (concat topo), (concat f). intros l v. revert v. induction l as [|m l IH]; intros [|y v] H; try reflexivity.
  cbn [combine filter fst]. destruct (Nat.eqb_spec m n) as [->|_]; [exfalso; apply H; now left|]. apply IH. intros Hn. apply H. now right.
Qed.


Lemma collect_loop : forall k topo f cd m sched celldata cids F r,
  (forall i row, nth_error topo i = Some row -> interleaving (length row) (sched (m + i)%nat)) ->
  proper topo -> same_shape topo f -> same_shape topo cd -> rows_of k cd -> rect k r -> (forall n, used topo n -> (n < length r)%nat) ->
  (forall i fe, nth_error f i = Some fe -> exists c, nth_error cids (m + i) = Some c /\ nth_error F c = Some fe) ->
  (forall i c, nth_error cd i = Some c -> nth_error celldata (m + i) = Some c) ->
  exists r', foldM (fun r ir =>
      do c <- get cids (fst ir);
      do ndf_e <- csr_row (indptr (map (@length R) F)) (concat F) c;
      do cdi <- get celldata (fst ir);
      do vals <- mapM (fun j => do v <- get cdi j; do x <- get ndf_e j; Ok (vscale x v)) (seq 0 (length (snd ir)));
      collect_cell (sched (fst ir)) (snd ir) vals r) (enum_from m topo) r = Ok r' /\ adds k topo f cd r r'.
Proof.
  intros k. induction topo as [|row topo IH]; intros [|fe f] [|c cd] m sched celldata cids F r HI HP HF HC HK HR HU Hf Hc; try discriminate.
  - exists r. split; [reflexivity|]. split; [reflexivity|]. split; [assumption|]. intros n x Hx. exists x. split; [assumption|]. intros a. unfold weighted_sum, at_node. cbn. lra.
  - cbn [enum_from foldM fst snd]. unfold same_shape in HF, HC. cbn [map] in HF, HC. injection HF as Lf HF. injection HC as Lc HC. inversion HP as [|? ? P1 P2]; subst. inversion HK as [|? ? K1 K2]; subst.
    destruct (Hf 0%nat fe eq_refl) as (ci & Hci & HFi). rewrite Nat.add_0_r in Hci. rewrite (proj2 (get_Ok _ _ _) Hci). cbn [bind]. rewrite (csr_row_of F ci fe HFi). cbn [bind].
    pose proof (Hc 0%nat c eq_refl) as Hc0. rewrite Nat.add_0_r in Hc0. rewrite (proj2 (get_Ok _ _ _) Hc0). cbn [bind].
    assert (HG : forall j, (j < length row)%nat -> exists v x, nth_error c j = Some v /\ nth_error fe j = Some x /\ length v = k /\ (do v <- get c j; do x <- get fe j; Ok (vscale x v)) = Ok (vscale x v)).
    { intros j Hj. destruct (nth_error_lt c j) as [v Hv]; [lia|]. destruct (nth_error_lt fe j) as [x Hx]; [lia|]. exists v, x. split; [assumption|]. split; [assumption|]. split.
      - rewrite Forall_forall in K1. apply K1. eapply nth_error_In; eauto.
      - rewrite (proj2 (get_Ok _ _ _) Hv). cbn [bind]. now rewrite (proj2 (get_Ok _ _ _) Hx). }
    destruct (mapM_total (fun j => do v <- get c j; do x <- get fe j; Ok (vscale x v)) (seq 0 (length row))) as [vals Hvals].
    { intros j Hj. apply in_seq in Hj. destruct (HG j) as (v & x & _ & _ & _ & E); [lia|]. eauto. }
    rewrite Hvals. cbn [bind].
    assert (Lv : length vals = length row) by (rewrite (mapM_length _ _ _ Hvals); apply seq_length).
    assert (HV : forall j v x, nth_error c j = Some v -> nth_error fe j = Some x -> nth_error vals j = Some (vscale x v)).
    { intros j v x Hv Hx. assert (Hj : (j < length row)%nat) by (rewrite Lc; eapply nth_error_Some_lt; eauto). destruct (mapM_nth_error _ _ _ j j Hvals) as (q & Hq & E); [now rewrite nth_error_seq|].
      destruct (HG j Hj) as (v' & x' & Hv' & Hx' & _ & E'). congruence. }
    destruct (collect_cell_value k row vals (sched m) r P1 Lv) as (r1 & E1 & L1 & R1 & W1 & U1).
    { apply Forall_forall. intros q Hq. apply In_nth_error in Hq. destruct Hq as (j & Hj). assert (Hjl : (j < length row)%nat) by (rewrite <- Lv; eapply nth_error_Some_lt; eauto).
      destruct (HG j Hjl) as (v & x & Hv & Hx & Lk & _). rewrite (HV j v x Hv Hx) in Hj. injection Hj as <-. now rewrite vscale_length. }
    { exact HR. }
    { apply Forall_forall. intros n Hn. apply HU. apply In_nth_error in Hn. destruct Hn as (j & Hj). exists 0%nat, j, row. split; [reflexivity|assumption]. }
    { pose proof (HI 0%nat row eq_refl) as H0. rewrite Nat.add_0_r in H0. exact H0. }
    rewrite E1. cbn [bind].
    destruct (IH f cd (S m) sched celldata cids F r1) as (r2 & E2 & L2 & R2 & A2).
    { intros i row' Hr'. specialize (HI (S i) row' Hr'). now rewrite Nat.add_succ_r in HI. }
    { assumption. } { assumption. } { assumption. } { assumption. } { assumption. }
    { intros n (i & j & q & Hq & Hj). rewrite L1. apply HU. exists (S i), j, q. split; assumption. }
    { intros i fe' Hfe'. destruct (Hf (S i) fe' Hfe') as (c' & Hc' & HF'). exists c'. rewrite Nat.add_succ_r in Hc'. auto. }
    { intros i c' Hc'. specialize (Hc (S i) c' Hc'). now rewrite Nat.add_succ_r in Hc. }
    exists r2. split; [exact E2|]. split; [congruence|]. split; [assumption|]. intros n x Hx.
    assert (HA : exists y, nth_error r1 n = Some y /\ forall a, at_ a y = at_ a x + weighted_sum a (at_node [row] [fe] n) (at_node [row] [c] n)).
    { destruct (in_dec Nat.eq_dec n row) as [Hin|Hin].
      - apply In_nth_error in Hin. destruct Hin as (j & Hj). assert (Hjl : (j < length row)%nat) by (eapply nth_error_Some_lt; eauto). destruct (HG j Hjl) as (v & s & Hv & Hs & _ & _).
        destruct (W1 j n (vscale s v) x Hj (HV j v s Hv Hs) Hx) as (y & Hy & Ny). exists y. split; [assumption|]. intros a. rewrite Ny.
        rewrite (at_node_one row fe n j s P1 Hj Hs) by congruence. rewrite (at_node_one row c n j v P1 Hj Hv) by congruence. unfold weighted_sum. cbn [combine map fst snd]. rewrite rsum_cons. unfold at_ at 2. rewrite vscale_nth. unfold at_. cbn. lra.
      - exists x. rewrite U1 by assumption. split; [assumption|]. intros a. rewrite !at_node_none by (cbn [concat]; now rewrite app_nil_r). unfold weighted_sum. cbn. lra. }
    destruct HA as (y & Hy & Ny). destruct (A2 n y Hy) as (z & Hz & Nz). exists z. split; [assumption|]. intros a. rewrite Nz, Ny.
    assert (S1 : same_shape [row] [fe]) by (unfold same_shape; cbn; congruence). assert (S2 : same_shape [row] [c]) by (unfold same_shape; cbn; congruence).
    pose proof (at_node_app [row] topo [fe] f n S1) as B1. pose proof (at_node_app [row] topo [c] cd n S2) as B2. cbn [app] in B1, B2. rewrite B1, B2.
    rewrite weighted_sum_app by (now apply at_node_length). lra.
Qed.
Lemma collect_value : forall k topo f cd sched cids F ptr ndf r,
  (forall i row, nth_error topo i = Some row -> interleaving (length row) (sched i)) ->
  proper topo -> same_shape topo f -> same_shape topo cd -> rows_of k cd -> rect k r -> (forall n, used topo n -> (n < length r)%nat) ->
  csr_of F ptr ndf -> rows_at F cids f ->
  exists r', collect_nodal_data sched cd topo cids ptr ndf r = Ok r' /\ adds k topo f cd r r'.
Proof.
  intros k topo f cd sched cids F ptr ndf r HI HP HF HC HK HR HU [-> ->] Hr. apply (collect_loop k topo f cd 0); try assumption.
  - intros i fe Hfe. destruct (Forall2_nth_error_r _ _ _ _ _ Hr Hfe) as (c & Hc & H). exists c. auto.
  - auto.
Qed.

(** ** several blocks *)
Lemma spread_values topo d cd : values_of topo d cd -> rect (ncols topo) topo -> spread topo d = cd.
Proof.
  destruct d as [l|l]; [|intros H _; now symmetry]. intros [H HL] HR. cbn [spread].
  assert (G : forall w (t : list (list nat)) (l : list R) cd, rect w t -> length l = length t -> Forall2 (fun row rx => rx = repeat [snd row] (length (fst row))) (combine t l) cd -> map (fun x : R => repeat [x] w) l = cd).
  { clear. intros w. intros t. induction t as [|r t IH]; intros [|x l] cd HR HL H; try discriminate; cbn in H; inversion H; subst; [reflexivity|]. inversion HR as [|? ? Hr HR']; subst. cbn. f_equal. apply IH; [assumption|now injection HL|assumption]. }
  now apply (G _ topo).
Qed.
Lemma pull_loop : forall k blocks fs cds sched F r,
  Forall2 (fun b f => same_shape (b_nodes b) f /\ rows_at F (b_ids b) f) blocks fs ->
  Forall2 (fun b cd => values_of (b_nodes b) (b_data b) cd /\ same_shape (b_nodes b) cd /\ rows_of k cd) blocks cds ->
  Forall (fun b => rect (ncols (b_nodes b)) (b_nodes b) /\ proper (b_nodes b)) blocks ->
  (forall b i row, In b blocks -> nth_error (b_nodes b) i = Some row -> interleaving (length row) (sched i)) ->
  rect k r -> (forall n, used (all_nodes blocks) n -> (n < length r)%nat) ->
  exists r', foldM (pull_block sched (indptr (map (@length R) F)) (concat F)) blocks r = Ok r' /\ adds k (all_nodes blocks) (concat fs) (concat cds) r r'.
Proof.
  intros k. induction blocks as [|b blocks IH]; intros fs cds sched F r HF HC HB HI HR HU; inversion HF as [|? f ? fs' [Hf1 Hf2] HF']; subst; inversion HC as [|? cd ? cds' [Hc1 [Hc2 Hc3]] HC']; subst.
  - exists r. split; [reflexivity|]. split; [reflexivity|]. split; [assumption|]. intros n x Hx. exists x. split; [assumption|]. intros a. unfold weighted_sum, at_node. cbn. lra.
  - cbn [foldM]. inversion HB as [|? ? [B1 B2] HB']; subst. unfold pull_block at 1. rewrite (spread_values _ _ _ Hc1 B1).
    assert (UU : forall n, used (b_nodes b) n -> used (all_nodes (b :: blocks)) n).
    { intros n (i & j & q & Hq & Hj). exists i, j, q. split; [|assumption]. unfold all_nodes. cbn [map concat]. rewrite nth_error_app1; [assumption|]. eapply nth_error_Some_lt; eauto. }
    destruct (collect_value k (b_nodes b) f cd sched (b_ids b) F _ _ r (fun i row => HI b i row (or_introl eq_refl)) B2 Hf1 Hc2 Hc3 HR (fun n Hn => HU n (UU n Hn)) (conj eq_refl eq_refl) Hf2) as (r1 & E1 & L1 & R1 & A1).
    rewrite E1. cbn [bind]. destruct (IH fs' cds' sched F r1 HF' HC' HB') as (r2 & E2 & L2 & R2 & A2).
    { intros b' i row Hb. apply HI. now right. } { assumption. }
    { intros n (i & j & q & Hq & Hj). rewrite L1. apply HU. exists (length (b_nodes b) + i)%nat, j, q. split; [|assumption]. unfold all_nodes. cbn [map concat]. rewrite nth_error_app2 by lia. now replace (length (b_nodes b) + i - length (b_nodes b))%nat with i by lia. }
    exists r2. split; [exact E2|]. split; [congruence|]. split; [assumption|]. intros n x Hx. destruct (A1 n x Hx) as (y & Hy & Ny). destruct (A2 n y Hy) as (z & Hz & Nz). exists z. split; [assumption|]. intros a. rewrite Nz, Ny.
    unfold all_nodes. cbn [map concat]. rewrite !at_node_app by assumption. rewrite weighted_sum_app by (now apply at_node_length). fold (all_nodes blocks). lra.
Qed.
Lemma rows_at_concat {A} (F : list A) : forall idss fs, Forall2 (rows_at F) idss fs -> rows_at F (concat idss) (concat fs).
Proof. intros idss fs H. induction H; [constructor|]. cbn [concat]. now apply Forall2_app. Qed.
Lemma ncols_rows k l : rows_of k l -> concat l <> [] -> ncols (concat l) = k.
Proof.
  intros H HN. destruct (concat l) as [|v q] eqn:E; [easy|]. cbn. unfold rows_of in H. assert (Hin : In v (concat l)) by (rewrite E; now left).
  apply in_concat in Hin. destruct Hin as (row & Hr & Hv). rewrite Forall_forall in H. specialize (H row Hr). rewrite Forall_forall in H. now apply H.
Qed.
Lemma pull_value : forall k blocks fs cds sched F ptr ndf nP, csr_of F ptr ndf ->
  Forall2 (fun b f => same_shape (b_nodes b) f /\ rows_at F (b_ids b) f) blocks fs ->
  Forall2 (fun b cd => values_of (b_nodes b) (b_data b) cd /\ same_shape (b_nodes b) cd /\ rows_of k cd) blocks cds ->
  Forall (fun b => rect (ncols (b_nodes b)) (b_nodes b) /\ proper (b_nodes b)) blocks ->
  (exists b, nth_error blocks 0 = Some b /\ concat (b_nodes b) <> []) ->
  (forall b i row, In b blocks -> nth_error (b_nodes b) i = Some row -> interleaving (length row) (sched i)) ->
  (forall n, used (all_nodes blocks) n -> (n < nP)%nat) ->
  exists r, pointdata_pull sched nP blocks ptr ndf = Ok r /\ pulled blocks nP k (concat fs) (concat cds) r.
Proof.
  intros k blocks fs cds sched F ptr ndf nP [-> ->] HF HC HB (b & Hb & HN) HI HU. unfold pointdata_pull. rewrite (proj2 (get_Ok _ _ _) Hb). cbn [bind].
  assert (Ew : ncols (concat (spread (b_nodes b) (b_data b))) = k).
  { destruct (Forall2_nth_error _ _ _ _ _ HC Hb) as (cd & Hcd & V1 & V2 & V3). rewrite Forall_forall in HB. destruct (HB b (nth_error_In _ _ Hb)) as [B1 _]. rewrite (spread_values _ _ _ V1 B1).
    apply ncols_rows; [assumption|]. intros E. apply HN. apply length_zero_iff_nil. rewrite length_concat, V2, <- length_concat, E. reflexivity. }
  rewrite Ew. destruct (pull_loop k blocks fs cds sched F (zeros2 0 nP k) HF HC HB HI) as (r & E & L & Rr & A).
  - unfold rect, zeros2. apply Forall_forall. intros x Hx. apply repeat_spec in Hx. subst x. apply repeat_length.
  - intros n Hn. unfold zeros2. rewrite repeat_length. auto.
  - exists r. split; [exact E|]. unfold zeros2 in L. rewrite repeat_length in L. split; [exact L|]. split; [assumption|]. intros n Hn. destruct (A n (repeat 0 k)) as (y & Hy & Ny); [now apply nth_error_repeat|].
    exists y. split; [assumption|]. intros a. rewrite Ny. unfold at_ at 1. rewrite nth_repeat. lra.
Qed.

(** ** consequences *)
Lemma weighted_sum_const a f v x : length f = length v -> (forall y, In y v -> at_ a y = x) -> weighted_sum a f v = rsum f * x.
Proof.
  unfold weighted_sum. revert v. induction f as [|s f IH]; intros [|y v] HL H; try discriminate; [cbn; lra|]. cbn [combine map fst snd]. rewrite !rsum_cons, (IH v); [|now injection HL|intros z Hz; apply H; now right].
  rewrite (H y (or_introl eq_refl)). lra.
Qed.
Lemma at_node_in {A} topo (f : list (list A)) n x : same_shape topo f -> In x (at_node topo f n) -> exists i j, entry topo i j n /\ cell_entry f i j x.
Proof.
  intros HS H. unfold at_node in H. apply in_map_iff in H. destruct H as ((m & y) & E & H). cbn in E. subst y. apply filter_In in H. destruct H as [H Em]. cbn in Em. apply Nat.eqb_eq in Em. subst m.
  apply In_nth_error in H. destruct H as (k & Hk).
  assert (Ec : forall (a : list nat) (b : list A) q u v, nth_error (combine a b) q = Some (u, v) -> nth_error a q = Some u /\ nth_error b q = Some v).
  { clear. induction a; intros [|y b] [|q] u v H; try discriminate; cbn in *; [injection H as -> ->; auto|now apply IHa]. }
  apply Ec in Hk. destruct Hk as [H1 H2]. destruct (concat_entry_inv _ _ _ H1) as (i & j & r & Hr & Hj & ->). exists i, j. split; [exists r; auto|].
  destruct (shape_entry topo f i j n HS (ex_intro _ r (conj Hr Hj))) as (y & r2 & Hr2 & Hj2). pose proof (concat_entry f i j r2 _ Hr2 Hj2) as E. rewrite <- HS in E. exists r2. split; [assumption|]. congruence.
Qed.
(** data that agree at a node, from shares of all the cells *)
Lemma pulled_agrees : forall blocks nP k F cd r w n v, pulled blocks nP k F cd r ->
  same_shape (all_nodes blocks) cd -> length w = length (all_nodes blocks) -> shares (all_nodes blocks) w F -> proper (all_nodes blocks) -> total_weight (all_nodes blocks) w n <> 0 ->
  (n < nP)%nat -> length v = k -> (forall i j x, entry (all_nodes blocks) i j n -> cell_entry cd i j x -> x = v) -> nth_error r n = Some v.
Proof.
  intros blocks nP k F cd r w n v (L & Rr & H) HS HL HW HP HT Hn Hv Hx. destruct (H n Hn) as (y & Hy & Ny). rewrite Hy. f_equal. apply (nth_ext y v 0 0); [rewrite (rect_nth k r n y Rr Hy); now symmetry|].
  intros a _. specialize (Ny a). unfold at_ in Ny at 1. rewrite Ny. rewrite (weighted_sum_const a _ _ (at_ a v)).
  - rewrite (shares_add_up _ w F n HL HP HW HT). unfold at_. lra.
  - apply at_node_length; [apply HW|exact HS].
  - intros z Hz. destruct (at_node_in _ _ _ _ HS Hz) as (i & j & He & Hc). now rewrite (Hx i j z He Hc).
Qed.
Lemma pulled_unused : forall blocks nP k F cd r n, pulled blocks nP k F cd r -> ~ used (all_nodes blocks) n -> (n < nP)%nat -> nth_error r n = Some (repeat 0 k).
Proof.
  intros blocks nP k F cd r n (L & Rr & H) HU Hn. destruct (H n Hn) as (y & Hy & Ny). rewrite Hy. f_equal. apply (nth_ext y (repeat 0 k) 0 0); [rewrite repeat_length; apply (rect_nth k r n y Rr Hy)|].
  intros a _. specialize (Ny a). unfold at_ in Ny at 1. rewrite Ny, nth_repeat. rewrite !at_node_none; [reflexivity| |]; intros Hin; apply HU; apply in_concat in Hin; destruct Hin as (q & Hq & Hin);
    apply In_nth_error in Hq, Hin; destruct Hq as (i & Hi), Hin as (j & Hj); exists i, j, q; auto.
Qed.
(** the weighted average over the cells at the node *)
Lemma shares_weights : forall topo w F n, length w = length topo -> shares topo w F -> at_node topo F n = map (fun x => x / total_weight topo w n) (at_node topo (weight_table topo w) n).
Proof.
  intros topo w F n HL [HS HE].
  assert (SW : same_shape topo (weight_table topo w)) by (symmetry; exact (table_shape (fun x _ => x) topo w HL)).
  apply (at_node_map (fun m x => x / total_weight topo w m)); [exact SW|exact HS|]. intros i j m x He Hx. destruct He as (q & Hq & Hj).
  destruct (nth_error_lt w i) as [wi Hwi]; [rewrite HL; eapply nth_error_Some_lt; eauto|]. replace x with wi; [apply (HE i j m wi); [exists q; auto|assumption]|].
  apply (cell_entry_fun (weight_table topo w) i j); [|assumption].
  unfold weight_table, cell_entry. rewrite nth_error_map.
  assert (E : nth_error (combine topo w) i = Some (q, wi)).
  { clear - Hq Hwi. revert w i Hq Hwi. induction topo as [|r0 t IH]; intros [|x w] [|i] Hq Hwi; try discriminate; cbn in *; [congruence|]. now apply IH. }
  rewrite E. exists (map (fun _ => wi) q). split; [reflexivity|]. now rewrite nth_error_map, Hj.
Qed.
Lemma pulled_average : forall blocks nP k F cd r w n, pulled blocks nP k F cd r ->
  same_shape (all_nodes blocks) cd -> length w = length (all_nodes blocks) -> shares (all_nodes blocks) w F -> (n < nP)%nat ->
  exists y, nth_error r n = Some y /\ forall a, at_ a y = weighted_sum a (at_node (all_nodes blocks) (weight_table (all_nodes blocks) w) n) (at_node (all_nodes blocks) cd n) / total_weight (all_nodes blocks) w n.
Proof.
  intros blocks nP k F cd r w n (L & Rr & H) HS HL HW Hn. destruct (H n Hn) as (y & Hy & Ny). exists y. split; [assumption|]. intros a. rewrite Ny, (shares_weights _ w F n HL HW).
  generalize (at_node (all_nodes blocks) cd n) as v. generalize (at_node (all_nodes blocks) (weight_table (all_nodes blocks) w) n) as l. unfold weighted_sum, Rdiv. generalize (/ total_weight (all_nodes blocks) w n) as c.
  clear. intros c l. induction l as [|x l IH]; intros [|y v]; cbn [map combine]; try (cbn; lra). rewrite !rsum_cons, IH. cbn [fst snd]. lra.
Qed.
