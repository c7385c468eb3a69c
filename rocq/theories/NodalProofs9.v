(** * Proofs about [NodalModel.v]: consequences and wrong cases *)
From Coq Require Import Reals Lra Lia List Permutation.
From Verif Require Import NodalModel NodalSpec BaseFacts FillFacts TopoProofs TrProofs EvalProofs NodalProofs NodalProofs2 NodalProofs3 NodalProofs4.
Import ListNotations.
Local Open Scope R_scope.

(** ** factors *)
(** weights of integer type: all factors are cut to zero *)
Lemma integer_weights : exists topo w, rect 2 topo /\ length w = length topo /\ (forall x, In x w -> x = 1) /\ nodal_distribution_factors Integral (TNp topo) w = Ok (FacDense [[0; 0]; [0; 0]]) /\
  shares topo w [[1 / 2; 1 / 2]; [1 / 2; 1 / 2]] /\ nodal_distribution_factors Floating (TNp topo) w = Ok (FacDense [[1 / 2; 1 / 2]; [1 / 2; 1 / 2]]).
Proof.
  exists [[0; 1]; [1; 0]]%nat, [1; 1]. split; [repeat constructor|]. split; [reflexivity|]. split; [intros x [<-|[<-|[]]]; reflexivity|].
  assert (D : forall x y, x = 1 -> y = 2 -> div x y = Ok (1 / 2)). { intros x y -> ->. unfold div. destruct (Req_EM_T 2 0); [lra|]. reflexivity. }
  assert (N : nodal_weights [[0; 1]; [1; 0]]%nat [1; 1] 2 = Ok [2; 2]). { cbn. repeat f_equal; lra. }
  assert (E : forall dt, nodal_distribution_factors dt (TNp [[0; 1]; [1; 0]]%nat) [1; 1] = Ok (FacDense [[store dt (1 / 2); store dt (1 / 2)]; [store dt (1 / 2); store dt (1 / 2)]])).
  { intros dt. unfold nodal_distribution_factors, ndf_dense, ndf_dense_in. change (np_max (concat [[0; 1]; [1; 0]]%nat)) with (Ok 1%nat). cbn [bind]. change (1 + 1)%nat with 2%nat. rewrite N. cbn [bind].
    change (entries [[0; 1]; [1; 0]]%nat) with [(0, 0, 0); (0, 1, 1); (1, 0, 1); (1, 1, 0)]%nat. cbn [mapM fst snd get nth_error bind]. rewrite !(D 1 2) by reflexivity. cbn [bind]. reflexivity. }
  split; [|split; [|exact (E Floating)]].
  - rewrite (E Integral). cbn [store]. rewrite truncate_small by lra. reflexivity.
  - split; [reflexivity|]. intros i j n wi (r & Hr & Hj) Hw. assert (T : total_weight [[0; 1]; [1; 0]]%nat [1; 1] n = 2).
    { assert (Hn : n = 0%nat \/ n = 1%nat). { destruct i as [|[|i]]; cbn in Hr; [| |destruct i; discriminate]; injection Hr as <-; destruct j as [|[|j]]; cbn in Hj; try (destruct j; discriminate); injection Hj as <-; auto. }
      destruct Hn as [-> | ->]; unfold total_weight, rsum; cbn; lra. }
    rewrite T. destruct i as [|[|i]]; cbn in Hr, Hw; [| |destruct i; discriminate]; injection Hr as <-; injection Hw as <-; destruct j as [|[|j]]; cbn in Hj; try (destruct j; discriminate); eexists; split; reflexivity.
Qed.
(** a cell that has a node twice: the factors of the node do not add up to one *)
Lemma repeated_node : exists topo w f, rect 2 topo /\ nodal_distribution_factors Floating (TNp topo) w = Ok (FacDense f) /\ rsum (at_node topo f 0) = 2.
Proof.
  exists [[0; 0]]%nat, [1], [[1; 1]]. split; [repeat constructor|]. split; [|unfold at_node, rsum; cbn; lra].
  assert (N : nodal_weights [[0; 0]]%nat [1] 1 = Ok [1]). { cbn. repeat f_equal; lra. }
  unfold nodal_distribution_factors, ndf_dense, ndf_dense_in. change (np_max (concat [[0; 0]]%nat)) with (Ok 0%nat). cbn [bind]. change (0 + 1)%nat with 1%nat. rewrite N. cbn [bind].
  change (entries [[0; 0]]%nat) with [(0, 0, 0); (0, 1, 0)]%nat. cbn [mapM fst snd get nth_error bind]. assert (D : div 1 1 = Ok 1) by (unfold div; destruct (Req_EM_T 1 0); [lra|f_equal; field]). rewrite !D. reflexivity.
Qed.

(** ** distributing and collecting *)
Lemma conserved : forall data topo w f n p a, length w = length topo -> proper topo -> shares topo w f -> total_weight topo w n <> 0 -> (forall n, used topo n -> (n < length data)%nat) -> nth_error data n = Some p ->
  exists D, celldata_pull data topo [] (Some (FacDense f)) = Ok D /\ rsum (map (at_ a) (at_node topo D n)) = at_ a p.
Proof.
  intros data topo w f n p a HL HP HS HT HU Hp. assert (HF : same_shape topo f) by apply HS. destruct (distribute_bulk_value data topo f HF HU) as (D & E & HD). exists D. split; [exact E|].
  rewrite (distributed_sum data topo f D n p a HF HU HD Hp), (shares_add_up topo w f n HL HP HS HT). lra.
Qed.
(** the data of the points, copied to the cells and collected again *)
Lemma round_trip : forall k data blocks w fs sched F ptr ndf, csr_of F ptr ndf -> rect k data ->
  Forall2 (fun b f => same_shape (b_nodes b) f /\ rows_at F (b_ids b) f) blocks fs -> length w = length (all_nodes blocks) -> shares (all_nodes blocks) w (concat fs) ->
  Forall (fun b => exists D, celldata_pull data (b_nodes b) [] None = Ok D /\ b_data b = PerNode D) blocks ->
  Forall (fun b => rect (ncols (b_nodes b)) (b_nodes b) /\ proper (b_nodes b)) blocks ->
  (exists b, nth_error blocks 0 = Some b /\ concat (b_nodes b) <> []) ->
  (forall b i row, In b blocks -> nth_error (b_nodes b) i = Some row -> interleaving (length row) (sched i)) ->
  (forall n, used (all_nodes blocks) n -> (n < length data)%nat /\ total_weight (all_nodes blocks) w n <> 0) ->
  exists r, pointdata_pull sched (length data) blocks ptr ndf = Ok r /\ forall n, used (all_nodes blocks) n -> nth_error r n = nth_error data n.
Proof.
  intros k data blocks w fs sched F ptr ndf HC HR HFs HW HS HB HP HN HI HU.
  assert (HUb : forall b, In b blocks -> forall n, used (b_nodes b) n -> (n < length data)%nat).
  { intros b Hb n (i & j & row & Hr & Hj). apply HU. unfold all_nodes. assert (Hin : In row (concat (map b_nodes blocks))) by (apply in_concat; exists (b_nodes b); split; [now apply in_map|eapply nth_error_In; eauto]).
    apply In_nth_error in Hin. destruct Hin as (i' & Hi'). exists i', j, row. auto. }
  assert (G : exists cds, Forall2 (fun b cd => b_data b = PerNode cd /\ same_shape (b_nodes b) cd /\ forall i j n p, entry (b_nodes b) i j n -> nth_error data n = Some p -> cell_entry cd i j p) blocks cds).
  { clear - HB HUb. induction blocks as [|b blocks IH]; [exists []; constructor|]. inversion HB as [|? ? (D & ED & Eb) HB']; subst. destruct IH as (cds & Hc); [exact HB'|intros; eapply HUb; [right; eauto|assumption]|].
    destruct (copies_value data (b_nodes b)) as (D' & E' & S1 & S2); [apply HUb; now left|]. rewrite ED in E'. injection E' as <-. exists (D :: cds). constructor; auto. }
  destruct G as (cds & Hcds).
  assert (Hrow : forall b cd, In b blocks -> same_shape (b_nodes b) cd -> (forall i j n p, entry (b_nodes b) i j n -> nth_error data n = Some p -> cell_entry cd i j p) -> rows_of k cd).
  { intros b cd Hb Hsh Hc. apply Forall_forall. intros row Hr. apply Forall_forall. intros v Hv. apply In_nth_error in Hr, Hv. destruct Hr as (i & Hi), Hv as (j & Hj). destruct (shape_entry cd (b_nodes b) i j v) as (n & Hn); [symmetry; exact Hsh|exists row; auto|].
    destruct (nth_error_lt data n) as [p Hp]; [apply (HUb b Hb); exists i, j; exact Hn|]. pose proof (Hc i j n p Hn Hp) as Hq. assert (v = p) by (eapply (cell_entry_fun cd i j); [exists row; auto|exact Hq]). subst v. exact (rect_nth k data n p HR Hp). }
  destruct (pull_value k blocks fs cds sched F ptr ndf (length data) HC HFs) as (r & E & HPu); [|exact HP|exact HN|exact HI|intros n Hn; apply HU; exact Hn|].
  { assert (Gb : forall bs, incl bs blocks -> forall cs, Forall2 (fun b cd => b_data b = PerNode cd /\ same_shape (b_nodes b) cd /\ forall i j n p, entry (b_nodes b) i j n -> nth_error data n = Some p -> cell_entry cd i j p) bs cs ->
      Forall2 (fun b cd => values_of (b_nodes b) (b_data b) cd /\ same_shape (b_nodes b) cd /\ rows_of k cd) bs cs).
    { intros bs Hincl cs H. induction H as [|b cd bs cs (H1 & H2 & H3) H IH]; constructor; [|apply IH; intros x Hx; apply Hincl; now right]. split; [rewrite H1; reflexivity|]. split; [exact H2|]. apply (Hrow b); [apply Hincl; now left|assumption|assumption]. }
    apply Gb; [apply incl_refl|exact Hcds]. }
  exists r. split; [exact E|]. intros n Hn. destruct (HU n Hn) as [Hlt HT]. destruct (nth_error_lt data n Hlt) as [v Hv]. rewrite Hv.
  assert (Hsh : same_shape (all_nodes blocks) (concat cds)).
  { unfold same_shape, all_nodes. clear - Hcds. induction Hcds as [|b cd bs cs (H1 & H2 & H3) H IH]; [reflexivity|]. cbn [map concat]. rewrite !map_app, IH. unfold same_shape in H2. now rewrite H2. }
  assert (Hval : forall i j m p, entry (all_nodes blocks) i j m -> nth_error data m = Some p -> cell_entry (concat cds) i j p).
  { unfold all_nodes. clear - Hcds. induction Hcds as [|b cd bs cs (H1 & H2 & H3) H IH]; intros i j m p (row & Hr & Hj) Hp; [destruct i; discriminate|]. cbn [map concat] in Hr |- *.
    assert (L : length (b_nodes b) = length cd) by (rewrite <- (map_length (@length nat)), <- (map_length (@length (list R)) cd); unfold same_shape in H2; now rewrite H2).
    destruct (Nat.lt_ge_cases i (length (b_nodes b))) as [Hi|Hi].
    - rewrite nth_error_app1 in Hr by assumption. destruct (H3 i j m p (ex_intro _ row (conj Hr Hj)) Hp) as (q & Hq & Hq'). exists q. split; [rewrite nth_error_app1 by lia; exact Hq|exact Hq'].
    - rewrite nth_error_app2 in Hr by assumption. destruct (IH _ j m p (ex_intro _ row (conj Hr Hj)) Hp) as (q & Hq & Hq'). exists q. split; [rewrite nth_error_app2 by lia; rewrite <- L; exact Hq|exact Hq']. }
  apply (pulled_agrees blocks (length data) k (concat fs) (concat cds) r w n v HPu Hsh HW HS); [|exact HT|exact Hlt|exact (rect_nth k data n v HR Hv)|].
  - unfold proper, all_nodes. apply Forall_concat. apply Forall_forall. intros t Ht. apply in_map_iff in Ht. destruct Ht as (b & <- & Hb). rewrite Forall_forall in HP. apply (HP b Hb).
  - intros i j x He Hx. exact (cell_entry_fun _ _ _ _ _ Hx (Hval i j n v He Hv)).
Qed.
(** a cell that has a node twice: one of the two additions may be lost *)
Lemma lost_update : exists topo cd ptr ndf s1 s2, interleaving 2 s1 /\ interleaving 2 s2 /\ rect 2 topo /\
  collect_nodal_data (fun _ => s1) cd topo [0%nat] ptr ndf [[0]] = Ok [[2]] /\ collect_nodal_data (fun _ => s2) cd topo [0%nat] ptr ndf [[0]] = Ok [[1]].
Proof.
  exists [[0; 0]]%nat, [[[1]; [1]]], [0; 2]%nat, [1; 1], [Fetch 0; Store_ 0; Fetch 1; Store_ 1], [Fetch 0; Fetch 1; Store_ 0; Store_ 1].
  split; [|split; [|split; [repeat constructor|split]]].
  - split; [cbn; apply perm_skip; apply perm_swap|]. intros j Hj. destruct j as [|[|j]]; [exists [], [Store_ 0; Fetch 1; Store_ 1]|exists [Fetch 0; Store_ 0], [Store_ 1]|lia]; (split; [reflexivity|cbn; auto]).
  - split; [apply Permutation_refl|]. intros j Hj. destruct j as [|[|j]]; [exists [], [Fetch 1; Store_ 0; Store_ 1]|exists [Fetch 0], [Store_ 0; Store_ 1]|lia]; (split; [reflexivity|cbn; auto]).
  - cbn. repeat f_equal; lra.
  - cbn. repeat f_equal; lra.
Qed.

(** ** exploding and decomposing *)
(** integer coordinates: the data take the type of the coordinates *)
Lemma explode_integral : exists coords topo data c t, rect 1 coords /\ rect 1 topo /\ same_shape topo data /\ explode_mesh_data_bulk Integral coords topo data = Ok (c, t, [0]) /\ data = [[1 / 2]].
Proof.
  exists [[3]], [[0%nat]], [[1 / 2]]. destruct (explode_data_value (entries [[0%nat]]) Integral [[3]] [[0%nat]] [[1 / 2]]) as (c & t & d & _ & E & Hd); [repeat constructor| |reflexivity|apply Permutation_refl|].
  { intros n (i & j & r & Hr & Hj). destruct i as [|i]; [|destruct i; discriminate]. injection Hr as <-. destruct j as [|j]; [|destruct j; discriminate]. injection Hj as <-. cbn. lia. }
  exists c, t. split; [repeat constructor|]. split; [repeat constructor|]. split; [reflexivity|]. split; [|reflexivity]. unfold explode_mesh_data_bulk. rewrite E, Hd. cbn [concat app map store]. rewrite truncate_small by lra. reflexivity.
Qed.
(** coordinates of the cells that do not fit together: the result depends on the order of the iterations *)
Lemma decompose_order : exists topo ecs out es r r', Permutation (entries topo) es /\ same_shape topo ecs /\ decompose ecs topo out = Ok r /\ decompose_in es ecs out = Ok r' /\ r <> r'.
Proof.
  exists [[0%nat]; [0%nat]], [[[1]]; [[2]]], [[0]], [(1, 0, 0); (0, 0, 0)]%nat, [[2]], [[1]]. split; [apply perm_swap|]. split; [reflexivity|]. split; [reflexivity|]. split; [reflexivity|]. intros E. injection E. lra.
Qed.
(** exploding and putting together again *)
Lemma explode_decompose : forall es es' coords topo out, rect (ncols topo) topo -> (forall n, used topo n -> (n < length coords)%nat) -> length out = length coords -> Permutation (entries topo) es -> Permutation (entries topo) es' ->
  exists c t ecs r, explode_in es coords topo = Ok (c, t) /\ mesh_at c t ecs /\ decompose_in es' ecs out = Ok r /\ (forall n, used topo n -> nth_error r n = nth_error coords n) /\ (forall n, ~ used topo n -> nth_error r n = nth_error out n).
Proof.
  intros es es' coords topo out HR HU HL HP HP'. destruct (mesh_exists coords topo HU) as (ecs & HM). destruct (explode_correct es coords topo HR HU HP) as (c & t & E & _ & _ & _ & HE). destruct (decompose_correct es' coords topo ecs out HM) as (r & Er & _ & H1 & H2); [rewrite HL; exact HU|exact HP'|].
  exists c, t, ecs, r. split; [exact E|]. split; [now apply HE|]. auto.
Qed.
