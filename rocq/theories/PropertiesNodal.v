(** * Properties C40 - C45, C75, C76: data of nodes and cells, centres, orientation, neighbours, lines, Jacobian matrices *)
From Coq Require Import Reals Lra Lia List Permutation.
From Verif Require Import ShapeProofs QuadProofs4 NodalModel NodalSpec BaseFacts QuadSpec TrModel NodalProofs NodalProofs2 NodalProofs3 NodalProofs4 NodalProofs5 NodalProofs6 NodalProofs7 NodalProofs8 NodalProofs9.
Import ListNotations.
Local Open Scope R_scope.

(** ** C40 Nodal distribution factors *)

(** Floating point weights, dense and csr topologies: the share of a cell at a node is its weight divided by the weight of all cells at the node. *)
Theorem C40_any :
  forall topo t w, represents topo t -> (forall rows, topo <> TAk rows) -> rect (ncols t) t \/ is_csr topo -> concat t <> [] -> length w = length t ->
  (forall n, used t n -> total_weight t w n <> 0) ->
  exists r f, nodal_distribution_factors Floating topo w = Ok r /\ shares t w f /\ same_factors t f r.
Proof. exact factors_any. Qed.
Print Assumptions C40_any.
(** The same for every order of the iterations of the parallel loops, *)
Theorem C40_dense_any_order :
  forall es topo w, rect (ncols topo) topo -> concat topo <> [] -> length w = length topo ->
  (forall n, used topo n -> total_weight topo w n <> 0) -> Permutation (entries topo) es ->
  exists f, ndf_dense_in es Floating topo w = Ok f /\ shares topo w f.
Proof. exact factors_dense. Qed.
Print Assumptions C40_dense_any_order.
(** in both formats. *)
Theorem C40_csr_any_order :
  forall es topo w ptr data, csr_of topo ptr data -> data <> [] -> length w = length topo ->
  (forall n, used topo n -> total_weight topo w n <> 0) -> Permutation (entries topo) es ->
  exists f, ndf_csr_in es Floating ptr data w = Ok (concat f) /\ shares topo w f.
Proof. exact factors_csr. Qed.
Print Assumptions C40_csr_any_order.
(** The shares at a node add up to one. *)
Theorem C40_sum :
  forall topo w f n, length w = length topo -> proper topo -> shares topo w f -> total_weight topo w n <> 0 ->
  rsum (at_node topo f n) = 1.
Proof. exact shares_add_up. Qed.
Print Assumptions C40_sum.
(** Weights of an integer type: all shares may be cut to zero. *)
Theorem C40_refuted :
  exists topo w, rect 2 topo /\ length w = length topo /\ (forall x, In x w -> x = 1) /\ nodal_distribution_factors Integral (TNp topo) w = Ok (FacDense [[0; 0]; [0; 0]]) /\
  shares topo w [[1 / 2; 1 / 2]; [1 / 2; 1 / 2]] /\ nodal_distribution_factors Floating (TNp topo) w = Ok (FacDense [[1 / 2; 1 / 2]; [1 / 2; 1 / 2]]).
Proof. exact integer_weights. Qed.
Print Assumptions C40_refuted.
(** A cell with a repeated node: the shares do not add up to one, *)
Theorem C40_repeated_refuted :
  exists topo w f, rect 2 topo /\ nodal_distribution_factors Floating (TNp topo) w = Ok (FacDense f) /\ rsum (at_node topo f 0) = 2.
Proof. exact repeated_node. Qed.
Print Assumptions C40_repeated_refuted.
(** but to the following number. (Missing: one.) *)
Theorem C40_repeated_partial :
  forall topo w f n, length w = length topo -> shares topo w f ->
  rsum (at_node topo f n) = rsum (map (fun rw => INR (count_occ Nat.eq_dec (fst rw) n) * snd rw) (combine topo w)) / total_weight topo w n.
Proof. exact repeated_nodes. Qed.
Print Assumptions C40_repeated_partial.
Example C40_ex : exists f, nodal_distribution_factors Floating (TNp [[0; 1]; [1; 2]]%nat) [1; 3] = Ok (FacDense f) /\ shares [[0; 1]; [1; 2]]%nat [1; 3] f /\ rsum (at_node [[0; 1]; [1; 2]]%nat f 1) = 1.
Proof.
  assert (HU : forall n, used [[0; 1]; [1; 2]]%nat n -> total_weight [[0; 1]; [1; 2]]%nat [1; 3] n <> 0).
  { intros n (i & j & r & Hr & Hj). apply Rgt_not_eq. destruct i as [|[|[|i]]]; cbn in Hr; try discriminate; injection Hr as <-; destruct j as [|[|[|j]]]; cbn in Hj; try discriminate; injection Hj as <-; unfold total_weight, rsum; cbn; lra. }
  destruct (C40_any (TNp [[0; 1]; [1; 2]]%nat) [[0; 1]; [1; 2]]%nat [1; 3]) as (r & f & E & HS & HF); [constructor|discriminate|left; repeat constructor|discriminate|reflexivity|exact HU|].
  cbn [nodal_distribution_factors] in E. destruct (ndf_dense Floating [[0; 1]; [1; 2]]%nat [1; 3]) as [g|] eqn:Eg; [|discriminate]. cbn [bind] in E. injection E as <-. cbn [same_factors] in HF. subst g.
  exists f. split; [cbn [nodal_distribution_factors]; rewrite Eg; reflexivity|]. split; [exact HS|].
  apply (C40_sum [[0; 1]; [1; 2]]%nat [1; 3] f 1); [reflexivity| |exact HS|apply HU; exists 0%nat, 1%nat, [0; 1]%nat; split; reflexivity].
  repeat constructor; cbn; intuition discriminate.
Qed.

(** ** C41 Distributing and collecting *)

Theorem C41_distribute_bulk :
  forall data topo f, same_shape topo f -> (forall n, used topo n -> (n < length data)%nat) ->
  exists D, distribute_bulk data topo f = Ok D /\ distributed data topo f D.
Proof. exact distribute_bulk_value. Qed.
Print Assumptions C41_distribute_bulk.
Theorem C41_distribute_sparse :
  forall data topo cids ptr ndf F f, csr_of F ptr ndf -> rows_at F cids f -> same_shape topo f -> (forall n, used topo n -> (n < length data)%nat) ->
  exists D, distribute_sparse data topo cids ptr ndf = Ok D /\ distributed data topo f D.
Proof. exact distribute_sparse_value. Qed.
Print Assumptions C41_distribute_sparse.
(** The parts of the data of a node add up to its data times the sum of the factors, *)
Theorem C41_sum :
  forall data topo f D n p a, same_shape topo f -> (forall n, used topo n -> (n < length data)%nat) -> distributed data topo f D ->
  nth_error data n = Some p -> rsum (map (at_ a) (at_node topo D n)) = rsum (at_node topo f n) * at_ a p.
Proof. exact distributed_sum. Qed.
Print Assumptions C41_sum.
(** which is the data, if the factors are the shares of the cells. *)
Theorem C41_conservative :
  forall data topo w f n p a, length w = length topo -> proper topo -> shares topo w f -> total_weight topo w n <> 0 -> (forall n, used topo n -> (n < length data)%nat) -> nth_error data n = Some p ->
  exists D, celldata_pull data topo [] (Some (FacDense f)) = Ok D /\ rsum (map (at_ a) (at_node topo D n)) = at_ a p.
Proof. exact conserved. Qed.
Print Assumptions C41_conservative.
(** Cells without repeated nodes, every interleaving of the parallel iterations. *)
Theorem C41_collect :
  forall k topo f cd sched cids F ptr ndf r,
  (forall i row, nth_error topo i = Some row -> interleaving (length row) (sched i)) ->
  proper topo -> same_shape topo f -> same_shape topo cd -> rows_of k cd -> rect k r -> (forall n, used topo n -> (n < length r)%nat) ->
  csr_of F ptr ndf -> rows_at F cids f ->
  exists r', collect_nodal_data sched cd topo cids ptr ndf r = Ok r' /\ adds k topo f cd r r'.
Proof. exact collect_value. Qed.
Print Assumptions C41_collect.
(** The data of several blocks of cells, collected at the points, are weighted sums. *)
Theorem C41_pull :
  forall k blocks fs cds sched F ptr ndf nP, csr_of F ptr ndf ->
  Forall2 (fun b f => same_shape (b_nodes b) f /\ rows_at F (b_ids b) f) blocks fs ->
  Forall2 (fun b cd => values_of (b_nodes b) (b_data b) cd /\ same_shape (b_nodes b) cd /\ rows_of k cd) blocks cds ->
  Forall (fun b => rect (ncols (b_nodes b)) (b_nodes b) /\ proper (b_nodes b)) blocks ->
  (exists b, nth_error blocks 0 = Some b /\ concat (b_nodes b) <> []) ->
  (forall b i row, In b blocks -> nth_error (b_nodes b) i = Some row -> interleaving (length row) (sched i)) ->
  (forall n, used (all_nodes blocks) n -> (n < nP)%nat) ->
  exists r, pointdata_pull sched nP blocks ptr ndf = Ok r /\ pulled blocks nP k (concat fs) (concat cds) r.
Proof. exact pull_value. Qed.
Print Assumptions C41_pull.
(** With the shares as factors these are weighted averages, *)
Theorem C41_average :
  forall blocks nP k F cd r w n, pulled blocks nP k F cd r ->
  same_shape (all_nodes blocks) cd -> length w = length (all_nodes blocks) -> shares (all_nodes blocks) w F -> (n < nP)%nat ->
  exists y, nth_error r n = Some y /\ forall a, at_ a y = weighted_sum a (at_node (all_nodes blocks) (weight_table (all_nodes blocks) w) n) (at_node (all_nodes blocks) cd n) / total_weight (all_nodes blocks) w n.
Proof. exact pulled_average. Qed.
Print Assumptions C41_average.
(** equal to the data if the cells at the node agree, *)
Theorem C41_constant :
  forall blocks nP k F cd r w n v, pulled blocks nP k F cd r ->
  same_shape (all_nodes blocks) cd -> length w = length (all_nodes blocks) -> shares (all_nodes blocks) w F -> proper (all_nodes blocks) -> total_weight (all_nodes blocks) w n <> 0 ->
  (n < nP)%nat -> length v = k -> (forall i j x, entry (all_nodes blocks) i j n -> cell_entry cd i j x -> x = v) -> nth_error r n = Some v.
Proof. exact pulled_agrees. Qed.
Print Assumptions C41_constant.
(** and zero for points without cells. *)
Theorem C41_unused :
  forall blocks nP k F cd r n, pulled blocks nP k F cd r -> ~ used (all_nodes blocks) n -> (n < nP)%nat -> nth_error r n = Some (repeat 0 k).
Proof. exact pulled_unused. Qed.
Print Assumptions C41_unused.
(** Data of points, copied to the cells and collected again, are the data of the points. *)
Theorem C41_round_trip :
  forall k data blocks w fs sched F ptr ndf, csr_of F ptr ndf -> rect k data ->
  Forall2 (fun b f => same_shape (b_nodes b) f /\ rows_at F (b_ids b) f) blocks fs -> length w = length (all_nodes blocks) -> shares (all_nodes blocks) w (concat fs) ->
  Forall (fun b => exists D, celldata_pull data (b_nodes b) [] None = Ok D /\ b_data b = PerNode D) blocks ->
  Forall (fun b => rect (ncols (b_nodes b)) (b_nodes b) /\ proper (b_nodes b)) blocks ->
  (exists b, nth_error blocks 0 = Some b /\ concat (b_nodes b) <> []) ->
  (forall b i row, In b blocks -> nth_error (b_nodes b) i = Some row -> interleaving (length row) (sched i)) ->
  (forall n, used (all_nodes blocks) n -> (n < length data)%nat /\ total_weight (all_nodes blocks) w n <> 0) ->
  exists r, pointdata_pull sched (length data) blocks ptr ndf = Ok r /\ forall n, used (all_nodes blocks) n -> nth_error r n = nth_error data n.
Proof. exact round_trip. Qed.
Print Assumptions C41_round_trip.
(** A cell with a repeated node: an addition may be lost, depending on the order of execution. *)
Theorem C41_refuted :
  exists topo cd ptr ndf s1 s2, interleaving 2 s1 /\ interleaving 2 s2 /\ rect 2 topo /\
  collect_nodal_data (fun _ => s1) cd topo [0%nat] ptr ndf [[0]] = Ok [[2]] /\ collect_nodal_data (fun _ => s2) cd topo [0%nat] ptr ndf [[0]] = Ok [[1]].
Proof. exact lost_update. Qed.
Print Assumptions C41_refuted.
Example C41_ex : interleaving 2 [Fetch 1; Fetch 0; Store_ 0; Store_ 1] /\ csr_of [[1; 1 / 2]; [1 / 2; 1]] [0; 2; 4]%nat [1; 1 / 2; 1 / 2; 1] /\
  rows_at [[1; 1 / 2]; [1 / 2; 1]] [1; 0]%nat [[1 / 2; 1]; [1; 1 / 2]] /\ shares [[1; 2]; [0; 1]]%nat [3; 3] [[1 / 2; 1]; [1; 1 / 2]].
Proof.
  split; [|split; [split; reflexivity|split; [repeat constructor|]]].
  - split; [cbn; apply perm_swap|]. intros j Hj. destruct j as [|[|j]]; [exists [Fetch 1], [Store_ 0; Store_ 1]|exists [], [Fetch 0; Store_ 0; Store_ 1]|lia]; (split; [reflexivity|cbn; auto]).
  - split; [reflexivity|]. intros i j n wi (r & Hr & Hj) Hw.
    destruct i as [|[|[|i]]]; cbn in Hr, Hw; try discriminate; injection Hr as <-; injection Hw as <-; (destruct j as [|[|[|j]]]; cbn in Hj; try discriminate; injection Hj as <-); eexists; (split; [reflexivity|]); cbn [nth_error]; f_equal; unfold total_weight, rsum; cbn; field.
Qed.

(** ** C42 Exploding and decomposing *)

(** Every cell gets its own points, at unchanged positions. *)
Theorem C42_explode :
  forall es coords topo, rect (ncols topo) topo -> (forall n, used topo n -> (n < length coords)%nat) -> Permutation (entries topo) es ->
  exists c t, explode_in es coords topo = Ok (c, t) /\ same_shape topo t /\ concat t = seq 0 (length topo * ncols topo) /\ length c = (length topo * ncols topo)%nat /\
    forall ecs, mesh_at coords topo ecs -> mesh_at c t ecs.
Proof. exact explode_correct. Qed.
Print Assumptions C42_explode.
Theorem C42_explode_in_order :
  forall coords topo, rect (ncols topo) topo -> (forall n, used topo n -> (n < length coords)%nat) ->
  exists c t, explode_mesh_bulk coords topo = Ok (c, t) /\ same_shape topo t /\ concat t = seq 0 (length topo * ncols topo) /\ length c = (length topo * ncols topo)%nat /\
    forall ecs, mesh_at coords topo ecs -> mesh_at c t ecs.
Proof. intros coords topo HR HU. exact (explode_correct (entries topo) coords topo HR HU (Permutation_refl _)). Qed.
Print Assumptions C42_explode_in_order.
(** The data of the nodes of the cells, stored with the type of the coordinates. (Missing: unchanged, see below.) *)
Theorem C42_data_partial :
  forall es dt coords topo data, rect (ncols topo) topo -> (forall n, used topo n -> (n < length coords)%nat) -> same_shape topo data -> Permutation (entries topo) es ->
  exists c t d, explode_in es coords topo = Ok (c, t) /\ explode_data_in es dt coords topo data = Ok (c, t, d) /\ d = map (store dt) (concat data).
Proof. exact explode_data_value. Qed.
Print Assumptions C42_data_partial.
Theorem C42_data_in_order_partial :
  forall dt coords topo data, rect (ncols topo) topo -> (forall n, used topo n -> (n < length coords)%nat) -> same_shape topo data ->
  exists c t d, explode_mesh_bulk coords topo = Ok (c, t) /\ explode_mesh_data_bulk dt coords topo data = Ok (c, t, d) /\ d = map (store dt) (concat data).
Proof. intros dt coords topo data HR HU HS. exact (explode_data_value (entries topo) dt coords topo data HR HU HS (Permutation_refl _)). Qed.
Print Assumptions C42_data_in_order_partial.
(** Integer coordinates: the data lose their fractions. *)
Theorem C42_refuted :
  exists coords topo data c t, rect 1 coords /\ rect 1 topo /\ same_shape topo data /\ explode_mesh_data_bulk Integral coords topo data = Ok (c, t, [0]) /\ data = [[1 / 2]].
Proof. exact explode_integral. Qed.
Print Assumptions C42_refuted.
(** Putting the positions of the cells together again, in every order. *)
Theorem C42_decompose :
  forall es coords topo ecs out, mesh_at coords topo ecs -> (forall n, used topo n -> (n < length out)%nat) -> Permutation (entries topo) es ->
  exists r, decompose_in es ecs out = Ok r /\ length r = length out /\ (forall n, used topo n -> nth_error r n = nth_error coords n) /\ (forall n, ~ used topo n -> nth_error r n = nth_error out n).
Proof. exact decompose_correct. Qed.
Print Assumptions C42_decompose.
Theorem C42_decompose_in_order :
  forall coords topo ecs out, mesh_at coords topo ecs -> (forall n, used topo n -> (n < length out)%nat) ->
  exists r, decompose ecs topo out = Ok r /\ length r = length out /\ (forall n, used topo n -> nth_error r n = nth_error coords n) /\ (forall n, ~ used topo n -> nth_error r n = nth_error out n).
Proof. intros coords topo ecs out HM HU. exact (decompose_correct (entries topo) coords topo ecs out HM HU (Permutation_refl _)). Qed.
Print Assumptions C42_decompose_in_order.
Theorem C42_round_trip :
  forall es es' coords topo out, rect (ncols topo) topo -> (forall n, used topo n -> (n < length coords)%nat) -> length out = length coords -> Permutation (entries topo) es -> Permutation (entries topo) es' ->
  exists c t ecs r, explode_in es coords topo = Ok (c, t) /\ mesh_at c t ecs /\ decompose_in es' ecs out = Ok r /\ (forall n, used topo n -> nth_error r n = nth_error coords n) /\ (forall n, ~ used topo n -> nth_error r n = nth_error out n).
Proof. exact explode_decompose. Qed.
Print Assumptions C42_round_trip.
(** Positions that do not belong to a mesh: the result depends on the order. *)
Theorem C42_order_refuted :
  exists topo ecs out es r r', Permutation (entries topo) es /\ same_shape topo ecs /\ decompose ecs topo out = Ok r /\ decompose_in es ecs out = Ok r' /\ r <> r'.
Proof. exact decompose_order. Qed.
Print Assumptions C42_order_refuted.
Example C42_ex : explode_mesh_data_bulk Floating [[5]; [7]; [9]] [[0; 1]; [1; 2]]%nat [[1; 2]; [3; 4]] = Ok ([[5]; [7]; [7]; [9]], [[0; 1]; [2; 3]]%nat, [1; 2; 3; 4]) /\
  decompose [[[5]; [7]]; [[7]; [9]]] [[0; 1]; [1; 2]]%nat [[0]; [0]; [0]; [8]] = Ok [[5]; [7]; [9]; [8]].
Proof. split; reflexivity. Qed.

(** ** C43 Centres and averages *)

(** Floating point coordinates: the centre is the mean, *)
Theorem C43_center :
  forall d rows, rows <> [] -> rect d rows -> exists c, cell_center Floating rows = Ok c /\ mean_row d rows c.
Proof. exact cell_center_correct. Qed.
Print Assumptions C43_center.
Theorem C43_center_2d :
  forall rows, rows <> [] -> Forall (has_dim 2) rows -> exists c, cell_center_2d Floating rows = Ok c /\ mean_row 2 rows c.
Proof. exact cell_center_2d_correct. Qed.
Print Assumptions C43_center_2d.
Theorem C43_centers_bulk :
  forall d nNE coords topo ecs, mesh_at coords topo ecs -> rect d coords -> rect nNE topo -> (0 < nNE)%nat ->
  exists cs, cell_centers_bulk coords topo = Ok cs /\ Forall2 (mean_row d) ecs cs.
Proof. exact centers_bulk_correct. Qed.
Print Assumptions C43_centers_bulk.
(** (there is only one) *)
Theorem C43_unique :
  forall d rows c c', rows <> [] -> mean_row d rows c -> mean_row d rows c' -> c = c'.
Proof. exact mean_unique. Qed.
Print Assumptions C43_unique.
(** which moves with the points *)
Theorem C43_translation :
  forall d ps qs t c c', qs <> [] -> rect d qs -> Forall2 (moved_by t) ps qs -> mean_row d ps c -> mean_row d qs c' -> moved_by t c c'.
Proof. exact mean_moved. Qed.
Print Assumptions C43_translation.
(** and does not depend on their order. *)
Theorem C43_permutation :
  forall d ps qs c, Permutation ps qs -> mean_row d ps c -> mean_row d qs c.
Proof. exact mean_perm. Qed.
Print Assumptions C43_permutation.
(** centralize moves all points in the same way, the centre to the origin, *)
Theorem C43_centralize :
  forall d rows, (d = 2 \/ d = 3)%nat -> rows <> [] -> rect d rows ->
  exists r t, centralize Floating rows = Ok r /\ Forall2 (moved_by t) r rows /\ mean_row d r (repeat 0 d).
Proof. exact centralize_correct. Qed.
Print Assumptions C43_centralize.
(** and once more changes nothing. *)
Theorem C43_idempotent :
  forall d rows r, (d = 2 \/ d = 3)%nat -> rows <> [] -> rect d rows -> centralize Floating rows = Ok r -> centralize Floating r = Ok r.
Proof. exact centralize_again. Qed.
Print Assumptions C43_idempotent.
(** The option of grid. *)
Theorem C43_grid :
  forall a e c t d, GridModel.grid (with_centralize false a) e = Ok (c, t) -> c <> [] -> rect d c ->
  exists c' v, GridModel.grid (with_centralize true a) e = Ok (c', t) /\ Forall2 (moved_by v) c' c /\ mean_row d c' (repeat 0 d).
Proof. exact grid_centralized. Qed.
Print Assumptions C43_grid.
(** Points on a line: IndexError. *)
Theorem C43_line_refuted :
  forall rows, rows <> [] -> rect 1 rows -> centralize Floating rows = Err IndexError.
Proof. exact centralize_line. Qed.
Print Assumptions C43_line_refuted.
(** Integer coordinates: nothing is moved although the centre is not the origin. *)
Theorem C43_refuted :
  exists rows r, rows <> [] /\ rect 2 rows /\ (forall p, In p rows -> exists z, p = map IZR z) /\ centralize Integral rows = Ok r /\ r = rows /\ ~ mean_row 2 r (repeat 0 2).
Proof. exact centralize_integral. Qed.
Print Assumptions C43_refuted.
(** Data of nodes averaged over the cells, for arrays of two axes. *)
Theorem C43_average :
  forall d data topo rows, data <> [] -> rect d data -> Forall (fun nodes => nodes <> []) topo -> mesh_at data topo rows ->
  exists r, avg_cell_data (Rank2 data) topo = Ok r /\ Forall2 (mean_row d) rows r.
Proof. exact avg_correct. Qed.
Print Assumptions C43_average.
(** Linear data: the average is the value at the centre. *)
Theorem C43_affine :
  forall d rows c (g : list R) k, rows <> [] -> rect d rows -> mean_row d rows c -> length g = d ->
  rsum (map (fun p => sprod g p + k) rows) / INR (length rows) = sprod g c + k.
Proof. exact affine_mean. Qed.
Print Assumptions C43_affine.
(** one axis only: NameError *)
Theorem C43_rank_refuted : forall d topo, avg_cell_data (Rank1 d) topo = Err NameError.
Proof. intros; reflexivity. Qed.
Print Assumptions C43_rank_refuted.
(** homogenize_nodal_values divides the sums by the measures of the cells. *)
Theorem C43_homogenize :
  forall d data measure, length data = length measure -> Forall (fun rows => rows <> [] /\ rect d rows) data -> (forall m, In m measure -> m <> 0) ->
  exists r, homogenize data measure = Ok r /\ length r = length data /\
    forall i rows m, nth_error data i = Some rows -> nth_error measure i = Some m -> exists row, nth_error r i = Some row /\ dim d row /\ forall a, (a < d)%nat -> at_ a row * m = rsum (map (at_ a) rows).
Proof. exact homogenize_value. Qed.
Print Assumptions C43_homogenize.
Example C43_ex : mean_row 2 [[0; 0]; [4; 2]] [2; 1] /\ mesh_at [[0; 0]; [4; 2]] [[1; 0]%nat] [[[4; 2]; [0; 0]]] /\ Forall2 (moved_by [1; -1]) [[1; -1]; [5; 1]] [[0; 0]; [4; 2]].
Proof.
  split; [split; [reflexivity|]|split; [repeat constructor|]].
  - intros a Ha. destruct a as [|[|a]]; [| |lia]; unfold at_, rsum; cbn; lra.
  - repeat constructor; intros a Ha; cbn in Ha; (destruct a as [|[|a]]; [| |lia]); unfold at_; cbn; lra.
Qed.

(** ** C44 Orientation *)

(** is_cw is true exactly for polygons of negative area, is_ccw for the others (of area zero, too). *)
Theorem C44_orientation :
  forall ps, Forall (has_dim 2) ps -> exists b, is_cw ps = Ok b /\ is_ccw ps = Ok (negb b) /\ forall o, (b = true <-> fan_area o ps < 0) /\ (b = false <-> 0 <= fan_area o ps).
Proof. exact orientation. Qed.
Print Assumptions C44_orientation.
(** The area does not depend on the position of reference, *)
Theorem C44_area_reference :
  forall o o' ps, fan_area o ps = fan_area o' ps.
Proof. exact fan_any. Qed.
Print Assumptions C44_area_reference.
(** nor on translations *)
Theorem C44_area_moved :
  forall t ps qs o, Forall2 (moved_by t) ps qs -> Forall (has_dim 2) qs -> fan_area o ps = fan_area o qs.
Proof. exact area_moved. Qed.
Print Assumptions C44_area_moved.
(** or the vertex that comes first, and changes its sign *)
Theorem C44_area_rotated :
  forall o ps qs, fan_area o (qs ++ ps) = fan_area o (ps ++ qs).
Proof. exact area_rotated. Qed.
Print Assumptions C44_area_rotated.
(** with the direction. *)
Theorem C44_area_reversed :
  forall o ps, fan_area o (rev ps) = - fan_area o ps.
Proof. exact area_reversed. Qed.
Print Assumptions C44_area_reversed.
(** Convex polygons. *)
Theorem C44_area_convex :
  forall o ps, (3 <= length ps)%nat -> convex_ccw ps -> 0 < fan_area o ps.
Proof. exact area_convex. Qed.
Print Assumptions C44_area_convex.
Theorem C44_moved :
  forall t ps qs, Forall2 (moved_by t) ps qs -> Forall (has_dim 2) qs -> is_cw ps = is_cw qs.
Proof. exact cw_moved. Qed.
Print Assumptions C44_moved.
Theorem C44_rotated :
  forall ps qs, Forall (has_dim 2) (ps ++ qs) -> is_cw (qs ++ ps) = is_cw (ps ++ qs).
Proof. exact cw_rotated. Qed.
Print Assumptions C44_rotated.
Theorem C44_reversed :
  forall ps b, Forall (has_dim 2) ps -> fan_area [] ps <> 0 -> is_cw ps = Ok b -> is_cw (rev ps) = Ok (negb b).
Proof. exact cw_reversed. Qed.
Print Assumptions C44_reversed.
Theorem C44_convex :
  forall ps, (3 <= length ps)%nat -> Forall (has_dim 2) ps -> convex_ccw ps -> is_ccw ps = Ok true /\ is_cw (rev ps) = Ok true.
Proof. exact ccw_convex. Qed.
Print Assumptions C44_convex.
Example C44_ex : convex_ccw [[0; 0]; [1; 0]; [1; 1]; [0; 1]] /\ is_ccw [[0; 0]; [1; 0]; [1; 1]; [0; 1]] = Ok true /\ fan_area [7; 8] [[0; 0]; [1; 0]; [1; 1]; [0; 1]] = 1.
Proof.
  assert (C : convex_ccw [[0; 0]; [1; 0]; [1; 1]; [0; 1]]).
  { intros i j k a b c H Ha Hb Hc. assert (k < 4)%nat by (change 4%nat with (length [[0; 0]; [1; 0]; [1; 1]; [0; 1]]); apply nth_error_Some; congruence).
    assert (T : (i = 0 /\ j = 1 /\ k = 2 \/ i = 0 /\ j = 1 /\ k = 3 \/ i = 0 /\ j = 2 /\ k = 3 \/ i = 1 /\ j = 2 /\ k = 3)%nat) by lia.
    destruct T as [(-> & -> & ->)|[(-> & -> & ->)|[(-> & -> & ->)|(-> & -> & ->)]]]; cbn in Ha, Hb, Hc; injection Ha as <-; injection Hb as <-; injection Hc as <-; unfold ccw, signed_area, px, py; cbn; lra. }
  split; [exact C|]. split; [apply C44_convex; [cbn; lia|repeat constructor|exact C]|]. unfold fan_area, signed_area, px, py, rsum; cbn; lra.
Qed.

(** ** C45 Points within reach *)

(** The search for one point is right, *)
Theorem C45_within :
  forall d pts c r, rect d pts -> length c = d -> exists row, within pts c r = Ok row /\ neighbours_in pts c r row.
Proof. exact within_spec. Qed.
Print Assumptions C45_within.
(** and so is the sequential version, which is not used. *)
Theorem C45_single :
  forall d pts r, rect d pts -> exists rows, cells_around_ST pts r = Ok (rows, map (@length nat) rows) /\ Forall2 (fun c row => neighbours_in pts c r row) pts rows.
Proof. exact cells_ST. Qed.
Print Assumptions C45_single.
(** The parallel version cuts the rows or fills them up with zeros. (Missing: exactly the neighbours.) *)
Theorem C45_parallel_partial :
  forall d pts r n_max, rect d pts -> exists rows, cells_around_MT pts r n_max = Ok (rows, map (@length nat) rows) /\ rect n_max rows /\
  Forall2 (fun c row => exists close, neighbours_in pts c r close /\ row = firstn n_max close ++ repeat 0%nat (n_max - length close)) pts rows.
Proof. exact cells_MT. Qed.
Print Assumptions C45_parallel_partial.
(** The three formats of the result hold the same rows. *)
Theorem C45_formats_partial :
  forall d pts r n_max, rect d pts -> exists rows, padded pts r n_max rows /\
  points_around pts r FmtDict true n_max = Ok (NbDict (enum rows)) /\
  points_around pts r FmtJagged true n_max = Ok (NbJagged rows) /\
  (exists inds ptr n m, points_around pts r FmtCsr true n_max = Ok (NbCsr (concat rows) inds ptr (n, m)) /\ csr_of rows ptr (concat rows) /\ inds = columns rows /\ n = length rows /\ (pts <> [] -> m = n_max)) /\
  points_around pts r FmtOther true n_max = Err RuntimeError /\
  forall fmt, points_around pts r fmt false n_max = Err NotImplementedError.
Proof. exact around_value. Qed.
Print Assumptions C45_formats_partial.
(** A row is right if there are exactly n_max neighbours; else some are missing or point 0 is wrongly among them. *)
Theorem C45_exact_partial :
  forall pts r n_max rows i c row, padded pts r n_max rows -> nth_error pts i = Some c -> nth_error rows i = Some row ->
  exists close, neighbours_in pts c r close /\ (forall j, In j close -> In j row \/ (n_max < length close)%nat) /\ (forall j, In j row -> In j close \/ (j = 0%nat /\ (length close < n_max)%nat)) /\ (length close = n_max -> row = close).
Proof. exact padded_exact. Qed.
Print Assumptions C45_exact_partial.
(** Point 0 is listed as a neighbour although it is too far away. *)
Theorem C45_refuted :
  exists pts r n_max row, rect 2 pts /\ points_around pts r FmtJagged true n_max = Ok (NbJagged row) /\
  exists cells p q, nth_error row 1 = Some cells /\ In 0%nat cells /\ nth_error pts 1 = Some p /\ nth_error pts 0 = Some q /\ ~ dist q p <= r.
Proof. exact around_wrong. Qed.
Print Assumptions C45_refuted.
Example C45_ex : neighbours_in [[0]; [1]; [5]] [0] 2 [0; 1]%nat.
Proof.
  split; [repeat constructor|]. assert (D : forall x, dist [x] [0] = Rabs x) by (intros x; unfold dist, dist2, rsum; cbn; replace ((x - 0) * (x - 0) + 0) with (Rsqr x) by (unfold Rsqr; ring); apply sqrt_Rsqr_abs).
  intros j. split.
  - intros [<-|[<-|[]]]; eexists; (split; [reflexivity|]); rewrite D; [rewrite Rabs_R0|rewrite Rabs_R1]; lra.
  - intros (p & Hp & Hd). destruct j as [|[|[|j]]]; cbn in Hp; [now left|right; now left| |destruct j; discriminate]. injection Hp as <-. rewrite D, Rabs_pos_eq in Hd; lra.
Qed.

(** ** C75 Lines *)

(** The length of a line is the distance of its first and last node. *)
Theorem C75_lengths :
  forall d nNE coords topo ecs, mesh_at coords topo ecs -> rect d coords -> rect nNE topo -> (0 < nNE)%nat ->
  exists l, lengths_of_lines coords topo = Ok l /\ lengths_of_lines2 ecs = Ok l /\ Forall2 chord ecs l.
Proof. exact lengths_correct. Qed.
Print Assumptions C75_lengths.
Theorem C75_distances :
  forall d coords, rect d coords -> exists l, distances_of_points coords = Ok l /\ length l = length coords /\
  (forall x, nth_error l 0 = Some x -> x = 0) /\
  forall i a b, nth_error coords i = Some a -> nth_error coords (S i) = Some b -> nth_error l (S i) = Some (dist b a).
Proof. exact distances_value. Qed.
Print Assumptions C75_distances.
(** Points at given ratios, *)
Theorem C75_pcoords :
  forall d pts ecs, Forall (fun ec => rect d ec /\ ec <> []) ecs -> exists rows, pcoords_to_coords_1d pts ecs = Ok (concat rows) /\ rect (length pts) rows /\ Forall2 (fun ec qs => Forall2 (on_chord ec) pts qs) ecs rows.
Proof. exact pcoords_value. Qed.
Print Assumptions C75_pcoords.
(** on the line for ratios between 0 and 1, *)
Theorem C75_inside :
  forall d a b p q, length a = d -> length b = d -> on_line a b p q -> 0 <= p <= 1 -> in_hull d [a; b] q.
Proof. exact on_line_hull. Qed.
Print Assumptions C75_inside.
(** at its ends for 0 and 1. *)
Theorem C75_ends :
  forall a b q, length b = length a -> (on_line a b 0 q <-> q = a) /\ (on_line a b 1 q <-> q = b) /\ (on_line a b (-1) q -> q = a -> a = b).
Proof. exact on_line_ends. Qed.
Print Assumptions C75_ends.
(** The documented range is [-1, 1]: such points are not on the line. *)
Theorem C75_range_refuted :
  exists ec q, pcoords_to_coords_1d [-1] [ec] = Ok [q] /\ (exists a b, ec = [a; b] /\ q <> a /\ q <> b /\ ~ in_hull 1 [a; b] q).
Proof. exact pcoords_range. Qed.
Print Assumptions C75_range_refuted.
(** points_of_cells, points given, *)
Theorem C75_points :
  forall lcoords d nNE coords topo ecs ids pts rng r0 r1, mesh_at coords topo ecs -> rect d coords -> rect nNE topo -> (0 < nNE)%nat ->
  match rng with None => (0, 1) | Some r => r end = (r0, r1) -> r0 <> r1 ->
  exists rows, points_of_lines lcoords coords topo ids (Some pts) rng None = Ok rows /\ Forall2 (fun ec qs => Forall2 (fun x q => on_chord ec ((x - r0) / (r1 - r0)) q) pts qs) ecs rows.
Proof. exact points_given. Qed.
Print Assumptions C75_points.
(** and nothing given. *)
Theorem C75_no_points :
  forall lcoords coords topo ecs ids rng, mesh_at coords topo ecs -> points_of_lines lcoords coords topo ids None rng None = Ok ecs.
Proof. exact points_none. Qed.
Print Assumptions C75_no_points.
(** With a list of cells, if the ids of the cells are their positions. (Missing: other ids.) *)
Theorem C75_selected_partial :
  forall lcoords d nNE coords topo ecs pts rng r0 r1 cs, mesh_at coords topo ecs -> rect d coords -> rect nNE topo -> (0 < nNE)%nat ->
  match rng with None => (0, 1) | Some r => r end = (r0, r1) -> r0 <> r1 -> (forall c, In c cs -> (c < length topo)%nat) ->
  exists rows, points_of_lines lcoords coords topo (seq 0 (length topo)) (Some pts) rng (Some cs) = Ok rows /\
    Forall2 (fun c qs => exists ec, nth_error ecs c = Some ec /\ Forall2 (fun x q => on_chord ec ((x - r0) / (r1 - r0)) q) pts qs) cs rows.
Proof. exact points_selected. Qed.
Print Assumptions C75_selected_partial.
(** Other ids: IndexError *)
Theorem C75_ids_refuted :
  exists coords topo ids, (length ids = length topo)%nat /\ rect 2 coords /\ rect 2 topo /\ (forall n, used topo n -> (n < length coords)%nat) /\ In 1%nat ids /\
  points_of_lines [-1; 1] coords topo ids (Some [0]) None (Some [1%nat]) = Err IndexError.
Proof. exact points_ids_wrong. Qed.
Print Assumptions C75_ids_refuted.
(** or the points of another cell. *)
Theorem C75_other_refuted :
  exists coords topo ids rows, (length ids = length topo)%nat /\ NoDup ids /\ nth_error ids 0 = Some 1%nat /\
  points_of_lines [-1; 1] coords topo ids (Some [0]) None (Some [1%nat]) = Ok rows /\ exists q, rows = [[q]] /\ q = [5] /\ mesh_at coords topo [[[0]; [1]]; [[5]; [6]]].
Proof. exact points_ids_other. Qed.
Print Assumptions C75_other_refuted.
(** A list of cells but no points: the nodes of the cell, for straight lines; *)
Theorem C75_L2 :
  forall d coords topo ecs cs, mesh_at coords topo ecs -> rect d coords -> rect 2 topo -> (forall c, In c cs -> (c < length topo)%nat) ->
  exists rows, points_of_lines [-1; 1] coords topo (seq 0 (length topo)) None None (Some cs) = Ok rows /\ rows_at ecs cs rows.
Proof. exact points_L2. Qed.
Print Assumptions C75_L2.
(** not for curved ones. *)
Theorem C75_L3_refuted :
  exists coords topo ecs rows, mesh_at coords topo ecs /\ rect 2 coords /\ rect 3 topo /\ points_of_lines [-1; 0; 1] coords topo [0%nat] None None (Some [0%nat]) = Ok rows /\ rows <> ecs.
Proof. exact points_L3_wrong. Qed.
Print Assumptions C75_L3_refuted.
Example C75_ex : mesh_at [[0; 0]; [3; 4]] [[0; 1]%nat] [[[0; 0]; [3; 4]]] /\ chord [[0; 0]; [3; 4]] 5 /\ on_line [0; 0] [3; 4] (1 / 2) [3 / 2; 2].
Proof.
  split; [repeat constructor|]. split.
  - exists [0; 0], [3; 4]. split; [reflexivity|]. split; [reflexivity|]. unfold dist, dist2, rsum. cbn. replace ((3 - 0) * (3 - 0) + ((4 - 0) * (4 - 0) + 0)) with (Rsqr 5) by (unfold Rsqr; ring). symmetry. apply sqrt_Rsqr. lra.
  - split; [reflexivity|]. intros k Hk. cbn in Hk. destruct k as [|[|k]]; [| |lia]; unfold at_; cbn; lra.
Qed.

(** ** C76 Jacobian matrices *)

(** The entries are the derivatives of the position. *)
Theorem C76_matrix :
  forall dim n shp dshp pts ds ecs, differentiates dim n shp dshp -> (0 < n)%nat -> rect dim pts -> mapM dshp pts = Ok ds -> Forall (fun ec => length ec = n /\ rect dim ec) ecs ->
  exists J, jacobian_matrix_bulk dim ds ecs = Ok J /\ Forall2 (fun ec Je => Forall2 (fun p M => length M = dim /\ rect dim M /\
      forall d a, (d < dim)%nat -> (a < dim)%nat -> derivable_pt_lim (fun x => position shp ec a (replace_nth d x p)) (nth d p 0) (at_ a (nth d M []))) pts Je) ecs J.
Proof. exact jacobian_correct. Qed.
Print Assumptions C76_matrix.
(** Surfaces in space, lines in a plane or in space: ValueError. *)
Theorem C76_shape_refuted :
  forall nD m ds dss ec ecs, (0 < nD)%nat -> rect m ec -> ec <> [] -> m <> nD -> jacobian_matrix_bulk nD (ds :: dss) (ec :: ecs) = Err ValueError.
Proof. exact jacobian_shape. Qed.
Print Assumptions C76_shape_refuted.
(** Lines: half of the distance of the ends, at all points. (Missing: lines whose nodes are not evenly spaced or not on a straight line.) *)
Theorem C76_det_1d_partial :
  forall nP d ecs, Forall (fun ec => rect d ec /\ ec <> []) ecs -> exists jac rows, jacobian_matrix_bulk_1d nP ecs = Ok jac /\ jacobian_det_bulk_1d jac = Ok rows /\ Forall2 (fun ec row => exists x, chord ec x /\ row = repeat (x / 2) nP) ecs rows.
Proof. exact det_1d_value. Qed.
Print Assumptions C76_det_1d_partial.
(** For straight lines this is the length of the derivative. *)
Theorem C76_speed_L2 :
  forall d a b x, length a = d -> length b = d -> chord [a; b] x ->
  exists v, length v = d /\ (forall k s, (k < d)%nat -> derivable_pt_lim (fun s => position shp_L2 [a; b] k [s]) s (at_ k v)) /\ sqrt (sprod v v) = x / 2.
Proof. exact speed_L2. Qed.
Print Assumptions C76_speed_L2.
(** Three nodes on a straight line, the second one not in the middle: wrong. *)
Theorem C76_L3_refuted :
  exists x0 x1 x2 (q : R -> R) c0 c1 c2, (forall s, q s = c0 + c1 * s + c2 * (s * s)) /\ q (-1) = x0 /\ q 0 = x1 /\ q 1 = x2 /\ x0 < x1 < x2 /\
  (exists jac, jacobian_matrix_bulk_1d 1 [[[x0]; [x1]; [x2]]] = Ok jac /\ jacobian_det_bulk_1d jac = Ok [[1]]) /\ derivable_pt_lim q (-1) 2.
Proof. exact speed_L3_wrong. Qed.
Print Assumptions C76_L3_refuted.
Example C76_ex : differentiates 2 3 shp_T3 dshp_T3 /\ rect 2 [[0; 1 / 2]; [1; 1]] /\ Forall (fun ec => length ec = 3%nat /\ rect 2 ec) [[[0; 0]; [3; 1]; [0; 2]]] /\ exists ds, mapM dshp_T3 [[0; 1 / 2]; [1; 1]] = Ok ds.
Proof. split; [exact diff_T3|]. split; [repeat constructor|]. split; [repeat constructor|]. eexists. reflexivity. Qed.
