(** * Properties C106 to C109: topologies of whole meshes *)
From Coq Require Import Reals Lra Lia List Sorted.
From Verif Require MeshProofs4.
From Verif Require Import BaseFacts IncidenceSpec IncidenceProofs.
Import ListNotations.
Local Open Scope nat_scope.

(** ** C106 Topology arrays *)

(** Any number of arrays with one or two axes: the rows of all of them, in order. *)
Theorem C106_arrays :
  forall args ts, Forall2 arg_rows args ts -> topology_array args None = Ok (concat ts).
Proof. exact @several_ok. Qed.
Print Assumptions C106_arrays.
(** An array with one axis and lengths: the parts are the ones whose lengths these are, and which make up the array. *)
Theorem C106_cuts :
  forall data cuts t, topology_array [Arr1 data] (Some cuts) = Ok t <-> concat t = data /\ map (@length nat) t = cuts.
Proof. exact @cuts_ok. Qed.
Print Assumptions C106_cuts.
(** Lengths that do not use up the array are refused. *)
Theorem C106_cuts_wrong :
  forall data cuts, np_sum cuts <> length data -> topology_array [Arr1 data] (Some cuts) = Err ValueError.
Proof. exact @cuts_wrong. Qed.
Print Assumptions C106_cuts_wrong.
(** Stacking arrays appends their rows. *)
Theorem C106_vstack :
  forall ts, ts <> [] -> vstack ts = Ok (concat ts).
Proof. exact @vstack_ok. Qed.
Print Assumptions C106_vstack.
(** The unique nodes are those that are used, in increasing order. *)
Theorem C106_unique :
  forall t, StronglySorted lt (unique t) /\ forall n, In n (unique t) <-> used t n.
Proof. exact @unique_ok. Qed.
Print Assumptions C106_unique.
(** An iterable that is no array, such as a list of lists, is accepted by the signature, but fails. *)
Theorem C106_refuted :
  topology_array [Other] None = Err NameError.
Proof. exact @list_fails. Qed.
Print Assumptions C106_refuted.
(** the example of the documentation *)
Example C106_ex : Forall2 arg_rows [Arr1 [0; 1; 2]; Arr1 [3; 4]; Arr2 4 [[5; 6; 7; 8]; [6; 7; 9; 10]]] [[[0; 1; 2]]; [[3; 4]]; [[5; 6; 7; 8]; [6; 7; 9; 10]]] /\
  topology_array [Arr1 [0; 1; 2]; Arr1 [3; 4]; Arr2 4 [[5; 6; 7; 8]; [6; 7; 9; 10]]] None = Ok [[0; 1; 2]; [3; 4]; [5; 6; 7; 8]; [6; 7; 9; 10]].
Proof. split; [|reflexivity]. repeat constructor. Qed.

(** ** C107 Cells at nodes and neighbouring nodes of a mesh *)

(** The topology of a mesh consists of the cells of all its blocks, in order; it is a jagged array if it is asked for or if cells have different numbers of nodes. *)
Theorem C107_topology :
  forall j c b, mesh_rows b <> [] -> topology j c b = Ok (j || is_jagged (mesh_rows b), mesh_rows b).
Proof. exact @topology_ok. Qed.
Print Assumptions C107_topology.
(** Without cells the topology is refused. *)
Theorem C107_empty :
  forall j c b, cell_arrays b = [] -> topology j c b = Err ValueError.
Proof. exact @topology_none. Qed.
Print Assumptions C107_empty.
(** For each node number up to the largest, the cells that have it and the positions in them, in order; cells are counted along the blocks, and may have different numbers of nodes. *)
Theorem C107_cells :
  forall c b rc, concat (mesh_rows b) <> [] ->
  exists m counts ereg nreg, largest (mesh_rows b) m /\ mesh_cells_at_nodes c b FJagged true None rc = Ok (OJagged (if rc : bool then Some counts else None) ereg nreg) /\
    length counts = m + 1 /\ length ereg = m + 1 /\ length nreg = m + 1 /\
    forall n, n <= m -> exists L, incidence (mesh_rows b) n L /\ nth_error counts n = Some (length L) /\ nth_error ereg n = Some (map fst L) /\ nth_error nreg n = Some (map snd L).
Proof. exact @mesh_cells_jagged. Qed.
Print Assumptions C107_cells.
(** The same as dictionaries, also if not all numbers are in use, or with given numbers of the cells. *)
Theorem C107_dicts :
  forall c b assume cids rc, concat (mesh_rows b) <> [] -> (forall l, cids = Some l -> length (mesh_rows b) <= length l) ->
  exists counts ereg nreg, mesh_cells_at_nodes c b FDicts assume cids rc = Ok (ODicts (if rc : bool then Some counts else None) ereg nreg) /\
    node_keys (mesh_rows b) assume (dkeys ereg) /\ dkeys nreg = dkeys ereg /\ length counts = length (dkeys ereg) /\
    forall k n, nth_error (dkeys ereg) k = Some n -> exists L E, incidence (mesh_rows b) n L /\ nth_error counts k = Some (length L) /\
      match cids with None => E = map fst L | Some l => take l (map fst L) = Ok E end /\ dget ereg n = Ok E /\ dget nreg n = Ok (map snd L).
Proof. exact @mesh_cells_dicts. Qed.
Print Assumptions C107_dicts.
(** If not all numbers are in use, other formats are refused. *)
Theorem C107_irregular :
  forall c b f rc, concat (mesh_rows b) <> [] -> ~ tight (concat (mesh_rows b)) -> f <> FDicts -> mesh_cells_at_nodes c b f false None rc = Err AssertionError.
Proof. exact @mesh_cells_irregular. Qed.
Print Assumptions C107_irregular.
(** Neighbours of a node are the nodes of all cells that have it. *)
Theorem C107_adjacency :
  forall hasnx c b f assume, concat (mesh_rows b) <> [] -> hasnx = true \/ f = AFJagged ->
  exists dol, mesh_nodal_adjacency hasnx c b f assume = Ok (match f with AFJagged => AJagged (map snd dol) | AFNx => ANx dol | AFOther => ADol dol end) /\
    node_keys (mesh_rows b) assume (dkeys dol) /\
    forall n, In n (dkeys dol) -> exists l, dget dol n = Ok l /\ StronglySorted lt l /\ forall m, In m l <-> share_cell (mesh_rows b) n m.
Proof. exact @mesh_adjacency. Qed.
Print Assumptions C107_adjacency.
(** Blocks with points of their own have the same numbers: cells that share no point are listed at one node. *)
Theorem C107_refuted :
  forall c, exists m p q ereg nreg, mesh_at m [p; q] /\ apart p q /\ mesh_cells_at_nodes c m FJagged true None false = Ok (OJagged None ereg nreg) /\ nth_error ereg 0 = Some [0; 1].
Proof. exact @mesh_cells_clash. Qed.
Print Assumptions C107_refuted.
Example C107_ex : let m := Block None (Some (MeshProofs4.two_points None)) None [Block None None (Some (Cells [[0; 1; 2]; [2; 1; 3]] [0; 1] [])) []; Block None None (Some (Cells [[1; 4]] [2] [])) []] in
  mesh_rows m = [[0; 1; 2]; [2; 1; 3]; [1; 4]] /\ concat (mesh_rows m) <> [] /\ mesh_cells_at_nodes top m FJagged true None false = Ok (OJagged None [[0]; [0; 1; 2]; [0; 1]; [1]; [2]] [[0]; [1; 1; 0]; [2; 0]; [2]; [1]]).
Proof. cbn zeta. split; [reflexivity|]. split; [discriminate|]. reflexivity. Qed.

(** ** C108 Nodal distribution factors of a mesh *)

(** By volume: the share of a cell at a node is its part of the volume of all cells at this node, also for cells with different numbers of nodes; the shares at a node add up to one.  Missing: cells with a repeated node or without volume; uniform shares of cells with different numbers of nodes (refuted below). *)
Theorem C108_partial :
  forall vol c b p w, bpd b = Some p -> concat (mesh_rows b) <> [] -> Forall (@NoDup nat) (mesh_rows b) ->
  mesh_volumes vol c b = Ok w -> length w = length (mesh_rows b) -> Forall (Rlt 0) w ->
  exists r, mesh_factors vol c b WVolume = Ok r /\ fair_shares (mesh_rows b) w r.
Proof. exact @mesh_factors_volume. Qed.
Print Assumptions C108_partial.
(** A mesh without cells has no array of volumes. *)
Theorem C108_no_volumes : forall vol c b, cell_arrays b = [] -> mesh_volumes vol c b = Err ValueError.
Proof.
  intros vol c b H. unfold mesh_volumes. replace (cellblocks (walk c b)) with (@nil (ctx * cells)); [reflexivity|].
  pose proof (rows_blocks c b) as E. rewrite H in E. now destruct (cellblocks (walk c b)).
Qed.
Print Assumptions C108_no_volumes.
Example C108_no_volumes_ex : cell_arrays (Block None (Some (MeshProofs4.two_points None)) None [Block None None None []]) = [].
Proof. reflexivity. Qed.
(** The same for given weights, as numbers of a floating point type. *)
Theorem C108_array_partial :
  forall vol c b p w, bpd b = Some p -> concat (mesh_rows b) <> [] -> Forall (@NoDup nat) (mesh_rows b) ->
  length w = length (mesh_rows b) -> Forall (Rlt 0) w ->
  exists r, mesh_factors vol c b (WArray EvalModel.Floating w) = Ok r /\ fair_shares (mesh_rows b) w r.
Proof. exact @mesh_factors_array. Qed.
Print Assumptions C108_array_partial.
(** The same for uniform weights, if all cells have the same number of nodes. *)
Theorem C108_uniform_partial :
  forall vol c b p, bpd b = Some p -> concat (mesh_rows b) <> [] -> Forall (@NoDup nat) (mesh_rows b) -> same_widths (mesh_rows b) ->
  exists r, mesh_factors vol c b WUniform = Ok r /\ fair_shares (mesh_rows b) (repeat 1%R (length (mesh_rows b))) r.
Proof. exact @mesh_factors_uniform. Qed.
Print Assumptions C108_uniform_partial.
(** Uniform weights fail for every mesh in which the cells have different numbers of nodes. *)
Theorem C108_uniform_refuted :
  forall vol c b p, bpd b = Some p -> mesh_rows b <> [] -> ~ same_widths (mesh_rows b) -> mesh_factors vol c b WUniform = Err TypeError.
Proof. exact @mesh_factors_uniform_fails. Qed.
Print Assumptions C108_uniform_refuted.
(** Weights of another length than the number of cells are refused, *)
Theorem C108_length :
  forall vol c b dt w, mesh_rows b <> [] -> length w <> length (mesh_rows b) -> mesh_factors vol c b (WArray dt w) = Err AssertionError.
Proof. exact @mesh_factors_length. Qed.
Print Assumptions C108_length.
(** and so are blocks without points. *)
Theorem C108_source :
  forall vol c b w, bpd b = None -> mesh_factors vol c b w = Err AssertionError.
Proof. exact @mesh_factors_source. Qed.
Print Assumptions C108_source.
(** Factors of the cells of a block are stored under the given name. *)
Theorem C108_store :
  forall n factors key, length factors = n -> set_factors n factors (Some key) = Ok (key, factors).
Proof. exact @set_factors_ok. Qed.
Print Assumptions C108_store.
(** Without a name, storing fails. *)
Theorem C108_default_refuted :
  forall n factors, set_factors n factors None = Err KeyError.
Proof. exact @set_factors_default. Qed.
Print Assumptions C108_default_refuted.
(** The factors of the whole mesh, of which the block should take its rows, fail too. *)
Theorem C108_rows_refuted :
  forall n factors key, length factors <> n -> set_factors n factors (Some key) = Err AttributeError.
Proof. exact @set_factors_all. Qed.
Print Assumptions C108_rows_refuted.
Example C108_ex : let m := Block None (Some (MeshProofs4.two_points None)) None [Block None None (Some (Cells [[0; 1; 2]; [2; 1; 3]] [0; 1] [])) []; Block None None (Some (Cells [[1; 4]] [2] [])) []] in
  bpd m = Some (MeshProofs4.two_points None) /\ Forall (@NoDup nat) (mesh_rows m) /\ ~ same_widths (mesh_rows m) /\
  (forall vol, (forall ck, vol ck = Ok (map (fun _ => 1%R) (nodes (snd ck)))) -> mesh_volumes vol top m = Ok [1%R; 1%R; 1%R]) /\ Forall (Rlt 0) [1%R; 1%R; 1%R].
Proof.
  cbn zeta. split; [reflexivity|]. split; [repeat constructor; cbn; lia|]. split; [intros H; specialize (H [0; 1; 2] [1; 4]); cbn in H; specialize (H ltac:(auto) ltac:(auto)); discriminate H|].
  split; [|repeat constructor; lra]. intros vol Hv. unfold mesh_volumes. cbn [walk cellblocks flat_map bsub concat map app snd bcd mapM]. rewrite !Hv. reflexivity.
Qed.

(** ** C109 Areas and volumes of a mesh *)

(** The volumes of a mesh are those of its blocks, in order. *)
Theorem C109_volumes :
  forall vol c b vs, cell_arrays b <> [] -> mapM vol (cellblocks (walk c b)) = Ok vs -> mesh_volumes vol c b = Ok (concat vs).
Proof. exact @mesh_volumes_ok. Qed.
Print Assumptions C109_volumes.
(** The volumes of lines, or surfaces, without given areas, or thicknesses, are their lengths, or areas; *)
Theorem C109_default :
  forall a n, length a = n -> products a (field_or_ones n None) = Ok a.
Proof. exact @products_ones. Qed.
Print Assumptions C109_default.
(** otherwise they are products. *)
Theorem C109_products :
  forall a n f, length a = n -> length f = n -> exists v, products a (field_or_ones n (Some f)) = Ok v /\ length v = n /\
  forall i x y, nth_error a i = Some x -> nth_error f i = Some y -> nth_error v i = Some (x * y)%R.
Proof. exact @products_ok. Qed.
Print Assumptions C109_products.
(** The areas of a mesh are those of all blocks of lines and surfaces, *)
Theorem C109_areas :
  forall ndim areas g c b, (exists k, In k (cell_arrays b) /\ ndim k < 3) -> (forall ck, ndim (snd ck) < 3 -> areas ck = Ok (g (snd ck))) ->
  mesh_areas ndim areas c b = Ok (concat (map g (filter (fun k => Nat.ltb (ndim k) 3) (cell_arrays b)))).
Proof. exact @mesh_areas_ok. Qed.
Print Assumptions C109_areas.
(** so the total is that of the surfaces if there are no lines.  Missing: meshes with lines (refuted below). *)
Theorem C109_partial :
  forall ndim areas g c b, (forall k, In k (cell_arrays b) -> ndim k <> 1) -> (exists k, In k (cell_arrays b) /\ ndim k = 2) -> (forall k, 0 < ndim k) -> (forall ck, ndim (snd ck) = 2 -> areas ck = Ok (g (snd ck))) ->
  exists l, mesh_areas ndim areas c b = Ok l /\ TrSpec.rsum l = TrSpec.rsum (map (fun k => TrSpec.rsum (g k)) (filter (fun k => Nat.eqb (ndim k) 2) (cell_arrays b))).
Proof. exact @surfaces_only. Qed.
Print Assumptions C109_partial.
(** If there are lines, each is counted with the area of its cross section, one by default. *)
Theorem C109_refuted :
  forall ndim areas g c b k l, cell_arrays b = [k; l] -> ndim k = 2 -> ndim l = 1 ->
  (forall ck, ndim (snd ck) = 2 -> areas ck = Ok (g (snd ck))) -> (forall ck, ndim (snd ck) = 1 -> areas ck = Ok (field_or_ones (length (nodes (snd ck))) None)) ->
  exists r, mesh_areas ndim areas c b = Ok r /\ TrSpec.rsum r = (TrSpec.rsum (g k) + INR (length (nodes l)))%R.
Proof. exact @lines_counted. Qed.
Print Assumptions C109_refuted.
(** If there are only solids, the areas are refused. *)
Theorem C109_solids :
  forall ndim areas c b, (forall k, In k (cell_arrays b) -> ndim k = 3) -> mesh_areas ndim areas c b = Err ValueError.
Proof. exact @mesh_areas_none. Qed.
Print Assumptions C109_solids.
Example C109_ex : let m := Block None (Some (MeshProofs4.two_points None)) None [Block None None (Some (Cells [[0; 1; 2]; [2; 1; 3]] [0; 1] [])) []; Block None None (Some (Cells [[1; 4]] [2] [])) []] in
  let ndim := fun k => match nodes k with r :: _ => length r - 1 | [] => 3 end in
  map ndim (cell_arrays m) = [2; 1].
Proof. reflexivity. Qed.

