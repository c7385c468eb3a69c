(** * Properties C01-C11: topology queries (topo.py)

    Every theorem is closed by a lemma proved elsewhere; beneath each one its
    assumptions are printed, and an example shows a non-trivial case meeting the
    hypotheses. *)
From Verif Require Import TopoProofs5.

(** two quadrilaterals sharing an edge; a jagged mesh with unused numbers *)
Definition ex_quads := [[0;1;4;3];[1;2;5;4]].
Definition ex_jagged := [[7;3];[3;9;12];[12;7;3;15]].

(** ** C01 Cell counts at nodes are exact *)

(** Array form (regular=True): one count for every number up to the largest used
    one, equal to the number of listings; they add up to the number of entries and
    the argument is unchanged. *)
Theorem C01_counts_array topo t :
  represents topo t -> concat t <> [] ->
  exists m c,
    largest t m /\
    count_cells_at_nodes topo true = (topo, Ok (CArr c)) /\
    length c = m + 1 /\
    (forall n, n <= m -> nth_error c n = Some (count_occ Nat.eq_dec (concat t) n)) /\
    list_sum c = length (concat t).
Proof. exact (counts_regular topo t). Qed.
Print Assumptions C01_counts_array.

(** Dictionary form: keys are exactly the used numbers, in increasing order. *)
Theorem C01_counts_dict topo t :
  represents topo t ->
  exists d,
    snd (count_cells_at_nodes topo false) = Ok (CDict d) /\
    (forall n, In n (dkeys d) <-> used t n) /\ StronglySorted lt (dkeys d) /\
    (forall n, used t n -> dget d n = Ok (count_occ Nat.eq_dec (concat t) n)) /\
    list_sum (map snd d) = length (concat t).
Proof. exact (counts_dict topo t). Qed.
Print Assumptions C01_counts_dict.

(** When no cell lists a node twice, the number of listings is the number of cells
    meeting at the node. *)
Theorem C01_listings_are_cells t n :
  (forall r, In r t -> NoDup r) ->
  count_occ Nat.eq_dec (concat t) n =
  length (filter (fun r => if in_dec Nat.eq_dec n r then true else false) t).
Proof. exact (count_occ_cells t n). Qed.
Print Assumptions C01_listings_are_cells.

Example C01_ex1 : represents (TNp ex_quads) ex_quads /\ concat ex_quads <> [] /\
  count_cells_at_nodes (TNp ex_quads) true = (TNp ex_quads, Ok (CArr [1;2;1;1;2;1])).
Proof. split; [constructor|]. split; [discriminate|reflexivity]. Qed.
Example C01_ex2 : represents (TCsr [0;2;5;9] (concat ex_jagged)) ex_jagged /\
  snd (count_cells_at_nodes (TCsr [0;2;5;9] (concat ex_jagged)) false) = Ok (CDict [(3,3);(7,2);(9,1);(12,2);(15,1)]).
Proof. split; [apply (rep_csr ex_jagged)|reflexivity]. Qed.
Example C01_ex3 : forall r, In r ex_quads -> NoDup r.
Proof. intros r [<-|[<-|[]]]; repeat constructor; simpl; intuition discriminate. Qed.

(** ** C02 Node-to-cell incidence *)

(** raw output: row n of each table is the incidence list followed by zeros *)
Theorem C02_raw topo t f rc :
  represents topo t -> concat t <> [] -> f = FNone \/ f = FOther ->
  exists m k counts ereg nreg,
    largest t m /\
    snd (cells_at_nodes topo f true None rc) = Ok (ORaw counts ereg nreg) /\
    length counts = m + 1 /\ length ereg = m + 1 /\ length nreg = m + 1 /\
    forall n, n <= m -> exists L, incidence t n L /\ length L <= k /\
      nth_error counts n = Some (length L) /\
      nth_error ereg n = Some (map fst L ++ repeat 0 (k - length L)) /\
      nth_error nreg n = Some (map snd L ++ repeat 0 (k - length L)).
Proof. exact (cells_raw topo t f rc). Qed.
Print Assumptions C02_raw.

(** csr output: the row of node n holds its cells as column indices and the local
    positions as values, without padding *)
Theorem C02_csr topo t f rc :
  represents topo t -> concat t <> [] -> f = FCsr \/ f = FScipyCsr ->
  exists m counts data indices ptr shape,
    largest t m /\
    snd (cells_at_nodes topo f true None rc) = Ok (OCsr (if rc then Some counts else None) data indices ptr shape) /\
    length counts = m + 1 /\ length ptr = m + 2 /\ nth_error ptr 0 = Some 0 /\
    nth_error ptr (m + 1) = Some (length indices) /\ length data = length indices /\
    fst shape = m + 1 /\ snd shape <= length t /\
    (forall r, nth_error t (length t - 1) = Some r -> r <> [] -> snd shape = length t) /\
    forall n, n <= m -> exists L lo hi, incidence t n L /\ nth_error counts n = Some (length L) /\
      nth_error ptr n = Some lo /\ nth_error ptr (S n) = Some hi /\ hi = lo + length L /\
      slice indices lo hi = map fst L /\ slice data lo hi = map snd L.
Proof. exact (cells_csr topo t f rc). Qed.
Print Assumptions C02_csr.

Theorem C02_jagged topo t rc :
  represents topo t -> concat t <> [] ->
  exists m counts ereg nreg,
    largest t m /\
    snd (cells_at_nodes topo FJagged true None rc) = Ok (OJagged (if rc then Some counts else None) ereg nreg) /\
    length counts = m + 1 /\ length ereg = m + 1 /\ length nreg = m + 1 /\
    forall n, n <= m -> exists L, incidence t n L /\ nth_error counts n = Some (length L) /\
      nth_error ereg n = Some (map fst L) /\ nth_error nreg n = Some (map snd L).
Proof. exact (cells_jagged topo t rc). Qed.
Print Assumptions C02_jagged.

(** dicts output, also for irregular topologies and with user supplied cell ids *)
Theorem C02_dicts topo t assume cids rc :
  represents topo t -> concat t <> [] ->
  (forall c, cids = Some c -> length t <= length c) ->
  exists counts ereg nreg,
    snd (cells_at_nodes topo FDicts assume cids rc) = Ok (ODicts (if rc then Some counts else None) ereg nreg) /\
    node_keys t assume (dkeys ereg) /\ dkeys nreg = dkeys ereg /\ length counts = length (dkeys ereg) /\
    forall k n, nth_error (dkeys ereg) k = Some n ->
      exists L E, incidence t n L /\
        nth_error counts k = Some (length L) /\
        match cids with None => E = map fst L | Some c => take c (map fst L) = Ok E end /\
        dget ereg n = Ok E /\ dget nreg n = Ok (map snd L).
Proof. exact (cells_dicts topo t assume cids rc). Qed.
Print Assumptions C02_dicts.

(** the incidence list is determined by the topology, so the formats agree *)
Theorem C02_incidence_unique t n L L' : incidence t n L -> incidence t n L' -> L = L'.
Proof. exact (incidence_unique t n L L'). Qed.
Print Assumptions C02_incidence_unique.

(** without [assume_regular]: same answer on regular topologies, refusal of every
    format but 'dicts' on the others; cell ids are only accepted with 'dicts' *)
Theorem C02_regular_default topo t f cids rc :
  represents topo t -> concat t <> [] -> tight (concat t) ->
  cells_at_nodes topo f false cids rc = cells_at_nodes topo f true cids rc.
Proof. exact (cells_tight topo t f cids rc). Qed.
Print Assumptions C02_regular_default.

Theorem C02_irregular_rejected topo t f rc :
  represents topo t -> concat t <> [] -> ~ tight (concat t) -> f <> FDicts ->
  snd (cells_at_nodes topo f false None rc) = Err AssertionError.
Proof. exact (cells_irregular_rejected topo t f rc). Qed.
Print Assumptions C02_irregular_rejected.

Theorem C02_cellIDs_need_dicts topo f assume c rc :
  f <> FDicts -> cells_at_nodes topo f assume (Some c) rc = (topo, Err AssertionError).
Proof. exact (cellIDs_need_dicts topo f assume c rc). Qed.
Print Assumptions C02_cellIDs_need_dicts.

Example C02_ex_incidence : incidence ex_quads 4 [(0,2);(1,3)].
Proof.
  split.
  - intros i j. split.
    + intros [[= <- <-]|[[= <- <-]|[]]]; eexists; split; reflexivity.
    + intros [r [H1 H2]]. destruct i as [|[|i]]; simpl in H1.
      * injection H1 as <-. destruct j as [|[|[|[|[|j]]]]]; simpl in H2; try discriminate. left; auto.
      * injection H1 as <-. destruct j as [|[|[|[|[|j]]]]]; simpl in H2; try discriminate. right; left; auto.
      * destruct i; discriminate.
  - repeat constructor.
Qed.
Example C02_ex_raw : snd (cells_at_nodes (TNp ex_quads) FNone true None false) =
  Ok (ORaw [1;2;1;1;2;1] [[0;0];[0;1];[1;0];[0;0];[0;1];[1;0]] [[0;0];[1;0];[1;0];[3;0];[2;3];[2;0]]).
Proof. reflexivity. Qed.
Example C02_ex_dicts : snd (cells_at_nodes (TAk ex_jagged) FDicts false (Some [100;200;300]) true) =
  Ok (ODicts (Some [3;2;1;2;1]) [(3,[100;200;300]);(7,[100;300]);(9,[200]);(12,[200;300]);(15,[300])]
        [(3,[1;0;2]);(7,[0;1]);(9,[1]);(12,[2;0]);(15,[3])]).
Proof. reflexivity. Qed.
Example C02_ex_tight : tight (concat ex_quads).
Proof.
  exists 5. intros k. simpl. split; [intuition lia|]. intros H.
  do 6 (destruct k as [|k]; [tauto|]). lia.
Qed.
Example C02_ex_not_tight : ~ tight (concat ex_jagged).
Proof.
  intros [m H]. assert (H1 : In 15 (concat ex_jagged)) by (simpl; tauto). apply H in H1.
  assert (H2 : In 0 (concat ex_jagged)) by (apply H; lia). simpl in H2. intuition discriminate.
Qed.

(** ** C03 Nodal adjacency *)

(** [nodal_adjacency]: keys are the nodes, and the value at [n] is the strictly
    increasing list of the nodes sharing a cell with [n]; the jagged rows are the same
    lists in the order of the keys. *)
Theorem C03_adjacency hasnx topo t f assume :
  represents topo t -> ~ is_csr topo -> concat t <> [] -> hasnx = true \/ f = AFJagged ->
  exists dol,
    snd (nodal_adjacency hasnx topo f assume) =
      Ok (match f with AFJagged => AJagged (map snd dol) | AFNx => ANx dol | AFOther => ADol dol end) /\
    node_keys t assume (dkeys dol) /\
    forall n, In n (dkeys dol) -> exists l, dget dol n = Ok l /\ StronglySorted lt l /\
      forall m, In m l <-> share_cell t n m.
Proof. exact (nodal_adjacency_ok hasnx topo t f assume). Qed.
Print Assumptions C03_adjacency.

(** the relation is symmetric, and reflexive on the used nodes *)
Theorem C03_symmetric t n m : share_cell t n m <-> share_cell t m n.
Proof. exact (share_cell_sym t n m). Qed.
Print Assumptions C03_symmetric.
Theorem C03_reflexive t n : used t n <-> share_cell t n n.
Proof. exact (share_cell_refl t n). Qed.
Print Assumptions C03_reflexive.

(** Finding: without networkx only 'jagged' works although the plain dictionary does
    not need it, and a csr_matrix is never accepted. *)
Theorem C03_needs_networkx topo t f assume :
  represents topo t -> ~ is_csr topo -> concat t <> [] -> f <> AFJagged ->
  snd (nodal_adjacency false topo f assume) = Err ImportError.
Proof. exact (nodal_adjacency_no_nx topo t f assume). Qed.
Print Assumptions C03_needs_networkx.

Theorem C03_csr_refuted hasnx t f assume :
  concat t <> [] ->
  exists e, snd (nodal_adjacency hasnx (TCsr (indptr (map (@length nat) t)) (concat t)) f assume) = Err e.
Proof. exact (nodal_adjacency_csr_fails hasnx t f assume). Qed.
Print Assumptions C03_csr_refuted.

Example C03_ex : snd (nodal_adjacency true (TAk ex_jagged) AFJagged false) =
  Ok (AJagged [[3;7;9;12;15];[3;7;12;15];[3;9;12];[3;7;9;12;15];[3;7;12;15]]) /\
  ~ is_csr (TAk ex_jagged) /\ concat ex_jagged <> [].
Proof. split; [reflexivity|]. split; [simpl; auto|discriminate]. Qed.

(** ** C04 Regularity test *)

Theorem C04_is_regular topo t :
  represents topo t -> concat t <> [] ->
  (is_regular topo = Ok true <-> tight (concat t)) /\ (is_regular topo = Ok false <-> ~ tight (concat t)).
Proof. exact (is_regular_decides topo t). Qed.
Print Assumptions C04_is_regular.

(** an empty topology is an error *)
Theorem C04_empty topo t : represents topo t -> concat t = [] -> is_regular topo = Err ValueError.
Proof. exact (is_regular_empty topo t). Qed.
Print Assumptions C04_empty.

(** arrays with one axis: the same *)
Theorem C04_flat l :
  l <> [] -> (is_regular (TNp1 l) = Ok true <-> tight l) /\ (is_regular (TNp1 l) = Ok false <-> ~ tight l).
Proof. exact (is_regular_1d l). Qed.
Print Assumptions C04_flat.

Example C04_ex : is_regular (TNp ex_quads) = Ok true /\ is_regular (TAk ex_jagged) = Ok false.
Proof. split; reflexivity. Qed.

(** ** C05 Regularization *)

Theorem C05_regularize topo t :
  represents topo t ->
  exists topo' t' u,
    snd (regularize topo) = Ok (topo', u) /\ represents topo' t' /\ same_kind topo topo' /\
    StronglySorted lt u /\ (forall n, In n u <-> used t n) /\
    located_in u t t' /\
    (concat t <> [] -> tight (concat t')) /\
    (forall k, used t' k <-> k < length u).
Proof. exact (regularize_full topo t). Qed.
Print Assumptions C05_regularize.

(** positions in an increasing array compare like the values: the renumbering keeps
    the order of the node numbers *)
Theorem C05_order_preserved u a b x y :
  StronglySorted lt u -> nth_error u a = Some x -> nth_error u b = Some y -> (a < b <-> x < y).
Proof. exact (sorted_lt_nth u a b x y). Qed.
Print Assumptions C05_order_preserved.

(** arrays with one axis: the renumbered array has the positions in [u], and the argument is unchanged *)
Theorem C05_flat l :
  exists r u, regularize (TNp1 l) = (TNp1 l, Ok (TNp1 r, u)) /\ StronglySorted lt u /\ (forall n, In n u <-> In n l) /\
    length r = length l /\ (forall i n, nth_error l i = Some n -> exists k, nth_error r i = Some k /\ nth_error u k = Some n) /\
    (l <> [] -> tight r).
Proof. exact (regularize_1d l). Qed.
Print Assumptions C05_flat.

Example C05_ex : snd (regularize (TAk ex_jagged)) = Ok (TAk [[1;0];[0;2;3];[3;1;0;4]], [3;7;9;12;15]).
Proof. reflexivity. Qed.

(** ** C06 Rewiring *)

Theorem C06_rewire topo m f :
  rewires topo -> (forall n, stores topo n -> mlookup m n = Ok (f n)) ->
  rewire topo m false = Ok (map_nodes f topo).
Proof. exact (rewire_stores_ok topo m f). Qed.
Print Assumptions C06_rewire.

Theorem C06_rewire_missing topo m n e :
  rewires topo -> stores topo n -> mlookup m n = Err e -> exists e', rewire topo m false = Err e'.
Proof. exact (rewire_stores_fails topo m n e). Qed.
Print Assumptions C06_rewire_missing.

Theorem C06_undo topo topo' inds :
  NoDup inds -> rewire topo (MArr inds) false = Ok topo' -> rewire topo' (MArr inds) true = Ok topo.
Proof. exact (rewire_roundtrip topo topo' inds). Qed.
Print Assumptions C06_undo.

Theorem C06_undo_back topo topo' inds :
  NoDup inds -> rewire topo (MArr inds) true = Ok topo' -> rewire topo' (MArr inds) false = Ok topo.
Proof. exact (rewire_roundtrip_back topo topo' inds). Qed.
Print Assumptions C06_undo_back.

Theorem C06_invert_total topo inds :
  NoDup inds -> rewires topo -> (forall n, stores topo n -> In n inds) ->
  exists f, rewire topo (MArr inds) true = Ok (map_nodes f topo) /\
    forall n, stores topo n -> nth_error inds (f n) = Some n.
Proof. exact (rewire_invert_stores topo inds). Qed.
Print Assumptions C06_invert_total.

Theorem C06_invert_missing topo inds n :
  rewires topo -> stores topo n -> ~ In n inds -> exists e, rewire topo (MArr inds) true = Err e.
Proof. exact (rewire_invert_missing_stores topo inds n). Qed.
Print Assumptions C06_invert_missing.

(** a mapping given as a dictionary is not inverted, whatever the topology *)
Theorem C06_invert_dict topo d : rewire topo (MDict d) true = Err AssertionError.
Proof. reflexivity. Qed.
Print Assumptions C06_invert_dict.

(** every execution order of the parallel loops gives the same result *)
Theorem C06_any_schedule es t m f :
  Permutation es (entries t) -> (forall n, used t n -> mlookup m n = Ok (f n)) ->
  remap_topo_in es t m = Ok (map (map f) t).
Proof. exact (remap_topo_in_ok es t m f). Qed.
Print Assumptions C06_any_schedule.
Theorem C06_any_schedule_1d es t m f :
  Permutation es (enum t) -> (forall n, In n t -> mlookup m n = Ok (f n)) ->
  remap_topo_1d_in es t m = Ok (map f t).
Proof. exact (remap_topo_1d_in_ok es t m f). Qed.
Print Assumptions C06_any_schedule_1d.

(** the array form of the inverse map, in every execution order *)
Theorem C06_inverse_array inds es :
  NoDup inds -> inds <> [] -> Permutation es (enum inds) ->
  exists a, inds_to_invmap_as_array_in es inds = Ok a /\
    (forall i g, nth_error inds i = Some g -> nth_error a g = Some i) /\
    (forall g, In g inds -> g < length a) /\
    (forall g, g < length a -> ~ In g inds -> nth_error a g = Some 0).
Proof. exact (invmap_array_ok inds es). Qed.
Print Assumptions C06_inverse_array.
(** one position after the other: the same, and for repeated indices the last position *)
Theorem C06_inverse_array_in_order inds :
  inds <> [] ->
  exists a, inds_to_invmap_as_array inds = Ok a /\
    (forall i g, nth_error inds i = Some g -> (forall j, i < j -> nth_error inds j <> Some g) -> nth_error a g = Some i) /\
    (forall g, In g inds -> g < length a) /\
    (forall g, g < length a -> ~ In g inds -> nth_error a g = Some 0).
Proof. exact (invmap_array_order inds). Qed.
Print Assumptions C06_inverse_array_in_order.
Example C06_in_order_ex : inds_to_invmap_as_array [2; 0; 2] = Ok [1; 0; 2].
Proof. reflexivity. Qed.

(** Finding: with repeated indices the result depends on the execution order. *)
Theorem C06_inverse_array_repeated_refuted :
  exists inds es a a', Permutation es (enum inds) /\
    inds_to_invmap_as_array_in (enum inds) inds = Ok a /\
    inds_to_invmap_as_array_in es inds = Ok a' /\ a <> a'.
Proof. exact invmap_array_race. Qed.
Print Assumptions C06_inverse_array_repeated_refuted.

Theorem C06_arrays_to_imap source target d :
  NoDup source -> arrays_to_imap_as_dict source target = Ok d ->
  forall i s t, nth_error source i = Some s -> nth_error target i = Some t -> dget d s = Ok t.
Proof. exact (arrays_to_imap_ok source target d). Qed.
Print Assumptions C06_arrays_to_imap.

Example C06_ex : NoDup [5;3;9;0] /\
  rewire (TAk [[0;2];[1;2;3]]) (MArr [5;3;9;0]) false = Ok (TAk [[5;9];[3;9;0]]) /\
  rewire (TAk [[5;9];[3;9;0]]) (MArr [5;3;9;0]) true = Ok (TAk [[0;2];[1;2;3]]).
Proof. split; [repeat constructor; simpl; intuition discriminate|]. split; reflexivity. Qed.
Example C06_ex2 : arrays_to_imap_as_dict [4;2;7] [1;1;6] = Ok [(4,1);(2,1);(7,6)].
Proof. reflexivity. Qed.

(** ** C07 Detaching *)

Theorem C07_detach {A} (coords : list A) topo t :
  represents topo t -> ~ is_csr topo -> (forall n, used t n -> n < length coords) ->
  exists c topo' t', detach coords None topo None = Ok (c, topo') /\ represents topo' t' /\
    same_kind topo topo' /\ detached coords t c t'.
Proof. exact (detach_plain coords topo t). Qed.
Print Assumptions C07_detach.

Theorem C07_detach_data {A B} (coords : list A) t (data : list B) :
  (forall n, used t n -> n < length coords /\ n < length data) ->
  exists c d t', detach_mesh_data_bulk coords t data = Ok (c, d, t') /\
    detached coords t c t' /\ detached data t d t'.
Proof. exact (detach_data_full coords t data). Qed.
Print Assumptions C07_detach_data.

(** node numbers beyond the coordinates are reported, not clipped *)
Theorem C07_out_of_range {A} (coords : list A) t n :
  used t n -> length coords <= n -> exists e, detach_mesh_bulk coords t = Err e.
Proof. exact (detach_bulk_out_of_range coords t n). Qed.
Print Assumptions C07_out_of_range.

Example C07_ex : detach [10;11;12;13;14;15] None (TNp [[1;4];[4;5]]) None = Ok ([11;14;15], TNp [[0;1];[1;2]]).
Proof. reflexivity. Qed.
Example C07_ex_data : detach_mesh_data_bulk [10;11;12;13;14;15] [[1;4];[4;5]] [0;1;2;3;4;5] = Ok ([11;14;15], [1;4;5], [[0;1];[1;2]]).
Proof. reflexivity. Qed.

(** ** C08 Detaching through global ids *)

Theorem C08_detach_global {A} (coords : list A) topo t gids pc :
  represents topo t -> ~ is_csr topo -> NoDup gids -> length gids <= length coords ->
  (forall n, used t n -> In n gids) ->
  exists c topo' t', detach coords pc topo (Some gids) = Ok (c, topo') /\ represents topo' t' /\
    same_kind topo topo' /\ same_shape t t' /\ (concat t <> [] -> tight (concat t')) /\
    (forall k, used t' k <-> k < length c) /\
    (forall i j g, entry t i j g -> exists k n', nth_error gids k = Some g /\ entry t' i j n' /\
        nth_error c n' = nth_error coords k).
Proof. exact (detach_global coords topo t gids pc). Qed.
Print Assumptions C08_detach_global.

Theorem C08_pointcloud_ids {A} (coords : list A) topo gids :
  detach coords (Some gids) topo None = detach coords None topo (Some gids).
Proof. exact (detach_pointcloud coords topo gids). Qed.
Print Assumptions C08_pointcloud_ids.

Theorem C08_unknown_id {A} (coords : list A) topo t gids pc n :
  represents topo t -> ~ is_csr topo -> used t n -> ~ In n gids ->
  exists e, detach coords pc topo (Some gids) = Err e.
Proof. exact (detach_unknown_id coords topo t gids pc n). Qed.
Print Assumptions C08_unknown_id.

Example C08_ex : detach [10;11;12] (Some [7;3;5]) (TNp [[5;7];[7;5]]) None = Ok ([10;12], TNp [[1;0];[0;1]]).
Proof. reflexivity. Qed.

(** ** C09 Unique edges and faces *)

Theorem C09_unique_entities t3 :
  exists us ids, unique_topo_data t3 = Ok (us, ids) /\
    StronglySorted (fun x y => lex_cmp x y = Lt) us /\
    (forall x, In x us -> StronglySorted le x) /\
    map (@length nat) ids = map (@length (list nat)) t3 /\
    (forall i j e, entity t3 i j e -> exists k x, entry ids i j k /\ nth_error us k = Some x /\ Permutation e x) /\
    (forall x, In x us -> exists i j e, entity t3 i j e /\ Permutation e x).
Proof. exact (unique_topo_data_ok t3). Qed.
Print Assumptions C09_unique_entities.

Theorem C09_same_id t3 us ids i j e i' j' e' k k' :
  unique_topo_data t3 = Ok (us, ids) -> entity t3 i j e -> entity t3 i' j' e' ->
  entry ids i j k -> entry ids i' j' k' -> (k = k' <-> Permutation e e').
Proof. exact (unique_topo_data_ids t3 us ids i j e i' j' e' k k'). Qed.
Print Assumptions C09_same_id.

Definition ex_edges := [[[0;1];[1;4];[4;3];[3;0]];[[1;2];[2;5];[5;4];[4;1]]].
Example C09_ex : unique_topo_data ex_edges =
  Ok ([[0;1];[0;3];[1;2];[1;4];[2;5];[3;4];[4;5]], [[0;3;5;1];[2;4;6;3]]).
Proof. reflexivity. Qed.

(** ** C10 Documented reconstruction *)

(** It holds exactly when the nodes of every entity come in increasing order. *)
Theorem C10_reconstruction_partial t3 us ids :
  unique_topo_data t3 = Ok (us, ids) ->
  (reconstruct us ids = Ok t3 <-> forall i j e, entity t3 i j e -> StronglySorted le e).
Proof. exact (reconstruct_iff t3 us ids). Qed.
Print Assumptions C10_reconstruction_partial.

(** The docstring's claim fails, already for the edges of one quadrilateral. *)
Theorem C10_reconstruction_refuted :
  exists t3 us ids, unique_topo_data t3 = Ok (us, ids) /\ reconstruct us ids <> Ok t3.
Proof. exact reconstruct_refuted. Qed.
Print Assumptions C10_reconstruction_refuted.

(** what does hold for all inputs: the reconstruction has the nodes of each entity
    in increasing order *)
Theorem C10_reconstruction_sorted t3 us ids :
  unique_topo_data t3 = Ok (us, ids) -> reconstruct us ids = Ok (map (map np_sort) t3).
Proof. exact (reconstruct_ok t3 us ids). Qed.
Print Assumptions C10_reconstruction_sorted.

(** ** C11 Queries do not modify their argument *)

(** numpy and awkward topologies, and csr_matrix ones that are already regular *)
Theorem C11_queries_pure_partial qs topo :
  ~ is_csr topo -> fold_left (fun t q => after q t) qs topo = topo.
Proof. exact (queries_pure_nocsr qs topo). Qed.
Print Assumptions C11_queries_pure_partial.

Theorem C11_regular_csr_pure_partial qs t :
  let topo := TCsr (indptr (map (@length nat) t)) (concat t) in
  tight (concat t) -> fold_left (fun t q => after q t) qs topo = topo.
Proof. exact (queries_pure_csr qs t). Qed.
Print Assumptions C11_regular_csr_pure_partial.

(** Refuted for an irregular csr_matrix: counting cells renumbers the argument, so the
    second count is different. *)
Theorem C11_csr_refuted :
  exists t, let topo := TCsr (indptr (map (@length nat) t)) (concat t) in
    after (QCount false) topo <> topo /\
    snd (count_cells_at_nodes (after (QCount false) topo) false) <> snd (count_cells_at_nodes topo false).
Proof. exact csr_mutated. Qed.
Print Assumptions C11_csr_refuted.

Example C11_ex : tight (concat [[0;1;2];[2;1]]) /\ after (QCount false) (TAk ex_jagged) = TAk ex_jagged.
Proof.
  split; [|reflexivity]. exists 2. intros k. simpl. split; [intuition lia|].
  intros H. do 3 (destruct k as [|k]; [tauto|]). lia.
Qed.
