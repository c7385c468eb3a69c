(** * Model of [src/polymesh/utils/topology/tr.py] and [src/polymesh/utils/topodata.py]

    Definitions only; dtypes are dropped.  [edges_tri] comes from
    [src/polymesh/utils/tri.py]. *)
From Verif Require Export TopoModel NumBase.

(** number of columns of a 2d array ([a.shape[1]]; 0 for an array without rows) *)
Definition ncols {A} (t : list (list A)) : nat := match t with [] => 0 | r :: _ => length r end.

(** ** Edge and face tables (topodata.py)

    [edges[:, e, k] = topo[:, n]] is the assignment [(e, k, n)]; it acts on each cell
    separately.  The array starts as zeros of shape (nE, nD, nN). *)
Definition assign_columns (nD nN : nat) (asg : list (nat * nat * nat)) (topo : list (list nat))
  : res (list (list (list nat))) :=
  mapM (fun cell =>
    foldM (fun a w => do n <- get cell (snd w); set2 a (fst (fst w)) (snd (fst w)) n)
          asg (zeros2 0 nD nN)) topo.

(** topodata.py edges_Q4, 8-20 *)
Definition edges_Q4 := assign_columns 4 2
  [(0,0,0); (0,1,1); (1,0,1); (1,1,2); (2,0,2); (2,1,3); (3,0,3); (3,1,0)].
(** topodata.py edgeIds_T3, 23-24 *)
Definition edgeIds_T3 := [[0;1];[1;2];[2;0]].
(** topodata.py edgeIds_TET4, 27-28 *)
Definition edgeIds_TET4 := [[0;1];[1;2];[2;0];[0;3];[1;3];[2;3]].
(** topodata.py edges_TET4, 31-47 *)
Definition edges_TET4 := assign_columns 6 2
  [(0,0,0); (0,1,1); (1,0,1); (1,1,2); (2,0,2); (2,1,0);
   (3,0,0); (3,1,3); (4,0,1); (4,1,3); (5,0,2); (5,1,3)].
(** topodata.py faces_TET4, 50-66 *)
Definition faces_TET4 := assign_columns 4 3
  [(0,0,0); (0,1,1); (0,2,3); (1,0,1); (1,1,2); (1,2,3);
   (2,0,2); (2,1,0); (2,2,3); (3,0,0); (3,1,2); (3,2,1)].
(** topodata.py edgeIds_H8, 69-86 *)
Definition edgeIds_H8 :=
  [[0;1];[1;2];[2;3];[3;0];[4;5];[5;6];[6;7];[7;4];[0;4];[1;5];[2;6];[3;7]].
(** topodata.py edges_H8, 89-117 *)
Definition edges_H8 := assign_columns 12 2
  [(0,0,0); (0,1,1); (1,0,1); (1,1,2); (2,0,2); (2,1,3); (3,0,3); (3,1,0);
   (4,0,4); (4,1,5); (5,0,5); (5,1,6); (6,0,6); (6,1,7); (7,0,7); (7,1,4);
   (8,0,0); (8,1,4); (9,0,1); (9,1,5); (10,0,2); (10,1,6); (11,0,3); (11,1,7)].
(** topodata.py faces_H8, 120-148 *)
Definition faces_H8 := assign_columns 6 4
  [(0,0,0); (0,1,4); (0,2,7); (0,3,3);
   (1,0,1); (1,1,2); (1,2,6); (1,3,5);
   (2,0,0); (2,1,1); (2,2,5); (2,3,4);
   (3,0,2); (3,1,3); (3,2,7); (3,3,6);
   (4,0,0); (4,1,3); (4,2,2); (4,3,1);
   (5,0,4); (5,1,5); (5,2,6); (5,3,7)].
(** topodata.py edges_W6, 151-173 *)
Definition edges_W6 := assign_columns 9 2
  [(0,0,0); (0,1,1); (1,0,1); (1,1,2); (2,0,2); (2,1,0);
   (3,0,3); (3,1,4); (4,0,4); (4,1,5); (5,0,5); (5,1,3);
   (6,0,0); (6,1,3); (7,0,1); (7,1,4); (8,0,2); (8,1,5)].
(** topodata.py faces_W6, 176-202: the triangles (180-186), whose fourth assignment
    addresses column 3 of an array with 3 columns; compiled code does not check
    this and writes outside of the row (undefined behaviour, [IndexError] here). *)
Definition faces_W6_tri := assign_columns 2 3
  [(0,0,0); (0,1,2); (0,2,1); (1,3,3); (1,0,4); (1,1,5)].
(** the quadrilaterals (188-200) *)
Definition faces_W6_quad := assign_columns 3 4
  [(0,2,0); (0,3,1); (0,0,4); (0,1,3);
   (1,2,1); (1,3,2); (1,0,5); (1,1,4);
   (2,2,2); (2,3,0); (2,0,3); (2,1,5)].
Definition faces_W6 (topo : list (list nat)) :=
  do f2 <- faces_W6_tri topo; do f4 <- faces_W6_quad topo; Ok (f4, f2).
(** tri.py edges_tri, 485-514 *)
Definition edges_tri := assign_columns 3 2
  [(0,0,0); (0,1,1); (1,0,1); (1,1,2); (2,0,2); (2,1,0)].

(** ** Transformation of topologies (tr.py 62-204) *)

Section Transform.
  Context {A : Type} (z : A).

  (** iterations of the three nested prange loops of _transform_topology_ (172-176) and
      repeat_cell_nodal_data (185-190): (cell, column of path, row of path) *)
  Definition tr_iterations (nE nSub nSubN : nat) : list (nat * nat * nat) :=
    flat_map (fun iE => flat_map (fun jE => map (fun kE => (iE, jE, kE)) (seq 0 nSub)) (seq 0 nSubN))
             (seq 0 nE).

  (** _transform_topology_, 167-177, executing the iterations [its] in this order *)
  Definition transform_topology_in (its : list (nat * nat * nat)) (topo : list (list A))
      (path : list (list nat)) : res (list (list A)) :=
    let nE := length topo in
    let nSub := length path in
    let nSubN := ncols path in
    do ws <- mapM (fun ijk =>
        let '(iE, jE, kE) := ijk in
        do p <- get2 path kE jE;
        do v <- get2 topo iE p;
        Ok (iE * nSub + kE, jE, v)) its;
    run_writes2 ws (zeros2 z (nSub * nE) nSubN).
  Definition transform_topology_ (topo : list (list A)) (path : list (list nat)) :=
    transform_topology_in (tr_iterations (length topo) (length path) (ncols path)) topo path.

  (** iterations of repeat_cell_nodal_data (185-190): (cell, row of path, column of path) *)
  Definition rep_iterations (nE nSub nSubN : nat) : list (nat * nat * nat) :=
    flat_map (fun i => flat_map (fun j => map (fun k => (i, j, k)) (seq 0 nSubN)) (seq 0 nSub))
             (seq 0 nE).
  (** repeat_cell_nodal_data, 180-191 *)
  Definition repeat_cell_nodal_data_in (its : list (nat * nat * nat)) (edata : list (list A))
      (path : list (list nat)) : res (list (list A)) :=
    let nSub := length path in
    let nSubN := ncols path in
    let nE := length edata in
    do ws <- mapM (fun ijk =>
        let '(i, j, k) := ijk in
        do p <- get2 path j k;
        do v <- get2 edata i p;
        Ok (nSub * i + j, k, v)) its;
    run_writes2 ws (zeros2 z (nSub * nE) nSubN).
  Definition repeat_cell_nodal_data (edata : list (list A)) (path : list (list nat)) :=
    repeat_cell_nodal_data_in (rep_iterations (length edata) (length path) (ncols path)) edata path.
End Transform.

(** data attached to cells: [D1 d] is an array of shape (n,), [D2 d] one of shape
    (n, m) + rest, the entries of type [A] being arrays of shape [rest] *)
Inductive cdata (A : Type) := D1 (d : list A) | D2 (d : list (list A)).
Arguments D1 {A} d.
Arguments D2 {A} d.

(** transform_topology_data, 155-164 *)
Definition transform_topology_data {A} (z : A) (topo : list (list nat)) (data : cdata A)
    (path : list (list nat)) : res (cdata A) :=
  match data with
  | D2 d =>
      if (Nat.eqb (length d) (length topo) && Nat.eqb (ncols d) (ncols topo))%bool then
        do r <- repeat_cell_nodal_data z d path; Ok (D2 r)
      else if Nat.eqb (length d) (length topo) then
        Ok (D2 (flat_map (fun x => repeat x (length path)) d))
      else Err NotImplementedError
  | D1 d =>
      if Nat.eqb (length d) (length topo) then
        Ok (D1 (flat_map (fun x => repeat x (length path)) d))
      else Err NotImplementedError
  end.

(** the path argument of transform_topology: 1d or 2d integer array *)
Inductive path_array := P1 (p : list nat) | P2 (p : list (list nat)).
Definition path_rows (p : path_array) : list (list nat) :=
  match p with P1 r => [r] | P2 rows => rows end.

(** the data argument: absent, one array, or a sequence of arrays *)
Inductive data_arg (A : Type) := DNone | DArr (d : cdata A) | DSeq (ds : list (cdata A)).
Arguments DNone {A}.
Arguments DArr {A} d.
Arguments DSeq {A} ds.

(** transform_topology, 62-152.  [executor.map] returns the results in the order of its
    arguments, so the MT branch and the sequential one agree. *)
Definition transform_topology {A} (z : A) (topo : list (list nat)) (path : path_array)
    (data : data_arg A) : res (list (list nat) * data_arg A) :=
  let path := path_rows path in
  match data with
  | DNone => do t <- transform_topology_ 0 topo path; Ok (t, DNone)
  | DArr d => do d' <- transform_topology_data z topo d path;
              do t <- transform_topology_ 0 topo path; Ok (t, DArr d')
  | DSeq ds => do t <- transform_topology_ 0 topo path;
               do ds' <- mapM (fun d => transform_topology_data z topo d path) ds;
               Ok (t, DSeq ds')
  end.

(** compose_trmap, 194-204: sequential, the counter [c] runs over the rows *)
Definition compose_trmap (map1 map2 : list (list nat)) : res (list (list nat)) :=
  let nE1 := length map1 in
  let nE2 := length map2 in
  let nNE2 := ncols map2 in
  do cr <- foldM (fun cr ij =>
      let '(c, r) := cr in
      let '(i, j) := ij in
      do r' <- foldM (fun r k =>
          do p <- get2 map2 j k;
          do v <- get2 map1 i p;
          set2 r c k v) (seq 0 nNE2) r;
      Ok (S c, r'))
    (flat_map (fun i => map (fun j => (i, j)) (seq 0 nE2)) (seq 0 nE1))
    (0, zeros2 0 (nE1 * nE2) nNE2);
  Ok (snd cr).

(** ** Splitting cells along a path *)

(** the path argument of the *_to_* functions *)
Inductive path_arg := PNone | PGrid | PStr | PArr (p : list (list nat)).

(** path selection shared by the splitting functions: an array must have [n] columns;
    [dflt] replaces None; [grid] is the path named 'grid', if there is one; any other string
    ends in an exception ([NotImplementedError] where the function tests for strings,
    else AttributeError from [path.shape], here always NotImplementedError) *)
Definition choose_path (n : nat) (dflt : list (list nat)) (grid : option (list (list nat)))
    (p : path_arg) : res (list (list nat)) :=
  match p with
  | PArr p => do _ <- guard (Nat.eqb (ncols p) n) AssertionError; Ok p
  | PNone => Ok dflt
  | PGrid => match grid with Some g => Ok g | None => Err NotImplementedError end
  | PStr => Err NotImplementedError
  end.

(** the common body: [coords] is returned unchanged *)
Definition split_cells {C A} (z : A) (n : nat) (dflt : list (list nat)) (grid : option (list (list nat)))
    (coords : C) (topo : list (list nat)) (data : data_arg A) (p : path_arg)
  : res (C * (list (list nat) * data_arg A)) :=
  do path <- choose_path n dflt grid p;
  do td <- transform_topology z topo (P2 path) data;
  Ok (coords, td).

(** T6_to_T3, 207-229 *)
Definition path_T6_to_T3 := [[0;3;5];[3;1;4];[5;4;2];[5;3;4]].
Definition T6_to_T3 {C A} (z : A) (subdivide : bool) :=
  split_cells (C := C) z 3 (if subdivide then path_T6_to_T3 else [[0;1;2]]) None.
(** H27_to_H8, 232-264 *)
Definition path_H27_to_H8 :=
  [[0;8;24;11;16;22;26;20]; [8;1;9;24;22;17;21;26]; [24;9;2;10;26;21;18;23];
   [11;24;10;3;20;26;23;19]; [16;22;26;20;4;12;25;15]; [22;17;21;26;12;5;13;25];
   [26;21;18;23;25;13;6;14]; [20;26;23;19;15;25;14;7]].
Definition H27_to_H8 {C A} (z : A) (subdivide : bool) :=
  split_cells (C := C) z 8 (if subdivide then path_H27_to_H8 else [[0;1;2;3;4;5;6;7]]) None.
(** Q9_to_Q4, 267-292 *)
Definition path_Q9_to_Q4 := [[0;4;8;7];[4;1;5;8];[8;5;2;6];[7;8;6;3]].
Definition path_Q9_to_Q4_grid := [[0;3;4;1];[3;6;7;4];[4;7;8;5];[1;4;5;2]].
Definition Q9_to_Q4 {C A} (z : A) :=
  split_cells (C := C) z 4 path_Q9_to_Q4 (Some path_Q9_to_Q4_grid).
(** Q9_to_T6, 295-310: two fixed rows are read from the path *)
Definition path_Q9_to_T6 := [[0;8;2;4;5;1];[0;6;8;3;7;4]].
Definition Q9_to_T6_writes (topo : list (list nat)) (path : list (list nat)) (ij : nat * nat)
  : res (list (nat * nat * nat)) :=
  let '(iE, jE) := ij in
  do p0 <- get2 path 0 jE; do v0 <- get2 topo iE p0;
  do p1 <- get2 path 1 jE; do v1 <- get2 topo iE p1;
  Ok [(iE * 2, jE, v0); (iE * 2 + 1, jE, v1)].
Definition Q9_to_T6 {C} (coords : C) (topo : list (list nat)) (path : option (list (list nat)))
  : res (C * list (list nat)) :=
  let path := match path with None => path_Q9_to_T6 | Some p => p end in
  do wss <- mapM (Q9_to_T6_writes topo path)
                 (flat_map (fun i => map (fun j => (i, j)) (seq 0 6)) (seq 0 (length topo)));
  do t <- run_writes2 (concat wss) (zeros2 0 (2 * length topo) 6);
  Ok (coords, t).
(** H8_to_TET4, 313-334 *)
Definition path_H8_to_TET4 := [[1;2;0;5];[3;0;2;7];[5;4;7;0];[6;5;7;2];[0;2;7;5]].
Definition H8_to_TET4 {C A} (z : A) := split_cells (C := C) z 4 path_H8_to_TET4 None.
(** H27_to_TET10, 337-364 *)
Definition path_H27_to_TET10 :=
  [[1;2;0;5;9;24;8;17;21;22]; [3;0;2;7;11;24;10;19;20;23]; [5;4;7;0;12;15;25;22;16;20];
   [6;5;7;2;13;25;14;18;21;23]; [0;2;7;5;24;23;20;22;21;25]].
Definition H27_to_TET10 {C A} (z : A) := split_cells (C := C) z 10 path_H27_to_TET10 None.
(** H8_to_Q4, 367-395 *)
Definition path_H8_to_Q4 := [[0;4;7;3];[1;2;6;5];[0;1;5;4];[2;3;7;6];[0;3;2;1];[4;5;6;7]].
Definition H8_to_Q4 {C A} (z : A) := split_cells (C := C) z 4 path_H8_to_Q4 None.
(** Q4_to_T3, 476-495 *)
Definition path_Q4_to_T3 := [[0;1;2];[0;2;3]].
Definition path_Q4_to_T3_grid := [[0;2;3];[0;3;1]].
Definition Q4_to_T3 {C A} (z : A) := split_cells (C := C) z 3 path_Q4_to_T3 (Some path_Q4_to_T3_grid).
(** Q8_to_T3, 498-526 *)
Definition path_Q8_to_T3 := [[0;4;7];[4;1;5];[5;2;6];[6;3;7];[4;6;7];[4;5;6]].
Definition Q8_to_T3 {C A} (z : A) := split_cells (C := C) z 3 path_Q8_to_T3 None.
(** W6_to_TET4, 615-636 *)
Definition path_W6_to_TET4 := [[0;1;2;4];[3;5;4;2];[2;5;0;4]].
Definition W6_to_TET4 {C A} (z : A) := split_cells (C := C) z 4 path_W6_to_TET4 None.
(** W18_to_W6, 639-673 *)
Definition path_W18_to_W6 :=
  [[15;13;16;9;4;10]; [17;16;14;11;10;5]; [17;15;16;11;9;10]; [12;15;17;3;9;11];
   [6;1;7;15;13;16]; [8;6;7;17;15;16]; [8;7;2;17;16;14]; [8;0;6;17;12;15]].
Definition W18_to_W6 {C A} (z : A) (subdivide : bool) :=
  split_cells (C := C) z 6 (if subdivide then path_W18_to_W6 else [[0;1;2;3;4;5]]) None.

(** ** Edge extraction (398-473) *)

(** T3_to_L2 398-421, TET4_to_L2 424-447, H8_to_L2 450-473 with path None: the sub-cells
    are grouped per cell, then made unique.  (Paths given by the user and data: SplitModel2.) *)
Definition cells_to_L2 {C} (path : list (list nat)) (coords : C) (topo : list (list nat))
  : res (C * list (list nat)) :=
  do t <- transform_topology_ 0 topo path;
  do ei <- unique_topo_data (split_by (repeat (length path) (length topo)) t);
  Ok (coords, fst ei).
Definition T3_to_L2 {C} := cells_to_L2 (C := C) edgeIds_T3.
Definition TET4_to_L2 {C} := cells_to_L2 (C := C) edgeIds_TET4.
Definition H8_to_L2 {C} := cells_to_L2 (C := C) edgeIds_H8.

(** ** Order elevation (529-612, 676-691) *)

(** [np.hstack((a, b))] of 2d arrays: ValueError when the row counts differ *)
Definition hstack {A} (a b : list (list A)) : res (list (list A)) := map2 (@app A) a b.

Section Elevate.
  Context {K : Type} {NK : Num K}.

  (** [entities, ids = unique_topo_data(t3); new = np.mean(coords[entities], axis=1);
      ids + nP] *)
  Definition new_nodes (coords : list (list K)) (nP : nat) (t3 : list (list (list nat)))
    : res (list (list K) * list (list nat)) :=
    do ei <- unique_topo_data t3;
    do new <- mapM (fun nodes => do ps <- take coords nodes; vmean ps) (fst ei);
    Ok (new, map (map (fun i => i + nP)) (snd ei)).

  (** [cells_coords(coords, topo)] followed by [np.mean(.., axis=1)]: cell centres *)
  Definition centers (coords : list (list K)) (topo : list (list nat)) : res (list (list K)) :=
    mapM (fun cell => do ps <- take coords cell; vmean ps) topo.

  (** [np.reshape(np.arange(nE) + nP, (nE, 1))] *)
  Definition center_column (nE nP : nat) : list (list nat) := map (fun i => [i + nP]) (seq 0 nE).

  (** L2_to_L3, 529-542 (order 'ikj'): columns 1 and 2 are swapped at the end *)
  Definition swap12 (r : list nat) : res (list nat) :=
    do a <- get r 1; do b <- get r 2; do r <- set r 1 b; set r 2 a.
  Definition L2_to_L3 (coords : list (list K)) (topo : list (list nat))
    : res (list (list K) * list (list nat)) :=
    let nP := length coords in
    do nt <- new_nodes coords nP (map (fun r => [r]) topo);
    do topo' <- hstack topo (snd nt);
    do topo'' <- mapM swap12 topo';
    Ok (coords ++ fst nt, topo'').

  (** T3_to_T6 545-552, Q4_to_Q8 555-562, TET4_to_TET10 582-590 *)
  Definition add_edge_nodes (edges : list (list nat) -> res (list (list (list nat))))
      (coords : list (list K)) (topo : list (list nat)) : res (list (list K) * list (list nat)) :=
    let nP := length coords in
    do t3 <- edges topo;
    do nt <- new_nodes coords nP t3;
    do topo' <- hstack topo (snd nt);
    Ok (coords ++ fst nt, topo').
  Definition T3_to_T6 := add_edge_nodes edges_tri.
  Definition Q4_to_Q8 := add_edge_nodes edges_Q4.
  Definition TET4_to_TET10 := add_edge_nodes edges_TET4.

  (** Q4_to_Q9, 565-579 *)
  Definition Q4_to_Q9 (coords : list (list K)) (topo : list (list nat))
    : res (list (list K) * list (list nat)) :=
    let nP := length coords in
    let nE := length topo in
    do t3 <- edges_Q4 topo;
    do e <- new_nodes coords nP t3;
    let nP := nP + length (fst e) in
    do coords_c <- centers coords topo;
    do t1 <- hstack topo (snd e);
    do t2 <- hstack t1 (center_column nE nP);
    Ok (coords ++ fst e ++ coords_c, t2).

  (** H8_to_H27, 593-612 *)
  Definition H8_to_H27 (coords : list (list K)) (topo : list (list nat))
    : res (list (list K) * list (list nat)) :=
    let nP := length coords in
    let nE := length topo in
    do te <- edges_H8 topo;
    do e <- new_nodes coords nP te;
    let nP := nP + length (fst e) in
    do tf <- faces_H8 topo;
    do f <- new_nodes coords nP tf;
    let nP := nP + length (fst f) in
    do coords_c <- centers coords topo;
    do t1 <- hstack topo (snd e);
    do t2 <- hstack t1 (snd f);
    do t3 <- hstack t2 (center_column nE nP);
    Ok (coords ++ fst e ++ fst f ++ coords_c, t3).

  (** W6_to_W18, 676-691, after [faces] have been found *)
  Definition W6_to_W18_with (faces : list (list (list nat))) (coords : list (list K))
      (topo : list (list nat)) : res (list (list K) * list (list nat)) :=
    let nP := length coords in
    do te <- edges_W6 topo;
    do e <- new_nodes coords nP te;
    let nP := nP + length (fst e) in
    do f <- new_nodes coords nP faces;
    do t1 <- hstack topo (snd e);
    do t2 <- hstack t1 (snd f);
    Ok (coords ++ fst e ++ fst f, t2).
  Definition W6_to_W18 (coords : list (list K)) (topo : list (list nat))
    : res (list (list K) * list (list nat)) :=
    do ff <- faces_W6 topo; W6_to_W18_with (fst ff) coords topo.
End Elevate.
