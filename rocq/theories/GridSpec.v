(** * Vocabulary for the properties of grids *)
From Coq Require Import Reals.
From Verif Require Export TrSpec GridModel EvalModel.
Local Open Scope R_scope.

(** [coords], [topo] describe [nx] x [ny] cells, each with [wx] x [wy] intervals, numbered row by row like
    the points.  Point [k], [m] of cell [i], [j] sits at [X i k], [Y j m]. *)
Definition lattice2 (nx ny wx wy start : nat) (X Y : nat -> nat -> R)
    (coords : list (list R)) (topo : list (list nat)) : Prop :=
  let NX := (nx * wx + 1)%nat in let NY := (ny * wy + 1)%nat in
  length coords = (NX * NY)%nat /\ length topo = (nx * ny)%nat /\
  forall i j, (i < nx)%nat -> (j < ny)%nat ->
  exists cell, nth_error topo (i * ny + j) = Some cell /\ length cell = ((wx + 1) * (wy + 1))%nat /\
    forall k m, (k <= wx)%nat -> (m <= wy)%nat ->
      let p := ((i * wx + k) * NY + (j * wy + m))%nat in
      nth_error cell (k * (wy + 1) + m) = Some (start + p)%nat /\
      nth_error coords p = Some [X i k; Y j m].
Definition lattice3 (nx ny nz wx wy wz start : nat) (X Y Z : nat -> nat -> R)
    (coords : list (list R)) (topo : list (list nat)) : Prop :=
  let NX := (nx * wx + 1)%nat in let NY := (ny * wy + 1)%nat in let NZ := (nz * wz + 1)%nat in
  length coords = (NX * NY * NZ)%nat /\ length topo = (nx * ny * nz)%nat /\
  forall i j l, (i < nx)%nat -> (j < ny)%nat -> (l < nz)%nat ->
  exists cell, nth_error topo ((i * ny + j) * nz + l) = Some cell /\ length cell = ((wx + 1) * (wy + 1) * (wz + 1))%nat /\
    forall k m r, (k <= wx)%nat -> (m <= wy)%nat -> (r <= wz)%nat ->
      let p := (((i * wx + k) * NY + (j * wy + m)) * NZ + (l * wz + r))%nat in
      nth_error cell ((k * (wy + 1) + m) * (wz + 1) + r) = Some (start + p)%nat /\
      nth_error coords p = Some [X i k; Y j m; Z l r].

(** positions along one direction: equally spaced, or given by bins *)
Definition uniform (s l : R) (n w i k : nat) : R := s + l / INR n * INR i + l / INR n / INR w * INR k.
Definition binned (s : R) (b : list R) (w i k : nat) : R :=
  s + nth i b 0 + (nth (i + 1) b 0 - nth i b 0) / INR w * INR k.

(** all the points are used, all numbers are in range, no cell lists a node twice *)
Definition numbering_ok (start nP : nat) (topo : list (list nat)) : Prop :=
  (forall cell, In cell topo -> NoDup cell /\ forall n, In n cell -> (start <= n < start + nP)%nat) /\
  (forall p, (p < nP)%nat -> exists cell, In cell topo /\ In (start + p)%nat cell).

(** corner boxes: the first and the last node of a cell of a grid are opposite corners *)
Definition lo_corner (start : nat) (coords : list (list R)) (cell : list nat) (d : nat) : R :=
  coord coords (hd 0%nat cell - start) d.
Definition hi_corner (start : nat) (coords : list (list R)) (cell : list nat) (d : nat) : R :=
  coord coords (last cell 0%nat - start) d.
Definition box_measure (dim start : nat) (coords : list (list R)) (cell : list nat) : R :=
  fold_right Rmult 1 (map (fun d => hi_corner start coords cell d - lo_corner start coords cell d) (seq 0 dim)).
Definition in_cell_box (dim start : nat) (coords : list (list R)) (cell : list nat) (p : list R) : Prop :=
  forall d, (d < dim)%nat -> lo_corner start coords cell d <= nth d p 0 <= hi_corner start coords cell d.
Definition inside_cell_box (dim start : nat) (coords : list (list R)) (cell : list nat) (p : list R) : Prop :=
  forall d, (d < dim)%nat -> lo_corner start coords cell d < nth d p 0 < hi_corner start coords cell d.
(** the boxes of the cells tile the box from [s] to [s + l] *)
Definition tiles_box (dim start : nat) (coords : list (list R)) (topo : list (list nat)) (s l : list R) : Prop :=
  (forall cell n, In cell topo -> In n cell -> in_cell_box dim start coords cell (nth (n - start) coords [])) /\
  (forall p, (forall d, (d < dim)%nat -> nth d s 0 <= nth d p 0 <= nth d s 0 + nth d l 0) ->
     exists cell, In cell topo /\ in_cell_box dim start coords cell p) /\
  (forall c c' cell cell' p, nth_error topo c = Some cell -> nth_error topo c' = Some cell' ->
     inside_cell_box dim start coords cell p -> inside_cell_box dim start coords cell' p -> c = c') /\
  rsum (map (box_measure dim start coords) topo) = fold_right Rmult 1 l.
(** different points have different coordinates *)
Definition points_differ (coords : list (list R)) : Prop :=
  forall p q r, nth_error coords p = Some r -> nth_error coords q = Some r -> p = q.

(** the nodes of a cell are the images of the local coordinates of the element under the map of the
    reference cube [-1, 1]^dim to the box of the cell with lower corner [lo] and sides [h] *)
Definition box_placed (dim start : nat) (coords : list (list R)) (cell : list nat) (lcoords : list (list R)) (lo h : nat -> R)
    : Prop :=
  length cell = length lcoords /\
  forall k q, nth_error lcoords k = Some q ->
    forall d, (d < dim)%nat -> coord coords (nth k cell 0%nat - start) d = lo d + h d * (nth d q 0 + 1) / 2.
(** a node of one cell belongs to another cell exactly when it lies in the box of that cell *)
Definition shares_faces (dim start : nat) (coords : list (list R)) (topo : list (list nat)) : Prop :=
  forall cell cell' n, In cell topo -> In cell' topo -> In n cell ->
    (In n cell' <-> in_cell_box dim start coords cell' (nth (n - start) coords [])).

(** arguments of a uniform grid and of a grid from bins (floating point bins) *)
Definition uargs (size : list R) (shape : list nat) (shift : list R) (start : nat) : grid_args (K := R) :=
  {| a_size := Some size; a_shape := Some shape; a_shift := Some shift; a_start := start; a_bins := None;
     a_cast := fun x => x; a_centralize := false; a_path := None |}.
Definition bargs (bins : list (list R)) (shift : list R) (start : nat) : grid_args (K := R) :=
  {| a_size := None; a_shape := None; a_shift := Some shift; a_start := start; a_bins := Some bins;
     a_cast := fun x => x; a_centralize := false; a_path := None |}.
(** bins in increasing order *)
Definition increasing (b : list R) : Prop := forall i, (i + 1 < length b)%nat -> nth i b 0 < nth (i + 1) b 0.
(** the nodes of every cell taken in the order [path] *)
Definition reordered (path : list nat) (topo topo' : list (list nat)) : Prop :=
  length topo' = length topo /\
  forall c cell, nth_error topo c = Some cell -> exists cell', nth_error topo' c = Some cell' /\
    length cell' = length path /\ forall j q, nth_error path j = Some q -> nth_error cell' j = nth_error cell q.
(** arguments with the path [p], and with centralization *)
Definition with_path (a : grid_args (K := R)) (p : list nat) : grid_args (K := R) :=
  {| a_size := a_size a; a_shape := a_shape a; a_shift := a_shift a; a_start := a_start a; a_bins := a_bins a;
     a_cast := a_cast a; a_centralize := a_centralize a; a_path := Some p |}.
(** equally spaced bins from 0 to [l] *)
Definition even_bins (l : R) (n : nat) : list R := map (fun i => l / INR n * INR i) (seq 0 (n + 1)).
(** the bins 0, 1 in three directions as integer arrays *)
Definition int_args : grid_args (K := R) :=
  {| a_size := None; a_shape := None; a_shift := Some [0; 0; 0]; a_start := 0; a_bins := Some [[0; 1]; [0; 1]; [0; 1]];
     a_cast := store Integral; a_centralize := false; a_path := None |}.

(** the same arguments of a grid with the given [shift] *)
Definition with_shift (a : grid_args (K := R)) (s : list R) : grid_args (K := R) :=
  {| a_size := a_size a; a_shape := a_shape a; a_shift := Some s; a_start := a_start a;
     a_bins := a_bins a; a_cast := a_cast a; a_centralize := a_centralize a; a_path := a_path a |}.
