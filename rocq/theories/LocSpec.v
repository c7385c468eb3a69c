(** * Specification vocabulary: meshes of cells, nearest neighbours, located points *)
From Coq Require Import Reals List Permutation.
From Verif Require Export TriSpec.
Import ListNotations.
Local Open Scope R_scope.

(** [ec] are the positions of the nodes [ns], [ecs] those of the cells *)
Definition nodes_at (coords : list (list R)) (ns : list nat) (ec : list (list R)) : Prop :=
  Forall2 (fun n p => nth_error coords n = Some p) ns ec.
Definition mesh_at (coords : list (list R)) (topo : list (list nat)) (ecs : list (list (list R))) : Prop :=
  Forall2 (nodes_at coords) topo ecs.
(** the nodes of a cell with the given numbers *)
Definition pick (q : list nat) (ec : list (list R)) : list (list R) := map (fun k => nth k ec []) q.

(** a table that divides cells with [w] nodes into pieces with [n] nodes *)
Definition pieces (n w : nat) (smap : list (list nat)) : Prop :=
  Forall (fun q => length q = n /\ Forall (fun k => (k < w)%nat) q) smap.
(** all the pieces of the cells, those of the first cell first *)
Definition simplices (smap : list (list nat)) (ecs : list (list (list R))) : list (list (list R)) :=
  map (fun cq => pick (snd cq) (fst cq)) (list_prod ecs smap).
(** a scheduler: it executes the iterations of two nested loops in some order *)
Definition any_order (sched : nat -> nat -> list (nat * nat)) : Prop :=
  forall n m, Permutation (list_prod (seq 0 n) (seq 0 m)) (sched n m).

(** [its] are the entries of a table with [n] rows and [m] columns, in some order *)
Definition all_entries (its : list (nat * nat)) (n m : nat) : Prop := Permutation (list_prod (seq 0 n) (seq 0 m)) its.

(** [row] lists [k] of the positions [X], none of the others being closer to [y] *)
Definition nearest (X : list (list R)) (y : list R) (k : nat) (row : list nat) : Prop :=
  length row = k /\ NoDup row /\ Forall (fun i => (i < length X)%nat) row /\
  forall i j, In i row -> (j < length X)%nat -> ~ In j row -> dist2 y (nth i X []) <= dist2 y (nth j X []).
Definition nearest_query (query : list (list R) -> list R -> nat -> option R -> list nat) : Prop :=
  forall X y k, (k <= length X)%nat -> nearest X y k (query X y k None).

(** entry [j] of row [i] of a table is true *)
Definition hit (table : list (list bool)) (i j : nat) : Prop :=
  exists row, nth_error table i = Some row /\ nth_error row j = Some true.

(** the position is in one of the simplices [smap] of the cell, up to the tolerance *)
Definition near_cell (d : nat) (tol : R) (smap : list (list nat)) (ec : list (list R)) (x : list R) : Prop :=
  exists q, In q smap /\ near_hull d tol (pick q ec) x.
(** [loc] and [x] have the same weights, within the tolerance, in some simplex of the reference cell
    and in the same simplex of the cell *)
Definition located (d : nat) (tol : R) (smap : list (list nat)) (lcoords ec : list (list R)) (x loc : list R) : Prop :=
  exists q l, In q smap /\ weights_of d l (pick q ec) x /\ Forall (fun w => - tol < w < 1 + tol) l /\
    weights_of d l (pick q lcoords) loc /\ dim d loc.
(** the cell is the image of the reference cell under the affine map *)
Definition affine_cell (lcoords ec : list (list R)) (o u v w : list R) : Prop := ec = map (space_map o u v w) lcoords.
(** cells that are such images, with volume *)
Definition affine_mesh (lcoords : list (list R)) (ecs : list (list (list R))) : Prop :=
  Forall (fun ec => exists o u v w, affine_cell lcoords ec o u v w /\ map_det u v w <> 0) ecs.
(** the reference tetrahedron *)
Definition unit_tet (r s t : R) : Prop := 0 <= r /\ 0 <= s /\ 0 <= t /\ r + s + t <= 1.
(** [c] is the centre of the simplex *)
Definition centre (d : nat) (ec : list (list R)) (c : list R) : Prop :=
  dim d c /\ weights_of d (repeat (1 / INR (length ec)) (length ec)) ec c.
(** what locate returns: numbers of positions in increasing order, a cell and a location for each; exactly the
    positions that satisfy [found] are listed and the results satisfy [good] *)
Definition located_all (x : list (list R)) (ncells : nat) (found : list R -> Prop) (good : nat -> list R -> list R -> Prop)
    (src tgt : list nat) (locs : list (list R)) : Prop :=
  length tgt = length src /\ length locs = length src /\
  (forall a b i j, nth_error src a = Some i -> nth_error src b = Some j -> (a < b)%nat -> (i < j)%nat) /\
  (forall i p, nth_error x i = Some p -> (In i src <-> found p)) /\
  forall s i e loc, nth_error src s = Some i -> nth_error tgt s = Some e -> nth_error locs s = Some loc ->
    exists p, nth_error x i = Some p /\ (e < ncells)%nat /\ good e p loc.
(** the position is the image of a point of the reference cell *)
Definition in_element (position : nat -> list R -> R) (region : R -> R -> R -> Prop) (x : list R) : Prop :=
  exists r s t, region r s t /\ forall a, (a < 3)%nat -> position a [r; s; t] = at_ a x.

(** the area enclosed by the closed polygon through the given positions of space, as seen against the direction [n]
    (half of the sum of the triple products with consecutive positions) *)
Definition loop_area (n : list R) (ps : list (list R)) : R :=
  fold_right Rplus 0 (map (fun ab => map_det n (fst ab) (snd ab)) (combine ps (tl ps ++ firstn 1 ps))) / 2.
(** three axes, the last one [n] being the vector product of the first two (as in every right-handed cartesian frame) *)
Definition frame_with_normal (n : list R) (frame : list (list R)) : Prop :=
  exists e f, frame = [e; f; n] /\ dim 3 e /\ dim 3 f /\
    n = [py e * pz f - pz e * py f; pz e * px f - px e * pz f; px e * py f - py e * px f].
