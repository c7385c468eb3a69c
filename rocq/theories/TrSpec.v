(** * Specification vocabulary for the transformations of tr.py *)
From Verif Require Export TopoSpec TrModel.

(** [path] is a 2d array whose entries are local node numbers of cells with [w] nodes *)
Definition valid_path (w : nat) (path : list (list nat)) : Prop :=
  (exists n, rect n path) /\ forall p q, In p path -> In q p -> q < w.

(** [r] lists, for every cell in order and every row of the path in order, the entries
    of the cell selected by that row *)
Definition split_along {A} (topo : list (list A)) (path : list (list nat)) (r : list (list A)) : Prop :=
  length r = length topo * length path /\
  forall i k cell p, nth_error topo i = Some cell -> nth_error path k = Some p ->
    exists row, nth_error r (i * length path + k) = Some row /\ length row = length p /\
      forall j q, nth_error p j = Some q -> nth_error row j = nth_error cell q.

(** [e] is an edge of some cell, [ids] listing the local node numbers of the edges *)
Definition edge_of (ids : list (list nat)) (topo : list (list nat)) (e : list nat) : Prop :=
  exists cell ls, In cell topo /\ In ls ids /\ take cell ls = Ok e.

(** ** Order elevation *)
From Coq Require Import Reals.

(** coordinate [d] of point [n] *)
Definition coord (coords : list (list R)) (n d : nat) : R := nth d (nth n coords []) 0%R.
Definition rsum (l : list R) : R := fold_right Rplus 0%R l.

(** [P] is the mean of the points listed in [ns] *)
Definition mean_of (dim : nat) (coords : list (list R)) (ns : list nat) (P : list R) : Prop :=
  length P = dim /\
  forall d, d < dim -> nth d P 0%R = (rsum (map (fun n => coord coords n d) ns) / INR (length ns))%R.

(** a mesh of cells with [w] nodes in a space of dimension [dim] *)
Definition is_mesh {K} (w dim : nat) (coords : list (list K)) (topo : list (list nat)) : Prop :=
  rect dim coords /\ rect w topo /\ forall cell n, In cell topo -> In n cell -> n < length coords.

(** what the k-th node of an elevated cell is: a corner of the parent cell, a point at the
    middle of the edge or face with the given corners (shared with all cells having this
    edge or face), or the centre of the cell *)
Inductive node_kind := Corner (c : nat) | Shared (ls : list nat) | Own.

Definition placed (dim : nat) (coords coords' : list (list R)) (cell : list nat) (kind : node_kind) (n : nat) : Prop :=
  match kind with
  | Corner c => nth_error cell c = Some n
  | Shared ls => length coords <= n /\
      exists ns P, take cell ls = Ok ns /\ nth_error coords' n = Some P /\ mean_of dim coords ns P
  | Own => length coords <= n /\ exists P, nth_error coords' n = Some P /\ mean_of dim coords cell P
  end.

Record elevated (dim : nat) (plan : list node_kind) (coords : list (list R)) (topo : list (list nat))
    (coords' : list (list R)) (topo' : list (list nat)) : Prop := {
  (* old points are kept, new ones come after them *)
  el_points : exists new, coords' = coords ++ new;
  el_rect : rect dim coords';
  (* cell by cell, node by node *)
  el_cells : length topo' = length topo;
  el_nodes : forall i cell, nth_error topo i = Some cell ->
    exists cell', nth_error topo' i = Some cell' /\ length cell' = length plan /\
      forall k kind, nth_error plan k = Some kind ->
        exists n, nth_error cell' k = Some n /\ placed dim coords coords' cell kind n;
  (* two cells use the same node on an edge or face if and only if they have it in common *)
  el_shared : forall i i' k k' cell cell' ls ls' ns ns' n n',
    nth_error topo i = Some cell -> nth_error topo i' = Some cell' ->
    nth_error plan k = Some (Shared ls) -> nth_error plan k' = Some (Shared ls') ->
    take cell ls = Ok ns -> take cell' ls' = Ok ns' ->
    entry topo' i k n -> entry topo' i' k' n' -> (n = n' <-> Permutation ns ns');
  (* a centre belongs to one cell only *)
  el_own : forall i i' k k' n, nth_error plan k = Some Own ->
    entry topo' i k n -> entry topo' i' k' n -> i = i' /\ k = k';
  (* the node numbers are those of points, and all new points are used *)
  el_range : forall i k n, entry topo' i k n -> n < length coords';
  el_used : forall n, length coords <= n < length coords' -> exists i k, entry topo' i k n
}.

(** what the nodes of the elevated cells are, in their order *)
Definition plan_L3 := [Corner 0; Shared [0;1]; Corner 1].
Definition plan_T6 := [Corner 0; Corner 1; Corner 2; Shared [0;1]; Shared [1;2]; Shared [2;0]].
Definition plan_Q8 := [Corner 0; Corner 1; Corner 2; Corner 3;
  Shared [0;1]; Shared [1;2]; Shared [2;3]; Shared [3;0]].
Definition plan_Q9 := [Corner 0; Corner 1; Corner 2; Corner 3;
  Shared [0;1]; Shared [1;2]; Shared [2;3]; Shared [3;0]; Own].
Definition plan_TET10 := [Corner 0; Corner 1; Corner 2; Corner 3;
  Shared [0;1]; Shared [1;2]; Shared [2;0]; Shared [0;3]; Shared [1;3]; Shared [2;3]].
Definition plan_H27 :=
  [Corner 0; Corner 1; Corner 2; Corner 3; Corner 4; Corner 5; Corner 6; Corner 7;
   Shared [0;1]; Shared [1;2]; Shared [2;3]; Shared [3;0];
   Shared [4;5]; Shared [5;6]; Shared [6;7]; Shared [7;4];
   Shared [0;4]; Shared [1;5]; Shared [2;6]; Shared [3;7];
   Shared [0;4;7;3]; Shared [1;2;6;5]; Shared [0;1;5;4]; Shared [2;3;7;6]; Shared [0;3;2;1]; Shared [4;5;6;7];
   Own].
Definition plan_W18 :=
  [Corner 0; Corner 1; Corner 2; Corner 3; Corner 4; Corner 5;
   Shared [0;1]; Shared [1;2]; Shared [2;0]; Shared [3;4]; Shared [4;5]; Shared [5;3];
   Shared [0;3]; Shared [1;4]; Shared [2;5];
   Shared [4;3;0;1]; Shared [5;4;1;2]; Shared [3;5;2;0]].

(** the edges of a triangle, a tetrahedron and a hexahedron *)
Definition triangle_edges := [[0;1];[1;2];[2;0]].
Definition tetrahedron_edges := [[0;1];[1;2];[2;0];[0;3];[1;3];[2;3]].
Definition hexahedron_edges := [[0;1];[1;2];[2;3];[3;0];[4;5];[5;6];[6;7];[7;4];[0;4];[1;5];[2;6];[3;7]].
