(** * Specification vocabulary: cells that fit together *)
From Coq Require Import Reals.
From Verif Require Export TrSpec TopoSpec.
Local Open Scope R_scope.

(** [lo] and [hi] are the least and the greatest coordinate [d] *)
Definition bounds (coords : list (list R)) (d : nat) (lo hi : R) : Prop :=
  (exists n, (n < length coords)%nat /\ coord coords n d = lo) /\ (exists n, (n < length coords)%nat /\ coord coords n d = hi) /\
  forall n, (n < length coords)%nat -> lo <= coord coords n d <= hi.
(** the increasing list of the nodes whose coordinate [d] is within [tol] of [v] *)
Definition nodes_near (coords : list (list R)) (d : nat) (v tol : R) (l : list nat) : Prop :=
  StronglySorted lt l /\ forall n, In n l <-> (n < length coords)%nat /\ Rabs (coord coords n d - v) < tol.
(** the nodes of opposite sides are listed in the same order: each is moved to its partner by [size] along the axis [d] *)
Definition matched (coords : list (list R)) (d : nat) (size : R) (lo hi : list nat) : Prop :=
  Forall2 (fun a b => coord coords b d = coord coords a d + size /\ forall e, (e < 3)%nat -> e <> d -> coord coords b e = coord coords a e) lo hi.
(** a cell of size sx, sy whose opposite sides match *)
Definition tile_cell (coords : list (list R)) (tol sx sy : R) (lx hx ly hy : list nat) : Prop :=
  rect 3 coords /\ exists xmin xmax ymin ymax, bounds coords 0 xmin xmax /\ bounds coords 1 ymin ymax /\ sx = xmax - xmin /\ sy = ymax - ymin /\
    nodes_near coords 0 xmin tol lx /\ nodes_near coords 0 xmax tol hx /\ nodes_near coords 1 ymin tol ly /\ nodes_near coords 1 ymax tol hy /\
    matched coords 0 sx lx hx /\ matched coords 1 sy ly hy.
(** nodes within [tol] of a side are on it, and opposite sides are apart *)
Definition sharp (coords : list (list R)) (d : nat) (tol : R) : Prop :=
  forall lo hi, bounds coords d lo hi -> tol <= hi - lo /\ forall n, (n < length coords)%nat -> (Rabs (coord coords n d - lo) < tol -> coord coords n d = lo) /\ (Rabs (coord coords n d - hi) < tol -> coord coords n d = hi).
