(** * Specifications for [ProbeModel.v] *)
From Coq Require Import Reals List Sorted Permutation.
From Verif Require Export ClassSpec NetSpec ProbeModel.
Import ListNotations.
Local Open Scope R_scope.

(** [C] is the inverse of the matrix [M] of size [n] *)
Definition inverse_of (n : nat) (M C : list (list R)) : Prop := right_inverse n M C /\ right_inverse n C M.
(** classes in three dimensions whose monomials are as many as their nodes *)
Definition solids : list kind := [KTET10; KH8; KH27; KW6; KW18].
(** x -> A x + b *)
Definition affine_map (Ab : list (list R) * list R) (x : list R) : list R :=
  map (fun ab => dot (fst ab) x + snd ab) (combine (fst Ab) (snd Ab)).
(** an affine map of space takes the nodes of a cell to the local coordinates [lcoords] *)
Definition maps_cell (lcoords : list (list R)) (cell : list (list R)) (Ab : list (list R) * list R) : Prop :=
  length (fst Ab) = 3%nat /\ rect 3 (fst Ab) /\ length (snd Ab) = 3%nat /\ map (affine_map Ab) cell = lcoords.
(** cells with [n] nodes in space *)
Definition cells3 (n : nat) (cells : list (list (list R))) : Prop := Forall (fun c => length c = n /\ rect 3 c) cells.
(** all coordinates of a point of the cube, enlarged by [tol] on every side *)
Definition cube (tol : R) (x : list R) : Prop := Forall (fun c => -1 - tol < c < 1 + tol) x.
Definition closed_cube (x : list R) : Prop := Forall (fun c => -1 <= c <= 1) x.

(** the trapezoid x = r (2 + s) / 2, y = s, z = t over the cube *)
Definition trapezoid : list (list R) :=
  [[-1/2; -1; -1]; [1/2; -1; -1]; [3/2; 1; -1]; [-3/2; 1; -1]; [-1/2; -1; 1]; [1/2; -1; 1]; [3/2; 1; 1]; [-3/2; 1; 1]].
(** a cube turned by 45 degrees *)
Definition turned_cube : list (list R) :=
  [[0; -1; -1]; [1; 0; -1]; [0; 1; -1]; [-1; 0; -1]; [0; -1; 1]; [1; 0; 1]; [0; 1; 1]; [-1; 0; 1]].

(** [ps] are the points [points], moved by [i] times [dp], for [i] from 0 to [N - 1] *)
Definition copies_of_points (points : list (list R)) (dp : list R) (N : nat) (ps : list (list R)) : Prop :=
  length ps = (N * length points)%nat /\
  forall i j p, (i < N)%nat -> nth_error points j = Some p ->
    exists q, nth_error ps (i * length points + j) = Some q /\ length q = length p /\ forall d, (d < length p)%nat -> nth d q 0 = nth d p 0 + INR i * nth d dp 0.
(** cell [i * n + j] of [cells] has the nodes of copy [i] of the nodes of cell [j] *)
Definition copies_of_cells (topo : list (list nat)) (nP N : nat) (cells : list (list nat)) : Prop :=
  length cells = (N * length topo)%nat /\
  forall i j r, (i < N)%nat -> nth_error topo j = Some r -> nth_error cells (i * length topo + j) = Some (map (fun n => i * nP + n)%nat r).
