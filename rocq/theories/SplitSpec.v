(** * Specification vocabulary: interpolation, areas and volumes of cells *)
From Coq Require Import Reals.
From Verif Require Export TrSpec CellsModel.
Local Open Scope R_scope.

(** [x] is coordinate [d] of the point at the local coordinates [xi] of the cell, interpolated
    with the shape functions [shp] *)
Definition interpolated (shp : list R -> res (list R)) (coords : list (list R)) (cell : list nat)
    (xi : list R) (d : nat) (x : R) : Prop :=
  exists N, shp xi = Ok N /\ length N = length cell /\
    x = rsum (map (fun Nn => fst Nn * coord coords (snd Nn) d) (combine N cell)).

(** every node of every elevated cell is where the reference element has it *)
Definition matches_reference (dim : nat) (shp : list R -> res (list R)) (lcoords : list (list R))
    (coords : list (list R)) (topo : list (list nat)) (coords' : list (list R)) (topo' : list (list nat)) : Prop :=
  forall i cell cell' k xi d,
    nth_error topo i = Some cell -> nth_error topo' i = Some cell' ->
    nth_error lcoords k = Some xi -> (d < dim)%nat ->
    exists n, nth_error cell' k = Some n /\ interpolated shp coords cell xi d (coord coords' n d).

(** ** Plane geometry *)

(** twice the signed area spanned by two points and the origin *)
Definition cross2 (coords : list (list R)) (m n : nat) : R :=
  coord coords m 0 * coord coords n 1 - coord coords n 0 * coord coords m 1.
(** twice the signed area of the polygon with the given nodes (shoelace formula) *)
Fixpoint shoelace (coords : list (list R)) (first : nat) (ns : list nat) : R :=
  match ns with
  | [] => 0
  | [n] => cross2 coords n first
  | n :: ((m :: _) as rest) => cross2 coords n m + shoelace coords first rest
  end.
Definition polygon_area (coords : list (list R)) (ns : list nat) : R :=
  match ns with [] => 0 | n :: _ => shoelace coords n ns / 2 end.

(** nodes of a cell in the given local order *)
Definition reorder (order : list nat) (cell : list nat) : list nat := map (fun k => nth k cell O) order.

(** the [n] pieces of cell [i] have the total measure [m]; [f] measures a piece *)
Definition pieces_add_up (n : nat) (f : list nat -> R) (t : list (list nat)) (i : nat) (m : R) : Prop :=
  rsum (map (fun k => f (nth (i * n + k) t [])) (seq 0 n)) = m.

(** local order of the nodes along the boundary, counterclockwise *)
Definition loop_T3 := [0;1;2]%nat.
Definition loop_Q4 := [0;1;2;3]%nat.
Definition loop_T6 := [0;3;1;4;2;5]%nat.
Definition loop_Q8 := [0;4;1;5;2;6;3;7]%nat.  (* also Q9 *)
(** the same for nodes numbered row by row as in a grid, x slowest *)
Definition loop_Q4_grid := [0;2;3;1]%nat.
Definition loop_Q9_grid := [0;3;6;7;8;5;2;1]%nat.

(** ** Space geometry *)

(** determinant of three points taken as vectors from the origin, for points [a], [b], [c] *)
Definition det3 (coords : list (list R)) (a b c : nat) : R :=
  let x n := coord coords n 0 in let y n := coord coords n 1 in let z n := coord coords n 2 in
  x a * (y b * z c - y c * z b) - y a * (x b * z c - x c * z b) + z a * (x b * y c - x c * y b).
(** signed volume of the tetrahedron a b c d: (b-a) . ((c-a) x (d-a)) / 6 *)
Definition tet_volume (coords : list (list R)) (a b c d : nat) : R :=
  let u k := coord coords b k - coord coords a k in
  let v k := coord coords c k - coord coords a k in
  let w k := coord coords d k - coord coords a k in
  (u 0%nat * (v 1%nat * w 2%nat - v 2%nat * w 1%nat)
   - u 1%nat * (v 0%nat * w 2%nat - v 2%nat * w 0%nat)
   + u 2%nat * (v 0%nat * w 1%nat - v 1%nat * w 0%nat)) / 6.
Definition tet_nodes_volume (coords : list (list R)) (ns : list nat) : R :=
  match ns with a :: b :: c :: d :: _ => tet_volume coords a b c d | _ => 0 end.

(** signed volume of the cone from the origin over a triangle, and over a bilinear
    quadrilateral patch (the mean of the two ways to split it) *)
Definition tri_cone (coords : list (list R)) (a b c : nat) : R := det3 coords a b c / 6.
Definition quad_cone (coords : list (list R)) (a b c d : nat) : R :=
  (tri_cone coords a b c + tri_cone coords a c d + tri_cone coords a b d + tri_cone coords b c d) / 2.
Definition face_cone (coords : list (list R)) (cell : list nat) (face : list nat) : R :=
  match reorder face cell with
  | [a; b; c] => tri_cone coords a b c
  | [a; b; c; d] => quad_cone coords a b c d
  | _ => 0
  end.
(** volume enclosed by outward oriented faces *)
Definition enclosed_volume (faces : list (list nat)) (coords : list (list R)) (cell : list nat) : R :=
  rsum (map (face_cone coords cell) faces).

(** outward oriented faces *)
Definition hull_H8 : list (list nat) :=
  [[0;4;7;3];[1;2;6;5];[0;1;5;4];[2;3;7;6];[0;3;2;1];[4;5;6;7]]%nat.
Definition hull_W6 : list (list nat) := [[0;2;1];[3;4;5];[0;1;4;3];[1;2;5;4];[2;0;3;5]]%nat.
(** the 24 quadrilaterals on the surface of a 27-node hexahedron: 4 on each face, around
    its centre *)
Definition hull_H27 : list (list nat) :=
  [(* x = -1, centre 20 *) [0;16;20;11];[16;4;15;20];[20;15;7;19];[11;20;19;3];
   (* x = 1, centre 21 *) [1;9;21;17];[9;2;18;21];[21;18;6;13];[17;21;13;5];
   (* y = -1, centre 22 *) [0;8;22;16];[8;1;17;22];[22;17;5;12];[16;22;12;4];
   (* y = 1, centre 23 *) [2;10;23;18];[10;3;19;23];[23;19;7;14];[18;23;14;6];
   (* z = -1, centre 24 *) [0;11;24;8];[11;3;10;24];[24;10;2;9];[8;24;9;1];
   (* z = 1, centre 25 *) [4;12;25;15];[12;5;13;25];[25;13;6;14];[15;25;14;7]]%nat.
(** the surface of an 18-node wedge: 4 triangles at the bottom and at the top, 4 quadrilaterals
    on each side *)
Definition hull_W18 : list (list nat) :=
  [[0;8;6];[6;7;1];[8;2;7];[6;8;7]; [3;9;11];[9;4;10];[11;10;5];[9;10;11];
   [0;6;15;12];[6;1;13;15];[12;15;9;3];[15;13;4;9];
   [1;7;16;13];[7;2;14;16];[13;16;10;4];[16;14;5;10];
   [2;8;17;14];[8;0;12;17];[14;17;11;5];[17;12;3;11]]%nat.

(** the triangulated surface of an 8-node hexahedron and of a wedge, with the face diagonals
    the tetrahedra use *)
Definition hull_H8_tri : list (list nat) :=
  [[0;4;7];[0;7;3];[1;2;5];[2;6;5];[0;1;5];[0;5;4];[2;3;7];[2;7;6];[0;3;2];[0;2;1];[4;5;7];[5;6;7]]%nat.

(** [p] is the convex combination of the four first nodes of [ns] with weights [l0..l3] *)
Definition barycentric (coords : list (list R)) (ns : list nat) (p : nat -> R) (l0 l1 l2 l3 : R) : Prop :=
  l0 + l1 + l2 + l3 = 1 /\
  exists a b c e rest, ns = a :: b :: c :: e :: rest /\
    forall d, (d < 3)%nat -> p d = l0 * coord coords a d + l1 * coord coords b d + l2 * coord coords c d + l3 * coord coords e d.
Definition in_tet (coords : list (list R)) (ns : list nat) (p : nat -> R) : Prop :=
  exists l0 l1 l2 l3, barycentric coords ns p l0 l1 l2 l3 /\ 0 <= l0 /\ 0 <= l1 /\ 0 <= l2 /\ 0 <= l3.
Definition inside_tet (coords : list (list R)) (ns : list nat) (p : nat -> R) : Prop :=
  exists l0 l1 l2 l3, barycentric coords ns p l0 l1 l2 l3 /\ 0 < l0 /\ 0 < l1 /\ 0 < l2 /\ 0 < l3.

(** the affine map xi -> o + r u + s v + t w places the nodes of the cell at their local
    coordinates; [image] is the point it gives *)
Definition image (o u v w : nat -> R) (r s t : R) (d : nat) : R := o d + r * u d + s * v d + t * w d.
Definition affine_at (lcoords : list (list R)) (coords : list (list R)) (cell : list nat) (o u v w : nat -> R) : Prop :=
  forall c r s t, nth_error lcoords c = Some [r; s; t] ->
    exists n, nth_error cell c = Some n /\ forall d, (d < 3)%nat -> coord coords n d = image o u v w r s t d.
Definition det_uvw (u v w : nat -> R) : R :=
  u 0%nat * (v 1%nat * w 2%nat - v 2%nat * w 1%nat)
  - u 1%nat * (v 0%nat * w 2%nat - v 2%nat * w 0%nat)
  + u 2%nat * (v 0%nat * w 1%nat - v 1%nat * w 0%nat).
Definition cube (r s t : R) : Prop := -1 <= r <= 1 /\ -1 <= s <= 1 /\ -1 <= t <= 1.
Definition prism (r s t : R) : Prop := 0 <= r /\ 0 <= s /\ r + s <= 1 /\ -1 <= t <= 1.
Definition open_cube (r s t : R) : Prop := -1 < r < 1 /\ -1 < s < 1 /\ -1 < t < 1.
Definition open_prism (r s t : R) : Prop := 0 < r /\ 0 < s /\ r + s < 1 /\ -1 < t < 1.

(** [q] is the image of a point of the reference shape [S] *)
Definition in_cell (S : R -> R -> R -> Prop) (o u v w q : nat -> R) : Prop :=
  exists r s t, S r s t /\ forall d, (d < 3)%nat -> q d = image o u v w r s t d.

(** an affine map of the reference space: origin and the images of the axes, as lists of
    three numbers; and its composition with the affine map o, u, v, w *)
Definition lmap : Type := list R * list R * list R * list R.
Definition direction (u v w : nat -> R) (V : list R) (d : nat) : R :=
  nth 0 V 0 * u d + nth 1 V 0 * v d + nth 2 V 0 * w d.
Definition mapped_at (lcoords : list (list R)) (coords : list (list R)) (cell : list nat)
    (o u v w : nat -> R) (m : lmap) : Prop :=
  let '(A, U, V, W) := m in
  affine_at lcoords coords cell (fun d => o d + direction u v w A d)
    (direction u v w U) (direction u v w V) (direction u v w W).
Definition in_mapped (S : R -> R -> R -> Prop) (o u v w : nat -> R) (m : lmap) (q : nat -> R) : Prop :=
  let '(A, U, V, W) := m in
  in_cell S (fun d => o d + direction u v w A d) (direction u v w U) (direction u v w V) (direction u v w W) q.

(** the eight octants of the cube [-1,1]^3 *)
Definition half_axes : list R * list R * list R := ([1/2; 0; 0], [0; 1/2; 0], [0; 0; 1/2]).
Definition octant (A : list R) : lmap := let '(U, V, W) := half_axes in (A, U, V, W).
Definition octants : list lmap := map octant
  [[-1/2; -1/2; -1/2]; [1/2; -1/2; -1/2]; [1/2; 1/2; -1/2]; [-1/2; 1/2; -1/2];
   [-1/2; -1/2; 1/2]; [1/2; -1/2; 1/2]; [1/2; 1/2; 1/2]; [-1/2; 1/2; 1/2]].
(** the eight small prisms of the prism over the unit triangle: four triangles in two layers *)
Definition subprisms : list lmap :=
  [([1/2; 0; 1/2], [1/2; 0; 0], [0; 1/2; 0], [0; 0; 1/2]);
   ([0; 1/2; 1/2], [1/2; 0; 0], [0; 1/2; 0], [0; 0; 1/2]);
   ([0; 1/2; 1/2], [1/2; -1/2; 0], [1/2; 0; 0], [0; 0; 1/2]);
   ([0; 0; 1/2], [1/2; 0; 0], [0; 1/2; 0], [0; 0; 1/2]);
   ([1/2; 0; -1/2], [1/2; 0; 0], [0; 1/2; 0], [0; 0; 1/2]);
   ([0; 1/2; -1/2], [1/2; -1/2; 0], [1/2; 0; 0], [0; 0; 1/2]);
   ([0; 1/2; -1/2], [1/2; 0; 0], [0; 1/2; 0], [0; 0; 1/2]);
   ([0; 1/2; -1/2], [0; -1/2; 0], [1/2; -1/2; 0], [0; 0; 1/2])].

(** whenever two tetrahedra of the mesh have a point in common, it belongs to the
    face, edge or node spanned by their common nodes *)
Definition conforming (coords : list (list R)) (t : list (list nat)) : Prop :=
  forall a b p, In a t -> In b t -> in_tet coords a p -> in_tet coords b p ->
    exists l0 l1 l2 l3, barycentric coords a p l0 l1 l2 l3 /\
      forall k l n, nth_error [l0; l1; l2; l3] k = Some l -> nth_error a k = Some n -> l <> 0 -> In n b.
