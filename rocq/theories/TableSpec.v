(** * Specification vocabulary: boundaries of cells, VTK numbering *)
From Coq Require Import Reals.
From Verif Require Export SplitSpec ExtrudeSpec TableModel.
Local Open Scope R_scope.

(** ** Boundaries *)

(** the directed sides of a polygon given by its nodes *)
Definition sides (face : list nat) : list (nat * nat) :=
  match face with [] => [] | a :: rest => combine face (rest ++ [a]) end.
(** the face lies on the boundary of the convex hull of the points and its first three nodes are ordered
    counterclockwise when seen from outside: every other point is strictly behind its plane *)
Definition outer_face (points : list (list R)) (face : list nat) : Prop :=
  NoDup face /\
  exists a b c rest, face = a :: b :: c :: rest /\
    forall n, (n < length points)%nat ->
      if in_dec Nat.eq_dec n face then tet_volume points a b c n = 0 else tet_volume points a b c n < 0.
(** a closed oriented surface: no side is used twice in the same direction, each is used in both *)
Definition closed (faces : list (list nat)) : Prop :=
  NoDup (concat (map sides faces)) /\
  forall a b, In (a, b) (concat (map sides faces)) -> In (b, a) (concat (map sides faces)).
(** the boundary of a convex cell with the given points *)
Definition boundary (points : list (list R)) (faces : list (list nat)) : Prop :=
  (forall f, In f faces -> outer_face points f) /\ closed faces /\
  forall n, (n < length points)%nat -> exists f, In f faces /\ In n f.
(** all sides of the faces, each in one direction *)
Definition edges_of (faces edges : list (list nat)) : Prop :=
  (forall e, In e edges -> length e = 2%nat) /\
  (forall a b, In (a, b) (concat (map sides faces)) <-> In [a; b] edges \/ In [b; a] edges) /\
  NoDup edges /\ forall a b, In [a; b] edges -> ~ In [b; a] edges.
(** the sides of a plane cell, counterclockwise: every other point is strictly on the left *)
Definition boundary_2d (points : list (list R)) (edges : list (list nat)) : Prop :=
  (forall e, In e edges -> exists a b, e = [a; b] /\ a <> b /\
     forall n, (n < length points)%nat ->
       if in_dec Nat.eq_dec n e then polygon_area points [a; b; n] = 0 else 0 < polygon_area points [a; b; n]) /\
  exists ns, NoDup ns /\ edges = map (fun ab => [fst ab; snd ab]) (sides ns) /\
    forall n, (n < length points)%nat -> In n ns.
(** [r] has the rows of the table for every cell *)
Definition table_of (table : list (list nat)) (topo : list (list nat)) (r : res (list (list (list nat)))) : Prop :=
  r = Ok (map (fun cell => map (fun ns => reorder ns cell) table) topo).

(** ** Straight triangles with six nodes *)

(** nodes 3, 4, 5 are the midpoints of 0-1, 1-2, 2-0 *)
Definition straight (points : list (list R)) (cell : list nat) : Prop :=
  exists a b c p q r, cell = [a; b; c; p; q; r] /\
    forall d, (d < 2)%nat ->
      coord points p d = (coord points a d + coord points b d) / 2 /\
      coord points q d = (coord points b d + coord points c d) / 2 /\
      coord points r d = (coord points c d + coord points a d) / 2.

(** ** VTK

    The parametric coordinates of the nodes of the VTK cell types, as VTK's documentation has them
    (vtkLine 3, vtkTriangle 5, vtkQuad 9, vtkTetra 10, vtkHexahedron 12, vtkWedge 13, vtkQuadraticTriangle 22,
    vtkQuadraticTetra 24, vtkBiQuadraticQuad 28, vtkTriQuadraticHexahedron 29, vtkBiQuadraticQuadraticWedge 32).
    The nodes after the corners are the means of the listed corners. *)
Definition means_of (corners : list (list R)) (groups : list (list nat)) : list (list R) :=
  map (fun ns => map (fun d => rsum (map (fun n => coord corners n d) ns) / INR (length ns)) (seq 0 (length (nth 0 corners []))))
      groups.
Definition vtk_line : list (list R) := [[0]; [1]].
Definition vtk_triangle : list (list R) := [[0; 0]; [1; 0]; [0; 1]].
Definition vtk_quad : list (list R) := [[0; 0]; [1; 0]; [1; 1]; [0; 1]].
Definition vtk_tetra : list (list R) := [[0; 0; 0]; [1; 0; 0]; [0; 1; 0]; [0; 0; 1]].
Definition vtk_hexahedron : list (list R) :=
  [[0; 0; 0]; [1; 0; 0]; [1; 1; 0]; [0; 1; 0]; [0; 0; 1]; [1; 0; 1]; [1; 1; 1]; [0; 1; 1]].
Definition vtk_wedge : list (list R) := [[0; 0; 0]; [1; 0; 0]; [0; 1; 0]; [0; 0; 1]; [1; 0; 1]; [0; 1; 1]].
Definition vtk_points (type : nat) : list (list R) :=
  match type with
  | 3 => vtk_line
  | 5 => vtk_triangle
  | 9 => vtk_quad
  | 10 => vtk_tetra
  | 12 => vtk_hexahedron
  | 13 => vtk_wedge
  | 22 => vtk_triangle ++ means_of vtk_triangle [[0;1];[1;2];[2;0]]
  | 24 => vtk_tetra ++ means_of vtk_tetra [[0;1];[1;2];[2;0];[0;3];[1;3];[2;3]]
  | 28 => vtk_quad ++ means_of vtk_quad [[0;1];[1;2];[2;3];[3;0];[0;1;2;3]]
  | 29 => vtk_hexahedron ++ means_of vtk_hexahedron
            [[0;1];[1;2];[2;3];[3;0];[4;5];[5;6];[6;7];[7;4];[0;4];[1;5];[2;6];[3;7];
             [0;3;7;4];[1;2;6;5];[0;1;5;4];[3;2;6;7];[0;1;2;3];[4;5;6;7];[0;1;2;3;4;5;6;7]]
  | 32 => vtk_wedge ++ means_of vtk_wedge
            [[0;1];[1;2];[2;0];[3;4];[4;5];[5;3];[0;3];[1;4];[2;5];[0;1;4;3];[1;2;5;4];[2;0;3;5]]
  | _ => []
  end%nat.
(** the points are images of each other, in the same order, under a scaling of each axis by a positive factor and
    a translation *)
Definition same_numbering (p q : list (list R)) : Prop :=
  length p = length q /\
  exists scale shift : nat -> R, (forall d, 0 < scale d) /\
    forall k x y, nth_error p k = Some x -> nth_error q k = Some y ->
      length x = length y /\ forall d, (d < length x)%nat -> nth d x 0 = scale d * nth d y 0 + shift d.
(** reading the array of cells as VTK does: the number of the nodes, then the nodes *)
Inductive reads : list nat -> list (list nat) -> Prop :=
  | reads_nil : reads [] []
  | reads_cons cell rest cells : reads rest cells -> reads (length cell :: cell ++ rest) (cell :: cells).

(** for every cell in order the pieces listed by the table *)
Definition pieces_along (table : list (list nat)) (topo : list (list nat)) : list (list nat) :=
  flat_map (fun cell => map (fun ns => reorder ns cell) table) topo.
