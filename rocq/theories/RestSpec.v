(** * Specifications for [RestModel.v] *)
From Coq Require Import Reals String List.
From Verif Require Export TriSpec TriangSpec.
Import ListNotations.
Local Open Scope R_scope.

(** the signed area of a closed polygon of the plane: for each edge, from [p] to [q], the signed area between the edge and the origin *)
Definition edge_area (p q : list R) : R := (px p * py q - px q * py p) / 2.
Definition quad_area (a b c d : list R) : R := edge_area a b + edge_area b c + edge_area c d + edge_area d a.
(** a cell with four nodes that have at least two coordinates *)
Definition quad_cell (ec : list (list R)) : Prop :=
  exists a b c d, ec = [a; b; c; d] /\ has_dim 2 a /\ has_dim 2 b /\ has_dim 2 c /\ has_dim 2 d.
Definition cell_area (ec : list (list R)) : R := match ec with [a; b; c; d] => quad_area a b c d | _ => 0 end.
(** the square of the area of a parallelogram of space with the sides [b - a] and [d - a] *)
Definition parallelogram_area2 (a b d : list R) : R :=
  sprod (sub b a) (sub b a) * sprod (sub d a) (sub d a) - sprod (sub b a) (sub d a) * sprod (sub b a) (sub d a).
(** the attribute vtkCellType of the element classes (line.py 16, polygon.py 21, 57, 89, 104, polyhedron.py 22, 41, 56, 71, 79, 94) *)
Definition class_types : list nat := [3; 5; 22; 9; 28; 10; 24; 12; 29; 13; 32]%nat.
