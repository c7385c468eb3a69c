(** * Specifications for [KindModel.v] *)
From Coq Require Import Reals String List.
From Verif Require Export GridSpec SplitSpec ClassModel FieldSpec KindModel.
Import ListNotations.
Local Open Scope R_scope.
Local Open Scope string_scope.

(** the number of nodes, and of dimensions, of a class of cells *)
Definition nodes_of (k : kind) : nat := e_nodes (element_of k).
Definition dim_of (k : kind) : nat := e_dim (element_of k).
(** every cell has [n] nodes, and there is one *)
Definition of_width (n : nat) (topo : list (list nat)) : Prop := topo <> [] /\ rect n topo.
(** the tables hold the points with the given rows of coordinates, in the frame [f], and the cells: points of space as places of the standard
    frame, points of the plane as they are if there is no frame, with a zero along the new axis if there is one *)
Definition holds_mesh (f : option frame) (newaxis : nat) (coords : list (list R)) (topo : list (list nat)) (tp tc : table) : Prop :=
  lookup tc "_nodes" = Some (Nodes topo) /\
  ((exists x y, map components x = coords /\ same_places (frame_or_standard f) x standard y /\ lookup tp "_x" = Some (Space y)) \/
   (exists l, map components_2 l = coords /\
      match f with
      | None => lookup tp "_x" = Some (Plane l)
      | Some g => exists z y, Forall2 (embedded newaxis) l z /\ same_places g z standard y /\ lookup tp "_x" = Some (Space y)
      end)).
(** the names of grids of a class *)
Definition grid_name (k : kind) : option string :=
  match k with KQ4 => Some "Q4" | KQ9 => Some "Q9" | KH8 => Some "H8" | KH27 => Some "H27" | _ => None end.
