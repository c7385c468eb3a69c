(** * The functions of tr.py that take a table from the caller *)
From Coq Require Import List Permutation.
From Verif Require Export TrModel SplitModel2 TrSpec.
Import ListNotations.

(** the functions that split cells, with the number of nodes of the pieces *)
Definition splitters {C A} (z : A) : list (nat * (C -> list (list nat) -> data_arg A -> path_arg -> res (C * (list (list nat) * data_arg A)))) :=
  [(3, T6_to_T3 z true); (3, T6_to_T3 z false); (8, H27_to_H8 z true); (8, H27_to_H8 z false); (4, Q9_to_Q4 z);
   (4, H8_to_TET4 z); (10, H27_to_TET10 z); (4, H8_to_Q4 z); (3, Q4_to_T3 z); (3, Q8_to_T3 z); (4, W6_to_TET4 z);
   (6, W18_to_W6 z true); (6, W18_to_W6 z false)].
(** the functions that extract edges, with the number of nodes and edges of the cells *)
Definition edge_functions {C A} : list (nat * nat * (C -> list (list nat) -> data_arg A -> path_arg -> res (C * list (list nat)))) :=
  [(3, 3, T3_to_L2_with); (4, 6, TET4_to_L2_with); (8, 12, H8_to_L2_with)].
(** [es] lists the pairs of nodes the table selects in the cells, each once, whichever end comes first *)
Definition edges_listed (table topo es : list (list nat)) : Prop :=
  (forall e, edge_of table topo e -> exists x, In x es /\ Permutation e x) /\
  (forall x, In x es -> exists e, edge_of table topo e /\ Permutation e x) /\
  (forall i j x y, nth_error es i = Some x -> nth_error es j = Some y -> Permutation x y -> i = j).
(** the tables of the edges of the cells with 3, 4 and 8 nodes *)
Definition usual_edges (w : nat) : list (list nat) :=
  match w with 3 => triangle_edges | 4 => tetrahedron_edges | 8 => hexahedron_edges | _ => [] end.
