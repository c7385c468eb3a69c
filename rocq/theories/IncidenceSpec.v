(** * Specifications for [IncidenceModel.v] *)
From Coq Require Import Reals List Sorted.
From Verif Require TrSpec NodalSpec.
From Verif Require Export MeshSpec IncidenceModel.
Import ListNotations.
Local Open Scope nat_scope.

(** the rows of an array; an array with two axes has rows of the same length *)
Definition arg_rows (a : topo_arg) (t : list (list nat)) : Prop :=
  match a with Arr1 r => t = [r] | Arr2 w r => t = r /\ Forall (fun x => length x = w) r | _ => False end.
(** all cells of a mesh, in order of the blocks *)
Definition mesh_rows (m : block) : list (list nat) := concat (map nodes (cell_arrays m)).
(** cells with the same number of nodes *)
Definition same_widths (t : list (list nat)) : Prop := forall r s, In r t -> In s t -> length r = length s.
(** two cells have no place in common *)
Definition apart (p q : list vec) : Prop := forall x, ~ (In x p /\ In x q).
(** the factors are shares in the shape of the cells, in a dense array or a csr matrix, that add up to one at each node *)
Definition fair_shares (t : list (list nat)) (w : list R) (r : NodalModel.factors) : Prop :=
  exists f, NodalSpec.shares t w f /\ NodalSpec.same_factors t f r /\ forall n, used t n -> TrSpec.rsum (NodalSpec.at_node t f n) = 1%R.
