(** * Specifications for [NetModel.v] *)
From Coq Require Import Reals List Sorted Permutation.
From Verif Require Export TopoSpec LocSpec NetModel.
Import ListNotations.

(** [b] is one of the neighbours listed for [a] *)
Definition lists_neighbour (rows : list (list nat)) (a b : nat) : Prop := exists r, nth_error rows a = Some r /\ In b r.
(** the lines between neighbours: each pair once, the smaller number first, in order *)
Definition lines_of (rows : list (list nat)) (t : list (list nat)) : Prop :=
  StronglySorted (fun x y => lex_cmp x y = Lt) t /\
  forall l, In l t <-> exists a b, l = [a; b] /\ (a < b)%nat /\ (lists_neighbour rows a b \/ lists_neighbour rows b a).
(** lines that end at the node [n] *)
Definition at_node (n : nat) (l : list nat) : bool := existsb (Nat.eqb n) l.
(** [e] is a side of the triangle [r], side [j] being that of the corners [j] and [j + 1] *)
Definition side_of (r : list nat) (j : nat) (a b : nat) : Prop :=
  (j < 3)%nat /\ nth_error r j = Some a /\ nth_error r (match j with 2 => 0 | _ => S j end) = Some b.
(** the pair of [a] and [b], the smaller number first *)
Definition pair_of (a b : nat) : list nat := [Nat.min a b; Nat.max a b].
(** the edges [e] and the numbers of the sides [ids] of the triangles [topo] *)
Definition edges_of (topo e ids : list (list nat)) : Prop :=
  StronglySorted (fun x y => lex_cmp x y = Lt) e /\
  (forall l, In l e <-> exists r j a b, In r topo /\ side_of r j a b /\ l = pair_of a b) /\
  Forall2 (fun r id => length id = 3 /\ forall j a b, side_of r j a b -> exists k, nth_error id j = Some k /\ nth_error e k = Some (pair_of a b)) topo ids.
(** [n] is the one node that the edges [k] and [k'] have in common *)
Definition common (e : list (list nat)) (k k' n : nat) : Prop :=
  exists l l', nth_error e k = Some l /\ nth_error e k' = Some l' /\ forall m, In m l /\ In m l' <-> m = n.
