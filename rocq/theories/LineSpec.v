(** * Specification vocabulary: lines *)
From Verif Require Export TrSpec TopoSpec.

(** the first and the last node of a line *)
Definition ends (row : list nat) (a b : nat) : Prop := nth_error row 0 = Some a /\ nth_error row (length row - 1) = Some b.
