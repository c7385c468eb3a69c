(** * Specification vocabulary: numbers in use *)
From Coq Require Import ZArith Permutation.
From Verif Require Export IndexModel.
Local Open Scope Z_scope.

(** Requests of an index manager and the numbers in use: [Get n] asks for [n] numbers, [Put ids] gives numbers back that are in
    use, each once. *)
Inductive request := Get (n : nat) | Put (ids : list Z).
Inductive use : manager * list Z -> request -> manager * list Z -> Prop :=
| use_get m live n g m' : generate n m = (g, m') -> use (m, live) (Get n) (m', live ++ g)
| use_put m live ids live' : Permutation live (ids ++ live') -> use (m, live) (Put ids) (recycle ids m, live').
Inductive uses : manager * list Z -> list request -> manager * list Z -> Prop :=
| uses_none s : uses s [] s
| uses_more s o s1 os s2 : use s o s1 -> uses s1 os s2 -> uses s (o :: os) s2.

(** [n] numbers are asked for while not more than that many wait to be used again, or just one is asked for *)
Definition fits (n : nat) (m : manager) : Prop := n = 1%nat \/ queue m = [] \/ (length (queue m) <= n)%nat.
(** all requests do *)
Inductive fitting : manager * list Z -> list request -> manager * list Z -> Prop :=
| fit_none s : fitting s [] s
| fit_get m live n s1 os s2 : fits n m -> use (m, live) (Get n) s1 -> fitting s1 os s2 -> fitting (m, live) (Get n :: os) s2
| fit_put s ids s1 os s2 : use s (Put ids) s1 -> fitting s1 os s2 -> fitting s (Put ids :: os) s2.

(** no two cells below the same root have the same number *)
Definition unique_cells (s : state) : Prop := forall x y X Y r i j v lx ly,
  root_of s x r -> root_of s y r -> nth_error s x = Some X -> nth_error s y = Some Y -> cids X = Some lx -> cids Y = Some ly ->
  nth_error lx i = Some v -> nth_error ly j = Some v -> x = y /\ i = j.
Definition unique_points (s : state) : Prop := forall x y X Y r i j v lx ly,
  root_of s x r -> root_of s y r -> nth_error s x = Some X -> nth_error s y = Some Y -> pids X = Some lx -> pids Y = Some ly ->
  nth_error lx i = Some v -> nth_error ly j = Some v -> x = y /\ i = j.
Definition childless (s : state) (b : nat) : Prop := forall x X, nth_error s x = Some X -> parent X <> Some b.
(** Histories in which blocks without children are joined and leave, and all requests fit. *)
Inductive careful : state -> list op -> state -> Prop :=
| careful_none s : careful s [] s
| careful_create s np nc os s1 s2 : step s (Create np nc) s1 -> careful s1 os s2 -> careful s (Create np nc :: os) s2
| careful_join s b p os s1 s2 : childless s b -> (forall r R B n, root_of s p r -> nth_error s r = Some R -> nth_error s b = Some B -> ncells B = Some n -> fits n (cim R)) ->
    step s (Join b p) s1 -> careful s1 os s2 -> careful s (Join b p :: os) s2
| careful_leave s b os s1 s2 : childless s b -> step s (Leave b) s1 -> careful s1 os s2 -> careful s (Leave b :: os) s2.
