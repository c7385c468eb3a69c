(** * Properties C139 and C140: the functions of element classes *)
From Coq Require Import Reals List Lia Lra.
From Verif Require Import ShapeProofs4 ClassModel ClassSpec ClassProofs ClassProofs2.
Import ListNotations.
Local Open Scope R_scope.

(** ** C139 What was evaluated before *)

(** After any calls, floating point numbers in an array of two dimensions with at least one point: the values of the shape functions.  Missing: L2, integers, other arrays (refuted below). *)
Theorem C139_values_partial :
  forall inv k calls pts,
  inverts inv k -> k <> KL2 -> rect (dim_of k) pts -> pts <> [] ->
  fst (class_values inv (element_of k) (after_calls inv (element_of k) calls) Floating (P2 pts)) = Ok (map (shape_of k) pts).
Proof. exact @values_after. Qed.
Print Assumptions C139_values_partial.
(** The same for the derivatives. *)
Theorem C139_derivatives_partial :
  forall inv k calls pts,
  inverts inv k -> k <> KL2 -> rect (dim_of k) pts -> pts <> [] ->
  exists Ds, fst (class_derivatives inv (element_of k) (after_calls inv (element_of k) calls) Floating (P2 pts)) = Ok (D3 Ds) /\
    Forall2 (gradients_at (dim_of k) (nodes_of k) (shape_of k)) pts Ds.
Proof. exact @derivatives_after. Qed.
Print Assumptions C139_derivatives_partial.
(** The same for the matrices if the number of unknowns is given; of H8 it must be three. *)
Theorem C139_matrix_partial :
  forall inv k calls pts n,
  inverts inv k -> k <> KL2 -> (k = KH8 -> n = 2%nat) -> rect (dim_of k) pts -> pts <> [] ->
  exists Ms, fst (class_matrix inv (element_of k) (after_calls inv (element_of k) calls) Floating (P2 pts) (Some (S n))) = Ok Ms /\
    Forall2 (interpolation_matrix (nodes_of k) (S n) (shape_of k)) pts Ms.
Proof. exact @matrices_after. Qed.
Print Assumptions C139_matrix_partial.
(** If it is not given, or given as zero, there are two unknowns per node before functions have been generated and three afterwards. *)
Theorem C139_default_refuted :
  forall inv k pts N,
  N = None \/ N = Some 0%nat -> inverts inv k -> In k [KT3; KT6; KQ4; KQ9] -> rect 2 pts -> pts <> [] ->
  let e := element_of k in
  exists M1 M2, fst (class_matrix inv e (after_calls inv e []) Floating (P2 pts) N) = Ok M1 /\ Forall (fun M => length M = 2%nat) M1 /\
    fst (class_matrix inv e (after_calls inv e [Generate true]) Floating (P2 pts) N) = Ok M2 /\ Forall (fun M => length M = 3%nat) M2.
Proof. exact @default_number. Qed.
Print Assumptions C139_default_refuted.
(** H8 with another number than three: an error before, the matrices afterwards. *)
Theorem C139_number_refuted :
  forall inv pts n, inverts inv KH8 -> rect 3 pts -> pts <> [] -> n <> 2%nat ->
  let e := element_of KH8 in
  fst (class_matrix inv e (after_calls inv e []) Floating (P2 pts) (Some (S n))) = Err ValueError /\
  exists Ms, fst (class_matrix inv e (after_calls inv e [Generate true]) Floating (P2 pts) (Some (S n))) = Ok Ms /\
    Forall2 (interpolation_matrix 8 (S n) (shape_of KH8)) pts Ms.
Proof. exact @number_H8. Qed.
Print Assumptions C139_number_refuted.
(** Integers: truncated values before, the values afterwards. *)
Theorem C139_integer_refuted :
  forall inv, inverts inv KQ4 ->
  let e := element_of KQ4 in
  fst (class_values inv e (after_calls inv e []) Integral (P2 [[0; 0]])) = Ok [[0; 0; 0; 0]] /\
  fst (class_values inv e (after_calls inv e [Generate true]) Integral (P2 [[0; 0]])) = Ok [[1 / 4; 1 / 4; 1 / 4; 1 / 4]].
Proof. exact @integers_before_after. Qed.
Print Assumptions C139_integer_refuted.
(** L2 takes an array of one dimension before and rejects it afterwards ... *)
Theorem C139_line_refuted :
  forall inv x xs,
  let e := element_of KL2 in
  fst (class_values inv e (after_calls inv e []) Floating (P1 (x :: xs))) = Ok (map (fun r => [(1 - r) / 2; (1 + r) / 2]) (x :: xs)) /\
  fst (class_values inv e (after_calls inv e [Generate true]) Floating (P1 (x :: xs))) = Err TypeError.
Proof. exact @lines_before_after. Qed.
Print Assumptions C139_line_refuted.
(** ... and the other way round for two dimensions. *)
Theorem C139_line_rows_refuted :
  forall inv rows,
  let e := element_of KL2 in
  rect 1 rows -> rows <> [] -> inverts inv KL2 ->
  fst (class_values inv e (after_calls inv e []) Floating (P2 rows)) = Err TypeError /\
  fst (class_values inv e (after_calls inv e [Generate true]) Floating (P2 rows)) = Ok (map (shape_of KL2) rows).
Proof. exact @lines_two_dimensions. Qed.
Print Assumptions C139_line_rows_refuted.
(** An array of no points is an error afterwards. *)
Theorem C139_empty_refuted :
  forall inv k, has_formulas k = true -> k <> KL2 -> k <> KTET4 ->
  let e := element_of k in
  fst (class_values inv e (after_calls inv e []) Floating (P2 [])) = Ok [] /\
  fst (class_values inv e (after_calls inv e [Generate true]) Floating (P2 [])) = Err ValueError.
Proof. exact @no_points. Qed.
Print Assumptions C139_empty_refuted.
(** Once functions have been generated the methods give the same whatever the formulas are: comparing both, as the tests do after they have called generate_class_functions, says nothing about the formulas. *)
Theorem C139_replaced_refuted :
  forall inv d n lcoords monoms f C dt p,
  let e := {| e_dim := d; e_nodes := n; e_lcoords := lcoords; e_monoms := monoms; e_formulas := f |} in
  fst (generate inv e true AsDefined) = Ok C ->
  forall f', let e' := {| e_dim := d; e_nodes := n; e_lcoords := lcoords; e_monoms := monoms; e_formulas := f' |} in
  fst (class_values inv e (after_calls inv e [Generate true]) dt p) = fst (class_values inv e' (after_calls inv e' [Generate true]) dt p) /\
  fst (class_derivatives inv e (after_calls inv e [Generate true]) dt p) = fst (class_derivatives inv e' (after_calls inv e' [Generate true]) dt p) /\
  (forall N, fst (class_matrix inv e (after_calls inv e [Generate true]) dt p N) = fst (class_matrix inv e' (after_calls inv e' [Generate true]) dt p N)).
Proof. exact @formulas_replaced. Qed.
Print Assumptions C139_replaced_refuted.
Example C139_ex : forall k, exists inv, inverts inv k.
Proof.
  intros k. destruct (kind_eq_TET4 k) as [->|Hk].
  - exists (fun M => M). intros M HM. cbn [element_of e_nodes e_lcoords e_monoms] in HM. rewrite gen_TET4_fails in HM. discriminate.
  - destruct (generates_of k Hk) as [M [HM [[C HC] _]]]. exists (fun _ => C). intros M' HM'. rewrite element_nodes, HM in HM'. injection HM' as <-. exact HC.
Qed.
Example C139_points_ex : rect (dim_of KW6) [[1 / 4; 1 / 4; 0]; [1; 0; 1]] /\ KW6 <> KL2 /\ In KQ4 [KT3; KT6; KQ4; KQ9] /\ has_formulas KQ9 = true.
Proof. repeat split; try discriminate; [repeat constructor|cbn; tauto]. Qed.
Example C139_replaced_ex : exists C, fst (generate (fun _ => inverse_Q4) (element_of KQ4) true AsDefined) = Ok C.
Proof. destruct (coefficients_exist (fun _ => inverse_Q4) KQ4 ltac:(discriminate)) as [C HC]. exists C. unfold generate. rewrite HC. reflexivity. Qed.

(** ** C140 One point *)

(** In three dimensions one point is an array of one point.  Missing: two dimensions and lines (refuted below). *)
Theorem C140_partial :
  forall inv k st dt p N, dim_of k = 3%nat ->
  let e := element_of k in
  class_values inv e st dt (P1 p) = class_values inv e st dt (P2 [p]) /\
  class_derivatives inv e st dt (P1 p) = class_derivatives inv e st dt (P2 [p]) /\
  class_matrix inv e st dt (P1 p) N = class_matrix inv e st dt (P2 [p]) N.
Proof. exact @one_point_space. Qed.
Print Assumptions C140_partial.
(** Its values. *)
Theorem C140_values_partial :
  forall inv k calls p, inverts inv k -> dim_of k = 3%nat -> length p = 3%nat ->
  fst (class_values inv (element_of k) (after_calls inv (element_of k) calls) Floating (P1 p)) = Ok [shape_of k p].
Proof. exact @one_point_values. Qed.
Print Assumptions C140_values_partial.
(** In two dimensions one point is an error. *)
Theorem C140_plane_refuted :
  forall inv k calls dt r s, dim_of k = 2%nat ->
  fst (class_values inv (element_of k) (after_calls inv (element_of k) calls) dt (P1 [r; s])) = Err TypeError.
Proof. exact @one_point_plane. Qed.
Print Assumptions C140_plane_refuted.
(** The derivatives of T3 at one point: two blocks. *)
Theorem C140_derivatives_refuted :
  forall inv r s,
  let e := element_of KT3 in
  fst (class_derivatives inv e (after_calls inv e []) Floating (P1 [r; s])) = Ok (D3 [[[-1; -1]; [1; 0]; [0; 1]]; [[-1; -1]; [1; 0]; [0; 1]]]).
Proof. exact @one_point_derivatives. Qed.
Print Assumptions C140_derivatives_refuted.
(** The derivatives of L2 have two dimensions, not three. *)
Theorem C140_line_refuted :
  forall inv x xs,
  let e := element_of KL2 in
  fst (class_derivatives inv e (after_calls inv e []) Floating (P1 (x :: xs))) = Ok (D2 (map (fun _ => [-1 / 2; 1 / 2]) (x :: xs))).
Proof. exact @derivatives_of_lines. Qed.
Print Assumptions C140_line_refuted.
(** L3 cannot be evaluated at its own nodes, as lcoords gives them. *)
Theorem C140_nodes_refuted :
  forall inv calls dt,
  fst (class_values inv (element_of KL3) (after_calls inv (element_of KL3) calls) dt (P1 [-1; 0; 1])) = Err TypeError.
Proof. exact @nodes_of_L3. Qed.
Print Assumptions C140_nodes_refuted.
Example C140_ex : dim_of KH27 = 3%nat /\ length [1 / 2; 0; -1] = 3%nat /\ dim_of KT6 = 2%nat.
Proof. repeat split. Qed.
Example C140_nodes_ex : concat (e_lcoords (element_of KL3)) = [-1; 0; 1].
Proof. reflexivity. Qed.
