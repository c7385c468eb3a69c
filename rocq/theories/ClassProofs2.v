(** * Proofs about [ClassModel.v], part 2: where the calls made before matter, and single points *)
From Coq Require Import Reals List Lia Lra.
From Verif Require Import ShapeProofs4 EvalProofs.
From Verif Require Export ClassProofs.
Import ListNotations.
Local Open Scope R_scope.

Lemma after_generate inv k : k <> KTET4 -> exists C, coefficients inv (element_of k) = Ok C /\
  after_calls inv (element_of k) [Generate true] = Generated C.
Proof.
  intros Hk. destruct (coefficients_exist inv k Hk) as [C HC]. exists C. split; [exact HC|].
  unfold after_calls. cbn [fold_left after_call]. unfold generate. rewrite HC. reflexivity.
Qed.

(** ** C139: differences *)
Lemma default_number : forall inv k pts N,
  N = None \/ N = Some 0%nat -> inverts inv k -> In k [KT3; KT6; KQ4; KQ9] -> rect 2 pts -> pts <> [] ->
  let e := element_of k in
  exists M1 M2, fst (class_matrix inv e (after_calls inv e []) Floating (P2 pts) N) = Ok M1 /\ Forall (fun M => length M = 2%nat) M1 /\
    fst (class_matrix inv e (after_calls inv e [Generate true]) Floating (P2 pts) N) = Ok M2 /\ Forall (fun M => length M = 3%nat) M2.
Proof.
  intros inv k pts N HN Hi Hk Hr Hn e.
  assert (Hd : dim_of k = 2%nat) by (destruct Hk as [<-|[<-|[<-|[<-|[]]]]]; reflexivity).
  assert (Hk2 : k <> KL2 /\ k <> KH8 /\ k <> KTET4) by (destruct Hk as [<-|[<-|[<-|[<-|[]]]]]; repeat split; discriminate).
  destruct Hk2 as [K1 [K2 K3]].
  destruct (matrices_after inv k [] pts 1 Hi K1 ltac:(intros; contradiction) ltac:(rewrite Hd; exact Hr) Hn) as [M1 [E1 F1]].
  destruct (matrices_after inv k [Generate true] pts 2 Hi K1 ltac:(intros; contradiction) ltac:(rewrite Hd; exact Hr) Hn) as [M2 [E2 F2]].
  exists M1, M2. split; [|split; [|split]].
  - rewrite <- E1. destruct HN as [-> | ->]; destruct Hk as [<-|[<-|[<-|[<-|[]]]]]; reflexivity.
  - clear - F1. induction F1 as [|? ? ? ? H]; constructor; auto. exact (proj1 H).
  - rewrite <- E2. unfold e. destruct (after_generate inv k K3) as [C [_ ->]]. destruct HN as [-> | ->]; reflexivity.
  - clear - F2. induction F2 as [|? ? ? ? H]; constructor; auto. exact (proj1 H).
Qed.
Lemma number_H8 : forall inv pts n, inverts inv KH8 -> rect 3 pts -> pts <> [] -> n <> 2%nat ->
  let e := element_of KH8 in
  fst (class_matrix inv e (after_calls inv e []) Floating (P2 pts) (Some (S n))) = Err ValueError /\
  exists Ms, fst (class_matrix inv e (after_calls inv e [Generate true]) Floating (P2 pts) (Some (S n))) = Ok Ms /\
    Forall2 (interpolation_matrix 8 (S n) (shape_of KH8)) pts Ms.
Proof.
  intros inv pts n Hi Hr Hn H2 e. split.
  - destruct pts as [|p pts]; [contradiction|]. unfold class_matrix, method, prepare, after_calls, e.
    cbn [fold_left element_of e_formulas allow_one fst dispatch f_ndof formula_matrix]. unfold formula_matrix.
    change (formula_points _ (P2 (p :: pts))) with (@Ok (list (list R)) (p :: pts)). cbn [bind mapM f_shpm].
    rewrite matrix_H8_fails; [reflexivity|exact (Forall_inv Hr)|lia].
  - destruct (after_generate inv KH8 ltac:(discriminate)) as [C [HC E]]. unfold e. rewrite E. unfold class_matrix. cbv zeta. cbn [allow_one].
    change (fst (method inv (element_of KH8) (Generated C) _ _)) with (generated_matrix (element_of KH8) C (P2 pts) (S n)).
    unfold generated_matrix. rewrite (generated_points_ok KH8) by auto. cbn [bind].
    destruct (generated_ok inv KH8 C Hi HC) as [G1 _]. apply mapM_exists. intros p Hp. pose proof (rect_in _ _ _ Hr Hp) as Hl.
    apply (interpolation_from KH8 (S n) (gen_shp C (e_monoms (element_of KH8)))
      (fun r nd => shape_function_matrix_ 8 nd (gen_shp C (e_monoms (element_of KH8))) r nd)); [exact G1| |exact Hl].
    apply matrix_interpolates. intros q Hq. exists (shape_of KH8 q). split; [apply G1, Hq|]. apply (shape_length KH8), Hq.
Qed.
Lemma integers_before_after : forall inv, inverts inv KQ4 ->
  let e := element_of KQ4 in
  fst (class_values inv e (after_calls inv e []) Integral (P2 [[0; 0]])) = Ok [[0; 0; 0; 0]] /\
  fst (class_values inv e (after_calls inv e [Generate true]) Integral (P2 [[0; 0]])) = Ok [[1 / 4; 1 / 4; 1 / 4; 1 / 4]].
Proof.
  intros inv Hi e. split.
  - unfold class_values, method, prepare, after_calls, e. cbn [fold_left element_of e_formulas allow_one fst dispatch].
    unfold formula_values, shp_multi, shp_Q4. cbn [e_dim formula_points bind f_shp mapM map store]. numR. do 2 f_equal.
    assert (Q : forall x, x = 1 / 4 -> truncate x = 0) by (intros x ->; apply truncate_small; lra).
    rewrite !Q by lra. reflexivity.
  - destruct (after_generate inv KQ4 ltac:(discriminate)) as [C [HC E]]. unfold e. rewrite E. unfold class_values. cbv zeta. cbn [allow_one].
    change (fst (method inv (element_of KQ4) (Generated C) _ _)) with (generated_values (element_of KQ4) C (P2 [[0; 0]])).
    unfold generated_values. rewrite (generated_points_ok KQ4); [|repeat constructor|discriminate]. cbn [bind mapM].
    destruct (generated_ok inv KQ4 C Hi HC) as [G1 _]. rewrite G1 by reflexivity. cbn [bind]. do 2 f_equal.
    unfold shape_of, values, shp_Q4. numR. repeat (f_equal; try lra).
Qed.
Lemma lines_before_after : forall inv x xs,
  let e := element_of KL2 in
  fst (class_values inv e (after_calls inv e []) Floating (P1 (x :: xs))) = Ok (map (fun r => [(1 - r) / 2; (1 + r) / 2]) (x :: xs)) /\
  fst (class_values inv e (after_calls inv e [Generate true]) Floating (P1 (x :: xs))) = Err TypeError.
Proof.
  intros inv x xs e. split.
  - unfold class_values, method, prepare, after_calls, e. cbn [fold_left element_of e_formulas allow_one e_dim Nat.eqb fst dispatch]. unfold formula_values.
    cbn [e_dim formula_points bind f_shp]. change (shape_function_values shp_L2 Floating (map (fun r => [r]) (x :: xs)) = Ok (map (fun r => [(1 - r) / 2; (1 + r) / 2]) (x :: xs))).
    rewrite values_floating. rewrite ShapeProofs2.mapM_map_compose. apply mapM_all. intros r _. reflexivity.
  - destruct (after_generate inv KL2 ltac:(discriminate)) as [C [HC E]]. unfold e. rewrite E. reflexivity.
Qed.
Lemma lines_two_dimensions : forall inv rows,
  let e := element_of KL2 in
  rect 1 rows -> rows <> [] -> inverts inv KL2 ->
  fst (class_values inv e (after_calls inv e []) Floating (P2 rows)) = Err TypeError /\
  fst (class_values inv e (after_calls inv e [Generate true]) Floating (P2 rows)) = Ok (map (shape_of KL2) rows).
Proof.
  intros inv rows e Hr Hn Hi. split; [reflexivity|].
  destruct (after_generate inv KL2 ltac:(discriminate)) as [C [HC E]]. unfold e. rewrite E. unfold class_values. cbv zeta. cbn [allow_one].
  change (fst (method inv (element_of KL2) (Generated C) _ _)) with (generated_values (element_of KL2) C (P2 rows)).
  unfold generated_values. rewrite (generated_points_ok KL2) by auto. cbn [bind]. apply mapM_all. intros p Hp.
  apply (generated_ok inv KL2 C Hi HC). apply (rect_in _ _ _ Hr Hp).
Qed.
Lemma derivatives_of_lines : forall inv x xs,
  let e := element_of KL2 in
  fst (class_derivatives inv e (after_calls inv e []) Floating (P1 (x :: xs))) = Ok (D2 (map (fun _ => [-1 / 2; 1 / 2]) (x :: xs))).
Proof.
  intros inv x xs e. unfold class_derivatives, method, prepare, after_calls, e. cbn [fold_left element_of e_formulas allow_one e_dim Nat.eqb fst dispatch]. unfold formula_derivatives.
  cbn [f_constant any_points bind f_dshp e_dim Nat.eqb]. change (dshp_multi dshp_L2 Floating) with (shape_function_derivatives dshp_L2 Floating).
  rewrite derivatives_floating, ShapeProofs2.mapM_map_compose. rewrite (mapM_all _ (fun _ => [[-1 / 2]; [1 / 2]])); [|intros; reflexivity].
  cbn [bind]. do 2 f_equal. rewrite map_map. reflexivity.
Qed.
Lemma no_points : forall inv k, has_formulas k = true -> k <> KL2 -> k <> KTET4 ->
  let e := element_of k in
  fst (class_values inv e (after_calls inv e []) Floating (P2 [])) = Ok [] /\
  fst (class_values inv e (after_calls inv e [Generate true]) Floating (P2 [])) = Err ValueError.
Proof.
  intros inv k Hf Hk Ht e. destruct (after_generate inv k Ht) as [C [HC E]]. unfold e. rewrite E.
  split; [|reflexivity]. destruct k; try discriminate Hf; try contradiction; reflexivity.
Qed.
(** whatever formulas the body of the class names *)
Lemma formulas_replaced : forall inv d n lcoords monoms f C dt p,
  let e := {| e_dim := d; e_nodes := n; e_lcoords := lcoords; e_monoms := monoms; e_formulas := f |} in
  fst (generate inv e true AsDefined) = Ok C ->
  forall f', let e' := {| e_dim := d; e_nodes := n; e_lcoords := lcoords; e_monoms := monoms; e_formulas := f' |} in
  fst (class_values inv e (after_calls inv e [Generate true]) dt p) = fst (class_values inv e' (after_calls inv e' [Generate true]) dt p) /\
  fst (class_derivatives inv e (after_calls inv e [Generate true]) dt p) = fst (class_derivatives inv e' (after_calls inv e' [Generate true]) dt p) /\
  (forall N, fst (class_matrix inv e (after_calls inv e [Generate true]) dt p N) = fst (class_matrix inv e' (after_calls inv e' [Generate true]) dt p N)).
Proof.
  intros inv d n lcoords monoms f C dt p e HC f' e'.
  assert (E : coefficients inv e = Ok C) by (unfold generate in HC; destruct (coefficients inv e); [exact HC|discriminate]).
  assert (E' : coefficients inv e' = Ok C) by exact E.
  assert (G : after_calls inv e [Generate true] = Generated C) by (unfold after_calls; cbn [fold_left after_call]; unfold generate; rewrite E; reflexivity).
  assert (G' : after_calls inv e' [Generate true] = Generated C) by (unfold after_calls; cbn [fold_left after_call]; unfold generate; rewrite E'; reflexivity).
  rewrite G, G'. split; [reflexivity|]. split; [reflexivity|]. intros N. reflexivity.
Qed.

(** ** C140: one point *)
Lemma one_point_space : forall inv k st dt p N, dim_of k = 3%nat ->
  let e := element_of k in
  class_values inv e st dt (P1 p) = class_values inv e st dt (P2 [p]) /\
  class_derivatives inv e st dt (P1 p) = class_derivatives inv e st dt (P2 [p]) /\
  class_matrix inv e st dt (P1 p) N = class_matrix inv e st dt (P2 [p]) N.
Proof.
  intros inv k st dt p N Hd e. unfold class_values, class_derivatives, class_matrix, allow_one, e. rewrite element_dim, Hd. cbn [Nat.eqb]. auto.
Qed.
Lemma one_point_values : forall inv k calls p, inverts inv k -> dim_of k = 3%nat -> length p = 3%nat ->
  fst (class_values inv (element_of k) (after_calls inv (element_of k) calls) Floating (P1 p)) = Ok [shape_of k p].
Proof.
  intros inv k calls p Hi Hd Hp. destruct (one_point_space inv k (after_calls inv (element_of k) calls) Floating p None Hd) as [-> _].
  apply (values_after inv k calls [p] Hi); [intros ->; discriminate Hd| |discriminate]. constructor; [lia|constructor].
Qed.
Lemma one_point_plane : forall inv k calls dt r s, dim_of k = 2%nat ->
  fst (class_values inv (element_of k) (after_calls inv (element_of k) calls) dt (P1 [r; s])) = Err TypeError.
Proof.
  intros inv k calls dt r s Hd. unfold class_values. cbv zeta.
  replace (allow_one (element_of k) (P1 [r; s])) with (P1 [r; s]) by (unfold allow_one; rewrite element_dim, Hd; reflexivity).
  destruct (method_cases inv (element_of k) (after_calls inv (element_of k) calls) (fun f => formula_values (element_of k) f dt (P1 [r; s]))
    (fun C => generated_values (element_of k) C (P1 [r; s])) (calls_reachable _ _ _)) as [[fs [F E]]|[[C [F E]]|[F [x G]]]].
  - rewrite E. unfold formula_values. rewrite element_dim, Hd. reflexivity.
  - rewrite E. reflexivity.
  - destruct k; discriminate.
Qed.
Lemma one_point_derivatives : forall inv r s,
  let e := element_of KT3 in
  fst (class_derivatives inv e (after_calls inv e []) Floating (P1 [r; s])) = Ok (D3 [[[-1; -1]; [1; 0]; [0; 1]]; [[-1; -1]; [1; 0]; [0; 1]]]).
Proof. intros inv r s e. reflexivity. Qed.
Lemma nodes_of_L3 : forall inv calls dt,
  fst (class_values inv (element_of KL3) (after_calls inv (element_of KL3) calls) dt (P1 [-1; 0; 1])) = Err TypeError.
Proof.
  intros inv calls dt. unfold class_values. cbv zeta. cbn [allow_one element_of e_dim Nat.eqb].
  destruct (method_cases inv (element_of KL3) (after_calls inv (element_of KL3) calls) (fun f => formula_values (element_of KL3) f dt (P1 [-1; 0; 1]))
    (fun C => generated_values (element_of KL3) C (P1 [-1; 0; 1])) (calls_reachable _ _ _)) as [[fs [F E]]|[[C [F E]]|[F [x G]]]].
  - discriminate F.
  - cbn [element_of] in E. rewrite E. reflexivity.
  - destruct (coefficients_exist inv KL3) as [C HC]; [discriminate|]. cbn [element_of] in HC, G. rewrite HC in G. discriminate.
Qed.
