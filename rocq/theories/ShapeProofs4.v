(** * Proofs about [CellsModel.v], part 4: generated shape functions of every element *)
From Coq Require Import Reals Lra.
From Verif Require Export ShapeProofs3.
Local Open Scope R_scope.

(** inverses of the monomial matrices *)
Definition inverse_L2 : list (list R) :=
  [[1/2;1/2];
   [(-1)/2;1/2]].
Definition inverse_L3 : list (list R) :=
  [[0;1;0];
   [(-1)/2;0;1/2];
   [1/2;(-1);1/2]].
Definition inverse_T3 : list (list R) :=
  [[1;0;0];
   [(-1);1;0];
   [(-1);0;1]].
Definition inverse_T6 : list (list R) :=
  [[1;0;0;0;0;0];
   [(-3);(-1);0;4;0;0];
   [(-3);0;(-1);0;0;4];
   [2;2;0;(-4);0;0];
   [2;0;2;0;0;(-4)];
   [4;0;0;(-4);4;(-4)]].
Definition inverse_Q4 : list (list R) :=
  [[1/4;1/4;1/4;1/4];
   [(-1)/4;1/4;1/4;(-1)/4];
   [(-1)/4;(-1)/4;1/4;1/4];
   [1/4;(-1)/4;1/4;(-1)/4]].
Definition inverse_Q9 : list (list R) :=
  [[0;0;0;0;0;0;0;0;1];
   [0;0;0;0;0;1/2;0;(-1)/2;0];
   [0;0;0;0;(-1)/2;0;1/2;0;0];
   [1/4;(-1)/4;1/4;(-1)/4;0;0;0;0;0];
   [0;0;0;0;0;1/2;0;1/2;(-1)];
   [0;0;0;0;1/2;0;1/2;0;(-1)];
   [(-1)/4;1/4;1/4;(-1)/4;0;(-1)/2;0;1/2;0];
   [(-1)/4;(-1)/4;1/4;1/4;1/2;0;(-1)/2;0;0];
   [1/4;1/4;1/4;1/4;(-1)/2;(-1)/2;(-1)/2;(-1)/2;1]].
Definition inverse_TET10 : list (list R) :=
  [[1;0;0;0;0;0;0;0;0;0];
   [(-3);(-1);0;0;4;0;0;0;0;0];
   [(-3);0;(-1);0;0;0;4;0;0;0];
   [(-3);0;0;(-1);0;0;0;4;0;0];
   [4;0;0;0;(-4);4;(-4);0;0;0];
   [4;0;0;0;(-4);0;0;(-4);4;0];
   [4;0;0;0;0;0;(-4);(-4);0;4];
   [2;2;0;0;(-4);0;0;0;0;0];
   [2;0;2;0;0;0;(-4);0;0;0];
   [2;0;0;2;0;0;0;(-4);0;0]].
Definition inverse_H8 : list (list R) :=
  [[1/8;1/8;1/8;1/8;1/8;1/8;1/8;1/8];
   [(-1)/8;1/8;1/8;(-1)/8;(-1)/8;1/8;1/8;(-1)/8];
   [(-1)/8;(-1)/8;1/8;1/8;(-1)/8;(-1)/8;1/8;1/8];
   [(-1)/8;(-1)/8;(-1)/8;(-1)/8;1/8;1/8;1/8;1/8];
   [1/8;(-1)/8;1/8;(-1)/8;1/8;(-1)/8;1/8;(-1)/8];
   [1/8;(-1)/8;(-1)/8;1/8;(-1)/8;1/8;1/8;(-1)/8];
   [1/8;1/8;(-1)/8;(-1)/8;(-1)/8;(-1)/8;1/8;1/8];
   [(-1)/8;1/8;(-1)/8;1/8;1/8;(-1)/8;1/8;(-1)/8]].
Definition inverse_H27 : list (list R) :=
  [[0;0;0;0;0;0;0;0;0;0;0;0;0;0;0;0;0;0;0;0;0;0;0;0;0;0;1];
   [0;0;0;0;0;0;0;0;0;0;0;0;0;0;0;0;0;0;0;0;(-1)/2;1/2;0;0;0;0;0];
   [0;0;0;0;0;0;0;0;0;0;0;0;0;0;0;0;0;0;0;0;0;0;(-1)/2;1/2;0;0;0];
   [0;0;0;0;0;0;0;0;0;0;0;0;0;0;0;0;0;0;0;0;0;0;0;0;(-1)/2;1/2;0];
   [0;0;0;0;0;0;0;0;1/4;0;(-1)/4;0;(-1)/4;0;1/4;0;0;0;0;0;0;0;0;0;0;0;0];
   [0;0;0;0;0;0;0;0;0;(-1)/4;0;1/4;0;1/4;0;(-1)/4;0;0;0;0;0;0;0;0;0;0;0];
   [0;0;0;0;0;0;0;0;0;0;0;0;0;0;0;0;1/4;(-1)/4;1/4;(-1)/4;0;0;0;0;0;0;0];
   [(-1)/8;1/8;(-1)/8;1/8;1/8;(-1)/8;1/8;(-1)/8;0;0;0;0;0;0;0;0;0;0;0;0;0;0;0;0;0;0;0];
   [0;0;0;0;0;0;0;0;0;0;0;0;0;0;0;0;0;0;0;0;1/2;1/2;0;0;0;0;(-1)];
   [0;0;0;0;0;0;0;0;0;0;0;0;0;0;0;0;0;0;0;0;0;0;1/2;1/2;0;0;(-1)];
   [0;0;0;0;0;0;0;0;0;0;0;0;0;0;0;0;0;0;0;0;0;0;0;0;1/2;1/2;(-1)];
   [0;0;0;0;0;0;0;0;0;0;0;0;0;0;0;0;(-1)/4;(-1)/4;1/4;1/4;0;0;1/2;(-1)/2;0;0;0];
   [0;0;0;0;0;0;0;0;0;0;0;0;0;0;0;0;(-1)/4;1/4;1/4;(-1)/4;1/2;(-1)/2;0;0;0;0;0];
   [0;0;0;0;0;0;0;0;0;1/4;0;(-1)/4;0;1/4;0;(-1)/4;0;0;0;0;1/2;(-1)/2;0;0;0;0;0];
   [0;0;0;0;0;0;0;0;0;(-1)/4;0;(-1)/4;0;1/4;0;1/4;0;0;0;0;0;0;0;0;1/2;(-1)/2;0];
   [0;0;0;0;0;0;0;0;(-1)/4;0;(-1)/4;0;1/4;0;1/4;0;0;0;0;0;0;0;0;0;1/2;(-1)/2;0];
   [0;0;0;0;0;0;0;0;(-1)/4;0;1/4;0;(-1)/4;0;1/4;0;0;0;0;0;0;0;1/2;(-1)/2;0;0;0];
   [1/8;1/8;(-1)/8;(-1)/8;(-1)/8;(-1)/8;1/8;1/8;(-1)/4;0;1/4;0;1/4;0;(-1)/4;0;0;0;0;0;0;0;0;0;0;0;0];
   [1/8;(-1)/8;(-1)/8;1/8;(-1)/8;1/8;1/8;(-1)/8;0;1/4;0;(-1)/4;0;(-1)/4;0;1/4;0;0;0;0;0;0;0;0;0;0;0];
   [1/8;(-1)/8;1/8;(-1)/8;1/8;(-1)/8;1/8;(-1)/8;0;0;0;0;0;0;0;0;(-1)/4;1/4;(-1)/4;1/4;0;0;0;0;0;0;0];
   [0;0;0;0;0;0;0;0;0;0;0;0;0;0;0;0;1/4;1/4;1/4;1/4;(-1)/2;(-1)/2;(-1)/2;(-1)/2;0;0;1];
   [0;0;0;0;0;0;0;0;1/4;0;1/4;0;1/4;0;1/4;0;0;0;0;0;0;0;(-1)/2;(-1)/2;(-1)/2;(-1)/2;1];
   [0;0;0;0;0;0;0;0;0;1/4;0;1/4;0;1/4;0;1/4;0;0;0;0;(-1)/2;(-1)/2;0;0;(-1)/2;(-1)/2;1];
   [1/8;1/8;1/8;1/8;1/8;1/8;1/8;1/8;(-1)/4;(-1)/4;(-1)/4;(-1)/4;(-1)/4;(-1)/4;(-1)/4;(-1)/4;(-1)/4;(-1)/4;(-1)/4;(-1)/4;1/2;1/2;1/2;1/2;1/2;1/2;(-1)];
   [(-1)/8;(-1)/8;(-1)/8;(-1)/8;1/8;1/8;1/8;1/8;1/4;1/4;1/4;1/4;(-1)/4;(-1)/4;(-1)/4;(-1)/4;0;0;0;0;0;0;0;0;(-1)/2;1/2;0];
   [(-1)/8;(-1)/8;1/8;1/8;(-1)/8;(-1)/8;1/8;1/8;1/4;0;(-1)/4;0;1/4;0;(-1)/4;0;1/4;1/4;(-1)/4;(-1)/4;0;0;(-1)/2;1/2;0;0;0];
   [(-1)/8;1/8;1/8;(-1)/8;(-1)/8;1/8;1/8;(-1)/8;0;(-1)/4;0;1/4;0;(-1)/4;0;1/4;1/4;(-1)/4;(-1)/4;1/4;(-1)/2;1/2;0;0;0;0;0]].
Definition inverse_W6 : list (list R) :=
  [[1/2;0;0;1/2;0;0];
   [(-1)/2;1/2;0;(-1)/2;1/2;0];
   [(-1)/2;0;1/2;(-1)/2;0;1/2];
   [(-1)/2;0;0;1/2;0;0];
   [1/2;(-1)/2;0;(-1)/2;1/2;0];
   [1/2;0;(-1)/2;(-1)/2;0;1/2]].
Definition inverse_W18 : list (list R) :=
  [[0;0;0;0;0;0;0;0;0;0;0;0;1;0;0;0;0;0];
   [0;0;0;0;0;0;0;0;0;0;0;0;(-3);(-1);0;4;0;0];
   [0;0;0;0;0;0;0;0;0;0;0;0;(-3);0;(-1);0;0;4];
   [0;0;0;0;0;0;0;0;0;0;0;0;2;2;0;(-4);0;0];
   [0;0;0;0;0;0;0;0;0;0;0;0;2;0;2;0;0;(-4)];
   [0;0;0;0;0;0;0;0;0;0;0;0;4;0;0;(-4);4;(-4)];
   [(-1)/2;0;0;1/2;0;0;0;0;0;0;0;0;0;0;0;0;0;0];
   [3/2;1/2;0;(-3)/2;(-1)/2;0;(-2);0;0;2;0;0;0;0;0;0;0;0];
   [3/2;0;1/2;(-3)/2;0;(-1)/2;0;0;(-2);0;0;2;0;0;0;0;0;0];
   [(-1);(-1);0;1;1;0;2;0;0;(-2);0;0;0;0;0;0;0;0];
   [(-1);0;(-1);1;0;1;0;0;2;0;0;(-2);0;0;0;0;0;0];
   [(-2);0;0;2;0;0;2;(-2);2;(-2);2;(-2);0;0;0;0;0;0];
   [1/2;0;0;1/2;0;0;0;0;0;0;0;0;(-1);0;0;0;0;0];
   [(-3)/2;(-1)/2;0;(-3)/2;(-1)/2;0;2;0;0;2;0;0;3;1;0;(-4);0;0];
   [(-3)/2;0;(-1)/2;(-3)/2;0;(-1)/2;0;0;2;0;0;2;3;0;1;0;0;(-4)];
   [1;1;0;1;1;0;(-2);0;0;(-2);0;0;(-2);(-2);0;4;0;0];
   [1;0;1;1;0;1;0;0;(-2);0;0;(-2);(-2);0;(-2);0;0;4];
   [2;0;0;2;0;0;(-2);2;(-2);(-2);2;(-2);(-4);0;0;4;(-4);4]].


Lemma generates_from n dim lcoords monoms shape C0 :
  length monoms = n -> length lcoords = n -> rect dim lcoords -> rect dim monoms -> hd [] monoms = repeat 0%nat dim -> (0 < n)%nat ->
  (forall m, In m monoms -> reproduces dim (fun p => Ok (shape p)) lcoords (monomial m)) ->
  interpolates_nodes (fun p => Ok (shape p)) lcoords ->
  length C0 = n -> rect n C0 ->
  (forall p j, length p = dim -> (j < n)%nat -> dot (map (fun m => monomial m p) monoms) (column C0 j) = nth j (shape p) 0) ->
  generates n dim lcoords monoms shape.
Proof.
  intros Hm Hl Hr Hrm H0 Hn Hrep Hk HC HrC Hc. eexists. split; [apply (gen_matrix_value n dim); auto|]. split.
  - exists C0. apply (inverse_ok n dim lcoords monoms shape); auto. apply (gen_matrix_value n dim); auto.
  - intros C Hinv. split.
    + refine (gen_is_shape n dim lcoords monoms shape _ C Hm Hl Hr H0 Hn Hrep _ Hinv). apply (gen_matrix_value n dim); auto.
    + destruct Hinv as [H1 [H2 _]]. apply gen_differentiates; auto.
Qed.

Lemma reproduces_values dim shp lcoords f :
  reproduces dim shp lcoords f -> reproduces dim (fun p => Ok (values shp p)) lcoords f.
Proof.
  intros H p Hp. destruct (H p Hp) as [N [E HN]]. exists N. unfold values. rewrite E. auto.
Qed.
Lemma nodes_values shp lcoords : interpolates_nodes shp lcoords -> interpolates_nodes (fun p => Ok (values shp p)) lcoords.
Proof. intros H k p Hp. destruct (H k p Hp) as [N [E HN]]. exists N. unfold values. rewrite E. auto. Qed.

Ltac each_of H tac := repeat (destruct H as [<-|H]; [tac|]); destruct H.
Ltac coef_tac :=
  let p := fresh "p" in let j := fresh "j" in let H := fresh in let Hj := fresh in
  intros p j H Hj; list_cases p H;
  unfold dot, column, values;
  unfold polybase_L2, polybase_L3, polybase_T3, polybase_T6, polybase_Q4, polybase_Q9, polybase_TET10, polybase_H8, polybase_H27, polybase_W6, polybase_W18;
  unfold inverse_L2, inverse_L3, inverse_T3, inverse_T6, inverse_Q4, inverse_Q9, inverse_TET10, inverse_H8, inverse_H27, inverse_W6, inverse_W18;
  unfold shape_L3, shape_TET10, shape_W6, shape_W18, shp_L2, shp_T3, shp_T6, shp_Q4, shp_Q9, shp_H8, shp_H27;
  repeat (first [exfalso; lia | destruct j as [|j]; [cbv zeta; unfold monomial; simplR; field|]]).
Ltac side := first [reflexivity | once (repeat constructor) | lia].

Lemma gen_L2 : generates 2 1 lcoords_L2 polybase_L2 (values shp_L2).
Proof.
  apply generates_from with (C0 := inverse_L2); [side..| | |side|side|].
  - intros m Hm. apply reproduces_values. each_of Hm ltac:(apply poly_L2; lia).
  - apply nodes_values, nodes_L2.
  - coef_tac.
Qed.
Lemma gen_T3 : generates 3 2 lcoords_T3 polybase_T3 (values shp_T3).
Proof.
  apply generates_from with (C0 := inverse_T3); [side..| | |side|side|].
  - intros m Hm. apply reproduces_values. each_of Hm ltac:(apply poly_T3; lia).
  - apply nodes_values, nodes_T3.
  - coef_tac.
Qed.
Lemma gen_T6 : generates 6 2 lcoords_T6 polybase_T6 (values shp_T6).
Proof.
  apply generates_from with (C0 := inverse_T6); [side..| | |side|side|].
  - intros m Hm. apply reproduces_values. each_of Hm ltac:(apply poly_T6; lia).
  - apply nodes_values, nodes_T6.
  - coef_tac.
Qed.
Lemma gen_Q4 : generates 4 2 lcoords_Q4 polybase_Q4 (values shp_Q4).
Proof.
  apply generates_from with (C0 := inverse_Q4); [side..| | |side|side|].
  - intros m Hm. apply reproduces_values. each_of Hm ltac:(apply poly_Q4; lia).
  - apply nodes_values, nodes_Q4.
  - coef_tac.
Qed.
Lemma gen_Q9 : generates 9 2 lcoords_Q9 polybase_Q9 (values shp_Q9).
Proof.
  apply generates_from with (C0 := inverse_Q9); [side..| | |side|side|].
  - intros m Hm. apply reproduces_values. each_of Hm ltac:(apply poly_Q9; lia).
  - apply nodes_values, nodes_Q9.
  - coef_tac.
Qed.
Lemma gen_H8 : generates 8 3 lcoords_H8 polybase_H8 (values shp_H8).
Proof.
  apply generates_from with (C0 := inverse_H8); [side..| | |side|side|].
  - intros m Hm. apply reproduces_values. each_of Hm ltac:(apply poly_H8; lia).
  - apply nodes_values, nodes_H8.
  - coef_tac.
Qed.
Lemma gen_H27 : generates 27 3 lcoords_H27 polybase_H27 (values shp_H27).
Proof.
  apply generates_from with (C0 := inverse_H27); [side..| | |side|side|].
  - intros m Hm. apply reproduces_values. each_of Hm ltac:(apply poly_H27; lia).
  - apply nodes_values, nodes_H27.
  - coef_tac.
Qed.

Ltac reproduce_shape :=
  let p := fresh "p" in let H := fresh in
  intros p H; list_cases p H; eexists; split; [reflexivity|]; split; [reflexivity|];
  unfold monomial, lcoords_L3, lcoords_TET10, lcoords_W6, lcoords_W18, shape_L3, shape_TET10, shape_W6, shape_W18;
  cbv zeta; simplR; field.
Ltac node_shape :=
  let k := fresh "k" in let p := fresh "p" in let H := fresh in
  intros k p H;
  repeat (destruct k as [|k];
    [injection H as <-; eexists; split; [reflexivity|]; split; [reflexivity|];
     let j := fresh "j" in let Hj := fresh in intros j Hj;
     simpl in Hj;
     repeat (first [exfalso; lia | destruct j as [|j]; [unfold shape_L3, shape_TET10, shape_W6, shape_W18; cbv zeta; cbn [nth Nat.eqb map]; numR; lra|]])
    |]);
  destruct k; discriminate H.
Lemma poly_L3 a : (a <= 2)%nat -> reproduces 1 (fun p => Ok (shape_L3 p)) lcoords_L3 (monomial [a]).
Proof. intros. upto2 a; try (exfalso; lia); reproduce_shape. Qed.
Lemma nodes_L3 : interpolates_nodes (fun p => Ok (shape_L3 p)) lcoords_L3.
Proof. node_shape. Qed.
Lemma gen_L3 : generates 3 1 lcoords_L3 polybase_L3 shape_L3.
Proof.
  apply generates_from with (C0 := inverse_L3); [side..| | |side|side|].
  - intros m Hm. each_of Hm ltac:(apply poly_L3; lia).
  - apply nodes_L3.
  - coef_tac.
Qed.
Lemma poly_TET10 a b c : (a + b + c <= 2)%nat -> reproduces 3 (fun p => Ok (shape_TET10 p)) lcoords_TET10 (monomial [a; b; c]).
Proof. intros. upto2 a; upto2 b; upto2 c; try (exfalso; lia); reproduce_shape. Qed.
Lemma nodes_TET10 : interpolates_nodes (fun p => Ok (shape_TET10 p)) lcoords_TET10.
Proof. node_shape. Qed.
Lemma gen_TET10 : generates 10 3 lcoords_TET10 polybase_TET10 shape_TET10.
Proof.
  apply generates_from with (C0 := inverse_TET10); [side..| | |side|side|].
  - intros m Hm. each_of Hm ltac:(apply poly_TET10; lia).
  - apply nodes_TET10.
  - coef_tac.
Qed.
Lemma poly_W6 a b c : (a + b <= 1)%nat -> (c <= 1)%nat -> reproduces 3 (fun p => Ok (shape_W6 p)) lcoords_W6 (monomial [a; b; c]).
Proof. intros. upto2 a; upto2 b; upto2 c; try (exfalso; lia); reproduce_shape. Qed.
Lemma nodes_W6 : interpolates_nodes (fun p => Ok (shape_W6 p)) lcoords_W6.
Proof. node_shape. Qed.
Lemma gen_W6 : generates 6 3 lcoords_W6 polybase_W6 shape_W6.
Proof.
  apply generates_from with (C0 := inverse_W6); [side..| | |side|side|].
  - intros m Hm. each_of Hm ltac:(apply poly_W6; lia).
  - apply nodes_W6.
  - coef_tac.
Qed.
Lemma poly_W18 a b c : (a + b <= 2)%nat -> (c <= 2)%nat -> reproduces 3 (fun p => Ok (shape_W18 p)) lcoords_W18 (monomial [a; b; c]).
Proof. intros. upto2 a; upto2 b; upto2 c; try (exfalso; lia); reproduce_shape. Qed.
Lemma nodes_W18 : interpolates_nodes (fun p => Ok (shape_W18 p)) lcoords_W18.
Proof. node_shape. Qed.
Lemma gen_W18 : generates 18 3 lcoords_W18 polybase_W18 shape_W18.
Proof.
  apply generates_from with (C0 := inverse_W18); [side..| | |side|side|].
  - intros m Hm. each_of Hm ltac:(apply poly_W18; lia).
  - apply nodes_W18.
  - coef_tac.
Qed.

Lemma gen_TET4_fails : gen_matrix (K := R) 4 lcoords_TET4 polybase_TET4 = Err ValueError.
Proof. reflexivity. Qed.

Lemma lin_L3 a0 a : length a = 1%nat -> reproduces 1 (fun p => Ok (shape_L3 p)) lcoords_L3 (affine a0 a).
Proof. apply affine_1; [repeat constructor|]. intros; apply poly_L3; lia. Qed.
Lemma lin_TET10 a0 a : length a = 3%nat -> reproduces 3 (fun p => Ok (shape_TET10 p)) lcoords_TET10 (affine a0 a).
Proof. apply affine_3; [repeat constructor|]. intros; apply poly_TET10; lia. Qed.
Lemma lin_W6 a0 a : length a = 3%nat -> reproduces 3 (fun p => Ok (shape_W6 p)) lcoords_W6 (affine a0 a).
Proof. apply affine_3; [repeat constructor|]. intros; apply poly_W6; lia. Qed.
Lemma lin_W18 a0 a : length a = 3%nat -> reproduces 3 (fun p => Ok (shape_W18 p)) lcoords_W18 (affine a0 a).
Proof. apply affine_3; [repeat constructor|]. intros; apply poly_W18; lia. Qed.
