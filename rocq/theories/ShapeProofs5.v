(** * Proofs about [CellsModel.v], part 5: monomials and centres *)
From Coq Require Import Reals Lra.
From Verif Require Export ShapeProofs4.
Local Open Scope R_scope.

Ltac monoms_tac :=
  let p := fresh "p" in let H := fresh in
  intros p H; list_cases p H;
  unfold monoms_L2, monoms_L3, monoms_T3, monoms_T6, monoms_Q4, monoms_Q9, monoms_TET4, monoms_TET10, monoms_H8, monoms_H27, monoms_W6, monoms_W18;
  unfold polybase_L2, polybase_L3, polybase_T3, polybase_T6, polybase_Q4, polybase_Q9, polybase_TET4, polybase_TET10, polybase_H8, polybase_H27, polybase_W6, polybase_W18;
  cbn [map]; apply f_equal;
  list_eq ltac:(unfold monomial; simplR; ring).

Ltac center_tac :=
  split; [reflexivity|];
  let d := fresh "d" in let H := fresh in intros d H;
  repeat (first [exfalso; lia | destruct d as [|d]; [
     unfold coord, lcoords_L2, lcenter_L2, lcoords_L3, lcenter_L3, lcoords_T3, lcenter_T3, lcoords_T6, lcenter_T6, lcoords_Q4, lcenter_Q4, lcoords_Q9, lcenter_Q9, lcoords_H8, lcenter_H8, lcoords_H27, lcenter_H27, lcoords_W6, lcenter_W6, lcoords_W18, lcenter_W18;
     cbn [map nth seq length rsum fold_right]; numR; unfold rsum; cbn [fold_right]; cbv [INR]; lra|]]).
Lemma basis_L2 : forall p : list R, length p = 1%nat -> monoms_L2 p = Ok (map (fun e => monomial e p) polybase_L2).
Proof. monoms_tac. Qed.
Lemma basis_L3 : forall p : list R, length p = 1%nat -> monoms_L3 p = Ok (map (fun e => monomial e p) polybase_L3).
Proof. monoms_tac. Qed.
Lemma basis_T3 : forall p : list R, length p = 2%nat -> monoms_T3 p = Ok (map (fun e => monomial e p) polybase_T3).
Proof. monoms_tac. Qed.
Lemma basis_T6 : forall p : list R, length p = 2%nat -> monoms_T6 p = Ok (map (fun e => monomial e p) polybase_T6).
Proof. monoms_tac. Qed.
Lemma basis_Q4 : forall p : list R, length p = 2%nat -> monoms_Q4 p = Ok (map (fun e => monomial e p) polybase_Q4).
Proof. monoms_tac. Qed.
Lemma basis_Q9 : forall p : list R, length p = 2%nat -> monoms_Q9 p = Ok (map (fun e => monomial e p) polybase_Q9).
Proof. monoms_tac. Qed.
Lemma basis_TET4 : forall p : list R, length p = 3%nat -> monoms_TET4 p = Ok (map (fun e => monomial e p) polybase_TET4).
Proof. monoms_tac. Qed.
Lemma basis_TET10 : forall p : list R, length p = 3%nat -> monoms_TET10 p = Ok (map (fun e => monomial e p) polybase_TET10).
Proof. monoms_tac. Qed.
Lemma basis_H8 : forall p : list R, length p = 3%nat -> monoms_H8 p = Ok (map (fun e => monomial e p) polybase_H8).
Proof. monoms_tac. Qed.
Lemma basis_H27 : forall p : list R, length p = 3%nat -> monoms_H27 p = Ok (map (fun e => monomial e p) polybase_H27).
Proof. monoms_tac. Qed.
Lemma basis_W6 : forall p : list R, length p = 3%nat -> monoms_W6 p = Ok (map (fun e => monomial e p) polybase_W6).
Proof. monoms_tac. Qed.
Lemma basis_W18 : forall p : list R, length p = 3%nat -> monoms_W18 p = Ok (map (fun e => monomial e p) polybase_W18).
Proof. monoms_tac. Qed.
Lemma center_L2 : mean_of 1 lcoords_L2 [0;1]%nat lcenter_L2.
Proof. center_tac. Qed.
Lemma center_L3 : mean_of 1 lcoords_L3 [0;2]%nat lcenter_L3.
Proof. center_tac. Qed.
Lemma center_T3 : mean_of 2 lcoords_T3 [0;1;2]%nat lcenter_T3.
Proof. center_tac. Qed.
Lemma center_T6 : mean_of 2 lcoords_T6 [0;1;2]%nat lcenter_T6.
Proof. center_tac. Qed.
Lemma center_Q4 : mean_of 2 lcoords_Q4 [0;1;2;3]%nat lcenter_Q4.
Proof. center_tac. Qed.
Lemma center_Q9 : mean_of 2 lcoords_Q9 [0;1;2;3]%nat lcenter_Q9.
Proof. center_tac. Qed.
Lemma center_H8 : mean_of 3 lcoords_H8 (seq 0 8)%nat lcenter_H8.
Proof. center_tac. Qed.
Lemma center_H27 : mean_of 3 lcoords_H27 (seq 0 8)%nat lcenter_H27.
Proof. center_tac. Qed.
Lemma center_W6 : mean_of 3 lcoords_W6 (seq 0 6)%nat lcenter_W6.
Proof. center_tac. Qed.
Lemma center_W18 : mean_of 3 lcoords_W18 (seq 0 6)%nat lcenter_W18.
Proof. center_tac. Qed.
Lemma center_TET4_wrong : ~ mean_of 3 lcoords_TET4 [0; 1; 2; 3]%nat lcenter_TET4.
Proof. intros [_ H]. specialize (H 0%nat ltac:(lia)). cbn in H. lra. Qed.
Lemma center_TET10_wrong : ~ mean_of 3 lcoords_TET10 [0; 1; 2; 3]%nat lcenter_TET10.
Proof. intros [_ H]. specialize (H 0%nat ltac:(lia)). cbn in H. lra. Qed.
(** the point lies on the face opposite to the first corner *)
Lemma center_TET4_on_face : exists a b c, shp_TET4 lcenter_TET4 = Ok [0; a; b; c].
Proof. do 3 eexists. unfold shp_TET4, lcenter_TET4. apply f_equal, f_equal2; [numR; lra|reflexivity]. Qed.
