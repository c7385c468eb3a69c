(** * Properties C28-C32, C35, C61: reference elements and shape functions *)
From Coq Require Import Reals Lra.
From Verif Require Import ShapeProofs5 EvalProofs.
Local Open Scope R_scope.

(** ** C28 Shape functions interpolate the nodes *)

Theorem C28_L2 : interpolates_nodes shp_L2 lcoords_L2.
Proof. exact nodes_L2. Qed.
Print Assumptions C28_L2.
Theorem C28_T3 : interpolates_nodes shp_T3 lcoords_T3.
Proof. exact nodes_T3. Qed.
Print Assumptions C28_T3.
Theorem C28_T6 : interpolates_nodes shp_T6 lcoords_T6.
Proof. exact nodes_T6. Qed.
Print Assumptions C28_T6.
Theorem C28_Q4 : interpolates_nodes shp_Q4 lcoords_Q4.
Proof. exact nodes_Q4. Qed.
Print Assumptions C28_Q4.
Theorem C28_Q9 : interpolates_nodes shp_Q9 lcoords_Q9.
Proof. exact nodes_Q9. Qed.
Print Assumptions C28_Q9.
Theorem C28_TET4 : interpolates_nodes shp_TET4 lcoords_TET4.
Proof. exact nodes_TET4. Qed.
Print Assumptions C28_TET4.
Theorem C28_H8 : interpolates_nodes shp_H8 lcoords_H8.
Proof. exact nodes_H8. Qed.
Print Assumptions C28_H8.
Theorem C28_H27 : interpolates_nodes shp_H27 lcoords_H27.
Proof. exact nodes_H27. Qed.
Print Assumptions C28_H27.
(** the second node of a triangle *)
Example C28_ex : nth_error (lcoords_T3 (K := R)) 1 = Some [1; 0] /\ shp_T3 [1; 0] = Ok [1 - 1 - 0; 1; 0].
Proof. split; reflexivity. Qed.

(** ** C29 Shape functions form a partition of unity and reproduce linear fields *)

Theorem C29_L2_unity : forall p, length p = 1%nat ->
  exists N, shp_L2 p = Ok N /\ length N = length (lcoords_L2 (K := R)) /\ rsum N = 1.
Proof. exact (unity 1 _ _ (lin_L2 1)). Qed.
Print Assumptions C29_L2_unity.
Theorem C29_T3_unity : forall p, length p = 2%nat ->
  exists N, shp_T3 p = Ok N /\ length N = length (lcoords_T3 (K := R)) /\ rsum N = 1.
Proof. exact (unity 2 _ _ (lin_T3 1)). Qed.
Print Assumptions C29_T3_unity.
Theorem C29_T6_unity : forall p, length p = 2%nat ->
  exists N, shp_T6 p = Ok N /\ length N = length (lcoords_T6 (K := R)) /\ rsum N = 1.
Proof. exact (unity 2 _ _ (lin_T6 1)). Qed.
Print Assumptions C29_T6_unity.
Theorem C29_Q4_unity : forall p, length p = 2%nat ->
  exists N, shp_Q4 p = Ok N /\ length N = length (lcoords_Q4 (K := R)) /\ rsum N = 1.
Proof. exact (unity 2 _ _ (lin_Q4 1)). Qed.
Print Assumptions C29_Q4_unity.
Theorem C29_Q9_unity : forall p, length p = 2%nat ->
  exists N, shp_Q9 p = Ok N /\ length N = length (lcoords_Q9 (K := R)) /\ rsum N = 1.
Proof. exact (unity 2 _ _ (lin_Q9 1)). Qed.
Print Assumptions C29_Q9_unity.
Theorem C29_TET4_unity : forall p, length p = 3%nat ->
  exists N, shp_TET4 p = Ok N /\ length N = length (lcoords_TET4 (K := R)) /\ rsum N = 1.
Proof. exact (unity 3 _ _ (lin_TET4 1)). Qed.
Print Assumptions C29_TET4_unity.
Theorem C29_H8_unity : forall p, length p = 3%nat ->
  exists N, shp_H8 p = Ok N /\ length N = length (lcoords_H8 (K := R)) /\ rsum N = 1.
Proof. exact (unity 3 _ _ (lin_H8 1)). Qed.
Print Assumptions C29_H8_unity.
Theorem C29_H27_unity : forall p, length p = 3%nat ->
  exists N, shp_H27 p = Ok N /\ length N = length (lcoords_H27 (K := R)) /\ rsum N = 1.
Proof. exact (unity 3 _ _ (lin_H27 1)). Qed.
Print Assumptions C29_H27_unity.
Theorem C29_L2_linear a0 a : length a = 1%nat -> reproduces 1 shp_L2 lcoords_L2 (affine a0 a).
Proof. exact (lin_L2 a0 a). Qed.
Print Assumptions C29_L2_linear.
Theorem C29_T3_linear a0 a : length a = 2%nat -> reproduces 2 shp_T3 lcoords_T3 (affine a0 a).
Proof. exact (lin_T3 a0 a). Qed.
Print Assumptions C29_T3_linear.
Theorem C29_T6_linear a0 a : length a = 2%nat -> reproduces 2 shp_T6 lcoords_T6 (affine a0 a).
Proof. exact (lin_T6 a0 a). Qed.
Print Assumptions C29_T6_linear.
Theorem C29_Q4_linear a0 a : length a = 2%nat -> reproduces 2 shp_Q4 lcoords_Q4 (affine a0 a).
Proof. exact (lin_Q4 a0 a). Qed.
Print Assumptions C29_Q4_linear.
Theorem C29_Q9_linear a0 a : length a = 2%nat -> reproduces 2 shp_Q9 lcoords_Q9 (affine a0 a).
Proof. exact (lin_Q9 a0 a). Qed.
Print Assumptions C29_Q9_linear.
Theorem C29_TET4_linear a0 a : length a = 3%nat -> reproduces 3 shp_TET4 lcoords_TET4 (affine a0 a).
Proof. exact (lin_TET4 a0 a). Qed.
Print Assumptions C29_TET4_linear.
Theorem C29_H8_linear a0 a : length a = 3%nat -> reproduces 3 shp_H8 lcoords_H8 (affine a0 a).
Proof. exact (lin_H8 a0 a). Qed.
Print Assumptions C29_H8_linear.
Theorem C29_H27_linear a0 a : length a = 3%nat -> reproduces 3 shp_H27 lcoords_H27 (affine a0 a).
Proof. exact (lin_H27 a0 a). Qed.
Print Assumptions C29_H27_linear.
(** the higher order elements reproduce more than linear fields *)
Theorem C29_T6_polynomials a b : (a + b <= 2)%nat -> reproduces 2 shp_T6 lcoords_T6 (monomial [a; b]).
Proof. exact (poly_T6 a b). Qed.
Print Assumptions C29_T6_polynomials.
Theorem C29_Q4_polynomials a b : (a <= 1)%nat -> (b <= 1)%nat -> reproduces 2 shp_Q4 lcoords_Q4 (monomial [a; b]).
Proof. exact (poly_Q4 a b). Qed.
Print Assumptions C29_Q4_polynomials.
Theorem C29_Q9_polynomials a b : (a <= 2)%nat -> (b <= 2)%nat -> reproduces 2 shp_Q9 lcoords_Q9 (monomial [a; b]).
Proof. exact (poly_Q9 a b). Qed.
Print Assumptions C29_Q9_polynomials.
Theorem C29_H8_polynomials a b c : (a <= 1)%nat -> (b <= 1)%nat -> (c <= 1)%nat -> reproduces 3 shp_H8 lcoords_H8 (monomial [a; b; c]).
Proof. exact (poly_H8 a b c). Qed.
Print Assumptions C29_H8_polynomials.
Theorem C29_H27_polynomials a b c : (a <= 2)%nat -> (b <= 2)%nat -> (c <= 2)%nat -> reproduces 3 shp_H27 lcoords_H27 (monomial [a; b; c]).
Proof. exact (poly_H27 a b c). Qed.
Print Assumptions C29_H27_polynomials.
(** the field 1 + 2 x + 3 y on a quadrilateral *)
Example C29_ex : exists N, shp_Q4 [1 / 2; 1 / 4] = Ok N /\
  rsum (map (fun Nq => fst Nq * affine 1 [2; 3] (snd Nq)) (combine N lcoords_Q4)) = 1 + 2 * (1 / 2) + 3 * (1 / 4).
Proof.
  destruct (C29_Q4_linear 1 [2; 3] eq_refl [1 / 2; 1 / 4] eq_refl) as [N [H [_ E]]]. exists N. split; [exact H|].
  rewrite E. unfold affine. simpl. unfold rsum. simpl. lra.
Qed.

(** ** C30 Shape function derivatives are the derivatives *)

Theorem C30_L2 : differentiates 1 2 shp_L2 dshp_L2.
Proof. exact diff_L2. Qed.
Print Assumptions C30_L2.
Theorem C30_T3 : differentiates 2 3 shp_T3 dshp_T3.
Proof. exact diff_T3. Qed.
Print Assumptions C30_T3.
Theorem C30_T6 : differentiates 2 6 shp_T6 dshp_T6.
Proof. exact diff_T6. Qed.
Print Assumptions C30_T6.
Theorem C30_Q4 : differentiates 2 4 shp_Q4 dshp_Q4.
Proof. exact diff_Q4. Qed.
Print Assumptions C30_Q4.
Theorem C30_Q9 : differentiates 2 9 shp_Q9 dshp_Q9.
Proof. exact diff_Q9. Qed.
Print Assumptions C30_Q9.
Theorem C30_TET4 : differentiates 3 4 shp_TET4 dshp_TET4.
Proof. exact diff_TET4. Qed.
Print Assumptions C30_TET4.
Theorem C30_H8 : differentiates 3 8 shp_H8 dshp_H8.
Proof. exact diff_H8. Qed.
Print Assumptions C30_H8.
Theorem C30_H27 : differentiates 3 27 shp_H27 dshp_H27.
Proof. exact diff_H27. Qed.
Print Assumptions C30_H27.
Theorem C30_L2_cancel : derivatives_cancel 1 dshp_L2.
Proof. exact cancel_L2. Qed.
Print Assumptions C30_L2_cancel.
Theorem C30_T3_cancel : derivatives_cancel 2 dshp_T3.
Proof. exact cancel_T3. Qed.
Print Assumptions C30_T3_cancel.
Theorem C30_T6_cancel : derivatives_cancel 2 dshp_T6.
Proof. exact cancel_T6. Qed.
Print Assumptions C30_T6_cancel.
Theorem C30_Q4_cancel : derivatives_cancel 2 dshp_Q4.
Proof. exact cancel_Q4. Qed.
Print Assumptions C30_Q4_cancel.
Theorem C30_Q9_cancel : derivatives_cancel 2 dshp_Q9.
Proof. exact cancel_Q9. Qed.
Print Assumptions C30_Q9_cancel.
Theorem C30_TET4_cancel : derivatives_cancel 3 dshp_TET4.
Proof. exact cancel_TET4. Qed.
Print Assumptions C30_TET4_cancel.
Theorem C30_H8_cancel : derivatives_cancel 3 dshp_H8.
Proof. exact cancel_H8. Qed.
Print Assumptions C30_H8_cancel.
Theorem C30_H27_cancel : derivatives_cancel 3 dshp_H27.
Proof. exact cancel_H27. Qed.
Print Assumptions C30_H27_cancel.
Example C30_ex : exists D, dshp_Q4 [1; 2] = Ok D /\ derivable_pt_lim (along shp_Q4 [1; 2] 0 0) 1 (nth 0 (nth 0 D []) 0)
  /\ along shp_Q4 [1; 2] 0 0 3 = 1 / 4 * (1 - 3) * (1 - 2).
Proof.
  destruct (C30_Q4 [1; 2] eq_refl) as [D [H [_ [_ HD]]]]. exists D. split; [exact H|]. split; [|reflexivity].
  apply (HD 0%nat 0%nat); lia.
Qed.

(** ** C31 Shape function matrices interpolate vector fields *)

Theorem C31_L2 ndof : interpolates_vectors 1 2 ndof shp_L2 shape_function_matrix_L2.
Proof. exact (matrix_L2 ndof). Qed.
Print Assumptions C31_L2.
Theorem C31_T3 ndof : interpolates_vectors 2 3 ndof shp_T3 shape_function_matrix_T3.
Proof. exact (matrix_T3 ndof). Qed.
Print Assumptions C31_T3.
Theorem C31_T6 ndof : interpolates_vectors 2 6 ndof shp_T6 shape_function_matrix_T6.
Proof. exact (matrix_T6 ndof). Qed.
Print Assumptions C31_T6.
Theorem C31_Q4 ndof : interpolates_vectors 2 4 ndof shp_Q4 shape_function_matrix_Q4.
Proof. exact (matrix_Q4 ndof). Qed.
Print Assumptions C31_Q4.
Theorem C31_Q9 ndof : interpolates_vectors 2 9 ndof shp_Q9 shape_function_matrix_Q9.
Proof. exact (matrix_Q9 ndof). Qed.
Print Assumptions C31_Q9.
Theorem C31_TET4 ndof : interpolates_vectors 3 4 ndof shp_TET4 shape_function_matrix_TET4.
Proof. exact (matrix_TET4 ndof). Qed.
Print Assumptions C31_TET4.
Theorem C31_H27 ndof : interpolates_vectors 3 27 ndof shp_H27 shape_function_matrix_H27.
Proof. exact (matrix_H27 ndof). Qed.
Print Assumptions C31_H27.
(** [shape_function_matrix_H8] builds a unit matrix of size 3 whatever [ndof] is. *)
Theorem C31_H8_partial : interpolates_vectors 3 8 3 shp_H8 shape_function_matrix_H8.
Proof. exact matrix_H8. Qed.
Print Assumptions C31_H8_partial.
Theorem C31_H8_refuted p ndof : length p = 3%nat -> ndof <> 3%nat ->
  shape_function_matrix_H8 (K := R) p ndof = Err ValueError.
Proof. exact (matrix_H8_fails p ndof). Qed.
Print Assumptions C31_H8_refuted.
Example C31_ex : shape_function_matrix_T3 (K := R) [0; 1] 2 =
  Ok [[1 * (1 - 0 - 1); 0 * (1 - 0 - 1); 1 * 0; 0 * 0; 1 * 1; 0 * 1]; [0 * (1 - 0 - 1); 1 * (1 - 0 - 1); 0 * 0; 1 * 0; 0 * 1; 1 * 1]].
Proof. reflexivity. Qed.
Example C31_ex_H8 : shape_function_matrix_H8 (K := R) [0; 0; 0] 1 = Err ValueError.
Proof. apply C31_H8_refuted; [reflexivity|lia]. Qed.

(** ** C32 Generated shape functions are the interpolation basis *)

(** elements without built in formulas *)
Theorem C32_L3 : generates 3 1 lcoords_L3 polybase_L3 shape_L3.
Proof. exact gen_L3. Qed.
Print Assumptions C32_L3.
Theorem C32_TET10 : generates 10 3 lcoords_TET10 polybase_TET10 shape_TET10.
Proof. exact gen_TET10. Qed.
Print Assumptions C32_TET10.
Theorem C32_W6 : generates 6 3 lcoords_W6 polybase_W6 shape_W6.
Proof. exact gen_W6. Qed.
Print Assumptions C32_W6.
Theorem C32_W18 : generates 18 3 lcoords_W18 polybase_W18 shape_W18.
Proof. exact gen_W18. Qed.
Print Assumptions C32_W18.
(** the closed formulas named above interpolate the nodes and reproduce linear fields *)
Theorem C32_L3_nodes : interpolates_nodes (fun p => Ok (shape_L3 p)) lcoords_L3.
Proof. exact nodes_L3. Qed.
Print Assumptions C32_L3_nodes.
Theorem C32_TET10_nodes : interpolates_nodes (fun p => Ok (shape_TET10 p)) lcoords_TET10.
Proof. exact nodes_TET10. Qed.
Print Assumptions C32_TET10_nodes.
Theorem C32_W6_nodes : interpolates_nodes (fun p => Ok (shape_W6 p)) lcoords_W6.
Proof. exact nodes_W6. Qed.
Print Assumptions C32_W6_nodes.
Theorem C32_W18_nodes : interpolates_nodes (fun p => Ok (shape_W18 p)) lcoords_W18.
Proof. exact nodes_W18. Qed.
Print Assumptions C32_W18_nodes.
Theorem C32_L3_linear a0 a : length a = 1%nat -> reproduces 1 (fun p => Ok (shape_L3 p)) lcoords_L3 (affine a0 a).
Proof. exact (lin_L3 a0 a). Qed.
Print Assumptions C32_L3_linear.
Theorem C32_TET10_linear a0 a : length a = 3%nat -> reproduces 3 (fun p => Ok (shape_TET10 p)) lcoords_TET10 (affine a0 a).
Proof. exact (lin_TET10 a0 a). Qed.
Print Assumptions C32_TET10_linear.
Theorem C32_W6_linear a0 a : length a = 3%nat -> reproduces 3 (fun p => Ok (shape_W6 p)) lcoords_W6 (affine a0 a).
Proof. exact (lin_W6 a0 a). Qed.
Print Assumptions C32_W6_linear.
Theorem C32_W18_linear a0 a : length a = 3%nat -> reproduces 3 (fun p => Ok (shape_W18 p)) lcoords_W18 (affine a0 a).
Proof. exact (lin_W18 a0 a). Qed.
Print Assumptions C32_W18_linear.
(** elements with built in formulas: the generated functions are the same *)
Theorem C32_L2 : generates 2 1 lcoords_L2 polybase_L2 (values shp_L2).
Proof. exact gen_L2. Qed.
Print Assumptions C32_L2.
Theorem C32_T3 : generates 3 2 lcoords_T3 polybase_T3 (values shp_T3).
Proof. exact gen_T3. Qed.
Print Assumptions C32_T3.
Theorem C32_T6 : generates 6 2 lcoords_T6 polybase_T6 (values shp_T6).
Proof. exact gen_T6. Qed.
Print Assumptions C32_T6.
Theorem C32_Q4 : generates 4 2 lcoords_Q4 polybase_Q4 (values shp_Q4).
Proof. exact gen_Q4. Qed.
Print Assumptions C32_Q4.
Theorem C32_Q9 : generates 9 2 lcoords_Q9 polybase_Q9 (values shp_Q9).
Proof. exact gen_Q9. Qed.
Print Assumptions C32_Q9.
Theorem C32_H8 : generates 8 3 lcoords_H8 polybase_H8 (values shp_H8).
Proof. exact gen_H8. Qed.
Print Assumptions C32_H8.
Theorem C32_H27 : generates 27 3 lcoords_H27 polybase_H27 (values shp_H27).
Proof. exact gen_H27. Qed.
Print Assumptions C32_H27.
(** [TET4.polybase] lists ten monomials for four nodes *)
Theorem C32_TET4_refuted : gen_matrix (K := R) 4 lcoords_TET4 polybase_TET4 = Err ValueError.
Proof. exact gen_TET4_fails. Qed.
Print Assumptions C32_TET4_refuted.
(** the monomial functions of utils/cells agree with [polybase] *)
Theorem C32_L2_monomials : forall p : list R, length p = 1%nat ->
  monoms_L2 p = Ok (map (fun e => monomial e p) polybase_L2).
Proof. exact basis_L2. Qed.
Print Assumptions C32_L2_monomials.
Theorem C32_T3_monomials : forall p : list R, length p = 2%nat ->
  monoms_T3 p = Ok (map (fun e => monomial e p) polybase_T3).
Proof. exact basis_T3. Qed.
Print Assumptions C32_T3_monomials.
Theorem C32_T6_monomials : forall p : list R, length p = 2%nat ->
  monoms_T6 p = Ok (map (fun e => monomial e p) polybase_T6).
Proof. exact basis_T6. Qed.
Print Assumptions C32_T6_monomials.
Theorem C32_Q4_monomials : forall p : list R, length p = 2%nat ->
  monoms_Q4 p = Ok (map (fun e => monomial e p) polybase_Q4).
Proof. exact basis_Q4. Qed.
Print Assumptions C32_Q4_monomials.
Theorem C32_Q9_monomials : forall p : list R, length p = 2%nat ->
  monoms_Q9 p = Ok (map (fun e => monomial e p) polybase_Q9).
Proof. exact basis_Q9. Qed.
Print Assumptions C32_Q9_monomials.
Theorem C32_TET4_monomials : forall p : list R, length p = 3%nat ->
  monoms_TET4 p = Ok (map (fun e => monomial e p) polybase_TET4).
Proof. exact basis_TET4. Qed.
Print Assumptions C32_TET4_monomials.
Theorem C32_H8_monomials : forall p : list R, length p = 3%nat ->
  monoms_H8 p = Ok (map (fun e => monomial e p) polybase_H8).
Proof. exact basis_H8. Qed.
Print Assumptions C32_H8_monomials.
Theorem C32_H27_monomials : forall p : list R, length p = 3%nat ->
  monoms_H27 p = Ok (map (fun e => monomial e p) polybase_H27).
Proof. exact basis_H27. Qed.
Print Assumptions C32_H27_monomials.
Theorem C32_L3_monomials : forall p : list R, length p = 1%nat ->
  monoms_L3 p = Ok (map (fun e => monomial e p) polybase_L3).
Proof. exact basis_L3. Qed.
Print Assumptions C32_L3_monomials.
Theorem C32_TET10_monomials : forall p : list R, length p = 3%nat ->
  monoms_TET10 p = Ok (map (fun e => monomial e p) polybase_TET10).
Proof. exact basis_TET10. Qed.
Print Assumptions C32_TET10_monomials.
Theorem C32_W6_monomials : forall p : list R, length p = 3%nat ->
  monoms_W6 p = Ok (map (fun e => monomial e p) polybase_W6).
Proof. exact basis_W6. Qed.
Print Assumptions C32_W6_monomials.
Theorem C32_W18_monomials : forall p : list R, length p = 3%nat ->
  monoms_W18 p = Ok (map (fun e => monomial e p) polybase_W18).
Proof. exact basis_W18. Qed.
Print Assumptions C32_W18_monomials.
Example C32_ex : right_inverse 3 [[1; -1; 1]; [1; 0; 0]; [1; 1; 1]] inverse_L3 /\ shape_L3 [1 / 2] = [1 / 2 * (1 / 2 - 1) / 2; 1 - 1 / 2 * (1 / 2); 1 / 2 * (1 / 2 + 1) / 2].
Proof.
  split; [|reflexivity]. split; [reflexivity|]. split; [repeat constructor|].
  intros i j Hi Hj. do 3 (destruct i as [|i]; [do 3 (destruct j as [|j]; [unfold dot, rsum; simpl; lra|]); lia|]). lia.
Qed.

(** ** C35 Local centre is the centre of the reference cell *)

Theorem C35_L2 : mean_of 1 lcoords_L2 [0; 1]%nat lcenter_L2.
Proof. exact center_L2. Qed.
Print Assumptions C35_L2.
Theorem C35_L3 : mean_of 1 lcoords_L3 [0; 2]%nat lcenter_L3.
Proof. exact center_L3. Qed.
Print Assumptions C35_L3.
Theorem C35_T3 : mean_of 2 lcoords_T3 [0; 1; 2]%nat lcenter_T3.
Proof. exact center_T3. Qed.
Print Assumptions C35_T3.
Theorem C35_T6 : mean_of 2 lcoords_T6 [0; 1; 2]%nat lcenter_T6.
Proof. exact center_T6. Qed.
Print Assumptions C35_T6.
Theorem C35_Q4 : mean_of 2 lcoords_Q4 [0; 1; 2; 3]%nat lcenter_Q4.
Proof. exact center_Q4. Qed.
Print Assumptions C35_Q4.
Theorem C35_Q9 : mean_of 2 lcoords_Q9 [0; 1; 2; 3]%nat lcenter_Q9.
Proof. exact center_Q9. Qed.
Print Assumptions C35_Q9.
Theorem C35_H8 : mean_of 3 lcoords_H8 (seq 0 8)%nat lcenter_H8.
Proof. exact center_H8. Qed.
Print Assumptions C35_H8.
Theorem C35_H27 : mean_of 3 lcoords_H27 (seq 0 8)%nat lcenter_H27.
Proof. exact center_H27. Qed.
Print Assumptions C35_H27.
Theorem C35_W6 : mean_of 3 lcoords_W6 (seq 0 6)%nat lcenter_W6.
Proof. exact center_W6. Qed.
Print Assumptions C35_W6.
Theorem C35_W18 : mean_of 3 lcoords_W18 (seq 0 6)%nat lcenter_W18.
Proof. exact center_W18. Qed.
Print Assumptions C35_W18.
Theorem C35_TET4_refuted : ~ mean_of 3 lcoords_TET4 [0; 1; 2; 3]%nat lcenter_TET4.
Proof. exact center_TET4_wrong. Qed.
Print Assumptions C35_TET4_refuted.
Theorem C35_TET10_refuted : ~ mean_of 3 lcoords_TET10 [0; 1; 2; 3]%nat lcenter_TET10.
Proof. exact center_TET10_wrong. Qed.
Print Assumptions C35_TET10_refuted.
(** the point returned lies on the face opposite to the first corner *)
Theorem C35_TET4_on_face_refuted : exists a b c, shp_TET4 lcenter_TET4 = Ok [0; a; b; c].
Proof. exact center_TET4_on_face. Qed.
Print Assumptions C35_TET4_on_face_refuted.
Example C35_ex : mean_of 3 lcoords_TET4 [0; 1; 2; 3]%nat [1 / 4; 1 / 4; 1 / 4].
Proof. split; [reflexivity|]. intros d Hd. do 3 (destruct d as [|d]; [cbn; lra|]). lia. Qed.

(** ** C61 The type of the evaluation points does not matter *)

(** points given as floating point numbers: every element *)
Theorem C61_values_floating shp pcoords : shape_function_values shp Floating pcoords = mapM shp pcoords.
Proof. exact (values_floating shp pcoords). Qed.
Print Assumptions C61_values_floating.
Theorem C61_derivatives_floating dshp pcoords :
  shape_function_derivatives dshp Floating pcoords = mapM dshp pcoords.
Proof. exact (derivatives_floating dshp pcoords). Qed.
Print Assumptions C61_derivatives_floating.
(** points given as integers: only these elements *)
Theorem C61_T3_values_partial dt pcoords : rect 2 pcoords -> has_dtype dt pcoords ->
  shape_function_values shp_T3 dt pcoords = mapM shp_T3 pcoords.
Proof. exact (values_integral 2 _ pcoords dt integral_T3). Qed.
Print Assumptions C61_T3_values_partial.
Theorem C61_T6_values_partial dt pcoords : rect 2 pcoords -> has_dtype dt pcoords ->
  shape_function_values shp_T6 dt pcoords = mapM shp_T6 pcoords.
Proof. exact (values_integral 2 _ pcoords dt integral_T6). Qed.
Print Assumptions C61_T6_values_partial.
Theorem C61_TET4_values_partial dt pcoords : rect 3 pcoords -> has_dtype dt pcoords ->
  shape_function_values shp_TET4 dt pcoords = mapM shp_TET4 pcoords.
Proof. exact (values_integral 3 _ pcoords dt integral_TET4). Qed.
Print Assumptions C61_TET4_values_partial.
Theorem C61_Q9_values_partial dt pcoords : rect 2 pcoords -> has_dtype dt pcoords ->
  shape_function_values shp_Q9 dt pcoords = mapM shp_Q9 pcoords.
Proof. exact (values_integral 2 _ pcoords dt integral_Q9). Qed.
Print Assumptions C61_Q9_values_partial.
Theorem C61_H27_values_partial dt pcoords : rect 3 pcoords -> has_dtype dt pcoords ->
  shape_function_values shp_H27 dt pcoords = mapM shp_H27 pcoords.
Proof. exact (values_integral 3 _ pcoords dt integral_H27). Qed.
Print Assumptions C61_H27_values_partial.
Theorem C61_T3_derivatives_partial dt pcoords : rect 2 pcoords -> has_dtype dt pcoords ->
  shape_function_derivatives dshp_T3 dt pcoords = mapM dshp_T3 pcoords.
Proof. exact (derivatives_integral 2 _ pcoords dt integral2_T3). Qed.
Print Assumptions C61_T3_derivatives_partial.
Theorem C61_T6_derivatives_partial dt pcoords : rect 2 pcoords -> has_dtype dt pcoords ->
  shape_function_derivatives dshp_T6 dt pcoords = mapM dshp_T6 pcoords.
Proof. exact (derivatives_integral 2 _ pcoords dt integral2_T6). Qed.
Print Assumptions C61_T6_derivatives_partial.
Theorem C61_TET4_derivatives_partial dt pcoords : rect 3 pcoords -> has_dtype dt pcoords ->
  shape_function_derivatives dshp_TET4 dt pcoords = mapM dshp_TET4 pcoords.
Proof. exact (derivatives_integral 3 _ pcoords dt integral2_TET4). Qed.
Print Assumptions C61_TET4_derivatives_partial.
(** at the centre of the other elements all values are zero, so they no longer add up to one *)
Theorem C61_L2_refuted : shape_function_values shp_L2 Integral [[0]] = Ok [[0; 0]].
Proof. exact L2_at_integers. Qed.
Print Assumptions C61_L2_refuted.
Theorem C61_Q4_refuted : shape_function_values shp_Q4 Integral [[0; 0]] = Ok [[0; 0; 0; 0]].
Proof. exact Q4_at_integers. Qed.
Print Assumptions C61_Q4_refuted.
Theorem C61_H8_refuted : shape_function_values shp_H8 Integral [[0; 0; 0]] = Ok [[0; 0; 0; 0; 0; 0; 0; 0]].
Proof. exact H8_at_integers. Qed.
Print Assumptions C61_H8_refuted.
Theorem C61_L2_derivatives_refuted z : shape_function_derivatives dshp_L2 Integral [[IZR z]] = Ok [[[0]; [0]]].
Proof. exact (dL2_at_integers z). Qed.
Print Assumptions C61_L2_derivatives_refuted.
Theorem C61_Q4_derivatives_refuted : shape_function_derivatives dshp_Q4 Integral [[0; 0]] = Ok [repeat [0; 0] 4].
Proof. exact dQ4_at_integers. Qed.
Print Assumptions C61_Q4_derivatives_refuted.
Theorem C61_H8_derivatives_refuted : shape_function_derivatives dshp_H8 Integral [[0; 0; 0]] = Ok [repeat [0; 0; 0] 8].
Proof. exact dH8_at_integers. Qed.
Print Assumptions C61_H8_derivatives_refuted.
Example C61_ex : has_dtype Integral [[0; 0]; [1; 0]] /\ rect 2 [[0; 0]; [1; 0]].
Proof. split; [exists [[0; 0]; [1; 0]]%Z; reflexivity|repeat constructor]. Qed.
