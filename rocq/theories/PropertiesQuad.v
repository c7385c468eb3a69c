(** * Properties C33, C34, C62: quadrature rules, areas and volumes by quadrature *)
From Coq Require Import Reals Lra.
From Verif Require Import ShapeProofs4 QuadProofs7 QuadProofs8 QuadProofs9.
Local Open Scope R_scope.

(** ** C33 Quadrature rules integrate exactly *)

(** the integral of a function has one value *)
Theorem C33_integral_unique :
  forall a b f v w, integral1 a b f v -> integral1 a b f w -> v = w.
Proof. exact integral1_unique. Qed.
Print Assumptions C33_integral_unique.
(** it is the Riemann integral *)
Theorem C33_integral_riemann :
  forall a b f v (Hc : continuity f) (Hab : a <= b), integral1 a b f v ->
  RiemannInt (continuity_implies_RiemannInt Hab (fun x _ => Hc x)) = v.
Proof. exact integral1_riemann. Qed.
Print Assumptions C33_integral_riemann.
(** Gauss-Legendre rules with n points and their products: degree 2 n - 1 in each variable *)
Theorem C33_line :
  forall n q terms, gauss_line_rule n = Ok q -> each_degree 1 (2 * n - 1) terms ->
  integral_line (poly terms) (quad q (poly terms)).
Proof. exact exact_line_poly. Qed.
Print Assumptions C33_line.
Theorem C33_line_grid :
  forall n q terms, Gauss_Legendre_Line_Grid n = Ok q -> each_degree 1 (2 * n - 1) terms ->
  integral_line (poly terms) (quad q (poly terms)).
Proof. exact exact_line_poly. Qed.
Print Assumptions C33_line_grid.
Theorem C33_square :
  forall n q terms, gauss_square n n = Ok q -> each_degree 2 (2 * n - 1) terms ->
  integral_square (poly terms) (quad q (poly terms)).
Proof. exact exact_square_poly. Qed.
Print Assumptions C33_square.
Theorem C33_cube :
  forall n q terms, gauss_cube n n n = Ok q -> each_degree 3 (2 * n - 1) terms ->
  integral_cube (poly terms) (quad q (poly terms)).
Proof. exact exact_cube_poly. Qed.
Print Assumptions C33_cube.
(** different numbers of points along the axes *)
Theorem C33_square_mixed :
  forall n m q terms, gauss_square n m = Ok q -> degrees [(2 * n - 1)%nat; (2 * m - 1)%nat] terms ->
  integral_square (poly terms) (quad q (poly terms)).
Proof. exact square_mixed_poly. Qed.
Print Assumptions C33_square_mixed.
Theorem C33_cube_mixed :
  forall n m k q terms, gauss_cube n m k = Ok q -> degrees [(2 * n - 1)%nat; (2 * m - 1)%nat; (2 * k - 1)%nat] terms ->
  integral_cube (poly terms) (quad q (poly terms)).
Proof. exact cube_mixed_poly. Qed.
Print Assumptions C33_cube_mixed.
Example C33_mixed_ex : (exists q, gauss_cube 1 3 2 = Ok q) /\ degrees [1; 5; 3]%nat [(2, [1; 5; 0]%nat); (-1, [0; 4; 3]%nat)].
Proof. split; [eexists; reflexivity|]. repeat constructor. Qed.
(** the named rules for quadrilaterals *)
Theorem C33_Quad_1 :
  exists q, Gauss_Legendre_Quad_1 = Ok q /\
  forall terms, each_degree 2 1 terms -> integral_square (poly terms) (quad q (poly terms)).
Proof. exact exact_Quad_1. Qed.
Print Assumptions C33_Quad_1.
Theorem C33_Quad_4 :
  exists q, Gauss_Legendre_Quad_4 = Ok q /\
  forall terms, each_degree 2 3 terms -> integral_square (poly terms) (quad q (poly terms)).
Proof. exact exact_Quad_4. Qed.
Print Assumptions C33_Quad_4.
Theorem C33_Quad_9 :
  exists q, Gauss_Legendre_Quad_9 = Ok q /\
  forall terms, each_degree 2 5 terms -> integral_square (poly terms) (quad q (poly terms)).
Proof. exact exact_Quad_9. Qed.
Print Assumptions C33_Quad_9.
Theorem C33_Tri_1 :
  forall terms, total_degree 2 1 terms -> integral_triangle (poly terms) (quad Gauss_Legendre_Tri_1 (poly terms)).
Proof. exact exact_Tri_1. Qed.
Print Assumptions C33_Tri_1.
Theorem C33_Tri_3a :
  forall terms, total_degree 2 2 terms -> integral_triangle (poly terms) (quad Gauss_Legendre_Tri_3a (poly terms)).
Proof. exact exact_Tri_3a. Qed.
Print Assumptions C33_Tri_3a.
Theorem C33_Tri_3b :
  forall terms, total_degree 2 2 terms -> integral_triangle (poly terms) (quad Gauss_Legendre_Tri_3b (poly terms)).
Proof. exact exact_Tri_3b. Qed.
Print Assumptions C33_Tri_3b.
Theorem C33_Tet_1 :
  forall terms, total_degree 3 1 terms -> integral_tetrahedron (poly terms) (quad Gauss_Legendre_Tet_1 (poly terms)).
Proof. exact exact_Tet_1. Qed.
Print Assumptions C33_Tet_1.
Theorem C33_Tet_4 :
  forall terms, total_degree 3 2 terms -> integral_tetrahedron (poly terms) (quad Gauss_Legendre_Tet_4 (poly terms)).
Proof. exact exact_Tet_4. Qed.
Print Assumptions C33_Tet_4.
Theorem C33_Tet_5 :
  forall terms, total_degree 3 3 terms -> integral_tetrahedron (poly terms) (quad Gauss_Legendre_Tet_5 (poly terms)).
Proof. exact exact_Tet_5. Qed.
Print Assumptions C33_Tet_5.
Theorem C33_Wedge_3x3 :
  exists q, Gauss_Legendre_Wedge_3x3 = Ok q /\
  forall terms, wedge_degree 2 5 terms -> integral_wedge (poly terms) (quad q (poly terms)).
Proof. exact exact_Wedge_3x3. Qed.
Print Assumptions C33_Wedge_3x3.
(** The rule of six points for wedges is exact for constants (missing: everything else). *)
Theorem C33_Wedge_3x2_partial :
  exists q, Gauss_Legendre_Wedge_3x2 = Ok q /\ forall c, integral_wedge (fun _ => c) (quad q (fun _ => c)).
Proof. exact Wedge_3x2_volume. Qed.
Print Assumptions C33_Wedge_3x2_partial.
(** It is not for the third coordinate: both layers of points are placed at the same height. *)
Theorem C33_Wedge_3x2_refuted :
  exists q, Gauss_Legendre_Wedge_3x2 = Ok q /\
  ~ integral_wedge (monomial [0; 0; 1]%nat) (quad q (monomial [0; 0; 1]%nat)).
Proof. exact Wedge_3x2_wrong. Qed.
Print Assumptions C33_Wedge_3x2_refuted.
(** Nothing else is wrong with it: with the second layer at the opposite height it has the degrees one expects.
    (Missing: exactness of the rule as it is.) *)
Theorem C33_Wedge_3x2_layers_partial :
  exists q, Gauss_Legendre_Wedge_3x2 = Ok q /\
  forall terms, wedge_degree 2 3 terms -> integral_wedge (poly terms) (quad (mirrored_from 3 q) (poly terms)).
Proof. exact Wedge_3x2_repaired. Qed.
Print Assumptions C33_Wedge_3x2_layers_partial.
(** The rule of eleven points for tetrahedra is exact for constants (missing: everything else). *)
Theorem C33_Tet_11_partial :
  forall c, integral_tetrahedron (fun _ => c) (quad Gauss_Legendre_Tet_11 (fun _ => c)).
Proof. exact Tet_11_volume. Qed.
Print Assumptions C33_Tet_11_partial.
(** It is not for the first coordinate. *)
Theorem C33_Tet_11_refuted :
  ~ integral_tetrahedron (monomial [1; 0; 0]%nat) (quad Gauss_Legendre_Tet_11 (monomial [1; 0; 0]%nat)).
Proof. exact Tet_11_wrong. Qed.
Print Assumptions C33_Tet_11_refuted.
(** Some of its points are outside of the tetrahedron. *)
Theorem C33_Tet_11_outside_refuted :
  exists p, In p (fst Gauss_Legendre_Tet_11) /\ ~ in_tetrahedron p.
Proof. exact Tet_11_outside. Qed.
Print Assumptions C33_Tet_11_outside_refuted.
(** One number is wrong: with (1 + sqrt (5 / 14)) / 4 in the place of (1 + 3 sqrt (5 / 15)) / 4 the rule has degree 4.
    (Missing: exactness of the rule as it is.) *)
Theorem C33_Tet_11_number_partial :
  forall terms, total_degree 3 4 terms ->
  integral_tetrahedron (poly terms)
    (quad (with_coordinate ((1 + 3 * sqrt (5 / 15)) / 4) ((1 + sqrt (5 / 14)) / 4) Gauss_Legendre_Tet_11) (poly terms)).
Proof. exact Tet_11_repaired. Qed.
Print Assumptions C33_Tet_11_number_partial.
(** a polynomial of degree two on the triangle, and its integral *)
Example C33_ex : total_degree 2 2 [(3, [2; 0]%nat); (-1, [1; 1]%nat); (1 / 2, [0; 0]%nat)] /\
  quad Gauss_Legendre_Tri_3a (poly [(3, [2; 0]%nat); (-1, [1; 1]%nat); (1 / 2, [0; 0]%nat)]) = 3 / 12 - 1 / 24 + 1 / 4.
Proof.
  split; [repeat constructor|]. unfold quad, Gauss_Legendre_Tri_3a, poly, monomial, rsum.
  cbn [combine map fst snd fold_right pow]. field.
Qed.
Example C33_ex_wedge : wedge_degree 2 5 [(2, [1; 1; 4]%nat)].
Proof. constructor; [|constructor]. exists 1%nat, 1%nat, 4%nat. repeat split; repeat constructor. Qed.
Example C33_ex_line : exists q, gauss_line_rule 3 = Ok q /\ each_degree 1 (2 * 3 - 1) [(7, [5]%nat); (1, [2]%nat)].
Proof. eexists. split; [reflexivity|]. repeat constructor. Qed.
Example C33_ex_tet : total_degree 3 3 [(1, [1; 1; 1]%nat)].
Proof. repeat constructor. Qed.

(** ** C34 Quadrature volumes are exact for affine cells *)

Theorem C34_T6 :
  forall cells, Forall (affine_image 2 lcoords_T6) cells ->
  areas_T6 cells = Ok (map (fun c => parallelogram c 0 1 2 / 2) cells).
Proof. exact area_T6_affine. Qed.
Print Assumptions C34_T6.
Theorem C34_H8 :
  forall cells, Forall (affine_image 3 lcoords_H8) cells ->
  volumes_H8 cells = Ok (map (fun c => parallelepiped c 0 1 3 4) cells).
Proof. exact volume_H8_affine. Qed.
Print Assumptions C34_H8.
Theorem C34_H27 :
  forall cells, Forall (affine_image 3 lcoords_H27) cells ->
  volumes_H27 cells = Ok (map (fun c => parallelepiped c 0 1 3 4) cells).
Proof. exact volume_H27_affine. Qed.
Print Assumptions C34_H27.
(** cells with generated functions, whichever inverse of the matrix of monomials is used *)
Theorem C34_TET10 :
  forall M C cells, gen_matrix 10 lcoords_TET10 polybase_TET10 = Ok M -> right_inverse 10 M C ->
  Forall (affine_image 3 lcoords_TET10) cells ->
  volumes_TET10 C cells = Ok (map (fun c => parallelepiped c 0 1 2 3 / 6) cells).
Proof. exact volume_TET10_affine. Qed.
Print Assumptions C34_TET10.
Theorem C34_W6 :
  forall M C cells, gen_matrix 6 lcoords_W6 polybase_W6 = Ok M -> right_inverse 6 M C ->
  Forall (affine_image 3 lcoords_W6) cells ->
  volumes_W6 C cells = Ok (map (fun c => parallelepiped c 0 1 2 3 / 2) cells).
Proof. exact volume_W6_affine. Qed.
Print Assumptions C34_W6.
Theorem C34_W18 :
  forall M C cells, gen_matrix 18 lcoords_W18 polybase_W18 = Ok M -> right_inverse 18 M C ->
  Forall (affine_image 3 lcoords_W18) cells ->
  volumes_W18 C cells = Ok (map (fun c => parallelepiped c 0 1 2 3 / 2) cells).
Proof. exact volume_W18_affine. Qed.
Print Assumptions C34_W18.
(** a sheared box with edges (2,0,0), (1,3,0), (0,1,1) *)
Definition sheared : list (list R) :=
  [[0; 0; 0]; [2; 0; 0]; [3; 3; 0]; [1; 3; 0]; [0; 1; 1]; [2; 1; 1]; [3; 4; 1]; [1; 4; 1]].
Example C34_ex : affine_image 3 lcoords_H8 sheared /\ parallelepiped sheared 0 1 3 4 = 6.
Proof.
  split.
  - exists [3 / 2; 2; 1 / 2], [[1; 1 / 2; 0]; [0; 3 / 2; 1 / 2]; [0; 0; 1 / 2]]. split; [reflexivity|].
    split; [once (repeat constructor)|]. unfold sheared, lcoords_H8, affine, rsum. cbn [map seq nth combine fst snd fold_right kofZ NumR].
    repeat (apply f_equal2; [repeat (apply f_equal2; [field|]); reflexivity|]). reflexivity.
  - unfold parallelepiped, det_uvw, edge, sheared. cbn [nth]. lra.
Qed.
Example C34_ex_inverse : exists M C, gen_matrix 6 lcoords_W6 polybase_W6 = Ok M /\ right_inverse 6 M C.
Proof. destruct gen_W6 as (M & E & (C & HC) & _). eauto. Qed.

(** ** C62 Quadrature volumes are exact for curved cells *)

(** Six-node triangles, hexahedra with 8 and 27 nodes: the integral of the Jacobian determinant, for all positions
    of the nodes.  (Missing: the other cells, see below.) *)
Theorem C62_T6_partial :
  forall cells, shaped 6 2 cells ->
  exists vs, areas_T6 cells = Ok vs /\ Forall2 (cell_area integral_triangle shp_T6) cells vs.
Proof. exact area_T6. Qed.
Print Assumptions C62_T6_partial.
Theorem C62_H8_partial :
  forall cells, shaped 8 3 cells ->
  exists vs, volumes_H8 cells = Ok vs /\ Forall2 (cell_volume integral_cube shp_H8) cells vs.
Proof. exact volume_H8. Qed.
Print Assumptions C62_H8_partial.
Theorem C62_H27_partial :
  forall cells, shaped 27 3 cells ->
  exists vs, volumes_H27 cells = Ok vs /\ Forall2 (cell_volume integral_cube shp_H27) cells vs.
Proof. exact volume_H27. Qed.
Print Assumptions C62_H27_partial.
(** a wedge that gets wider towards the top *)
Theorem C62_W6_refuted :
  exists cell, length cell = 6%nat /\ rect 3 cell /\
  forall M C, gen_matrix 6 lcoords_W6 polybase_W6 = Ok M -> right_inverse 6 M C ->
  exists v, volumes_W6 C [cell] = Ok [v] /\ ~ cell_volume integral_wedge (fun p => Ok (shape_W6 p)) cell v.
Proof. exact W6_curved_wrong. Qed.
Print Assumptions C62_W6_refuted.
(** curved edges: the rule has a lower degree than the determinant *)
Theorem C62_TET10_refuted :
  exists cell, length cell = 10%nat /\ rect 3 cell /\
  forall M C, gen_matrix 10 lcoords_TET10 polybase_TET10 = Ok M -> right_inverse 10 M C ->
  exists v, volumes_TET10 C [cell] = Ok [v] /\ ~ cell_volume integral_tetrahedron (fun p => Ok (shape_TET10 p)) cell v.
Proof. exact TET10_curved_wrong. Qed.
Print Assumptions C62_TET10_refuted.
Theorem C62_W18_refuted :
  exists cell, length cell = 18%nat /\ rect 3 cell /\
  forall M C, gen_matrix 18 lcoords_W18 polybase_W18 = Ok M -> right_inverse 18 M C ->
  exists v, volumes_W18 C [cell] = Ok [v] /\ ~ cell_volume integral_wedge (fun p => Ok (shape_W18 p)) cell v.
Proof. exact W18_curved_wrong. Qed.
Print Assumptions C62_W18_refuted.
(** a hexahedron with a twisted face; the cells of the refutations *)
Example C62_ex : shaped 8 3 [[[0; 0; 0]; [1; 0; 0]; [1; 1; 0]; [0; 1; 0]; [0; 0; 1]; [1; 0; 2]; [1; 1; 1]; [0; 1; 3]]].
Proof. once (repeat constructor). Qed.
Example C62_ex_wedge : cell_volume integral_wedge (fun p => Ok (shape_W6 p)) tapered (7 / 3).
Proof. exact volume_tapered. Qed.
