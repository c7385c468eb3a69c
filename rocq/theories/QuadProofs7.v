(** * Proofs about quadrature, part 7: six-node triangles; curved cells with wrong volumes *)
From Coq Require Import Reals Lra Psatz.
From Verif Require Import ShapeProofs4.
From Verif Require Export QuadProofs6.
Local Open Scope R_scope.

(** ** T6: the determinant has total degree two *)
Lemma T6_entry cell a d : length cell = 6%nat -> (d < 2)%nat ->
  exists e0 e1 e2, forall r s, entry cell (dvalues dshp_T6 [r; s]) a d = e0 + e1 * r + e2 * s.
Proof.
  intros Hl Hd.
  exists (entry cell (dvalues dshp_T6 [0; 0]) a d),
    (entry cell (dvalues dshp_T6 [1; 0]) a d - entry cell (dvalues dshp_T6 [0; 0]) a d),
    (entry cell (dvalues dshp_T6 [0; 1]) a d - entry cell (dvalues dshp_T6 [0; 0]) a d). intros r s.
  do 7 (destruct cell as [|? cell]; try discriminate).
  destruct d as [|[|d]]; [..|exfalso; lia]; unfold entry, dot, column, dvalues, dshp_T6, rsum;
    cbn [map combine fst snd fold_right nth]; numR; ring.
Qed.
Lemma area_T6 cells : shaped 6 2 cells ->
  exists vs, areas_T6 cells = Ok vs /\ Forall2 (cell_area integral_triangle shp_T6) cells vs.
Proof.
  intros H. unfold areas_T6.
  rewrite (quad_volumes_value 2 6 shp_T6 dshp_T6); [|auto|apply diff_T6|once (repeat constructor)|auto].
  eexists. split; [reflexivity|]. unfold shaped in H.
  induction H as [|c cells [Hl Hr] _ IH]; [constructor|]. constructor; [clear IH|exact IH].
  exists (fun p a d => entry c (dvalues dshp_T6 p) a d). split; [apply (jacobian_values 2 6); auto using diff_T6|].
  destruct (T6_entry c 0 0 Hl ltac:(lia)) as (a0 & a1 & a2 & Ea). destruct (T6_entry c 1 1 Hl ltac:(lia)) as (b0 & b1 & b2 & Eb).
  destruct (T6_entry c 0 1 Hl ltac:(lia)) as (c0 & c1 & c2 & Ec). destruct (T6_entry c 1 0 Hl ltac:(lia)) as (d0 & d1 & d2 & Ed).
  set (ts := [(a0 * b0 - c0 * d0, [0; 0]%nat); (a0 * b1 + a1 * b0 - c0 * d1 - c1 * d0, [1; 0]%nat);
    (a0 * b2 + a2 * b0 - c0 * d2 - c2 * d0, [0; 1]%nat); (a1 * b1 - c1 * d1, [2; 0]%nat);
    (a1 * b2 + a2 * b1 - c1 * d2 - c2 * d1, [1; 1]%nat); (a2 * b2 - c2 * d2, [0; 2]%nat)]).
  assert (E : forall r s, poly ts [r; s] = Jdet 2 c (dvalues dshp_T6 [r; s])).
  { intros r s. unfold Jdet. rewrite Ea, Eb, Ec, Ed. unfold poly, ts, rsum. cbn [map fst snd fold_right]. rewrite !mono2. ring. }
  assert (Ht : total_degree 2 2 ts) by (unfold ts; repeat constructor).
  pose proof (exact_Tri_3a ts Ht) as He.
  eapply integral_triangle_ext; [intros x y; apply E|].
  eapply integral_triangle_val; [|exact He]. unfold quad, Gauss_Legendre_Tri_3a. cbn [combine map fst snd]. rewrite !E. reflexivity.
Qed.

(** ** Integrals of polynomials *)
Lemma integral_poly (I : (list R -> R) -> R -> Prop) (mom : list nat -> R) (ok : list nat -> Prop) :
  (forall f g v w c, I f v -> I g w -> I (fun p => c * f p + g p) (c * v + w)) -> I (fun _ => 0) 0 ->
  (forall e, ok e -> I (monomial e) (mom e)) ->
  forall terms, Forall (fun ce => ok (snd ce)) terms -> I (poly terms) (rsum (map (fun ce => fst ce * mom (snd ce)) terms)).
Proof.
  intros Hlin H0 Hm. induction terms as [|[c e] ts IH]; intros Hok; [exact H0|].
  inversion Hok; subst. change (poly ((c, e) :: ts)) with (fun p => c * monomial e p + poly ts p).
  change (rsum _) with (c * mom e + rsum (map (fun ce => fst ce * mom (snd ce)) ts)). apply Hlin; auto.
Qed.
Definition tet_moment (e : list nat) : R :=
  match e with [i; j; k] => beta k 0 * (beta j (k + 1) * beta i (j + (k + 1) + 1)) | _ => 0 end.
Definition wedge_moment (e : list nat) : R :=
  match e with [i; j; k] => (1 - (-1) ^ S k) / INR (S k) * (beta j 0 * beta i (j + 1)) | _ => 0 end.
Lemma tet_poly terms : Forall (fun ce : R * list nat => length (snd ce) = 3%nat) terms ->
  integral_tetrahedron (poly terms) (rsum (map (fun ce => fst ce * tet_moment (snd ce)) terms)).
Proof.
  apply (integral_poly integral_tetrahedron tet_moment (fun e => length e = 3%nat)); [apply integral_tetrahedron_lin|apply zero_tetrahedron|].
  intros [|i [|j [|k [|]]]] He; try discriminate. apply tetrahedron_monomial.
Qed.
Lemma wedge_poly terms : Forall (fun ce : R * list nat => length (snd ce) = 3%nat) terms ->
  integral_wedge (poly terms) (rsum (map (fun ce => fst ce * wedge_moment (snd ce)) terms)).
Proof.
  apply (integral_poly integral_wedge wedge_moment (fun e => length e = 3%nat)); [apply integral_wedge_lin|apply zero_wedge|].
  intros [|i [|j [|k [|]]]] He; try discriminate. apply wedge_monomial.
Qed.
Lemma integral_tetrahedron_ext f g v : (forall x y z, f [x; y; z] = g [x; y; z]) -> integral_tetrahedron f v -> integral_tetrahedron g v.
Proof. intros H (F & HF & E). exists F. split; auto. intros x y. eapply integral1_ext; [|apply HF]. intros; apply H. Qed.
Lemma integral_wedge_ext f g v : (forall x y z, f [x; y; z] = g [x; y; z]) -> integral_wedge f v -> integral_wedge g v.
Proof. intros H (F & HF & E). exists F. split; auto. intros x y. eapply integral1_ext; [|apply HF]. intros; apply H. Qed.

(** ** Cells given by explicit formulas for the positions *)
Lemma jacobian_unique3 shp cell J J' : is_jacobian 3 shp cell J -> is_jacobian 3 shp cell J' ->
  forall x y z, jac_det3 J [x; y; z] = jac_det3 J' [x; y; z].
Proof.
  intros H H' x y z. assert (E : forall a d, (a < 3)%nat -> (d < 3)%nat -> J [x; y; z] a d = J' [x; y; z] a d).
  { intros a d Ha Hd. eapply uniqueness_limite; [apply (H [x; y; z]); auto|apply (H' [x; y; z]); auto]. }
  unfold jac_det3, det_uvw. rewrite !E by lia. reflexivity.
Qed.
(** values computed from any inverse agree with any Jacobian of the closed formulas *)
Lemma gen_Jdet n monoms C shape cell J : (forall p, length p = 3%nat -> gen_shp C monoms p = Ok (shape p)) ->
  differentiates 3 n (gen_shp C monoms) (gen_dshp 3 C monoms) -> length cell = n ->
  is_jacobian 3 (fun p => Ok (shape p)) cell J ->
  forall x y z, Jdet 3 cell (dvalues (gen_dshp 3 C monoms) [x; y; z]) = jac_det3 J [x; y; z].
Proof.
  intros Hs Hd Hl HJ.
  apply (jacobian_unique3 (gen_shp C monoms) cell (fun p a d => entry cell (dvalues (gen_dshp 3 C monoms) p) a d)).
  - apply (jacobian_values 3 n); auto.
  - intros p a d Hp Ha Hd'. eapply dlim_ext; [|apply (HJ p a d); auto]. intros x. unfold position. rewrite Hs; auto.
    unfold replace_nth. rewrite app_length, firstn_length. cbn [length]. rewrite skipn_length. lia.
Qed.
(** Jacobians given by formulas *)
Ltac jacobian_tac shape cell :=
  let p := fresh "p" in let a := fresh "a" in let d := fresh "d" in
  intros p a d Hp Ha Hd; destruct p as [|r [|s [|t [|]]]]; try discriminate;
  apply quadratic_derivative; intros h;
  destruct a as [|[|[|a]]]; [..|exfalso; lia]; (destruct d as [|[|[|d]]]; [..|exfalso; lia]);
  unfold position, replace_nth, shape, cell, dot, rsum; cbn [firstn skipn app map combine nth fst snd fold_right]; field.

(** *** A tapered wedge *)
Definition tapered : list (list R) := [[0; 0; -1]; [1; 0; -1]; [0; 1; -1]; [0; 0; 1]; [2; 0; 1]; [0; 2; 1]].
Definition J_tapered (p : list R) (a d : nat) : R :=
  match p with
  | [r; s; t] => nth d (nth a [[(3 + t) / 2; 0; r / 2]; [0; (3 + t) / 2; s / 2]; [0; 0; 1]] []) 0
  | _ => 0
  end.
Lemma tapered_jacobian : is_jacobian 3 (fun p => Ok (shape_W6 p)) tapered J_tapered.
Proof. unfold J_tapered. jacobian_tac shape_W6 tapered. Qed.
Definition tapered_terms : list (R * list nat) := [(9 / 4, [0; 0; 0]%nat); (3 / 2, [0; 0; 1]%nat); (1 / 4, [0; 0; 2]%nat)].
Lemma tapered_det x y z : jac_det3 J_tapered [x; y; z] = poly tapered_terms [x; y; z].
Proof.
  unfold jac_det3, det_uvw, J_tapered, poly, tapered_terms, rsum. cbn [nth map fst snd fold_right]. rewrite !mono3. field.
Qed.
Lemma volume_tapered : cell_volume integral_wedge (fun p => Ok (shape_W6 p)) tapered (7 / 3).
Proof.
  exists J_tapered. split; [apply tapered_jacobian|]. eapply integral_wedge_ext; [intros; symmetry; apply tapered_det|].
  eapply integral_wedge_val; [|apply wedge_poly; repeat constructor].
  unfold tapered_terms, wedge_moment, rsum. cbn [map fst snd fold_right beta plus pow INR]. field.
Qed.
Lemma volume_W6_tapered M C : gen_matrix 6 lcoords_W6 polybase_W6 = Ok M -> right_inverse 6 M C ->
  exists v, volumes_W6 C [tapered] = Ok [v] /\ v < 7 / 3.
Proof.
  intros HM HC. destruct (generated _ _ _ _ _ _ _ gen_W6 HM HC) as [Hs Hd]. unfold volumes_W6.
  destruct Gauss_Legendre_Wedge_3x2 as [q|] eqn:Eq; [|discriminate]. injection Eq as <-. cbn [bind].
  rewrite (quad_volumes_value 3 6 (gen_shp C polybase_W6)); [|auto|exact Hd|once (repeat constructor)|once (repeat constructor)].
  eexists. split; [reflexivity|]. unfold quad. cbn [combine fst snd map app].
  rewrite !(gen_Jdet 6 polybase_W6 C shape_W6 tapered J_tapered Hs Hd eq_refl tapered_jacobian), !tapered_det.
  assert (Hq : 0 < sqrt (1 / 3)) by (apply sqrt_lt_R0; lra).
  assert (Hqq : sqrt (1 / 3) * sqrt (1 / 3) = 1 / 3) by (apply sqrt_sqrt; lra).
  unfold poly, tapered_terms, rsum. cbn [map fst snd fold_right]. rewrite !mono3. simpl pow. generalize dependent (sqrt (1 / 3)). intros q Hq Hqq. nra.
Qed.

(** *** Tetrahedra and wedges with curved edges *)
Definition curved_TET10 : list (list R) :=
  map (fun q => match q with [r; s; t] => [r + r * r; s + s * s; t + t * t] | _ => [] end) lcoords_TET10.
Definition J_TET10 (p : list R) (a d : nat) : R :=
  match p with
  | [r; s; t] => nth d (nth a [[1 + 2 * r; 0; 0]; [0; 1 + 2 * s; 0]; [0; 0; 1 + 2 * t]] []) 0
  | _ => 0
  end.
Lemma TET10_jacobian : is_jacobian 3 (fun p => Ok (shape_TET10 p)) curved_TET10 J_TET10.
Proof. unfold J_TET10, curved_TET10, lcoords_TET10. cbn [kofZ kdiv NumR map]. jacobian_tac shape_TET10 curved_TET10. Qed.
Definition TET10_terms : list (R * list nat) :=
  [(1, [0; 0; 0]%nat); (2, [1; 0; 0]%nat); (2, [0; 1; 0]%nat); (2, [0; 0; 1]%nat);
   (4, [1; 1; 0]%nat); (4, [1; 0; 1]%nat); (4, [0; 1; 1]%nat); (8, [1; 1; 1]%nat)].
Lemma TET10_det x y z : jac_det3 J_TET10 [x; y; z] = poly TET10_terms [x; y; z].
Proof.
  unfold jac_det3, det_uvw, J_TET10, poly, TET10_terms, rsum. cbn [nth map fst snd fold_right]. rewrite !mono3. field.
Qed.
Lemma volume_curved_TET10 : cell_volume integral_tetrahedron (fun p => Ok (shape_TET10 p)) curved_TET10 (19 / 36).
Proof.
  exists J_TET10. split; [apply TET10_jacobian|]. eapply integral_tetrahedron_ext; [intros; symmetry; apply TET10_det|].
  eapply integral_tetrahedron_val; [|apply tet_poly; repeat constructor].
  unfold TET10_terms, tet_moment, rsum. cbn [map fst snd fold_right beta plus pow INR]. field.
Qed.
Lemma volume_TET10_curved M C : gen_matrix 10 lcoords_TET10 polybase_TET10 = Ok M -> right_inverse 10 M C ->
  exists v, volumes_TET10 C [curved_TET10] = Ok [v] /\ v <> 19 / 36.
Proof.
  intros HM HC. destruct (generated _ _ _ _ _ _ _ gen_TET10 HM HC) as [Hs Hd]. unfold volumes_TET10.
  rewrite (quad_volumes_value 3 10 (gen_shp C polybase_TET10)); [|auto|exact Hd|once (repeat constructor)|once (repeat constructor)].
  eexists. split; [reflexivity|]. unfold quad, Gauss_Legendre_Tet_4. cbn [combine fst snd map app repeat].
  rewrite !(gen_Jdet 10 polybase_TET10 C shape_TET10 curved_TET10 J_TET10 Hs Hd eq_refl TET10_jacobian), !TET10_det.
  assert (Hq : 2 < sqrt 5).
  { rewrite <- (sqrt_square 2) by lra. apply sqrt_lt_1_alt. lra. }
  assert (Hq' : sqrt 5 < 3).
  { rewrite <- (sqrt_square 3) by lra. apply sqrt_lt_1_alt. lra. }
  assert (Hqq : sqrt 5 * sqrt 5 = 5) by (apply sqrt_sqrt; lra).
  unfold poly, TET10_terms, rsum. cbn [map fst snd fold_right]. rewrite !mono3. simpl pow. generalize dependent (sqrt 5). intros q Hq Hq' Hqq E.
  ring_simplify in E. nra.
Qed.

Definition curved_W18 : list (list R) :=
  map (fun q => match q with [r; s; t] => [r + r * r; s; t * (1 + r * r)] | _ => [] end) lcoords_W18.
Definition J_W18 (p : list R) (a d : nat) : R :=
  match p with
  | [r; s; t] => nth d (nth a [[1 + 2 * r; 0; 0]; [0; 1; 0]; [2 * t * r; 0; 1 + r * r]] []) 0
  | _ => 0
  end.
Lemma W18_jacobian : is_jacobian 3 (fun p => Ok (shape_W18 p)) curved_W18 J_W18.
Proof. unfold J_W18, curved_W18, lcoords_W18. cbn [kofZ kdiv NumR map]. jacobian_tac shape_W18 curved_W18. Qed.
Definition W18_terms : list (R * list nat) :=
  [(1, [0; 0; 0]%nat); (2, [1; 0; 0]%nat); (1, [2; 0; 0]%nat); (2, [3; 0; 0]%nat)].
Lemma W18_det x y z : jac_det3 J_W18 [x; y; z] = poly W18_terms [x; y; z].
Proof.
  unfold jac_det3, det_uvw, J_W18, poly, W18_terms, rsum. cbn [nth map fst snd fold_right]. rewrite !mono3. field.
Qed.
Lemma volume_curved_W18 : cell_volume integral_wedge (fun p => Ok (shape_W18 p)) curved_W18 (61 / 30).
Proof.
  exists J_W18. split; [apply W18_jacobian|]. eapply integral_wedge_ext; [intros; symmetry; apply W18_det|].
  eapply integral_wedge_val; [|apply wedge_poly; repeat constructor].
  unfold W18_terms, wedge_moment, rsum. cbn [map fst snd fold_right beta plus pow INR]. field.
Qed.
Lemma volume_W18_curved M C : gen_matrix 18 lcoords_W18 polybase_W18 = Ok M -> right_inverse 18 M C ->
  exists v, volumes_W18 C [curved_W18] = Ok [v] /\ v <> 61 / 30.
Proof.
  intros HM HC. destruct (generated _ _ _ _ _ _ _ gen_W18 HM HC) as [Hs Hd]. unfold volumes_W18.
  destruct Gauss_Legendre_Wedge_3x3 as [q|] eqn:Eq; [|discriminate]. injection Eq as <-. cbn [bind].
  rewrite (quad_volumes_value 3 18 (gen_shp C polybase_W18)); [|auto|exact Hd|once (repeat constructor)|once (repeat constructor)].
  eexists. split; [reflexivity|]. unfold quad. cbn [combine fst snd map app flat_map].
  rewrite !(gen_Jdet 18 polybase_W18 C shape_W18 curved_W18 J_W18 Hs Hd eq_refl W18_jacobian), !W18_det.
  unfold poly, W18_terms, rsum. cbn [map fst snd fold_right]. rewrite !mono3. simpl pow. intros E. lra.
Qed.

Lemma cell_volume_unique_wedge shp cell v w : cell_volume integral_wedge shp cell v -> cell_volume integral_wedge shp cell w -> v = w.
Proof.
  intros (J & HJ & Hv) (J' & HJ' & Hw). apply (integral_wedge_unique (jac_det3 J)); auto.
  eapply integral_wedge_ext; [|exact Hw]. intros. apply (jacobian_unique3 shp cell); auto.
Qed.
Lemma cell_volume_unique_tet shp cell v w : cell_volume integral_tetrahedron shp cell v -> cell_volume integral_tetrahedron shp cell w -> v = w.
Proof.
  intros (J & HJ & Hv) (J' & HJ' & Hw). apply (integral_tetrahedron_unique (jac_det3 J)); auto.
  eapply integral_tetrahedron_ext; [|exact Hw]. intros. apply (jacobian_unique3 shp cell); auto.
Qed.
Lemma W6_curved_wrong : exists cell, length cell = 6%nat /\ rect 3 cell /\
  forall M C, gen_matrix 6 lcoords_W6 polybase_W6 = Ok M -> right_inverse 6 M C ->
  exists v, volumes_W6 C [cell] = Ok [v] /\ ~ cell_volume integral_wedge (fun p => Ok (shape_W6 p)) cell v.
Proof.
  exists tapered. split; [reflexivity|]. split; [once (repeat constructor)|]. intros M C HM HC.
  destruct (volume_W6_tapered M C HM HC) as (v & E & Hv). exists v. split; auto.
  intros H. pose proof (cell_volume_unique_wedge _ _ _ _ H volume_tapered). lra.
Qed.
Lemma TET10_curved_wrong : exists cell, length cell = 10%nat /\ rect 3 cell /\
  forall M C, gen_matrix 10 lcoords_TET10 polybase_TET10 = Ok M -> right_inverse 10 M C ->
  exists v, volumes_TET10 C [cell] = Ok [v] /\ ~ cell_volume integral_tetrahedron (fun p => Ok (shape_TET10 p)) cell v.
Proof.
  exists curved_TET10. split; [reflexivity|]. split; [once (repeat constructor)|]. intros M C HM HC.
  destruct (volume_TET10_curved M C HM HC) as (v & E & Hv). exists v. split; auto.
  intros H. pose proof (cell_volume_unique_tet _ _ _ _ H volume_curved_TET10). lra.
Qed.
Lemma W18_curved_wrong : exists cell, length cell = 18%nat /\ rect 3 cell /\
  forall M C, gen_matrix 18 lcoords_W18 polybase_W18 = Ok M -> right_inverse 18 M C ->
  exists v, volumes_W18 C [cell] = Ok [v] /\ ~ cell_volume integral_wedge (fun p => Ok (shape_W18 p)) cell v.
Proof.
  exists curved_W18. split; [reflexivity|]. split; [once (repeat constructor)|]. intros M C HM HC.
  destruct (volume_W18_curved M C HM HC) as (v & E & Hv). exists v. split; auto.
  intros H. pose proof (cell_volume_unique_wedge _ _ _ _ H volume_curved_W18). lra.
Qed.

