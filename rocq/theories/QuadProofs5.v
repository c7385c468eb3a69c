(** * Proofs about quadrature, part 5: affine cells, curved cells *)
From Coq Require Import Reals Lra Psatz.
From Verif Require Import ShapeProofs4.
From Verif Require Export QuadProofs4.
Local Open Scope R_scope.


Lemma affine_shaped n dim lcoords cells : length lcoords = n -> Forall (affine_image dim lcoords) cells -> shaped n dim cells.
Proof.
  intros Hl. apply Forall_impl. intros c (b & A & _ & _ & ->). rewrite map_length. split; auto.
  unfold rect. apply Forall_map, Forall_forall. intros. rewrite map_length, seq_length. reflexivity.
Qed.

Lemma map_eq_forall {A B} (f g : A -> B) l : (forall x, In x l -> f x = g x) -> map f l = map g l.
Proof. apply map_ext_in. Qed.

(** edges of affine cells *)
Ltac edges :=
  unfold parallelogram, parallelepiped, edge, A2, A3, det_uvw,
    lcoords_T6, lcoords_H8, lcoords_H27, lcoords_TET10, lcoords_W6, lcoords_W18;
  cbn [map nth seq]; numR; unfold affine; unfold rsum; cbn [map combine fst snd fold_right nth].
Ltac rows A HA HrA :=
  match type of HA with
  | length A = 2%nat => destruct A as [|? [|? [|]]]; try discriminate
  | length A = 3%nat => destruct A as [|? [|? [|? [|]]]]; try discriminate
  end; clear HA;
  unfold rect in HrA; repeat match goal with H : Forall _ (_ :: _) |- _ => inversion H; clear H; subst end;
  repeat match goal with H : length ?l = 2%nat |- _ => destruct l as [|? [|? [|]]]; try discriminate; clear H
                       | H : length ?l = 3%nat |- _ => destruct l as [|? [|? [|? [|]]]]; try discriminate; clear H end.

Lemma area_T6_affine cells : Forall (affine_image 2 lcoords_T6) cells ->
  areas_T6 cells = Ok (map (fun c => parallelogram c 0 1 2 / 2) cells).
Proof.
  intros H. unfold areas_T6.
  rewrite (quad_volumes_value 2 6 shp_T6 dshp_T6) ; [|auto|apply diff_T6|once (repeat constructor)|apply (affine_shaped _ _ lcoords_T6); auto].
  f_equal. apply map_ext_in. intros c Hc. rewrite Forall_forall in H. destruct (H c Hc) as (b & A & HA & HrA & E).
  rewrite (affine_quad2 6 shp_T6 dshp_T6 _ lcoords_T6 c b A); auto using diff_T6, lin_T6.
  2: { once (repeat constructor). }
  clear Hc H; subst c. rows A HA HrA. edges. unfold quad, Gauss_Legendre_Tri_3a, rsum. cbn [combine map fst snd nth fold_right]. field.
Qed.
Lemma volume_H8_affine cells : Forall (affine_image 3 lcoords_H8) cells ->
  volumes_H8 cells = Ok (map (fun c => parallelepiped c 0 1 3 4) cells).
Proof.
  intros H. unfold volumes_H8. destruct (gauss_cube 2 2 2) as [q|] eqn:Eq; [|discriminate]. cbn [bind].
  injection Eq as <-.
  rewrite (quad_volumes_value 3 8 shp_H8 dshp_H8) ; [|auto|apply diff_H8|once (repeat constructor)|apply (affine_shaped _ _ lcoords_H8); auto].
  f_equal. apply map_ext_in. intros c Hc. rewrite Forall_forall in H. destruct (H c Hc) as (b & A & HA & HrA & E).
  rewrite (affine_quad3 8 shp_H8 dshp_H8 _ lcoords_H8 c b A); auto using diff_H8, lin_H8.
  2: { once (repeat constructor). }
  clear Hc H; subst c. rows A HA HrA. edges. unfold quad, rsum. cbn [combine map fst snd nth fold_right times_line flat_map app]. field.
Qed.
Lemma volume_H27_affine cells : Forall (affine_image 3 lcoords_H27) cells ->
  volumes_H27 cells = Ok (map (fun c => parallelepiped c 0 1 3 4) cells).
Proof.
  intros H. unfold volumes_H27. destruct (gauss_cube 3 3 3) as [q|] eqn:Eq; [|discriminate]. cbn [bind].
  injection Eq as <-.
  rewrite (quad_volumes_value 3 27 shp_H27 dshp_H27) ; [|auto|apply diff_H27|once (repeat constructor)|apply (affine_shaped _ _ lcoords_H27); auto].
  f_equal. apply map_ext_in. intros c Hc. rewrite Forall_forall in H. destruct (H c Hc) as (b & A & HA & HrA & E).
  rewrite (affine_quad3 27 shp_H27 dshp_H27 _ lcoords_H27 c b A); auto using diff_H27, lin_H27.
  2: { once (repeat constructor). }
  clear Hc H; subst c. rows A HA HrA. edges. unfold quad, rsum. cbn [combine map fst snd nth fold_right times_line flat_map app]. field.
Qed.

(** cells with generated functions *)
Lemma generated n dim lcoords monoms shape M C : generates n dim lcoords monoms shape -> gen_matrix n lcoords monoms = Ok M ->
  right_inverse n M C ->
  (forall p, length p = dim -> gen_shp C monoms p = Ok (shape p)) /\ differentiates dim n (gen_shp C monoms) (gen_dshp dim C monoms).
Proof. intros (M' & E & _ & H) E' HC. rewrite E in E'. injection E' as <-. auto. Qed.
Lemma generated_reproduces dim lcoords shp (shape : list R -> list R) f :
  (forall p, length p = dim -> shp p = Ok (shape p)) -> reproduces dim (fun p => Ok (shape p)) lcoords f -> reproduces dim shp lcoords f.
Proof. intros E H p Hp. destruct (H p Hp) as (N & E' & H'). injection E' as <-. exists (shape p). split; auto. Qed.

Lemma volume_TET10_affine M C cells : gen_matrix 10 lcoords_TET10 polybase_TET10 = Ok M -> right_inverse 10 M C ->
  Forall (affine_image 3 lcoords_TET10) cells ->
  volumes_TET10 C cells = Ok (map (fun c => parallelepiped c 0 1 2 3 / 6) cells).
Proof.
  intros HM HC H. destruct (generated _ _ _ _ _ _ _ gen_TET10 HM HC) as [Hs Hd]. unfold volumes_TET10.
  rewrite (quad_volumes_value 3 10 (gen_shp C polybase_TET10)); [|auto|exact Hd|once (repeat constructor)|apply (affine_shaped _ _ lcoords_TET10); auto].
  f_equal. apply map_ext_in. intros c Hc. rewrite Forall_forall in H. destruct (H c Hc) as (b & A & HA & HrA & E).
  rewrite (affine_quad3 10 (gen_shp C polybase_TET10) _ _ lcoords_TET10 c b A); auto.
  2: { once (repeat constructor). }
  2: { intros. apply (generated_reproduces 3 _ _ shape_TET10); auto. apply lin_TET10; auto. }
  clear Hc H; subst c. rows A HA HrA. edges. unfold quad, rsum, Gauss_Legendre_Tet_4. cbn [combine map fst snd nth fold_right repeat]. field.
Qed.
Lemma volume_W6_affine M C cells : gen_matrix 6 lcoords_W6 polybase_W6 = Ok M -> right_inverse 6 M C ->
  Forall (affine_image 3 lcoords_W6) cells ->
  volumes_W6 C cells = Ok (map (fun c => parallelepiped c 0 1 2 3 / 2) cells).
Proof.
  intros HM HC H. destruct (generated _ _ _ _ _ _ _ gen_W6 HM HC) as [Hs Hd]. unfold volumes_W6.
  destruct Gauss_Legendre_Wedge_3x2 as [q|] eqn:Eq; [|discriminate]. injection Eq as <-. cbn [bind].
  rewrite (quad_volumes_value 3 6 (gen_shp C polybase_W6)); [|auto|exact Hd|once (repeat constructor)|apply (affine_shaped _ _ lcoords_W6); auto].
  f_equal. apply map_ext_in. intros c Hc. rewrite Forall_forall in H. destruct (H c Hc) as (b & A & HA & HrA & E).
  rewrite (affine_quad3 6 (gen_shp C polybase_W6) _ _ lcoords_W6 c b A); auto.
  2: { once (repeat constructor). }
  2: { intros. apply (generated_reproduces 3 _ _ shape_W6); auto. apply lin_W6; auto. }
  clear Hc H; subst c. rows A HA HrA. edges. unfold quad, rsum. cbn [combine map fst snd nth fold_right app]. field.
Qed.
Lemma volume_W18_affine M C cells : gen_matrix 18 lcoords_W18 polybase_W18 = Ok M -> right_inverse 18 M C ->
  Forall (affine_image 3 lcoords_W18) cells ->
  volumes_W18 C cells = Ok (map (fun c => parallelepiped c 0 1 2 3 / 2) cells).
Proof.
  intros HM HC H. destruct (generated _ _ _ _ _ _ _ gen_W18 HM HC) as [Hs Hd]. unfold volumes_W18.
  destruct Gauss_Legendre_Wedge_3x3 as [q|] eqn:Eq; [|discriminate]. injection Eq as <-. cbn [bind].
  rewrite (quad_volumes_value 3 18 (gen_shp C polybase_W18)); [|auto|exact Hd|once (repeat constructor)|apply (affine_shaped _ _ lcoords_W18); auto].
  f_equal. apply map_ext_in. intros c Hc. rewrite Forall_forall in H. destruct (H c Hc) as (b & A & HA & HrA & E).
  rewrite (affine_quad3 18 (gen_shp C polybase_W18) _ _ lcoords_W18 c b A); auto.
  2: { once (repeat constructor). }
  2: { intros. apply (generated_reproduces 3 _ _ shape_W18); auto. apply lin_W18; auto. }
  clear Hc H; subst c. rows A HA HrA. edges. unfold quad, rsum. cbn [combine map fst snd nth fold_right app flat_map]. field.
Qed.
