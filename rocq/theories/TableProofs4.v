(** * The volume of a hexahedron is the volume behind its faces *)
From Coq Require Import Reals Lra Lia List.
From Verif Require Import Base BaseFacts TrModel TrSpec SplitSpec SplitProofs QuadModel QuadSpec QuadProofs6 TableModel TableSpec TableProofs ShapeProofs4.
Import ListNotations.
Local Open Scope R_scope.

(** derivatives of a0 + a1 r + a2 s + a3 t + a4 r s + a5 s t + a6 r t + a7 r s t *)
Definition dr (a1 a4 a6 a7 s t : R) := a1 + a4 * s + a6 * t + a7 * (s * t).
Definition det9 (x y z u v w p q r : R) := x * (v * r - w * q) - u * (y * r - z * q) + p * (y * w - z * v).
Definition at_rst (a1 a2 a3 a4 a5 a6 a7 b1 b2 b3 b4 b5 b6 b7 c1 c2 c3 c4 c5 c6 c7 r s t : R) :=
  det9 (dr a1 a4 a6 a7 s t) (dr b1 b4 b6 b7 s t) (dr c1 c4 c6 c7 s t)
       (dr a2 a4 a5 a7 r t) (dr b2 b4 b5 b7 r t) (dr c2 c4 c5 c7 r t)
       (dr a3 a6 a5 a7 r s) (dr b3 b6 b5 b7 r s) (dr c3 c6 c5 c7 r s).
Definition D3 (a b c u v w p q r : R) := a * (v * r - w * q) - b * (u * r - w * p) + c * (u * q - v * p).
Lemma gauss_sum g a1 a2 a3 a4 a5 a6 a7 b1 b2 b3 b4 b5 b6 b7 c1 c2 c3 c4 c5 c6 c7 :
  let f := at_rst a1 a2 a3 a4 a5 a6 a7 b1 b2 b3 b4 b5 b6 b7 c1 c2 c3 c4 c5 c6 c7 in
  f (-g) (-g) (-g) + f (-g) (-g) g + f (-g) g (-g) + f (-g) g g + f g (-g) (-g) + f g (-g) g + f g g (-g) + f g g g =
  8 * (D3 a1 b1 c1 a2 b2 c2 a3 b3 c3 + g * g * (D3 a1 b1 c1 a4 b4 c4 a6 b6 c6 + D3 a4 b4 c4 a2 b2 c2 a5 b5 c5 + D3 a6 b6 c6 a5 b5 c5 a3 b3 c3)).
Proof. cbv zeta. unfold at_rst, det9, dr, D3. ring. Qed.
Definition m1 (x0 x1 x2 x3 x4 x5 x6 x7 : R) : R := (- x0 + x1 + x2 - x3 - x4 + x5 + x6 - x7) / 8.
Definition m2 (x0 x1 x2 x3 x4 x5 x6 x7 : R) : R := (- x0 - x1 + x2 + x3 - x4 - x5 + x6 + x7) / 8.
Definition m3 (x0 x1 x2 x3 x4 x5 x6 x7 : R) : R := (- x0 - x1 - x2 - x3 + x4 + x5 + x6 + x7) / 8.
Definition m4 (x0 x1 x2 x3 x4 x5 x6 x7 : R) : R := (x0 - x1 + x2 - x3 + x4 - x5 + x6 - x7) / 8.
Definition m5 (x0 x1 x2 x3 x4 x5 x6 x7 : R) : R := (x0 + x1 - x2 - x3 - x4 - x5 + x6 + x7) / 8.
Definition m6 (x0 x1 x2 x3 x4 x5 x6 x7 : R) : R := (x0 - x1 - x2 + x3 - x4 + x5 + x6 - x7) / 8.
Definition m7 (x0 x1 x2 x3 x4 x5 x6 x7 : R) : R := (- x0 + x1 - x2 + x3 + x4 - x5 + x6 - x7) / 8.

Lemma hexahedron_sum g x0 x1 x2 x3 x4 x5 x6 x7 y0 y1 y2 y3 y4 y5 y6 y7 z0 z1 z2 z3 z4 z5 z6 z7 : g * g = 1 / 3 ->
  let c := [[x0; y0; z0]; [x1; y1; z1]; [x2; y2; z2]; [x3; y3; z3]; [x4; y4; z4]; [x5; y5; z5]; [x6; y6; z6]; [x7; y7; z7]] in
  let f := at_rst (m1 x0 x1 x2 x3 x4 x5 x6 x7) (m2 x0 x1 x2 x3 x4 x5 x6 x7) (m3 x0 x1 x2 x3 x4 x5 x6 x7) (m4 x0 x1 x2 x3 x4 x5 x6 x7) (m5 x0 x1 x2 x3 x4 x5 x6 x7) (m6 x0 x1 x2 x3 x4 x5 x6 x7) (m7 x0 x1 x2 x3 x4 x5 x6 x7) (m1 y0 y1 y2 y3 y4 y5 y6 y7) (m2 y0 y1 y2 y3 y4 y5 y6 y7) (m3 y0 y1 y2 y3 y4 y5 y6 y7) (m4 y0 y1 y2 y3 y4 y5 y6 y7) (m5 y0 y1 y2 y3 y4 y5 y6 y7) (m6 y0 y1 y2 y3 y4 y5 y6 y7) (m7 y0 y1 y2 y3 y4 y5 y6 y7) (m1 z0 z1 z2 z3 z4 z5 z6 z7) (m2 z0 z1 z2 z3 z4 z5 z6 z7) (m3 z0 z1 z2 z3 z4 z5 z6 z7) (m4 z0 z1 z2 z3 z4 z5 z6 z7) (m5 z0 z1 z2 z3 z4 z5 z6 z7) (m6 z0 z1 z2 z3 z4 z5 z6 z7) (m7 z0 z1 z2 z3 z4 z5 z6 z7) in
  f (-g) (-g) (-g) + f (-g) (-g) g + f (-g) g (-g) + f (-g) g g + f g (-g) (-g) + f g (-g) g + f g g (-g) + f g g g =
  enclosed_volume hull_H8 c (seq 0 8).
Proof.
  intros Hg. cbv zeta.
  unfold enclosed_volume, face_cone, reorder, hull_H8, rsum. cbn [map nth seq fold_right].
  unfold quad_cone, tri_cone, det3, coord. cbn [nth].
  rewrite gauss_sum, Hg.
  set (xm1 := m1 x0 x1 x2 x3 x4 x5 x6 x7).
  set (xm2 := m2 x0 x1 x2 x3 x4 x5 x6 x7).
  set (xm3 := m3 x0 x1 x2 x3 x4 x5 x6 x7).
  set (xm4 := m4 x0 x1 x2 x3 x4 x5 x6 x7).
  set (xm5 := m5 x0 x1 x2 x3 x4 x5 x6 x7).
  set (xm6 := m6 x0 x1 x2 x3 x4 x5 x6 x7).
  set (xm7 := m7 x0 x1 x2 x3 x4 x5 x6 x7).
  set (xm0 := (x0 + x1 + x2 + x3 + x4 + x5 + x6 + x7) / 8).
  set (ym1 := m1 y0 y1 y2 y3 y4 y5 y6 y7).
  set (ym2 := m2 y0 y1 y2 y3 y4 y5 y6 y7).
  set (ym3 := m3 y0 y1 y2 y3 y4 y5 y6 y7).
  set (ym4 := m4 y0 y1 y2 y3 y4 y5 y6 y7).
  set (ym5 := m5 y0 y1 y2 y3 y4 y5 y6 y7).
  set (ym6 := m6 y0 y1 y2 y3 y4 y5 y6 y7).
  set (ym7 := m7 y0 y1 y2 y3 y4 y5 y6 y7).
  set (ym0 := (y0 + y1 + y2 + y3 + y4 + y5 + y6 + y7) / 8).
  set (zm1 := m1 z0 z1 z2 z3 z4 z5 z6 z7).
  set (zm2 := m2 z0 z1 z2 z3 z4 z5 z6 z7).
  set (zm3 := m3 z0 z1 z2 z3 z4 z5 z6 z7).
  set (zm4 := m4 z0 z1 z2 z3 z4 z5 z6 z7).
  set (zm5 := m5 z0 z1 z2 z3 z4 z5 z6 z7).
  set (zm6 := m6 z0 z1 z2 z3 z4 z5 z6 z7).
  set (zm7 := m7 z0 z1 z2 z3 z4 z5 z6 z7).
  set (zm0 := (z0 + z1 + z2 + z3 + z4 + z5 + z6 + z7) / 8).
  assert (Ex0 : x0 = xm0 - xm1 - xm2 - xm3 + xm4 + xm5 + xm6 - xm7) by (unfold xm0, xm1, xm2, xm3, xm4, xm5, xm6, xm7, m1, m2, m3, m4, m5, m6, m7; field).
  assert (Ex1 : x1 = xm0 + xm1 - xm2 - xm3 - xm4 + xm5 - xm6 + xm7) by (unfold xm0, xm1, xm2, xm3, xm4, xm5, xm6, xm7, m1, m2, m3, m4, m5, m6, m7; field).
  assert (Ex2 : x2 = xm0 + xm1 + xm2 - xm3 + xm4 - xm5 - xm6 - xm7) by (unfold xm0, xm1, xm2, xm3, xm4, xm5, xm6, xm7, m1, m2, m3, m4, m5, m6, m7; field).
  assert (Ex3 : x3 = xm0 - xm1 + xm2 - xm3 - xm4 - xm5 + xm6 + xm7) by (unfold xm0, xm1, xm2, xm3, xm4, xm5, xm6, xm7, m1, m2, m3, m4, m5, m6, m7; field).
  assert (Ex4 : x4 = xm0 - xm1 - xm2 + xm3 + xm4 - xm5 - xm6 + xm7) by (unfold xm0, xm1, xm2, xm3, xm4, xm5, xm6, xm7, m1, m2, m3, m4, m5, m6, m7; field).
  assert (Ex5 : x5 = xm0 + xm1 - xm2 + xm3 - xm4 - xm5 + xm6 - xm7) by (unfold xm0, xm1, xm2, xm3, xm4, xm5, xm6, xm7, m1, m2, m3, m4, m5, m6, m7; field).
  assert (Ex6 : x6 = xm0 + xm1 + xm2 + xm3 + xm4 + xm5 + xm6 + xm7) by (unfold xm0, xm1, xm2, xm3, xm4, xm5, xm6, xm7, m1, m2, m3, m4, m5, m6, m7; field).
  assert (Ex7 : x7 = xm0 - xm1 + xm2 + xm3 - xm4 + xm5 - xm6 - xm7) by (unfold xm0, xm1, xm2, xm3, xm4, xm5, xm6, xm7, m1, m2, m3, m4, m5, m6, m7; field).
  assert (Ey0 : y0 = ym0 - ym1 - ym2 - ym3 + ym4 + ym5 + ym6 - ym7) by (unfold ym0, ym1, ym2, ym3, ym4, ym5, ym6, ym7, m1, m2, m3, m4, m5, m6, m7; field).
  assert (Ey1 : y1 = ym0 + ym1 - ym2 - ym3 - ym4 + ym5 - ym6 + ym7) by (unfold ym0, ym1, ym2, ym3, ym4, ym5, ym6, ym7, m1, m2, m3, m4, m5, m6, m7; field).
  assert (Ey2 : y2 = ym0 + ym1 + ym2 - ym3 + ym4 - ym5 - ym6 - ym7) by (unfold ym0, ym1, ym2, ym3, ym4, ym5, ym6, ym7, m1, m2, m3, m4, m5, m6, m7; field).
  assert (Ey3 : y3 = ym0 - ym1 + ym2 - ym3 - ym4 - ym5 + ym6 + ym7) by (unfold ym0, ym1, ym2, ym3, ym4, ym5, ym6, ym7, m1, m2, m3, m4, m5, m6, m7; field).
  assert (Ey4 : y4 = ym0 - ym1 - ym2 + ym3 + ym4 - ym5 - ym6 + ym7) by (unfold ym0, ym1, ym2, ym3, ym4, ym5, ym6, ym7, m1, m2, m3, m4, m5, m6, m7; field).
  assert (Ey5 : y5 = ym0 + ym1 - ym2 + ym3 - ym4 - ym5 + ym6 - ym7) by (unfold ym0, ym1, ym2, ym3, ym4, ym5, ym6, ym7, m1, m2, m3, m4, m5, m6, m7; field).
  assert (Ey6 : y6 = ym0 + ym1 + ym2 + ym3 + ym4 + ym5 + ym6 + ym7) by (unfold ym0, ym1, ym2, ym3, ym4, ym5, ym6, ym7, m1, m2, m3, m4, m5, m6, m7; field).
  assert (Ey7 : y7 = ym0 - ym1 + ym2 + ym3 - ym4 + ym5 - ym6 - ym7) by (unfold ym0, ym1, ym2, ym3, ym4, ym5, ym6, ym7, m1, m2, m3, m4, m5, m6, m7; field).
  assert (Ez0 : z0 = zm0 - zm1 - zm2 - zm3 + zm4 + zm5 + zm6 - zm7) by (unfold zm0, zm1, zm2, zm3, zm4, zm5, zm6, zm7, m1, m2, m3, m4, m5, m6, m7; field).
  assert (Ez1 : z1 = zm0 + zm1 - zm2 - zm3 - zm4 + zm5 - zm6 + zm7) by (unfold zm0, zm1, zm2, zm3, zm4, zm5, zm6, zm7, m1, m2, m3, m4, m5, m6, m7; field).
  assert (Ez2 : z2 = zm0 + zm1 + zm2 - zm3 + zm4 - zm5 - zm6 - zm7) by (unfold zm0, zm1, zm2, zm3, zm4, zm5, zm6, zm7, m1, m2, m3, m4, m5, m6, m7; field).
  assert (Ez3 : z3 = zm0 - zm1 + zm2 - zm3 - zm4 - zm5 + zm6 + zm7) by (unfold zm0, zm1, zm2, zm3, zm4, zm5, zm6, zm7, m1, m2, m3, m4, m5, m6, m7; field).
  assert (Ez4 : z4 = zm0 - zm1 - zm2 + zm3 + zm4 - zm5 - zm6 + zm7) by (unfold zm0, zm1, zm2, zm3, zm4, zm5, zm6, zm7, m1, m2, m3, m4, m5, m6, m7; field).
  assert (Ez5 : z5 = zm0 + zm1 - zm2 + zm3 - zm4 - zm5 + zm6 - zm7) by (unfold zm0, zm1, zm2, zm3, zm4, zm5, zm6, zm7, m1, m2, m3, m4, m5, m6, m7; field).
  assert (Ez6 : z6 = zm0 + zm1 + zm2 + zm3 + zm4 + zm5 + zm6 + zm7) by (unfold zm0, zm1, zm2, zm3, zm4, zm5, zm6, zm7, m1, m2, m3, m4, m5, m6, m7; field).
  assert (Ez7 : z7 = zm0 - zm1 + zm2 + zm3 - zm4 + zm5 - zm6 - zm7) by (unfold zm0, zm1, zm2, zm3, zm4, zm5, zm6, zm7, m1, m2, m3, m4, m5, m6, m7; field).
  rewrite Ex0, Ex1, Ex2, Ex3, Ex4, Ex5, Ex6, Ex7.
  rewrite Ey0, Ey1, Ey2, Ey3, Ey4, Ey5, Ey6, Ey7.
  rewrite Ez0, Ez1, Ez2, Ez3, Ez4, Ez5, Ez6, Ez7.
  clear - Hg. clearbody xm0 xm1 xm2 xm3 xm4 xm5 xm6 xm7 ym0 ym1 ym2 ym3 ym4 ym5 ym6 ym7 zm0 zm1 zm2 zm3 zm4 zm5 zm6 zm7.
  unfold D3. field.
Qed.

Lemma entry_H8 x0 x1 x2 x3 x4 x5 x6 x7 c a r s t : column c a = [x0; x1; x2; x3; x4; x5; x6; x7] ->
  QuadProofs4.entry c (dvalues dshp_H8 [r; s; t]) a 0 = dr (m1 x0 x1 x2 x3 x4 x5 x6 x7) (m4 x0 x1 x2 x3 x4 x5 x6 x7) (m6 x0 x1 x2 x3 x4 x5 x6 x7) (m7 x0 x1 x2 x3 x4 x5 x6 x7) s t /\
  QuadProofs4.entry c (dvalues dshp_H8 [r; s; t]) a 1 = dr (m2 x0 x1 x2 x3 x4 x5 x6 x7) (m4 x0 x1 x2 x3 x4 x5 x6 x7) (m5 x0 x1 x2 x3 x4 x5 x6 x7) (m7 x0 x1 x2 x3 x4 x5 x6 x7) r t /\
  QuadProofs4.entry c (dvalues dshp_H8 [r; s; t]) a 2 = dr (m3 x0 x1 x2 x3 x4 x5 x6 x7) (m6 x0 x1 x2 x3 x4 x5 x6 x7) (m5 x0 x1 x2 x3 x4 x5 x6 x7) (m7 x0 x1 x2 x3 x4 x5 x6 x7) r s.
Proof.
  intros E. unfold QuadProofs4.entry. rewrite E. unfold dvalues, dshp_H8, column. cbn [map nth]. unfold dot, rsum. cbn [combine map fst snd fold_right].
  unfold dr, m1, m2, m3, m4, m5, m6, m7. numR. repeat split; field.
Qed.
Lemma hexahedron_quad c q : length c = 8%nat -> rect 3 c -> gauss_cube 2 2 2 = Ok q ->
  quad q (fun p => Jdet 3 c (dvalues dshp_H8 p)) = enclosed_volume hull_H8 c (seq 0 8).
Proof.
  intros Hl Hr Eq. injection Eq as <-.
  do 8 (destruct c as [|? c]; [discriminate|]). destruct c; [|discriminate].
  repeat match goal with H : Forall _ (_ :: _) |- _ => inversion H; clear H; subst end.
  unfold rect in Hr. repeat (apply Forall_cons_iff in Hr; destruct Hr as [?H Hr]).
  repeat match goal with H : length ?l = 3%nat |- _ => destruct l as [|? [|? [|? [|]]]]; try discriminate H; clear H end.
  match goal with |- quad _ (fun p => Jdet 3 ?c _) = _ => set (cc := c) end.
  set (g := sqrt (1 / 3)). assert (Hg : g * g = 1 / 3) by (apply sqrt_sqrt; lra).
  unfold cc at 2. rewrite <- (hexahedron_sum g) by exact Hg. cbv zeta.
  unfold quad, rsum. cbn [combine map fst snd nth fold_right times_line flat_map app].
  unfold Jdet, det_uvw.
  repeat match goal with |- context [QuadProofs4.entry cc (dvalues dshp_H8 [?r; ?s; ?t]) ?a 0] =>
    destruct (entry_H8 _ _ _ _ _ _ _ _ cc a r s t eq_refl) as (-> & -> & ->) end.
  clearbody g. clear. cbn [nth]. unfold at_rst, det9.
  repeat match goal with |- context [dr ?a ?b ?c ?d ?e ?f] => generalize (dr a b c d e f); intro end.
  ring.
Qed.
Lemma volumes_H8_faces cells : shaped 8 3 cells -> volumes_H8 cells = Ok (map (fun c => enclosed_volume hull_H8 c (seq 0 8)) cells).
Proof.
  intros H. unfold volumes_H8. destruct (gauss_cube 2 2 2) as [q|] eqn:Eq; [|discriminate]. cbn [bind].
  assert (Hq : rect 3 (fst q)) by (injection Eq as <-; once (repeat constructor)).
  rewrite (quad_volumes_value 3 8 shp_H8 dshp_H8) by auto using diff_H8.
  f_equal. apply map_ext_in. intros c Hc. destruct (proj1 (Forall_forall _ _) H c Hc) as [Hl Hr]. apply hexahedron_quad; auto.
Qed.

(** in terms of the mesh: the faces extracted from the topology *)
Lemma face_cone_local coords cell face : (forall k, In k face -> (k < length cell)%nat) ->
  face_cone (map (fun n => nth n coords []) cell) (seq 0 (length cell)) face = face_cone coords cell face.
Proof.
  intros H.
  assert (C : forall k d, (k < length cell)%nat -> coord (map (fun n => nth n coords []) cell) k d = coord coords (nth k cell 0%nat) d).
  { intros k d Hk. unfold coord. rewrite (nth_indep _ [] ((fun n => nth n coords []) 0%nat)) by (rewrite map_length; exact Hk).
    rewrite (map_nth (fun n => nth n coords [])). reflexivity. }
  unfold face_cone, reorder.
  assert (E : map (fun k => nth k (seq 0 (length cell)) 0%nat) face = face).
  { rewrite <- (map_id face) at 2. apply map_ext_in. intros k Hk. rewrite seq_nth by auto. reflexivity. }
  rewrite E. destruct face as [|a [|b [|c [|d [|]]]]]; cbn [map]; try reflexivity;
    unfold quad_cone, tri_cone, det3; rewrite !C by (apply H; cbn; tauto); reflexivity.
Qed.
Lemma faces_H8_volume coords topo ecs : rect 3 coords -> rect 8 topo -> cells_coords coords topo = Ok ecs ->
  exists faces vs, faces_H8 topo = Ok faces /\ volumes_H8 ecs = Ok vs /\
    forall i f v, nth_error faces i = Some f -> nth_error vs i = Some v ->
      v = rsum (map (fun q => match q with [a; b; c; d] => quad_cone coords a b c d | _ => 0 end) f).
Proof.
  intros Hc Ht He. exists (map (fun cell => map (fun ns => reorder ns cell) path_H8_to_Q4) topo).
  assert (G : forall cell ec, mapM (get coords) cell = Ok ec -> ec = map (fun n => nth n coords []) cell /\ rect 3 ec).
  { induction cell as [|n cell IH]; intros ec H; cbn in H; [injection H as <-; split; [reflexivity|constructor]|].
    destruct (get coords n) as [p|] eqn:E; [|discriminate]. cbn in H. destruct (mapM (get coords) cell) as [ps|] eqn:E2; [|discriminate].
    injection H as <-. destruct (IH _ eq_refl) as [-> R]. apply get_Ok in E. split; [cbn; f_equal; symmetry; apply nth_error_nth, E|].
    constructor; [|exact R]. apply (proj1 (Forall_forall _ _) Hc). eapply nth_error_In, E. }
  assert (E : ecs = map (fun cell => map (fun n => nth n coords []) cell) topo /\ shaped 8 3 ecs).
  { unfold cells_coords in He. revert ecs He. induction Ht as [|cell topo Hl _ IH]; intros ecs He; cbn in He; [injection He as <-; split; [reflexivity|constructor]|].
    destruct (mapM (get coords) cell) as [ec|] eqn:E1; [|discriminate]. cbn in He.
    destruct (mapM (mapM (get coords)) topo) as [ecs'|] eqn:E2; [|discriminate]. injection He as <-.
    destruct (IH _ eq_refl) as [-> R]. destruct (G _ _ E1) as [-> R1]. split; [reflexivity|]. constructor; [|exact R].
    split; [rewrite map_length; exact Hl|exact R1]. }
  destruct E as [-> R]. eexists. split; [apply faces_H8_table, Ht|]. split; [apply volumes_H8_faces, R|].
  intros i f v Hf Hv. rewrite map_map in Hv. rewrite nth_error_map in Hf, Hv. destruct (nth_error topo i) as [cell|] eqn:Ei; [|discriminate].
  cbn [option_map] in Hf, Hv.
  assert (F : f = map (fun ns => reorder ns cell) path_H8_to_Q4) by congruence.
  assert (V : v = enclosed_volume hull_H8 (map (fun n => nth n coords []) cell) (seq 0 8)) by congruence.
  rewrite F, V. clear F V Hf Hv. pose proof (proj1 (Forall_forall _ _) Ht cell (nth_error_In _ _ Ei)) as Hl.
  unfold enclosed_volume. rewrite map_map. f_equal. apply map_ext_in. intros face Hface.
  replace (seq 0 8) with (seq 0 (length cell)) by (rewrite Hl; reflexivity). rewrite face_cone_local.
  - repeat (destruct Hface as [<-|Hface]; [reflexivity|]). contradiction.
  - rewrite Hl. intros k Hk. repeat (destruct Hface as [<-|Hface]; [cbn in Hk; lia|]). contradiction.
Qed.
