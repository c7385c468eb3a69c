(** * Triangles: tri_glob_to_loc and inscribed_radius *)
From Coq Require Import Reals Lra Lia List.
From Verif Require Import TriModel TriSpec TriProofs TriProofs2 TriProofs3 TriProofs4 BaseFacts ShapeProofs4.
Import ListNotations.
Local Open Scope R_scope.

Lemma sqr_sum_pos : forall x y z, 0 <= x * x + y * y + z * z.
Proof. intros. pose proof (Rle_0_sqr x). pose proof (Rle_0_sqr y). pose proof (Rle_0_sqr z). unfold Rsqr in *. lra. Qed.
Lemma norm3 : forall x y z : R, norm [x; y; z] = Ok (sqrt (x * x + y * y + z * z)).
Proof. intros. unfold norm. rewrite vdot3. reflexivity. Qed.
Lemma vsub3 : forall a b c x y z : R, vsub [a; b; c] [x; y; z] = Ok [a - x; b - y; c - z].
Proof. reflexivity. Qed.
Lemma vmean3 : forall x0 y0 z0 x1 y1 z1 x2 y2 z2 : R, vmean [[x0; y0; z0]; [x1; y1; z1]; [x2; y2; z2]] =
  Ok [(x0 + x1 + x2) / 3; (y0 + y1 + y2) / 3; (z0 + z1 + z2) / 3].
Proof. intros. unfold vmean, vsum, vadd. cbn. reflexivity. Qed.

(** the local coordinates in terms of the edges from the first node and their lengths *)
Section Local.
  Variables x0 y0 z0 x1 y1 z1 x2 y2 z2 : R.
  Let u1 := x1 - x0. Let u2 := y1 - y0. Let u3 := z1 - z0.
  Let w1 := x2 - x0. Let w2 := y2 - y0. Let w3 := z2 - z0.
  Let uu := u1 * u1 + u2 * u2 + u3 * u3.
  Let ww := w1 * w1 + w2 * w2 + w3 * w3.
  Let uw := u1 * w1 + u2 * w2 + u3 * w3.
  Hypothesis Hu : uu <> 0.
  Hypothesis Hw : ww <> 0.
  Lemma sqrt_uu : sqrt uu * sqrt uu = uu.
  Proof. apply sqrt_sqrt. unfold uu. apply sqr_sum_pos. Qed.
  Lemma sqrt_ww : sqrt ww * sqrt ww = ww.
  Proof. apply sqrt_sqrt. unfold ww. apply sqr_sum_pos. Qed.
  Lemma sqrt_uu_0 : sqrt uu <> 0.
  Proof. intros H. pose proof sqrt_uu as E. rewrite H in E. apply Hu. lra. Qed.
  Lemma sqrt_ww_0 : sqrt ww <> 0.
  Proof. intros H. pose proof sqrt_ww as E. rewrite H in E. apply Hw. lra. Qed.
  (** the axes *)
  Let n := sqrt uu. Let m := sqrt ww.
  Let t0 := [u1 / n; u2 / n; u3 / n].
  Let t2 := [u2 / n * (w3 / m) - u3 / n * (w2 / m); u3 / n * (w1 / m) - u1 / n * (w3 / m); u1 / n * (w2 / m) - u2 / n * (w1 / m)].
  Let t1 := [nth 1 t2 0 * (u3 / n) - nth 2 t2 0 * (u2 / n); nth 2 t2 0 * (u1 / n) - nth 0 t2 0 * (u3 / n); nth 0 t2 0 * (u2 / n) - nth 1 t2 0 * (u1 / n)].
  Let g1 := (x0 + x1 + x2) / 3. Let g2 := (y0 + y1 + y2) / 3. Let g3 := (z0 + z1 + z2) / 3.
  Let lc (t : list R) (x y z : R) := nth 0 t 0 * (x - g1) + nth 1 t 0 * (y - g2) + nth 2 t 0 * (z - g3).
  Lemma local_value : tri_glob_to_loc [[x0; y0; z0]; [x1; y1; z1]; [x2; y2; z2]] =
    Ok ([[lc t0 x0 y0 z0; lc t1 x0 y0 z0]; [lc t0 x1 y1 z1; lc t1 x1 y1 z1]; [lc t0 x2 y2 z2; lc t1 x2 y2 z2]], [g1; g2; g3], [t0; t1; t2]).
  Proof.
    unfold tri_glob_to_loc. rewrite vmean3. unfold get. cbn [nth_error bind]. rewrite !vsub3. cbn [bind].
    unfold normalize. rewrite !norm3. cbn [bind]. fold u1 u2 u3 w1 w2 w3. fold uu ww. fold n m.
    destruct (Req_EM_T n 0) as [E|_]; [exfalso; exact (sqrt_uu_0 E)|]. cbn [bind].
    destruct (Req_EM_T m 0) as [E|_]; [exfalso; exact (sqrt_ww_0 E)|]. cbn [bind map vcross].
    cbn [mapM]. rewrite !vsub3. cbn [bind]. rewrite !vdot3. cbn [bind]. reflexivity.
  Qed.
  (** the second axis is  w/m - (uw / (n n m)) u *)
  Lemma t0_u : nth 0 t0 0 * u1 + nth 1 t0 0 * u2 + nth 2 t0 0 * u3 = n.
  Proof.
    pose proof sqrt_uu_0 as N0. pose proof sqrt_uu as NN. cbn [nth t0]. fold n in N0, NN.
    replace (u1 / n * u1 + u2 / n * u2 + u3 / n * u3) with (uu / n) by (unfold uu; field; exact N0). rewrite <- NN. field. exact N0.
  Qed.
  Lemma t0_w : nth 0 t0 0 * w1 + nth 1 t0 0 * w2 + nth 2 t0 0 * w3 = uw / n.
  Proof. pose proof sqrt_uu_0 as N0. cbn [nth t0]. fold n in N0. unfold uw. field. exact N0. Qed.
  Lemma t1_u : nth 0 t1 0 * u1 + nth 1 t1 0 * u2 + nth 2 t1 0 * u3 = 0.
  Proof. cbn [nth t1]. unfold Rdiv. ring. Qed.
  Lemma t1_w : nth 0 t1 0 * w1 + nth 1 t1 0 * w2 + nth 2 t1 0 * w3 = (uu * ww - uw * uw) / (uu * m).
  Proof.
    pose proof sqrt_uu_0 as N0. pose proof sqrt_uu as NN. pose proof sqrt_ww_0 as M0. fold n in N0, NN. fold m in M0.
    replace (uu * m) with (n * n * m) by (rewrite NN; reflexivity).
    cbn [nth t1 t2]. unfold uu, ww, uw. field. split; assumption.
  Qed.
End Local.

Lemma dist2_3 : forall a b c x y z : R, dist2 [a; b; c] [x; y; z] = (a - x) * (a - x) + (b - y) * (b - y) + (c - z) * (c - z).
Proof. intros. unfold dist2. cbn [combine map fold_right fst snd]. ring. Qed.
Lemma dist2_2 : forall a b x y : R, dist2 [a; b] [x; y] = (a - x) * (a - x) + (b - y) * (b - y).
Proof. intros. unfold dist2. cbn [combine map fold_right fst snd]. ring. Qed.
Lemma sprod3 : forall a b c x y z : R, sprod [a; b; c] [x; y; z] = a * x + b * y + c * z.
Proof. intros. unfold sprod. cbn [combine map fold_right fst snd]. ring. Qed.

(** a right angle at the first node *)
Lemma loc_right_angle : forall a b c, dim 3 a -> dim 3 b -> dim 3 c -> a <> b -> a <> c -> sprod (sub b a) (sub c a) = 0 ->
  exists la lb lc g T, tri_glob_to_loc [a; b; c] = Ok ([la; lb; lc], g, T) /\
    dist2 la lb = dist2 a b /\ dist2 la lc = dist2 a c /\ dist2 lb lc = dist2 b c /\ length la = 2%nat /\ length lb = 2%nat /\ length lc = 2%nat.
Proof.
  intros a b c Ha Hb Hc Hab Hac H.
  destruct (dim3 _ Ha) as (x0 & y0 & z0 & ->), (dim3 _ Hb) as (x1 & y1 & z1 & ->), (dim3 _ Hc) as (x2 & y2 & z2 & ->).
  unfold sub in H. cbn [combine map fst snd] in H. rewrite sprod3 in H.
  assert (P : forall p q r p' q' r' : R, [p; q; r] <> [p'; q'; r'] -> (p' - p) * (p' - p) + (q' - q) * (q' - q) + (r' - r) * (r' - r) <> 0).
  { intros p q r p' q' r' Hne E. apply Hne. pose proof (Rle_0_sqr (p' - p)). pose proof (Rle_0_sqr (q' - q)). pose proof (Rle_0_sqr (r' - r)). unfold Rsqr in *.
    assert (E1 : (p' - p) * (p' - p) = 0) by lra. assert (E2 : (q' - q) * (q' - q) = 0) by lra. assert (E3 : (r' - r) * (r' - r) = 0) by lra.
    apply Rmult_integral in E1, E2, E3. assert (p = p') by (destruct E1; lra). assert (q = q') by (destruct E2; lra). assert (r = r') by (destruct E3; lra). congruence. }
  apply P in Hab. apply P in Hac.
  pose proof (local_value x0 y0 z0 x1 y1 z1 x2 y2 z2 Hab Hac) as E.
  pose proof (t0_u x0 y0 z0 x1 y1 z1 Hab) as A1. pose proof (t0_w x0 y0 z0 x1 y1 z1 x2 y2 z2 Hab) as A2.
  pose proof (t1_u x0 y0 z0 x1 y1 z1 x2 y2 z2) as A3. pose proof (t1_w x0 y0 z0 x1 y1 z1 x2 y2 z2 Hab Hac) as A4.
  pose proof (sqrt_uu x0 y0 z0 x1 y1 z1) as A5. pose proof (sqrt_ww x0 y0 z0 x2 y2 z2) as A6. pose proof (sqrt_ww_0 x0 y0 z0 x2 y2 z2 Hac) as A7.
  set (uu := (x1 - x0) * (x1 - x0) + (y1 - y0) * (y1 - y0) + (z1 - z0) * (z1 - z0)) in *.
  set (ww := (x2 - x0) * (x2 - x0) + (y2 - y0) * (y2 - y0) + (z2 - z0) * (z2 - z0)) in *.
  rewrite H in A2, A4.
  replace (0 / sqrt uu) with 0 in A2 by (unfold Rdiv; ring).
  replace ((uu * ww - 0 * 0) / (uu * sqrt ww)) with (sqrt ww) in A4.
  2:{ rewrite <- A6 at 2. field. split; assumption. }
  do 5 eexists. split; [exact E|]. rewrite !dist2_2, !dist2_3.
  match type of A1 with nth 0 ?T0 _ * _ + _ + _ = _ => set (t0 := T0) in * end.
  match type of A3 with nth 0 ?T1 _ * _ + _ + _ = _ => set (t1 := T1) in * end.
  match goal with |- context [nth 0 t0 0 * (x0 - ?G1) + nth 1 t0 0 * (y0 - ?G2) + nth 2 t0 0 * (z0 - ?G3)] => set (g1 := G1); set (g2 := G2); set (g3 := G3) end.
  set (p0 := nth 0 t0 0) in *. set (p1 := nth 1 t0 0) in *. set (p2 := nth 2 t0 0) in *.
  set (q0 := nth 0 t1 0) in *. set (q1 := nth 1 t1 0) in *. set (q2 := nth 2 t1 0) in *.
  assert (R1 : p0 * (x0 - g1) + p1 * (y0 - g2) + p2 * (z0 - g3) - (p0 * (x1 - g1) + p1 * (y1 - g2) + p2 * (z1 - g3)) = - sqrt uu) by lra.
  assert (R2 : q0 * (x0 - g1) + q1 * (y0 - g2) + q2 * (z0 - g3) - (q0 * (x1 - g1) + q1 * (y1 - g2) + q2 * (z1 - g3)) = 0) by lra.
  assert (R3 : p0 * (x0 - g1) + p1 * (y0 - g2) + p2 * (z0 - g3) - (p0 * (x2 - g1) + p1 * (y2 - g2) + p2 * (z2 - g3)) = 0) by lra.
  assert (R4 : q0 * (x0 - g1) + q1 * (y0 - g2) + q2 * (z0 - g3) - (q0 * (x2 - g1) + q1 * (y2 - g2) + q2 * (z2 - g3)) = - sqrt ww) by lra.
  assert (R5 : p0 * (x1 - g1) + p1 * (y1 - g2) + p2 * (z1 - g3) - (p0 * (x2 - g1) + p1 * (y2 - g2) + p2 * (z2 - g3)) = sqrt uu) by lra.
  assert (R6 : q0 * (x1 - g1) + q1 * (y1 - g2) + q2 * (z1 - g3) - (q0 * (x2 - g1) + q1 * (y2 - g2) + q2 * (z2 - g3)) = - sqrt ww) by lra.
  rewrite R1, R2, R3, R4, R5, R6. replace (- sqrt uu * - sqrt uu) with (sqrt uu * sqrt uu) by ring. replace (- sqrt ww * - sqrt ww) with (sqrt ww * sqrt ww) by ring.
  rewrite A5, A6. unfold uu, ww. repeat split; try lra.
Qed.
(** otherwise the second edge gets too short *)
Lemma loc_not_isometric : forall a b c, dim 3 a -> dim 3 b -> dim 3 c ->
  sprod (sub b a) (sub c a) <> 0 -> sprod (sub b a) (sub c a) * sprod (sub b a) (sub c a) < dist2 a b * dist2 a c ->
  exists la lb lc g T, tri_glob_to_loc [a; b; c] = Ok ([la; lb; lc], g, T) /\ dist2 la lc < dist2 a c.
Proof.
  intros a b c Ha Hb Hc H Hs.
  destruct (dim3 _ Ha) as (x0 & y0 & z0 & ->), (dim3 _ Hb) as (x1 & y1 & z1 & ->), (dim3 _ Hc) as (x2 & y2 & z2 & ->).
  unfold sub in H, Hs. cbn [combine map fst snd] in H, Hs. rewrite sprod3 in H, Hs. rewrite !dist2_3 in Hs.
  assert (Hab : (x1 - x0) * (x1 - x0) + (y1 - y0) * (y1 - y0) + (z1 - z0) * (z1 - z0) <> 0).
  { intros E. replace ((x0 - x1) * (x0 - x1) + (y0 - y1) * (y0 - y1) + (z0 - z1) * (z0 - z1)) with 0 in Hs by lra.
    match type of Hs with ?X * ?X < _ => pose proof (Rle_0_sqr X) end. unfold Rsqr in *. lra. }
  assert (Hac : (x2 - x0) * (x2 - x0) + (y2 - y0) * (y2 - y0) + (z2 - z0) * (z2 - z0) <> 0).
  { intros E. replace ((x0 - x2) * (x0 - x2) + (y0 - y2) * (y0 - y2) + (z0 - z2) * (z0 - z2)) with 0 in Hs by lra.
    match type of Hs with ?X * ?X < _ => pose proof (Rle_0_sqr X) end. unfold Rsqr in *. lra. }
  pose proof (local_value x0 y0 z0 x1 y1 z1 x2 y2 z2 Hab Hac) as E.
  pose proof (t0_w x0 y0 z0 x1 y1 z1 x2 y2 z2 Hab) as A2.
  pose proof (t1_w x0 y0 z0 x1 y1 z1 x2 y2 z2 Hab Hac) as A4.
  pose proof (sqrt_uu x0 y0 z0 x1 y1 z1) as A5. pose proof (sqrt_uu_0 x0 y0 z0 x1 y1 z1 Hab) as A8.
  pose proof (sqrt_ww x0 y0 z0 x2 y2 z2) as A6. pose proof (sqrt_ww_0 x0 y0 z0 x2 y2 z2 Hac) as A7.
  do 5 eexists. split; [exact E|]. rewrite dist2_2, dist2_3.
  replace ((x0 - x1) * (x0 - x1) + (y0 - y1) * (y0 - y1) + (z0 - z1) * (z0 - z1)) with ((x1 - x0) * (x1 - x0) + (y1 - y0) * (y1 - y0) + (z1 - z0) * (z1 - z0)) in Hs by ring.
  replace ((x0 - x2) * (x0 - x2) + (y0 - y2) * (y0 - y2) + (z0 - z2) * (z0 - z2)) with ((x2 - x0) * (x2 - x0) + (y2 - y0) * (y2 - y0) + (z2 - z0) * (z2 - z0)) in * by ring.
  set (uu := (x1 - x0) * (x1 - x0) + (y1 - y0) * (y1 - y0) + (z1 - z0) * (z1 - z0)) in *.
  set (ww := (x2 - x0) * (x2 - x0) + (y2 - y0) * (y2 - y0) + (z2 - z0) * (z2 - z0)) in *.
  set (uw := (x1 - x0) * (x2 - x0) + (y1 - y0) * (y2 - y0) + (z1 - z0) * (z2 - z0)) in *.
  match type of A2 with nth 0 ?T0 _ * _ + _ + _ = _ => set (t0 := T0) in * end.
  match type of A4 with nth 0 ?T1 _ * _ + _ + _ = _ => set (t1 := T1) in * end.
  match goal with |- context [nth 0 t0 0 * (x0 - ?G1) + nth 1 t0 0 * (y0 - ?G2) + nth 2 t0 0 * (z0 - ?G3)] => set (g1 := G1); set (g2 := G2); set (g3 := G3) end.
  set (p0 := nth 0 t0 0) in *. set (p1 := nth 1 t0 0) in *. set (p2 := nth 2 t0 0) in *.
  set (q0 := nth 0 t1 0) in *. set (q1 := nth 1 t1 0) in *. set (q2 := nth 2 t1 0) in *.
  assert (R3 : p0 * (x0 - g1) + p1 * (y0 - g2) + p2 * (z0 - g3) - (p0 * (x2 - g1) + p1 * (y2 - g2) + p2 * (z2 - g3)) = - (uw / sqrt uu)) by lra.
  assert (R4 : q0 * (x0 - g1) + q1 * (y0 - g2) + q2 * (z0 - g3) - (q0 * (x2 - g1) + q1 * (y2 - g2) + q2 * (z2 - g3)) = - ((uu * ww - uw * uw) / (uu * sqrt ww))) by lra.
  rewrite R3, R4.
  assert (Pu : 0 < uu) by (pose proof (sqr_sum_pos (x1 - x0) (y1 - y0) (z1 - z0)) as Q; fold uu in Q; lra).
  assert (Pw : 0 < ww) by (pose proof (sqr_sum_pos (x2 - x0) (y2 - y0) (z2 - z0)) as Q; fold ww in Q; lra).
  assert (Puw : 0 < uw * uw) by (destruct (Rtotal_order uw 0) as [L|[L|L]]; [|contradiction|apply Rmult_lt_0_compat; lra];
    replace (uw * uw) with ((- uw) * (- uw)) by ring; apply Rmult_lt_0_compat; lra).
  clear - A5 A6 A7 A8 Hs Pu Pw Puw Hab Hac.
  replace (- (uw / sqrt uu) * - (uw / sqrt uu)) with (uw * uw / (sqrt uu * sqrt uu)) by (field; exact A8).
  replace (- ((uu * ww - uw * uw) / (uu * sqrt ww)) * - ((uu * ww - uw * uw) / (uu * sqrt ww)))
    with ((uu * ww - uw * uw) * (uu * ww - uw * uw) / (uu * uu * (sqrt ww * sqrt ww))) by (field; split; assumption).
  rewrite A5, A6.
  set (q := uw * uw) in *. set (s := uu * ww - q).
  assert (Ps : 0 < s) by (unfold s; lra). assert (Es : q = uu * ww - s) by (unfold s; ring).
  apply Rmult_lt_reg_r with (uu * uu * ww); [apply Rmult_lt_0_compat; [apply Rmult_lt_0_compat|]; assumption|].
  replace ((q / uu + s * s / (uu * uu * ww)) * (uu * uu * ww)) with (q * (uu * ww) + s * s) by (field; split; assumption).
  replace (ww * (uu * uu * ww)) with ((uu * ww) * (uu * ww)) by ring.
  set (t := uu * ww) in *. cut (0 < q * s).
  - intros Hqs. replace (t * t) with ((q + s) * t) by (unfold s; ring). replace (s * s) with (s * t - q * s) by (unfold s; ring). lra.
  - apply Rmult_lt_0_compat; assumption.
Qed.

(** ** inscribed_radius *)
(** Heron: with a, b, c >= 0 the lengths of the edges *)
Lemma heron_radius : forall a b c D, 0 <= a -> 0 <= b -> 0 <= c -> 0 <= D -> a + b + c <> 0 ->
  (* 16 area^2 in terms of the edges *)
  4 * D * D = 2 * (a * a) * (b * b) + 2 * (b * b) * (c * c) + 2 * (a * a) * (c * c) - (a * a) * (a * a) - (b * b) * (b * b) - (c * c) * (c * c) ->
  exists r, (do r2 <- div (((a + b + c) / 2 - a) * ((a + b + c) / 2 - b) * ((a + b + c) / 2 - c)) ((a + b + c) / 2); Ok (sqrt r2)) = Ok r /\
    0 <= r /\ r * ((a + b + c) / 2) = D / 2.
Proof.
  intros a b c D Ha Hb Hc HD Hs HE. rewrite div_ok by lra. cbn [bind]. eexists. split; [reflexivity|]. split; [apply sqrt_pos|].
  set (s := (a + b + c) / 2). assert (Ps : 0 < s) by (unfold s; lra).
  assert (E : (s - a) * (s - b) * (s - c) / s = Rsqr (D / 2 / s)).
  { assert (F : s * ((s - a) * (s - b) * (s - c)) = D / 2 * (D / 2)) by (unfold s; lra).
    unfold Rsqr. replace (D / 2 / s * (D / 2 / s)) with (D / 2 * (D / 2) / (s * s)) by (field; lra). rewrite <- F. field. lra. }
  rewrite E, sqrt_Rsqr; [field; lra|]. apply Rmult_le_pos; [lra|]. left. now apply Rinv_0_lt_compat.
Qed.
Lemma norm2 : forall x y : R, norm [x; y] = Ok (sqrt (x * x + y * y)).
Proof. intros. unfold norm, vdot. cbn. f_equal. f_equal. ring. Qed.
Lemma inscribed_2d : forall a b c, dim 2 a -> dim 2 b -> dim 2 c -> (a <> b \/ a <> c) ->
  exists r, inscribed_radius [a; b; c] = Ok r /\ 0 <= r /\ r * ((dist a b + dist b c + dist a c) / 2) = Rabs (signed_area a b c).
Proof.
  intros a b c Ha Hb Hc Hne.
  destruct (dim2 _ Ha) as (x0 & y0 & ->), (dim2 _ Hb) as (x1 & y1 & ->), (dim2 _ Hc) as (x2 & y2 & ->).
  unfold inscribed_radius, get. cbn [nth_error bind]. change (vsub [x1; y1] [x0; y0]) with (@Ok (list R) [x1 - x0; y1 - y0]).
  change (vsub [x2; y2] [x1; y1]) with (@Ok (list R) [x2 - x1; y2 - y1]). change (vsub [x2; y2] [x0; y0]) with (@Ok (list R) [x2 - x0; y2 - y0]).
  cbn [bind]. rewrite !norm2. cbn [bind].
  unfold dist. rewrite !dist2_2.
  replace ((x0 - x1) * (x0 - x1) + (y0 - y1) * (y0 - y1)) with ((x1 - x0) * (x1 - x0) + (y1 - y0) * (y1 - y0)) by ring.
  replace ((x1 - x2) * (x1 - x2) + (y1 - y2) * (y1 - y2)) with ((x2 - x1) * (x2 - x1) + (y2 - y1) * (y2 - y1)) by ring.
  replace ((x0 - x2) * (x0 - x2) + (y0 - y2) * (y0 - y2)) with ((x2 - x0) * (x2 - x0) + (y2 - y0) * (y2 - y0)) by ring.
  set (A := (x1 - x0) * (x1 - x0) + (y1 - y0) * (y1 - y0)). set (B := (x2 - x1) * (x2 - x1) + (y2 - y1) * (y2 - y1)). set (C := (x2 - x0) * (x2 - x0) + (y2 - y0) * (y2 - y0)).
  assert (PA : 0 <= A) by (pose proof (sqr_sum_pos (x1 - x0) (y1 - y0) 0); unfold A; lra).
  assert (PB : 0 <= B) by (pose proof (sqr_sum_pos (x2 - x1) (y2 - y1) 0); unfold B; lra).
  assert (PC : 0 <= C) by (pose proof (sqr_sum_pos (x2 - x0) (y2 - y0) 0); unfold C; lra).
  destruct (heron_radius (sqrt A) (sqrt B) (sqrt C) (2 * Rabs (signed_area [x0; y0] [x1; y1] [x2; y2]))) as (r & E & P & F).
  - apply sqrt_pos.
  - apply sqrt_pos.
  - apply sqrt_pos.
  - pose proof (Rabs_pos (signed_area [x0; y0] [x1; y1] [x2; y2])). lra.
  - pose proof (sqrt_pos A). pose proof (sqrt_pos B). pose proof (sqrt_pos C). intros HE.
    assert (ZA : sqrt A = 0) by lra. assert (ZC : sqrt C = 0) by lra. apply sqrt_eq_0 in ZA; [|assumption]. apply sqrt_eq_0 in ZC; [|assumption].
    assert (Z2 : forall p q, p * p + q * q = 0 -> p = 0 /\ q = 0).
    { intros p q Hpq. pose proof (Rle_0_sqr p). pose proof (Rle_0_sqr q). unfold Rsqr in *. split; [assert (G : p * p = 0) by lra|assert (G : q * q = 0) by lra]; apply Rmult_integral in G; destruct G; assumption. }
    apply Z2 in ZA. apply Z2 in ZC. destruct Hne as [Hne|Hne]; apply Hne; f_equal; [lra|f_equal; lra|lra|f_equal; lra].
  - rewrite !sqrt_sqrt by assumption.
    replace (4 * (2 * Rabs (signed_area [x0; y0] [x1; y1] [x2; y2])) * (2 * Rabs (signed_area [x0; y0] [x1; y1] [x2; y2])))
      with (16 * Rsqr (Rabs (signed_area [x0; y0] [x1; y1] [x2; y2]))) by (unfold Rsqr; ring).
    rewrite <- Rsqr_abs. unfold Rsqr, signed_area, px, py, at_, A, B, C. cbn [nth]. field.
  - exists r. split; [exact E|]. split; [exact P|]. rewrite F. field.
Qed.
(** in space: with twice the area as the length of the cross product of the edges *)
Lemma inscribed_3d : forall a b c, dim 3 a -> dim 3 b -> dim 3 c -> (a <> b \/ a <> c) ->
  exists r n, inscribed_radius [a; b; c] = Ok r /\ 0 <= r /\ vcross (sub b a) (sub c a) = Ok n /\
    r * ((dist a b + dist b c + dist a c) / 2) = sqrt (sprod n n) / 2.
Proof.
  intros a b c Ha Hb Hc Hne.
  destruct (dim3 _ Ha) as (x0 & y0 & z0 & ->), (dim3 _ Hb) as (x1 & y1 & z1 & ->), (dim3 _ Hc) as (x2 & y2 & z2 & ->).
  unfold inscribed_radius, get. cbn [nth_error bind]. rewrite !vsub3. cbn [bind]. rewrite !norm3. cbn [bind].
  unfold dist. rewrite !dist2_3.
  replace ((x0 - x1) * (x0 - x1) + (y0 - y1) * (y0 - y1) + (z0 - z1) * (z0 - z1)) with ((x1 - x0) * (x1 - x0) + (y1 - y0) * (y1 - y0) + (z1 - z0) * (z1 - z0)) by ring.
  replace ((x1 - x2) * (x1 - x2) + (y1 - y2) * (y1 - y2) + (z1 - z2) * (z1 - z2)) with ((x2 - x1) * (x2 - x1) + (y2 - y1) * (y2 - y1) + (z2 - z1) * (z2 - z1)) by ring.
  replace ((x0 - x2) * (x0 - x2) + (y0 - y2) * (y0 - y2) + (z0 - z2) * (z0 - z2)) with ((x2 - x0) * (x2 - x0) + (y2 - y0) * (y2 - y0) + (z2 - z0) * (z2 - z0)) by ring.
  set (A := (x1 - x0) * (x1 - x0) + (y1 - y0) * (y1 - y0) + (z1 - z0) * (z1 - z0)).
  set (B := (x2 - x1) * (x2 - x1) + (y2 - y1) * (y2 - y1) + (z2 - z1) * (z2 - z1)).
  set (C := (x2 - x0) * (x2 - x0) + (y2 - y0) * (y2 - y0) + (z2 - z0) * (z2 - z0)).
  assert (PA : 0 <= A) by apply sqr_sum_pos. assert (PB : 0 <= B) by apply sqr_sum_pos. assert (PC : 0 <= C) by apply sqr_sum_pos.
  unfold sub. cbn [combine map fst snd vcross].
  match goal with |- exists r n, _ /\ _ /\ Ok ?N = Ok n /\ _ => set (N0 := N) end.
  assert (PN : 0 <= sprod N0 N0) by (unfold N0; rewrite sprod3; apply sqr_sum_pos).
  destruct (heron_radius (sqrt A) (sqrt B) (sqrt C) (sqrt (sprod N0 N0))) as (r & E & P & F).
  - apply sqrt_pos.
  - apply sqrt_pos.
  - apply sqrt_pos.
  - apply sqrt_pos.
  - pose proof (sqrt_pos A). pose proof (sqrt_pos B). pose proof (sqrt_pos C). intros HE.
    assert (ZA : sqrt A = 0) by lra. assert (ZC : sqrt C = 0) by lra. apply sqrt_eq_0 in ZA; [|assumption]. apply sqrt_eq_0 in ZC; [|assumption].
    assert (Z2 : forall p q r, p * p + q * q + r * r = 0 -> p = 0 /\ q = 0 /\ r = 0).
    { intros p q r0 Hpq. pose proof (Rle_0_sqr p). pose proof (Rle_0_sqr q). pose proof (Rle_0_sqr r0). unfold Rsqr in *.
      split; [assert (G : p * p = 0) by lra|split; [assert (G : q * q = 0) by lra|assert (G : r0 * r0 = 0) by lra]]; apply Rmult_integral in G; destruct G; assumption. }
    apply Z2 in ZA. apply Z2 in ZC. destruct Hne as [Hne|Hne]; apply Hne; f_equal; [lra|f_equal; [lra|f_equal; lra]|lra|f_equal; [lra|f_equal; lra]].
  - rewrite !sqrt_sqrt by assumption.
    replace (4 * sqrt (sprod N0 N0) * sqrt (sprod N0 N0)) with (4 * (sqrt (sprod N0 N0) * sqrt (sprod N0 N0))) by ring. rewrite sqrt_sqrt by assumption.
    unfold N0. rewrite sprod3. unfold A, B, C. ring.
  - exists r, N0. split; [exact E|]. split; [exact P|]. split; [reflexivity|]. exact F.
Qed.

Lemma inscribed_all : forall cells, Forall (fun t => exists d a b c, (d = 2%nat \/ d = 3%nat) /\ t = [a; b; c] /\ dim d a /\ dim d b /\ dim d c /\ (a <> b \/ a <> c)) cells ->
  exists rs, inscribed_radii cells = Ok rs /\ Forall2 (fun t r => inscribed_radius t = Ok r) cells rs.
Proof.
  intros cells H. unfold inscribed_radii. induction H as [|t cells (d & a & b & c & D & -> & Ha & Hb & Hc & N) HF IH]; [exists []; split; [reflexivity|constructor]|].
  destruct IH as (rs & E & F). assert (Q : exists r, inscribed_radius [a; b; c] = Ok r).
  { destruct D as [-> | ->]; [destruct (inscribed_2d a b c Ha Hb Hc N) as (r & R & _)|destruct (inscribed_3d a b c Ha Hb Hc N) as (r & n & R & _)]; now exists r. }
  destruct Q as (r & R). exists (r :: rs). cbn [mapM]. rewrite R. cbn [bind]. rewrite E. cbn [bind]. split; [reflexivity|now constructor].
Qed.
