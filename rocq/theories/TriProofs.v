(** * Triangles: areas and natural coordinates *)
From Coq Require Import Reals Lra Lia List.
From Verif Require Import TriModel TriSpec BaseFacts ShapeProofs4 EvalProofs.
Import ListNotations.
Local Open Scope R_scope.

Lemma dim2 : forall p, dim 2 p -> exists x y, p = [x; y].
Proof. intros [|x [|y [|]]]; unfold dim; cbn; intros H; try discriminate. now exists x, y. Qed.
Lemma dim3 : forall p, dim 3 p -> exists x y z, p = [x; y; z].
Proof. intros [|x [|y [|z [|]]]]; unfold dim; cbn; intros H; try discriminate. now exists x, y, z. Qed.
Lemma has_dim2 : forall p, has_dim 2 p -> exists x y r, p = x :: y :: r.
Proof. intros [|x [|y r]]; unfold has_dim; cbn; intros H; try lia. now exists x, y, r. Qed.

Ltac dims :=
  repeat match goal with
  | H : dim 2 ?p |- _ => let x := fresh "x" in let y := fresh "y" in let E := fresh in destruct (dim2 _ H) as (x & y & E); clear H; subst p
  | H : dim 3 ?p |- _ => let x := fresh "x" in let y := fresh "y" in let z := fresh "z" in let E := fresh in destruct (dim3 _ H) as (x & y & z & E); clear H; subst p
  | H : has_dim 2 ?p |- _ => let x := fresh "x" in let y := fresh "y" in let r := fresh "r" in let E := fresh in destruct (has_dim2 _ H) as (x & y & r & E); clear H; subst p
  end.

(** ** Areas *)
Lemma area_tri_value : forall a b c, has_dim 2 a -> has_dim 2 b -> has_dim 2 c ->
  area_tri [a; b; c] = Ok (signed_area a b c).
Proof.
  intros a b c Ha Hb Hc. dims.
  unfold area_tri, area2_tri, get2. unfold get; cbn [nth_error bind]. f_equal. unfold signed_area, px, py, at_. cbn [nth]. lra.
Qed.
Lemma area_bulk_value : forall ecs, Forall (fun ec => exists a b c, ec = [a; b; c] /\ has_dim 2 a /\ has_dim 2 b /\ has_dim 2 c) ecs ->
  exists l, mapM area_tri ecs = Ok l /\ area_tri_bulk ecs = Ok l /\ areas_tri ecs = Ok (fold_right Rplus 0 l).
Proof.
  intros ecs H.
  assert (G : exists l2, mapM area2_tri ecs = Ok l2 /\ mapM area_tri ecs = Ok (map (fun a => a / 2) l2) /\
     forall A0, foldM (fun A ec => do a <- area2_tri ec; Ok (A + a)) ecs A0 = Ok (A0 + fold_right Rplus 0 l2)).
  { induction H as [|ec ecs (a & b & c & -> & Ha & Hb & Hc) Hr IH].
    - exists []. repeat split. intros A0. cbn. f_equal. lra.
    - dims. destruct IH as (l2 & E1 & E2 & E3).
      eexists (_ :: l2). split; [|split].
      + cbn [mapM]. unfold area2_tri at 1, get2. unfold get; cbn [nth_error bind]. rewrite E1. cbn [bind]. reflexivity.
      + cbn [mapM map]. unfold area_tri at 1, area2_tri, get2. unfold get; cbn [nth_error bind]. rewrite E2. cbn [bind]. reflexivity.
      + intros A0. cbn [foldM]. unfold area2_tri at 1, get2. unfold get; cbn [nth_error bind]. rewrite E3. f_equal. cbn [fold_right]. lra. }
  destruct G as (l2 & E1 & E2 & E3). eexists. split; [exact E2|split].
  - unfold area_tri_bulk. rewrite E1. reflexivity.
  - unfold areas_tri. rewrite E3. cbn [bind]. f_equal. clear. induction l2; cbn [map fold_right] in *; lra.
Qed.
Lemma area_u_value : forall a b c,
  area_tri_u (px a) (py a) (px b) (py b) (px c) (py c) = signed_area a b c /\
  area_tri_u2 (px a) (px b) (px c) (py a) (py b) (py c) = signed_area a b c.
Proof. intros a b c. unfold area_tri_u, area_tri_u2, signed_area. lra. Qed.
Lemma area_map : forall ox oy ux uy vx vy a b c,
  area_tri (map (plane_map ox oy ux uy vx vy) [a; b; c]) = Ok ((ux * vy - uy * vx) * signed_area a b c).
Proof.
  intros. cbn [map]. rewrite area_tri_value by (unfold has_dim, plane_map; cbn; lia).
  f_equal. unfold signed_area, plane_map, px, py, at_. cbn [nth]. field.
Qed.
Lemma area_cycle : forall a b c, signed_area b c a = signed_area a b c /\ signed_area b a c = - signed_area a b c /\
  signed_area a c b = - signed_area a b c /\ signed_area c b a = - signed_area a b c /\ signed_area c a b = signed_area a b c.
Proof. intros. unfold signed_area. lra. Qed.
Lemma area_cyclic : forall a b c, has_dim 2 a -> has_dim 2 b -> has_dim 2 c ->
  exists A, area_tri [a; b; c] = Ok A /\ area_tri [b; c; a] = Ok A /\ area_tri [c; a; b] = Ok A /\
    area_tri [b; a; c] = Ok (- A) /\ area_tri [a; c; b] = Ok (- A) /\ area_tri [c; b; a] = Ok (- A).
Proof.
  intros a b c Ha Hb Hc. exists (signed_area a b c). rewrite !area_tri_value by assumption.
  destruct (area_cycle a b c) as (-> & -> & -> & -> & ->). repeat split.
Qed.
Lemma area_zero : forall a b c, has_dim 2 a -> has_dim 2 b -> has_dim 2 c ->
  (area_tri [a; b; c] = Ok 0 <-> collinear a b c).
Proof.
  intros a b c Ha Hb Hc. rewrite area_tri_value by assumption. split.
  - intros [= H]. unfold signed_area in H.
    destruct (Req_dec (px b - px a) 0) as [Ex|Ex]; [destruct (Req_dec (py b - py a) 0) as [Ey|Ey]|].
    + (* a = b *)
      destruct (Req_dec (px c - px a) 0) as [Fx|Fx].
      * exists 1, 0, (px a). split; [left; lra|]. lra.
      * exists (- (py c - py a)), (px c - px a), (- (py c - py a) * px a + (px c - px a) * py a).
        split; [right; lra|]. replace (px b) with (px a) by lra. replace (py b) with (py a) by lra.
        split; [reflexivity|split; [reflexivity|]]. ring.
    + exists (py b - py a), (- (px b - px a)), ((py b - py a) * px a + - (px b - px a) * py a).
      split; [left; lra|]. split; [reflexivity|split; [ring|]]. lra.
    + exists (py b - py a), (- (px b - px a)), ((py b - py a) * px a + - (px b - px a) * py a).
      split; [right; lra|]. split; [reflexivity|split; [ring|]]. lra.
  - intros (n & m & k & Hn & E1 & E2 & E3). f_equal. unfold signed_area.
    assert (F2 : n * (px b - px a) + m * (py b - py a) = 0) by lra.
    assert (F3 : n * (px c - px a) + m * (py c - py a) = 0) by lra.
    set (u := px b - px a) in *. set (v := py b - py a) in *. set (w := px c - px a) in *. set (t := py c - py a) in *.
    assert (Gn : n * (u * t - w * v) = 0).
    { replace (n * (u * t - w * v)) with ((n * u + m * v) * t - (n * w + m * t) * v) by ring. rewrite F2, F3. ring. }
    assert (Gm : m * (u * t - w * v) = 0).
    { replace (m * (u * t - w * v)) with ((n * w + m * t) * u - (n * u + m * v) * w) by ring. rewrite F2, F3. ring. }
    destruct Hn as [Hn|Hn]; [apply Rmult_integral in Gn; destruct Gn as [|Gn]; [contradiction|] |
      apply Rmult_integral in Gm; destruct Gm as [|Gm]; [contradiction|]]; lra.
Qed.

(** ** Natural coordinates *)
Lemma div_ok : forall a b, b <> 0 -> div a b = Ok (a / b).
Proof. intros a b H. unfold div. destruct (Req_EM_T b 0); [contradiction|reflexivity]. Qed.

(** the weights of p in the triangle a b c *)
Definition bary (a b c p : list R) : list R :=
  [signed_area p b c / signed_area a b c; signed_area a p c / signed_area a b c;
   1 - signed_area p b c / signed_area a b c - signed_area a p c / signed_area a b c].
Lemma nat_value : forall a b c p, has_dim 2 a -> has_dim 2 b -> has_dim 2 c -> has_dim 2 p -> signed_area a b c <> 0 ->
  glob_to_nat_tri Floating p [a; b; c] =
    Ok [signed_area p b c / Rabs (signed_area a b c); signed_area a p c / Rabs (signed_area a b c);
        1 - signed_area p b c / Rabs (signed_area a b c) - signed_area a p c / Rabs (signed_area a b c)].
Proof.
  intros a b c p Ha Hb Hc Hp HA.
  assert (HR : Rabs (signed_area a b c) <> 0) by (now apply Rabs_no_R0).
  destruct (has_dim2 _ Ha) as (x1 & y1 & r1 & Ea), (has_dim2 _ Hb) as (x2 & y2 & r2 & Eb), (has_dim2 _ Hc) as (x3 & y3 & r3 & Ec),
    (has_dim2 _ Hp) as (x & y & r & Ep).
  assert (E : Rabs (x2 * (y3 - y1) + x1 * (y2 - y3) + x3 * (y1 - y2)) = 2 * Rabs (signed_area a b c)).
  { rewrite <- (Rabs_pos_eq 2) at 1 by lra. rewrite <- Rabs_mult. f_equal. subst. unfold signed_area, px, py, at_. cbn [nth]. lra. }
  set (A := Rabs (signed_area a b c)) in *. clearbody A. subst.
  unfold glob_to_nat_tri. unfold get; cbn [nth_error bind mapM map store].
  rewrite E. rewrite !div_ok by lra. cbn [bind].
  unfold signed_area, px, py, at_; cbn [nth]. f_equal. f_equal; [field; lra|f_equal; [field; lra|f_equal; field; lra]].
Qed.
Lemma nat_ccw : forall a b c p, has_dim 2 a -> has_dim 2 b -> has_dim 2 c -> has_dim 2 p -> ccw a b c ->
  glob_to_nat_tri Floating p [a; b; c] = Ok (bary a b c p).
Proof.
  intros. rewrite nat_value by (try assumption; unfold ccw in *; lra). rewrite Rabs_pos_eq by (unfold ccw in *; lra). reflexivity.
Qed.
Lemma nat_degenerate : forall dt a b c p, has_dim 2 a -> has_dim 2 b -> has_dim 2 c -> has_dim 2 p -> signed_area a b c = 0 ->
  glob_to_nat_tri dt p [a; b; c] = Err ZeroDivisionError.
Proof.
  intros dt a b c p Ha Hb Hc Hp HA.
  destruct (has_dim2 _ Ha) as (x1 & y1 & r1 & ->), (has_dim2 _ Hb) as (x2 & y2 & r2 & ->), (has_dim2 _ Hc) as (x3 & y3 & r3 & ->),
    (has_dim2 _ Hp) as (x & y & r & ->).
  unfold glob_to_nat_tri. unfold get; cbn [nth_error bind mapM map].
  replace (x2 * (y3 - y1) + x1 * (y2 - y3) + x3 * (y1 - y2)) with 0.
  - rewrite Rabs_R0. unfold div. destruct (Req_EM_T 0 0); [reflexivity|lra].
  - unfold signed_area, px, py, at_ in HA. cbn [nth] in HA. lra.
Qed.
Lemma bary_weights : forall a b c p, signed_area a b c <> 0 -> weights_of 2 (bary a b c p) [a; b; c] p.
Proof.
  intros a b c p H. unfold weights_of. split; [reflexivity|]. split; [cbn [bary fold_right]; lra|].
  intros d Hd. unfold weighted, bary. cbn [combine map fold_right fst snd].
  assert (HA : signed_area a b c <> 0) by exact H. unfold signed_area, px, py in *.
  destruct d as [|[|]]; [| |lia]; field; lra.
Qed.
Lemma weights_unique : forall a b c p l, signed_area a b c <> 0 -> weights_of 2 l [a; b; c] p -> l = bary a b c p.
Proof.
  intros a b c p l H (HL & HS & HW). destruct l as [|l0 [|l1 [|l2 [|]]]]; try discriminate HL. clear HL.
  generalize (HW 0%nat ltac:(lia)) (HW 1%nat ltac:(lia)). cbn [fold_right] in HS. unfold weighted. cbn [combine map fold_right fst snd]. intros E0 E1.
  assert (HA : signed_area a b c <> 0) by exact H. 
  assert (F1 : signed_area p b c = l0 * signed_area a b c).
  { unfold signed_area, px, py. rewrite E0, E1. replace l2 with (1 - l0 - l1) by lra. field. }
  assert (F2 : signed_area a p c = l1 * signed_area a b c).
  { unfold signed_area, px, py. rewrite E0, E1. replace l2 with (1 - l0 - l1) by lra. field. }
  unfold bary. rewrite F1, F2.
  assert (G1 : l0 * signed_area a b c / signed_area a b c = l0) by (field; exact H).
  assert (G2 : l1 * signed_area a b c / signed_area a b c = l1) by (field; exact H).
  rewrite G1, G2. replace l2 with (1 - l0 - l1) by lra. reflexivity.
Qed.
Lemma vecmat3_2 : forall (l0 l1 l2 x0 y0 x1 y1 x2 y2 : R),
  vecmat [l0; l1; l2] [[x0; y0]; [x1; y1]; [x2; y2]] = Ok [l0 * x0 + l1 * x1 + l2 * x2; l0 * y0 + l1 * y1 + l2 * y2].
Proof. intros. unfold vecmat, vsum, vadd, vscale. cbn. reflexivity. Qed.
Lemma nat_to_glob_weighted : forall l0 l1 l2 a b c, dim 2 a -> dim 2 b -> dim 2 c ->
  nat_to_glob_tri [l0; l1; l2] [a; b; c] = Ok [weighted [l0; l1; l2] [a; b; c] 0; weighted [l0; l1; l2] [a; b; c] 1].
Proof.
  intros. dims. unfold nat_to_glob_tri. rewrite vecmat3_2. unfold weighted, at_. cbn [nth combine map fold_right fst snd]. f_equal. f_equal; [lra|f_equal; lra].
Qed.
Lemma weights_dim2 : forall p q : list R, dim 2 p -> dim 2 q -> at_ 0 p = at_ 0 q -> at_ 1 p = at_ 1 q -> p = q.
Proof. intros p q Hp Hq. dims. unfold at_. cbn. congruence. Qed.

Lemma dim_has : forall n p, dim n p -> has_dim n p.
Proof. unfold dim, has_dim. intros. lia. Qed.
Lemma nat_tri_correct : forall a b c p, dim 2 a -> dim 2 b -> dim 2 c -> dim 2 p -> ccw a b c ->
  exists l, glob_to_nat_tri Floating p [a; b; c] = Ok l /\ weights_of 2 l [a; b; c] p /\
    nat_to_glob_tri l [a; b; c] = Ok p /\ forall l', weights_of 2 l' [a; b; c] p -> l' = l.
Proof.
  intros a b c p Ha Hb Hc Hp H.
  assert (H0 : signed_area a b c <> 0) by (unfold ccw in H; lra).
  exists (bary a b c p). split; [apply nat_ccw; auto using dim_has|]. split; [now apply bary_weights|]. split.
  - destruct (bary_weights a b c p H0) as (_ & _ & HW).
    unfold bary. rewrite nat_to_glob_weighted by assumption. f_equal.
    apply weights_dim2; [reflexivity|assumption| |]; unfold at_ at 1; cbn [nth]; symmetry; apply HW; lia.
  - intros l' Hl. now apply weights_unique.
Qed.
Lemma nat_tri_inverse : forall a b c l, dim 2 a -> dim 2 b -> dim 2 c -> ccw a b c -> length l = 3%nat -> fold_right Rplus 0 l = 1 ->
  exists p, nat_to_glob_tri l [a; b; c] = Ok p /\ dim 2 p /\ glob_to_nat_tri Floating p [a; b; c] = Ok l.
Proof.
  intros a b c l Ha Hb Hc H HL HS. destruct l as [|l0 [|l1 [|l2 [|]]]]; try discriminate HL.
  eexists. split; [apply nat_to_glob_weighted; assumption|]. split; [reflexivity|].
  rewrite nat_ccw by (first [assumption | apply dim_has; first [assumption | reflexivity]]). f_equal. symmetry. apply weights_unique; [unfold ccw in H; lra|].
  split; [reflexivity|]. split; [assumption|]. intros d Hd. destruct d as [|[|]]; [reflexivity|reflexivity|lia].
Qed.
(** clockwise triangles *)
Lemma nat_clockwise : forall a b c p, has_dim 2 a -> has_dim 2 b -> has_dim 2 c -> has_dim 2 p -> clockwise a b c ->
  exists l0 l1 l2, weights_of 2 [l0; l1; l2] [a; b; c] p /\ glob_to_nat_tri Floating p [a; b; c] = Ok [- l0; - l1; 1 + l0 + l1].
Proof.
  intros a b c p Ha Hb Hc Hp H. assert (H0 : signed_area a b c <> 0) by (unfold clockwise in H; lra).
  do 3 eexists. split; [apply (bary_weights a b c p H0)|].
  rewrite nat_value by assumption. rewrite Rabs_left by exact H.
  f_equal. f_equal; [|f_equal; [|f_equal]]; field; exact H0.
Qed.
Lemma nat_clockwise_wrong : forall a b c p, dim 2 a -> dim 2 b -> dim 2 c -> dim 2 p -> clockwise a b c -> p <> c ->
  exists l q, glob_to_nat_tri Floating p [a; b; c] = Ok l /\ nat_to_glob_tri l [a; b; c] = Ok q /\ q <> p.
Proof.
  intros a b c p Ha Hb Hc Hp H Hpc.
  destruct (nat_clockwise a b c p) as (l0 & l1 & l2 & HW & E); auto using dim_has.
  assert (H0 : signed_area a b c <> 0) by (unfold clockwise in H; lra).
  eexists _, _. split; [exact E|]. split; [apply nat_to_glob_weighted; assumption|].
  intros Hq. apply Hpc.
  assert (HW2 : weights_of 2 [- l0; - l1; 1 + l0 + l1] [a; b; c] p).
  { split; [reflexivity|]. split; [cbn [fold_right]; lra|]. intros d Hd. rewrite <- Hq.
    destruct d as [|[|]]; [reflexivity|reflexivity|lia]. }
  pose proof (weights_unique _ _ _ _ _ H0 HW) as E1. pose proof (weights_unique _ _ _ _ _ H0 HW2) as E2.
  rewrite <- E1 in E2. injection E2 as F1 F2 F3.
  destruct HW as (_ & _ & HW). apply weights_dim2; [assumption|assumption| |]; rewrite HW by lia; unfold weighted; cbn [combine map fold_right fst snd];
    replace l0 with 0 by lra; replace l1 with 0 by lra; replace l2 with 1 by lra; lra.
Qed.
(** points with integer coordinates in an array of integers *)
Lemma nat_integral_wrong :
  glob_to_nat_tri Integral [1; 1] [[0; 0]; [4; 0]; [0; 4]] = Ok [0; 0; 0].
Proof.
  unfold glob_to_nat_tri. unfold get; cbn [nth_error bind mapM map store].
  rewrite Rabs_pos_eq by lra. rewrite !div_ok by lra. cbn [bind].
  rewrite !truncate_small by lra. reflexivity.
Qed.
(** local coordinates *)
Lemma loc_nat_loc : forall r s, exists l, loc_to_nat_tri [r; s] = Ok l /\ fold_right Rplus 0 l = 1 /\ nat_to_loc_tri l = Ok [r; s].
Proof.
  intros r s. eexists. split; [reflexivity|]. split; [cbn; lra|]. unfold nat_to_loc_tri, lcoords_tri. rewrite vecmat3_2.
  f_equal. f_equal; [lra|f_equal; lra].
Qed.
Lemma nat_loc_nat : forall l, length l = 3%nat -> fold_right Rplus 0 l = 1 ->
  exists r s, nat_to_loc_tri l = Ok [r; s] /\ loc_to_nat_tri [r; s] = Ok l.
Proof.
  intros l HL HS. destruct l as [|l0 [|l1 [|l2 [|]]]]; try discriminate HL. cbn [fold_right] in HS.
  eexists _, _. split; [unfold nat_to_loc_tri, lcoords_tri; apply vecmat3_2|].
  unfold loc_to_nat_tri, shp_tri_loc. unfold get; cbn [nth_error bind]. f_equal. f_equal; [lra|f_equal; [lra|f_equal; lra]].
Qed.
Lemma loc_to_glob_nat : forall r s ec, exists l, loc_to_nat_tri [r; s] = Ok l /\ loc_to_glob_tri [r; s] ec = nat_to_glob_tri l ec.
Proof. intros. eexists. split; reflexivity. Qed.
Lemma loc_glob_loc : forall a b c r s, dim 2 a -> dim 2 b -> dim 2 c -> ccw a b c ->
  exists p l, loc_to_glob_tri [r; s] [a; b; c] = Ok p /\ glob_to_nat_tri Floating p [a; b; c] = Ok l /\ nat_to_loc_tri l = Ok [r; s].
Proof.
  intros a b c r s Ha Hb Hc H.
  destruct (loc_nat_loc r s) as (l & E1 & E2 & E3).
  destruct (nat_tri_inverse a b c l Ha Hb Hc H) as (p & F1 & F2 & F3); [|assumption|].
  { injection E1 as <-. reflexivity. }
  exists p, l. repeat split; [|assumption|assumption]. unfold loc_to_glob_tri. unfold loc_to_nat_tri in E1. rewrite E1. exact F1.
Qed.
