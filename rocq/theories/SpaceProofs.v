(** * Proofs about [SpaceModel.v]: frames *)
From Coq Require Import Reals Lra Lia List Psatz.
From Verif Require Import BaseFacts TrModel TrProofs EvalProofs ShapeProofs3 ShapeProofs4 TriProofs TriProofs3 TriProofs4 TriProofs5 LocProofs9 SpaceModel SpaceSpec NodalProofs4 NodalProofs5.
Import ListNotations.
Local Open Scope R_scope.

Ltac comps := unfold map_det, sprod in *; unfold px, py, pz in *; unfold at_ in *; cbn [nth combine map fold_right fst snd] in *.

(** ** vectors with three components *)
Lemma vec3 (x y z x' y' z' : R) : x = x' -> y = y' -> z = z' -> [x; y; z] = [x'; y'; z'].
Proof. intros -> -> ->. reflexivity. Qed.
Lemma sq3_pos x y z : [x; y; z] <> [0; 0; 0] -> 0 < x * x + y * y + z * z.
Proof.
  intros H. destruct (Req_dec x 0) as [->|Hx]; [destruct (Req_dec y 0) as [->|Hy]; [destruct (Req_dec z 0) as [->|Hz]; [congruence|]|]|].
  - pose proof (Rsqr_pos_lt z Hz) as P. unfold Rsqr in P. lra.
  - pose proof (Rsqr_pos_lt y Hy) as P. unfold Rsqr in P. pose proof (Rle_0_sqr z) as Q. unfold Rsqr in Q. lra.
  - pose proof (Rsqr_pos_lt x Hx) as P. unfold Rsqr in P. pose proof (Rle_0_sqr z) as Q. pose proof (Rle_0_sqr y) as Q'. unfold Rsqr in *. lra.
Qed.
Lemma normalize_zero : normalize [0; 0; 0] = Err ValueError.
Proof. unfold normalize. rewrite norm3. cbn [bind]. replace (0 * 0 + 0 * 0 + 0 * 0) with 0 by ring. rewrite sqrt_0. destruct (Req_EM_T 0 0); congruence. Qed.
Lemma normalize_pos x y z : [x; y; z] <> [0; 0; 0] ->
  exists t, 0 < t /\ normalize [x; y; z] = Ok [t * x; t * y; t * z] /\ t * x * (t * x) + t * y * (t * y) + t * z * (t * z) = 1.
Proof.
  intros H. pose proof (sq3_pos x y z H) as P. set (q := x * x + y * y + z * z) in *. pose proof (sqrt_lt_R0 q P) as Q. pose proof (sqrt_sqrt q (Rlt_le _ _ P)) as S.
  exists (/ sqrt q). split; [now apply Rinv_0_lt_compat|]. split.
  - unfold normalize. rewrite norm3. cbn [bind]. fold q. destruct (Req_EM_T (sqrt q) 0) as [E|_]; [lra|]. cbn [map]. f_equal. apply vec3; unfold Rdiv; ring.
  - replace (/ sqrt q * x * (/ sqrt q * x) + / sqrt q * y * (/ sqrt q * y) + / sqrt q * z * (/ sqrt q * z)) with (q / (sqrt q * sqrt q)) by (assert (G : forall r, r <> 0 -> (x * x + y * y + z * z) / (r * r) = / r * x * (/ r * x) + / r * y * (/ r * y) + / r * z * (/ r * z)) by (intros r Hr; field; exact Hr); apply G; lra). rewrite S. field. lra.
Qed.
Lemma vec0 (x y z : R) : [x; y; z] = [0; 0; 0] \/ [x; y; z] <> [0; 0; 0].
Proof. destruct (Req_dec x 0) as [->|]; [destruct (Req_dec y 0) as [->|]; [destruct (Req_dec z 0) as [->|]; [now left|]|]|]; right; congruence. Qed.
Lemma vsub_dim3 p q : dim 3 p -> dim 3 q -> vsub p q = Ok (sub p q) /\ dim 3 (sub p q).
Proof. intros Hp Hq. destruct (dim3 _ Hp) as (a & b & c & ->), (dim3 _ Hq) as (x & y & z & ->). split; reflexivity. Qed.

(** the frame with the axes [a] and [c] *)
Lemma frame_from a0 a1 a2 c0 c1 c2 : a0 * a0 + a1 * a1 + a2 * a2 = 1 -> c0 * c0 + c1 * c1 + c2 * c2 = 1 -> c0 * a0 + c1 * a1 + c2 * a2 = 0 ->
  right_handed [a0; a1; a2] [c1 * a2 - c2 * a1; c2 * a0 - c0 * a2; c0 * a1 - c1 * a0] [c0; c1; c2].
Proof.
  intros Ha Hc Hac. unfold right_handed. repeat (split; [reflexivity|]). comps.
  assert (L : (c1 * a2 - c2 * a1) * (c1 * a2 - c2 * a1) + (c2 * a0 - c0 * a2) * (c2 * a0 - c0 * a2) + (c0 * a1 - c1 * a0) * (c0 * a1 - c1 * a0) =
     (a0 * a0 + a1 * a1 + a2 * a2) * (c0 * c0 + c1 * c1 + c2 * c2) - (c0 * a0 + c1 * a1 + c2 * a2) * (c0 * a0 + c1 * a1 + c2 * a2)) by ring.
  rewrite Ha, Hc, Hac in L.
  assert (E : a0 * ((c2 * a0 - c0 * a2) * c2 - (c0 * a1 - c1 * a0) * c1) - a1 * ((c1 * a2 - c2 * a1) * c2 - (c0 * a1 - c1 * a0) * c0) + a2 * ((c1 * a2 - c2 * a1) * c1 - (c2 * a0 - c0 * a2) * c0) =
     (a0 * a0 + a1 * a1 + a2 * a2) * (c0 * c0 + c1 * c1 + c2 * c2) - (c0 * a0 + c1 * a1 + c2 * a2) * (c0 * a0 + c1 * a1 + c2 * a2)) by ring.
  rewrite Ha, Hc, Hac in E.
  repeat split; try lra; ring.
Qed.

(** ** the axes of two directions *)
Definition cross3 (u v : list R) : list R := [py u * pz v - pz u * py v; pz u * px v - px u * pz v; px u * py v - py u * px v].
Lemma axes_ok u v : dim 3 u -> dim 3 v -> cross3 u v <> [0; 0; 0] ->
  exists a b c, axes_of Floating u v = Ok (a, b, c) /\ right_handed a b c /\ along u a /\ 0 < sprod b v /\ sprod c v = 0.
Proof.
  intros Hu Hv HC. destruct (dim3 _ Hu) as (u0 & u1 & u2 & ->), (dim3 _ Hv) as (v0 & v1 & v2 & ->). unfold cross3 in HC. comps.
  destruct (vec0 u0 u1 u2) as [E|HU]; [injection E as -> -> ->; exfalso; apply HC; apply vec3; ring|].
  destruct (vec0 v0 v1 v2) as [E|HV]; [injection E as -> -> ->; exfalso; apply HC; apply vec3; ring|].
  destruct (normalize_pos _ _ _ HU) as (s & Hs & Es & Us). destruct (normalize_pos _ _ _ HV) as (t & Ht & Et & Ut).
  set (n0 := s * u1 * (t * v2) - s * u2 * (t * v1)). set (n1 := s * u2 * (t * v0) - s * u0 * (t * v2)). set (n2 := s * u0 * (t * v1) - s * u1 * (t * v0)).
  assert (HN : [n0; n1; n2] <> [0; 0; 0]).
  { intros E. injection E as E0 E1 E2. apply HC. assert (P : s * t <> 0) by (apply Rmult_integral_contrapositive_currified; lra). unfold n0, n1, n2 in *. apply vec3; apply (Rmult_eq_reg_l (s * t)); [|exact P| |exact P| |exact P]; rewrite Rmult_0_r.
    - rewrite <- E0. ring. - rewrite <- E1. ring. - rewrite <- E2. ring. }
  destruct (normalize_pos _ _ _ HN) as (r & Hr & Er & Ur).
  unfold axes_of. rewrite Es. cbn [bind map store]. rewrite Et. cbn [bind map store vcross]. fold n0 n1 n2. rewrite Er. cbn [bind map store vcross].
  eexists _, _, _. split; [reflexivity|]. split; [|split; [|split]].
  - apply frame_from; [exact Us|exact Ur|]. unfold n0, n1, n2. ring.
  - exists s. split; [exact Hs|]. split; [reflexivity|]. intros [|[|[|k]]]; unfold at_; cbn [nth]; try reflexivity. destruct k; ring.
  - pose proof (sq3_pos _ _ _ HN) as P. comps.
    replace ((r * n1 * (s * u2) - r * n2 * (s * u1)) * v0 + ((r * n2 * (s * u0) - r * n0 * (s * u2)) * v1 + ((r * n0 * (s * u1) - r * n1 * (s * u0)) * v2 + 0)))
      with (r / t * (n0 * n0 + n1 * n1 + n2 * n2)) by (unfold n0, n1, n2; field; lra).
    apply Rmult_lt_0_compat; [|exact P]. apply Rdiv_lt_0_compat; assumption.
  - comps. unfold n0, n1, n2. ring.
Qed.
Lemma axes_zero u v : dim 3 u -> dim 3 v -> cross3 u v = [0; 0; 0] -> axes_of Floating u v = Err ValueError.
Proof.
  intros Hu Hv HC. destruct (dim3 _ Hu) as (u0 & u1 & u2 & ->), (dim3 _ Hv) as (v0 & v1 & v2 & ->). unfold cross3 in HC. comps. injection HC as C0 C1 C2.
  unfold axes_of. destruct (vec0 u0 u1 u2) as [E|HU]; [rewrite E, normalize_zero; reflexivity|]. destruct (normalize_pos _ _ _ HU) as (s & Hs & Es & Us). rewrite Es. cbn [bind].
  destruct (vec0 v0 v1 v2) as [E|HV]; [rewrite E, normalize_zero; reflexivity|]. destruct (normalize_pos _ _ _ HV) as (t & Ht & Et & Ut). rewrite Et. cbn [bind map store vcross].
  replace (s * u1 * (t * v2) - s * u2 * (t * v1)) with (s * t * (u1 * v2 - u2 * v1)) by ring. rewrite C0.
  replace (s * u2 * (t * v0) - s * u0 * (t * v2)) with (s * t * (u2 * v0 - u0 * v2)) by ring. rewrite C1.
  replace (s * u0 * (t * v1) - s * u1 * (t * v0)) with (s * t * (u0 * v1 - u1 * v0)) by ring. rewrite C2. rewrite Rmult_0_r, normalize_zero. reflexivity.
Qed.

(** ** positions on a line *)
Lemma cross_line p0 p1 p2 : dim 3 p0 -> dim 3 p1 -> dim 3 p2 -> (cross3 (sub p1 p0) (sub p2 p0) = [0; 0; 0] <-> on_common_line [p0; p1; p2]).
Proof.
  intros H0 H1 H2. destruct (dim3 _ H0) as (a & b & c & ->), (dim3 _ H1) as (d & e & f & ->), (dim3 _ H2) as (g & h & i & ->). unfold cross3, sub. comps. split.
  - intros E. injection E as E0 E1 E2.
    destruct (vec0 (d - a) (e - b) (f - c)) as [Z|HN].
    + injection Z as Z0 Z1 Z2. exists [a; b; c], [g - a; h - b; i - c]. intros p [<-|[<-|[<-|[]]]].
      * exists 0. intros [|[|[|k]]] Hk; unfold at_; cbn [nth]; try ring; lia.
      * exists 0. intros [|[|[|k]]] Hk; unfold at_; cbn [nth]; try lra; lia.
      * exists 1. intros [|[|[|k]]] Hk; unfold at_; cbn [nth]; try ring; lia.
    + pose proof (sq3_pos _ _ _ HN) as P. set (q := (d - a) * (d - a) + (e - b) * (e - b) + (f - c) * (f - c)) in *.
      exists [a; b; c], [d - a; e - b; f - c]. intros p [<-|[<-|[<-|[]]]].
      * exists 0. intros [|[|[|k]]] Hk; unfold at_; cbn [nth]; try ring; lia.
      * exists 1. intros [|[|[|k]]] Hk; unfold at_; cbn [nth]; try ring; lia.
      * exists (((d - a) * (g - a) + (e - b) * (h - b) + (f - c) * (i - c)) / q). intros [|[|[|k]]] Hk; unfold at_; cbn [nth]; try lia; apply (Rmult_eq_reg_l q); try lra.
        -- transitivity (q * a + ((d - a) * (g - a) + (e - b) * (h - b) + (f - c) * (i - c)) * (d - a)); [|field; lra].
           transitivity (q * a + (((d - a) * (g - a) + (e - b) * (h - b) + (f - c) * (i - c)) * (d - a) + (f - c) * ((f - c) * (g - a) - (d - a) * (i - c)) - (e - b) * ((d - a) * (h - b) - (e - b) * (g - a)))); [unfold q; ring|]. rewrite E1, E2. ring.
        -- transitivity (q * b + ((d - a) * (g - a) + (e - b) * (h - b) + (f - c) * (i - c)) * (e - b)); [|field; lra].
           transitivity (q * b + (((d - a) * (g - a) + (e - b) * (h - b) + (f - c) * (i - c)) * (e - b) - (f - c) * ((e - b) * (i - c) - (f - c) * (h - b)) + (d - a) * ((d - a) * (h - b) - (e - b) * (g - a)))); [unfold q; ring|]. rewrite E0, E2. ring.
        -- transitivity (q * c + ((d - a) * (g - a) + (e - b) * (h - b) + (f - c) * (i - c)) * (f - c)); [|field; lra].
           transitivity (q * c + (((d - a) * (g - a) + (e - b) * (h - b) + (f - c) * (i - c)) * (f - c) + (e - b) * ((e - b) * (i - c) - (f - c) * (h - b)) - (d - a) * ((f - c) * (g - a) - (d - a) * (i - c)))); [unfold q; ring|]. rewrite E0, E1. ring.
  - intros (o & u & H). destruct (H [a; b; c]) as (t0 & T0); [cbn; tauto|]. destruct (H [d; e; f]) as (t1 & T1); [cbn; tauto|]. destruct (H [g; h; i]) as (t2 & T2); [cbn; tauto|].
    pose proof (T0 0%nat ltac:(lia)) as X0. pose proof (T0 1%nat ltac:(lia)) as Y0. pose proof (T0 2%nat ltac:(lia)) as Z0.
    pose proof (T1 0%nat ltac:(lia)) as X1. pose proof (T1 1%nat ltac:(lia)) as Y1. pose proof (T1 2%nat ltac:(lia)) as Z1.
    pose proof (T2 0%nat ltac:(lia)) as X2. pose proof (T2 1%nat ltac:(lia)) as Y2. pose proof (T2 2%nat ltac:(lia)) as Z2.
    unfold at_ in *. cbn [nth] in X0, Y0, Z0, X1, Y1, Z1, X2, Y2, Z2. subst. apply vec3; ring.
Qed.

(** ** frames of surfaces *)
Lemma surface_at coords nodes ec p0 p1 pl : nodes_at coords nodes ec -> rect 3 coords -> corners ec p0 p1 pl ->
  dim 3 p0 /\ dim 3 p1 /\ dim 3 pl /\
  forall dt, frame_of_surface dt coords nodes = (do abc <- axes_of dt (sub p1 p0) (sub pl p0); let '(a, b, c) := abc in Ok [a; b; c]).
Proof.
  intros HN HR (C0 & C1 & CL).
  destruct (Forall2_nth_error_r _ _ _ _ _ HN C0) as (n0 & N0 & G0). destruct (Forall2_nth_error_r _ _ _ _ _ HN C1) as (n1 & N1 & G1). destruct (Forall2_nth_error_r _ _ _ _ _ HN CL) as (nl & NL & GL).
  assert (L : length nodes = length ec) by (apply (Forall2_len _ _ _ HN)).
  assert (D : forall n p, nth_error coords n = Some p -> dim 3 p) by (intros n p H; exact (rect_nth _ _ _ _ HR H)).
  split; [eapply D, G0|]. split; [eapply D, G1|]. split; [eapply D, GL|]. intros dt.
  unfold frame_of_surface. rewrite (proj2 (get_Ok _ _ _) N1). cbn [bind]. rewrite (proj2 (get_Ok _ _ _) G1). cbn [bind]. rewrite (proj2 (get_Ok _ _ _) N0). cbn [bind]. rewrite (proj2 (get_Ok _ _ _) G0). cbn [bind].
  rewrite (proj1 (vsub_dim3 p1 p0 (D _ _ G1) (D _ _ G0))). cbn [bind]. rewrite L. rewrite (proj2 (get_Ok _ _ _) NL). cbn [bind]. rewrite (proj2 (get_Ok _ _ _) GL). cbn [bind].
  rewrite (proj1 (vsub_dim3 pl p0 (D _ _ GL) (D _ _ G0))). reflexivity.
Qed.
Lemma corners_exist (ec : list (list R)) : (2 <= length ec)%nat -> exists p0 p1 pl, corners ec p0 p1 pl.
Proof.
  intros H. destruct (nth_error_lt ec 0) as [p0 E0]; [lia|]. destruct (nth_error_lt ec 1) as [p1 E1]; [lia|]. destruct (nth_error_lt ec (length ec - 1)) as [pl El]; [lia|]. exists p0, p1, pl. now split.
Qed.
Lemma surface_one coords nodes ec : nodes_at coords nodes ec -> rect 3 coords -> (2 <= length ec)%nat -> solid_surface ec ->
  exists fr, frame_of_surface Floating coords nodes = Ok fr /\ forall p0 p1 pl, corners ec p0 p1 pl -> surface_frame p0 p1 pl fr.
Proof.
  intros HN HR HL HS. destruct (corners_exist ec HL) as (p0 & p1 & pl & HC). destruct (surface_at _ _ _ _ _ _ HN HR HC) as (D0 & D1 & DL & E).
  destruct (axes_ok (sub p1 p0) (sub pl p0)) as (a & b & c & EA & RH & AL & PB & PC).
  { apply vsub_dim3; assumption. } { apply vsub_dim3; assumption. } { rewrite cross_line by assumption. exact (HS _ _ _ HC). }
  exists [a; b; c]. rewrite E, EA. split; [reflexivity|]. intros q0 q1 ql (Q0 & Q1 & QL). destruct HC as (C0 & C1 & CL). rewrite Q0 in C0. rewrite Q1 in C1. rewrite QL in CL. injection C0 as ->. injection C1 as ->. injection CL as ->.
  exists a, b, c. now split.
Qed.
Lemma surface_frames : forall coords topo ecs, mesh_at coords topo ecs -> rect 3 coords -> Forall (fun ec => (3 <= length ec)%nat /\ solid_surface ec) ecs ->
  exists frs, frames_of_surfaces Floating coords topo = Ok frs /\
    Forall2 (fun ec fr => forall p0 p1 pl, corners ec p0 p1 pl -> surface_frame p0 p1 pl fr) ecs frs.
Proof.
  intros coords topo ecs HM HR HF. induction HM as [|nodes ec topo ecs HN HM IH]; [exists []; split; [reflexivity|constructor]|].
  inversion HF as [|? ? [H1 H2] HF']; subst. destruct (surface_one _ _ _ HN HR) as (fr & E & P); [lia|assumption|]. destruct (IH HF') as (frs & E' & P').
  exists (fr :: frs). unfold frames_of_surfaces. cbn [mapM]. rewrite E. cbn [bind]. unfold frames_of_surfaces in E'. rewrite E'. split; [reflexivity|now constructor].
Qed.
(** the frame is determined by these properties *)
Lemma along_unit u a a' : along u a -> along u a' -> sprod a a = 1 -> sprod a' a' = 1 -> dim 3 a -> dim 3 a' -> a = a'.
Proof.
  intros (t & Ht & L & S) (t' & Ht' & L' & S') U U' D D'. destruct (dim3 _ D) as (a0 & a1 & a2 & ->), (dim3 _ D') as (b0 & b1 & b2 & ->).
  pose proof (S 0%nat) as X. pose proof (S 1%nat) as Y. pose proof (S 2%nat) as Z. pose proof (S' 0%nat) as X'. pose proof (S' 1%nat) as Y'. pose proof (S' 2%nat) as Z'. unfold at_ in *. cbn [nth] in *. comps.
  set (q := nth 0 u 0 * nth 0 u 0 + nth 1 u 0 * nth 1 u 0 + nth 2 u 0 * nth 2 u 0).
  assert (E : t * t * q = 1) by (unfold q; subst; lra). assert (E' : t' * t' * q = 1) by (unfold q; subst; lra).
  assert (HQ : q <> 0) by (intros Q; rewrite Q in E; lra). assert (T : t * t = t' * t') by (apply (Rmult_eq_reg_r q); lra).
  assert (t = t') by (apply Rsqr_inj; unfold Rsqr; lra). subst t'. congruence.
Qed.
Lemma rh_cross a b c : right_handed a b c -> c = cross3 a b /\ a = cross3 b c /\ b = cross3 c a.
Proof.
  intros (Da & Db & Dc & Ua & Ub & Uc & Oab & Obc & Oca & Hd). destruct (dim3 _ Da) as (a0 & a1 & a2 & ->), (dim3 _ Db) as (b0 & b1 & b2 & ->), (dim3 _ Dc) as (c0 & c1 & c2 & ->). unfold cross3. comps.
  assert (HC : forall x0 x1 x2 y0 y1 y2 z0 z1 z2, x0 * x0 + (x1 * x1 + (x2 * x2 + 0)) = 1 -> y0 * y0 + (y1 * y1 + (y2 * y2 + 0)) = 1 -> z0 * z0 + (z1 * z1 + (z2 * z2 + 0)) = 1 -> x0 * y0 + (x1 * y1 + (x2 * y2 + 0)) = 0 ->
     x0 * (y1 * z2 - y2 * z1) - x1 * (y0 * z2 - y2 * z0) + x2 * (y0 * z1 - y1 * z0) = 1 ->
     [z0; z1; z2] = [x1 * y2 - x2 * y1; x2 * y0 - x0 * y2; x0 * y1 - x1 * y0]).
  { intros x0 x1 x2 y0 y1 y2 z0 z1 z2 HX HY HZ HXY HD.
    assert (S : (z0 - (x1 * y2 - x2 * y1)) * (z0 - (x1 * y2 - x2 * y1)) + (z1 - (x2 * y0 - x0 * y2)) * (z1 - (x2 * y0 - x0 * y2)) + (z2 - (x0 * y1 - x1 * y0)) * (z2 - (x0 * y1 - x1 * y0)) = 0).
    { transitivity ((z0 * z0 + (z1 * z1 + (z2 * z2 + 0))) - 2 * (x0 * (y1 * z2 - y2 * z1) - x1 * (y0 * z2 - y2 * z0) + x2 * (y0 * z1 - y1 * z0)) + ((x0 * x0 + (x1 * x1 + (x2 * x2 + 0))) * (y0 * y0 + (y1 * y1 + (y2 * y2 + 0))) - (x0 * y0 + (x1 * y1 + (x2 * y2 + 0))) * (x0 * y0 + (x1 * y1 + (x2 * y2 + 0))))); [ring|]. rewrite HX, HY, HZ, HXY, HD. ring. }
    destruct (vec0 (z0 - (x1 * y2 - x2 * y1)) (z1 - (x2 * y0 - x0 * y2)) (z2 - (x0 * y1 - x1 * y0))) as [E|N]; [injection E as E0 E1 E2; apply vec3; lra|]. pose proof (sq3_pos _ _ _ N). lra. }
  split; [apply HC; lra|]. split; apply HC; lra.
Qed.
(** every vector is a combination of the axes of a frame *)
Lemma rh_expand a b c v k : right_handed a b c -> dim 3 v -> (k < 3)%nat -> at_ k v = sprod a v * at_ k a + sprod b v * at_ k b + sprod c v * at_ k c.
Proof.
  intros HR Dv Hk. destruct (rh_cross _ _ _ HR) as (Ec & Ea & Eb). destruct HR as (Da & Db & Dc & Ua & Ub & Uc & Oab & Obc & Oca & Hd).
  destruct (dim3 _ Da) as (a0 & a1 & a2 & ->), (dim3 _ Db) as (b0 & b1 & b2 & ->), (dim3 _ Dc) as (c0 & c1 & c2 & ->), (dim3 _ Dv) as (v0 & v1 & v2 & ->). unfold cross3 in *. comps.
  injection Ec as C0 C1 C2. injection Ea as A0 A1 A2. injection Eb as B0 B1 B2.
  set (det := a0 * (b1 * c2 - b2 * c1) - a1 * (b0 * c2 - b2 * c0) + a2 * (b0 * c1 - b1 * c0)) in *.
  assert (Sa : a0 * v0 + (a1 * v1 + (a2 * v2 + 0)) = (b1 * c2 - b2 * c1) * v0 + (b2 * c0 - b0 * c2) * v1 + (b0 * c1 - b1 * c0) * v2) by (rewrite <- A0, <- A1, <- A2; ring).
  assert (Sb : b0 * v0 + (b1 * v1 + (b2 * v2 + 0)) = (c1 * a2 - c2 * a1) * v0 + (c2 * a0 - c0 * a2) * v1 + (c0 * a1 - c1 * a0) * v2) by (rewrite <- B0, <- B1, <- B2; ring).
  assert (Sc : c0 * v0 + (c1 * v1 + (c2 * v2 + 0)) = (a1 * b2 - a2 * b1) * v0 + (a2 * b0 - a0 * b2) * v1 + (a0 * b1 - a1 * b0) * v2) by (rewrite <- C0, <- C1, <- C2; ring).
  rewrite Sa, Sb, Sc. clear Sa Sb Sc A0 A1 A2 B0 B1 B2 C0 C1 C2.
  destruct k as [|[|[|k]]]; [| | |lia]; cbn [nth].
  - transitivity (det * v0); [rewrite Hd; ring|unfold det; ring].
  - transitivity (det * v1); [rewrite Hd; ring|unfold det; ring].
  - transitivity (det * v2); [rewrite Hd; ring|unfold det; ring].
Qed.
Lemma sprod3 a b : dim 3 a -> dim 3 b -> sprod a b = at_ 0 a * at_ 0 b + at_ 1 a * at_ 1 b + at_ 2 a * at_ 2 b.
Proof. intros Ha Hb. destruct (dim3 _ Ha) as (? & ? & ? & ->), (dim3 _ Hb) as (? & ? & ? & ->). comps. ring. Qed.
Lemma ext3 a b : dim 3 a -> dim 3 b -> (forall k, (k < 3)%nat -> at_ k a = at_ k b) -> a = b.
Proof.
  intros Ha Hb H. destruct (dim3 _ Ha) as (? & ? & ? & ->), (dim3 _ Hb) as (? & ? & ? & ->). apply vec3; [exact (H 0%nat ltac:(lia))|exact (H 1%nat ltac:(lia))|exact (H 2%nat ltac:(lia))].
Qed.
Lemma surface_unique : forall p0 p1 pl fr fr', dim 3 p0 -> dim 3 p1 -> dim 3 pl -> surface_frame p0 p1 pl fr -> surface_frame p0 p1 pl fr' -> fr = fr'.
Proof.
  intros p0 p1 pl fr fr' H0 H1 HL (a & b & c & -> & HR & A & P & Q) (a' & b' & c' & -> & HR' & A' & P' & Q').
  assert (a = a') by (eapply along_unit; eauto; apply HR || apply HR'). subst a'.
  set (v := sub pl p0) in *. assert (Dv : dim 3 v) by (apply vsub_dim3; assumption).
  assert (X : forall k, (k < 3)%nat -> sprod b v * at_ k b = sprod b' v * at_ k b').
  { intros k Hk. pose proof (rh_expand a b c v k HR Dv Hk) as E. pose proof (rh_expand a b' c' v k HR' Dv Hk) as E'. rewrite Q in E. rewrite Q' in E'. lra. }
  pose proof HR as (_ & Db & _ & _ & Ub & _). pose proof HR' as (_ & Db' & _ & _ & Ub' & _). rewrite sprod3 in Ub, Ub' by assumption.
  set (s := sprod b v) in *. set (s' := sprod b' v) in *.
  assert (S : s * s = s' * s').
  { transitivity (s * at_ 0 b * (s * at_ 0 b) + s * at_ 1 b * (s * at_ 1 b) + s * at_ 2 b * (s * at_ 2 b)); [transitivity (s * s * (at_ 0 b * at_ 0 b + at_ 1 b * at_ 1 b + at_ 2 b * at_ 2 b)); [rewrite Ub; ring|ring]|].
    rewrite !X by lia. transitivity (s' * s' * (at_ 0 b' * at_ 0 b' + at_ 1 b' * at_ 1 b' + at_ 2 b' * at_ 2 b')); [ring|rewrite Ub'; ring]. }
  assert (s = s') by (apply Rsqr_inj; unfold Rsqr; lra).
  assert (b = b') by (apply ext3; [assumption|assumption|intros k Hk; apply (Rmult_eq_reg_l s); [rewrite (X k Hk); congruence|lra]]). subst b'.
  rewrite (proj1 (rh_cross _ _ _ HR)), (proj1 (rh_cross _ _ _ HR')). reflexivity.
Qed.
(** degenerate cells *)
Lemma surface_degenerate : forall coords topo ecs ec p0 p1 pl, mesh_at coords topo ecs -> rect 3 coords -> Forall (fun ec => (2 <= length ec)%nat) ecs -> In ec ecs -> corners ec p0 p1 pl -> on_common_line [p0; p1; pl] ->
  frames_of_surfaces Floating coords topo = Err ValueError.
Proof.
  intros coords topo ecs ec p0 p1 pl HM HR HF HI HC HL. unfold frames_of_surfaces.
  assert (OE : forall nodes ec', nodes_at coords nodes ec' -> (2 <= length ec')%nat -> frame_of_surface Floating coords nodes = Err ValueError \/ exists fr, frame_of_surface Floating coords nodes = Ok fr).
  { intros nodes ec' HN HL2. destruct (corners_exist ec' HL2) as (q0 & q1 & ql & HQ). destruct (surface_at _ _ _ _ _ _ HN HR HQ) as (D0 & D1 & DL & E).
    destruct (vec0 (py (sub q1 q0) * pz (sub ql q0) - pz (sub q1 q0) * py (sub ql q0)) (pz (sub q1 q0) * px (sub ql q0) - px (sub q1 q0) * pz (sub ql q0)) (px (sub q1 q0) * py (sub ql q0) - py (sub q1 q0) * px (sub ql q0))) as [Z|N].
    - left. rewrite E, axes_zero; [reflexivity|apply vsub_dim3; assumption|apply vsub_dim3; assumption|exact Z].
    - right. destruct (axes_ok (sub q1 q0) (sub ql q0)) as (a & b & c & EA & _); [apply vsub_dim3; assumption|apply vsub_dim3; assumption|exact N|]. rewrite E, EA. eexists. reflexivity. }
  induction HM as [|nodes ec' topo ecs HN HM IH]; [contradiction|]. inversion HF as [|? ? H1 HF']; subst. cbn [mapM].
  destruct HI as [->|HI].
  - destruct (surface_at _ _ _ _ _ _ HN HR HC) as (D0 & D1 & DL & E). rewrite E, axes_zero; [reflexivity|apply vsub_dim3; assumption|apply vsub_dim3; assumption|now apply cross_line].
  - destruct (OE nodes ec' HN H1) as [->|(fr & ->)]; [reflexivity|]. cbn [bind]. rewrite (IH HF' HI). reflexivity.
Qed.
(** integer coordinates *)
Lemma truncate_0 : truncate 0 = 0.
Proof. apply truncate_small. lra. Qed.
Lemma axes_integral u v : dim 3 u -> dim 3 v -> u <> [0; 0; 0] -> (forall i, (i < 3)%nat -> exists j, (j < 3)%nat /\ j <> i /\ at_ j u <> 0) -> axes_of Integral u v = Err ValueError.
Proof.
  intros Hu Hv HN H. destruct (dim3 _ Hu) as (u0 & u1 & u2 & ->), (dim3 _ Hv) as (v0 & v1 & v2 & ->). destruct (normalize_pos _ _ _ HN) as (s & Hs & Es & Us).
  assert (T : forall x y z, x * x + y * y + z * z = 1 -> y <> 0 \/ z <> 0 -> truncate x = 0).
  { intros x y z HE HD. apply truncate_small. assert (0 < y * y + z * z).
    { destruct HD as [D|D]; pose proof (Rsqr_pos_lt _ D) as P; unfold Rsqr in P; [pose proof (Rle_0_sqr z) as Q|pose proof (Rle_0_sqr y) as Q]; unfold Rsqr in Q; lra. }
    split; nra. }
  assert (NZ : forall x, x <> 0 -> s * x <> 0) by (intros x Hx; apply Rmult_integral_contrapositive_currified; lra).
  assert (T0 : truncate (s * u0) = 0).
  { apply (T (s * u0) (s * u1) (s * u2)); [exact Us|]. destruct (H 0%nat ltac:(lia)) as ([|[|[|j]]] & Hj & Hne & Hz); [congruence|left; apply NZ, Hz|right; apply NZ, Hz|lia]. }
  assert (T1 : truncate (s * u1) = 0).
  { apply (T (s * u1) (s * u0) (s * u2)); [lra|]. destruct (H 1%nat ltac:(lia)) as ([|[|[|j]]] & Hj & Hne & Hz); [left; apply NZ, Hz|congruence|right; apply NZ, Hz|lia]. }
  assert (T2 : truncate (s * u2) = 0).
  { apply (T (s * u2) (s * u0) (s * u1)); [lra|]. destruct (H 2%nat ltac:(lia)) as ([|[|[|j]]] & Hj & Hne & Hz); [left; apply NZ, Hz|right; apply NZ, Hz|congruence|lia]. }
  unfold axes_of. rewrite Es. cbn [bind map store]. rewrite T0, T1, T2.
  destruct (vec0 v0 v1 v2) as [E|HV]; [rewrite E, normalize_zero; reflexivity|]. destruct (normalize_pos _ _ _ HV) as (t & Ht & Et & Ut). rewrite Et. cbn [bind map store vcross].
  rewrite !Rmult_0_l, Rminus_0_r, normalize_zero. reflexivity.
Qed.
Lemma surface_integral : forall coords nodes ec p0 p1 pl, nodes_at coords nodes ec -> rect 3 coords -> corners ec p0 p1 pl ->
  (forall i, (i < 3)%nat -> exists j, (j < 3)%nat /\ j <> i /\ at_ j p1 <> at_ j p0) -> frames_of_surfaces Integral coords [nodes] = Err ValueError.
Proof.
  intros coords nodes ec p0 p1 pl HN HR HC H. destruct (surface_at _ _ _ _ _ _ HN HR HC) as (D0 & D1 & DL & E). unfold frames_of_surfaces. cbn [mapM]. rewrite E.
  assert (S : forall j, (j < 3)%nat -> at_ j (sub p1 p0) = at_ j p1 - at_ j p0).
  { intros j Hj. destruct (dim3 _ D0) as (? & ? & ? & ->), (dim3 _ D1) as (? & ? & ? & ->). destruct j as [|[|[|j]]]; [reflexivity|reflexivity|reflexivity|lia]. }
  rewrite axes_integral; [reflexivity|apply vsub_dim3; assumption|apply vsub_dim3; assumption| |].
  - intros Z. destruct (H 0%nat) as (j & Hj & _ & Hz); [lia|]. apply Hz. pose proof (S j Hj) as X. rewrite Z in X. destruct j as [|[|[|j]]]; [| | |lia]; unfold at_ in *; cbn [nth] in X; lra.
  - intros i Hi. destruct (H i Hi) as (j & Hj & Hne & Hz). exists j. split; [exact Hj|]. split; [exact Hne|]. rewrite (S j Hj). lra.
Qed.
