(** * Proofs about [SpaceModel.v], part 7: points in a plane and on a line, continued; counterexamples for frames *)
From Coq Require Import Reals Lra Lia List Psatz.
From Verif Require Import BaseFacts TrModel TrProofs EvalProofs ElevProofs ShapeProofs3 ShapeProofs4 TriProofs TriProofs3 TriProofs4 TriProofs5 LocProofs9 SpaceModel SpaceSpec NodalProofs NodalProofs4 NodalProofs5 NodalProofs7 SpaceProofs SpaceProofs2 SpaceProofs3 SpaceProofs4 SpaceProofs5 SpaceProofs6.
Import ListNotations.
Local Open Scope R_scope.

(** ** three points *)
Lemma strict_triangle p q r : dim 3 p -> dim 3 q -> dim 3 r -> ~ on_common_line [p; q; r] -> dist q p < dist r p + dist r q.
Proof.
  intros Hp Hq Hr HO. rewrite <- cross_line in HO by assumption. destruct (dim3 _ Hp) as (a & b & c & ->), (dim3 _ Hq) as (d & e & f & ->), (dim3 _ Hr) as (g & h & i & ->).
  unfold cross3, sub in HO. comps. apply sq3_pos in HO. unfold dist, dist2. cbn [combine map fold_right fst snd].
  set (U := (g - a) * (g - a) + ((h - b) * (h - b) + ((i - c) * (i - c) + 0))). set (V := (g - d) * (g - d) + ((h - e) * (h - e) + ((i - f) * (i - f) + 0))). set (W := (d - a) * (d - a) + ((e - b) * (e - b) + ((f - c) * (f - c) + 0))).
  assert (SQ : forall x, 0 <= x * x) by (intros x; pose proof (Rle_0_sqr x) as P; exact P).
  assert (PU : 0 <= U) by (unfold U; pose proof (SQ (g - a)); pose proof (SQ (h - b)); pose proof (SQ (i - c)); lra). assert (PV : 0 <= V) by (unfold V; pose proof (SQ (g - d)); pose proof (SQ (h - e)); pose proof (SQ (i - f)); lra). assert (PW : 0 <= W) by (unfold W; pose proof (SQ (d - a)); pose proof (SQ (e - b)); pose proof (SQ (f - c)); lra).
  set (s := (g - a) * (g - d) + (h - b) * (h - e) + (i - c) * (i - f)).
  assert (EW : W = U + V - 2 * s) by (unfold W, U, V, s; ring).
  assert (LG : U * V = s * s + ((g - a) * (h - e) - (h - b) * (g - d)) * ((g - a) * (h - e) - (h - b) * (g - d)) + ((h - b) * (i - f) - (i - c) * (h - e)) * ((h - b) * (i - f) - (i - c) * (h - e)) + ((i - c) * (g - d) - (g - a) * (i - f)) * ((i - c) * (g - d) - (g - a) * (i - f))) by (unfold U, V, s; ring).
  assert (CR : 0 < U * V - s * s).
  { rewrite LG. eapply Rlt_le_trans; [exact HO|]. apply Req_le. ring. }
  clear LG HO. pose proof (sqrt_pos U) as RU. pose proof (sqrt_pos V) as RV. pose proof (sqrt_sqrt U PU) as SU. pose proof (sqrt_sqrt V PV) as SV.
  assert (KEY : - s < sqrt U * sqrt V).
  { destruct (Rlt_dec 0 s) as [L|L]; [pose proof (Rmult_le_pos _ _ RU RV); lra|]. assert (0 <= sqrt U * sqrt V) by (apply Rmult_le_pos; assumption).
    apply Rsqr_incrst_0; [unfold Rsqr|lra|assumption]. replace (sqrt U * sqrt V * (sqrt U * sqrt V)) with (sqrt U * sqrt U * (sqrt V * sqrt V)) by ring. rewrite SU, SV. lra. }
  replace (sqrt U + sqrt V) with (sqrt ((sqrt U + sqrt V) * (sqrt U + sqrt V))) by (apply sqrt_square; lra). apply sqrt_lt_1_alt. split; [exact PW|]. rewrite EW. replace ((sqrt U + sqrt V) * (sqrt U + sqrt V)) with (sqrt U * sqrt U + sqrt V * sqrt V + 2 * (sqrt U * sqrt V)) by ring. rewrite SU, SV. lra.
Qed.
Lemma dist_pos p q : dim 3 p -> dim 3 q -> p <> q -> 0 < dist p q.
Proof.
  intros Hp Hq N. unfold dist. apply sqrt_lt_R0. destruct (dim3 _ Hp) as (a & b & c & ->), (dim3 _ Hq) as (x & y & z & ->). unfold dist2. cbn [combine map fold_right fst snd]. assert (V : [a - x; b - y; c - z] <> [0; 0; 0]) by (intros E; injection E as E1 E2 E3; apply N, vec3; lra). apply sq3_pos in V. lra.
Qed.
Lemma line_perm p q r p' q' r' : on_common_line [p; q; r] -> (forall x, In x [p'; q'; r'] -> In x [p; q; r]) -> on_common_line [p'; q'; r'].
Proof. intros (o & u & H) HI. exists o, u. intros x Hx. apply H, HI, Hx. Qed.
Lemma line_degenerate p q r : dim 3 p -> dim 3 q -> dim 3 r -> ~ on_common_line [p; q; r] -> p <> q /\ p <> r /\ q <> r.
Proof.
  assert (G : forall x y, dim 3 x -> dim 3 y -> on_common_line [x; x; y]).
  { intros x y Hx Hy. apply cross_line; try assumption. destruct (dim3 _ Hx) as (a & b & c & ->), (dim3 _ Hy) as (d & e & f & ->). unfold cross3, sub, px, py, pz, at_. cbn [nth combine map fst snd]. apply vec3; ring. }
  intros Hp Hq Hr HO. repeat split; intros ->; apply HO; [apply G; assumption|apply (line_perm r r q); [apply G; assumption|cbn; tauto]|apply (line_perm r r p); [apply G; assumption|cbn; tauto]].
Qed.
Lemma argmax_3 x y z : exists i, argmax [x; y; z] = Ok i /\ ((i = 0%nat /\ y <= x /\ z <= x) \/ (i = 1%nat /\ x < y /\ z <= y) \/ (i = 2%nat /\ x < z /\ y < z)).
Proof.
  cbn [argmax arg_best]. destruct (Rlt_dec x y) as [A|A]; [destruct (Rlt_dec y z) as [B|B]|destruct (Rlt_dec x z) as [B|B]]; eexists; (split; [reflexivity|]); lra || (first [left; repeat split; lra|right; left; repeat split; lra|right; right; repeat split; lra]).
Qed.
Lemma planar_three : forall p0 p1 p2 n h tol, dim 3 p0 -> dim 3 p1 -> dim 3 p2 -> ~ on_common_line [p0; p1; p2] -> dim 3 n -> sprod n n = 1 -> in_plane n h [p0; p1; p2] -> 0 <= tol ->
  exists b, is_planar [p0; p1; p2] tol = Ok b /\ (b = true <-> Rabs h <= tol).
Proof.
  intros p0 p1 p2 n h tol D0 D1 D2 HO Dn Un HP Ht. set (ps := [p0; p1; p2]) in *. assert (NP : ps <> []) by discriminate. assert (RP : rect 3 ps) by (repeat constructor; assumption).
  destruct (Rlt_dec tol (Rabs h)) as [L|L].
  { exists false. split; [apply (planar_offset ps n h tol NP RP Dn Un HP); lra|]. split; [discriminate|lra]. }
  exists true. split; [|split; [lra|reflexivity]].
  assert (FIN : forall q1 q2, dim 3 q1 -> dim 3 q2 -> ~ on_common_line [p0; q1; q2] -> sprod n q1 = h -> sprod n q2 = h ->
    match frame_of_plane Floating [p0; q1; q2] with Err _ => Ok false | Ok (_, tr) => do d <- mapM (fun row => get row 2) tr; do diffs <- mapM (fun i => if Nat.eqb i 0 then Ok 0 else do p <- get ps i; do x <- vdot p d; Ok (Rabs x)) (seq 0 (length ps)); do mx <- rmax diffs; Ok (rleb mx tol) end = Ok true).
  { intros q1 q2 E1 E2 HQ S1 S2. destruct (plane_triangle p0 q1 q2 D0 E1 E2 HQ) as (m & tr & a' & b' & c' & EF & _). rewrite EF.
    destruct (plane_normal [p0; q1; q2] n h tr m ltac:(discriminate) ltac:(repeat constructor; assumption) Dn Un) as (a & b & c & HC & RH & HS); [intros p [<-|[<-|[<-|[]]]]; [apply HP; cbn; tauto|exact S1|exact S2]|exact EF|].
    assert (Dc : dim 3 c) by apply RH. rewrite (columns_get tr a b c HC Dc). cbn [bind]. destruct (planar_deviations ps c tol NP RP Dc Ht) as (r & Er & Hr). rewrite Er. f_equal. apply Hr. intros i p Hi Hp.
    assert (Hin : In p ps) by exact (nth_error_In _ _ Hp). assert (Dp : dim 3 p) by exact (rect_nth _ _ _ _ RP Hp). assert (E : Rabs (sprod c p) = Rabs h); [|lra]. rewrite <- (HP p Hin). destruct HS as [-> | ->]; [reflexivity|]. rewrite <- (Rabs_Ropp (sprod c p)). f_equal. destruct (dim3 _ Dc) as (x & y & z & ->), (dim3 _ Dp) as (x' & y' & z' & ->). unfold sprod. cbn. ring. }
  destruct (line_degenerate _ _ _ D0 D1 D2 HO) as (N01 & N02 & N12). pose proof (strict_triangle p0 p1 p2 D0 D1 D2 HO) as T1.
  pose proof (strict_triangle p0 p2 p1 D0 D2 D1 ltac:(intros HH; apply HO; apply (line_perm _ _ _ _ _ _ HH); cbn; tauto)) as T2.
  pose proof (dist_pos p1 p0 D1 D0 ltac:(congruence)) as P1. pose proof (dist_pos p2 p0 D2 D0 ltac:(congruence)) as P2.
  assert (S01 : dist p0 p1 = dist p1 p0) by (apply dist_sym; congruence). assert (S02 : dist p0 p2 = dist p2 p0) by (apply dist_sym; congruence).
  assert (S12 : dist p1 p2 = dist p2 p1) by (apply dist_sym; congruence).
  unfold is_planar, ps. cbn [get nth_error bind]. rewrite (distances_value 3 [p0; p1; p2] p0 RP D0). cbn [bind map]. rewrite (dist_self p0).
  destruct (argmax_3 0 (dist p1 p0) (dist p2 p0)) as (iB & EB & CB). rewrite EB. cbn [bind]. destruct CB as [(-> & A1 & A2)|[(-> & A1 & A2)|(-> & A1 & A2)]]; [lra| |]; cbn [get nth_error bind].
  - rewrite (distances_value 3 [p0; p1; p2] p1 RP D1). cbn [bind map]. rewrite (dist_self p1), S01. unfold vadd. cbn [map2 bind]. numR.
    destruct (argmax_3 (0 + dist p1 p0) (dist p1 p0 + 0) (dist p2 p0 + dist p2 p1)) as (iC & EC & CC). rewrite EC. cbn [bind]. destruct CC as [(-> & B1 & B2)|[(-> & B1 & B2)|(-> & B1 & B2)]]; [lra|lra|]. cbn [get nth_error bind].
    apply FIN; [assumption|assumption|exact HO|apply HP; cbn; tauto|apply HP; cbn; tauto].
  - rewrite (distances_value 3 [p0; p1; p2] p2 RP D2). cbn [bind map]. rewrite (dist_self p2), S02. unfold vadd. cbn [map2 bind]. numR.
    destruct (argmax_3 (0 + dist p2 p0) (dist p1 p0 + dist p1 p2) (dist p2 p0 + 0)) as (iC & EC & CC). rewrite EC. cbn [bind]. destruct CC as [(-> & B1 & B2)|[(-> & B1 & B2)|(-> & B1 & B2)]]; [lra| |lra]. cbn [get nth_error bind].
    apply FIN; [assumption|assumption|intros HH; apply HO; apply (line_perm _ _ _ _ _ _ HH); cbn; tauto|apply HP; cbn; tauto|apply HP; cbn; tauto].
Qed.
(** points of a plane through the origin for which the three points chosen are on a line *)
Lemma planar_choice : exists coords, rect 3 coords /\ in_plane [0; 0; 1] 0 coords /\ ~ on_common_line coords /\ forall tol, is_planar coords tol = Ok false.
Proof.
  exists [[0; 0; 0]; [1; 0; 0]; [-1; 0; 0]; [0; 1 / 2; 0]]. set (A := [0; 0; 0]). set (B := [1; 0; 0]). set (X := [-1; 0; 0]). set (Y := [0; 1 / 2; 0]).
  assert (RP : rect 3 [A; B; X; Y]) by repeat constructor. split; [exact RP|]. split; [intros p [<-|[<-|[<-|[<-|[]]]]]; unfold sprod, A, B, X, Y; cbn; ring|]. split.
  { intros (o & u & H). assert (L : on_common_line [A; B; Y]) by (exists o, u; intros p Hp; apply H; cbn in *; tauto). apply cross_line in L; [|reflexivity|reflexivity|reflexivity]. unfold cross3, sub, A, B, Y, px, py, pz, at_ in L. cbn in L. injection L. lra. }
  intros tol. assert (SQ : forall x y, 0 <= y -> x = y * y -> sqrt x = y) by (intros x y Hy ->; now apply sqrt_square).
  unfold is_planar. cbn [get nth_error bind]. rewrite (distances_value 3 _ A RP eq_refl). cbn [bind map]. rewrite (dist_self A).
  assert (E1 : dist B A = 1) by (unfold dist, dist2, A, B; cbn [combine map fold_right fst snd]; apply SQ; lra). assert (E2 : dist X A = 1) by (unfold dist, dist2, A, X; cbn [combine map fold_right fst snd]; apply SQ; lra). assert (E3 : dist Y A = 1 / 2) by (unfold dist, dist2, A, Y; cbn [combine map fold_right fst snd]; apply SQ; lra).
  rewrite E1, E2, E3. cbn [argmax arg_best]. destruct (Rlt_dec 0 1); [|lra]. destruct (Rlt_dec 1 1); [lra|]. destruct (Rlt_dec 1 (1 / 2)); [lra|]. cbn [bind get nth_error].
  rewrite (distances_value 3 _ B RP eq_refl). cbn [bind map]. rewrite (dist_self B).
  assert (F1 : dist A B = 1) by (unfold dist, dist2, A, B; cbn [combine map fold_right fst snd]; apply SQ; lra). assert (F2 : dist X B = 2) by (unfold dist, dist2, B, X; cbn [combine map fold_right fst snd]; apply SQ; lra).
  assert (F3 : dist Y B <= 2). { replace 2 with (sqrt (2 * 2)) by (apply sqrt_square; lra). unfold dist. apply sqrt_le_1_alt. unfold dist2, B, Y. cbn [combine map fold_right fst snd]. lra. }
  rewrite F1, F2. unfold vadd. cbn [map2 bind]. numR. cbn [argmax arg_best]. destruct (Rlt_dec (0 + 1) (1 + 0)); [lra|]. destruct (Rlt_dec (0 + 1) (1 + 2)); [|lra]. destruct (Rlt_dec (1 + 2) (1 / 2 + dist Y B)); [lra|]. cbn [bind get nth_error].
  rewrite (plane_degenerate [A; B; X] A B (means 3 [A; B; X])); [reflexivity|discriminate|repeat constructor|reflexivity|reflexivity|apply means_mean; discriminate|].
  exists A, B. intros p [<-|[<-|[<-|[]]]]; [exists 0|exists 0|exists 1]; intros [|[|[|k]]] Hk; try lia; unfold means, A, B, X, at_; cbn; field.
Qed.

(** ** points on a line *)
Lemma is_line_false : forall zero coords p0 pl tol, zero = Err ValueError \/ zero = Ok [0; 0; 0] -> rect 3 coords -> nth_error coords 0 = Some p0 -> nth_error coords (length coords - 1) = Some pl -> pl <> p0 -> 0 <= tol < 1 ->
  is_line zero coords tol = Ok false.
Proof.
  intros zero coords p0 pl tol HZ HR H0 HL NE Ht. pose proof (rect_nth _ _ _ _ HR H0) as D0. pose proof (rect_nth _ _ _ _ HR HL) as DL. unfold is_line. rewrite (proj2 (get_Ok _ _ _) H0). cbn [bind].
  assert (MV : move_points coords (map Ropp p0) = Ok (map (fun q => sub q p0) coords)).
  { unfold move_points. apply mapM_map. intros q Hq. unfold rect in HR. rewrite Forall_forall in HR. destruct (dim3 _ (HR q Hq)) as (x & y & z & ->), (dim3 _ D0) as (a & b & c & ->). unfold vadd, sub. cbn. reflexivity. }
  rewrite MV. cbn [bind].
  assert (Z0 : sub p0 p0 = [0; 0; 0]) by (destruct (dim3 _ D0) as (a & b & c & ->); unfold sub; cbn [combine map fst snd]; apply vec3; ring).
  assert (NZ : normalize_row zero [0; 0; 0] = zero) by (unfold normalize_row; rewrite norm3; cbn [bind]; replace (0 * 0 + 0 * 0 + 0 * 0) with 0 by ring; rewrite sqrt_0; destruct (Req_EM_T 0 0); [reflexivity|congruence]).
  destruct (mapM (normalize_row zero) (map (fun q => sub q p0) coords)) as [c|e] eqn:EC; [|reflexivity].
  assert (H0' : nth_error (map (fun q => sub q p0) coords) 0 = Some [0; 0; 0]) by (rewrite nth_error_map, H0; cbn; now rewrite Z0).
  destruct (mapM_nth_error _ _ _ _ _ EC H0') as (c0 & C0 & E0). rewrite NZ in E0. destruct HZ as [-> | ->]; [discriminate|]. injection E0 as <-.
  assert (LC : length c = length coords) by (apply mapM_length in EC; now rewrite map_length in EC).
  assert (HL' : nth_error (map (fun q => sub q p0) coords) (length coords - 1) = Some (sub pl p0)) by (rewrite nth_error_map, HL; reflexivity).
  destruct (mapM_nth_error _ _ _ _ _ EC HL') as (cl & CL & EL).
  destruct (direction p0 pl D0 DL ltac:(congruence)) as (a & Ea & Da & Ua & Aa).
  assert (cl = a).
  { unfold normalize_row in EL. rewrite Ea in EL. destruct (norm (sub pl p0)) as [x|]; [|discriminate]. cbn [bind] in EL. destruct (Req_EM_T x 0) as [Ex|Ex]; [|congruence]. injection EL as <-. exfalso.
    unfold normalize in Ea. destruct (dim3 _ (proj2 (vsub_dim3 pl p0 DL D0))) as (u & v & w & E). rewrite E in Ea. rewrite norm3 in Ea. cbn [bind] in Ea. destruct (Req_EM_T (sqrt (u * u + v * v + w * w)) 0) as [Q|Q]; [discriminate|]. 
    assert (NZ3 : [u; v; w] <> [0; 0; 0]) by (intros Z; injection Z as -> -> ->; apply Q; replace (0 * 0 + 0 * 0 + 0 * 0) with 0 by ring; apply sqrt_0).
    assert (x = 0) by exact Ex. clear - CL EC HL' E NZ3 Q. 
    destruct (mapM_nth_error _ _ _ _ _ EC HL') as (cl' & CL' & EL'). rewrite E in EL'. unfold normalize_row in EL'. rewrite norm3 in EL'. cbn [bind] in EL'. destruct (Req_EM_T (sqrt (u * u + v * v + w * w)) 0) as [Q'|Q']; [contradiction|].
    rewrite CL in CL'. injection CL' as <-. unfold normalize in EL'. rewrite norm3 in EL'. cbn [bind] in EL'. destruct (Req_EM_T (sqrt (u * u + v * v + w * w)) 0); [contradiction|]. cbn [map] in EL'. injection EL' as F1 F2 F3. apply NZ3.
    assert (G : forall t, t / sqrt (u * u + v * v + w * w) = 0 -> t = 0) by (intros t Ht; apply (Rmult_eq_reg_r (/ sqrt (u * u + v * v + w * w))); [rewrite Rmult_0_l; exact Ht|now apply Rinv_neq_0_compat]). apply vec3; apply G; assumption. }
  subst cl. rewrite LC. rewrite (proj2 (get_Ok _ _ _) CL). cbn [bind]. rewrite (proj2 (get_Ok _ _ _) C0). cbn [bind].
  assert (ED : vsub a [0; 0; 0] = Ok a) by (destruct (dim3 _ Da) as (x & y & z & ->); unfold vsub; cbn; f_equal; apply vec3; ring). rewrite ED. cbn [bind].
  assert (L1 : (1 < length coords)%nat). { destruct coords as [|q [|q' coords]]; [discriminate| |cbn; lia]. cbn in H0, HL. congruence. }
  assert (Dci : forall i ci, nth_error c i = Some ci -> dim 3 ci).
  { intros i ci Hi. destruct (mapM_nth_error_r _ _ _ _ _ EC Hi) as (v & Hv & Ev). rewrite nth_error_map in Hv. destruct (nth_error coords i) as [q|] eqn:Hq; [|discriminate]. cbn in Hv. injection Hv as <-. pose proof (rect_nth _ _ _ _ HR Hq) as Dq. destruct (dim3 _ (proj2 (vsub_dim3 q p0 Dq D0))) as (u & v & w & E). rewrite E in Ev. unfold normalize_row in Ev. rewrite norm3 in Ev. cbn [bind] in Ev. destruct (Req_EM_T (sqrt (u * u + v * v + w * w)) 0) as [Q|Q]; [injection Ev as <-; reflexivity|]. unfold normalize in Ev. rewrite norm3 in Ev. cbn [bind] in Ev. destruct (Req_EM_T (sqrt (u * u + v * v + w * w)) 0); [discriminate|]. injection Ev as <-. reflexivity. }
  destruct (deviations (fun i => do ci <- get c i; do x <- vdot ci a; Ok (Rabs x)) (fun i => Rabs (sprod (nth i c []) a)) (length coords) tol) as (b & E & Hb); [lia|lra| |].
  { intros i Hi. destruct (nth_error_lt c i) as [ci Hci]; [lia|]. rewrite (proj2 (get_Ok _ _ _) Hci). cbn [bind]. rewrite (vdot_sprod ci a (Dci i ci Hci) Da). cbn [bind]. rewrite (nth_error_nth _ _ [] Hci). reflexivity. }
  rewrite E. destruct b; [|reflexivity]. exfalso. destruct Hb as (Hb & _). specialize (Hb eq_refl (length coords - 1)%nat ltac:(lia)). rewrite (nth_error_nth _ _ [] CL), Ua, Rabs_R1 in Hb. lra.
Qed.
(** a closed sequence of points *)
Lemma is_line_closed : forall coords p0 tol, rect 3 coords -> nth_error coords 0 = Some p0 -> nth_error coords (length coords - 1) = Some p0 -> 0 <= tol -> is_line (Ok [0; 0; 0]) coords tol = Ok true.
Proof.
  intros coords p0 tol HR H0 HL Ht. pose proof (rect_nth _ _ _ _ HR H0) as D0. unfold is_line. rewrite (proj2 (get_Ok _ _ _) H0). cbn [bind].
  assert (MV : move_points coords (map Ropp p0) = Ok (map (fun q => sub q p0) coords)).
  { unfold move_points. apply mapM_map. intros q Hq. unfold rect in HR. rewrite Forall_forall in HR. destruct (dim3 _ (HR q Hq)) as (x & y & z & ->), (dim3 _ D0) as (a & b & c & ->). unfold vadd, sub. cbn. reflexivity. }
  rewrite MV. cbn [bind].
  assert (Z0 : sub p0 p0 = [0; 0; 0]) by (destruct (dim3 _ D0) as (a & b & c & ->); unfold sub; cbn [combine map fst snd]; apply vec3; ring).
  assert (NZ : normalize_row (Ok [0; 0; 0]) [0; 0; 0] = Ok [0; 0; 0]) by (unfold normalize_row; rewrite norm3; cbn [bind]; replace (0 * 0 + 0 * 0 + 0 * 0) with 0 by ring; rewrite sqrt_0; destruct (Req_EM_T 0 0); [reflexivity|congruence]).
  assert (NR : forall q, In q coords -> exists r, normalize_row (Ok [0; 0; 0]) (sub q p0) = Ok r /\ dim 3 r).
  { intros q Hq. unfold rect in HR. rewrite Forall_forall in HR. destruct (dim3 _ (proj2 (vsub_dim3 q p0 (HR q Hq) D0))) as (u & v & w & ->). unfold normalize_row, normalize. rewrite norm3. cbn [bind]. destruct (Req_EM_T (sqrt (u * u + v * v + w * w)) 0); [exists [0; 0; 0]; split; reflexivity|]. eexists. split; reflexivity. }
  destruct (mapM_Forall2 (fun q => normalize_row (Ok [0; 0; 0]) (sub q p0)) (fun q r => normalize_row (Ok [0; 0; 0]) (sub q p0) = Ok r /\ dim 3 r) coords) as (c & EC & PC); [intros q Hq; destruct (NR q Hq) as (r & E & D); exists r; auto|].
  assert (EM : mapM (normalize_row (Ok [0; 0; 0])) (map (fun q => sub q p0) coords) = Ok c).
  { clear - EC. revert c EC. induction coords as [|q coords IH]; intros c EC; [exact EC|]. cbn [map mapM] in *. destruct (normalize_row (Ok [0; 0; 0]) (sub q p0)) as [r|]; [|discriminate]. cbn [bind] in *. destruct (mapM (fun q => normalize_row (Ok [0; 0; 0]) (sub q p0)) coords) as [rs|] eqn:E; [|discriminate]. rewrite (IH rs eq_refl). exact EC. }
  rewrite EM. assert (LC : length c = length coords) by (apply mapM_length in EC; exact EC). rewrite LC.
  destruct (Forall2_nth_error _ _ _ _ _ PC H0) as (c0 & C0 & F0 & _). rewrite Z0, NZ in F0. injection F0 as <-. destruct (Forall2_nth_error _ _ _ _ _ PC HL) as (cl & CL & F1 & _). rewrite Z0, NZ in F1. injection F1 as <-.
  rewrite (proj2 (get_Ok _ _ _) CL). cbn [bind]. rewrite (proj2 (get_Ok _ _ _) C0). cbn [bind]. assert (ED : vsub [0; 0; 0] [0; 0; 0] = Ok [0; 0; 0]) by (unfold vsub; cbn; f_equal; apply vec3; ring). rewrite ED. cbn [bind].
  destruct (deviations (fun i => do ci <- get c i; do x <- vdot ci [0; 0; 0]; Ok (Rabs x)) (fun _ => 0) (length coords) tol) as (b & E & Hb); [apply nth_error_Some_lt in H0; lia|exact Ht| |].
  { intros i Hi. destruct (nth_error_lt c i) as [ci Hci]; [lia|]. destruct (Forall2_nth_error_r _ _ _ _ _ PC Hci) as (q & Hq & _ & Dci). rewrite (proj2 (get_Ok _ _ _) Hci). cbn [bind]. destruct (dim3 _ Dci) as (x & y & z & ->). rewrite vdot3. cbn [bind]. replace (x * 0 + y * 0 + z * 0) with 0 by ring. rewrite Rabs_R0. reflexivity. }
  rewrite E. f_equal. apply Hb. intros. exact Ht.
Qed.

(** ** counterexamples for frames *)
(** a line along the global x axis: the local z axis is the global y axis; a reference that is not an array is ignored *)
Lemma lean_wrong : exists coords nodes, rect 3 coords /\ (forall refZ, refZ = RefNone \/ refZ = RefOther -> frames_of_lines coords (OneLine nodes) refZ = Ok [[[1; 0; 0]; [0; 0; -1]; [0; 1; 0]]]).
Proof.
  exists [[0; 0; 0]; [2; 0; 0]], [0; 1]%nat. split; [repeat constructor|].
  assert (N : forall x y z t, 0 < t -> x * x + y * y + z * z = t * t -> normalize [x; y; z] = Ok [x / t; y / t; z / t]).
  { intros x y z t Ht E. unfold normalize. rewrite norm3. cbn [bind]. rewrite E, sqrt_square by lra. destruct (Req_EM_T t 0); [lra|reflexivity]. }
  assert (E : frame_of_line_auto [[0; 0; 0]; [2; 0; 0]] [0; 1]%nat = Ok [[1; 0; 0]; [0; 0; -1]; [0; 1; 0]]).
  { unfold frame_of_line_auto. cbn [length Nat.sub get nth_error bind]. rewrite vsub3. cbn [bind]. rewrite (N _ _ _ 2) by lra. cbn [bind].
    replace ((2 - 0) / 2) with 1 by field. replace ((0 - 0) / 2) with 0 by field. unfold matvec, ijk. cbn [mapM]. rewrite !vdot3. cbn [bind map].
    replace (1 * 1 + 0 * 0 + 0 * 0) with 1 by ring. replace (0 * 1 + 1 * 0 + 0 * 0) with 0 by ring. replace (0 * 1 + 0 * 0 + 1 * 0) with 0 by ring. rewrite Rabs_R1, Rabs_R0. cbn [argmin arg_best]. destruct (Rlt_dec 0 1); [|lra]. destruct (Rlt_dec 0 0); [lra|]. cbn [bind get nth_error]. rewrite vdot3. cbn [bind].
    change (vscale (0 * 1 + 1 * 0 + 0 * 0) [1; 0; 0]) with [(0 * 1 + 1 * 0 + 0 * 0) * 1; (0 * 1 + 1 * 0 + 0 * 0) * 0; (0 * 1 + 1 * 0 + 0 * 0) * 0]. rewrite vsub3. cbn [bind]. rewrite (N _ _ _ 1) by lra. cbn [bind vcross]. f_equal. f_equal. f_equal; [apply vec3; field|]. f_equal. apply vec3; field. }
  intros refZ [-> | ->]; unfold frames_of_lines; cbn [mapM]; rewrite E; reflexivity.
Qed.
