(** * Disks with holes: results of [perforated_cube] *)
From Coq Require Import Reals Lra Lia List Permutation ZArith.
From Verif Require ExtrudeProofs3 ElevProofs2.
From Verif Require Import BaseFacts DiskModel DiskSpec DiskProofs DiskProofs2 DiskProofs3 DiskProofs4.
Import ListNotations.
Local Open Scope R_scope.

Lemma perforated_points : forall lx ly radius nangles l, 0 < l -> 0 <= lx -> 0 <= ly -> 0 <= radius ->
  exists nx ny n points, whole_parts 4 lx l nx /\ whole_parts 4 ly l ny /\ (match nangles with Some k => n = k | None => whole_parts 8 (2 * PI * radius) l n end) /\
    cube_points lx ly radius nangles (Some l) = Ok points /\ perforated lx ly radius (radius + l) nx ny n points.
Proof.
  intros lx ly radius nangles l Hl Hx Hy Hr. destruct (parts_whole 4 lx l Hl Hx) as (zx & Ex & Wx). destruct (parts_whole 4 ly l Hl Hy) as (zy & Ey & Wy). pose proof PI_RGT_0. destruct (parts_whole 8 (2 * PI * radius) l Hl) as (zn & En & Wn); [apply Rmult_le_pos; lra|].
  set (n := match nangles with Some k => k | None => Z.to_nat (Z.max zn (Z.of_nat 8)) end).
  destruct (cube_made lx ly radius (Z.to_nat (Z.max zx (Z.of_nat 4))) (Z.to_nat (Z.max zy (Z.of_nat 4))) n (Some l) nangles) as (points & E & HP); [destruct Wx; lia|destruct Wy; lia|unfold cube_shape; rewrite Ex, Ey; reflexivity|unfold hole_angles, n; destruct nangles; [reflexivity|]; rewrite En; reflexivity|].
  do 3 eexists. exists points. split; [exact Wx|]. split; [exact Wy|]. split; [|split; [exact E|exact HP]]. unfold n. destruct nangles; [reflexivity|exact Wn].
Qed.
Lemma perforated_points_default : forall lx ly radius nangles, exists points, cube_points lx ly radius nangles None = Ok points /\
  perforated lx ly radius (radius * (11 / 10)) 4 4 (match nangles with Some k => k | None => 16%nat end) points.
Proof. intros lx ly radius nangles. apply cube_made; [lia|lia|reflexivity|destruct nangles; reflexivity]. Qed.

Lemma layers_ok lz lmax nz : layer_count lz lmax nz -> (match lmax with Some l => 0 < l | None => True end) -> cube_layers lz lmax = Ok nz.
Proof.
  intros H P. unfold cube_layers. destruct lmax as [l|]; [|cbn in H; subst; reflexivity]. cbn in H. assert (0 <= lz) by (pose proof (pos_INR nz); nra). destruct (parts_pos lz l P H0) as (z & E & Hz & B1 & B2). rewrite E. cbn [bind]. destruct (Z.ltb_spec z 0); [lia|]. f_equal.
  rewrite INR_IZR_INZ in H. assert (z < Z.of_nat nz + 1)%Z by (apply lt_IZR; rewrite plus_IZR; apply (Rmult_lt_reg_r l); lra). assert (Z.of_nat nz < z + 1)%Z by (apply lt_IZR; rewrite plus_IZR; apply (Rmult_lt_reg_r l); lra). lia.
Qed.
Lemma perforated_mesh : forall tool lx ly lz radius nangles lmax points nz, (match lmax with Some l => 0 < l | None => True end) ->
  cube_points lx ly radius nangles lmax = Ok points -> rect 2 points -> triangles_of (length points) (tool points) -> layer_count lz lmax nz -> (0 < nz)%nat ->
  exists base ts, detached (raised points) (kept points radius (tool points)) base ts /\
   (exists c t, perforated_cube tool lx ly lz radius nangles lmax 1 true = Ok (c, t) /\ layered base lz nz c /\ rect 6 t /\ in_range (length c) t /\ length t = (length ts * nz)%nat /\
     rsum (map (enclosed_volume hull_W6 c) t) = rsum (map (tri_area base) ts) * lz) /\
   (exists c t, perforated_cube tool lx ly lz radius nangles lmax 1 false = Ok (c, t) /\ layered base lz nz c /\ rect 4 t /\ in_range (length c) t /\ length t = (3 * (length ts * nz))%nat /\
     rsum (map (tet_nodes_volume c) t) = rsum (map (tri_area base) ts) * lz).
Proof.
  intros tool lx ly lz radius nangles lmax points nz HL EP HR HT HZ Hz. destruct (cut_out_ok tool points radius HR HT) as (base & ts & EC & HD). exists base, ts. split; [exact HD|].
  destruct (detached_ready points (tool points) base ts HT radius HD) as [P1 P2]. pose proof (layers_ok _ _ _ HZ HL) as EL. split.
  - destruct (ExtrudeProofs3.w6_mesh base ts lz nz P1 P2 Hz) as (c & t & Q1 & Q2 & Q3 & Q4 & Q5 & Q6 & _). exists c, t. unfold perforated_cube. rewrite EP. cbn [bind]. rewrite EC. cbn [bind]. rewrite EL. cbn [bind fst snd]. rewrite Q1. cbn [bind Nat.eqb]. auto 10.
  - destruct (ExtrudeProofs3.tet4_mesh base ts lz nz P1 P2 Hz) as (c & t & Q1 & Q2 & Q3 & Q4 & Q5 & Q6 & _). exists c, t. unfold perforated_cube. rewrite EP. cbn [bind]. rewrite EC. cbn [bind]. rewrite EL. cbn [bind fst snd]. rewrite Q1. cbn [bind Nat.eqb]. auto 10.
Qed.
(** no node is in the hole *)
Lemma circle_distance r n p : 0 <= r -> circle_node r n p -> axis_distance (nth 0 p 0) (nth 1 p 0) = r.
Proof. intros Hr (i & _ & ->). cbn [nth]. apply hyp_polar. exact Hr. Qed.
Lemma perforated_nodes : forall tool lx ly radius points d nx ny n base ts p, 0 <= radius -> radius <= d -> perforated lx ly radius d nx ny n points ->
  detached (raised points) (kept points radius (tool points)) base ts -> In p base ->
  radius <= axis_distance (nth 0 p 0) (nth 1 p 0) /\ (grid_node lx ly nx ny (firstn 2 p) \/ circle_node radius n (firstn 2 p)) /\ nth 2 p 1 = 0.
Proof.
  intros tool lx ly radius points d nx ny n base ts p Hr Hd [HR HP] HD Hp. apply (detached_in _ _ _ _ _ HD) in Hp. unfold raised in Hp. apply in_map_iff in Hp. destruct Hp as (q & <- & Hq). cbn [nth firstn].
  unfold rect in HR. rewrite Forall_forall in HR. pose proof (row2 q (HR q Hq)) as Eq. rewrite <- Eq. apply HP in Hq. destruct Hq as [[H1 H2]|H].
  - split; [lra|]. auto.
  - split; [rewrite (circle_distance _ _ _ Hr H); lra|]. auto.
Qed.
(** the volume *)
Lemma circle_polar points k r : 0 <= r -> node_distance points k = r -> exists a, polar points k r a.
Proof.
  intros Hr H. unfold node_distance, axis_distance in H. set (x := coord points k 0) in *. set (y := coord points k 1) in *.
  assert (S : x ^ 2 + y ^ 2 = r ^ 2) by (rewrite <- H; replace (sqrt (x ^ 2 + y ^ 2) ^ 2) with (sqrt (x ^ 2 + y ^ 2) * sqrt (x ^ 2 + y ^ 2)) by ring; rewrite sqrt_sqrt; [reflexivity|pose proof (pow2_ge_0 x); pose proof (pow2_ge_0 y); lra]).
  destruct (Req_dec r 0) as [->|Hz].
  - exists 0. unfold polar. fold x y. pose proof (pow2_ge_0 x). pose proof (pow2_ge_0 y). assert (x = 0) by (apply Rsqr_0_uniq; unfold Rsqr; lra). assert (y = 0) by (apply Rsqr_0_uniq; unfold Rsqr; lra). split; lra.
  - assert (C : -1 <= x / r <= 1).
    { assert (B : Rsqr (x / r) <= Rsqr 1) by (apply (Rmult_le_reg_r (r ^ 2)); [apply pow2_gt_0; exact Hz|]; replace (Rsqr (x / r) * r ^ 2) with (x ^ 2) by (unfold Rsqr; field; exact Hz); pose proof (pow2_ge_0 y); unfold Rsqr; lra). split; [replace (-1) with (- (1)) by lra; apply (Rsqr_neg_pos_le_0 _ 1); [exact B|lra]|apply Rsqr_incr_0_var; [exact B|lra]]. }
    destruct (Rle_dec 0 y) as [Hy|Hy].
    + exists (acos (x / r)). unfold polar. fold x y. rewrite cos_acos by exact C. split; [field; exact Hz|]. rewrite sin_acos by exact C. rewrite <- (sqrt_Rsqr y Hy). rewrite <- (sqrt_Rsqr r Hr) at 1. rewrite <- sqrt_mult_alt by apply Rle_0_sqr. f_equal. rewrite Rsqr_div'. unfold Rsqr. field_simplify; [lra|exact Hz].
    + exists (- acos (x / r)). unfold polar. fold x y. rewrite cos_neg, sin_neg, cos_acos by exact C. split; [field; exact Hz|]. rewrite sin_acos by exact C. assert (Hy' : 0 <= - y) by lra. assert (T : - y = r * sqrt (1 - (x / r)²)); [|lra]. rewrite <- (sqrt_Rsqr (- y) Hy'). rewrite <- (sqrt_Rsqr r Hr) at 1. rewrite <- sqrt_mult_alt by apply Rle_0_sqr. f_equal. rewrite Rsqr_div'. unfold Rsqr. field_simplify; [lra|exact Hz].
Qed.
Lemma rectangle_area lx ly r n points ts base us : 0 <= r -> rect 2 points -> triangulated points ts -> rectangle_triangulation lx ly r n points ts -> detached (raised points) (kept points r ts) base us ->
  rsum (map (tri_area base) us) = lx * ly - regular_area n r.
Proof.
  intros Hr HR HT (hole & rest & HP & HH & AH & HK & AT) HD.
  pose proof (detached_area points (kept points r ts) base us HR (kept_triangles points r _ (proj1 HT)) HD) as HA. rewrite (Forall2_sum (tri_area points) (tri_area base) _ _ HA).
  assert (E : Permutation (kept points r ts) rest).
  { unfold kept. eapply Permutation_trans; [apply filter_perm; exact HP|]. rewrite filter_app. fold (kept points r hole) (kept points r rest). rewrite (kept_hole points r hole); [|].
    - cbn [app]. assert (K : kept points r rest = rest); [|rewrite K; apply Permutation_refl]. unfold kept. clear - HK. induction HK as [|t l H _ IH]; [reflexivity|]. cbn [filter]. destruct (Rle_dec r (centre_distance points t)); [rewrite IH; reflexivity|contradiction].
    - intros t Ht. destruct HT as [HT HA']. unfold triangles_of in HT. rewrite Forall_forall in HT, HA', HH. assert (I : In t ts) by (eapply Permutation_in; [apply Permutation_sym; exact HP|apply in_or_app; auto]). apply hole_centre; [exact Hr|apply HT; exact I| |specialize (HA' t I); lra]. intros k Hk. apply circle_polar; [exact Hr|]. apply (HH t Ht k Hk). }
  rewrite (rsum_perm _ _ (Permutation_map _ E)). rewrite (rsum_perm _ _ (Permutation_map _ HP)), map_app, rsum_app in AT. lra.
Qed.
Lemma perforated_volume : forall tool lx ly lz radius nangles lmax points nz n, (match lmax with Some l => 0 < l | None => True end) -> 0 <= radius ->
  cube_points lx ly radius nangles lmax = Ok points -> rect 2 points -> triangulated points (tool points) -> rectangle_triangulation lx ly radius n points (tool points) -> layer_count lz lmax nz -> (0 < nz)%nat ->
  (exists c t, perforated_cube tool lx ly lz radius nangles lmax 1 true = Ok (c, t) /\ rsum (map (enclosed_volume hull_W6 c) t) = (lx * ly - regular_area n radius) * lz) /\
  (exists c t, perforated_cube tool lx ly lz radius nangles lmax 1 false = Ok (c, t) /\ rsum (map (tet_nodes_volume c) t) = (lx * ly - regular_area n radius) * lz).
Proof.
  intros tool lx ly lz radius nangles lmax points nz n HL Hr EP HR HT HC HZ Hz. destruct (perforated_mesh tool lx ly lz radius nangles lmax points nz HL EP HR (proj1 HT) HZ Hz) as (base & ts & HD & (c & t & E & _ & _ & _ & _ & V) & (c' & t' & E' & _ & _ & _ & _ & V')).
  rewrite (rectangle_area lx ly radius n points (tool points) base ts Hr HR HT HC HD) in V, V'. split; [exists c, t|exists c', t']; auto.
Qed.
(** ** Cubes without cells *)
Lemma parts_neg lz l : 0 < l -> lz <= 0 -> exists n, parts lz l = Ok (- Z.of_nat n)%Z /\ INR n * l <= - lz < (INR n + 1) * l.
Proof.
  intros Hl Hz. destruct (parts_pos (- lz) l Hl) as (z & E & Pz & B); [lra|]. exists (Z.to_nat z). rewrite Z2Nat.id by exact Pz. rewrite INR_IZR_INZ, Z2Nat.id by exact Pz. split; [|exact B].
  unfold parts in *. destruct (Req_EM_T l 0) as [E0|_]; [lra|]. injection E as <-. f_equal. unfold int_of in *. replace (- lz / l) with (- (lz / l)) in * by (field; lra).
  assert (Q : 0 <= - (lz / l)) by (replace (- (lz / l)) with (- lz * / l) by (field; lra); apply Rmult_le_pos; [lra|apply Rlt_le, Rinv_0_lt_compat, Hl]).
  destruct (Rle_dec 0 (- (lz / l))) as [_|N]; [|contradiction]. destruct (Rle_dec 0 (lz / l)) as [P|_]; [|reflexivity].
  assert (E : lz / l = 0) by lra. rewrite E, Ropp_0. destruct (base_Int_part 0) as [B1 B2]. assert (Int_part 0 < 1)%Z by (apply lt_IZR; lra). assert (-1 < Int_part 0)%Z by (apply lt_IZR; lra). lia.
Qed.
Lemma perforated_thin : forall tool lx ly lz radius nangles l points prismatic, - l < lz -> lz < l -> cube_points lx ly radius nangles (Some l) = Ok points -> rect 2 points -> triangles_of (length points) (tool points) ->
  exists c, perforated_cube tool lx ly lz radius nangles (Some l) 1 prismatic = Ok (c, []).
Proof.
  intros tool lx ly lz radius nangles l points prismatic Hz Hl EP HR HT. destruct (cut_out_ok tool points radius HR HT) as (base & ts & EC & HD). destruct (detached_ready points (tool points) base ts HT radius HD) as [P1 P2].
  assert (EL : cube_layers lz (Some l) = Ok 0%nat).
  { destruct (Rle_dec 0 lz) as [P|N]; [apply layers_ok; [cbn; lra|cbn; lra]|]. destruct (parts_neg lz l) as (n & E & B); [lra|lra|]. destruct n as [|n]; [unfold cube_layers; rewrite E; reflexivity|]. exfalso. rewrite S_INR in B. pose proof (pos_INR n). nra. }
  destruct (ExtrudeProofs3.tet4_no_layers Floating base ts lz P1 P2) as (c & Q1 & Q2). exists c. unfold perforated_cube. rewrite EP. cbn [bind]. rewrite EC. cbn [bind]. rewrite EL. cbn [bind fst snd]. destruct prismatic; [rewrite Q2|rewrite Q1]; reflexivity.
Qed.
Lemma perforated_negative : forall tool lx ly lz radius nangles l points order prismatic, 0 < l -> lz <= - l -> cube_points lx ly radius nangles (Some l) = Ok points -> rect 2 points -> triangles_of (length points) (tool points) ->
  perforated_cube tool lx ly lz radius nangles (Some l) order prismatic = Err ValueError.
Proof.
  intros tool lx ly lz radius nangles l points order prismatic Hl Hz EP HR HT. destruct (cut_out_ok tool points radius HR HT) as (base & ts & EC & HD).
  unfold perforated_cube. rewrite EP. cbn [bind]. rewrite EC. cbn [bind]. unfold cube_layers. destruct (parts_neg lz l) as (n & E & B); [lra|lra|]. rewrite E. cbn [bind]. destruct n as [|n]; [cbn in B; lra|]. reflexivity.
Qed.
Lemma node_between lx nx i : 0 <= lx -> (0 < nx)%nat -> (i <= nx)%nat -> Rsqr (- lx / 2 + lx / INR nx * INR i) <= Rsqr (lx / 2).
Proof.
  intros Hx Hn Hi. assert (P : 0 < INR nx) by (apply lt_0_INR; exact Hn). assert (Q : 0 <= / INR nx * INR i <= 1).
  { split; [apply Rmult_le_pos; [apply Rlt_le, Rinv_0_lt_compat, P|apply pos_INR]|]. apply (Rmult_le_reg_l (INR nx)); [exact P|]. rewrite <- Rmult_assoc, Rinv_r by lra. rewrite Rmult_1_l, Rmult_1_r. apply le_INR. exact Hi. }
  apply neg_pos_Rsqr_le; unfold Rdiv; rewrite Rmult_assoc; nra.
Qed.
Lemma only_circle lx ly r d nx ny n points p : 0 <= lx -> 0 <= ly -> (0 < nx)%nat -> (0 < ny)%nat -> axis_distance (lx / 2) (ly / 2) <= d -> perforated lx ly r d nx ny n points -> In p points -> circle_node r n p.
Proof.
  intros Hx Hy Hnx Hny Hd [_ HP] Hp. apply HP in Hp. destruct Hp as [[(i & j & Hi & Hj & ->) H]|H]; [|exact H]. exfalso. cbn [nth] in H.
  assert (axis_distance (- lx / 2 + lx / INR nx * INR i) (- ly / 2 + ly / INR ny * INR j) <= axis_distance (lx / 2) (ly / 2)); [|lra]. unfold axis_distance. apply sqrt_le_1_alt. pose proof (node_between lx nx i Hx Hnx Hi) as A. pose proof (node_between ly ny j Hy Hny Hj) as B. unfold Rsqr in A, B. lra.
Qed.
Lemma perforated_empty : forall tool lx ly lz radius nangles l points nz prismatic, 0 < l -> 0 <= lx -> 0 <= ly -> 0 <= radius -> axis_distance (lx / 2) (ly / 2) <= radius + l ->
  cube_points lx ly radius nangles (Some l) = Ok points -> triangulated points (tool points) -> layer_count lz (Some l) nz -> (0 < nz)%nat ->
  exists c, perforated_cube tool lx ly lz radius nangles (Some l) 1 prismatic = Ok (c, []).
Proof.
  intros tool lx ly lz radius nangles l points nz prismatic Hl Hx Hy Hr Hd EP HT HZ Hz.
  destruct (perforated_points lx ly radius nangles l Hl Hx Hy Hr) as (nx & ny & n & points' & Wx & Wy & _ & EP' & HP). rewrite EP in EP'. injection EP' as <-.
  assert (Hnx : (0 < nx)%nat) by (destruct Wx; lia). assert (Hny : (0 < ny)%nat) by (destruct Wy; lia).
  destruct (perforated_mesh tool lx ly lz radius nangles (Some l) points nz Hl EP (proj1 HP) (proj1 HT) HZ Hz) as (base & ts & HD & (c & t & E & _ & _ & _ & L & _) & (c' & t' & E' & _ & _ & _ & L' & _)).
  assert (K : kept points radius (tool points) = []).
  { apply kept_hole. intros u Hu. destruct HT as [HT HA]. unfold triangles_of in HT. rewrite Forall_forall in HT, HA. destruct (HT u Hu) as [H3 HF]. apply hole_centre; [exact Hr|exact H3| |specialize (HA u Hu); lra].
    intros k Hk. rewrite Forall_forall in HF. specialize (HF k Hk). apply circle_polar; [exact Hr|]. unfold node_distance, coord. apply (circle_distance radius n); [exact Hr|]. apply (only_circle lx ly radius (radius + l) nx ny n points); try assumption. apply nth_In. exact HF. }
  rewrite K in HD. destruct HD as (S & _). unfold same_shape in S. destruct ts; [|discriminate]. cbn in L, L'. destruct prismatic; [exists c|exists c']; [destruct t; [exact E|discriminate]|destruct t'; [exact E'|discriminate]].
Qed.
(** ** Quadratic cells *)
Lemma perforated_quadratic : forall tool lx ly lz radius nangles lmax points nz u, (match lmax with Some l => 0 < l | None => True end) ->
  cube_points lx ly radius nangles lmax = Ok points -> rect 2 points -> triangles_of (length points) (tool points) -> layer_count lz lmax nz -> (0 < nz)%nat -> In u (kept points radius (tool points)) ->
  perforated_cube tool lx ly lz radius nangles lmax 2 true = Err IndexError.
Proof.
  intros tool lx ly lz radius nangles lmax points nz u HL EP HR HT HZ Hz Hu. destruct (cut_out_ok tool points radius HR HT) as (base & ts & EC & HD).
  destruct (detached_ready points (tool points) base ts HT radius HD) as [P1 P2]. pose proof (layers_ok _ _ _ HZ HL) as EL.
  destruct (ExtrudeProofs3.w6_mesh base ts lz nz P1 P2 Hz) as (c & t & Q1 & Q2 & Q3 & Q4 & Q5 & Q6 & _). unfold perforated_cube. rewrite EP. cbn [bind]. rewrite EC. cbn [bind]. rewrite EL. cbn [bind fst snd]. rewrite Q1. cbn [bind Nat.eqb fst snd].
  apply ElevProofs2.W6_to_W18_fails; [exact Q4|]. intros ->. destruct HD as (S & _). apply same_shape_length in S. destruct ts as [|x ts]; [|cbn [length] in Q3; destruct nz; [lia|discriminate]]. cbn [length] in S. destruct (kept points radius (tool points)); [destruct Hu|discriminate].
Qed.
Lemma perforated_quadratic_tet : forall tool lx ly lz radius nangles lmax points nz, (match lmax with Some l => 0 < l | None => True end) ->
  cube_points lx ly radius nangles lmax = Ok points -> rect 2 points -> triangles_of (length points) (tool points) -> layer_count lz lmax nz -> (0 < nz)%nat ->
  exists c t c' t', perforated_cube tool lx ly lz radius nangles lmax 1 false = Ok (c, t) /\ perforated_cube tool lx ly lz radius nangles lmax 2 false = Ok (c', t') /\ TrSpec.elevated 3 TrSpec.plan_TET10 c t c' t'.
Proof.
  intros tool lx ly lz radius nangles lmax points nz HL EP HR HT HZ Hz. destruct (cut_out_ok tool points radius HR HT) as (base & ts & EC & HD).
  destruct (detached_ready points (tool points) base ts HT radius HD) as [P1 P2]. pose proof (layers_ok _ _ _ HZ HL) as EL.
  destruct (ExtrudeProofs3.tet4_mesh base ts lz nz P1 P2 Hz) as (c & t & Q1 & Q2 & Q3 & Q4 & Q5 & Q6 & _).
  destruct (ElevProofs2.TET4_to_TET10_ok 3 c t) as (c' & t' & E & HE).
  - split; [apply Q2|]. split; [exact Q4|]. intros cell k Hc Hk. unfold in_range in Q5. rewrite Forall_forall in Q5. specialize (Q5 cell Hc). rewrite Forall_forall in Q5. auto.
  - exists c, t, c', t'. unfold perforated_cube. rewrite EP. cbn [bind]. rewrite EC. cbn [bind]. rewrite EL. cbn [bind fst snd]. rewrite Q1. cbn [bind Nat.eqb fst snd]. auto.
Qed.
