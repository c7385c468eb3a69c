(** * Proofs about [SpaceModel.v], part 5: planar surfaces, planes, lines, closest and furthest points *)
From Coq Require Import Reals Lra Lia List Psatz.
From Verif Require Import BaseFacts TrModel TrProofs EvalProofs ShapeProofs3 ShapeProofs4 TriProofs TriProofs3 TriProofs4 TriProofs5 LocProofs9 SpaceModel SpaceSpec NodalProofs NodalProofs4 NodalProofs5 NodalProofs7 SpaceProofs SpaceProofs2 SpaceProofs3 SpaceProofs4.
Import ListNotations.
Local Open Scope R_scope.

(** ** the greatest entry *)
Lemma fold_rmax_le tol : forall l x, fold_left Rmax l x <= tol <-> x <= tol /\ forall y, In y l -> y <= tol.
Proof.
  induction l as [|y l IH]; intros x; cbn [fold_left].
  - split; [intros H; split; [exact H|intros y []]|tauto].
  - rewrite IH. split.
    + intros (A & B). pose proof (Rmax_l x y). pose proof (Rmax_r x y). split; [lra|]. intros z [<-|Hz]; [lra|auto].
    + intros (A & B). split; [apply Rmax_lub; [exact A|apply B; now left]|intros z Hz; apply B; now right].
Qed.
Lemma rmax_spec l tol : l <> [] -> exists m, rmax l = Ok m /\ (rleb m tol = true <-> forall y, In y l -> y <= tol).
Proof.
  destruct l as [|x l]; [congruence|]. intros _. eexists. split; [reflexivity|]. unfold rleb. destruct (Rle_dec (fold_left Rmax l x) tol) as [H|H]; split; intros G; try congruence.
  - apply fold_rmax_le in H. destruct H as (H1 & H2). intros y [<-|Hy]; [exact H1|exact (H2 y Hy)].
  - exfalso. apply H. apply fold_rmax_le. split; [apply G; now left|intros y Hy; apply G; now right].
Qed.
(** the maximum of the deviations of the rows after the first one *)
Lemma deviations (f : nat -> res R) (g : nat -> R) n tol : (0 < n)%nat -> 0 <= tol -> (forall i, (0 < i < n)%nat -> f i = Ok (g i)) ->
  exists b, (do diffs <- mapM (fun i => if Nat.eqb i 0 then Ok 0 else f i) (seq 0 n); do m <- rmax diffs; Ok (rleb m tol)) = Ok b /\ (b = true <-> forall i, (0 < i < n)%nat -> g i <= tol).
Proof.
  intros Hn Ht Hf. assert (E : mapM (fun i => if Nat.eqb i 0 then Ok 0 else f i) (seq 0 n) = Ok (map (fun i => if Nat.eqb i 0 then 0 else g i) (seq 0 n))).
  { assert (G : forall l, (forall i, In i l -> (i < n)%nat) -> mapM (fun i => if Nat.eqb i 0 then Ok 0 else f i) l = Ok (map (fun i => if Nat.eqb i 0 then 0 else g i) l)).
    { induction l as [|i l IH]; intros HL; [reflexivity|]. cbn [mapM map]. rewrite IH by (intros; apply HL; now right). destruct (Nat.eqb_spec i 0) as [->|N]; [reflexivity|]. rewrite Hf; [reflexivity|]. pose proof (HL i (or_introl eq_refl)). lia. }
    apply G. intros i Hi. apply in_seq in Hi. lia. }
  rewrite E. cbn [bind]. destruct (rmax_spec (map (fun i => if Nat.eqb i 0 then 0 else g i) (seq 0 n)) tol) as (m & Em & Hm); [destruct n; [lia|discriminate]|]. rewrite Em. cbn [bind]. exists (rleb m tol). split; [reflexivity|]. rewrite Hm. split.
  - intros H i Hi. apply H. apply in_map_iff. exists i. split; [|apply in_seq; lia]. destruct (Nat.eqb_spec i 0); [lia|reflexivity].
  - intros H y Hy. apply in_map_iff in Hy. destruct Hy as (i & <- & Hi). apply in_seq in Hi. destruct (Nat.eqb_spec i 0); [exact Ht|]. apply H. lia.
Qed.

(** ** planar surfaces *)
Lemma unit_dist n n' : dim 3 n -> dim 3 n' -> sprod n n = 1 -> sprod n' n' = 1 -> dist2 n n' = 2 * Rabs (sprod n n' - 1).
Proof.
  intros H H' U U'. assert (E : dist2 n n' = 2 - 2 * sprod n n').
  { rewrite sprod3 in * by assumption. destruct (dim3 _ H) as (a & b & c & ->), (dim3 _ H') as (x & y & z & ->). unfold dist2, at_ in *. cbn [nth combine map fold_right fst snd] in *. lra. }
  assert (P : 0 <= dist2 n n'). { destruct (dim3 _ H) as (a & b & c & ->), (dim3 _ H') as (x & y & z & ->). unfold dist2. cbn [combine map fold_right fst snd]. pose proof (Rle_0_sqr (a - x)) as A. pose proof (Rle_0_sqr (b - y)) as B. pose proof (Rle_0_sqr (c - z)) as C. unfold Rsqr in *. lra. }
  rewrite Rabs_left1 by lra. lra.
Qed.
Lemma planar_surface : forall normals n0 tol, nth_error normals 0 = Some n0 -> 0 <= tol -> Forall (fun n => dim 3 n /\ sprod n n = 1) normals ->
  exists b, is_planar_surface normals tol = Ok b /\ (b = true <-> forall n, In n normals -> dist2 n n0 <= 2 * tol).
Proof.
  intros normals n0 tol H0 Ht HF. rewrite Forall_forall in HF. assert (L : (0 < length normals)%nat) by (apply nth_error_Some_lt in H0; lia). destruct (HF n0 (nth_error_In _ _ H0)) as (D0 & U0).
  unfold is_planar_surface. destruct (deviations (fun i => do n <- get normals i; do n0 <- get normals 0; do d <- vdot n n0; Ok (Rabs (d - 1))) (fun i => Rabs (sprod (nth i normals []) n0 - 1)) (length normals) tol L Ht) as (b & E & Hb).
  { intros i Hi. destruct (nth_error_lt normals i) as [n Hn]; [lia|]. destruct (HF n (nth_error_In _ _ Hn)) as (Dn & Un). rewrite (proj2 (get_Ok _ _ _) Hn). cbn [bind]. rewrite (proj2 (get_Ok _ _ _) H0). cbn [bind]. rewrite (vdot_sprod n n0 Dn D0). cbn [bind]. rewrite (nth_error_nth _ _ [] Hn). reflexivity. }
  exists b. split; [exact E|]. rewrite Hb. split.
  - intros H n Hn. destruct (HF n Hn) as (Dn & Un). apply In_nth_error in Hn. destruct Hn as (i & Hi). rewrite unit_dist by assumption. destruct i as [|i].
    + assert (n = n0) by congruence. subst n. rewrite U0. replace (1 - 1) with 0 by ring. rewrite Rabs_R0. lra.
    + pose proof (H (S i)) as G. rewrite (nth_error_nth _ _ [] Hi) in G. apply nth_error_Some_lt in Hi. specialize (G ltac:(lia)). lra.
  - intros H i Hi. destruct (nth_error_lt normals i) as [n Hn]; [lia|]. rewrite (nth_error_nth _ _ [] Hn). destruct (HF n (nth_error_In _ _ Hn)) as (Dn & Un). pose proof (H n (nth_error_In _ _ Hn)) as G. rewrite unit_dist in G by assumption. lra.
Qed.
Lemma frame_normal p0 p1 p2 a b c : dim 3 p0 -> dim 3 p1 -> dim 3 p2 -> right_handed a b c -> along (sub p1 p0) a -> 0 < sprod b (sub p2 p0) -> sprod c (sub p2 p0) = 0 -> triangle_normal p0 p1 p2 c.
Proof.
  intros D0 D1 D2 RH AL PB PC. pose proof RH as (Da & Db & Dc & Ua & Ub & Uc & Oab & Obc & Oca & Hd).
  set (u := sub p1 p0) in *. set (v := sub p2 p0) in *. assert (Du : dim 3 u) by (apply vsub_dim3; assumption). assert (Dv : dim 3 v) by (apply vsub_dim3; assumption).
  split; [exact Dc|]. split; [exact Uc|]. split; [now apply (proj1 (sprod_along c u a Dc Du Da AL))|]. split; [exact PC|].
  destruct AL as (t & Ht & LA & SA).
  assert (E : t * map_det u v c = sprod b v).
  { pose proof (rh_expand a b c v 0 RH Dv ltac:(lia)) as V0. pose proof (rh_expand a b c v 1 RH Dv ltac:(lia)) as V1. pose proof (rh_expand a b c v 2 RH Dv ltac:(lia)) as V2. rewrite PC in V0, V1, V2.
    transitivity (map_det a v c); [unfold map_det, px, py, pz; rewrite !SA; ring|]. unfold map_det, px, py, pz in *. rewrite V0, V1, V2.
    transitivity (sprod b v * (at_ 0 a * (at_ 1 b * at_ 2 c - at_ 2 b * at_ 1 c) - at_ 1 a * (at_ 0 b * at_ 2 c - at_ 2 b * at_ 0 c) + at_ 2 a * (at_ 0 b * at_ 1 c - at_ 1 b * at_ 0 c))); [ring|rewrite Hd; ring]. }
  apply (Rmult_lt_reg_l t); [exact Ht|]. fold u v. rewrite Rmult_0_r, E. exact PB.
Qed.
Lemma firstn_mesh n coords topo ecs : mesh_at coords topo ecs -> mesh_at coords (map (firstn n) topo) (map (firstn n) ecs).
Proof.
  intros H. induction H as [|nodes ec topo ecs HN H IH]; [constructor|]. cbn [map]. constructor; [|exact IH]. clear - HN. revert n. induction HN as [|x p nodes ec Hx HN IH]; intros [|n]; cbn [firstn]; constructor; [exact Hx|apply IH].
Qed.
Lemma trimesh_planar : forall coords topo ecs tol, coords <> [] -> rect 3 coords -> mesh_at coords topo ecs -> topo <> [] -> 0 <= tol ->
  Forall (fun ec => exists p0 p1 p2 rest, ec = p0 :: p1 :: p2 :: rest /\ ~ on_common_line [p0; p1; p2]) ecs ->
  exists normals n0 b, trimesh_normals coords topo = Ok normals /\ nth_error normals 0 = Some n0 /\ trimesh_is_planar coords topo tol = Ok b /\
    Forall2 (fun ec n => forall p0 p1 p2 rest, ec = p0 :: p1 :: p2 :: rest -> triangle_normal p0 p1 p2 n) ecs normals /\
    (b = true <-> forall n, In n normals -> dist2 n n0 <= 2 * tol).
Proof.
  intros coords topo ecs tol HN HR HM HT Ht HF.
  destruct (surface_frames coords (map (firstn 3) topo) (map (firstn 3) ecs)) as (frs & E & P); [now apply firstn_mesh|exact HR| |].
  { apply Forall_map. eapply Forall_impl; [|exact HF]. intros ec (p0 & p1 & p2 & rest & -> & HO). cbn [firstn]. split; [cbn; lia|]. intros q0 q1 ql (Q0 & Q1 & QL). cbn in Q0, Q1, QL. injection Q0 as <-. injection Q1 as <-. injection QL as <-. exact HO. }
  assert (EA : trimesh_axes coords topo = Ok frs). { unfold trimesh_axes. assert (NC : ncols coords = 3%nat) by (destruct coords as [|r coords]; [congruence|inversion HR; assumption]). rewrite NC. cbn [Nat.eqb guard bind]. exact E. }
  assert (DE : forall ec, In ec ecs -> rect 3 ec).
  { intros ec He. apply In_nth_error in He. destruct He as (i & Hi). destruct (Forall2_nth_error_r _ _ _ _ _ HM Hi) as (ns & _ & HNs). apply Forall_forall. intros p Hp. apply In_nth_error in Hp. destruct Hp as (j & Hj). destruct (Forall2_nth_error_r _ _ _ _ _ HNs Hj) as (n & Hn & Hp). exact (rect_nth _ _ _ _ HR Hp). }
  assert (G : exists normals, mapM (fun fr => get fr 2) frs = Ok normals /\ Forall2 (fun ec n => forall p0 p1 p2 rest, ec = p0 :: p1 :: p2 :: rest -> triangle_normal p0 p1 p2 n) ecs normals).
  { clear E EA HM HT. revert frs P. induction ecs as [|ec ecs IH]; intros frs P; inversion P as [|? fr ? frs' Hfr P']; subst; [exists []; split; [reflexivity|constructor]|]. inversion HF as [|? ? (p0 & p1 & p2 & rest & -> & HO) HF']; subst.
    destruct (IH HF' ltac:(intros; apply DE; now right) frs' P') as (normals & E & Q). destruct (Hfr p0 p1 p2) as (a & b & c & -> & RH & AL & PB & PC); [now split|].
    exists (c :: normals). cbn [mapM get nth_error bind]. rewrite E. split; [reflexivity|]. constructor; [|exact Q]. intros q0 q1 q2 rest' Eq. injection Eq as -> -> -> ->. pose proof (DE _ (or_introl eq_refl)) as D. inversion D as [|? ? d0 D1]; subst. inversion D1 as [|? ? d1 D2]; subst. inversion D2 as [|? ? d2 D3]; subst.
    apply (frame_normal _ _ _ a b c); assumption. }
  destruct G as (normals & EN & PN). assert (ETN : trimesh_normals coords topo = Ok normals) by (unfold trimesh_normals; rewrite EA; exact EN).
  pose proof (Forall2_len _ _ _ PN) as LN. pose proof (Forall2_len _ _ _ HM) as LM.
  destruct (nth_error_lt normals 0) as [n0 H0]; [destruct topo; [congruence|cbn in LM; lia]|].
  destruct (planar_surface normals n0 tol H0 Ht) as (b & EB & HB).
  { apply Forall_forall. intros n Hn. apply In_nth_error in Hn. destruct Hn as (i & Hi). destruct (Forall2_nth_error_r _ _ _ _ _ PN Hi) as (ec & Hec & Hp). rewrite Forall_forall in HF. destruct (HF ec (nth_error_In _ _ Hec)) as (p0 & p1 & p2 & rest & -> & _). destruct (Hp _ _ _ _ eq_refl) as (D & U & _). now split. }
  exists normals, n0, b. split; [exact ETN|]. split; [exact H0|]. split; [unfold trimesh_is_planar; rewrite ETN; exact EB|]. now split.
Qed.
(** triangles of parallel planes; triangles of one plane with different orientation *)
Lemma not_line (p0 p1 p2 : list R) : dim 3 p0 -> dim 3 p1 -> dim 3 p2 -> cross3 (sub p1 p0) (sub p2 p0) <> [0; 0; 0] -> ~ on_common_line [p0; p1; p2].
Proof. intros H0 H1 H2 HC HO. apply HC. now apply cross_line. Qed.
Lemma trimesh_planar_wrong : exists coords coords' topo topo' tol ecs ecs', 0 < tol < 1 /\ rect 3 coords /\ rect 3 coords' /\ mesh_at coords topo ecs /\ mesh_at coords' topo' ecs' /\
  Forall (fun ec => exists p0 p1 p2, ec = [p0; p1; p2] /\ ~ on_common_line [p0; p1; p2]) (ecs ++ ecs') /\
  ~ planar coords /\ trimesh_is_planar coords topo tol = Ok true /\ planar coords' /\ trimesh_is_planar coords' topo' tol = Ok false.
Proof.
  set (a := [0; 0; 0]). set (b := [1; 0; 0]). set (c := [0; 1; 0]). set (d := [1; 1; 0]). set (a' := [0; 0; 1]). set (b' := [1; 0; 1]). set (c' := [0; 1; 1]).
  assert (L1 : ~ on_common_line [a; b; c]) by (apply not_line; try reflexivity; unfold cross3, sub, a, b, c, px, py, pz, at_; cbn; intros E; injection E; lra).
  assert (L2 : ~ on_common_line [a'; b'; c']) by (apply not_line; try reflexivity; unfold cross3, sub, a', b', c', px, py, pz, at_; cbn; intros E; injection E; lra).
  assert (L3 : ~ on_common_line [b; c; d]) by (apply not_line; try reflexivity; unfold cross3, sub, b, c, d, px, py, pz, at_; cbn; intros E; injection E; lra).
  assert (L4 : ~ on_common_line [b; d; c]) by (apply not_line; try reflexivity; unfold cross3, sub, b, c, d, px, py, pz, at_; cbn; intros E; injection E; lra).
  exists [a; b; c; a'; b'; c'], [a; b; c; d], [[0; 1; 2]; [3; 4; 5]]%nat, [[0; 1; 2]; [1; 2; 3]]%nat, (/ 2), [[a; b; c]; [a'; b'; c']], [[a; b; c]; [b; c; d]].
  assert (R1 : rect 3 [a; b; c; a'; b'; c']) by (repeat constructor). assert (R2 : rect 3 [a; b; c; d]) by (repeat constructor).
  assert (M1 : mesh_at [a; b; c; a'; b'; c'] [[0; 1; 2]; [3; 4; 5]]%nat [[a; b; c]; [a'; b'; c']]) by (repeat constructor). assert (M2 : mesh_at [a; b; c; d] [[0; 1; 2]; [1; 2; 3]]%nat [[a; b; c]; [b; c; d]]) by (repeat constructor).
  split; [lra|]. split; [exact R1|]. split; [exact R2|]. split; [exact M1|]. split; [exact M2|]. split; [|split; [|split; [|split]]].
  - cbn [app]. repeat constructor; [exists a, b, c|exists a', b', c'|exists a, b, c|exists b, c, d]; (split; [reflexivity|assumption]).
  - intros (n & h & Dn & NZ & HP). destruct (dim3 _ Dn) as (x & y & z & ->). apply NZ.
    pose proof (HP a ltac:(cbn; tauto)) as Pa. pose proof (HP b ltac:(cbn; tauto)) as Pb. pose proof (HP c ltac:(cbn; tauto)) as Pc. pose proof (HP a' ltac:(cbn; tauto)) as Pd. unfold a, b, c, a', sprod in *. cbn in *. apply vec3; lra.
  - destruct (trimesh_planar [a; b; c; a'; b'; c'] [[0; 1; 2]; [3; 4; 5]]%nat [[a; b; c]; [a'; b'; c']] (/ 2)) as (normals & n0 & r & EN & H0 & E & PN & Hr); [discriminate|exact R1|exact M1|discriminate|lra| |].
    { repeat constructor; [exists a, b, c, []|exists a', b', c', []]; (split; [reflexivity|assumption]). }
    rewrite E. f_equal. apply Hr. clear Hr E EN. inversion PN as [|? m0 ? l0 N0 PN']; subst. inversion PN' as [|? m1 ? l1 N1 PN'']; subst. inversion PN''; subst. cbn in H0. injection H0 as ->.
    assert (Z : forall n k, triangle_normal [0; 0; k] [1; 0; k] [0; 1; k] n -> n = [0; 0; 1]).
    { intros n k (Dn & Un & P1 & P2 & P3). destruct (dim3 _ Dn) as (x & y & z & ->). unfold sub, map_det, sprod, px, py, pz, at_ in *. cbn in *. assert (x = 0) by lra. assert (y = 0) by lra. subst. assert (F : (z - 1) * (z + 1) = 0) by lra. apply Rmult_integral in F. apply vec3; [reflexivity|reflexivity|]. destruct F; lra. }
    rewrite (Z n0 0 (N0 _ _ _ _ eq_refl)) in *. rewrite (Z m1 1 (N1 _ _ _ _ eq_refl)) in *. intros n [<-|[<-|[]]]; unfold dist2; cbn; lra.
  - exists [0; 0; 1], 0. split; [reflexivity|]. split; [intros E; injection E; lra|]. intros p [<-|[<-|[<-|[<-|[]]]]]; unfold sprod, a, b, c, d; cbn; ring.
  - destruct (trimesh_planar [a; b; c; d] [[0; 1; 2]; [1; 2; 3]]%nat [[a; b; c]; [b; c; d]] (/ 2)) as (normals & n0 & r & EN & H0 & E & PN & Hr); [discriminate|exact R2|exact M2|discriminate|lra| |].
    { repeat constructor; [exists a, b, c, []|exists b, c, d, []]; (split; [reflexivity|assumption]). }
    rewrite E. f_equal. destruct r; [exfalso|reflexivity]. destruct Hr as (Hr & _). specialize (Hr eq_refl). clear E EN. inversion PN as [|? m0 ? l0 N0 PN']; subst. inversion PN' as [|? m1 ? l1 N1 PN'']; subst. inversion PN''; subst. cbn in H0. injection H0 as ->.
    assert (Z0 : pz n0 > 0 /\ px n0 = 0 /\ py n0 = 0 /\ dim 3 n0 /\ sprod n0 n0 = 1).
    { destruct (N0 _ _ _ _ eq_refl) as (Dn & Un & P1 & P2 & P3). destruct (dim3 _ Dn) as (x & y & z & ->). unfold a, b, c, sub, map_det, sprod, px, py, pz, at_ in *. cbn in *. repeat split; lra. }
    assert (Z1 : pz m1 < 0 /\ px m1 = 0 /\ py m1 = 0 /\ dim 3 m1 /\ sprod m1 m1 = 1).
    { destruct (N1 _ _ _ _ eq_refl) as (Dn & Un & P1 & P2 & P3). destruct (dim3 _ Dn) as (x & y & z & ->). unfold b, c, d, sub, map_det, sprod, px, py, pz, at_ in *. cbn in *. repeat split; lra. }
    specialize (Hr m1 ltac:(cbn; tauto)). destruct Z0 as (A0 & A1 & A2 & A3 & A4), Z1 as (B0 & B1 & B2 & B3 & B4). destruct (dim3 _ A3) as (x & y & z & ->), (dim3 _ B3) as (x' & y' & z' & ->). unfold dist2, sprod, px, py, pz, at_ in *. cbn in *. nra.
Qed.
