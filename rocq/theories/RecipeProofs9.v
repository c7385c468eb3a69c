(** * Proofs about [RecipeModel.v], part 9: voxels and helices *)
From Coq Require Import Reals Lra Lia String.
From Verif Require Export RecipeProofs8.
From Verif Require Import NodalSpec GridProofs7 ShapeProofs4.
Import ListNotations.
Local Open Scope R_scope.

(** ** Boxes of a uniform grid *)
Definition steps (s l : R) (n i : nat) : R := s + l / INR n * INR i.
Lemma steps_lt s l n i : (1 <= n)%nat -> 0 < l -> steps s l n i < steps s l n (i + 1).
Proof. intros Hn Hl. unfold steps. rewrite plus_INR. simpl (INR 1). pose proof (INR_pos n Hn). assert (0 < l / INR n) by (apply Rdiv_lt_0_compat; lra). lra. Qed.
Lemma steps_first s l n : steps s l n 0 = s.
Proof. unfold steps. simpl (INR 0). lra. Qed.
Lemma steps_last s l n : (1 <= n)%nat -> steps s l n n = s + l.
Proof. intros Hn. unfold steps. pose proof (INR_pos n Hn). field. lra. Qed.
Lemma steps_find s l n x : (1 <= n)%nat -> s <= x <= s + l -> exists i, (i < n)%nat /\ steps s l n i <= x <= steps s l n (i + 1).
Proof.
  intros Hn Hx. assert (G : forall m, (1 <= m)%nat -> x <= steps s l n m -> exists i, (i < m)%nat /\ steps s l n i <= x <= steps s l n (i + 1)).
  { induction m as [|m IH]; intros H1 H2; [lia|]. destruct (Rle_lt_dec (steps s l n m) x) as [L|L]; [exists m; replace (m + 1)%nat with (S m) by lia; auto|].
    destruct m as [|m]; [rewrite steps_first in L; lra|]. destruct (IH ltac:(lia) ltac:(lra)) as (i & Hi & B). exists i. split; [lia|exact B]. }
  apply (G n Hn). rewrite steps_last by exact Hn. lra.
Qed.
Lemma uniform_boxes lX lY lZ nx ny nz sx sy sz : (1 <= nx)%nat -> (1 <= ny)%nat -> (1 <= nz)%nat -> 0 < lX -> 0 < lY -> 0 < lZ ->
  exists coords topo, grid (uargs [lX; lY; lZ] [nx; ny; nz] [sx; sy; sz] 0) (EName "H8") = Ok (coords, topo) /\
    grid_boxes lcoords_H8 coords topo nx ny nz (steps sx lX nx) (steps sy lY ny) (steps sz lZ nz).
Proof.
  intros Hx Hy Hz Lx Ly Lz. pose proof (perm_seqb_ok path_H8 eq_refl) as Hpb.
  pose proof (grid3_value nx ny nz 2 2 2 0 Hx Hy Hz ltac:(lia) ltac:(lia) ltac:(lia) lX lY lZ sx sy sz) as E.
  pose proof (topo3_rect_e nx ny nz 2 2 2 0 ltac:(lia) ltac:(lia) ltac:(lia)) as Hr.
  pose proof (grid3_lattice nx ny nz 2 2 2 0 Hx Hy Hz ltac:(lia) ltac:(lia) ltac:(lia) lX lY lZ sx sy sz) as HL.
  assert (Hname : named (uargs [lX; lY; lZ] [nx; ny; nz] [sx; sy; sz] 0) "H8"%string [2; 2; 2]%nat path_H8) by (apply named_H8 with (s := [sx; sy; sz]); reflexivity).
  destruct (Hname _ _ _ E Hr (perm_all_lt _ Hpb)) as (topo' & E' & Hre). do 2 eexists. split; [exact E'|].
  assert (U : forall s l n, (1 <= n)%nat -> forall i k, uniform s l n (2 - 1) i k = steps s l n i + (steps s l n (i + 1) - steps s l n i) / INR 1 * INR k).
  { intros s l n Hn i k. unfold uniform, steps. change (2 - 1)%nat with 1%nat. rewrite plus_INR. simpl (INR 1). pose proof (INR_pos n Hn). field. lra. }
  eapply lattice_boxes with (w := 1%nat) (path := path_H8); [..|exact HL|exact table_H8|exact Hre|exact Hr|exact Hpb| | | | | |]; try lia; try (apply U; lia); intros i Hi; apply steps_lt; auto.
Qed.

(** ** Distances *)
Lemma near_le a b x y s : 0 < s -> Rabs (x - a) <= s / 2 -> Rabs (y - b) <= s / 2 -> sqrt (x ^ 2 + y ^ 2) <= sqrt (a ^ 2 + b ^ 2) + half_diagonal s.
Proof.
  intros Hs Hx Hy. set (u := x - a) in *. set (v := y - b) in *. assert (Ex : x = a + u) by (unfold u; lra). assert (Ey : y = b + v) by (unfold v; lra). clearbody u v. subst x y.
  assert (S2 : sqrt 2 * sqrt 2 = 2) by (apply sqrt_sqrt; lra). assert (P2 : 0 < sqrt 2) by (apply sqrt_lt_R0; lra). set (q := half_diagonal s). assert (Q : 0 < q) by (unfold q, half_diagonal; nra). assert (QQ : q * q = s * s / 2) by (unfold q, half_diagonal; nra).
  assert (U2 : u * u <= s * s / 4) by (unfold Rabs in Hx; destruct (Rcase_abs u); nra). assert (V2 : v * v <= s * s / 4) by (unfold Rabs in Hy; destruct (Rcase_abs v); nra).
  set (r := sqrt (a ^ 2 + b ^ 2)). assert (R0 : 0 <= r) by apply sqrt_pos. assert (RR : r * r = a * a + b * b) by (unfold r; rewrite sqrt_sqrt by nra; ring).
  assert (CS : a * u + b * v <= r * q). { apply Rsqr_incr_0_var; [|nra]. unfold Rsqr. assert (0 <= (a * v - b * u) * (a * v - b * u)) by apply Rle_0_sqr. assert (W : u * u + v * v <= q * q) by lra. assert (0 <= r * r) by nra. assert (r * r * (u * u + v * v) <= r * r * (q * q)) by (apply Rmult_le_compat_l; lra). nra. }
  apply Rsqr_incr_0_var; [|lra]. unfold Rsqr. rewrite sqrt_sqrt by (apply Rplus_le_le_0_compat; apply pow2_ge_0). assert (W : u * u + v * v <= q * q) by lra. replace ((a + u) ^ 2 + (b + v) ^ 2) with ((a * a + b * b) + 2 * (a * u + b * v) + (u * u + v * v)) by ring. rewrite <- RR. replace ((r + q) * (r + q)) with (r * r + 2 * (r * q) + q * q) by ring. lra.
Qed.
Lemma near_dist a b x y s : 0 < s -> Rabs (x - a) <= s / 2 -> Rabs (y - b) <= s / 2 -> sqrt (a ^ 2 + b ^ 2) - half_diagonal s <= sqrt (x ^ 2 + y ^ 2) <= sqrt (a ^ 2 + b ^ 2) + half_diagonal s.
Proof.
  intros Hs Hx Hy. split; [|now apply near_le]. rewrite Rabs_minus_sym in Hx, Hy. pose proof (near_le x y a b s Hs Hx Hy). lra.
Qed.
Lemma sqrt_abs_le x y r : sqrt (x ^ 2 + y ^ 2) <= r -> - r <= x <= r /\ - r <= y <= r.
Proof.
  intros H. pose proof (sqrt_pos (x ^ 2 + y ^ 2)) as P. assert (Q : x * x + y * y <= r * r). { rewrite <- (sqrt_sqrt (x * x + y * y)) by nra. replace (x * x + y * y) with (x ^ 2 + y ^ 2) by ring. apply Rmult_le_compat; auto. } split; split; nra.
Qed.

(** ** Voxels *)
Lemma pieces_ok l s : 0 < l -> 0 < s -> exists n, RecipeModel.pieces l s = Ok n /\ (1 <= n)%nat /\ l / INR n <= s.
Proof.
  intros Hl Hs. unfold RecipeModel.pieces. destruct (Req_EM_T s 0) as [E|_]; [lra|]. set (x := l / s). pose proof (ceil_bounds x) as [B1 B2]. assert (X : 0 < x) by (apply Rdiv_lt_0_compat; lra).
  assert (Z1 : (0 < ceil x)%Z) by (apply lt_IZR; lra). destruct (Z.ltb_spec (ceil x) 0) as [F|_]; [lia|]. exists (Z.to_nat (ceil x)). split; [reflexivity|]. split; [lia|].
  rewrite INR_IZR_INZ, Z2Nat.id by lia. assert (E : l = x * s) by (unfold x; field; lra). assert (P : 0 < IZR (ceil x)) by lra.
  apply (Rmult_le_reg_r (IZR (ceil x))); [exact P|]. unfold Rdiv. rewrite Rmult_assoc, Rinv_l by lra. nra.
Qed.
Lemma voxel_cells r0 r1 h s : 0 < r1 -> 0 < h -> 0 < s ->
  exists coords topo, voxelize_cylinder (RArr [r0; r1]) h s = Ok (coords, topo) /\ box_mesh lcoords_H8 coords topo /\
    (forall cell d, In cell topo -> (d < 3)%nat -> box_hi coords cell d - box_lo coords cell d <= s) /\
    (forall cell, In cell topo -> r0 <= axis_dist (map (box_mid coords cell) [0; 1]%nat) <= r1) /\
    (forall cell p, In cell topo -> in_box coords cell p -> r0 - half_diagonal s <= axis_dist p <= r1 + half_diagonal s /\ within (- h / 2) (h / 2) (nth 2 p 0)) /\
    (forall p, r0 + half_diagonal s <= axis_dist p <= r1 - half_diagonal s -> within (- h / 2) (h / 2) (nth 2 p 0) -> exists cell, In cell topo /\ in_box coords cell p).
Proof.
  intros Hr Hh Hs. unfold voxelize_cylinder, radii. cbn [get nth_error bind]. destruct (pieces_ok (2 * r1) s ltac:(lra) Hs) as (n & -> & Hn & Gn). cbn [bind]. destruct (pieces_ok h s Hh Hs) as (nz & -> & Hnz & Gz). cbn [bind].
  change (grid (size_args [2 * r1; 2 * r1; h] [n; n; nz]) (EName "H8")) with (grid (with_centralize true (uargs [2 * r1; 2 * r1; h] [n; n; nz] [0; 0; 0] 0)) (EName "H8")).
  rewrite centered_hexas by auto. destruct (uniform_boxes (2 * r1) (2 * r1) h n n nz (- (2 * r1) / 2) (- (2 * r1) / 2) (- h / 2) Hn Hn Hnz ltac:(lra) ltac:(lra) Hh) as (c0 & t0 & -> & G). cbn [bind].
  set (XS := steps (- (2 * r1) / 2) (2 * r1) n) in *. set (ZS := steps (- h / 2) h nz) in *.
  set (kept := fun c : list R => let r := sqrt (nth 0 c 0 ^ 2 + nth 1 c 0 ^ 2) in (if Rle_dec r r1 then true else false) && (if Rle_dec r0 r then true else false)).
  assert (Ix : forall i, (i < n)%nat -> XS i < XS (i + 1)%nat) by (intros; apply steps_lt; [exact Hn|lra]). assert (Iz : forall i, (i < nz)%nat -> ZS i < ZS (i + 1)%nat) by (intros; apply steps_lt; auto).
  match goal with |- context [mapM ?f _] => set (keep := f) end.
  destruct (selected_boxes _ c0 t0 _ _ _ _ _ _ G hexahedral_H8 Ix Ix Iz keep kept ltac:(reflexivity)) as (centers & mask & coords & topo & E1 & E2 & E3 & BM & K1 & K2).
  rewrite E1. cbn [bind]. rewrite E2. cbn [bind]. exists coords, topo. split; [exact E3|]. split; [exact BM|].
  assert (GX : forall i, XS (i + 1)%nat - XS i <= s) by (intros i; unfold XS, steps; rewrite plus_INR; simpl (INR 1); lra). assert (GZ : forall i, ZS (i + 1)%nat - ZS i <= s) by (intros i; unfold ZS, steps; rewrite plus_INR; simpl (INR 1); lra).
  assert (KEPT : forall i j l, kept (middle XS XS ZS i j l) = true <-> r0 <= sqrt (((XS i + XS (i + 1)%nat) / 2) ^ 2 + ((XS j + XS (j + 1)%nat) / 2) ^ 2) <= r1).
  { intros i j l. unfold kept, middle. cbn [nth]. destruct (Rle_dec _ r1), (Rle_dec r0 _); cbn; intuition (try discriminate; lra). }
  split; [|split; [|split]].
  - intros cell d Hin Hd. destruct (K2 cell Hin) as (i & j & l & Hi & Hj & Hl & _ & BA). destruct (BA d Hd) as [-> ->]. pose proof (GX i). pose proof (GX j). pose proof (GZ l). unfold side. destruct d as [|[|[|d]]]; [| | |lia]; cbn [nth]; lra.
  - intros cell Hin. destruct (K2 cell Hin) as (i & j & l & Hi & Hj & Hl & Hk & BA). apply KEPT in Hk. unfold axis_dist, box_mid. cbn [map nth]. destruct (BA 0%nat ltac:(lia)) as [-> ->]. destruct (BA 1%nat ltac:(lia)) as [-> ->]. unfold corner, side. cbn [nth].
    replace (XS i + (XS i + (XS (i + 1)%nat - XS i))) with (XS i + XS (i + 1)%nat) by ring. replace (XS j + (XS j + (XS (j + 1)%nat - XS j))) with (XS j + XS (j + 1)%nat) by ring. exact Hk.
  - intros cell p Hin HB. destruct (K2 cell Hin) as (i & j & l & Hi & Hj & Hl & Hk & BA). apply KEPT in Hk.
    pose proof (HB 0%nat ltac:(lia)) as B0. pose proof (HB 1%nat ltac:(lia)) as B1. pose proof (HB 2%nat ltac:(lia)) as B2. destruct (BA 0%nat ltac:(lia)) as [X1 X2]. destruct (BA 1%nat ltac:(lia)) as [X3 X4]. destruct (BA 2%nat ltac:(lia)) as [X5 X6]. rewrite X1, X2 in B0. rewrite X3, X4 in B1. rewrite X5, X6 in B2. unfold corner, side in B0, B1, B2. cbn [nth] in B0, B1, B2. split.
    + pose proof (GX i). pose proof (GX j). unfold axis_dist. pose proof (near_dist ((XS i + XS (i + 1)%nat) / 2) ((XS j + XS (j + 1)%nat) / 2) (nth 0 p 0) (nth 1 p 0) s Hs ltac:(apply Rabs_le; lra) ltac:(apply Rabs_le; lra)). lra.
    + unfold within. assert (M1 : forall m, (m <= nz)%nat -> - h / 2 <= ZS m <= h / 2). { intros m Hm. pose proof (steps_first (- h / 2) h nz) as F. pose proof (steps_last (- h / 2) h nz Hnz) as L. fold ZS in F, L. assert (INR m <= INR nz) by (apply le_INR; lia). pose proof (pos_INR m). assert (0 < h / INR nz) by (apply Rdiv_lt_0_compat; [lra|apply INR_pos; lia]). unfold ZS, steps in *. nra. }
      pose proof (M1 l ltac:(lia)). pose proof (M1 (l + 1)%nat ltac:(lia)). lra.
  - intros p HD HZ. unfold within in HZ. assert (HH2 : 0 < half_diagonal s) by (unfold half_diagonal; pose proof (sqrt_lt_R0 2 ltac:(lra)); nra). destruct (sqrt_abs_le (nth 0 p 0) (nth 1 p 0) r1 ltac:(unfold axis_dist in HD; lra)) as [HX HY].
    destruct (steps_find (- (2 * r1) / 2) (2 * r1) n (nth 0 p 0) Hn ltac:(lra)) as (i & Hi & Bi). destruct (steps_find (- (2 * r1) / 2) (2 * r1) n (nth 1 p 0) Hn ltac:(lra)) as (j & Hj & Bj). destruct (steps_find (- h / 2) h nz (nth 2 p 0) Hnz ltac:(lra)) as (l & Hl & Bl). fold XS in Bi, Bj. fold ZS in Bl.
    destruct (K1 i j l Hi Hj Hl) as (cell & Hin & BA).
    { apply KEPT. pose proof (GX i). pose proof (GX j). pose proof (near_dist (nth 0 p 0) (nth 1 p 0) ((XS i + XS (i + 1)%nat) / 2) ((XS j + XS (j + 1)%nat) / 2) s Hs ltac:(apply Rabs_le; lra) ltac:(apply Rabs_le; lra)). unfold axis_dist in HD. lra. }
    exists cell. split; [exact Hin|]. intros d Hd. destruct (BA d Hd) as [-> ->]. unfold corner, side. destruct d as [|[|[|d]]]; [| | |lia]; cbn [nth]; lra.
Qed.
Lemma voxel_count_cells r0 r1 h m : 0 <= r0 < r1 -> 0 < h -> (0 < m)%Z ->
  exists coords topo, cylinder_voxels (RArr [r0; r1]) h (VInt m) = Ok (coords, topo) /\
    forall cell d, In cell topo -> (d < 3)%nat -> box_hi coords cell d - box_lo coords cell d <= (r1 - r0) / IZR m.
Proof.
  intros Hr Hh Hm. assert (PM : 0 < IZR m) by (apply IZR_lt; lia). destruct (voxel_cells r0 r1 h ((r1 - r0) / IZR m)) as (coords & topo & E & _ & S & _); [lra|exact Hh|apply Rdiv_lt_0_compat; lra|].
  exists coords, topo. split; [|exact S]. unfold cylinder_voxels, radii. cbn [get nth_error bind]. destruct (Z.eqb_spec m 0); [lia|]. exact E.
Qed.
Lemma voxel_int r h s : voxelize_cylinder (RInt r) h s = voxelize_cylinder (RArr [0; IZR r]) h s.
Proof. reflexivity. Qed.
Lemma voxel_float r h s : voxelize_cylinder (RFloat r) h s = Err IndexError.
Proof. reflexivity. Qed.
Lemma voxel_count r0 r1 h m : (0 < m)%Z -> cylinder_voxels (RArr [r0; r1]) h (VInt m) = voxelize_cylinder (RArr [r0; r1]) h ((r1 - r0) / IZR m).
Proof. intros Hm. unfold cylinder_voxels, radii. cbn [get nth_error bind]. destruct (Z.eqb_spec m 0); [lia|]. reflexivity. Qed.
Lemma voxel_size radius h s : cylinder_voxels radius h (VFloat s) = voxelize_cylinder (RArr (radii radius)) h s.
Proof. reflexivity. Qed.

(** ** Helices *)
Lemma triple_eq (x y z x' y' z' : R) : x = x' -> y = y' -> z = z' -> @Ok (R * R * R) (x, y, z) = Ok (x', y', z').
Proof. congruence. Qed.
Lemma helix_given a b slope pitch : (forall x, a = Some x -> slope = None) -> (forall x, b = Some x -> pitch = None) -> a <> None \/ slope <> None -> b <> None \/ pitch <> None ->
  exists radius advance, is_helix radius advance (helix a b slope pitch) /\
    (forall x, a = Some x -> radius = x) /\ (forall x, b = Some x -> advance = 2 * PI * x) /\ (forall x, pitch = Some x -> advance = x) /\ (forall x, slope = Some x -> radius = x * (advance / (2 * PI))).
Proof.
  intros H1 H2 H3 H4. pose proof PI_RGT_0 as HP. unfold is_helix, helix, helix_args.
  destruct a as [a|]; [rewrite (H1 a eq_refl) in *|destruct slope as [s|]; [|destruct H3; congruence]]; (destruct b as [b|]; [rewrite (H2 b eq_refl) in *|destruct pitch as [p|]; [|destruct H4; congruence]]); cbn [bind];
    [exists a, (2 * PI * b)|exists a, p|exists (s * b), (2 * PI * b)|exists (s * (p / (2 * PI))), p]; (split; [intros t; apply triple_eq; field; lra|]); repeat split; intros x E; inversion E; subst; try reflexivity; field; lra.
Qed.
Lemma helix_slope a s : a <> 0 -> exists radius advance, is_helix radius advance (helix (Some a) None (Some s) None) /\ radius = a /\ (radius = s * (advance / (2 * PI)) <-> a * a = s * s).
Proof.
  intros Ha. pose proof PI_RGT_0 as HP. exists a, (2 * PI * (s / a)). split; [|split; [reflexivity|]].
  - intros t. unfold helix, helix_args. cbn [bind]. destruct (Req_EM_T a 0); [contradiction|]. apply triple_eq; field; lra.
  - replace (s * (2 * PI * (s / a) / (2 * PI))) with (s * s / a) by (field; lra). split; intros E; [rewrite E at 1; field; lra|]. rewrite <- E. field. lra.
Qed.
Lemma helix_both a b s p t : helix (Some a) (Some b) s p t = helix (Some a) (Some b) None None t.
Proof. unfold helix, helix_args. destruct p, s; reflexivity. Qed.
Lemma helix_missing a b slope pitch t : (a = None /\ slope = None) \/ (a = None /\ b = None /\ pitch = None) \/ (b = None /\ pitch = None /\ slope = None) -> helix a b slope pitch t = Err TypeError.
Proof. unfold helix, helix_args. intros [[-> ->]|[(-> & -> & ->)|(-> & -> & ->)]]; [destruct pitch, b|destruct slope|destruct a]; reflexivity. Qed.
