(** * Disks with holes: centres and areas of triangles between rings *)
From Coq Require Import Reals Lra Lia List Permutation.
From Verif Require Import BaseFacts DiskModel DiskSpec DiskProofs.
Import ListNotations.
Local Open Scope R_scope.

Definition polar (points : list (list R)) (k : nat) (r a : R) : Prop := coord points k 0 = r * cos a /\ coord points k 1 = r * sin a.
Lemma polar_cross points k l r a s b : polar points k r a -> polar points l s b -> cross2 points k l = r * s * sin (b - a).
Proof. intros [H1 H2] [H3 H4]. unfold cross2. rewrite H1, H2, H3, H4, sin_minus. ring. Qed.
Lemma tri_area_cross points a b c : tri_area points [a; b; c] = (cross2 points a b + cross2 points b c + cross2 points c a) / 2.
Proof. unfold tri_area, polygon_area, shoelace. field. Qed.

(** one triangle whose base is on the inner ring, and one whose base is on the outer ring *)
Lemma inner_area points x y z r R t d : polar points x R (t + d) -> polar points y r (t + 2 * d) -> polar points z r t ->
  tri_area points [x; y; z] = r * sin d * (R - r * cos d).
Proof.
  intros Hx Hy Hz. rewrite tri_area_cross, (polar_cross _ _ _ _ _ _ _ Hx Hy), (polar_cross _ _ _ _ _ _ _ Hy Hz), (polar_cross _ _ _ _ _ _ _ Hz Hx).
  replace (t + 2 * d - (t + d)) with d by ring. replace (t - (t + 2 * d)) with (- (2 * d)) by ring. replace (t + d - t) with d by ring. rewrite sin_neg, sin_2a. field.
Qed.
Lemma outer_area points x y z r R t d : polar points x r t -> polar points y R (t - d) -> polar points z R (t + d) ->
  tri_area points [x; y; z] = R * sin d * (R * cos d - r).
Proof.
  intros Hx Hy Hz. rewrite tri_area_cross, (polar_cross _ _ _ _ _ _ _ Hx Hy), (polar_cross _ _ _ _ _ _ _ Hy Hz), (polar_cross _ _ _ _ _ _ _ Hz Hx).
  replace (t - d - t) with (- d) by ring. replace (t + d - (t - d)) with (2 * d) by ring. replace (t - (t + d)) with (- d) by ring. rewrite sin_neg, sin_2a. field.
Qed.
Lemma hyp_polar s a : 0 <= s -> axis_distance (s * cos a) (s * sin a) = s.
Proof.
  intros Hs. unfold axis_distance. replace ((s * cos a) ^ 2 + (s * sin a) ^ 2) with (Rsqr s * (Rsqr (sin a) + Rsqr (cos a))) by (unfold Rsqr; ring). rewrite sin2_cos2, Rmult_1_r. apply sqrt_Rsqr. exact Hs.
Qed.
Lemma inner_centre points x y z r R t d : polar points x R (t + d) -> polar points y r (t + 2 * d) -> polar points z r t -> 0 <= R + 2 * r * cos d ->
  centre_distance points [x; y; z] = (R + 2 * r * cos d) / 3.
Proof.
  intros [Hx Hx'] [Hy Hy'] [Hz Hz'] H. rewrite <- (hyp_polar ((R + 2 * r * cos d) / 3) (t + d)) by lra.
  unfold centre_distance, rsum. cbn [map fold_right]. rewrite Hx, Hx', Hy, Hy', Hz, Hz'. replace (t + 2 * d) with ((t + d) + d) by ring. replace t with ((t + d) - d) at 3 6 by ring.
  rewrite (cos_plus (t + d) d), (sin_plus (t + d) d), (cos_minus (t + d) d), (sin_minus (t + d) d). f_equal; field.
Qed.
Lemma outer_centre points x y z r R t d : polar points x r t -> polar points y R (t - d) -> polar points z R (t + d) -> 0 <= r + 2 * R * cos d ->
  centre_distance points [x; y; z] = (r + 2 * R * cos d) / 3.
Proof.
  intros [Hx Hx'] [Hy Hy'] [Hz Hz'] H. rewrite <- (hyp_polar ((r + 2 * R * cos d) / 3) t) by lra.
  unfold centre_distance, rsum. cbn [map fold_right]. rewrite Hx, Hx', Hy, Hy', Hz, Hz'. rewrite cos_plus, sin_plus, cos_minus, sin_minus. f_equal; field.
Qed.
(** a triangle with its nodes on one circle *)
Lemma pow2_gt_0 x : x <> 0 -> 0 < x ^ 2.
Proof. intros H. pose proof (Rsqr_pos_lt x H) as P. unfold Rsqr in P. lra. Qed.
Lemma hole_centre points t r : 0 <= r -> length t = 3%nat -> (forall k, In k t -> exists a, polar points k r a) -> tri_area points t <> 0 -> centre_distance points t < r.
Proof.
  intros Hr Ht H HA. destruct (length3 t Ht) as (x & y & z & ->). destruct (H x) as (a & Hx & Hx'); [cbn; auto|]. destruct (H y) as (b & Hy & Hy'); [cbn; auto|]. destruct (H z) as (c & Hz & Hz'); [cbn; auto|].
  rewrite tri_area_cross in HA. unfold cross2 in HA. unfold centre_distance, axis_distance, rsum. cbn [map fold_right].
  set (x0 := coord points x 0) in *. set (x1 := coord points x 1) in *. set (y0 := coord points y 0) in *. set (y1 := coord points y 1) in *. set (z0 := coord points z 0) in *. set (z1 := coord points z 1) in *.
  assert (Ex : x0 ^ 2 + x1 ^ 2 = r ^ 2) by (rewrite Hx, Hx'; pose proof (sin2_cos2 a) as S; unfold Rsqr in S; nra).
  assert (Ey : y0 ^ 2 + y1 ^ 2 = r ^ 2) by (rewrite Hy, Hy'; pose proof (sin2_cos2 b) as S; unfold Rsqr in S; nra).
  assert (Ez : z0 ^ 2 + z1 ^ 2 = r ^ 2) by (rewrite Hz, Hz'; pose proof (sin2_cos2 c) as S; unfold Rsqr in S; nra).
  clear Hx Hx' Hy Hy' Hz Hz'. clearbody x0 x1 y0 y1 z0 z1.
  rewrite <- (sqrt_Rsqr r Hr). apply sqrt_lt_1_alt. split; [apply Rplus_le_le_0_compat; apply pow2_ge_0|].
  pose proof (pow2_ge_0 (x0 - y0)) as Q1. pose proof (pow2_ge_0 (x1 - y1)) as Q2. pose proof (pow2_ge_0 (y0 - z0)) as Q3. pose proof (pow2_ge_0 (y1 - z1)) as Q4. pose proof (pow2_ge_0 (z0 - x0)) as Q5. pose proof (pow2_ge_0 (z1 - x1)) as Q6.
  assert (P : 0 < (x0 - y0) ^ 2 + (x1 - y1) ^ 2 + ((y0 - z0) ^ 2 + (y1 - z1) ^ 2)).
  { destruct (Req_dec x0 y0) as [E1|E1]; [|assert (0 < (x0 - y0) ^ 2) by (apply pow2_gt_0; lra); lra].
    destruct (Req_dec x1 y1) as [E2|E2]; [|assert (0 < (x1 - y1) ^ 2) by (apply pow2_gt_0; lra); lra].
    destruct (Req_dec y0 z0) as [E3|E3]; [|assert (0 < (y0 - z0) ^ 2) by (apply pow2_gt_0; lra); lra].
    exfalso. apply HA. subst. field. }
  unfold Rsqr. lra.
Qed.

(** ** Triangles between rings *)
Section Between.
Context (n m : nat) (rmin rmax : R) (points : list (list R)) (Hn : (3 <= n)%nat) (HR : rings n m rmin rmax points).
Local Notation d := (PI / INR n).
Local Notation rad := (ring_radius m rmin rmax).

Lemma polar_node i j : (j < m)%nat -> polar points (ring_node n m i j) (rad j) (ring_angle n i j).
Proof. intros Hj. apply (ring_coords n m rmin rmax points i j); [lia|exact Hj|exact HR]. Qed.
Lemma polar_at i j a : (j < m)%nat -> ring_angle n i j = a -> polar points (ring_node n m i j) (rad j) a.
Proof. intros Hj <-. apply polar_node. exact Hj. Qed.
Lemma n_pos : INR n <> 0. Proof. apply not_0_INR. lia. Qed.
Lemma odd_next j : Nat.odd (j + 1) = negb (Nat.odd j).
Proof. rewrite Nat.add_1_r, Nat.odd_succ, <- Nat.negb_odd. reflexivity. Qed.
Lemma inner_polar i j : (j + 1 < m)%nat -> exists x y z t, inner_based n m i j = [x; y; z] /\ polar points x (rad (j + 1)) (t + d) /\ polar points y (rad j) (t + 2 * d) /\ polar points z (rad j) t.
Proof.
  intros Hj. pose proof n_pos as N. unfold inner_based. destruct (Nat.odd j) eqn:E; do 3 eexists; exists (ring_angle n i j); (split; [reflexivity|]).
  - repeat split; try (apply polar_at; [lia|]); unfold ring_angle; rewrite ?odd_next, ?E, ?plus_INR; cbn [negb INR]; field; exact N.
  - repeat split; try (apply polar_at; [lia|]); unfold ring_angle; rewrite ?odd_next, ?E, ?plus_INR; cbn [negb INR]; field; exact N.
Qed.
Lemma outer_polar i j : (j + 1 < m)%nat -> exists x y z t, outer_based n m i j = [x; y; z] /\ polar points x (rad j) t /\ polar points y (rad (j + 1)) (t - d) /\ polar points z (rad (j + 1)) (t + d).
Proof.
  intros Hj. pose proof n_pos as N. unfold outer_based. destruct (Nat.odd j) eqn:E; do 3 eexists; [exists (ring_angle n i j)|exists (ring_angle n (i + 1) j)]; (split; [reflexivity|]).
  - repeat split; try (apply polar_at; [lia|]); unfold ring_angle; rewrite ?odd_next, ?E, ?plus_INR; cbn [negb INR]; field; exact N.
  - repeat split; try (apply polar_at; [lia|]); unfold ring_angle; rewrite ?odd_next, ?E, ?plus_INR; cbn [negb INR]; field; exact N.
Qed.
Lemma d_small : 0 < d <= PI / 3.
Proof.
  pose proof PI_RGT_0. assert (3 <= INR n) by (replace 3 with (INR 3) by (cbn; ring); apply le_INR; exact Hn). split; [apply Rdiv_lt_0_compat; lra|]. unfold Rdiv. apply Rmult_le_compat_l; [lra|]. apply Rinv_le_contravar; lra.
Qed.
Lemma sin_d : 0 < sin d.
Proof. pose proof d_small. pose proof PI_RGT_0. apply sin_gt_0; lra. Qed.
Lemma cos_d : 1 / 2 <= cos d < 1.
Proof.
  pose proof d_small. pose proof PI_RGT_0. rewrite <- cos_PI3, <- cos_0. split; [apply cos_decr_1; lra|apply cos_decreasing_1; lra].
Qed.
Lemma inner_based_area i j : (j + 1 < m)%nat -> tri_area points (inner_based n m i j) = rad j * sin d * (rad (j + 1) - rad j * cos d).
Proof. intros Hj. destruct (inner_polar i j Hj) as (x & y & z & t & -> & H1 & H2 & H3). exact (inner_area _ _ _ _ _ _ _ _ H1 H2 H3). Qed.
Lemma outer_based_area i j : (j + 1 < m)%nat -> tri_area points (outer_based n m i j) = rad (j + 1) * sin d * (rad (j + 1) * cos d - rad j).
Proof. intros Hj. destruct (outer_polar i j Hj) as (x & y & z & t & -> & H1 & H2 & H3). exact (outer_area _ _ _ _ _ _ _ _ H1 H2 H3). Qed.

Context (H0 : 0 < rmin) (H1 : rmin <= rmax) (Hm : (2 <= m)%nat).
Lemma m_pos : 0 < INR (m - 1). Proof. apply lt_0_INR. lia. Qed.
Lemma radius_ge j : rmin <= rad j.
Proof. unfold ring_radius. pose proof m_pos. assert (0 <= INR j * / INR (m - 1)) by (apply Rmult_le_pos; [apply pos_INR|apply Rlt_le, Rinv_0_lt_compat; assumption]). unfold Rdiv. rewrite Rmult_assoc. nra. Qed.
Lemma radius_le j k : (j <= k)%nat -> rad j <= rad k.
Proof. intros Hj. unfold ring_radius. pose proof m_pos. apply Rplus_le_compat_l. unfold Rdiv. apply Rmult_le_compat_r; [apply Rlt_le, Rinv_0_lt_compat; assumption|]. apply Rmult_le_compat_l; [lra|]. apply le_INR. exact Hj. Qed.
Lemma radius_0 : rad 0 = rmin.
Proof. unfold ring_radius. cbn [INR]. unfold Rdiv. ring. Qed.
Lemma radius_last : rad (m - 1) = rmax.
Proof. unfold ring_radius. pose proof m_pos. field. lra. Qed.
Lemma inner_based_centre i j : (j + 1 < m)%nat -> centre_distance points (inner_based n m i j) = (rad (j + 1) + 2 * rad j * cos d) / 3.
Proof.
  intros Hj. destruct (inner_polar i j Hj) as (x & y & z & t & -> & P1 & P2 & P3). apply (inner_centre _ _ _ _ _ _ _ _ P1 P2 P3). pose proof (radius_ge j). pose proof (radius_ge (j + 1)). pose proof cos_d. nra.
Qed.
Lemma outer_based_centre i j : (j + 1 < m)%nat -> centre_distance points (outer_based n m i j) = (rad j + 2 * rad (j + 1) * cos d) / 3.
Proof.
  intros Hj. destruct (outer_polar i j Hj) as (x & y & z & t & -> & P1 & P2 & P3). apply (outer_centre _ _ _ _ _ _ _ _ P1 P2 P3). pose proof (radius_ge j). pose proof (radius_ge (j + 1)). pose proof cos_d. nra.
Qed.
Lemma between_in t : In t (between_rings n m) <-> exists i j, (i < n)%nat /\ (j + 1 < m)%nat /\ (t = inner_based n m i j \/ t = outer_based n m i j).
Proof.
  unfold between_rings. rewrite in_flat_map. split.
  - intros (j & Hj & H). apply in_flat_map in H. destruct H as (i & Hi & H). apply in_seq in Hj, Hi. exists i, j. cbn [In] in H. repeat split; try lia. intuition.
  - intros (i & j & Hi & Hj & H). exists j. split; [apply in_seq; lia|]. apply in_flat_map. exists i. split; [apply in_seq; lia|]. cbn [In]. intuition.
Qed.
Lemma between_kept : 3 * rmin <= 2 * rmin * cos d + rad 1 -> kept points rmin (between_rings n m) = between_rings n m.
Proof.
  intros HC. unfold kept. pose proof cos_d as C.
  assert (E : forall t, In t (between_rings n m) -> rmin <= centre_distance points t).
  { intros t Ht. apply between_in in Ht. destruct Ht as (i & j & Hi & Hj & [-> | ->]).
    - rewrite inner_based_centre by exact Hj. pose proof (radius_ge j). pose proof (radius_le 1 (j + 1)). assert (rad 1 <= rad (j + 1)) by (apply radius_le; lia). nra.
    - rewrite outer_based_centre by exact Hj. pose proof (radius_ge j). assert (rad 1 <= rad (j + 1)) by (apply radius_le; lia). assert (P1 : 0 <= (rad 1 - (3 - 2 * cos d) * rmin) * cos d) by (apply Rmult_le_pos; lra). assert (P2 : 0 <= rmin * ((2 * cos d - 1) * (1 - cos d))) by (apply Rmult_le_pos; [lra|apply Rmult_le_pos; lra]). assert (rmin <= rad 1 * cos d) by lra. nra. }
  induction (between_rings n m) as [|t l IH]; [reflexivity|]. cbn [filter]. destruct (Rle_dec rmin (centre_distance points t)) as [_|N]; [|exfalso; apply N, E; cbn; auto]. f_equal. apply IH. intros u Hu. apply E. cbn. auto.
Qed.
Lemma rsum_app a b : rsum (a ++ b) = rsum a + rsum b.
Proof. unfold rsum. induction a as [|x a IH]; cbn [app fold_right]; [ring|]. rewrite IH. ring. Qed.
Lemma rsum_flat {A} (f : A -> list R) l : rsum (flat_map f l) = rsum (map (fun x => rsum (f x)) l).
Proof. induction l as [|x l IH]; [reflexivity|]. cbn [flat_map map]. rewrite rsum_app, IH. reflexivity. Qed.
Lemma rsum_const c l : rsum (map (fun _ : nat => c) l) = INR (length l) * c.
Proof. induction l as [|x l IH]; [unfold rsum; cbn; ring|]. cbn [map]. unfold rsum in *. cbn [fold_right]. rewrite IH. cbn [length]. rewrite S_INR. ring. Qed.
Lemma rsum_telescope (f : nat -> R) k : rsum (map (fun j => f (j + 1)%nat - f j) (seq 0 k)) = f k - f 0%nat.
Proof. induction k as [|k IH]; [unfold rsum; cbn; ring|]. rewrite seq_S, map_app, rsum_app, IH. cbn [map]. unfold rsum. cbn [fold_right plus]. rewrite Nat.add_1_r. ring. Qed.
Lemma rsum_ext {A} (f g : A -> R) l : (forall x, In x l -> f x = g x) -> rsum (map f l) = rsum (map g l).
Proof. intros H. f_equal. apply map_ext_in. exact H. Qed.
Lemma map_flat {A B C} (g : B -> C) (f : A -> list B) l : map g (flat_map f l) = flat_map (fun x => map g (f x)) l.
Proof. induction l as [|x l IH]; [reflexivity|]. cbn [flat_map]. rewrite map_app, IH. reflexivity. Qed.
Lemma between_area : rsum (map (tri_area points) (between_rings n m)) = regular_area n rmax - regular_area n rmin.
Proof.
  unfold between_rings. rewrite map_flat, rsum_flat.
  rewrite (rsum_ext _ (fun j => (INR n * (sin d * cos d)) * (rad (j + 1)) ^ 2 - (INR n * (sin d * cos d)) * (rad j) ^ 2)).
  - rewrite (rsum_telescope (fun j => (INR n * (sin d * cos d)) * (rad j) ^ 2)), radius_0, radius_last. unfold regular_area. replace (2 * PI / INR n) with (2 * d) by (field; apply n_pos). rewrite sin_2a. field.
  - intros j Hj. apply in_seq in Hj. rewrite map_flat, rsum_flat. rewrite (rsum_ext _ (fun _ => sin d * cos d * ((rad (j + 1)) ^ 2 - (rad j) ^ 2))).
    + rewrite rsum_const, seq_length. ring.
    + intros i _. cbn [map]. rewrite inner_based_area, outer_based_area by lia. unfold rsum. cbn [fold_right]. ring.
Qed.
End Between.
