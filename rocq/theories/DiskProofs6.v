(** * Disks with holes: instances *)
From Coq Require Import Reals Lra Lia List Permutation ZArith.
From Verif Require Import BaseFacts DiskModel DiskSpec DiskProofs DiskProofs2 DiskProofs3 DiskProofs4 DiskProofs5.
Import ListNotations.
Local Open Scope R_scope.

(** ** Two rings of four points *)
Definition square_rings : list (list nat) := [[0; 2; 4]; [0; 4; 6]]%nat ++ between_rings 4 2.
Lemma sqrt2_bounds : 1414 / 1000 < sqrt 2 < 1415 / 1000.
Proof. split; [apply Rsqr_incrst_0|apply Rsqr_incrst_0]; unfold Rsqr; try rewrite sqrt_sqrt; try apply sqrt_pos; lra. Qed.
Lemma quarter : PI / INR 4 = PI / 4.
Proof. replace (INR 4) with 4 by (cbn [INR]; ring). reflexivity. Qed.
Lemma cos_quarter : cos (PI / INR 4) = sqrt 2 / 2.
Proof. rewrite quarter, cos_PI4. assert (sqrt 2 * sqrt 2 = 2) by (apply sqrt_sqrt; lra). pose proof sqrt2_bounds. apply (Rmult_eq_reg_r (2 * sqrt 2)); [|lra]. field_simplify; lra. Qed.
Lemma square_triangulated rmax points : 71 / 50 <= rmax -> rings 4 2 1 rmax points -> triangulated points square_rings /\ ring_triangulation 4 2 square_rings.
Proof.
  intros Hr HR. assert (L : length points = 8%nat) by apply HR. split.
  - split.
    + rewrite L. unfold triangles_of, square_rings. cbn. repeat (constructor; [split; [reflexivity|repeat constructor; lia]|]). constructor.
    + assert (P : forall i, exists a, a = 2 * INR i * PI / INR 4 /\ polar points (ring_node 4 2 i 0) 1 a).
      { intros i. exists (ring_angle 4 i 0). split; [unfold ring_angle; cbn [Nat.odd Nat.even negb]; field; apply not_0_INR; lia|]. pose proof (polar_node 4 2 1 rmax points ltac:(lia) HR i 0 ltac:(lia)) as P. unfold ring_radius in P. cbn [INR] in P. replace (1 + (rmax - 1) * 0 / INR (2 - 1)) with 1 in P by (unfold Rdiv; ring). exact P. }
      destruct (P 0%nat) as (a0 & E0 & P0). destruct (P 1%nat) as (a1 & E1 & P1). destruct (P 2%nat) as (a2 & E2 & P2). destruct (P 3%nat) as (a3 & E3 & P3). clear P.
      replace (INR 4) with 4 in * by (cbn [INR]; ring). replace (INR 0) with 0 in * by reflexivity. replace (INR 1) with 1 in * by reflexivity. replace (INR 2) with 2 in * by (cbn [INR]; ring). replace (INR 3) with 3 in * by (cbn [INR]; ring).
      change (ring_node 4 2 0 0) with 0%nat in P0. change (ring_node 4 2 1 0) with 2%nat in P1. change (ring_node 4 2 2 0) with 4%nat in P2. change (ring_node 4 2 3 0) with 6%nat in P3.
      assert (S1 : sin (a1 - a0) = 1) by (rewrite <- sin_PI2; f_equal; subst; field). assert (S2 : sin (a2 - a1) = 1) by (rewrite <- sin_PI2; f_equal; subst; field). assert (S3 : sin (a0 - a2) = 0) by (replace (a0 - a2) with (- PI) by (subst; field); rewrite sin_neg, sin_PI; ring). assert (S4 : sin (a2 - a0) = 0) by (rewrite <- sin_PI; f_equal; subst; field). assert (S5 : sin (a3 - a2) = 1) by (rewrite <- sin_PI2; f_equal; subst; field).
      assert (S6 : sin (a0 - a3) = 1) by (replace (a0 - a3) with (- (3 * (PI / 2))) by (subst; field); rewrite sin_neg, sin_3PI2; ring).
      unfold square_rings. apply Forall_app. split.
      * constructor; [|constructor; [|constructor]]; rewrite tri_area_cross.
        -- rewrite (polar_cross _ _ _ _ _ _ _ P0 P1), (polar_cross _ _ _ _ _ _ _ P1 P2), (polar_cross _ _ _ _ _ _ _ P2 P0), S1, S2, S3. lra.
        -- rewrite (polar_cross _ _ _ _ _ _ _ P0 P2), (polar_cross _ _ _ _ _ _ _ P2 P3), (polar_cross _ _ _ _ _ _ _ P3 P0), S4, S5, S6. lra.
      * apply Forall_forall. intros t Ht. apply between_in in Ht; try lia. destruct Ht as (i & j & Hi & Hj & Ht). assert (j = 0%nat) by lia. subst j. pose proof (sin_d 4 ltac:(lia)) as SP. pose proof cos_quarter as CQ. pose proof sqrt2_bounds.
        assert (R0 : ring_radius 2 1 rmax 0 = 1) by (unfold ring_radius; cbn [INR]; unfold Rdiv; ring). assert (R1 : ring_radius 2 1 rmax 1 = rmax) by (unfold ring_radius; cbn [INR Nat.sub]; unfold Rdiv; field).
        destruct Ht as [-> | ->].
        -- rewrite (inner_based_area 4 2 1 rmax points) by (assumption || lia). cbn [plus]. rewrite R0, R1, CQ. apply Rmult_lt_0_compat; lra.
        -- rewrite (outer_based_area 4 2 1 rmax points) by (assumption || lia). cbn [plus]. rewrite R0, R1, CQ. apply Rmult_lt_0_compat; [apply Rmult_lt_0_compat; lra|nra].
  - exists [[0; 2; 4]; [0; 4; 6]]%nat. split; [apply Permutation_refl|]. repeat constructor; cbn [In]; intros k Hk; repeat (destruct Hk as [<- | Hk]; [first [exists 0%nat; split; [lia|reflexivity]|exists 1%nat; split; [lia|reflexivity]|exists 2%nat; split; [lia|reflexivity]|exists 3%nat; split; [lia|reflexivity]]|]); destruct Hk.
Qed.

(** ** A square with a hole *)
Lemma index_of (points : list (list R)) x y : In [x; y] points -> exists k, (k < length points)%nat /\ coord points k 0 = x /\ coord points k 1 = y.
Proof. intros H. apply In_nth_error in H. destruct H as (k & Hk). exists k. split; [apply nth_error_Some; congruence|]. unfold coord. rewrite (nth_error_nth _ _ _ Hk). split; reflexivity. Qed.
Lemma far_point d x y : 0 <= d -> d * d < x ^ 2 + y ^ 2 -> d < axis_distance x y.
Proof. intros Hd H. unfold axis_distance. rewrite <- (sqrt_Rsqr d Hd). apply sqrt_lt_1_alt. unfold Rsqr. split; [nra|exact H]. Qed.
Lemma compass r n p : (0 < n)%nat -> (p = [r; 0] \/ p = [0; r] \/ p = [- r; 0] \/ p = [0; - r]) -> circle_node r (4 * n) p.
Proof.
  intros Hn H. assert (N : INR n <> 0) by (apply not_0_INR; lia). assert (E : forall q, INR (q * n) * (2 * PI / INR (4 * n)) = INR q * (PI / 2)) by (intros q; rewrite !mult_INR; cbn [INR]; field; exact N).
  destruct H as [-> | [-> | [-> | ->]]]; [exists (0 * n)%nat|exists (1 * n)%nat|exists (2 * n)%nat|exists (3 * n)%nat]; (split; [lia|]); rewrite E; cbn [INR].
  - rewrite Rmult_0_l, cos_0, sin_0. f_equal; [ring|]. f_equal. ring.
  - replace (1 * (PI / 2)) with (PI / 2) by ring. rewrite cos_PI2, sin_PI2. f_equal; [ring|]. f_equal. ring.
  - replace ((1 + 1) * (PI / 2)) with PI by field. rewrite cos_PI, sin_PI. f_equal; [ring|]. f_equal. ring.
  - replace ((1 + 1 + 1) * (PI / 2)) with (3 * (PI / 2)) by ring. rewrite cos_3PI2, sin_3PI2. f_equal; [ring|]. f_equal. ring.
Qed.
Lemma square_with_hole : exists points tool u, cube_points 8 8 1 (Some 4%nat) None = Ok points /\ rect 2 points /\ triangulated points (tool points) /\ rectangle_triangulation 8 8 1 4 points (tool points) /\ In u (kept points 1 (tool points)).
Proof.
  destruct (perforated_points_default 8 8 1 (Some 4%nat)) as (points & EP & HR & HP). exists points.
  assert (C : forall i j, (i = 0 \/ i = 4)%nat -> (j = 0 \/ j = 4)%nat -> In [- 8 / 2 + 8 / INR 4 * INR i; - 8 / 2 + 8 / INR 4 * INR j] points).
  { intros i j Hi Hj. apply HP. left. split; [exists i, j; repeat split; lia|]. cbn [nth]. apply far_point; [lra|]. destruct Hi as [-> | ->], Hj as [-> | ->]; cbn [INR]; lra. }
  assert (D : forall p, (p = [1; 0] \/ p = [0; 1] \/ p = [- (1); 0] \/ p = [0; - (1)]) -> In p points) by (intros p Hp; apply HP; right; apply (compass 1 1 p); [lia|exact Hp]).
  destruct (index_of _ _ _ (C 4%nat 4%nat ltac:(auto) ltac:(auto))) as (c1 & L1 & X1 & Y1). destruct (index_of _ _ _ (C 0%nat 4%nat ltac:(auto) ltac:(auto))) as (c2 & L2 & X2 & Y2). destruct (index_of _ _ _ (C 0%nat 0%nat ltac:(auto) ltac:(auto))) as (c3 & L3 & X3 & Y3). destruct (index_of _ _ _ (C 4%nat 0%nat ltac:(auto) ltac:(auto))) as (c4 & L4 & X4 & Y4).
  destruct (index_of _ _ _ (D [1; 0] ltac:(auto))) as (e & L5 & X5 & Y5). destruct (index_of _ _ _ (D [0; 1] ltac:(auto))) as (n & L6 & X6 & Y6). destruct (index_of _ _ _ (D [- (1); 0] ltac:(auto))) as (w & L7 & X7 & Y7). destruct (index_of _ _ _ (D [0; - (1)] ltac:(auto))) as (s & L8 & X8 & Y8).
  clear C D. cbn [INR] in *.
  set (hole := [[e; n; w]; [e; w; s]]). set (rest := [[e; c1; n]; [n; c2; w]; [w; c3; s]; [s; c4; e]; [e; c4; c1]; [n; c1; c2]; [w; c2; c3]; [s; c3; c4]]).
  assert (HC : forall t, In t rest -> 1 <= centre_distance points t).
  { intros t Ht. unfold rest in Ht. cbn [In] in Ht. repeat (destruct Ht as [<- | Ht]; [apply Rlt_le, far_point; [lra|]; unfold rsum; cbn [map fold_right]; rewrite ?X1, ?X2, ?X3, ?X4, ?X5, ?X6, ?X7, ?X8, ?Y1, ?Y2, ?Y3, ?Y4, ?Y5, ?Y6, ?Y7, ?Y8; lra|]). destruct Ht. }
  exists (fun _ => hole ++ rest), [e; c4; c1]. split; [exact EP|]. split; [exact HR|]. split; [split|split].
  - apply Forall_forall. intros t Ht. unfold hole, rest in Ht. cbn [app In] in Ht. repeat (destruct Ht as [<- | Ht]; [split; [reflexivity|repeat constructor; assumption]|]). destruct Ht.
  - apply Forall_forall. intros t Ht. unfold hole, rest in Ht. cbn [app In] in Ht. repeat (destruct Ht as [<- | Ht]; [rewrite tri_area_cross; unfold cross2; rewrite ?X1, ?X2, ?X3, ?X4, ?X5, ?X6, ?X7, ?X8, ?Y1, ?Y2, ?Y3, ?Y4, ?Y5, ?Y6, ?Y7, ?Y8; lra|]). destruct Ht.
  - exists hole, rest. split; [apply Permutation_refl|]. split; [|split; [|split]].
    + apply Forall_forall. intros t Ht k Hk. assert (K : k = e \/ k = n \/ k = w \/ k = s) by (unfold hole in Ht; cbn [In] in Ht; destruct Ht as [<- | [<- | []]]; cbn [In] in Hk; destruct Hk as [Hk|[Hk|[Hk|[]]]]; subst k; auto).
      unfold node_distance, axis_distance. destruct K as [-> | [-> | [-> | ->]]]; rewrite ?X5, ?X6, ?X7, ?X8, ?Y5, ?Y6, ?Y7, ?Y8; apply sqrt_lem_1; lra.
    + unfold hole, rsum. cbn [map fold_right]. rewrite !tri_area_cross. unfold cross2. rewrite X5, X6, X7, X8, Y5, Y6, Y7, Y8. unfold regular_area. replace (2 * PI / INR 4) with (PI / 2) by (cbn [INR]; field). rewrite sin_PI2. cbn [INR]. field.
    + apply Forall_forall. exact HC.
    + unfold hole, rest, rsum. cbn [map fold_right app]. rewrite !tri_area_cross. unfold cross2. rewrite X1, X2, X3, X4, X5, X6, X7, X8, Y1, Y2, Y3, Y4, Y5, Y6, Y7, Y8. field.
  - apply kept_in. assert (I : In [e; c4; c1] rest) by (unfold rest; cbn; auto 10). split; [apply in_or_app; right; exact I|apply HC; exact I].
Qed.
Lemma coarse_square : exists points tool, cube_points 1 1 (3 / 10) (Some 4%nat) (Some (1 / 2)) = Ok points /\ rect 2 points /\ triangulated points (tool points) /\ tool points <> [].
Proof.
  destruct (perforated_points 1 1 (3 / 10) (Some 4%nat) (1 / 2)) as (nx & ny & k & points & _ & _ & -> & EP & HR & HP); try lra. exists points.
  assert (D : forall p, (p = [3 / 10; 0] \/ p = [0; 3 / 10] \/ p = [- (3 / 10); 0] \/ p = [0; - (3 / 10)]) -> In p points) by (intros p Hp; apply HP; right; apply (compass (3 / 10) 1 p); [lia|exact Hp]).
  destruct (index_of _ _ _ (D [3 / 10; 0] ltac:(auto))) as (e & L5 & X5 & Y5). destruct (index_of _ _ _ (D [0; 3 / 10] ltac:(auto))) as (n & L6 & X6 & Y6). destruct (index_of _ _ _ (D [- (3 / 10); 0] ltac:(auto))) as (w & L7 & X7 & Y7).
  exists (fun _ => [[e; n; w]]). split; [exact EP|]. split; [exact HR|]. split; [|discriminate]. split.
  - constructor; [|constructor]. split; [reflexivity|repeat constructor; assumption].
  - constructor; [|constructor]. rewrite tri_area_cross. unfold cross2. rewrite X5, X6, X7, Y5, Y6, Y7. lra.
Qed.
