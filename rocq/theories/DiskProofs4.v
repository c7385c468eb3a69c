(** * Disks with holes: [cylinder] and [perforated_cube] *)
From Coq Require Import Reals Lra Lia List Permutation ZArith.
From Verif Require ExtrudeProofs3 LineProofs2 RecipeProofs8 GridProofs7 NodalSpec ElevProofs2 TrProofs.
From Verif Require Import BaseFacts GridSpec DiskModel DiskSpec DiskProofs DiskProofs2 DiskProofs3.
Import ListNotations.
Local Open Scope R_scope.

(** ** Detached triangles can be extruded *)
Lemma same_shape_length (t t' : list (list nat)) : same_shape t t' -> length t' = length t.
Proof. intros S. unfold same_shape in S. apply (f_equal (@length nat)) in S. rewrite !map_length in S. auto. Qed.
Lemma detached_ready points ts c t : triangles_of (length points) ts -> forall r, detached (raised points) (kept points r ts) c t -> plane_points c /\ triangles_of (length c) t.
Proof.
  intros HT r HD. split.
  - apply Forall_forall. intros p Hp. apply (detached_in _ _ _ _ _ HD) in Hp. unfold raised in Hp. apply in_map_iff in Hp. destruct Hp as (q & <- & _). cbn. lia.
  - apply Forall_forall. intros u Hu. apply In_nth_error in Hu. destruct Hu as (i & Hi). split.
    + destruct HD as (S & _). unfold same_shape in S. assert (E : nth_error (map (@length nat) t) i = Some (length u)) by (rewrite nth_error_map, Hi; reflexivity). rewrite <- S, nth_error_map in E. destruct (nth_error (kept points r ts) i) as [v|] eqn:Ev; [|discriminate]. cbn in E. injection E as <-.
      pose proof (kept_triangles points r ts HT) as K. rewrite Forall_forall in K. apply K. eapply nth_error_In; eauto.
    + apply Forall_forall. intros k Hk. destruct HD as (_ & _ & _ & U & _). apply U. apply In_nth_error in Hk. destruct Hk as (j & Hj). exists i, j, u. auto.
Qed.

Lemma cylinder_mesh : forall tool n m nz rmin rmax angle h points, (3 <= n)%nat -> (2 <= m)%nat -> (0 < nz)%nat -> 0 < rmin -> rmin <= rmax -> rings n m rmin rmax points -> triangulated points (tool points) -> ring_triangulation n m (tool points) ->
  3 * rmin <= 2 * rmin * cos (PI / INR n) + ring_radius m rmin rmax 1 ->
  exists base ts c t, circular_disk tool n m rmin rmax = Ok (base, ts) /\ cylinder tool rmin rmax angle h [m; n; nz] = Ok (c, t) /\ layered base h nz c /\ rect 4 t /\ in_range (length c) t /\ length t = (6 * n * (m - 1) * nz)%nat /\
    rsum (map (tet_nodes_volume c) t) = (regular_area n rmax - regular_area n rmin) * h.
Proof.
  intros tool n m nz rmin rmax angle h points Hn Hm Hz H0 H1 HR HT HC HE. destruct (disk_area tool n m rmin rmax points Hn Hm H0 H1 HR HT HC HE) as (c & t & E & L & A & _).
  destruct (disk_made tool n m rmin rmax points) as (c' & t' & E' & HD); [lia|exact HR|apply HT|]. rewrite E in E'. injection E' as <- <-.
  destruct (detached_ready points (tool points) c t (proj1 HT) rmin HD) as [P1 P2].
  destruct (ExtrudeProofs3.tet4_mesh c t h nz P1 P2 Hz) as (coords & topo & Q1 & Q2 & Q3 & Q4 & Q5 & Q6 & _). exists c, t, coords, topo.
  split; [exact E|]. unfold cylinder. rewrite E. cbn [bind fst snd]. rewrite Q1. split; [reflexivity|]. split; [exact Q2|]. split; [exact Q4|]. split; [exact Q5|]. rewrite Q3, L, Q6, A. split; [lia|reflexivity].
Qed.
Lemma cylinder_order : forall tool n m nz rmin rmax angle h points, (3 <= n)%nat -> (2 <= m)%nat -> (0 < nz)%nat -> 0 < rmin -> rmin <= rmax -> rings n m rmin rmax points -> triangulated points (tool points) -> ring_triangulation n m (tool points) ->
  3 * rmin <= 2 * rmin * cos (PI / INR n) + ring_radius m rmin rmax 1 -> n <> m ->
  exists c t, cylinder tool rmin rmax angle h [m; n; nz] = Ok (c, t) /\ length t <> (6 * m * (n - 1) * nz)%nat.
Proof.
  intros tool n m nz rmin rmax angle h points Hn Hm Hz H0 H1 HR HT HC HE D. destruct (cylinder_mesh tool n m nz rmin rmax angle h points Hn Hm Hz H0 H1 HR HT HC HE) as (b & ts & c & t & _ & E & _ & _ & _ & L & _).
  exists c, t. split; [exact E|]. rewrite L. intros Q. apply Nat.mul_cancel_r in Q; [|lia]. destruct n as [|n]; [lia|]. destruct m as [|m]; [lia|]. cbn [Nat.sub] in Q. rewrite !Nat.sub_0_r in Q. nia.
Qed.
Lemma cylinder_angle : forall tool rmin rmax angle angle' h size, cylinder tool rmin rmax angle h size = cylinder tool rmin rmax angle' h size.
Proof. reflexivity. Qed.

(** ** Whole parts *)
Lemma parts_pos l lmax : 0 < lmax -> 0 <= l -> exists z, parts l lmax = Ok z /\ (0 <= z)%Z /\ IZR z * lmax <= l < (IZR z + 1) * lmax.
Proof.
  intros Hm Hl. unfold parts. destruct (Req_EM_T lmax 0) as [E|_]; [lra|]. assert (Q : 0 <= l / lmax) by (apply Rmult_le_pos; [exact Hl|apply Rlt_le, Rinv_0_lt_compat, Hm]). exists (Int_part (l / lmax)). unfold int_of. destruct (Rle_dec 0 (l / lmax)) as [_|N]; [|contradiction].
  destruct (base_Int_part (l / lmax)) as [B1 B2]. split; [reflexivity|]. split.
  - assert (-1 < Int_part (l / lmax))%Z by (apply lt_IZR; cbn; lra). lia.
  - assert (E : l = l / lmax * lmax) by (field; lra). split; [rewrite E at 2; apply Rmult_le_compat_r; lra|rewrite E at 1; apply Rmult_lt_compat_r; lra].
Qed.
Lemma parts_whole least l lmax : 0 < lmax -> 0 <= l -> exists z, parts l lmax = Ok z /\ whole_parts least l lmax (Z.to_nat (Z.max z (Z.of_nat least))).
Proof.
  intros Hm Hl. destruct (parts_pos l lmax Hm Hl) as (z & E & Hz & B1 & B2). exists z. split; [exact E|]. unfold whole_parts. split; [lia|]. destruct (Z.le_gt_cases z (Z.of_nat least)) as [Q|Q].
  - rewrite Z.max_r by lia. rewrite Nat2Z.id. split; [right; reflexivity|]. eapply Rlt_le_trans; [exact B2|]. apply Rmult_le_compat_r; [lra|]. apply Rplus_le_compat_r. rewrite INR_IZR_INZ. apply IZR_le. exact Q.
  - rewrite Z.max_l by lia. rewrite INR_IZR_INZ, Z2Nat.id by lia. split; [left; exact B1|exact B2].
Qed.

(** ** The points *)
Lemma cube_grid lx ly nx ny : (1 <= nx)%nat -> (1 <= ny)%nat ->
  exists coords topo, grid (size_args [lx; ly] [nx; ny]) (ETuple [2; 2]%nat) = Ok (coords, topo) /\ rect 2 coords /\ forall p, In p coords <-> grid_node lx ly nx ny p.
Proof.
  intros Hx Hy. change (grid (size_args [lx; ly] [nx; ny]) (ETuple [2; 2]%nat)) with (grid (NodalSpec.with_centralize true (uargs [lx; ly] [nx; ny] [0; 0] 0)) (ETuple [2; 2]%nat)). rewrite RecipeProofs8.centered_grid2 by lia.
  destruct (GridProofs7.grid2_tiles lx ly (- lx / 2) (- ly / 2) nx ny 2 2 0 Hx Hy (le_n 2) (le_n 2)) as (coords & topo & E & (L & _ & H) & _ & _). exists coords, topo. split; [exact E|]. cbn [Nat.sub] in *. rewrite !Nat.mul_1_r in *.
  assert (G : forall a b, (a <= nx)%nat -> (b <= ny)%nat -> nth_error coords (a * (ny + 1) + b) = Some [- lx / 2 + lx / INR nx * INR a; - ly / 2 + ly / INR ny * INR b]).
  { intros a b Ha Hb. assert (Pa : exists i k, (i < nx)%nat /\ (k <= 1)%nat /\ a = (i + k)%nat) by (destruct (Nat.eq_dec a nx) as [->|]; [exists (nx - 1)%nat, 1%nat; lia|exists a, 0%nat; lia]). destruct Pa as (i & k & Hi & Hk & ->).
    assert (Pb : exists j q, (j < ny)%nat /\ (q <= 1)%nat /\ b = (j + q)%nat) by (destruct (Nat.eq_dec b ny) as [->|]; [exists (ny - 1)%nat, 1%nat; lia|exists b, 0%nat; lia]). destruct Pb as (j & q & Hj & Hq & ->).
    destruct (H i j Hi Hj) as (cell & _ & _ & HH). destruct (HH k q Hk Hq) as [_ HN]. rewrite !Nat.mul_1_r in HN. rewrite HN. assert (INR nx <> 0) by (apply not_0_INR; lia). assert (INR ny <> 0) by (apply not_0_INR; lia). unfold uniform. cbn [INR]. rewrite !plus_INR. f_equal. f_equal; [field; assumption|]. f_equal. field. assumption. }
  split.
  - apply Forall_forall. intros p Hp. apply In_nth_error in Hp. destruct Hp as (k & Hk). assert (Lk : (k < (nx + 1) * (ny + 1))%nat) by (rewrite <- L; apply nth_error_Some; congruence).
    assert (Ek : k = ((k / (ny + 1)) * (ny + 1) + k mod (ny + 1))%nat) by (rewrite (Nat.div_mod k (ny + 1)) at 1 by lia; lia). assert (k / (ny + 1) < nx + 1)%nat by (apply Nat.div_lt_upper_bound; lia). assert (k mod (ny + 1) < ny + 1)%nat by (apply Nat.mod_upper_bound; lia).
    rewrite Ek, G in Hk by lia. injection Hk as <-. reflexivity.
  - intros p. split.
    + intros Hp. apply In_nth_error in Hp. destruct Hp as (k & Hk). assert (Lk : (k < (nx + 1) * (ny + 1))%nat) by (rewrite <- L; apply nth_error_Some; congruence).
      assert (Ek : k = ((k / (ny + 1)) * (ny + 1) + k mod (ny + 1))%nat) by (rewrite (Nat.div_mod k (ny + 1)) at 1 by lia; lia). assert (k / (ny + 1) < nx + 1)%nat by (apply Nat.div_lt_upper_bound; lia). assert (k mod (ny + 1) < ny + 1)%nat by (apply Nat.mod_upper_bound; lia).
      exists (k / (ny + 1))%nat, (k mod (ny + 1))%nat. split; [lia|]. split; [lia|]. rewrite Ek, G in Hk by lia. injection Hk as <-. reflexivity.
    + intros (a & b & Ha & Hb & ->). eapply nth_error_In. apply (G a b Ha Hb).
Qed.
Lemma outer_ok coords d : rect 2 coords -> outer_points coords d = Ok (filter (fun p => if Rlt_dec d (axis_distance (nth 0 p 0) (nth 1 p 0)) then true else false) coords).
Proof.
  intros HR. unfold outer_points. rewrite (mapM_map _ (fun p => axis_distance (nth 0 p 0) (nth 1 p 0))).
  - cbn [bind]. rewrite map_map, select_filter. reflexivity.
  - intros p Hp. unfold rect in HR. rewrite Forall_forall in HR. specialize (HR p Hp). destruct p as [|x [|y [|]]]; try discriminate. reflexivity.
Qed.
Lemma cube_made lx ly radius nx ny n lmax nangles : (1 <= nx)%nat -> (1 <= ny)%nat -> cube_shape lx ly lmax = Ok [nx; ny] -> hole_angles radius nangles lmax = Ok n ->
  exists points, cube_points lx ly radius nangles lmax = Ok points /\ perforated lx ly radius (clearance radius lmax) nx ny n points.
Proof.
  intros Hx Hy ES EA. unfold cube_points. rewrite ES. cbn [bind]. destruct (cube_grid lx ly nx ny Hx Hy) as (coords & topo & EG & HR & HG). rewrite EG. cbn [bind fst]. rewrite (outer_ok _ _ HR), EA. cbn [bind]. eexists. split; [reflexivity|]. split.
  - apply Forall_app. split; [|apply Forall_forall; intros p Hp; apply in_map_iff in Hp; destruct Hp as (a & <- & _); reflexivity]. apply Forall_forall. intros p Hp. apply filter_In in Hp. unfold rect in HR. rewrite Forall_forall in HR. apply HR, Hp.
  - intros p. rewrite in_app_iff, filter_In, HG. destruct (Rlt_dec (clearance radius lmax) (axis_distance (nth 0 p 0) (nth 1 p 0))) as [D|D].
    + split; (intros [H|H]; [left|right]).
      * split; [apply H|exact D].
      * apply in_map_iff in H. destruct H as (a & <- & Ha). apply In_nth_error in Ha. destruct Ha as (i & Hi). assert (Li : (i < n)%nat) by (rewrite <- (full_circle_length n); apply nth_error_Some; congruence). rewrite full_circle_nth in Hi by exact Li. injection Hi as <-. exists i. split; [exact Li|reflexivity].
      * split; [apply H|reflexivity].
      * destruct H as (i & Hi & ->). apply in_map_iff. exists (INR i * (2 * PI / INR n)). split; [reflexivity|]. eapply nth_error_In. apply full_circle_nth. exact Hi.
    + split; (intros [H|H]).
      * destruct H as [_ H]. discriminate.
      * right. apply in_map_iff in H. destruct H as (a & <- & Ha). apply In_nth_error in Ha. destruct Ha as (i & Hi). assert (Li : (i < n)%nat) by (rewrite <- (full_circle_length n); apply nth_error_Some; congruence). rewrite full_circle_nth in Hi by exact Li. injection Hi as <-. exists i. split; [exact Li|reflexivity].
      * exfalso. apply D, H.
      * right. destruct H as (i & Hi & ->). apply in_map_iff. exists (INR i * (2 * PI / INR n)). split; [reflexivity|]. eapply nth_error_In. apply full_circle_nth. exact Hi.
Qed.
