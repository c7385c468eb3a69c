(** * Disks with holes: results of [circular_disk] and [cylinder] *)
From Coq Require Import Reals Lra Lia List Permutation.
From Verif Require ExtrudeProofs3 LineProofs2.
From Verif Require Import BaseFacts DiskModel DiskSpec DiskProofs DiskProofs2.
Import ListNotations.
Local Open Scope R_scope.

Lemma rings_unique n m rmin rmax p q : rings n m rmin rmax p -> rings n m rmin rmax q -> p = q.
Proof.
  intros (L1 & R1 & H1) (L2 & R2 & H2). apply nth_error_ext. intros k. destruct (Nat.lt_ge_cases k (n * m)) as [Hk|Hk].
  - assert (m <> 0)%nat by (intros ->; lia). assert (E : k = ((k / m) * m + k mod m)%nat) by (rewrite (Nat.div_mod k m) at 1 by assumption; lia).
    assert (Hi : (k / m < n)%nat) by (apply Nat.div_lt_upper_bound; [assumption|lia]). assert (Hj : (k mod m < m)%nat) by (apply Nat.mod_upper_bound; assumption).
    destruct (H1 _ _ Hi Hj) as [A1 A2]. destruct (H2 _ _ Hi Hj) as [B1 B2]. rewrite <- E in A1, A2, B1, B2.
    rewrite (rect_row p k R1), (rect_row q k R2) by lia. rewrite A1, A2, B1, B2. reflexivity.
  - rewrite (proj2 (nth_error_None p k)), (proj2 (nth_error_None q k)) by lia. reflexivity.
Qed.
Lemma disk_made : forall tool n m rmin rmax points, (0 < n)%nat -> rings n m rmin rmax points -> triangles_of (length points) (tool points) ->
  exists c t, circular_disk tool n m rmin rmax = Ok (c, t) /\ detached (raised points) (kept points rmin (tool points)) c t.
Proof.
  intros tool n m rmin rmax points Hn HR HT. destruct (disk_rings n m rmin rmax Hn) as (p & E & HP). rewrite (rings_unique _ _ _ _ _ _ HP HR) in E.
  unfold circular_disk. rewrite E. cbn [bind]. apply cut_out_ok; [apply HR|exact HT].
Qed.
Lemma disk_rings_exist : forall n m rmin rmax, (0 < n)%nat -> exists points, rings n m rmin rmax points.
Proof. intros n m rmin rmax Hn. destruct (disk_rings n m rmin rmax Hn) as (p & _ & H). eauto. Qed.
Lemma disk_no_angles : forall tool m rmin rmax, circular_disk tool 0 m rmin rmax = Err ZeroDivisionError.
Proof. reflexivity. Qed.

(** ** The points *)
Lemma detached_in {A} (coords : list A) t c t' p : detached coords t c t' -> In p c -> In p coords.
Proof.
  intros (_ & _ & _ & _ & inds & _ & HT) Hp. apply In_nth_error in Hp. destruct Hp as (k & Hk). unfold take in HT. apply mapM_Ok in HT. 
  revert c k HT Hk. induction inds as [|i inds IH]; intros c k HT Hk; inversion HT; subst; [destruct k; discriminate|]. destruct k as [|k]; cbn in Hk; [injection Hk as <-|eapply IH; eauto].
  match goal with H : get coords i = Ok _ |- _ => apply get_Ok in H; eapply nth_error_In; exact H end.
Qed.
Lemma disk_distances : forall tool n m rmin rmax points c t p, (0 < n)%nat -> 0 <= rmin <= rmax -> (2 <= m)%nat -> rings n m rmin rmax points -> triangles_of (length points) (tool points) ->
  circular_disk tool n m rmin rmax = Ok (c, t) -> In p c -> exists i j, (i < n)%nat /\ (j < m)%nat /\ p = [ring_radius m rmin rmax j * cos (ring_angle n i j); ring_radius m rmin rmax j * sin (ring_angle n i j); 0] /\
    rmin <= axis_distance (nth 0 p 0) (nth 1 p 0) <= rmax.
Proof.
  intros tool n m rmin rmax points c t p Hn Hr Hm HR HT E Hp. destruct (disk_made tool n m rmin rmax points Hn HR HT) as (c' & t' & E' & HD). rewrite E in E'. injection E' as <- <-.
  apply (detached_in _ _ _ _ _ HD) in Hp. unfold raised in Hp. apply in_map_iff in Hp. destruct Hp as (q & <- & Hq). apply In_nth_error in Hq. destruct Hq as (k & Hk).
  destruct HR as (L & HR & H). assert (Hk' : (k < n * m)%nat) by (rewrite <- L; apply nth_error_Some; congruence).
  exists (k / m)%nat, (k mod m)%nat. assert (Hj : (k mod m < m)%nat) by (apply Nat.mod_upper_bound; lia). assert (Hi : (k / m < n)%nat) by (apply Nat.div_lt_upper_bound; lia).
  destruct (H _ _ Hi Hj) as [A1 A2]. replace (k / m * m + k mod m)%nat with k in A1, A2 by (rewrite (Nat.div_mod k m) at 1 by lia; lia). unfold coord in A1, A2. rewrite (nth_error_nth _ _ _ Hk) in A1, A2.
  split; [exact Hi|]. split; [exact Hj|]. split; [rewrite A1, A2; reflexivity|]. cbn [nth]. rewrite A1, A2.
  assert (P : 0 < INR (m - 1)) by (apply lt_0_INR; lia). assert (Q : 0 <= INR (k mod m) * / INR (m - 1)) by (apply Rmult_le_pos; [apply pos_INR|apply Rlt_le, Rinv_0_lt_compat, P]).
  assert (Q1 : INR (k mod m) * / INR (m - 1) <= 1) by (apply (Rmult_le_reg_r (INR (m - 1))); [exact P|]; rewrite Rmult_assoc, Rinv_l by lra; rewrite Rmult_1_r, Rmult_1_l; apply le_INR; lia).
  assert (B : rmin <= ring_radius m rmin rmax (k mod m) <= rmax) by (unfold ring_radius, Rdiv; rewrite Rmult_assoc; nra). rewrite hyp_polar by lra. exact B.
Qed.
(** no triangle in the hole *)
Lemma first_ring n m rmin rmax points k i : rings n m rmin rmax points -> (i < n)%nat -> (0 < m)%nat -> k = (i * m)%nat -> exists a, polar points k rmin a.
Proof.
  intros (_ & _ & H) Hi Hm ->. exists (ring_angle n i 0). destruct (H i 0%nat Hi Hm) as [A1 A2]. rewrite Nat.add_0_r in A1, A2. unfold polar. rewrite A1, A2. unfold ring_radius. cbn [INR]. split; f_equal; unfold Rdiv; ring.
Qed.
Lemma disk_hole : forall n m rmin rmax points t ts, 0 <= rmin -> (0 < m)%nat -> rings n m rmin rmax points -> triangulated points ts -> In t ts ->
  (forall k, In k t -> exists i, (i < n)%nat /\ k = (i * m)%nat) -> ~ In t (kept points rmin ts).
Proof.
  intros n m rmin rmax points t ts Hr Hm HR [HT HA] Ht HF HK. apply kept_in in HK. destruct HK as [_ HK]. unfold triangles_of in HT. rewrite Forall_forall in HT, HA.
  assert (centre_distance points t < rmin); [|lra]. apply hole_centre; [exact Hr|apply HT; exact Ht| |specialize (HA t Ht); lra].
  intros k Hk. destruct (HF k Hk) as (i & Hi & E). eapply first_ring; eauto.
Qed.

(** ** The area *)
Lemma rsum_perm a b : Permutation a b -> rsum a = rsum b.
Proof. unfold rsum. induction 1; cbn [fold_right]; lra. Qed.
Lemma filter_perm {A} (f : A -> bool) a b : Permutation a b -> Permutation (filter f a) (filter f b).
Proof. induction 1; cbn [filter]; [constructor|destruct (f x); [constructor|]; assumption|destruct (f x), (f y); try constructor; apply Permutation_refl|eapply Permutation_trans; eauto]. Qed.
Lemma filter_none {A} (f : A -> bool) l : (forall x, In x l -> f x = false) -> filter f l = [].
Proof. induction l as [|x l IH]; intros H; [reflexivity|]. cbn [filter]. rewrite (H x) by (cbn; auto). apply IH. intros y Hy. apply H. cbn. auto. Qed.
Lemma kept_hole points r hole : (forall t, In t hole -> centre_distance points t < r) -> kept points r hole = [].
Proof. intros H. apply filter_none. intros t Ht. specialize (H t Ht). destruct (Rle_dec r (centre_distance points t)); [lra|reflexivity]. Qed.
Lemma kept_between n m rmin rmax points ts : 0 <= rmin -> (0 < m)%nat -> rings n m rmin rmax points -> triangulated points ts -> ring_triangulation n m ts ->
  Permutation (kept points rmin ts) (kept points rmin (between_rings n m)).
Proof.
  intros Hr Hm HR HT (hole & HP & HF). unfold kept at 1. eapply Permutation_trans; [apply filter_perm; exact HP|]. rewrite filter_app. change (filter _ hole) with (kept points rmin hole). rewrite kept_hole; [apply Permutation_refl|].
  intros t Ht. rewrite Forall_forall in HF. destruct HT as [HT HA]. unfold triangles_of in HT. rewrite Forall_forall in HT, HA.
  assert (I : In t ts) by (eapply Permutation_in; [apply Permutation_sym; exact HP|apply in_or_app; auto]).
  apply hole_centre; [exact Hr|apply HT; exact I| |specialize (HA t I); lra]. intros k Hk. destruct (HF t Ht k Hk) as (i & Hi & E). eapply first_ring; eauto.
Qed.
Lemma disk_area : forall tool n m rmin rmax points, (3 <= n)%nat -> (2 <= m)%nat -> 0 < rmin -> rmin <= rmax -> rings n m rmin rmax points -> triangulated points (tool points) -> ring_triangulation n m (tool points) ->
  3 * rmin <= 2 * rmin * cos (PI / INR n) + ring_radius m rmin rmax 1 ->
  exists c t, circular_disk tool n m rmin rmax = Ok (c, t) /\ length t = (2 * n * (m - 1))%nat /\ rsum (map (tri_area c) t) = regular_area n rmax - regular_area n rmin /\ Forall (fun t => 0 < tri_area c t) t.
Proof.
  intros tool n m rmin rmax points Hn Hm H0 H1 HR HT HC HE. destruct (disk_made tool n m rmin rmax points) as (c & t & E & HD); [lia|exact HR|apply HT|]. exists c, t. split; [exact E|].
  pose proof (kept_between n m rmin rmax points (tool points)) as HP. specialize (HP (Rlt_le _ _ H0) (Nat.lt_le_trans 0 2 m Nat.lt_0_2 Hm) HR HT HC). rewrite (between_kept n m rmin rmax points Hn HR H0 H1 Hm HE) in HP.
  pose proof (detached_area points (kept points rmin (tool points)) c t (proj1 (proj2 HR)) (kept_triangles points rmin _ (proj1 HT)) HD) as HA. split; [|split].
  - assert (L : length t = length (kept points rmin (tool points))) by (destruct HD as (S & _); unfold same_shape in S; apply (f_equal (@length nat)) in S; rewrite !map_length in S; auto).
    rewrite L, (Permutation_length HP). unfold between_rings. rewrite (LineProofs2.flat_map_len _ (2 * n)%nat), seq_length; [lia|]. intros j _. rewrite (LineProofs2.flat_map_len _ 2%nat), seq_length; [lia|]. reflexivity.
  - rewrite (Forall2_sum (tri_area points) (tri_area c) _ _ HA). rewrite (rsum_perm _ _ (Permutation_map _ HP)). apply (between_area n m rmin rmax points); assumption.
  - destruct HT as [_ HT]. rewrite Forall_forall in HT. assert (K : forall u, In u (kept points rmin (tool points)) -> 0 < tri_area points u) by (intros u Hu; apply HT; apply kept_in in Hu; apply Hu).
    clear - HA K. induction HA as [|r r' l l' H _ IH]; constructor; [rewrite H; apply K; cbn; auto|apply IH; intros u Hu; apply K; cbn; auto].
Qed.
(** ** Triangles that are lost *)
Lemma rsum_filter {A} (f : A -> bool) (g : A -> R) l : (forall x, In x l -> 0 < g x) -> rsum (map g (filter f l)) <= rsum (map g l) /\ ((exists x, In x l /\ f x = false) -> rsum (map g (filter f l)) < rsum (map g l)).
Proof.
  induction l as [|x l IH]; intros H; [split; [apply Rle_refl|intros (x & [] & _)]|]. destruct IH as [IH1 IH2]; [intros y Hy; apply H; cbn; auto|]. assert (0 < g x) by (apply H; cbn; auto). unfold rsum in *. cbn [filter map fold_right]. destruct (f x) eqn:E; cbn [map fold_right].
  - split; [lra|]. intros (y & [<-|Hy] & Ey); [congruence|]. assert (exists x, In x l /\ f x = false) by eauto. specialize (IH2 H1). lra.
  - split; [lra|]. intros _. lra.
Qed.
Lemma disk_lost : forall tool n m rmin rmax points, (3 <= n)%nat -> (2 <= m)%nat -> 0 < rmin -> rmin <= rmax -> rings n m rmin rmax points -> triangulated points (tool points) -> ring_triangulation n m (tool points) ->
  2 * rmin * cos (PI / INR n) + ring_radius m rmin rmax 1 < 3 * rmin ->
  (forall i, ~ In (inner_based n m i 0) (kept points rmin (tool points))) /\
  exists c t, circular_disk tool n m rmin rmax = Ok (c, t) /\ (length t < 2 * n * (m - 1))%nat /\ rsum (map (tri_area c) t) < regular_area n rmax - regular_area n rmin.
Proof.
  intros tool n m rmin rmax points Hn Hm H0 H1 HR HT HC HE.
  assert (D : forall i, ~ rmin <= centre_distance points (inner_based n m i 0)) by (intros i; rewrite (inner_based_centre n m rmin rmax points) by (assumption || lia); rewrite radius_0; cbn [plus]; lra).
  split; [intros i Hi; apply kept_in in Hi; exact (D i (proj2 Hi))|].
  destruct (disk_made tool n m rmin rmax points) as (c & t & E & HD); [lia|exact HR|apply HT|]. exists c, t. split; [exact E|].
  pose proof (kept_between n m rmin rmax points (tool points)) as HP. specialize (HP (Rlt_le _ _ H0) (Nat.lt_le_trans 0 2 m Nat.lt_0_2 Hm) HR HT HC).
  pose proof (detached_area points (kept points rmin (tool points)) c t (proj1 (proj2 HR)) (kept_triangles points rmin _ (proj1 HT)) HD) as HA.
  assert (PB : forall x, In x (between_rings n m) -> 0 < tri_area points x).
  { intros x Hx. destruct HT as [_ HT]. rewrite Forall_forall in HT. apply HT. destruct HC as (hole & HC & _). eapply Permutation_in; [apply Permutation_sym; exact HC|apply in_or_app; auto]. }
  assert (LB : exists x, In x (between_rings n m) /\ (if Rle_dec rmin (centre_distance points x) then true else false) = false).
  { exists (inner_based n m 0 0). split; [apply between_in; try assumption; exists 0%nat, 0%nat; repeat split; try lia; auto|]. destruct (Rle_dec rmin (centre_distance points (inner_based n m 0 0))) as [H|]; [exfalso; exact (D _ H)|reflexivity]. }
  split.
  - assert (L : length t = length (kept points rmin (tool points))) by (destruct HD as (S & _); unfold same_shape in S; apply (f_equal (@length nat)) in S; rewrite !map_length in S; auto).
    rewrite L, (Permutation_length HP). assert (LB' : length (between_rings n m) = (2 * n * (m - 1))%nat).
    { unfold between_rings. rewrite (LineProofs2.flat_map_len _ (2 * n)%nat), seq_length; [lia|]. intros j _. rewrite (LineProofs2.flat_map_len _ 2%nat), seq_length; [lia|]. reflexivity. }
    rewrite <- LB'. unfold kept. destruct LB as (x & Hx & Fx). apply in_split in Hx. destruct Hx as (l1 & l2 & ->). rewrite filter_app. cbn [filter]. rewrite Fx, !app_length. cbn [length].
    assert (FL : forall (f : list nat -> bool) l, (length (filter f l) <= length l)%nat) by (clear; intros f; induction l as [|x l IH]; [reflexivity|]; cbn [filter]; destruct (f x); cbn [length]; lia).
    match goal with |- (length (filter ?f l1) + _ < _)%nat => pose proof (FL f l1); pose proof (FL f l2); lia end.
  - rewrite (Forall2_sum (tri_area points) (tri_area c) _ _ HA). rewrite (rsum_perm _ _ (Permutation_map _ HP)). rewrite <- (between_area n m rmin rmax points) by assumption. apply rsum_filter; assumption.
Qed.
