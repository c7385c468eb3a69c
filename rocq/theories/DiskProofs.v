(** * Disks with holes: points, and what is cut out *)
From Coq Require Import Reals Lra Lia List Permutation.
From Verif Require TopoProofs5 LineProofs2 TableProofs3.
From Verif Require Import BaseFacts DiskModel DiskSpec.
Import ListNotations.
Local Open Scope R_scope.

Lemma length3 {A} (t : list A) : length t = 3%nat -> exists a b c, t = [a; b; c].
Proof. destruct t as [|a [|b [|c [|]]]]; try discriminate. eauto. Qed.
Lemma row2 (p : list R) : length p = 2%nat -> p = [nth 0 p 0; nth 1 p 0].
Proof. destruct p as [|x [|y [|]]]; try discriminate. reflexivity. Qed.
Lemma rect_row (points : list (list R)) n : rect 2 points -> (n < length points)%nat -> nth_error points n = Some [coord points n 0; coord points n 1].
Proof.
  intros HR Hn. destruct (nth_error points n) as [p|] eqn:E; [|apply nth_error_None in E; lia]. unfold coord. rewrite (nth_error_nth _ _ _ E). f_equal. apply row2.
  unfold rect in HR. rewrite Forall_forall in HR. apply HR. eapply nth_error_In; eauto.
Qed.
Lemma get_some {A} (l : list A) k x : nth_error l k = Some x -> get l k = Ok x.
Proof. intros H. apply get_Ok. exact H. Qed.
Lemma triangle_centre points t : rect 2 points -> length t = 3%nat -> Forall (fun k => (k < length points)%nat) t -> triangle_hypot points t = Ok (centre_distance points t).
Proof.
  intros HR Ht HF. destruct (length3 t Ht) as (a & b & c & ->). inversion HF as [|? ? Ha HF1]; subst. inversion HF1 as [|? ? Hb HF2]; subst. inversion HF2 as [|? ? Hc _]; subst.
  unfold triangle_hypot, take. cbn [mapM]. rewrite (get_some _ _ _ (rect_row points a HR Ha)), (get_some _ _ _ (rect_row points b HR Hb)), (get_some _ _ _ (rect_row points c HR Hc)). cbn [bind mapM get nth_error].
  f_equal. unfold centre_distance, axis_distance, hypot, mean, rsum. cbn [map fold_right length INR]. f_equal. f_equal; f_equal; field.
Qed.
Lemma select_filter {A} (f : A -> bool) l : select l (map f l) = filter f l.
Proof. unfold select. induction l as [|x l IH]; [reflexivity|]. cbn [map combine filter snd]. destruct (f x); cbn [map fst]; rewrite IH; reflexivity. Qed.
Lemma unmasked_kept points ts r : rect 2 points -> triangles_of (length points) ts -> unmasked points ts r = Ok (kept points r ts).
Proof.
  intros HR HT. unfold unmasked. rewrite (mapM_map _ (centre_distance points)).
  - cbn [bind]. f_equal. rewrite map_map, select_filter. unfold kept. apply filter_ext. intros t. destruct (Rlt_dec (centre_distance points t) r), (Rle_dec r (centre_distance points t)); try reflexivity; lra.
  - intros t Ht. unfold triangles_of in HT. rewrite Forall_forall in HT. destruct (HT t Ht) as [H1 H2]. now apply triangle_centre.
Qed.
Lemma with_zero_raised points : rect 2 points -> with_zero points = Ok (raised points).
Proof.
  intros HR. unfold with_zero, raised. apply mapM_map. intros p Hp. unfold rect in HR. rewrite Forall_forall in HR. specialize (HR p Hp). destruct p as [|x [|y [|]]]; try discriminate. reflexivity.
Qed.
Lemma kept_in points r ts t : In t (kept points r ts) <-> In t ts /\ r <= centre_distance points t.
Proof. unfold kept. rewrite filter_In. destruct (Rle_dec r (centre_distance points t)); split; intros [H1 H2]; split; auto; discriminate. Qed.
Lemma used_in (t : list (list nat)) n : used t n -> exists r, In r t /\ In n r.
Proof. intros (i & j & r & H1 & H2). exists r. split; eapply nth_error_In; eauto. Qed.
Lemma cut_out_ok tool points r : rect 2 points -> triangles_of (length points) (tool points) ->
  exists c t, cut_out tool points r = Ok (c, t) /\ detached (raised points) (kept points r (tool points)) c t.
Proof.
  intros HR HT. unfold cut_out. rewrite (unmasked_kept _ _ _ HR HT), (with_zero_raised _ HR). cbn [bind].
  destruct (TopoProofs5.detach_bulk_ok (raised points) (kept points r (tool points))) as (c & t & inds & H1 & H2 & H3 & H4).
  - intros n Hn. unfold raised. rewrite map_length. destruct (used_in _ _ Hn) as (u & Hu & Hin). apply kept_in in Hu. destruct Hu as [Hu _]. unfold triangles_of in HT. rewrite Forall_forall in HT. destruct (HT u Hu) as [_ HF]. rewrite Forall_forall in HF. auto.
  - exists c, t. split; [exact H1|]. eapply TopoProofs5.detached_of; eauto.
Qed.

(** ** Areas of detached triangles *)
Lemma raised_coord points n d : (d < 2)%nat -> rect 2 points -> coord (raised points) n d = coord points n d.
Proof.
  intros Hd HR. unfold coord, raised. destruct (Nat.lt_ge_cases n (length points)) as [Hn|Hn].
  - rewrite (nth_indep _ [] ((fun p => [nth 0 p 0; nth 1 p 0; 0]) [])) by (rewrite map_length; exact Hn). rewrite (map_nth (fun p => [nth 0 p 0; nth 1 p 0; 0])). destruct d as [|[|d]]; [reflexivity|reflexivity|exfalso; lia].
  - rewrite (nth_overflow (map _ points) []) by (rewrite map_length; exact Hn). rewrite (nth_overflow points []) by exact Hn. destruct d as [|[|d]]; reflexivity.
Qed.
Lemma same_rows {A} (coords : list A) t c t' : detached coords t c t' -> Forall2 (fun r r' => length r = length r' /\ forall j n, nth_error r j = Some n -> exists n', nth_error r' j = Some n' /\ nth_error c n' = nth_error coords n) t t'.
Proof.
  intros (HS & HE & _). unfold same_shape in HS. revert t' HS HE. induction t as [|r t IH]; intros [|r' t'] HS HE; try discriminate; [constructor|]. cbn [map] in HS. injection HS as H1 H2. constructor.
  - split; [congruence|]. intros j n Hj. destruct (HE 0%nat j n) as (n' & (r1 & E1 & E2) & E3); [exists r; auto|]. cbn in E1. injection E1 as <-. eauto.
  - apply IH; [exact H2|]. intros i j n (q & Q1 & Q2). destruct (HE (S i) j n) as (n' & (r1 & E1 & E2) & E3); [exists q; auto|]. exists n'. split; [exists r1; auto|exact E3].
Qed.
Lemma detached_area points t c t' : rect 2 points -> Forall (fun r => length r = 3%nat) t -> detached (raised points) t c t' ->
  Forall2 (fun r r' => tri_area c r' = tri_area points r) t t'.
Proof.
  intros HR H3 HD. apply same_rows in HD. induction HD as [|r r' t t' [H1 H2] HD IH]; [constructor|]. inversion H3; subst. constructor; [|auto].
  destruct (length3 r) as (a & b & e & ->); [assumption|]. destruct (length3 r') as (a' & b' & e' & ->); [congruence|].
  destruct (H2 0%nat a eq_refl) as (x & Ex & Fx). destruct (H2 1%nat b eq_refl) as (y & Ey & Fy). destruct (H2 2%nat e eq_refl) as (z & Ez & Fz). cbn in Ex, Ey, Ez. injection Ex as <-. injection Ey as <-. injection Ez as <-.
  assert (E : forall n n', nth_error c n' = nth_error (raised points) n -> forall d, (d < 2)%nat -> coord c n' d = coord points n d).
  { intros n n' En d Hd. rewrite <- (raised_coord points n d Hd HR). unfold coord. f_equal. destruct (nth_error (raised points) n) eqn:En1; [rewrite (nth_error_nth _ _ _ En), (nth_error_nth _ _ _ En1); reflexivity|].
    rewrite (nth_overflow c), (nth_overflow (raised points)); [reflexivity|apply nth_error_None; exact En1|apply nth_error_None; exact En]. }
  unfold tri_area, polygon_area, shoelace, cross2. rewrite !(E a a'), !(E b b'), !(E e e') by (assumption || lia). reflexivity.
Qed.
Lemma Forall2_sum {A} (f g : A -> R) t t' : Forall2 (fun r r' => g r' = f r) t t' -> rsum (map g t') = rsum (map f t).
Proof. induction 1 as [|r r' t t' H _ IH]; [reflexivity|]. unfold rsum in *. cbn [map fold_right]. rewrite H, IH. reflexivity. Qed.
Lemma kept_triangles points r ts : triangles_of (length points) ts -> Forall (fun t => length t = 3%nat) (kept points r ts).
Proof. intros HT. apply Forall_forall. intros t Ht. apply kept_in in Ht. unfold triangles_of in HT. rewrite Forall_forall in HT. apply (HT t), Ht. Qed.

(** ** Points of the disk *)
Lemma full_circle_length n : length (full_circle n) = n.
Proof. unfold full_circle. rewrite map_length, seq_length. reflexivity. Qed.
Lemma full_circle_nth n i : (i < n)%nat -> nth_error (full_circle n) i = Some (INR i * (2 * PI / INR n)).
Proof. intros H. unfold full_circle. rewrite nth_error_map, (nth_error_nth' _ 0%nat) by (rewrite seq_length; exact H). rewrite seq_nth by exact H. reflexivity. Qed.
Lemma ring_radii rmin rmax m j : (j < m)%nat -> nth_error (linspace rmin rmax m) j = Some (ring_radius m rmin rmax j).
Proof.
  intros H. rewrite (nth_error_nth' _ 0) by (rewrite TableProofs3.linspace_length; exact H). f_equal. destruct (Nat.lt_ge_cases m 2) as [Hm|Hm].
  - assert (m = 1%nat) by lia. subst. assert (j = 0%nat) by lia. subst. unfold ring_radius. cbn. unfold Rdiv. ring.
  - apply TableProofs3.linspace_nth; assumption.
Qed.
Lemma enum_nth {A} (l : list A) : forall k x, nth_error l k = Some x -> nth_error (enum l) k = Some (k, x).
Proof. intros k x H. rewrite nth_error_enum, H. reflexivity. Qed.
Lemma enum_length {A} (l : list A) : length (enum l) = length l.
Proof. apply enum_from_length. Qed.
Lemma disk_rings n m rmin rmax : (0 < n)%nat -> exists points, disk_points n m rmin rmax = Ok points /\ rings n m rmin rmax points.
Proof.
  intros Hn. unfold disk_points. destruct (Nat.eqb_spec n 0) as [->|_]; [lia|]. eexists. split; [reflexivity|].
  set (f := fun a => map (fun jr => on_circle (snd jr) (if Nat.odd (fst jr) then a + PI / INR n else a)) (enum (linspace rmin rmax m))).
  assert (L : forall a, length (f a) = m) by (intros a; unfold f; rewrite map_length, enum_length, TableProofs3.linspace_length; reflexivity).
  split; [rewrite (LineProofs2.flat_map_len f m) by auto; rewrite full_circle_length; reflexivity|]. split.
  - apply Forall_forall. intros p Hp. apply in_flat_map in Hp. destruct Hp as (a & _ & Hp). unfold f in Hp. apply in_map_iff in Hp. destruct Hp as (jr & <- & _). reflexivity.
  - intros i j Hi Hj. pose proof (LineProofs2.flat_map_nth f m (full_circle n) (fun x _ => L x) i j _ (full_circle_nth n i Hi) Hj) as E.
    assert (E2 : nth_error (f (INR i * (2 * PI / INR n))) j = Some (on_circle (ring_radius m rmin rmax j) (ring_angle n i j))).
    { unfold f. rewrite nth_error_map, (enum_nth _ _ _ (ring_radii rmin rmax m j Hj)). cbn [option_map fst snd]. f_equal. f_equal. unfold ring_angle. assert (INR n <> 0) by (apply not_0_INR; lia). destruct (Nat.odd j); field; assumption. }
    rewrite E2 in E. unfold coord. rewrite (nth_error_nth _ _ _ E). split; reflexivity.
Qed.
Lemma angle_periodic n i j : (0 < n)%nat -> exists k, ring_angle n i j = ring_angle n (i mod n) j + 2 * INR k * PI.
Proof.
  intros Hn. exists (i / n)%nat. unfold ring_angle. assert (INR n <> 0) by (apply not_0_INR; lia). rewrite (Nat.div_mod i n) at 1 by lia. rewrite plus_INR, mult_INR. field. assumption.
Qed.
Lemma ring_coords n m rmin rmax points i j : (0 < n)%nat -> (j < m)%nat -> rings n m rmin rmax points ->
  coord points (ring_node n m i j) 0 = ring_radius m rmin rmax j * cos (ring_angle n i j) /\ coord points (ring_node n m i j) 1 = ring_radius m rmin rmax j * sin (ring_angle n i j).
Proof.
  intros Hn Hj (_ & _ & H). destruct (angle_periodic n i j Hn) as (k & E). rewrite E, cos_period, sin_period. apply H; [apply Nat.mod_upper_bound; lia|exact Hj].
Qed.
