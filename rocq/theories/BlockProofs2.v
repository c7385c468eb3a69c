(** * Proofs about [BlockModel.v], part 2: local coordinates *)
From Coq Require Import Reals Lra Lia List Arith.
From Verif Require Import BaseFacts TrModel TrProofs TriProofs TriProofs2 TriProofs6 LocProofs3 LocProofs4 LocProofs9 LocProofs10 ShapeProofs4 QuadProofs5 NodalProofs4 SpaceProofs ShapeProofs BlockModel BlockSpec BlockProofs.
Import ListNotations.
Local Open Scope R_scope.

Definition solid_axes (fr : list (list R)) : Prop := length fr = 3%nat /\ rect 3 fr.
Lemma cartesian_axes fr : cartesian fr -> solid_axes fr.
Proof. intros (a & b & c & -> & Ha & Hb & Hc & _). split; [reflexivity|]. repeat constructor; assumption. Qed.
Lemma to_local_at fr c p : solid_axes fr -> dim 3 c -> dim 3 p -> (do v <- vsub p c; matvec fr v) = Ok (local_at fr c p).
Proof.
  intros [_ HR] Hc Hp. destruct (dim3 _ Hc) as (c0 & c1 & c2 & ->), (dim3 _ Hp) as (p0 & p1 & p2 & ->).
  unfold vsub. cbn [map2 bind]. unfold matvec, local_at. induction HR as [|e fr He HR IH]; [reflexivity|]. cbn [mapM map].
  rewrite IH. clear IH. destruct (dim3 _ He) as (e0 & e1 & e2 & ->). unfold vdot. cbn [map2 bind ksum fold_left]. f_equal. f_equal. unfold part, px, py, pz, at_. cbn [nth]. numR. ring.
Qed.
Lemma local_of : forall coords topo ecs frames, mesh_at coords topo ecs -> rect 3 coords -> Forall (fun ns => ns <> []) topo -> Forall solid_axes frames -> length frames = length topo ->
  block_coordinates coords topo (PerCell frames) = Ok (map (fun fe => map (local_at (fst fe) (means 3 (snd fe))) (snd fe)) (combine frames ecs)).
Proof.
  intros coords topo ecs frames HM HC HT HF HL. unfold block_coordinates. rewrite (proj1 (mesh_mapM _ _ _) HM). cbn [bind].
  assert (HE : Forall (fun ec => rect 3 ec /\ ec <> []) ecs).
  { clear HL. unfold mesh_at in HM. induction HM as [|ns ec topo ecs Hn HM IH]; constructor; inversion HT; subst; [|now apply IH]. split.
    - apply Forall_forall. intros p Hp. apply In_nth_error in Hp. destruct Hp as (i & Hi). destruct (Forall2_nth_error_r _ _ _ _ _ Hn Hi) as (n & _ & Hnp). unfold rect in HC. rewrite Forall_forall in HC. apply HC. now apply nth_error_In with n.
    - intros ->. inversion Hn; subst. easy. }
  assert (E1 : centralize_cells_coords ecs = Ok (map (fun ec => map (fun p => sub p (means 3 ec)) ec) ecs)).
  { unfold centralize_cells_coords. apply mapM_map. intros ec Hec. rewrite Forall_forall in HE. destruct (HE ec Hec) as [HR HN]. rewrite (vmean_means 3) by assumption. cbn [bind].
    apply mapM_map. intros p Hp. unfold rect in HR. rewrite Forall_forall in HR. apply vsub_dim3; [now apply HR|]. unfold dim, means. now rewrite map_length, seq_length. }
  rewrite E1. cbn [bind]. assert (HLe : length frames = length ecs) by (rewrite (mesh_length _ _ _ HM); assumption). clear HM HT HL E1 HC.
  unfold enum. assert (G : forall pre, mapM (fun ie => mapM (to_local (PerCell (pre ++ frames)) (fst ie)) (snd ie)) (enum_from (length pre) (map (fun ec => map (fun p => sub p (means 3 ec)) ec) ecs)) =
    Ok (map (fun fe => map (local_at (fst fe) (means 3 (snd fe))) (snd fe)) (combine frames ecs))); [|exact (G [])].
  revert frames HF HLe. induction HE as [|ec ecs [HR HN] HE IH]; intros [|fr frames] HF HLe pre; try discriminate HLe; [reflexivity|]. inversion HF as [|? ? Hfr HF']; subst. injection HLe as HLe.
  cbn [map enum_from mapM combine fst snd].
  assert (E2 : mapM (to_local (PerCell (pre ++ fr :: frames)) (length pre)) (map (fun p => sub p (means 3 ec)) ec) = Ok (map (local_at fr (means 3 ec)) ec)).
  { assert (Hd : dim 3 (means 3 ec)) by (unfold dim, means; now rewrite map_length, seq_length). generalize dependent (means 3 ec). intros c Hc. clear - HR Hc Hfr. induction HR as [|p ec Hp HR IH]; [reflexivity|]. cbn [map mapM].
    rewrite IH. unfold to_local. assert (E : get (pre ++ fr :: frames) (length pre) = Ok fr) by (apply get_Ok; rewrite nth_error_app2, Nat.sub_diag by lia; reflexivity). rewrite E. cbn [bind].
    pose proof (to_local_at fr c p Hfr Hc Hp) as T. rewrite (proj1 (vsub_dim3 p c Hp Hc)) in T. cbn [bind] in T. rewrite T. reflexivity. }
  rewrite E2. cbn [bind]. specialize (IH frames HF' HLe (pre ++ [fr])). rewrite <- app_assoc in IH. cbn [app] in IH. rewrite app_length, Nat.add_1_r in IH. rewrite IH. reflexivity.
Qed.

(** ** components for perpendicular unit vectors *)
Lemma cart_expand a b c v : cartesian [a; b; c] -> dim 3 v -> forall k, (k < 3)%nat -> at_ k v = sprod a v * at_ k a + sprod b v * at_ k b + sprod c v * at_ k c.
Proof.
  intros (a' & b' & c' & E & Ha & Hb & Hc & H1 & H2 & H3 & H4 & H5 & H6) Hv k Hk. injection E as <- <- <-.
  assert (D : map_det a b c * map_det a b c = 1).
  { destruct (dim3 _ Ha) as (a0 & a1 & a2 & ->), (dim3 _ Hb) as (b0 & b1 & b2 & ->), (dim3 _ Hc) as (c0 & c1 & c2 & ->). unfold sprod, map_det, px, py, pz, at_ in *. cbn [combine map fold_right fst snd nth] in *.
    assert (G : forall g11 g22 g33 g12 g23 g31, g11 = 1 -> g22 = 1 -> g33 = 1 -> g12 = 0 -> g23 = 0 -> g31 = 0 -> g11 * g22 * g33 + 2 * (g12 * g23 * g31) - g11 * (g23 * g23) - g22 * (g31 * g31) - g33 * (g12 * g12) = 1) by (intros; subst; ring).
    rewrite <- (G _ _ _ _ _ _ H1 H2 H3 H4 H5 H6). ring. }
  assert (D' : map_det a b c = 1 \/ map_det a b c = -1).
  { assert (P : (map_det a b c - 1) * (map_det a b c + 1) = 0) by (ring_simplify; ring_simplify in D; lra). apply Rmult_integral in P. destruct P; [left|right]; lra. }
  destruct D' as [D'|D'].
  - apply (rh_expand a b c v k); [|assumption|assumption]. repeat split; assumption.
  - assert (Hm : dim 3 (map Ropp c)) by (unfold dim; now rewrite map_length).
    assert (R : right_handed a b (map Ropp c)).
    { destruct (dim3 _ Ha) as (a0 & a1 & a2 & ->), (dim3 _ Hb) as (b0 & b1 & b2 & ->), (dim3 _ Hc) as (c0 & c1 & c2 & ->). unfold right_handed, sprod, map_det, px, py, pz, at_ in *. cbn [combine map fold_right fst snd nth] in *. repeat split; try assumption; lra. }
    rewrite (rh_expand _ _ _ v k R Hv Hk). destruct (dim3 _ Hc) as (c0 & c1 & c2 & ->), (dim3 _ Hv) as (v0 & v1 & v2 & ->). unfold sprod, at_. cbn [combine map fold_right fst snd].
    destruct k as [|[|[|]]]; [| | |lia]; cbn [nth]; ring.
Qed.
Lemma parseval a b c v : cartesian [a; b; c] -> dim 3 v -> sprod v v = sprod a v * sprod a v + sprod b v * sprod b v + sprod c v * sprod c v.
Proof.
  intros HC Hv. pose proof (cart_expand a b c v HC Hv) as X. destruct HC as (a' & b' & c' & E & Ha & Hb & Hc & _). injection E as <- <- <-.
  pose proof (X 0%nat ltac:(lia)) as X0. pose proof (X 1%nat ltac:(lia)) as X1. pose proof (X 2%nat ltac:(lia)) as X2. clear X.
  set (sa := sprod a v) in *. set (sb := sprod b v) in *. set (sc := sprod c v) in *.
  assert (Ea : sa = sprod a v) by reflexivity. assert (Eb : sb = sprod b v) by reflexivity. assert (Ec : sc = sprod c v) by reflexivity. clearbody sa sb sc.
  destruct (dim3 _ Ha) as (a0 & a1 & a2 & ->), (dim3 _ Hb) as (b0 & b1 & b2 & ->), (dim3 _ Hc) as (c0 & c1 & c2 & ->), (dim3 _ Hv) as (v0 & v1 & v2 & ->).
  unfold sprod, at_ in *. cbn [combine map fold_right fst snd nth] in *.
  transitivity (v0 * (sa * a0 + sb * b0 + sc * c0) + v1 * (sa * a1 + sb * b1 + sc * c1) + v2 * (sa * a2 + sb * b2 + sc * c2)); [rewrite <- X0, <- X1, <- X2; ring|].
  transitivity (sa * (a0 * v0 + (a1 * v1 + (a2 * v2 + 0))) + sb * (b0 * v0 + (b1 * v1 + (b2 * v2 + 0))) + sc * (c0 * v0 + (c1 * v1 + (c2 * v2 + 0)))); [ring|]. rewrite <- Ea, <- Eb, <- Ec. ring.
Qed.
Lemma part_sprod e c p : dim 3 e -> dim 3 c -> dim 3 p -> part e c p = sprod e (sub p c).
Proof.
  intros He Hc Hp. destruct (dim3 _ He) as (e0 & e1 & e2 & ->), (dim3 _ Hc) as (c0 & c1 & c2 & ->), (dim3 _ Hp) as (p0 & p1 & p2 & ->).
  unfold part, sprod, sub, px, py, pz, at_. cbn [combine map fold_right fst snd nth]. ring.
Qed.
Lemma sub_dim p c : dim 3 p -> dim 3 c -> dim 3 (sub p c).
Proof. intros Hp Hc. now apply vsub_dim3. Qed.
Lemma sub_at p c k : dim 3 p -> dim 3 c -> (k < 3)%nat -> at_ k (sub p c) = at_ k p - at_ k c.
Proof.
  intros Hp Hc Hk. destruct (dim3 _ Hc) as (c0 & c1 & c2 & ->), (dim3 _ Hp) as (p0 & p1 & p2 & ->). unfold at_, sub. cbn [combine map fst snd]. destruct k as [|[|[|]]]; [| | |lia]; reflexivity.
Qed.
Lemma local_coordinates_in fr c p : cartesian fr -> dim 3 c -> dim 3 p -> coordinates_in fr c p (local_at fr c p).
Proof.
  intros HF Hc Hp. pose proof HF as (a & b & n & -> & Ha & Hb & Hn & _). split; [reflexivity|]. intros k Hk. cbn [nth]. pose proof (cart_expand a b n (sub p c) HF (sub_dim _ _ Hp Hc) k Hk) as X.
  rewrite sub_at in X by assumption. unfold local_at. cbn [map]. unfold at_ at 3 5 7. cbn [nth]. rewrite !part_sprod by assumption. lra.
Qed.
Lemma local_distance fr c p q : cartesian fr -> dim 3 c -> dim 3 p -> dim 3 q -> dist p q = dist (local_at fr c p) (local_at fr c q).
Proof.
  intros HF Hc Hp Hq. pose proof HF as (a & b & n & -> & Ha & Hb & Hn & _). unfold dist. f_equal. pose proof (parseval a b n (sub p q) HF (sub_dim _ _ Hp Hq)) as P.
  unfold local_at. cbn [map]. rewrite !part_sprod by assumption.
  destruct (dim3 _ Ha) as (a0 & a1 & a2 & ->), (dim3 _ Hb) as (b0 & b1 & b2 & ->), (dim3 _ Hn) as (n0 & n1 & n2 & ->), (dim3 _ Hc) as (c0 & c1 & c2 & ->), (dim3 _ Hp) as (p0 & p1 & p2 & ->), (dim3 _ Hq) as (q0 & q1 & q2 & ->).
  unfold dist2, sprod, sub in *. cbn [combine map fold_right fst snd] in *. ring_simplify. ring_simplify in P. lra.
Qed.
Lemma rsum_part e c ec : rsum (map (part e c) ec) = px e * (rsum (map px ec) - INR (length ec) * px c) + py e * (rsum (map py ec) - INR (length ec) * py c) + pz e * (rsum (map pz ec) - INR (length ec) * pz c).
Proof.
  induction ec as [|p ec IH]; [unfold rsum; cbn; ring|]. change (length (p :: ec)) with (S (length ec)). rewrite S_INR. unfold rsum in *. cbn [map fold_right]. rewrite IH. unfold part. ring.
Qed.
Lemma local_mean fr ec : solid_axes fr -> ec <> [] -> mean_row 3 (map (local_at fr (means 3 ec)) ec) [0; 0; 0].
Proof.
  intros [HL HR] HN. split; [reflexivity|]. intros a Ha. rewrite map_map.
  assert (E : at_ a [0; 0; 0] = 0) by (destruct a as [|[|[|]]]; [reflexivity|reflexivity|reflexivity|lia]). rewrite E, Rmult_0_l.
  destruct (nth_error_lt fr a) as (e & He); [lia|].
  rewrite (map_ext _ (part e (means 3 ec))). 2:{ intros p. unfold at_, local_at. apply nth_error_nth. now rewrite nth_error_map, He. }
  destruct (means_mean 3 ec HN) as [_ M]. rewrite rsum_part. pose proof (M 0%nat ltac:(lia)) as M0. pose proof (M 1%nat ltac:(lia)) as M1. pose proof (M 2%nat ltac:(lia)) as M2.
  fold px in M0. fold py in M1. fold pz in M2. change (map (at_ 0) ec) with (map px ec) in M0. change (map (at_ 1) ec) with (map py ec) in M1. change (map (at_ 2) ec) with (map pz ec) in M2. rewrite <- M0, <- M1, <- M2. unfold px, py, pz. ring.
Qed.
Lemma means_dim ec : dim 3 (means 3 ec).
Proof. unfold dim, means. now rewrite map_length, seq_length. Qed.
Lemma cells_of coords topo ecs i ec : mesh_at coords topo ecs -> rect 3 coords -> Forall (fun ns => ns <> []) topo -> nth_error ecs i = Some ec -> rect 3 ec /\ ec <> [].
Proof.
  intros HM HC HT Hi. destruct (Forall2_nth_error_r _ _ _ _ _ HM Hi) as (ns & Hns & HD). split.
  - apply Forall_forall. intros p Hp. apply In_nth_error in Hp. destruct Hp as (j & Hj). destruct (Forall2_nth_error_r _ _ _ _ _ HD Hj) as (n & _ & Hnp). unfold rect in HC. rewrite Forall_forall in HC. apply HC. now apply nth_error_In with n.
  - intros ->. inversion HD; subst. rewrite Forall_forall in HT. now apply (HT [] (nth_error_In _ _ Hns)).
Qed.
Lemma combine_nth_error {A B} (l : list A) (m : list B) i a b : nth_error l i = Some a -> nth_error m i = Some b -> nth_error (combine l m) i = Some (a, b).
Proof. revert m i. induction l as [|x l IH]; intros [|y m] [|i] H1 H2; try discriminate; cbn in *; [congruence|]. now apply IH. Qed.

(** the local coordinates of cells with a frame each *)
Lemma local_correct : forall coords topo ecs frames, mesh_at coords topo ecs -> rect 3 coords -> Forall (fun ns => ns <> []) topo -> Forall cartesian frames -> length frames = length topo ->
  exists r, block_coordinates coords topo (PerCell frames) = Ok r /\ length r = length topo /\
    forall i ec fr rows, nth_error ecs i = Some ec -> nth_error frames i = Some fr -> nth_error r i = Some rows ->
      (exists c, mean_row 3 ec c /\ Forall2 (coordinates_in fr c) ec rows) /\ mean_row 3 rows [0; 0; 0] /\ same_distances ec rows.
Proof.
  intros coords topo ecs frames HM HC HT HF HL. assert (HS : Forall solid_axes frames) by (eapply Forall_impl; [|exact HF]; apply cartesian_axes).
  eexists. split; [apply (local_of coords topo ecs frames); assumption|]. split; [rewrite map_length, combine_length, (mesh_length _ _ _ HM); lia|].
  intros i ec fr rows Hec Hfr Hr. rewrite nth_error_map, (combine_nth_error _ _ _ _ _ Hfr Hec) in Hr. cbn [option_map fst snd] in Hr. injection Hr as <-.
  destruct (cells_of _ _ _ _ _ HM HC HT Hec) as [HR HN]. assert (Hf : cartesian fr) by (rewrite Forall_forall in HF; apply HF; now apply nth_error_In with i). pose proof (means_dim ec) as Hc.
  split; [exists (means 3 ec); split; [now apply means_mean|]|split; [apply local_mean; [now apply cartesian_axes|assumption]|]].
  - clear - HR Hf Hc. generalize dependent (means 3 ec). intros c Hc. induction HR as [|p ec Hp HR IH]; constructor; [|exact IH]. now apply local_coordinates_in.
  - split; [now rewrite map_length|]. intros j k p p' q q' H1 H2 H3 H4. rewrite nth_error_map, H1 in H3. rewrite nth_error_map, H2 in H4. injection H3 as <-. injection H4 as <-.
    unfold rect in HR. rewrite Forall_forall in HR. apply local_distance; [assumption|assumption|apply HR; now apply nth_error_In with j|apply HR; now apply nth_error_In with k].
Qed.
(** planar cells with the third axis of the frame as normal: two coordinates are enough *)
Lemma plane_part n h c p ec : dim 3 n -> rect 3 ec -> in_plane n h ec -> mean_row 3 ec c -> ec <> [] -> In p ec -> part n c p = 0.
Proof.
  intros Hn HR HP [Hc M] HN Hp. assert (E : forall l, rect 3 l -> in_plane n h l -> rsum (map (fun q => sprod n q) l) = INR (length l) * h).
  { intros l HRl HPl. induction HRl as [|q l Hq HRl IH]; [cbn; ring|]. unfold rsum in *. cbn [map fold_right length]. rewrite S_INR, IH, (HPl q) by (cbn; auto || (intros x Hx; apply HPl; now right)). ring. }
  specialize (E ec HR HP). assert (E' : rsum (map (fun q => sprod n q) ec) = px n * rsum (map px ec) + py n * rsum (map py ec) + pz n * rsum (map pz ec)).
  { clear - Hn HR. destruct (dim3 _ Hn) as (n0 & n1 & n2 & ->). induction HR as [|q l Hq HR IH]; [unfold rsum; cbn; ring|]. unfold rsum in *. cbn [map fold_right]. rewrite IH. destruct (dim3 _ Hq) as (q0 & q1 & q2 & ->). unfold sprod, px, py, pz, at_. cbn [combine map fold_right fst snd nth]. ring. }
  pose proof (M 0%nat ltac:(lia)) as M0. pose proof (M 1%nat ltac:(lia)) as M1. pose proof (M 2%nat ltac:(lia)) as M2.
  change (map (at_ 0) ec) with (map px ec) in M0. change (map (at_ 1) ec) with (map py ec) in M1. change (map (at_ 2) ec) with (map pz ec) in M2. rewrite <- M0, <- M1, <- M2 in E'. rewrite E in E'.
  assert (Hlen : INR (length ec) <> 0) by (apply not_0_INR; destruct ec; [easy|discriminate]).
  assert (Eh : h = px n * px c + py n * py c + pz n * pz c).
  { apply (Rmult_eq_reg_l (INR (length ec))); [|assumption]. rewrite E'. unfold px, py, pz. ring. }
  pose proof (HP p Hp) as Ep. unfold rect in HR. rewrite Forall_forall in HR. destruct (dim3 _ Hn) as (n0 & n1 & n2 & ->), (dim3 _ (HR p Hp)) as (p0 & p1 & p2 & ->).
  unfold part. unfold sprod in Ep. cbn [combine map fold_right fst snd] in Ep. unfold px, py, pz, at_ in *. cbn [nth] in *. lra.
Qed.
Lemma local_correct_2d : forall coords topo ecs frames, mesh_at coords topo ecs -> rect 3 coords -> Forall (fun ns => ns <> []) topo -> Forall cartesian frames -> length frames = length topo ->
  (forall i ec fr, nth_error ecs i = Some ec -> nth_error frames i = Some fr -> exists h, in_plane (nth 2 fr []) h ec) ->
  exists r, block_coordinates_2d coords topo (PerCell frames) = Ok r /\ length r = length topo /\
    forall i ec a b n rows, nth_error ecs i = Some ec -> nth_error frames i = Some [a; b; n] -> nth_error r i = Some rows ->
      (exists c, mean_row 3 ec c /\ Forall2 (fun p l => dim 2 l /\ in_plane_at c a b (at_ 0 l) (at_ 1 l) p) ec rows) /\ mean_row 2 rows [0; 0] /\ same_distances ec rows.
Proof.
  intros coords topo ecs frames HM HC HT HF HL HP. assert (HS : Forall solid_axes frames) by (eapply Forall_impl; [|exact HF]; apply cartesian_axes).
  unfold block_coordinates_2d. rewrite (local_of coords topo ecs frames) by assumption. cbn [bind]. eexists. split; [reflexivity|]. split; [rewrite !map_length, combine_length, (mesh_length _ _ _ HM); lia|].
  intros i ec a b n rows Hec Hfr Hr. rewrite !nth_error_map, (combine_nth_error _ _ _ _ _ Hfr Hec) in Hr. cbn [option_map fst snd] in Hr. injection Hr as <-.
  destruct (cells_of _ _ _ _ _ HM HC HT Hec) as [HR HN]. assert (Hf : cartesian [a; b; n]) by (rewrite Forall_forall in HF; apply HF; now apply nth_error_In with i). pose proof (means_dim ec) as Hc. pose proof (means_mean 3 ec HN) as Hm.
  destruct (HP i ec _ Hec Hfr) as (h & Hh). cbn [nth] in Hh. assert (Hn : dim 3 n) by (destruct Hf as (? & ? & ? & E & ? & ? & ? & _); injection E as -> -> ->; assumption).
  assert (Z : forall p, In p ec -> part n (means 3 ec) p = 0) by (intros p Hp; eapply plane_part; eauto).
  pose proof (local_mean [a; b; n] ec (cartesian_axes _ Hf) HN) as [_ LM]. rewrite map_map. split; [exists (means 3 ec); split; [assumption|]|split].
  - clear LM Hm HN Hec Hh. generalize dependent (means 3 ec). intros c Hc Z. induction HR as [|p ec Hp HR IH]; constructor; [|apply IH; intros q Hq; apply Z; now right]. split; [reflexivity|]. intros k Hk.
    destruct (local_coordinates_in _ c p Hf Hc Hp) as [_ X]. rewrite (X k Hk). unfold local_at. cbn [map firstn nth]. unfold at_ at 3 5 7 9 11. cbn [nth]. rewrite (Z p) by (now left). unfold at_. cbn [nth]. ring.
  - split; [reflexivity|]. intros k Hk. specialize (LM k ltac:(lia)). rewrite map_map, map_length in LM |- *. replace (at_ k [0; 0]) with (at_ k [0; 0; 0]) by (destruct k as [|[|]]; [reflexivity|reflexivity|lia]). rewrite LM. f_equal. apply map_ext. intros p. unfold local_at. cbn [map firstn]. destruct k as [|[|]]; [reflexivity|reflexivity|lia].
  - split; [now rewrite map_length|]. intros j k p p' q q' H1 H2 H3 H4. rewrite nth_error_map, H1 in H3. rewrite nth_error_map, H2 in H4. injection H3 as <-. injection H4 as <-.
    unfold rect in HR. rewrite Forall_forall in HR. rewrite (local_distance [a; b; n] (means 3 ec)) by (try assumption; apply HR; eapply nth_error_In; eassumption).
    unfold dist. f_equal. unfold local_at. cbn [map firstn]. rewrite (Z p), (Z p') by (eapply nth_error_In; eassumption). unfold dist2. cbn [combine map fold_right fst snd]. ring.
Qed.
(** one frame for all cells: all coordinates of a position are the same number *)
Lemma local_single : forall coords topo fr r, block_coordinates coords topo (Single fr) = Ok r ->
  forall rows l, In rows r -> In l rows -> exists x, l = repeat x (length l).
Proof.
  intros coords topo fr r E rows l Hr Hl. unfold block_coordinates in E. apply bind_Ok in E. destruct E as (ec & _ & E). apply bind_Ok in E. destruct E as (ec' & _ & E).
  apply In_nth_error in Hr. destruct Hr as (i & Hi). destruct (mapM_nth_error_r _ _ _ _ _ E Hi) as (ie & _ & E2). apply In_nth_error in Hl. destruct Hl as (j & Hj). destruct (mapM_nth_error_r _ _ _ _ _ E2 Hj) as (p & _ & E3).
  unfold to_local in E3. apply bind_Ok in E3. destruct E3 as (row & _ & E3). apply bind_Ok in E3. destruct E3 as (x & _ & E3). injection E3 as <-. exists x. now rewrite repeat_length.
Qed.
Lemma local_single_wrong : exists coords topo ecs r rows, mesh_at coords topo ecs /\ rect 3 coords /\ cartesian [[1; 0; 0]; [0; 1; 0]; [0; 0; 1]] /\
  block_coordinates coords topo (Single [[1; 0; 0]; [0; 1; 0]; [0; 0; 1]]) = Ok r /\ nth_error r 0 = Some rows /\
  exists ec c, nth_error ecs 0 = Some ec /\ mean_row 3 ec c /\ ~ Forall2 (coordinates_in [[1; 0; 0]; [0; 1; 0]; [0; 0; 1]] c) ec rows.
Proof.
  exists [[0; 0; 0]; [2; 0; 0]], [[0; 1]]%nat, [[[0; 0; 0]; [2; 0; 0]]]. assert (V : vmean (K := R) [[0; 0; 0]; [2; 0; 0]] = Ok (means 3 [[0; 0; 0]; [2; 0; 0]])) by (apply vmean_means; [discriminate|repeat constructor]).
  do 2 eexists. split; [repeat constructor|]. split; [repeat constructor|]. split; [do 3 eexists; split; [reflexivity|]; unfold dim, sprod; cbn [length combine map fold_right fst snd]; repeat split; lra|].
  split.
  - unfold block_coordinates, cells_coords, centralize_cells_coords. cbn [mapM get nth_error bind]. rewrite V. unfold means. cbn [map seq bind mapM vsub map2 enum enum_from fst snd to_local get nth_error]. unfold vsub. cbn [map2 bind]. unfold vdot. cbn [map2 bind length repeat]. reflexivity.
  - split; [reflexivity|]. do 2 eexists. split; [reflexivity|]. split; [apply (means_mean 3); discriminate|]. intros HF. inversion HF as [|? ? ? ? [_ H] _]; subst. specialize (H 1%nat ltac:(lia)).
    unfold means, at_, rsum, ksum in H. cbn [map seq nth length fold_right fold_left at_] in H. unfold at_ in H. cbn [nth] in H. cbn [INR kofZ kadd ksub kmul NumR] in H. lra.
Qed.
