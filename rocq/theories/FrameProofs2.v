(** * Centres, copies of frames, indices of point clouds (lemmas) *)
From Coq Require Import Reals Lra Lia ZArith List Permutation Sorted.
From Verif Require Import TrSpec BaseFacts NodalProofs6 ExtrudeProofs3 GridProofs5 ShapeProofs3 NumBase.
From Verif Require Export FrameProofs.
Import ListNotations.
Local Open Scope R_scope.

(** ** Centres *)
Lemma mean_value l : l <> [] -> mean l = Ok (rsum l / INR (length l)).
Proof. intros H. unfold mean. destruct l as [|x l]; [congruence|]. do 2 f_equal. exact (ksum_rsum (x :: l)). Qed.
Lemma center_value c t : array c <> [] -> exists m, center c t = Ok m /\ centroid (show c t) m.
Proof.
  intros H. assert (Hs : show c t <> []) by (rewrite show_map; destruct (array c); [congruence|discriminate]).
  unfold center, xs_of, ys_of, zs_of. rewrite !mean_value by (destruct (show c t); [congruence|discriminate]). cbn [bind].
  eexists. split; [reflexivity|]. split; [assumption|]. rewrite !map_length. reflexivity.
Qed.
Lemma centroid_shift ps m v : centroid ps m -> centroid (map (fun p => vplus p v) ps) (vplus m v).
Proof.
  intros [Hn E]. split; [destruct ps; [congruence|discriminate]|]. subst m. rewrite map_length, !map_map.
  assert (Hi : INR (length ps) <> 0) by (apply not_0_INR; destruct ps; [congruence|discriminate]).
  assert (G : forall (f : vec -> R) w, rsum (map (fun p => f p + w) ps) / INR (length ps) = rsum (map f ps) / INR (length ps) + w).
  { intros f w. rewrite (rsum_plus f (fun _ => w)). rewrite (rsum_const (fun _ => w) ps w) by reflexivity. field. assumption. }
  destruct v as [[v0 v1] v2]. cbn [vplus]. rewrite <- !G. apply triple_eq; f_equal; f_equal; apply map_ext; intros [[? ?] ?]; reflexivity.
Qed.
Lemma show_move_target c w t : orthonormal (axes (cframe c)) -> orthonormal (axes t) ->
  show (move c (Array w) (Some t)) (Some t) = map (fun q => vplus q w) (show c (Some t)).
Proof.
  intros Hf Ht. rewrite !show_map, move_value. cbn [array cframe]. rewrite !map_map. apply map_ext. intros p.
  unfold shown. destruct (cframe c) as [a|a o]; rewrite !vshow_value; cbn [axes_opt direction_in axes] in *;
    rewrite direction_plus, mvec_plus, direction_mvec, mvec_direction by assumption; [reflexivity|].
  rewrite <- !vplus_assoc. f_equal. apply vplus_comm.
Qed.
Lemma show_move_ambient c w : axes (cframe c) = meye -> show (move c (Array w) None) None = map (fun q => vplus q w) (show c None).
Proof.
  intros E. rewrite !show_map, move_value. cbn [array cframe]. rewrite !map_map. apply map_ext. intros p. rewrite !shown_ambient, place_plus, E, direction_eye. reflexivity.
Qed.
Lemma choose_axes ctr : forall ax d, Forall (fun i => (i < 3)%nat) ax -> exists d', foldM (fun d i => do t <- comp ctr i; set_comp d i t) ax d = Ok d' /\
  forall i, (i < 3)%nat -> component i d' = if in_dec Nat.eq_dec i ax then component i ctr else component i d.
Proof.
  destruct ctr as [[cx cy] cz]. induction ax as [|k ax IH]; intros d H.
  - exists d. split; [reflexivity|]. intros i _. reflexivity.
  - inversion H as [|k' ax' Hk Hax]; subst. destruct d as [[dx dy] dz].
    assert (E : exists d1, (do t <- comp (cx, cy, cz) k; set_comp (dx, dy, dz) k t) = Ok d1 /\ component k d1 = component k (cx, cy, cz) /\
      forall i, (i < 3)%nat -> i <> k -> component i d1 = component i (dx, dy, dz)).
    { destruct k as [|[|[|k]]]; [..|lia]; cbn [comp bind set_comp]; eexists; split; try reflexivity; split; try reflexivity; intros [|[|[|i]]] Hi Hn; try lia; reflexivity. }
    destruct E as (d1 & E1 & E2 & E3). cbn [foldM]. rewrite E1. cbn [bind]. destruct (IH d1 Hax) as (d' & -> & Hd). exists d'. split; [reflexivity|].
    intros i Hi. rewrite (Hd i Hi). destruct (in_dec Nat.eq_dec i ax) as [Hin|Hin]; destruct (in_dec Nat.eq_dec i (k :: ax)) as [Hin2|Hin2].
    + reflexivity.
    + exfalso. apply Hin2. now right.
    + destruct Hin2 as [->|Hin2]; [assumption|contradiction].
    + apply E3; [assumption|]. intros ->. apply Hin2. now left.
Qed.
Lemma component_plus_neg i m d : component i (vplus m (vneg d)) = component i m - component i d.
Proof. comps. destruct i as [|[|i]]; cbn; ring. Qed.
Lemma component_zero i : component i vzero = 0. Proof. destruct i as [|[|i]]; reflexivity. Qed.
Definition chosen (ax : option (list nat)) : list nat := match ax with None => seq 0 3 | Some l => l end.
Lemma centralize_gen c t ax (P : forall w, show (move c (Array w) t) t = map (fun q => vplus q w) (show c t)) :
  array c <> [] -> Forall (fun i => (i < 3)%nat) (chosen ax) ->
  exists c' m m', centralize c t ax = Ok c' /\ centroid (show c t) m /\ centroid (show c' t) m' /\
    (exists w, c' = move c (Array w) t) /\
    forall i, (i < 3)%nat -> component i m' = if in_dec Nat.eq_dec i (chosen ax) then 0 else component i m.
Proof.
  intros Hn Ha. destruct (center_value c t Hn) as (m & E & Hm). unfold centralize. rewrite E. cbn [bind]. fold (chosen ax).
  destruct (choose_axes m (chosen ax) vzero Ha) as (d & -> & Hd). cbn [bind]. eexists _, m, (vplus m (vneg d)). split; [reflexivity|]. split; [assumption|].
  split; [rewrite P; now apply centroid_shift|]. split; [eauto|]. intros i Hi. rewrite component_plus_neg, (Hd i Hi). destruct (in_dec Nat.eq_dec i (chosen ax)).
  - ring.
  - rewrite component_zero. ring.
Qed.
(** centralization with a target frame *)
Lemma centralize_target c t ax : orthonormal (axes (cframe c)) -> orthonormal (axes t) -> (exists a o, cframe c = Cartesian a o) ->
  array c <> [] -> (forall l, ax = Some l -> Forall (fun i => (i < 3)%nat) l) ->
  exists c' v, centralize c (Some t) ax = Ok c' /\ cframe c' = cframe c /\ inds c' = inds c /\ moved_places v (cframe c) (array c) (cframe c) (array c') /\
    forall qs qs' m m', seen_from (cframe c) (array c) t qs -> centroid qs m -> seen_from (cframe c) (array c') t qs' -> centroid qs' m' ->
      forall i, (i < 3)%nat -> component i m' = if in_dec Nat.eq_dec i (match ax with None => [0; 1; 2]%nat | Some l => l end) then 0 else component i m.
Proof.
  intros Hf Ht Hc Hn Ha.
  assert (Ha' : Forall (fun i => (i < 3)%nat) (chosen ax)) by (destruct ax as [l|]; [now apply Ha|repeat constructor]).
  destruct (centralize_gen c (Some t) ax (fun w => show_move_target c w t Hf Ht) Hn Ha') as (c' & m & m' & E & Hm & Hm' & (w & Ew) & Hi).
  exists c', (direction (axes t) w). split; [assumption|]. subst c'. split; [reflexivity|]. split; [reflexivity|]. split; [now apply move_places|].
  intros qs qs' n n' Hq Hn1 Hq' Hn2 i Hlt. apply show_unique in Hq; [|assumption..]. subst qs.
  apply (show_unique (move c (Array w) (Some t))) in Hq'; [|assumption..]. subst qs'.
  assert (n = m) by (destruct Hn1 as [_ ->], Hm as [_ ->]; reflexivity). assert (n' = m') by (destruct Hn2 as [_ ->], Hm' as [_ ->]; reflexivity). subst n n'.
  specialize (Hi i Hlt). destruct ax; exact Hi.
Qed.
(** without a target: only if the axes of the points are the standard ones *)
Lemma centralize_root c ax : axes (cframe c) = ((1, 0, 0), (0, 1, 0), (0, 0, 1)) -> array c <> [] -> (forall l, ax = Some l -> Forall (fun i => (i < 3)%nat) l) ->
  exists c', centralize c None ax = Ok c' /\ cframe c' = cframe c /\ inds c' = inds c /\
    forall qs qs' m m', seen_from (cframe c) (array c) standard qs -> centroid qs m -> seen_from (cframe c) (array c') standard qs' -> centroid qs' m' ->
      forall i, (i < 3)%nat -> component i m' = if in_dec Nat.eq_dec i (match ax with None => [0; 1; 2]%nat | Some l => l end) then 0 else component i m.
Proof.
  intros Hf Hn Ha.
  assert (Ha' : Forall (fun i => (i < 3)%nat) (chosen ax)) by (destruct ax as [l|]; [now apply Ha|repeat constructor]).
  destruct (centralize_gen c None ax (fun w => show_move_ambient c w Hf) Hn Ha') as (c' & m & m' & E & Hm & Hm' & (w & Ew) & Hi).
  exists c'. split; [assumption|]. subst c'. split; [reflexivity|]. split; [reflexivity|].
  assert (U : forall d qs, seen_from (cframe d) (array d) standard qs -> qs = show d None).
  { intros d qs Hq. apply same_places_iff in Hq. pose proof (show_ambient d) as Hs. apply same_places_iff in Hs. rewrite Hs in Hq. revert qs Hq. generalize (show d None).
    intros l. induction l as [|p l IH]; intros [|q qs] E'; cbn [map] in E'; try discriminate; [reflexivity|]. injection E' as E1 E2. f_equal; [|now apply IH].
    symmetry. apply (place_inj standard); [apply orthonormal_eye|assumption]. }
  intros qs qs' n n' Hq Hn1 Hq' Hn2 i Hlt. apply U in Hq. subst qs. apply (U (move c (Array w) None)) in Hq'. subst qs'.
  assert (n = m) by (destruct Hn1 as [_ ->], Hm as [_ ->]; reflexivity). assert (n' = m') by (destruct Hn2 as [_ ->], Hm' as [_ ->]; reflexivity). subst n n'.
  specialize (Hi i Hlt). destruct ax; exact Hi.
Qed.
Lemma centralize_root_wrong : exists c c' qs, orthonormal (axes (cframe c)) /\ centralize c None None = Ok c' /\
  seen_from (cframe c) (array c') standard qs /\ centroid qs (1, 1, 0).
Proof.
  exists (Cloud [(1, 0, 0)] turned None). eexists. exists [(1, 1, 0)]. split; [apply orthonormal_turned|]. split; [|split].
  - unfold centralize, center, xs_of, ys_of, zs_of. rewrite show_map. cbn [array cframe map]. rewrite shown_ambient. unfold place, turned. cbn [origin_of axes direction vplus fst snd mean bind fold_left length INR seq foldM comp set_comp vzero vneg]. rewrite move_value. cbn [array cframe inds map vplus]. reflexivity.
  - apply same_places_iff. cbn. f_equal. apply triple_eq; lra.
  - split; [discriminate|]. cbn. apply triple_eq; lra.
Qed.

(** ** Copies of frames *)
Lemma deep_copy m f m' f' d g m'' : copy_frame true m f = Ok (m', f') -> move_frame m' f' d g = Ok m'' ->
  exists a o o', frame_at m f = Ok (Cartesian a o) /\ frame_at m' f' = Ok (Cartesian a o) /\ frame_at m'' f = Ok (Cartesian a o) /\
    frame_at m'' f' = Ok (Cartesian a o') /\ displaced (match d with Array w => direction_in g w | Vect w h => direction_in h w end) o o'.
Proof.
  destruct f as [a i]. unfold copy_frame. cbn [ref_origo ref_axes]. destruct (get m i) as [o|] eqn:E; cbn [bind]; [|discriminate].
  intros Ec. injection Ec as <- <-. apply get_Ok in E. assert (Hi : (i < length m)%nat) by (apply nth_error_Some; congruence).
  unfold move_frame, frame_at. cbn [ref_origo ref_axes].
  assert (E2 : get (m ++ [o]) (length m) = Ok o) by (apply get_Ok; rewrite nth_error_app2, Nat.sub_diag by lia; reflexivity).
  rewrite E2. cbn [bind]. destruct (frame_move_places a o d g) as (o' & -> & Hd). intros Es.
  assert (H1 : get m'' i = Ok o).
  { apply get_Ok. rewrite (set_nth_error _ _ _ _ i Es). destruct (Nat.eqb_spec i (length m)); [lia|]. now rewrite nth_error_app1. }
  assert (H2 : get m'' (length m) = Ok o').
  { apply get_Ok. rewrite (set_nth_error _ _ _ _ (length m) Es), Nat.eqb_refl. reflexivity. }
  exists a, o, o'. rewrite H1, H2. apply get_Ok in E. rewrite E. cbn [bind]. repeat split. assumption.
Qed.
Lemma shallow_copy_wrong : exists m f m' f' m'' a, copy_frame false m f = Ok (m', f') /\ frame_at m f = Ok (Cartesian a (0, 0, 0)) /\
  move_frame m' f' (Array (1, 0, 0)) None = Ok m'' /\ frame_at m'' f = Ok (Cartesian a (1, 0, 0)).
Proof.
  exists [(0, 0, 0)], (FrameRef meye 0), [(0, 0, 0)], (FrameRef meye 0), [(1, 0, 0)], meye. repeat split.
  cbn. do 2 f_equal. apply triple_eq; ring.
Qed.

(** ** Indices *)
Local Close Scope R_scope.
Lemma np_get_entry {A} (l : list A) i x : np_get l i = Ok x <-> entry_of l i x.
Proof.
  unfold np_get, entry_of. destruct (Z.leb_spec 0 i) as [H|H].
  - rewrite get_Ok. split.
    + intros E. exists (Z.to_nat i). split; [assumption|]. left. now rewrite Z2Nat.id.
    + intros (k & E & [->| Hk]); [now rewrite Nat2Z.id|]. assert (k < length l)%nat by (apply nth_error_Some; congruence). lia.
  - destruct (Z.leb_spec (- Z.of_nat (length l)) i) as [H'|H'].
    + rewrite get_Ok. split.
      * intros E. exists (Z.to_nat (Z.of_nat (length l) + i)). split; [assumption|]. right. lia.
      * intros (k & E & [-> | ->]); [lia|]. rewrite <- E. f_equal. lia.
    + split; [discriminate|]. intros (k & E & [-> | ->]); assert (k < length l)%nat by (apply nth_error_Some; congruence); lia.
Qed.
Lemma np_get_total {A} (l : list A) i : (- Z.of_nat (length l) <= i < Z.of_nat (length l))%Z -> exists x, np_get l i = Ok x.
Proof.
  intros H. unfold np_get. destruct (Z.leb_spec 0 i); [apply get_lt; lia|]. destruct (Z.leb_spec (- Z.of_nat (length l)) i); [|lia]. apply get_lt. lia.
Qed.
Lemma np_get_pair {A B} (l : list A) (r : list B) i x y (P : A -> B -> Prop) : Forall2 P l r -> np_get l i = Ok x -> np_get r i = Ok y -> P x y.
Proof.
  intros HF. assert (HL : length l = length r) by (induction HF; cbn; congruence).
  unfold np_get. rewrite HL. destruct (Z.leb 0 i); [|destruct (Z.leb _ i); [|discriminate]]; rewrite !get_Ok; intros H1 H2;
    destruct (Forall2_nth_error _ _ _ _ _ HF H1) as (y' & E & Hp); congruence.
Qed.
Lemma Forall2_through {A B C} (f : A -> res B) (g : A -> res C) l bs cs (P : B -> C -> Prop) : (forall a b c, f a = Ok b -> g a = Ok c -> P b c) ->
  mapM f l = Ok bs -> mapM g l = Ok cs -> Forall2 P bs cs.
Proof.
  intros H. rewrite !mapM_Ok. intros H1. revert cs. induction H1 as [|a b l bs Hab _ IH]; intros cs H2; inversion H2; subst; constructor; eauto.
Qed.
Lemma mapM_entries {A} (l : list A) is xs : mapM (np_get l) is = Ok xs -> Forall2 (entry_of l) is xs.
Proof. rewrite mapM_Ok. induction 1 as [|i x is xs H _ IH]; constructor; [now apply np_get_entry|assumption]. Qed.
(** the slices considered: both ranges agree *)
Lemma slice_same n a b s : plain_key n (KSlice a b s) ->
  let '(a', b', s') := slice_bounds (Z.of_nat n) a b s in
  zrange3 a' b' s' = zrange3 (match a with Some x => x | None => 0 end) (match b with Some x => x | None => Z.of_nat n end) (match s with Some x => x | None => 1 end)%Z.
Proof.
  intros (Ha & Hb & Hs). unfold slice_bounds.
  set (s' := match s with Some x => x | None => 1%Z end). assert (Hs' : (0 < s')%Z) by (subst s'; destruct s; lia). clearbody s'. clear Hs s.
  set (b' := match b with Some x => x | None => Z.of_nat n end).
  assert (Hb' : (0 <= b' <= Z.of_nat n)%Z) by (subst b'; destruct b; lia).
  destruct (Z.ltb_spec s' 0); [lia|].
  assert (Eb : match b with Some x => clip 0 (Z.of_nat n) (if Z.ltb x 0 then (x + Z.of_nat n)%Z else x) | None => Z.of_nat n end = b').
  { subst b'. destruct b as [x|]; [|reflexivity]. unfold clip. destruct (Z.ltb_spec x 0); lia. }
  rewrite Eb. clear Eb. clearbody b'. clear Hb b.
  set (x := match a with Some x => x | None => 0%Z end). assert (Hx : (0 <= x)%Z) by (subst x; destruct a; lia).
  assert (Ea : match a with Some x => clip 0 (Z.of_nat n) (if Z.ltb x 0 then (x + Z.of_nat n)%Z else x) | None => 0%Z end = Z.min (Z.of_nat n) x).
  { subst x. destruct a as [x|]; [|lia]. unfold clip. destruct (Z.ltb_spec x 0); lia. }
  rewrite Ea. clearbody x. clear Ea Ha a. destruct (Z.le_gt_cases x (Z.of_nat n)) as [Hle|Hgt]; [now rewrite Z.min_r|].
  rewrite Z.min_l by lia. unfold zrange3. destruct (Z.eqb_spec s' 0); [lia|]. destruct (Z.ltb_spec 0 s'); [|lia].
  assert (E1 : (Z.to_nat ((b' - Z.of_nat n + s' - 1) / s') = 0)%nat).
  { assert ((b' - Z.of_nat n + s' - 1) / s' <= 0)%Z; [|lia]. apply Z.lt_succ_r. apply Z.div_lt_upper_bound; lia. }
  assert (E2 : (Z.to_nat ((b' - x + s' - 1) / s') = 0)%nat).
  { assert ((b' - x + s' - 1) / s' <= 0)%Z; [|lia]. apply Z.lt_succ_r. apply Z.div_lt_upper_bound; lia. }
  rewrite E1, E2. reflexivity.
Qed.
(** entries of a range with a positive step *)
Lemma zrange3_nth a b s r : (0 < s)%Z -> zrange3 a b s = Ok r -> forall k z, nth_error r k = Some z <-> z = (a + s * Z.of_nat k)%Z /\ (z < b)%Z.
Proof.
  intros Hs E k z. unfold zrange3 in E. destruct (Z.eqb_spec s 0); [lia|]. destruct (Z.ltb_spec 0 s); [|lia]. injection E as <-.
  set (m := ((b - a + s - 1) / s)%Z).
  assert (Hm : forall j, (0 <= j)%Z -> (j < m <-> a + s * j < b)%Z).
  { intros j Hj. subst m. pose proof (Z.div_mod (b - a + s - 1) s ltac:(lia)) as D. pose proof (Z.mod_pos_bound (b - a + s - 1) s Hs) as B.
    set (q := ((b - a + s - 1) / s)%Z) in *. set (t := ((b - a + s - 1) mod s)%Z) in *. split; intros Hlt.
    - assert (s * (j + 1) <= s * q)%Z by (apply Z.mul_le_mono_nonneg_l; lia). lia.
    - destruct (Z.lt_ge_cases j q) as [|Hge]; [assumption|]. assert (s * q <= s * j)%Z by (apply Z.mul_le_mono_nonneg_l; lia). lia. }
  split.
  - intros Hn. rewrite nth_error_map in Hn. destruct (nth_error (seq 0 (Z.to_nat m)) k) as [j|] eqn:Ej; [|discriminate]. cbn in Hn. injection Hn as <-.
    assert (Hk : (k < Z.to_nat m)%nat) by (rewrite <- (seq_length (Z.to_nat m) 0); apply nth_error_Some; congruence).
    apply nth_error_nth with (d := 0%nat) in Ej. rewrite seq_nth in Ej by assumption. cbn in Ej. subst j. split; [reflexivity|]. apply Hm; lia.
  - intros [-> Hlt]. apply Hm in Hlt; [|lia]. rewrite nth_error_map. rewrite nth_error_seq by lia. cbn. reflexivity.
Qed.
Lemma getitem_refers top c k c' : refers_to top c -> plain_key (length (array c)) k -> getitem c k = Ok c' -> refers_to top c' /\ picks (array c) k (array c').
Proof.
  intros Hr Hk. unfold getitem.
  destruct (key_inds (length (array c)) k) as [i|e] eqn:Ei; cbn [bind]; [|discriminate].
  (* the list of indices: that of the key, and the array has the entries at these indices *)
  assert (G : exists l, i = inl l /\ np_getitem (array c) k = mapM (np_get (array c)) l /\
              forall a, mapM (np_get (array c)) l = Ok a -> picks (array c) k a).
  { destruct k as [a b s|l|m|j]; cbn [key_inds] in Ei; [| |destruct Hk|].
    - destruct (zrange3 _ _ _) as [r|] eqn:Ez in Ei; cbn [bind] in Ei; [|discriminate]. injection Ei as <-. exists r. split; [reflexivity|]. split.
      + unfold np_getitem. pose proof (slice_same _ _ _ _ Hk) as Hs. destruct (slice_bounds _ a b s) as [[a' b'] s']. rewrite Hs, Ez. reflexivity.
      + intros ps Hps. cbn [picks]. destruct Hk as (Ha & Hb & Hst).
        assert (Hst' : (0 < match s with Some x => x | None => 1 end)%Z) by (destruct s; lia).
        assert (Ha' : (0 <= match a with Some x => x | None => 0 end)%Z) by (destruct a; lia).
        intros n q. split.
        * intros Hn. destruct (mapM_nth_error_r _ _ _ _ _ Hps Hn) as (z & Hz & Hq). apply (zrange3_nth _ _ _ _ Hst' Ez) in Hz. destruct Hz as [Hz1 Hz2].
          assert (Hz3 : (0 <= z)%Z) by nia. unfold np_get in Hq. destruct (Z.leb_spec 0 z); [|lia]. apply get_Ok in Hq. exists (Z.to_nat z). rewrite Z2Nat.id by assumption. auto.
        * intros (j & Hj1 & Hj2 & Hj3). assert (Hz : nth_error r n = Some (Z.of_nat j)) by (apply (zrange3_nth _ _ _ _ Hst' Ez); split; assumption).
          destruct (mapM_nth_error _ _ _ _ _ Hps Hz) as (q' & Hq' & Hg). unfold np_get in Hg. destruct (Z.leb_spec 0 (Z.of_nat j)); [|lia]. rewrite Nat2Z.id in Hg.
          apply get_Ok in Hg. congruence.
    - injection Ei as <-. exists l. repeat split. intros ps Hps. cbn [picks]. now apply mapM_entries.
    - injection Ei as <-. exists [j]. repeat split.
      intros ps Hps. rewrite mapM_Ok in Hps. inversion Hps as [|? q ? r Hq Hr']; subst. inversion Hr'; subst. exists q. split; [reflexivity|]. now apply np_get_entry. }
  destruct G as (l & -> & -> & Hp).
  destruct (inds c) as [own|] eqn:Eo.
  - destruct (mapM (np_get own) l) as [il|] eqn:El; cbn [bind]; [|discriminate]. destruct (mapM (np_get (array c)) l) as [a|] eqn:Ea; cbn [bind]; [|discriminate].
    intros E. injection E as <-. split; [|now apply Hp]. unfold refers_to in *. rewrite Eo in Hr. cbn [inds array].
    eapply Forall2_through; [|exact Ea|exact El]. intros z p j H1 H2. exact (np_get_pair _ _ _ _ _ _ Hr H1 H2).
  - cbn [bind]. destruct (mapM (np_get (array c)) l) as [a|] eqn:Ea; cbn [bind]; [|discriminate]. intros E. injection E as <-. split; [|now apply Hp].
    unfold refers_to in *. rewrite Eo in Hr. cbn [inds array]. subst top. apply mapM_entries in Ea. revert Ea. clear. induction 1; constructor; assumption.
Qed.
Lemma refers_length top c own : refers_to top c -> inds c = Some own -> length (array c) = length own.
Proof. unfold refers_to. intros H E. rewrite E in H. clear E. induction H; cbn; congruence. Qed.
Lemma getitem_total top c k : refers_to top c -> plain_key (length (array c)) k -> key_within (length (array c)) k -> exists c', getitem c k = Ok c'.
Proof.
  intros Hr Hk Hw. unfold getitem.
  assert (G : exists l, key_inds (length (array c)) k = Ok (inl l) /\ np_getitem (array c) k = mapM (np_get (array c)) l /\
    Forall (fun i => (- Z.of_nat (length (array c)) <= i < Z.of_nat (length (array c)))%Z) l).
  { destruct k as [a b s|l|m|j]; cbn [key_inds]; [| |destruct Hk|].
    - pose proof (slice_same _ _ _ _ Hk) as Hs. destruct Hk as (Ha & Hb & Hst).
      assert (Hst' : (0 < match s with Some x => x | None => 1 end)%Z) by (destruct s; lia).
      destruct (zrange3 (match a with Some x => x | None => 0 end)%Z (match b with Some x => x | None => Z.of_nat (length (array c)) end)%Z (match s with Some x => x | None => 1 end)%Z) as [r|] eqn:Ez.
      2:{ unfold zrange3 in Ez. destruct (Z.eqb_spec (match s with Some x => x | None => 1 end)%Z 0); [lia|discriminate]. }
      exists r. split; [reflexivity|]. split; [unfold np_getitem; destruct (slice_bounds _ a b s) as [[a' b'] s']; now rewrite Hs|].
      apply Forall_forall. intros z Hz. apply In_nth_error in Hz. destruct Hz as [n Hn]. apply (zrange3_nth _ _ _ _ Hst' Ez) in Hn. destruct Hn as [-> Hlt].
      assert (Hbb : (match b with Some x => x | None => Z.of_nat (length (array c)) end <= Z.of_nat (length (array c)))%Z) by (destruct b; lia).
      assert (Haa : (0 <= match a with Some x => x | None => 0 end)%Z) by (destruct a; lia). nia.
    - exists l. repeat split. exact Hw.
    - exists [j]. repeat split. constructor; [exact Hw|constructor]. }
  destruct G as (l & -> & -> & Hl). cbn [bind].
  assert (T : forall {A} (r : list A), length r = length (array c) -> exists x, mapM (np_get r) l = Ok x).
  { intros A r Er. apply mapM_total. intros i Hi. rewrite Forall_forall in Hl. apply np_get_total. rewrite Er. now apply Hl. }
  destruct (inds c) as [own|] eqn:Eo.
  - destruct (T Z own) as [x ->]; [symmetry; eapply refers_length; eassumption|]. cbn [bind]. destruct (T _ (array c) eq_refl) as [y ->]. cbn [bind]. eauto.
  - cbn [bind]. destruct (T _ (array c) eq_refl) as [y ->]. cbn [bind]. eauto.
Qed.
