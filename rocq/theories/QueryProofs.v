(** * Proofs about [QueryModel.v]: bounds, the closest and the furthest points *)
From Coq Require Import Reals ZArith List Lia Lra.
From Verif Require Base TriSpec SpaceModel SpaceSpec SpaceProofs6 NodalProofs4.
From Verif Require Import BaseFacts FrameProofs MeshProofs MeshProofs4 MeshProofs5.
From Verif Require Import QuerySpec.
Import ListNotations.
Local Open Scope R_scope.

(** ** Bounds *)
Lemma fold_min l : forall a, (In (fold_left Rmin l a) (a :: l)) /\ Forall (fun x => fold_left Rmin l a <= x) (a :: l).
Proof.
  induction l as [|b l IH]; intros a; cbn [fold_left].
  - split; [now left|]. constructor; [lra|constructor].
  - destruct (IH (Rmin a b)) as [H1 H2]. inversion H2 as [|? ? H3 H4]; subst. split.
    + destruct H1 as [H1|H1]; [|right; now right]. rewrite <- H1. unfold Rmin. destruct (Rle_dec a b); [now left|right; now left].
    + pose proof (Rmin_l a b). pose proof (Rmin_r a b). constructor; [lra|]. constructor; [lra|assumption].
Qed.
Lemma fold_max l : forall a, (In (fold_left Rmax l a) (a :: l)) /\ Forall (fun x => x <= fold_left Rmax l a) (a :: l).
Proof.
  induction l as [|b l IH]; intros a; cbn [fold_left].
  - split; [now left|]. constructor; [lra|constructor].
  - destruct (IH (Rmax a b)) as [H1 H2]. inversion H2 as [|? ? H3 H4]; subst. split.
    + destruct H1 as [H1|H1]; [|right; now right]. rewrite <- H1. unfold Rmax. destruct (Rle_dec a b); [right; now left|now left].
    + pose proof (Rmax_l a b). pose proof (Rmax_r a b). constructor; [lra|]. constructor; [lra|assumption].
Qed.
Lemma minmax_map (f : vec -> R) qs : qs <> [] -> exists lo hi, minmax (map f qs) = Ok (lo, hi) /\
  Forall (fun q => lo <= f q <= hi) qs /\ Exists (fun q => f q = lo) qs /\ Exists (fun q => f q = hi) qs.
Proof.
  intros H. destruct qs as [|q qs]; [congruence|]. cbn [map minmax]. eexists. eexists. split; [reflexivity|].
  destruct (fold_min (map f qs) (f q)) as [H1 H2]. destruct (fold_max (map f qs) (f q)) as [H3 H4]. change (f q :: map f qs) with (map f (q :: qs)) in *.
  rewrite Forall_map in H2, H4. rewrite Forall_forall in H2, H4. rewrite in_map_iff in H1, H3. split; [|split].
  - apply Forall_forall. intros r Hr. split; auto.
  - apply Exists_exists. destruct H1 as (r & E & Hr). eauto.
  - apply Exists_exists. destruct H3 as (r & E & Hr). eauto.
Qed.
Lemma bounds_box qs : qs <> [] -> exists b, bounds_rows qs = Ok b /\ tight_box qs b.
Proof.
  intros H. unfold bounds_rows. destruct (minmax_map xof qs H) as (l0 & h0 & E0 & B0). destruct (minmax_map yof qs H) as (l1 & h1 & E1 & B1). destruct (minmax_map zof qs H) as (l2 & h2 & E2 & B2).
  change (exists b, (do a <- minmax (map xof qs); do b <- minmax (map yof qs); do c <- minmax (map zof qs); Ok [a; b; c]) = Ok b /\ tight_box qs b). rewrite E0. cbn [bind]. rewrite E1. cbn [bind]. rewrite E2. cbn [bind]. eexists. split; [reflexivity|]. split; [reflexivity|].
  intros [|[|[|k]]] lo hi E; cbn [nth_error] in E; [| | |destruct k; discriminate]; injection E as <- <-; assumption.
Qed.
Lemma cloud_bounds_ambient c qs : array c <> [] -> same_places (cframe c) (array c) standard qs -> exists b, cloud_bounds c None = Ok b /\ tight_box qs b.
Proof.
  intros Hne H. unfold cloud_bounds. apply same_places_iff in H. rewrite map_place_standard in H. rewrite show_map. rewrite (map_ext _ (place (cframe c))) by (intros; apply shown_ambient). rewrite H.
  apply bounds_box. rewrite <- H. intros E. now apply map_eq_nil in E.
Qed.
Lemma cloud_bounds_target c t qs : array c <> [] -> orthonormal (axes t) -> (exists a o, cframe c = Cartesian a o) \/ centred t -> same_places (cframe c) (array c) t qs ->
  exists b, cloud_bounds c (Some t) = Ok b /\ tight_box qs b.
Proof.
  intros Hne Ho Hs H. unfold cloud_bounds.
  assert (E : show c (Some t) = qs).
  { assert (Hp : same_places (cframe c) (array c) t (show c (Some t))) by (destruct Hs as [Hs|Hs]; [now apply show_places|now apply show_plain]).
    apply same_places_iff in H. apply same_places_iff in Hp. rewrite H in Hp. clear -Ho Hp. revert Hp. generalize (show c (Some t)) as rs. intros rs. revert rs.
    induction qs as [|q qs IH]; intros [|r rs] E; try discriminate; [reflexivity|]. cbn [map] in E. injection E as E1 E2. f_equal; [|now apply IH]. apply (place_inj t); auto. }
  rewrite E. apply bounds_box. intros ->. inversion H as [E'|]. congruence.
Qed.
Lemma cloud_bounds_empty c t : array c = [] -> cloud_bounds c t = Err ValueError.
Proof. intros H. unfold cloud_bounds. rewrite show_map, H. reflexivity. Qed.
Lemma points_at_nonempty m p ps : arrays m = p :: ps -> px p <> [] -> forall qs, points_at m qs -> qs <> [].
Proof.
  intros Ha Hp qs H ->. unfold points_at in H. inversion H as [E|]. clear H. symmetry in E. pose proof (framed_arrays m None) as Ef. rewrite Ha in Ef. destruct (framed None m) as [|fp l]; [discriminate|].
  cbn [map] in Ef. injection Ef as Ef _. cbn [flat_map] in E. apply app_eq_nil in E as [E _]. apply map_eq_nil in E. now rewrite Ef in E.
Qed.
Lemma mesh_bounds_box m T qs : frame_in None m = Some T -> orthonormal (axes T) -> qs <> [] ->
  Forall (fun fp => exists f, fst fp = Some f /\ origin_of f = origin_of T) (framed None m) -> points_at m qs ->
  (exists b, mesh_bounds m [] None = Ok b /\ tight_box qs b) /\
  forall t cs, orthonormal (axes t) -> (exists a o, T = Cartesian a o) \/ centred t -> same_places standard qs t cs ->
    exists b, mesh_bounds m [] (Some t) = Ok b /\ tight_box cs b.
Proof.
  intros HT Ho Hne Hf Hq. assert (Ha : arrays m <> []). { intros E. unfold points_at in Hq. pose proof (framed_arrays m None) as Ef. rewrite E in Ef. apply map_eq_nil in Ef. rewrite Ef in Hq. inversion Hq. congruence. }
  destruct (coords_places m T qs HT Ho Ha Hf Hq) as [H1 H2]. unfold mesh_bounds. cbn [block_at bind fst snd]. split.
  - rewrite H1. cbn [bind]. now apply bounds_box.
  - intros t cs Ht Hs Hcs. destruct (H2 t Ht Hs) as (cs' & E & Hc). rewrite E. cbn [bind].
    assert (cs' = cs) as ->. { apply same_places_iff in Hc. apply same_places_iff in Hcs. rewrite Hcs in Hc. clear -Ht Hc. revert cs' Hc. induction cs as [|q qs IH]; intros [|r rs] E; try discriminate; [reflexivity|]. cbn [map] in E. injection E as E1 E2. f_equal; [|now apply IH]. apply (place_inj t); auto. }
    apply bounds_box. intros ->. inversion Hcs. congruence.
Qed.

(** ** The closest and the furthest points *)
Lemma apart_row p q : TriSpec.dist2 (row p) (row q) = apart p q.
Proof. destruct p as [[p0 p1] p2], q as [[q0 q1] q2]. unfold TriSpec.dist2. cbn [row combine map fold_right fst snd apart]. ring. Qed.
Lemma apart_nonneg p q : 0 <= apart p q.
Proof. destruct p as [[p0 p1] p2], q as [[q0 q1] q2]. cbn [apart]. pose proof (Rle_0_sqr (p0 - q0)). pose proof (Rle_0_sqr (p1 - q1)). pose proof (Rle_0_sqr (p2 - q2)). unfold Rsqr in *. lra. Qed.
Lemma dist_row p q : TriSpec.dist (row p) (row q) = sqrt (apart p q).
Proof. unfold TriSpec.dist. now rewrite apart_row. Qed.
Lemma dist_le p q r : TriSpec.dist (row p) (row q) <= TriSpec.dist (row p) (row r) <-> apart p q <= apart p r.
Proof. rewrite !dist_row. split; intros H; [apply sqrt_le_0; auto using apart_nonneg|now apply sqrt_le_1_alt]. Qed.
Lemma dist_lt p q r : TriSpec.dist (row p) (row q) < TriSpec.dist (row p) (row r) -> apart p q < apart p r.
Proof. rewrite !dist_row. intros H. now apply sqrt_lt_0_alt. Qed.
Lemma nth_row qs i q : nth_error qs i = Some q -> nth i (map row qs) [] = row q.
Proof. intros H. apply nth_error_nth. now apply map_nth_error. Qed.
Lemma least_nearest qs p i : ((i < length (map row qs))%nat /\ forall j, (j < length (map row qs))%nat -> TriSpec.dist (row p) (nth i (map row qs) []) <= TriSpec.dist (row p) (nth j (map row qs) [])) -> nearest_at qs p i.
Proof.
  rewrite map_length. intros [Hi H]. destruct (nth_error qs i) as [q|] eqn:E; [|apply nth_error_None in E; lia]. exists q. split; [assumption|]. apply Forall_forall. intros r Hr.
  apply In_nth_error in Hr as [j Hj]. specialize (H j). assert (j < length qs)%nat by (apply nth_error_Some; congruence). specialize (H ltac:(assumption)). rewrite (nth_row _ _ _ E), (nth_row _ _ _ Hj) in H. now apply dist_le.
Qed.
Lemma first_nearest qs p i : SpaceSpec.first_closest (map row qs) (row p) i -> first_that (nearest_at qs p) i.
Proof.
  intros (Hi & H & Hf). pose proof (least_nearest qs p i (conj Hi H)) as Hn. split; [assumption|]. intros j Hj (r & Er & Hr). destruct Hn as (q & Eq & Hq).
  specialize (Hf j Hj). rewrite (nth_row _ _ _ Eq), (nth_row _ _ _ Er) in Hf. apply dist_lt in Hf. rewrite Forall_forall in Hr. specialize (Hr q (nth_error_In _ _ Eq)). lra.
Qed.
Lemma first_farthest qs p i : SpaceSpec.first_furthest (map row qs) (row p) i -> first_that (farthest_at qs p) i.
Proof.
  intros (Hi & H & Hf). rewrite map_length in *.
  destruct (nth_error qs i) as [q|] eqn:E; [|apply nth_error_None in E; lia].
  assert (Hq : Forall (fun r => apart p r <= apart p q) qs).
  { apply Forall_forall. intros r Hr. apply In_nth_error in Hr as [j Hj]. specialize (H j). assert (j < length qs)%nat by (apply nth_error_Some; congruence). specialize (H ltac:(assumption)).
    rewrite (nth_row _ _ _ E), (nth_row _ _ _ Hj) in H. now apply dist_le. }
  split; [exists q; auto|]. intros j Hj (r & Er & Hr). specialize (Hf j Hj). rewrite (nth_row _ _ _ E), (nth_row _ _ _ Er) in Hf. apply dist_lt in Hf. rewrite Forall_forall in Hr. specialize (Hr q (nth_error_In _ _ E)). lra.
Qed.
Lemma rect_rows qs : Base.rect 3 (map row qs).
Proof. unfold Base.rect. apply Forall_map. apply Forall_forall. intros [[x y] z] _. reflexivity. Qed.
Lemma row_length p : length (row p) = 3%nat. Proof. destruct p as [[x y] z]. reflexivity. Qed.
Lemma rows_nonempty qs : qs <> [] -> map row qs <> []. Proof. intros H E. apply map_eq_nil in E. congruence. Qed.

(** the places of the positions *)
Lemma centred_place f v w : match f with Some h => centred h | None => True end -> in_frame f v w -> vshow f v None = w.
Proof.
  intros Hc H. unfold in_frame in H. apply placed_iff in H. subst w. rewrite vshow_value. cbn [axes_opt]. rewrite mvec_eye. unfold place. destruct f as [g|].
  - cbn [direction_in]. destruct Hc as (a & [-> | ->]); cbn [origin_of]; fold vzero; now rewrite vplus_0_l.
  - cbn [direction_in standard origin_of axes]. fold vzero. rewrite vplus_0_l. symmetry. apply direction_eye.
Qed.
Lemma ambient_one v f w : given_centred (One v) f -> given_at v f w -> at_ambient (One v) f = SpaceModel.Target1 (row w).
Proof. intros Hc H. destruct v as [v|v g]; cbn [given_centred given_at at_ambient] in *; f_equal; f_equal; now apply centred_place. Qed.
Lemma ambient_many p f ws : (forall v, p <> One v) -> given_centred p f -> all_given_at p f ws -> at_ambient p f = SpaceModel.Targets (map row ws).
Proof.
  intros Hp Hc H. destruct p as [v|vs [g|]|c]; [exfalso; now apply (Hp v)| | |]; cbn [given_centred all_given_at at_ambient] in *; f_equal.
  - clear Hp. induction H; [reflexivity|]. cbn [map]. f_equal; [|assumption]. f_equal. now apply centred_place.
  - clear Hp. induction H; [reflexivity|]. cbn [map]. f_equal; [|assumption]. f_equal. now apply centred_place.
  - f_equal. apply same_places_iff in H. rewrite map_place_standard in H. rewrite show_map, <- H. apply map_ext. intros x. apply shown_ambient.
Qed.
Lemma show_qs c qs : same_places (cframe c) (array c) standard qs -> show c None = qs.
Proof. intros H. apply same_places_iff in H. rewrite map_place_standard in H. rewrite show_map, <- H. apply map_ext. intros x. apply shown_ambient. Qed.
Lemma found_one c i : indexed c -> (i < length (array c))%nat -> exists r, found_at c (SpaceModel.Index1 i) = Ok (Found1 r) /\ point_of c i r.
Proof.
  intros Hx Hi. cbn [found_at]. destruct (nth_error (array c) i) as [a|] eqn:Ea; [|apply nth_error_None in Ea; lia]. rewrite (proj2 (get_Ok _ _ _) Ea). cbn [bind].
  unfold indexed in Hx. destruct (inds c) as [l|] eqn:El.
  - destruct (nth_error l i) as [g|] eqn:Eg; [|apply nth_error_None in Eg; lia]. rewrite (proj2 (get_Ok _ _ _) Eg). cbn [bind]. eexists. split; [reflexivity|]. repeat split; cbn; auto. unfold index_at. now rewrite El.
  - cbn [bind]. eexists. split; [reflexivity|]. repeat split; cbn; auto. unfold index_at. now rewrite El.
Qed.
Lemma gets_ok {A} (l : list A) is : Forall (fun i => (i < length l)%nat) is -> exists a, mapM (get l) is = Ok a /\ Forall2 (fun i x => nth_error l i = Some x) is a.
Proof.
  induction 1 as [|i is Hi _ (a & E & H)]; [exists []; split; [reflexivity|constructor]|]. destruct (nth_error l i) as [x|] eqn:Ex; [|apply nth_error_None in Ex; lia].
  exists (x :: a). cbn [mapM]. rewrite (proj2 (get_Ok _ _ _) Ex). cbn [bind]. rewrite E. split; [reflexivity|]. now constructor.
Qed.
Lemma found_several c l : indexed c -> Forall (fun i => (i < length (array c))%nat) l -> exists c', found_at c (SpaceModel.Indices l) = Ok (FoundMany c') /\
  Forall2 (fun i q => nth_error (array c) i = Some q) l (array c') /\ cframe c' = cframe c /\ inds c' = Some (map Z.of_nat l).
Proof.
  intros Hx Hl. cbn [found_at]. destruct (gets_ok (array c) l Hl) as (a & E & H). rewrite E. cbn [bind].
  assert (Ek : (match inds c with Some k => do _ <- mapM (get k) l; Ok tt | None => Ok tt end) = Ok tt).
  { unfold indexed in Hx. destruct (inds c) as [k|]; [|reflexivity]. rewrite <- Hx in Hl. destruct (gets_ok k l Hl) as (k' & Ek & _). now rewrite Ek. }
  rewrite Ek. cbn [bind]. eexists. split; [reflexivity|]. cbn [new_cloud array cframe inds]. auto.
Qed.
Lemma no_indices c l c' : inds c = None -> Forall2 (fun i q => nth_error (array c) i = Some q) l (array c') -> cframe c' = cframe c -> inds c' = Some (map Z.of_nat l) -> points_of_cloud c l c'.
Proof.
  intros Hn H1 H2 H3. split; [assumption|]. split; [assumption|]. eexists. split; [exact H3|]. clear -Hn. induction l; cbn [map]; constructor; auto. unfold index_at. now rewrite Hn.
Qed.
Lemma qs_length c qs : same_places (cframe c) (array c) standard qs -> length qs = length (array c).
Proof. intros H. apply same_places_iff in H. apply (f_equal (@length vec)) in H. rewrite !map_length in H. congruence. Qed.

Lemma closest_single query c p f qs w : array c <> [] -> indexed c -> same_places (cframe c) (array c) standard qs -> given_centred (One p) f -> given_at p f w ->
  exists i r, index_of_closest query c (One p) f = Ok (SpaceModel.Index1 i) /\ closest_points query c (One p) f = Ok (Found1 r) /\
    first_that (nearest_at qs w) i /\ point_of c i r.
Proof.
  intros Hne Hx Hq Hc Hg. unfold closest_points, index_of_closest. rewrite (ambient_one p f w Hc Hg), (show_qs c qs Hq). pose proof (qs_length c qs Hq) as Hl.
  destruct (SpaceProofs6.closest_one query 3 (map row qs) (row w)) as (i & E & Hi); [apply rows_nonempty; intros ->; destruct (array c); [congruence|discriminate]|apply rect_rows|apply row_length|].
  apply first_nearest in Hi as Hf. assert (Hb : (i < length (array c))%nat) by (destruct Hi as (Hi & _); rewrite map_length in Hi; lia).
  destruct (found_one c i Hx Hb) as (r & Er & Hr). exists i, r. rewrite E. cbn [bind]. auto.
Qed.
Lemma furthest_single c p f qs w : array c <> [] -> indexed c -> same_places (cframe c) (array c) standard qs -> given_centred (One p) f -> given_at p f w ->
  exists i r, index_of_furthest c (One p) f = Ok (SpaceModel.Index1 i) /\ furthest_points c (One p) f = Ok (Found1 r) /\
    first_that (farthest_at qs w) i /\ point_of c i r.
Proof.
  intros Hne Hx Hq Hc Hg. unfold furthest_points, index_of_furthest. rewrite (ambient_one p f w Hc Hg), (show_qs c qs Hq). pose proof (qs_length c qs Hq) as Hl.
  destruct (SpaceProofs6.furthest_one EvalModel.Floating 3 (map row qs) (row w)) as (i & E & Hi); [apply rows_nonempty; intros ->; destruct (array c); [congruence|discriminate]|apply rect_rows|apply row_length|].
  apply first_farthest in Hi as Hf. assert (Hb : (i < length (array c))%nat) by (destruct Hi as (Hi & _); rewrite map_length in Hi; lia).
  destruct (found_one c i Hx Hb) as (r & Er & Hr). exists i, r. rewrite E. cbn [bind]. auto.
Qed.
Lemma closest_several query c p f qs ws : LocSpec.nearest_query query -> array c <> [] -> indexed c -> same_places (cframe c) (array c) standard qs ->
  (forall v, p <> One v) -> given_centred p f -> all_given_at p f ws ->
  exists l c', index_of_closest query c p f = Ok (SpaceModel.Indices l) /\ closest_points query c p f = Ok (FoundMany c') /\
    Forall2 (nearest_at qs) ws l /\ Forall2 (fun i q => nth_error (array c) i = Some q) l (array c') /\ cframe c' = cframe c /\ (inds c = None -> points_of_cloud c l c').
Proof.
  intros HQ Hne Hx Hq Hp Hc Hg. unfold closest_points, index_of_closest. rewrite (ambient_many p f ws Hp Hc Hg), (show_qs c qs Hq). pose proof (qs_length c qs Hq) as Hl.
  destruct (SpaceProofs6.closest_many query (map row qs) (map row ws) HQ) as (l & E & Hi); [apply rows_nonempty; intros ->; destruct (array c); [congruence|discriminate]|].
  assert (Hn : Forall2 (nearest_at qs) ws l /\ Forall (fun i => (i < length (array c))%nat) l).
  { clear -Hi Hl. revert l Hi. induction ws as [|w ws IH]; intros l Hi; inversion Hi as [|? i ? l' H1 H2]; subst; [split; constructor|]. destruct (IH l' H2) as [H3 H4]. split; constructor; auto.
    - apply least_nearest. exact H1.
    - destruct H1 as [H1 _]. rewrite map_length in H1. lia. }
  destruct Hn as [Hn Hb]. destruct (found_several c l Hx Hb) as (c' & Ec & H1 & H2 & H3). exists l, c'. rewrite E. cbn [bind]. split; [reflexivity|]. split; [exact Ec|]. split; [assumption|]. split; [assumption|]. split; [assumption|].
  intros Hno. now apply no_indices.
Qed.
Lemma furthest_several c p f qs ws : array c <> [] -> indexed c -> same_places (cframe c) (array c) standard qs ->
  (forall v, p <> One v) -> given_centred p f -> all_given_at p f ws ->
  exists l c', index_of_furthest c p f = Ok (SpaceModel.Indices l) /\ furthest_points c p f = Ok (FoundMany c') /\
    Forall2 (fun w => first_that (farthest_at qs w)) ws l /\ Forall2 (fun i q => nth_error (array c) i = Some q) l (array c') /\ cframe c' = cframe c /\ (inds c = None -> points_of_cloud c l c').
Proof.
  intros Hne Hx Hq Hp Hc Hg. unfold furthest_points, index_of_furthest. rewrite (ambient_many p f ws Hp Hc Hg), (show_qs c qs Hq). pose proof (qs_length c qs Hq) as Hl.
  destruct (SpaceProofs6.furthest_many 3 (map row qs) (map row ws)) as (l & E & Hi); [apply rows_nonempty; intros ->; destruct (array c); [congruence|discriminate]|apply rect_rows|apply rect_rows|].
  assert (Hn : Forall2 (fun w => first_that (farthest_at qs w)) ws l /\ Forall (fun i => (i < length (array c))%nat) l).
  { clear -Hi Hl. revert l Hi. induction ws as [|w ws IH]; intros l Hi; inversion Hi as [|? i ? l' H1 H2]; subst; [split; constructor|]. destruct (IH l' H2) as [H3 H4]. split; constructor; auto.
    - now apply first_farthest.
    - destruct H1 as [H1 _]. rewrite map_length in H1. lia. }
  destruct Hn as [Hn Hb]. destruct (found_several c l Hx Hb) as (c' & Ec & H1 & H2 & H3). exists l, c'. rewrite E. cbn [bind]. split; [reflexivity|]. split; [exact Ec|]. split; [assumption|]. split; [assumption|]. split; [assumption|].
  intros Hno. now apply no_indices.
Qed.
