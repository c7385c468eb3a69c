(** * Proofs about [SpaceModel.v], part 4: normals of planes, local coordinates of cells *)
From Coq Require Import Reals Lra Lia List Psatz.
From Verif Require Import BaseFacts TrModel TrProofs EvalProofs ShapeProofs3 ShapeProofs4 TriProofs TriProofs3 TriProofs4 TriProofs5 LocProofs9 SpaceModel SpaceSpec NodalProofs NodalProofs4 NodalProofs5 NodalProofs7 SpaceProofs SpaceProofs2 SpaceProofs3.
Import ListNotations.
Local Open Scope R_scope.

Lemma sub_at p q k : dim 3 p -> dim 3 q -> (k < 3)%nat -> at_ k (sub p q) = at_ k p - at_ k q.
Proof. intros Hp Hq Hk. destruct (dim3 _ Hp) as (? & ? & ? & ->), (dim3 _ Hq) as (? & ? & ? & ->). destruct k as [|[|[|k]]]; [reflexivity|reflexivity|reflexivity|lia]. Qed.
Lemma sprod_sub n p q : dim 3 n -> dim 3 p -> dim 3 q -> sprod n (sub p q) = sprod n p - sprod n q.
Proof. intros Hn Hp Hq. rewrite !sprod3 by (assumption || (apply vsub_dim3; assumption)). rewrite !sub_at by (assumption || lia). ring. Qed.
Lemma sprod_along c u a : dim 3 c -> dim 3 u -> dim 3 a -> along u a -> (sprod c a = 0 <-> sprod c u = 0).
Proof.
  intros Dc Du Da (t & Ht & LA & SA). rewrite !sprod3 by assumption. rewrite !SA. split; intros H; [apply (Rmult_eq_reg_l t); lra|].
  transitivity (t * (at_ 0 c * at_ 0 u + at_ 1 c * at_ 1 u + at_ 2 c * at_ 2 u)); [ring|]. rewrite H. ring.
Qed.
Lemma sprod_comm a b : dim 3 a -> dim 3 b -> sprod a b = sprod b a.
Proof. intros. rewrite !sprod3 by assumption. ring. Qed.
(** a vector perpendicular to the first axis and to a direction in the plane of the first two is a multiple of the third *)
Lemma normal_multiple a b c u v n : right_handed a b c -> along u a -> dim 3 u -> dim 3 v -> dim 3 n -> 0 < sprod b v -> sprod c v = 0 -> sprod n u = 0 -> sprod n v = 0 ->
  forall k, (k < 3)%nat -> at_ k n = sprod c n * at_ k c.
Proof.
  intros RH AL Du Dv Dn PB PC NU NV k Hk. pose proof RH as (Da & Db & Dc & Ua & Ub & Uc & Oab & Obc & Oca & Hd).
  assert (A0 : sprod a n = 0) by (rewrite sprod_comm by assumption; now apply (proj2 (sprod_along n u a Dn Du Da AL))).
  assert (B0 : sprod b n = 0).
  { assert (E : sprod n v = sprod b v * sprod b n).
    { rewrite (sprod3 n v), (sprod3 b n) by assumption. rewrite (rh_expand a b c v 0 RH Dv), (rh_expand a b c v 1 RH Dv), (rh_expand a b c v 2 RH Dv) by lia. rewrite PC.
      transitivity (sprod a v * (at_ 0 a * at_ 0 n + at_ 1 a * at_ 1 n + at_ 2 a * at_ 2 n) + sprod b v * (at_ 0 b * at_ 0 n + at_ 1 b * at_ 1 n + at_ 2 b * at_ 2 n)); [ring|].
      rewrite <- (sprod3 a n), A0 by assumption. ring. }
    rewrite NV in E. symmetry in E. apply Rmult_integral in E. destruct E as [E|E]; [lra|exact E]. }
  rewrite (rh_expand a b c n k RH Dn Hk), A0, B0. ring.
Qed.
Lemma unit_multiple c n : dim 3 c -> dim 3 n -> sprod c c = 1 -> sprod n n = 1 -> (forall k, (k < 3)%nat -> at_ k n = sprod c n * at_ k c) -> n = c \/ n = map Ropp c.
Proof.
  intros Dc Dn Uc Un H. set (s := sprod c n) in *. assert (E : s * s = 1).
  { rewrite sprod3 in Un, Uc by assumption. rewrite !H in Un by lia. transitivity (s * s * (at_ 0 c * at_ 0 c + at_ 1 c * at_ 1 c + at_ 2 c * at_ 2 c)); [rewrite Uc; ring|lra]. }
  assert (HS : s = 1 \/ s = -1). { assert (F : (s - 1) * (s + 1) = 0) by lra. apply Rmult_integral in F. destruct F; [left|right]; lra. }
  destruct HS as [-> | HS]; [left|right].
  - apply ext3; [assumption|assumption|]. intros k Hk. rewrite H by exact Hk. ring.
  - apply ext3; [assumption|unfold dim; rewrite map_length; assumption|]. intros k Hk. rewrite H by exact Hk. rewrite HS. unfold at_. replace 0 with (- 0) at 2 by ring. rewrite map_nth. ring.
Qed.
(** the third axis of the frame of a plane is its normal *)
Lemma plane_normal : forall coords n h tr m, coords <> [] -> rect 3 coords -> dim 3 n -> sprod n n = 1 -> in_plane n h coords -> frame_of_plane Floating coords = Ok (m, tr) ->
  exists a b c, has_columns tr a b c /\ right_handed a b c /\ (n = c \/ n = map Ropp c).
Proof.
  intros coords n h tr m HN HR Dn Un HP E.
  assert (L : (0 < length coords)%nat) by (destruct coords; [congruence|cbn; lia]).
  destruct (nth_error_lt coords 0 L) as [p0 H0]. destruct (nth_error_lt coords (Nat.div (length coords) 2)) as [pm Hm]; [apply Nat.div_lt; lia|].
  destruct (plane_at coords p0 pm HN HR H0 Hm) as (D0 & Dm & DC & EF). set (q := means 3 coords) in *.
  assert (DU : dim 3 (sub p0 q)) by (apply vsub_dim3; assumption). assert (DV : dim 3 (sub pm q)) by (apply vsub_dim3; assumption).
  destruct (vec0 (py (sub p0 q) * pz (sub pm q) - pz (sub p0 q) * py (sub pm q)) (pz (sub p0 q) * px (sub pm q) - px (sub p0 q) * pz (sub pm q)) (px (sub p0 q) * py (sub pm q) - py (sub p0 q) * px (sub pm q))) as [Z|N].
  { rewrite EF, axes_zero in E; [discriminate|exact DU|exact DV|exact Z]. }
  destruct (axes_ok _ _ DU DV N) as (a & b & c & EA & RH & AL & PB & PC). rewrite EF, EA in E. cbn [bind] in E. injection E as <- <-.
  exists a, b, c. split; [reflexivity|]. split; [exact RH|].
  assert (SM : sprod n q = h).
  { assert (G : forall rows, rect 3 rows -> (forall p, In p rows -> sprod n p = h) -> at_ 0 n * rsum (map (at_ 0) rows) + at_ 1 n * rsum (map (at_ 1) rows) + at_ 2 n * rsum (map (at_ 2) rows) = INR (length rows) * h).
    { induction rows as [|p rows IH]; intros HR' HP'; [cbn; ring|]. cbn [map length]. rewrite S_INR, !rsum_cons. inversion HR'; subst. pose proof (HP' p (or_introl eq_refl)) as S. rewrite sprod3 in S by assumption. specialize (IH ltac:(assumption) ltac:(intros; apply HP'; now right)). lra. }
    rewrite sprod3 by assumption. unfold q. rewrite !means_nth by lia. apply (Rmult_eq_reg_l (INR (length coords))); [|now apply len_pos]. rewrite <- (G coords HR HP). field. now apply len_pos. }
  assert (Dc : dim 3 c) by apply RH. assert (Uc : sprod c c = 1) by apply RH. apply unit_multiple; try assumption.
  assert (SD : forall i p, nth_error coords i = Some p -> dim 3 p -> sprod n (sub p q) = 0) by (intros i p Hp Dp; rewrite sprod_sub by assumption; rewrite SM, (HP p (nth_error_In _ _ Hp)); ring).
  apply (normal_multiple a b c (sub p0 q) (sub pm q) n); try assumption; [exact (SD _ _ H0 D0)|exact (SD _ _ Hm Dm)].
Qed.

(** ** local coordinates of cells *)
Lemma loc_one coords nodes ec : nodes_at coords nodes ec -> rect 3 coords -> (3 <= length ec)%nat -> solid_surface ec ->
  exists loc m fr, tr_cell_glob_to_loc coords nodes = Ok (loc, m, fr) /\ projected ec loc m fr.
Proof.
  intros HN HR HL HS. destruct (surface_one coords nodes ec HN HR ltac:(lia) HS) as (fr & EF & PF).
  assert (HE : ec <> []) by (destruct ec; [cbn in HL; lia|discriminate]).
  assert (RE : rect 3 ec). { apply Forall_forall. intros p Hp. apply In_nth_error in Hp. destruct Hp as (i & Hi). destruct (Forall2_nth_error_r _ _ _ _ _ HN Hi) as (n & Hn & Hp). exact (rect_nth _ _ _ _ HR Hp). }
  destruct (cell_center_correct 3 ec HE RE) as (m & EM & HM). assert (Dm : dim 3 m) by apply HM.
  destruct (corners_exist ec ltac:(lia)) as (p0 & p1 & pl & HC). destruct (PF _ _ _ HC) as (a & b & c & -> & RH & _). pose proof RH as (Da & Db & _).
  destruct (mapM_Forall2 (fun p => do v <- vsub p m; do x <- vdot a v; do y <- vdot b v; Ok [x; y]) (fun p q => q = [sprod a (sub p m); sprod b (sub p m)]) ec) as (loc & EL & PL).
  { intros p Hp. unfold rect in RE. rewrite Forall_forall in RE. pose proof (RE p Hp : dim 3 p) as Dp. destruct (vsub_dim3 p m Dp Dm) as (EV & DV). eexists. rewrite EV. cbn [bind]. rewrite (vdot_sprod a _ Da DV). cbn [bind]. rewrite (vdot_sprod b _ Db DV). split; reflexivity. }
  exists loc, m, [a; b; c]. split; [|split; [exact HM|]; split; [exact PF|exact PL]].
  unfold tr_cell_glob_to_loc. assert (EN : mapM (get coords) nodes = Ok ec) by (apply mapM_Ok; eapply Forall2_weak; [|exact HN]; intros n p H; now apply get_Ok). rewrite EN. cbn [bind]. rewrite EM. cbn [bind]. rewrite EF. cbn [bind get nth_error]. rewrite EL. reflexivity.
Qed.
Lemma locs : forall coords topo ecs, mesh_at coords topo ecs -> rect 3 coords -> Forall (fun ec => (3 <= length ec)%nat /\ solid_surface ec) ecs ->
  exists res, tr_cell_glob_to_loc_bulk coords topo = Ok res /\ Forall2 (fun ec r => projected ec (fst (fst r)) (snd (fst r)) (snd r)) ecs res.
Proof.
  intros coords topo ecs HM HR HF. induction HM as [|nodes ec topo ecs HN HM IH]; [exists []; split; [reflexivity|constructor]|].
  inversion HF as [|? ? [H1 H2] HF']; subst. destruct (loc_one _ _ _ HN HR H1 H2) as (loc & m & fr & E & P). destruct (IH HF') as (res & E' & P').
  exists ((loc, m, fr) :: res). unfold tr_cell_glob_to_loc_bulk in *. cbn [mapM]. rewrite E. cbn [bind]. rewrite E'. split; [reflexivity|now constructor].
Qed.
Lemma mean_plane n h rows m : rows <> [] -> rect 3 rows -> dim 3 n -> in_plane n h rows -> mean_row 3 rows m -> sprod n m = h.
Proof.
  intros HN HR Dn HP HM.
  assert (G : forall rows, rect 3 rows -> (forall p, In p rows -> sprod n p = h) -> at_ 0 n * rsum (map (at_ 0) rows) + at_ 1 n * rsum (map (at_ 1) rows) + at_ 2 n * rsum (map (at_ 2) rows) = INR (length rows) * h).
  { clear - Dn. induction rows as [|p rows IH]; intros HR' HP'; [cbn; ring|]. cbn [map length]. rewrite S_INR, !rsum_cons. inversion HR'; subst. pose proof (HP' p (or_introl eq_refl)) as S.
    rewrite sprod3 in S by assumption. specialize (IH ltac:(assumption) ltac:(intros; apply HP'; now right)). lra. }
  assert (m = means 3 rows) by (apply (mean_unique 3 rows); [exact HN|exact HM|now apply means_mean]). subst m.
  rewrite sprod3; [|assumption|apply (means_mean 3 rows HN)]. rewrite !means_nth by lia. apply (Rmult_eq_reg_l (INR (length rows))); [|now apply len_pos]. rewrite <- (G rows HR HP). field. now apply len_pos.
Qed.
Lemma planar_loc : forall ec loc m fr, (3 <= length ec)%nat -> rect 3 ec -> planar ec -> projected ec loc m fr -> local_coordinates ec loc m fr.
Proof.
  intros ec loc m fr HL HR (n & h & Dn & NZ & HP) (HM & HF & HQ). split; [exact HM|]. split; [exact HF|].
  destruct (corners_exist ec ltac:(lia)) as (p0 & p1 & pl & HC). destruct (HF _ _ _ HC) as (a & b & c & -> & RH & AL & PB & PC). cbn [nth] in *. pose proof RH as (Da & Db & Dc & _). assert (Dm : dim 3 m) by apply HM.
  assert (HE : ec <> []) by (destruct ec; [cbn in HL; lia|discriminate]).
  pose proof (mean_plane n h ec m HE HR Dn HP HM) as SM. unfold rect in HR. rewrite Forall_forall in HR.
  destruct HC as (C0 & C1 & CL). pose proof (nth_error_In _ _ C0) as I0. pose proof (nth_error_In _ _ C1) as I1. pose proof (nth_error_In _ _ CL) as IL.
  pose proof (HR _ I0 : dim 3 p0) as D0. pose proof (HR _ I1 : dim 3 p1) as D1. pose proof (HR _ IL : dim 3 pl) as DL.
  assert (NM : forall k, (k < 3)%nat -> at_ k n = sprod c n * at_ k c).
  { apply (normal_multiple a b c (sub p1 p0) (sub pl p0) n); try assumption; try (apply vsub_dim3; assumption); rewrite sprod_sub by assumption; rewrite !HP by assumption; ring. }
  assert (SN : sprod c n <> 0). { intros Z. apply NZ. apply ext3; [exact Dn|reflexivity|]. intros k Hk. rewrite NM, Z by exact Hk. destruct k as [|[|[|k]]]; [| | |lia]; unfold at_; cbn; ring. }
  assert (CP : forall p, In p ec -> sprod c (sub p m) = 0).
  { intros p Hp. pose proof (HR p Hp : dim 3 p) as Dp. apply (Rmult_eq_reg_l (sprod c n)); [|exact SN]. rewrite Rmult_0_r. transitivity (sprod n (sub p m)); [|rewrite sprod_sub by assumption; rewrite SM, (HP p Hp); ring].
    rewrite !sprod3 by (assumption || (apply vsub_dim3; assumption)). rewrite <- sprod3 by assumption. rewrite !NM by lia. ring. }
  clear HL HE HM HF SM C0 C1 CL I0 I1 IL HP. induction HQ as [|p q ec loc Hq HQ IH]; [constructor|]. constructor.
  - subst q. split; [reflexivity|]. intros k Hk. pose proof (HR p (or_introl eq_refl) : dim 3 p) as Dp. unfold px, py, at_ at 3 5. cbn [nth].
    pose proof (rh_expand a b c (sub p m) k RH ltac:(apply vsub_dim3; assumption) Hk) as E. rewrite (CP p (or_introl eq_refl)) in E. rewrite sub_at in E by assumption. lra.
  - apply IH; intros; [apply HR|apply CP]; now right.
Qed.
Lemma locs_planar : forall coords topo ecs, mesh_at coords topo ecs -> rect 3 coords -> Forall (fun ec => (3 <= length ec)%nat /\ solid_surface ec /\ planar ec) ecs ->
  exists res, tr_cell_glob_to_loc_bulk coords topo = Ok res /\ Forall2 (fun ec r => local_coordinates ec (fst (fst r)) (snd (fst r)) (snd r)) ecs res.
Proof.
  intros coords topo ecs HM HR HF. destruct (locs coords topo ecs HM HR) as (res & E & P); [eapply Forall_impl; [|exact HF]; intros ec (A1 & A2 & _); now split|]. exists res. split; [exact E|].
  assert (RE : forall ec, In ec ecs -> rect 3 ec).
  { intros ec He. apply In_nth_error in He. destruct He as (i & Hi). destruct (Forall2_nth_error_r _ _ _ _ _ HM Hi) as (ns & _ & HN). apply Forall_forall. intros p Hp. apply In_nth_error in Hp. destruct Hp as (j & Hj). destruct (Forall2_nth_error_r _ _ _ _ _ HN Hj) as (n & Hn & Hp). exact (rect_nth _ _ _ _ HR Hp). }
  clear HM E HR. induction P as [|ec r ecs res Hp P IH]; [constructor|]. inversion HF as [|? ? (H1 & H2 & H3) HF']; subst. constructor; [apply planar_loc; [exact H1|apply RE; now left|exact H3|exact Hp]|]. apply IH; [exact HF'|intros; apply RE; now right].
Qed.
(** distances, centre and orientation in local coordinates *)
Lemma local_distance : forall ec loc m fr i j p q p' q', rect 3 ec -> (2 <= length ec)%nat -> local_coordinates ec loc m fr -> nth_error ec i = Some p -> nth_error ec j = Some q -> nth_error loc i = Some p' -> nth_error loc j = Some q' -> dist p' q' = dist p q.
Proof.
  intros ec loc m fr i j p q p' q' HR HL (HM & HF & HQ) Ei Ej Li Lj. destruct (corners_exist ec HL) as (p0 & p1 & pl & HC). destruct (HF _ _ _ HC) as (a & b & c & -> & RH & _). cbn [nth] in *.
  destruct (Forall2_nth_error _ _ _ _ _ HQ Ei) as (p'' & E1 & D1 & P1). destruct (Forall2_nth_error _ _ _ _ _ HQ Ej) as (q'' & E2 & D2 & P2). rewrite E1 in Li. rewrite E2 in Lj. injection Li as ->. injection Lj as ->.
  pose proof (rect_nth _ _ _ _ HR Ei) as Dp. pose proof (rect_nth _ _ _ _ HR Ej) as Dq. unfold dist. f_equal.
  destruct (dim2 _ D1) as (x & y & ->), (dim2 _ D2) as (x' & y' & ->). destruct (dim3 _ Dp) as (p00 & p01 & p02 & ->), (dim3 _ Dq) as (q00 & q01 & q02 & ->).
  pose proof (P1 0%nat ltac:(lia)) as X0. pose proof (P1 1%nat ltac:(lia)) as X1. pose proof (P1 2%nat ltac:(lia)) as X2. pose proof (P2 0%nat ltac:(lia)) as Y0. pose proof (P2 1%nat ltac:(lia)) as Y1. pose proof (P2 2%nat ltac:(lia)) as Y2.
  destruct RH as (Da & Db & Dc & Ua & Ub & Uc & Oab & Obc & Oca & Hd). rewrite sprod3 in Ua, Ub, Oab by assumption. unfold px, py, at_ in *. cbn [nth] in *. unfold dist2. cbn [combine map fold_right fst snd]. rewrite X0, X1, X2, Y0, Y1, Y2.
  set (a0 := nth 0 a 0) in *. set (a1 := nth 1 a 0) in *. set (a2 := nth 2 a 0) in *. set (b0 := nth 0 b 0) in *. set (b1 := nth 1 b 0) in *. set (b2 := nth 2 b 0) in *.
  transitivity ((x - x') * (x - x') * (a0 * a0 + a1 * a1 + a2 * a2) + 2 * (x - x') * (y - y') * (a0 * b0 + a1 * b1 + a2 * b2) + (y - y') * (y - y') * (b0 * b0 + b1 * b1 + b2 * b2)); [rewrite Ua, Ub, Oab; ring|ring].
Qed.
Lemma local_centre : forall ec loc m fr, rect 3 ec -> (2 <= length ec)%nat -> projected ec loc m fr -> mean_row 2 loc [0; 0].
Proof.
  intros ec loc m fr HR HL (HM & HF & HQ). destruct (corners_exist ec HL) as (p0 & p1 & pl & HC). destruct (HF _ _ _ HC) as (a & b & c & -> & RH & _). cbn [nth] in *. pose proof RH as (Da & Db & _). assert (Dm : dim 3 m) by apply HM.
  assert (G : forall ec loc d (Dd : dim 3 d) k, rect 3 ec -> Forall2 (fun p q => at_ k q = sprod d (sub p m)) ec loc -> rsum (map (at_ k) loc) = at_ 0 d * (rsum (map (at_ 0) ec) - INR (length ec) * at_ 0 m) + at_ 1 d * (rsum (map (at_ 1) ec) - INR (length ec) * at_ 1 m) + at_ 2 d * (rsum (map (at_ 2) ec) - INR (length ec) * at_ 2 m)).
  { clear - Dm. intros ec loc d Dd k HR HF. induction HF as [|p q ec loc Hq HF IH]; [cbn; ring|]. inversion HR; subst. cbn [map length]. rewrite !rsum_cons, S_INR, IH, Hq by assumption. rewrite sprod3 by (assumption || (apply vsub_dim3; assumption)). rewrite !sub_at by (assumption || lia). ring. }
  split; [reflexivity|]. intros k Hk. pose proof (Forall2_len _ _ _ HQ) as LL. destruct HM as (_ & HM).
  assert (HZ : forall i, (i < 3)%nat -> rsum (map (at_ i) ec) - INR (length ec) * at_ i m = 0) by (intros i Hi; pose proof (HM i Hi) as E; lra).
  destruct k as [|[|k]]; [| |lia].
  - assert (E : rsum (map (at_ 0) loc) = 0). { rewrite (G ec loc a Da 0%nat HR); [rewrite !HZ by lia; ring|]. eapply Forall2_weak; [|exact HQ]. intros p q ->. reflexivity. } rewrite E. unfold at_. cbn [nth]. ring.
  - assert (E : rsum (map (at_ 1) loc) = 0). { rewrite (G ec loc b Db 1%nat HR); [rewrite !HZ by lia; ring|]. eapply Forall2_weak; [|exact HQ]. intros p q ->. reflexivity. } rewrite E. unfold at_. cbn [nth]. ring.
Qed.
Lemma local_ccw : forall ec loc m fr q0 q1 ql, rect 3 ec -> (2 <= length ec)%nat -> projected ec loc m fr -> corners loc q0 q1 ql -> ccw q0 q1 ql /\ py q1 = py q0 /\ px q0 < px q1.
Proof.
  intros ec loc m fr q0 q1 ql HR HL (HM & HF & HQ) (Q0 & Q1 & QL). destruct (corners_exist ec HL) as (p0 & p1 & pl & HC). destruct (HF _ _ _ HC) as (a & b & c & -> & RH & AL & PB & PC). cbn [nth] in *. pose proof RH as (Da & Db & Dc & Ua & Ub & Uc & Oab & Obc & Oca & Hd). assert (Dm : dim 3 m) by apply HM.
  pose proof (Forall2_len _ _ _ HQ) as LL. rewrite <- LL in QL. destruct HC as (C0 & C1 & CL).
  pose proof (rect_nth _ _ _ _ HR C0) as D0. pose proof (rect_nth _ _ _ _ HR C1) as D1. pose proof (rect_nth _ _ _ _ HR CL) as DL.
  destruct (Forall2_nth_error _ _ _ _ _ HQ C0) as (? & E0 & ->). destruct (Forall2_nth_error _ _ _ _ _ HQ C1) as (? & E1 & ->). destruct (Forall2_nth_error _ _ _ _ _ HQ CL) as (? & E2 & ->). rewrite Q0 in E0. rewrite Q1 in E1. rewrite QL in E2. injection E0 as ->. injection E1 as ->. injection E2 as ->.
  assert (Y : sprod b (sub p1 p0) = 0) by (apply (proj1 (sprod_along b (sub p1 p0) a Db ltac:(apply vsub_dim3; assumption) Da AL)); rewrite sprod_comm by assumption; exact Oab).
  assert (X : 0 < sprod a (sub p1 p0)).
  { destruct AL as (t & Ht & LA & SA). assert (E : sprod a a = t * sprod a (sub p1 p0)) by (rewrite !sprod3 by (assumption || (apply vsub_dim3; assumption)); rewrite (SA 0%nat) at 2; rewrite (SA 1%nat) at 2; rewrite (SA 2%nat) at 2; ring). rewrite Ua in E. apply (Rmult_lt_reg_l t); lra. }
  rewrite sprod_sub in X, Y, PB by assumption. unfold ccw, signed_area, px, py, at_. cbn [nth]. rewrite !sprod_sub by assumption. split; [|split; lra].
  replace (sprod b p1 - sprod b m - (sprod b p0 - sprod b m)) with 0 by lra. assert (0 < (sprod a p1 - sprod a p0) * (sprod b pl - sprod b p0)) by (apply Rmult_lt_0_compat; lra). lra.
Qed.
