(** * Proofs about [SpaceModel.v], part 6: points in a plane, points on a line, closest and furthest points *)
From Coq Require Import Reals Lra Lia List Psatz.
From Verif Require Import BaseFacts TrModel TrProofs EvalProofs ElevProofs ShapeProofs3 ShapeProofs4 TriProofs TriProofs3 TriProofs4 TriProofs5 LocProofs9 SpaceModel SpaceSpec NodalProofs NodalProofs4 NodalProofs5 NodalProofs7 SpaceProofs SpaceProofs2 SpaceProofs3 SpaceProofs4 SpaceProofs5.
Import ListNotations.
Local Open Scope R_scope.

(** ** distances *)
Lemma distances_value d coords p : rect d coords -> length p = d -> distances_from_point coords p = Ok (map (fun q => dist q p) coords).
Proof.
  intros HR Hp. unfold distances_from_point. apply mapM_map. intros q Hq. unfold rect in HR. rewrite Forall_forall in HR. destruct (norm_dist q p) as (v & E & N); [rewrite (HR q Hq); lia|]. rewrite E. exact N.
Qed.
Lemma matrix_value d X Y : rect d X -> rect d Y -> distance_matrix Floating X Y = Ok (map (fun p => map (fun q => dist p q) Y) X).
Proof.
  intros HX HY. unfold distance_matrix. apply mapM_map. intros p Hp. apply mapM_map. intros q Hq. unfold rect in *. rewrite Forall_forall in HX, HY. destruct (norm_dist p q) as (v & E & N); [rewrite (HX p Hp); symmetry; exact (HY q Hq)|]. rewrite E. cbn [bind]. rewrite N. reflexivity.
Qed.
Lemma move_value d coords p : rect d coords -> length p = d -> exists r, move_points coords p = Ok r /\ Forall2 (moved_by p) r coords.
Proof.
  intros HR Hp. destruct (mapM_Forall2 (fun q => vadd q p) (fun q r => moved_by p r q) coords) as (r & E & F).
  { intros q Hq. unfold rect in HR. rewrite Forall_forall in HR. destruct (vadd_R d q p (HR q Hq) Hp) as (r & E & L & V). exists r. split; [exact E|]. split; [rewrite L; symmetry; exact (HR q Hq)|]. intros a Ha. apply V. }
  exists r. split; [exact E|]. clear E HR. induction F as [|? ? ? ? H F IH]; [constructor|]. constructor; [exact H|exact IH].
Qed.

(** ** closest and furthest points *)
Lemma ncols_rect d (coords : list (list R)) : coords <> [] -> rect d coords -> ncols coords = d.
Proof. intros HN HR. destruct coords as [|r coords]; [congruence|]. now inversion HR. Qed.
Lemma nth_err_nth {A} (l : list A) i d : (i < length l)%nat -> nth_error l i = Some (nth i l d).
Proof. intros H. destruct (nth_error_lt l i H) as [x E]. now rewrite E, (nth_error_nth _ _ d E). Qed.
Lemma closest_one : forall query d coords p, coords <> [] -> rect d coords -> length p = d -> exists i, index_of_closest_point query coords (Target1 p) = Ok (Index1 i) /\ first_closest coords p i.
Proof.
  intros query d coords p HN HR Hp. cbn [index_of_closest_point]. rewrite (ncols_rect d coords HN HR), Hp, Nat.eqb_refl. cbn [guard bind]. rewrite (distances_value d coords p HR Hp). cbn [bind].
  destruct (argmin_spec (map (fun q => dist q p) coords)) as (i & E & x & Hx & Hm & Hf); [destruct coords; [congruence|discriminate]|]. rewrite E. cbn [bind]. exists i. split; [reflexivity|].
  assert (Hi : (i < length coords)%nat) by (apply nth_error_Some_lt in Hx; rewrite map_length in Hx; exact Hx).
  assert (V : forall j, (j < length coords)%nat -> nth_error (map (fun q => dist q p) coords) j = Some (dist p (nth j coords []))).
  { intros j Hj. rewrite nth_error_map, (nth_err_nth coords j [] Hj). cbn. f_equal. apply dist_sym. rewrite Hp. exact (rect_nth _ _ _ _ HR (nth_err_nth coords j [] Hj)). }
  rewrite (V i Hi) in Hx. injection Hx as <-. split; [exact Hi|]. split; [intros j Hj; apply (Hm j), V, Hj|intros j Hj; apply (Hf j); [exact Hj|apply V; lia]].
Qed.
Lemma furthest_one : forall dt d coords p, coords <> [] -> rect d coords -> length p = d -> exists i, index_of_furthest_point dt coords (Target1 p) = Ok (Index1 i) /\ first_furthest coords p i.
Proof.
  intros dt d coords p HN HR Hp. cbn [index_of_furthest_point]. rewrite (ncols_rect d coords HN HR), Hp, Nat.eqb_refl. cbn [guard bind]. rewrite (distances_value d coords p HR Hp). cbn [bind].
  destruct (argmax_spec (map (fun q => dist q p) coords)) as (i & x & E & Hx & Hm & Hf); [destruct coords; [congruence|discriminate]|]. rewrite E. cbn [bind]. exists i. split; [reflexivity|].
  assert (Hi : (i < length coords)%nat) by (apply nth_error_Some_lt in Hx; rewrite map_length in Hx; exact Hx).
  assert (V : forall j, (j < length coords)%nat -> nth_error (map (fun q => dist q p) coords) j = Some (dist p (nth j coords []))).
  { intros j Hj. rewrite nth_error_map, (nth_err_nth coords j [] Hj). cbn. f_equal. apply dist_sym. rewrite Hp. exact (rect_nth _ _ _ _ HR (nth_err_nth coords j [] Hj)). }
  rewrite (V i Hi) in Hx. injection Hx as <-. split; [exact Hi|]. split; [intros j Hj; apply (Hm j), V, Hj|intros j Hj; apply (Hf j); [exact Hj|apply V; lia]].
Qed.
Lemma closest_dims : forall query coords p, ncols coords <> length p -> index_of_closest_point query coords (Target1 p) = Err AssertionError.
Proof. intros query coords p H. cbn [index_of_closest_point]. destruct (Nat.eqb_spec (ncols coords) (length p)); [contradiction|reflexivity]. Qed.
Lemma furthest_dims : forall dt coords p, ncols coords <> length p -> index_of_furthest_point dt coords (Target1 p) = Err AssertionError.
Proof. intros dt coords p H. cbn [index_of_furthest_point]. destruct (Nat.eqb_spec (ncols coords) (length p)); [contradiction|reflexivity]. Qed.
Lemma furthest_many : forall d coords ps, coords <> [] -> rect d coords -> rect d ps -> exists inds, index_of_furthest_point Floating coords (Targets ps) = Ok (Indices inds) /\ Forall2 (fun p i => first_furthest coords p i) ps inds.
Proof.
  intros d coords ps HN HR HP. cbn [index_of_furthest_point]. rewrite (matrix_value d ps coords HP HR). cbn [bind].
  assert (G : exists inds, mapM argmax (map (fun p => map (fun q => dist p q) coords) ps) = Ok inds /\ Forall2 (fun p i => first_furthest coords p i) ps inds).
  { clear HP. induction ps as [|p ps (inds & E & F)]; [exists []; split; [reflexivity|constructor]|].
    destruct (argmax_spec (map (fun q => dist p q) coords)) as (i & x & Ei & Hx & Hm & Hf); [destruct coords; [congruence|discriminate]|].
    exists (i :: inds). cbn [map mapM]. rewrite Ei. cbn [bind]. rewrite E. split; [reflexivity|]. constructor; [|exact F].
    assert (Hi : (i < length coords)%nat) by (apply nth_error_Some_lt in Hx; rewrite map_length in Hx; exact Hx).
    assert (V : forall j, (j < length coords)%nat -> nth_error (map (fun q => dist p q) coords) j = Some (dist p (nth j coords []))) by (intros j Hj; rewrite nth_error_map, (nth_err_nth coords j [] Hj); reflexivity).
    rewrite (V i Hi) in Hx. injection Hx as <-. split; [exact Hi|]. split; [intros j Hj; apply (Hm j), V, Hj|intros j Hj; apply (Hf j); [exact Hj|apply V; lia]]. }
  destruct G as (inds & E & F). rewrite E. exists inds. split; [reflexivity|exact F].
Qed.
Lemma closest_many : forall query coords ps, nearest_query query -> coords <> [] -> exists inds, index_of_closest_point query coords (Targets ps) = Ok (Indices inds) /\
  Forall2 (fun p i => (i < length coords)%nat /\ forall j, (j < length coords)%nat -> dist p (nth i coords []) <= dist p (nth j coords [])) ps inds.
Proof.
  intros query coords ps HQ HN. cbn [index_of_closest_point k_nearest_neighbours Nat.eqb]. eexists. split; [reflexivity|]. induction ps as [|p ps IH]; cbn [map]; [constructor|]. constructor; [|exact IH].
  destruct (HQ coords p 1%nat) as (L & ND & B & M); [destruct coords; [congruence|cbn; lia]|]. destruct (query coords p 1%nat None) as [|i [|? ?]]; try discriminate. cbn [nth]. inversion B; subst. split; [assumption|]. intros j Hj. unfold dist. apply sqrt_le_1_alt.
  destruct (Nat.eq_dec j i) as [->|N]; [lra|]. apply M; [now left|exact Hj|]. intros [E|[]]. congruence.
Qed.
(** integer targets: the distances are truncated *)
Lemma furthest_integral : exists coords ps i, rect 1 coords /\ rect 1 ps /\ has_dtype Integral ps /\ index_of_furthest_point Integral coords (Targets ps) = Ok (Indices [i]) /\
  exists j, (j < length coords)%nat /\ dist (nth 0 ps []) (nth i coords []) < dist (nth 0 ps []) (nth j coords []).
Proof.
  exists [[1 / 4]; [1 / 2]], [[0]], 0%nat. split; [repeat constructor|]. split; [repeat constructor|]. split; [exists [[0%Z]]; reflexivity|].
  assert (S : forall x, 0 <= x -> sqrt ((0 - x) * (0 - x)) = x) by (intros x Hx; replace ((0 - x) * (0 - x)) with (x * x) by ring; now apply sqrt_square).
  split.
  - assert (E : distance_matrix Integral [[0]] [[1 / 4]; [1 / 2]] = Ok [[0; 0]]).
    { unfold distance_matrix. cbn [mapM]. destruct (norm_dist [0] [1 / 4] eq_refl) as (v & E1 & N1). destruct (norm_dist [0] [1 / 2] eq_refl) as (w & E2 & N2). rewrite E1, E2. cbn [bind]. rewrite N1, N2. cbn [bind store].
      assert (D1 : dist [0] [1 / 4] = 1 / 4) by (unfold dist, dist2; cbn [combine map fold_right fst snd]; rewrite Rplus_0_r; apply S; lra). assert (D2 : dist [0] [1 / 2] = 1 / 2) by (unfold dist, dist2; cbn [combine map fold_right fst snd]; rewrite Rplus_0_r; apply S; lra).
      rewrite D1, D2, !truncate_small by lra. reflexivity. }
    cbn [index_of_furthest_point]. rewrite E. cbn [bind mapM argmax arg_best]. destruct (Rlt_dec 0 0); [lra|]. reflexivity.
  - exists 1%nat. split; [cbn; lia|]. cbn [nth]. unfold dist, dist2. cbn [combine map fold_right fst snd]. rewrite !Rplus_0_r, !S by lra. lra.
Qed.

(** ** points in a plane *)
Lemma planar_run coords tol : coords <> [] -> rect 3 coords -> exists p0 pB pC, nth_error coords 0 = Some p0 /\ In pB coords /\ In pC coords /\
  is_planar coords tol = match frame_of_plane Floating [p0; pB; pC] with
  | Err _ => Ok false
  | Ok (_, tr) => do d <- mapM (fun row => get row 2) tr;
      do diffs <- mapM (fun i => if Nat.eqb i 0 then Ok 0 else do p <- get coords i; do x <- vdot p d; Ok (Rabs x)) (seq 0 (length coords));
      do mx <- rmax diffs; Ok (rleb mx tol)
  end.
Proof.
  intros HN HR. destruct (nth_error_lt coords 0) as [p0 H0]; [destruct coords; [congruence|cbn; lia]|]. pose proof (rect_nth _ _ _ _ HR H0) as D0. unfold is_planar. rewrite (proj2 (get_Ok _ _ _) H0). cbn [bind]. rewrite (distances_value 3 coords p0 HR D0). cbn [bind].
  destruct (argmax_spec (map (fun q => dist q p0) coords)) as (iB & x & EB & Hx & _); [destruct coords; [congruence|discriminate]|]. rewrite EB. cbn [bind].
  destruct (nth_error_lt coords iB) as [pB HB]; [apply nth_error_Some_lt in Hx; now rewrite map_length in Hx|]. rewrite (proj2 (get_Ok _ _ _) HB). cbn [bind]. pose proof (rect_nth _ _ _ _ HR HB) as DB. rewrite (distances_value 3 coords pB HR DB). cbn [bind].
  destruct (vadd_R (length coords) (map (fun q => dist q p0) coords) (map (fun q => dist q pB) coords)) as (s & ES & LS & _); [apply map_length|apply map_length|]. rewrite ES. cbn [bind].
  destruct (argmax_spec s) as (iC & y & EC & Hy & _); [destruct s; [destruct coords; [congruence|discriminate]|discriminate]|]. rewrite EC. cbn [bind]. destruct (nth_error_lt coords iC) as [pC HC]; [apply nth_error_Some_lt in Hy; lia|]. rewrite (proj2 (get_Ok _ _ _) HC). cbn [bind].
  exists p0, pB, pC. split; [exact H0|]. split; [exact (nth_error_In _ _ HB)|]. split; [exact (nth_error_In _ _ HC)|]. reflexivity.
Qed.
Lemma columns_get tr a b c : has_columns tr a b c -> dim 3 c -> mapM (fun row => get row 2) tr = Ok c.
Proof. intros -> Dc. destruct (dim3 _ Dc) as (x & y & z & ->). reflexivity. Qed.
Lemma planar_deviations coords d tol : coords <> [] -> rect 3 coords -> dim 3 d -> 0 <= tol ->
  exists b, (do diffs <- mapM (fun i => if Nat.eqb i 0 then Ok 0 else do p <- get coords i; do x <- vdot p d; Ok (Rabs x)) (seq 0 (length coords)); do mx <- rmax diffs; Ok (rleb mx tol)) = Ok b /\
    (b = true <-> forall i p, (0 < i)%nat -> nth_error coords i = Some p -> Rabs (sprod d p) <= tol).
Proof.
  intros HN HR Dd Ht. destruct (deviations (fun i => do p <- get coords i; do x <- vdot p d; Ok (Rabs x)) (fun i => Rabs (sprod d (nth i coords []))) (length coords) tol) as (b & E & Hb); [destruct coords; [congruence|cbn; lia]|exact Ht| |].
  { intros i Hi. destruct (nth_error_lt coords i) as [p Hp]; [lia|]. pose proof (rect_nth _ _ _ _ HR Hp) as Dp. rewrite (proj2 (get_Ok _ _ _) Hp). cbn [bind]. rewrite (vdot_sprod p d Dp Dd). cbn [bind]. rewrite (nth_error_nth _ _ [] Hp), sprod_comm by assumption. reflexivity. }
  exists b. split; [exact E|]. rewrite Hb. split.
  - intros H i p Hi Hp. specialize (H i). rewrite (nth_error_nth _ _ [] Hp) in H. apply H. apply nth_error_Some_lt in Hp. lia.
  - intros H i Hi. apply (H i); [lia|]. apply nth_err_nth. lia.
Qed.
(** what the answer True means *)
Lemma planar_sound : forall coords tol, coords <> [] -> rect 3 coords -> 0 <= tol -> is_planar coords tol = Ok true ->
  exists d, dim 3 d /\ sprod d d = 1 /\ forall i p, (0 < i)%nat -> nth_error coords i = Some p -> Rabs (sprod d p) <= tol.
Proof.
  intros coords tol HN HR Ht E. destruct (planar_run coords tol HN HR) as (p0 & pB & pC & H0 & IB & IC & ER). rewrite ER in E. clear ER.
  assert (D : forall p, In p coords -> dim 3 p) by (unfold rect in HR; rewrite Forall_forall in HR; exact HR). pose proof (D _ (nth_error_In _ _ H0)) as D0. pose proof (D _ IB) as DB. pose proof (D _ IC) as DC.
  set (ps := [p0; pB; pC]) in *. assert (NP : ps <> []) by discriminate. assert (RP : rect 3 ps) by (repeat constructor; assumption).
  destruct (plane_at ps p0 pB NP RP eq_refl eq_refl) as (_ & _ & DM & EP). set (q := means 3 ps) in *.
  assert (DU : dim 3 (sub p0 q)) by (apply vsub_dim3; assumption). assert (DV : dim 3 (sub pB q)) by (apply vsub_dim3; assumption).
  destruct (vec0 (py (sub p0 q) * pz (sub pB q) - pz (sub p0 q) * py (sub pB q)) (pz (sub p0 q) * px (sub pB q) - px (sub p0 q) * pz (sub pB q)) (px (sub p0 q) * py (sub pB q) - py (sub p0 q) * px (sub pB q))) as [Z|N].
  { rewrite EP, axes_zero in E; [discriminate|exact DU|exact DV|exact Z]. }
  destruct (axes_ok _ _ DU DV N) as (a & b & c & EA & RH & _). rewrite EP, EA in E. cbn [bind] in E. assert (Dc : dim 3 c) by apply RH. rewrite (columns_get (of_columns a b c) a b c eq_refl Dc) in E. cbn [bind] in E.
  destruct (planar_deviations coords c tol HN HR Dc Ht) as (r & Er & Hr). rewrite Er in E. injection E as ->. exists c. split; [exact Dc|]. split; [apply RH|]. now apply Hr.
Qed.
(** planes that do not pass through the origin *)
Lemma planar_offset : forall coords n h tol, coords <> [] -> rect 3 coords -> dim 3 n -> sprod n n = 1 -> in_plane n h coords -> 0 <= tol < Rabs h -> is_planar coords tol = Ok false.
Proof.
  intros coords n h tol HN HR Dn Un HP Ht. destruct (planar_run coords tol HN HR) as (p0 & pB & pC & H0 & IB & IC & ER). rewrite ER. clear ER.
  assert (D : forall p, In p coords -> dim 3 p) by (unfold rect in HR; rewrite Forall_forall in HR; exact HR). pose proof (D _ (nth_error_In _ _ H0)) as D0. pose proof (D _ IB) as DB. pose proof (D _ IC) as DC.
  set (ps := [p0; pB; pC]) in *. assert (NP : ps <> []) by discriminate. assert (RP : rect 3 ps) by (repeat constructor; assumption).
  destruct (frame_of_plane Floating ps) as [[m tr]|e] eqn:EF; [|reflexivity].
  destruct (plane_normal ps n h tr m NP RP Dn Un) as (a & b & c & HC & RH & HS); [intros p [<-|[<-|[<-|[]]]]; apply HP; [exact (nth_error_In _ _ H0)|exact IB|exact IC]|exact EF|].
  assert (Dc : dim 3 c) by apply RH. rewrite (columns_get tr a b c HC Dc). cbn [bind]. destruct (planar_deviations coords c tol HN HR Dc ltac:(lra)) as (r & Er & Hr). rewrite Er. destruct r; [|reflexivity]. exfalso. destruct Hr as (Hr & _). specialize (Hr eq_refl).
  assert (SC : forall p, In p coords -> Rabs (sprod c p) = Rabs h).
  { intros p Hp. rewrite <- (HP p Hp). destruct HS as [-> | ->]; [reflexivity|]. rewrite <- (Rabs_Ropp (sprod c p)). f_equal. destruct (dim3 _ Dc) as (x & y & z & ->), (dim3 _ (D p Hp)) as (x' & y' & z' & ->). unfold sprod. cbn. ring. }
  destruct coords as [|q0 [|q1 coords]]; [congruence| |].
  - cbn in H0. injection H0 as ->. destruct IB as [<-|[]]. destruct IC as [<-|[]]. unfold ps in EF.
    rewrite (plane_degenerate [p0; p0; p0] p0 p0 (means 3 [p0; p0; p0])) in EF; [discriminate|discriminate|repeat constructor; exact D0|reflexivity|reflexivity|apply means_mean; discriminate|].
    exists p0, p0. intros p [<-|[<-|[<-|[]]]]; exists 0; intros k Hk; [|ring|ring]. rewrite means_nth by exact Hk. cbn [map rsum fold_right length INR]. field.
  - pose proof (Hr 1%nat q1 ltac:(lia) eq_refl) as B. rewrite (SC q1 ltac:(cbn; tauto)) in B. lra.
Qed.
(** points on a line *)
Lemma planar_line : forall coords tol, coords <> [] -> rect 3 coords -> on_common_line coords -> is_planar coords tol = Ok false.
Proof.
  intros coords tol HN HR (o & u & HL). destruct (planar_run coords tol HN HR) as (p0 & pB & pC & H0 & IB & IC & ER). rewrite ER. clear ER.
  assert (D : forall p, In p coords -> dim 3 p) by (unfold rect in HR; rewrite Forall_forall in HR; exact HR). pose proof (D _ (nth_error_In _ _ H0)) as D0. pose proof (D _ IB) as DB. pose proof (D _ IC) as DC.
  rewrite (plane_degenerate [p0; pB; pC] p0 pB (means 3 [p0; pB; pC])); [reflexivity|discriminate|repeat constructor; assumption|reflexivity|reflexivity|apply means_mean; discriminate|].
  destruct (HL p0 (nth_error_In _ _ H0)) as (t0 & T0). destruct (HL pB IB) as (t1 & T1). destruct (HL pC IC) as (t2 & T2). exists o, u. intros p [<-|[<-|[<-|[]]]]; [|exists t0; exact T0|exists t1; exact T1].
  exists ((t0 + t1 + t2) / 3). intros k Hk. rewrite means_nth by exact Hk. cbn [map rsum fold_right length INR]. rewrite (T0 k Hk), (T1 k Hk), (T2 k Hk). field.
Qed.
