(** * Proofs about meshes, part 5: blocks and their sources, coordinates, centres *)
From Coq Require Import Reals Lra Lia ZArith List String.
From Verif Require Import Base BaseFacts TopoSpec TopoProofs4 NodalProofs4 TrSpec FrameProofs FrameProofs2 MeshModel MeshSpec MeshProofs MeshProofs2 MeshProofs3 MeshProofs4.
Import ListNotations.
Local Open Scope nat_scope.

Definition ctx_src (c : ctx) : option (frame * list vec) := option_map (fun fp => (fst fp, px (snd fp))) (source_here c).
Lemma enter_frame c b : frame_here (enter c b) = frame_in (frame_here c) b.
Proof. unfold enter. cbn [frame_here]. apply frame_in_eq. Qed.
Lemma enter_src c b : ctx_src (enter c b) = source_in (frame_here c) (ctx_src c) b.
Proof. unfold enter, ctx_src, source_in. cbn [source_here]. rewrite frame_in_eq. destruct (bpd b); [|reflexivity]. destruct (frame_in (frame_here c) b); reflexivity. Qed.
Lemma block_at_under path : forall c m up src b, under (frame_here c) (ctx_src c) m path = Some (up, src, b) ->
  exists c', block_at c m path = Ok (c', b) /\ frame_here c' = up /\ ctx_src c' = src.
Proof.
  induction path as [|i t IH]; intros c m up src b H; cbn [under block_at] in *.
  - injection H as <- <- <-. exists c. auto.
  - destruct (nth_error (bsub m) i) as [s|] eqn:E; [|discriminate]. apply get_Ok in E. rewrite E. cbn [bind].
    apply IH. now rewrite enter_frame, enter_src.
Qed.
Lemma source_in_own up src b p : bpd b = Some p -> exists g, frame_in up b = Some g /\ source_in up src b = Some (g, px p).
Proof. intros H. destruct b as [f pd cd subs]. cbn [bpd] in H. subst pd. destruct (frame_in_some up f p cd subs) as [g E]. exists g. unfold source_in. cbn [bpd]. now rewrite E. Qed.
Lemma source_under path : forall up src m u s b, under up src m path = Some (u, s, b) ->
  match source_path m path with
  | None => source_in u s b = src
  | Some sp => exists u' s' sb p g, under up src m sp = Some (u', s', sb) /\ bpd sb = Some p /\ frame_in u' sb = Some g /\ source_in u s b = Some (g, px p)
  end.
Proof.
  induction path as [|i t IH]; intros up src m u s b H; cbn [under source_path] in *.
  - injection H as -> -> ->. destruct (bpd b) as [p|] eqn:E.
    + destruct (source_in_own u s b p E) as (g & Eg & Es). exists u, s, b, p, g. auto.
    + unfold source_in. now rewrite E.
  - destruct (nth_error (bsub m) i) as [c|] eqn:E; [|discriminate]. specialize (IH _ _ _ _ _ _ H). destruct (source_path c t) as [sp|].
    + destruct IH as (u' & s' & sb & p & g & H1 & H2). exists u', s', sb, p, g. cbn [under]. rewrite E. auto.
    + destruct (bpd m) as [p|] eqn:Ep.
      * destruct (source_in_own up src m p Ep) as (g & Eg & Es). exists up, src, m, p, g. cbn [under]. rewrite <- Es. auto.
      * unfold source_in in IH at 2. now rewrite Ep in IH.
Qed.
Lemma each_mapM {A B} (f : A -> res B) l : each f l = mapM f l.
Proof. induction l as [|a l IH]; [reflexivity|]. cbn [each mapM]. now rewrite IH. Qed.

(** ** Points and coordinates *)
Lemma walk_framed b : forall c, map (fun cp => (frame_here (fst cp), snd cp)) (pointblocks (walk c b)) = framed (frame_here c) b.
Proof.
  induction b as [f pd cd subs IH] using block_induction. intros c. cbn [walk bsub framed]. rewrite <- enter_frame. set (c' := enter c (Block f pd cd subs)). clearbody c'.
  change (?a :: ?l) with ([a] ++ l). rewrite pointblocks_app, map_app. f_equal; [destruct pd; reflexivity|].
  induction IH as [|b l Hb _ IHl]; [reflexivity|]. cbn [map concat flat_map]. now rewrite pointblocks_app, map_app, Hb, IHl.
Qed.
Lemma mapM_ok_map {A B} (f : A -> res B) g l : (forall x, In x l -> f x = Ok (g x)) -> mapM f l = Ok (map g l).
Proof.
  induction l as [|a l IH]; intros H; [reflexivity|]. cbn [mapM map]. rewrite H by now left. cbn [bind]. rewrite IH; [reflexivity|]. intros x Hx. apply H. now right.
Qed.
Definition dframe (f : option frame) : frame := match f with Some g => g | None => standard end.
(** the coordinates in the frame of the block, without the origins *)
Definition converted (T : frame) (l : list (option frame * points)) : list vec :=
  flat_map (fun fp => map (fun x => vshow (Some (dframe (fst fp))) x (Some T)) (px (snd fp))) l.
Lemma points_of_value c b T : frame_in (frame_here c) b = Some T -> arrays b <> [] ->
  points_of c b = Ok (Cloud (converted T (framed (frame_here c) b)) T (Some (map Z.of_nat (concat (map pid (arrays b)))))).
Proof.
  intros HT Hne. unfold points_of. unfold the_frame at 1. rewrite enter_frame, HT. cbn [bind].
  pose proof (framed_some b (frame_here c)) as Hs. rewrite <- walk_framed in *. rewrite Forall_map in Hs. cbn [fst] in Hs.
  set (pbs := pointblocks (walk c b)) in *.
  rewrite (mapM_ok_map _ (fun cp => map (fun p => vshow (Some (dframe (frame_here (fst cp)))) p (Some T)) (px (snd cp)))).
  2:{ intros cp Hin. rewrite Forall_forall in Hs. destruct (Hs cp Hin) as [f Ef]. unfold the_frame. rewrite Ef. reflexivity. }
  cbn [bind]. pose proof (walk_arrays b c) as Ea. fold pbs in Ea. set (parts := map _ pbs).
  assert (Hp : parts <> []). { intros E. apply map_eq_nil in E. now rewrite <- Ea, E in Hne. }
  assert (Ec : concat parts = converted T (map (fun cp => (frame_here (fst cp), snd cp)) pbs)) by (unfold parts, converted; rewrite flat_map_concat_map, map_map; reflexivity).
  rewrite <- Ea, map_map, <- Ec. clearbody parts. destruct parts; [congruence|]. reflexivity.
Qed.
Lemma place_converted f T x : orthonormal (axes T) -> origin_of f = origin_of T -> place T (vshow (Some f) x (Some T)) = place f x.
Proof.
  intros Ho E. unfold place. rewrite vshow_value. cbn [axes_opt direction_in]. rewrite direction_mvec by assumption. now rewrite E.
Qed.
Lemma converted_places T l : orthonormal (axes T) -> Forall (fun fp => exists f, fst fp = Some f /\ origin_of f = origin_of T) l ->
  forall qs, Forall2 (fun fx q => match fst fx with Some f => placed_at f (snd fx) q | None => False end) (flat_map (fun fp => map (fun x => (fst fp, x)) (px (snd fp))) l) qs ->
  map (place T) (converted T l) = qs.
Proof.
  intros Ho Hl. unfold converted. induction Hl as [|[f p] l (g & Eg & Eo) _ IH]; intros qs H.
  - inversion H. reflexivity.
  - cbn [flat_map fst snd] in *. subst f. apply Forall2_app_inv_l in H as (q1 & q2 & H1 & H2 & ->). rewrite map_app. f_equal; [|now apply IH].
    cbn [dframe]. clear -Ho Eo H1. revert q1 H1. induction (px p) as [|x xs IHx]; intros q1 H1; inversion H1 as [|? q ? qs Hq Hqs]; subst; [reflexivity|].
    cbn [map]. f_equal; [|now apply IHx]. cbn [fst snd] in Hq. apply placed_iff in Hq. rewrite Hq. now apply place_converted.
Qed.
Lemma coords_places m T qs : frame_in None m = Some T -> orthonormal (axes T) -> arrays m <> [] ->
  Forall (fun fp => exists f, fst fp = Some f /\ origin_of f = origin_of T) (framed None m) -> points_at m qs ->
  coords_of top m None = Ok qs /\
  forall t, orthonormal (axes t) -> (exists a o, T = Cartesian a o) \/ (exists a, t = Plain a \/ t = Cartesian a (0, 0, 0)%R) ->
    exists cs, coords_of top m (Some t) = Ok cs /\ same_places standard qs t cs.
Proof.
  intros HT Ho Hne Hall Hqs. unfold coords_of. rewrite (points_of_value top m T HT Hne). cbn [bind frame_here top].
  pose proof (converted_places T _ Ho Hall qs Hqs) as E. split.
  - f_equal. rewrite show_map. cbn [array cframe]. rewrite <- E. apply map_ext. intros x. apply shown_ambient.
  - intros t Ht Hs. eexists. split; [reflexivity|]. apply same_places_iff. rewrite show_map, map_map. cbn [array cframe]. rewrite <- E, !map_map. apply map_ext. intros x.
    rewrite place_standard by auto. symmetry. apply place_shown; [assumption|]. unfold sees. destruct T as [a|a o]; [|exact I].
    destruct Hs as [(a' & o & E')|(a' & [-> | ->])]; [discriminate|reflexivity|reflexivity].
Qed.

(** ** New meshes: the constructor of the points applies the frame, and so does [coords] *)
Lemma new_points_px x f ids act fs : px (new_points x f ids act fs) = map (place (dframe f)) x.
Proof. unfold new_points. cbn [px]. rewrite show_map. cbn [new_cloud array cframe]. apply map_ext. intros q. rewrite shown_ambient. now destruct f. Qed.
Lemma vshow_same T x : orthonormal (axes T) -> vshow (Some T) x (Some T) = x.
Proof. intros H. rewrite vshow_value. cbn [axes_opt direction_in]. now apply mvec_direction. Qed.
Lemma new_mesh_frame x t f : frame_in None (new_mesh x t f) = Some (dframe f).
Proof. destruct f; reflexivity. Qed.
Lemma new_mesh_framed x t f : framed None (new_mesh x t f) = [(Some (dframe f), new_points x f (seq 0 (length x)) None [])].
Proof. unfold new_mesh. cbn [framed flat_map app]. now destruct f. Qed.
Lemma new_mesh_coords x t f : orthonormal (axes (dframe f)) -> coords_of top (new_mesh x t f) None = Ok (map (fun q => place (dframe f) (place (dframe f) q)) x).
Proof.
  intros Ho. unfold coords_of. rewrite (points_of_value top _ (dframe f)); [|apply new_mesh_frame|discriminate]. cbn [bind frame_here top]. f_equal.
  rewrite show_map. cbn [array cframe]. rewrite new_mesh_framed. unfold converted. cbn [flat_map fst snd dframe]. rewrite app_nil_r, new_points_px, !map_map. apply map_ext. intros q.
  rewrite shown_ambient, vshow_same by assumption. reflexivity.
Qed.
Lemma map_place_standard qs : map (place standard) qs = qs.
Proof. rewrite <- (map_id qs) at 2. apply map_ext. intros q. apply place_standard. now left. Qed.
Lemma new_mesh_twice x t F qs : orthonormal (axes F) -> same_places F x standard qs ->
  exists qs', coords_of top (new_mesh x t (Some F)) None = Ok qs' /\ same_places F qs standard qs'.
Proof.
  intros Ho H. rewrite (new_mesh_coords x t (Some F)) by assumption. eexists. split; [reflexivity|]. apply same_places_iff in H. apply same_places_iff.
  rewrite map_place_standard in *. rewrite <- H, map_map. reflexivity.
Qed.
Lemma new_mesh_standard x t f : f = None \/ f = Some standard \/ f = Some (Plain (axes standard)) -> coords_of top (new_mesh x t f) None = Ok x.
Proof.
  intros H. assert (Hg : dframe f = standard \/ dframe f = Plain (axes standard)) by (destruct H as [-> | [-> | ->]]; auto).
  rewrite new_mesh_coords by (destruct Hg as [-> | ->]; exact orthonormal_eye). f_equal. rewrite <- (map_id x) at 2. apply map_ext. intros q. now rewrite !place_standard.
Qed.
Lemma new_mesh_wrong : exists x t F qs qs', orthonormal (axes F) /\ same_places F x standard qs /\ coords_of top (new_mesh x t (Some F)) None = Ok qs' /\ qs' <> qs.
Proof.
  exists [(0, 0, 0)%R], [], (Cartesian meye (1, 0, 0)%R), [(1, 0, 0)%R], [(2, 0, 0)%R]. split; [exact orthonormal_eye|]. split; [|split].
  - apply same_places_iff. cbn. f_equal. apply triple_eq; lra.
  - rewrite new_mesh_coords by exact orthonormal_eye. cbn. do 2 f_equal. apply triple_eq; lra.
  - intros E. injection E. intros. lra.
Qed.
Definition two_origins : block := Block (Some standard) None None
  [Block (Some (Cartesian meye (1, 0, 0)%R)) (Some (Points [(0, 0, 0); (1, 0, 0)]%R None [0; 1] [true; true] [])) (Some one_line) []].
Lemma coords_origins_wrong : exists m o p k qs cs, m = Block (Some standard) None None [Block (Some (Cartesian meye o)) (Some p) (Some k) []] /\ pframe p = None /\ points_at m qs /\ coords_of top m None = Ok cs /\ cs <> qs.
Proof.
  eexists two_origins, _, _, _, [(1, 0, 0); (2, 0, 0)]%R, [(0, 0, 0); (1, 0, 0)]%R. split; [reflexivity|]. split; [reflexivity|]. split; [|split].
  - unfold points_at. cbn. constructor; [|constructor; [|constructor]]; cbn [fst snd]; apply placed_iff; cbn; apply triple_eq; lra.
  - unfold coords_of. rewrite (points_of_value top two_origins standard); [|reflexivity|discriminate]. cbn [bind]. f_equal. rewrite show_map. cbn [array cframe].
    cbn. f_equal; [|f_equal]; apply triple_eq; lra.
  - intros E. injection E. intros. lra.
Qed.

(** ** Meshes with all points at the root *)
Lemma source_path_bare b path : arrays b = [] -> source_path b path = None.
Proof.
  revert b. induction path as [|i t IH]; intros [f pd cd subs] H; cbn [arrays] in H; apply app_eq_nil in H as [H1 H2]; cbn [source_path bpd bsub]; destruct pd; try discriminate; [reflexivity|].
  destruct (nth_error subs i) as [s|] eqn:E; [|reflexivity]. rewrite IH; [reflexivity|]. apply nth_error_In in E. clear -E H2. induction subs as [|b l IHl]; [destruct E|].
  cbn [flat_map] in H2. apply app_eq_nil in H2 as [H2 H3]. destruct E as [->|E]; auto.
Qed.
Lemma flat_map_nil_in {A B} (f : A -> list B) l a : flat_map f l = [] -> In a l -> f a = [].
Proof. induction l as [|b l IH]; intros H Hin; [destruct Hin|]. cbn [flat_map] in H. apply app_eq_nil in H as [H1 H2]. destruct Hin as [->|Hin]; auto. Qed.
Lemma bare_subs b i s : arrays b = [] -> nth_error (bsub b) i = Some s -> arrays s = [].
Proof. destruct b as [f pd cd subs]. cbn [arrays bsub]. intros H E. apply app_eq_nil in H as [_ H]. apply nth_error_In in E. now apply (flat_map_nil_in arrays subs). Qed.
Lemma source_in_bare up src b : arrays b = [] -> source_in up src b = src.
Proof. destruct b as [f [p|] cd subs]; [discriminate|]. reflexivity. Qed.
Lemma under_bare path : forall up src b u s c, arrays b = [] -> under up src b path = Some (u, s, c) -> s = src /\ arrays c = [].
Proof.
  induction path as [|i t IH]; intros up src b u s c H E; cbn [under] in E.
  - injection E as <- <- <-. auto.
  - destruct (nth_error (bsub b) i) as [x|] eqn:Ex; [|discriminate]. pose proof (bare_subs b i x H Ex) as Hx. destruct (IH _ _ _ _ _ _ Hx E) as [-> Hc]. rewrite source_in_bare by assumption. auto.
Qed.
Lemma rooted_subs m p T i s : rooted m p T -> nth_error (bsub m) i = Some s -> arrays s = [].
Proof.
  intros (Hp & Ha & _) E. destruct m as [f pd cd subs]. cbn [bpd bsub arrays] in *. subst pd. cbn [app] in Ha. injection Ha as Ha. apply nth_error_In in E. now apply (flat_map_nil_in arrays subs).
Qed.
Lemma rooted_source m p T path u s b : rooted m p T -> under None None m path = Some (u, s, b) -> source_path m path = Some [] /\ cells_in u s b = map (fun r => (Some (T, px p), r)) (rows_in b).
Proof.
  intros Hm E. destruct path as [|i t]; cbn [under source_path] in *.
  - destruct Hm as (Hp & Ha & HT). injection E as <- <- <-. rewrite Hp. split; [reflexivity|]. destruct m as [f pd cd subs]. cbn [bpd] in Hp. subst pd. cbn [cells_in]. rewrite HT.
    cbn [arrays app] in Ha. injection Ha as Ha. rewrite cells_in_bare_l by assumption. rewrite rows_in_block, map_app. destruct cd; reflexivity.
  - destruct (nth_error (bsub m) i) as [x|] eqn:Ex; [|discriminate]. pose proof (rooted_subs m p T i x Hm Ex) as Hx. rewrite source_path_bare by assumption. destruct Hm as (Hp & Ha & HT).
    rewrite Hp. split; [reflexivity|]. unfold source_in in E. rewrite Hp, HT in E. destruct (under_bare _ _ _ _ _ _ _ Hx E) as [-> Hb]. now apply cells_in_bare.
Qed.
Lemma topology_rows c b : topology_of c b = rows_in b.
Proof. unfold topology_of, rows_in. rewrite <- (walk_cells b c), map_map. reflexivity. Qed.
Lemma rooted_coords m p T : rooted m p T -> orthonormal (axes T) -> coords_of top m None = Ok (map (place T) (px p)).
Proof.
  intros (Hp & Ha & HT) Ho. unfold coords_of. rewrite (points_of_value top m T) by (auto; rewrite Ha; discriminate). cbn [bind]. f_equal. rewrite show_map. cbn [array cframe].
  assert (E : framed None m = [(Some T, p)]).
  { destruct m as [f pd cd subs]. cbn [bpd] in Hp. subst pd. cbn [framed]. rewrite HT. cbn [arrays app] in Ha. injection Ha as Ha. now rewrite framed_bare_l. }
  cbn [frame_here top]. rewrite E. unfold converted. cbn [flat_map fst snd dframe]. rewrite app_nil_r, map_map. apply map_ext. intros x. now rewrite shown_ambient, vshow_same.
Qed.

(** the centres of the cells *)
Lemma row_mean_value l : l <> [] -> exists c, row_mean l = Ok c /\ centroid l c.
Proof.
  intros H. unfold row_mean. rewrite !mean_value by (destruct l; [congruence|discriminate]). cbn [bind]. eexists. split; [reflexivity|]. split; [assumption|]. rewrite !map_length. reflexivity.
Qed.
Lemma centers_places m path p T ps : rooted m p T -> orthonormal (axes T) -> part_at m path ps -> ps <> [] -> Forall (fun qs => qs <> []) ps ->
  exists cs, mesh_centers m path None = Ok cs /\ Forall2 centroid ps cs.
Proof.
  intros Hm Ho (u & s & b & Hu & Hps) Hne Hcell. destruct (rooted_source m p T path u s b Hm Hu) as [Hsp Hci]. unfold mesh_centers.
  destruct (block_at_under path top m u s b Hu) as (c' & E & _ & _). rewrite E. cbn [bind fst snd]. unfold the_source. rewrite Hsp. cbn [bind block_at fst snd].
  rewrite (rooted_coords m p T Hm Ho). cbn [bind]. rewrite topology_rows. rewrite Hci in Hps.
  assert (Hcb : cellblocks (walk c' b) <> []).
  { intros Ec. apply Hne. pose proof (walk_cells b c') as Hw. rewrite Ec in Hw. cbn [map] in Hw. unfold rows_in in Hps. rewrite <- Hw in Hps. cbn in Hps. now inversion Hps. }
  destruct (cellblocks (walk c' b)) as [|k0 ks]; [congruence|]. cbn [guard bind].
  assert (G : exists cs, mapM (fun row => do q <- mapM (get (map (place T) (px p))) row; row_mean q) (rows_in b) = Ok cs /\ Forall2 centroid ps cs).
  { clear -Hps Hcell. remember (map (fun r => (Some (T, px p), r)) (rows_in b)) as l eqn:El. revert El. generalize (rows_in b) as rs. intros rs El. revert rs El Hcell.
    induction Hps as [|c qs l ps Hc _ IH]; intros [|r rs] El Hcell; try discriminate.
    - exists []. split; [reflexivity|constructor].
    - cbn [map] in El. injection El as -> ->. inversion Hcell as [|? ? H1 H2]; subst. destruct (IH rs eq_refl H2) as (cs & E & HF). cbn [fst snd] in Hc.
      assert (Eq : mapM (get (map (place T) (px p))) r = Ok qs).
      { clear -Hc. induction Hc as [|i q r qs (x & Ex & Hq) _ IHr]; [reflexivity|]. cbn [mapM]. apply placed_iff in Hq. subst q.
        rewrite (proj2 (get_Ok (map (place T) (px p)) i (place T x))) by now apply map_nth_error. cbn [bind]. now rewrite IHr. }
      destruct (row_mean_value qs H1) as (m & Em & Hm). exists (m :: cs). cbn [mapM]. rewrite Eq. cbn [bind]. rewrite Em. cbn [bind]. rewrite E. split; [reflexivity|]. now constructor. }
  destruct G as (cs & -> & HF). exists cs. split; [reflexivity|assumption].
Qed.
Lemma centers_target_wrong : exists m p k o ps cs t c, t = Cartesian meye o /\ m = Block (Some t) (Some p) (Some k) [] /\ pframe p = Some t /\ mesh_at m ps /\ mesh_centers m [] (Some t) = Ok cs /\
  Forall2 centroid ps [c] /\ ~ same_places standard [c] t cs.
Proof.
  set (F := Cartesian meye (1, 0, 0)%R). eexists (line_in F), _, _, _, [[(1, 0, 0); (2, 0, 0)]]%R.
  assert (Hm : rooted (line_in F) (two_points (Some F)) F) by (repeat split).
  assert (Hps : mesh_at (line_in F) [[(1, 0, 0); (2, 0, 0)]]%R).
  { replace [[(1, 0, 0); (2, 0, 0)]]%R with [[place F (0, 0, 0)%R; place F (1, 0, 0)%R]]; [apply line_in_at|]. cbn. f_equal. f_equal; [|f_equal]; apply triple_eq; lra. }
  assert (Hpart : part_at (line_in F) [] [[(1, 0, 0); (2, 0, 0)]]%R) by (exists None, None, (line_in F); split; [reflexivity|exact Hps]).
  destruct (centers_places (line_in F) [] _ _ _ Hm orthonormal_eye Hpart ltac:(discriminate) ltac:(repeat constructor; discriminate)) as (cs & E & HF).
  inversion HF as [|? c ? l Hc Hl]; subst. inversion Hl; subst. clear HF Hl.
  exists (show (new_cloud [c] (Some F) None) (Some F)), F, c. do 3 (split; [reflexivity|]). split; [assumption|]. split; [|split].
  - unfold mesh_centers in *. cbn [block_at bind fst snd] in *. destruct (the_source (line_in F) []) as [sp|] eqn:Es; [|discriminate]. injection Es as <-. cbn [block_at bind fst snd] in *.
    destruct (coords_of top (line_in F) None) as [co|]; [|discriminate]. cbn [bind] in *. destruct (guard _ _) as [|]; [|discriminate]. cbn [bind] in *.
    destruct (mapM _ _) as [cs|]; [|discriminate]. cbn [bind] in *. injection E as ->. reflexivity.
  - constructor; [assumption|constructor].
  - intros H. assert (Es : show (new_cloud [c] (Some F) None) (Some F) = [c]) by (apply (show_own (new_cloud [c] (Some F) None)); [exact orthonormal_eye|exists meye, (1, 0, 0)%R; reflexivity]).
    rewrite Es in H. apply same_places_iff in H. cbn [array new_cloud map] in H. injection H as H. rewrite place_standard in H by auto. destruct c as [[x y] z]. cbn in H. injection H. intros. lra.
Qed.
