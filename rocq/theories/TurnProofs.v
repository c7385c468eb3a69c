(** * Proofs about [TurnModel.v] *)
From Coq Require Import Reals Lra Lia ZArith List String.
From Verif Require Import Base BaseFacts TopoSpec TopoProofs4 TopoProofs5 NodalProofs4 TrSpec FrameProofs FrameProofs2 MeshModel MeshSpec MeshProofs MeshProofs2 MeshProofs3 MeshProofs4 MeshProofs5 MeshProofs6 MeshProofs7 TurnModel TurnSpec.
Import ListNotations.
Local Open Scope R_scope.

(** ** products of matrices *)
Lemma mmul_relative r f : mmul r f = relative_axes f r.
Proof. destruct r as [[a b] c]. unfold mmul, relative_axes. now rewrite !mvec_trans. Qed.
Lemma relative_eye r : relative_axes meye r = r.
Proof. destruct r as [[a b] c]. unfold relative_axes. now rewrite !direction_eye. Qed.
Lemma orthonormal_dots m : orthonormal m <-> let '(a, b, c) := m in vdot3 a a = 1 /\ vdot3 b b = 1 /\ vdot3 c c = 1 /\ vdot3 a b = 0 /\ vdot3 a c = 0 /\ vdot3 b c = 0.
Proof. comps. reflexivity. Qed.
Lemma dot_direction f a b : orthonormal f -> vdot3 (direction f a) (direction f b) = vdot3 a b.
Proof.
  intros H. comps. cbn in *. destruct H as (H1 & H2 & H3 & H4 & H5 & H6).
  match goal with |- ?l = ?x1 * ?y1 + ?x2 * ?y2 + ?x3 * ?y3 =>
    match type of H1 with ?g1 = 1 => match type of H2 with ?g2 = 1 => match type of H3 with ?g3 = 1 => match type of H4 with ?g4 = 0 => match type of H5 with ?g5 = 0 => match type of H6 with ?g6 = 0 =>
      transitivity (x1 * y1 * g1 + x2 * y2 * g2 + x3 * y3 * g3 + (x1 * y2 + x2 * y1) * g4 + (x1 * y3 + x3 * y1) * g5 + (x2 * y3 + x3 * y2) * g6); [ring|rewrite H1, H2, H3, H4, H5, H6; ring]
    end end end end end end end.
Qed.
Lemma orthonormal_relative f r : orthonormal f -> orthonormal r -> orthonormal (relative_axes f r).
Proof. intros Hf Hr. rewrite orthonormal_dots in *. destruct r as [[a b] c]. unfold relative_axes. rewrite <- orthonormal_dots in Hf. rewrite !dot_direction by assumption. exact Hr. Qed.
Lemma relative_direction f r v : direction (relative_axes f r) v = direction f (direction r v).
Proof. comps. cbn. apply triple_eq; ring. Qed.
Lemma orthonormal_trans r : orthonormal r -> orthonormal (mtrans r).
Proof. exact (orthonormal_columns r). Qed.

(** ** point clouds *)
(** the axes to which the frame of a cloud is turned *)
Definition target_axes (f : mat) (o : orientation) : mat := match o with ToFrame g => axes g | By r => relative_axes f r end.
Lemma rotate_value c o : rotate c o = Cloud (map (direction (target_axes (axes (cframe c)) o)) (array c)) (cframe c) (inds c).
Proof.
  unfold rotate, orient. f_equal. apply map_ext. intros v. rewrite mvec_trans. destruct o as [g|r]; [reflexivity|]. unfold orient_new, target_axes. now rewrite mmul_relative.
Qed.
Lemma place_axes f T p : place (with_axes f T) p = vplus (origin f) (direction T p).
Proof. destruct f as [a|a o]; unfold place; cbn [with_axes origin_of axes origin]; reflexivity. Qed.
Lemma place_origin f p : place f p = vplus (origin f) (direction (axes f) p).
Proof. destruct f; reflexivity. Qed.
Lemma turned_iff o T p q : turned_about o T p q <-> q = vplus o (direction T (vminus p o)).
Proof.
  unfold turned_about. split.
  - intros (v & H1 & H2). apply displaced_iff in H1, H2. subst. f_equal. f_equal. comps. cbn. apply triple_eq; ring.
  - intros ->. exists (vminus p o). split; apply displaced_iff; [|reflexivity]. now rewrite vplus_minus.
Qed.
Lemma vminus_vplus o v : vminus (vplus o v) o = v.
Proof. comps. cbn. apply triple_eq; ring. Qed.
Lemma turn_standard : forall c o T, axes (cframe c) = ((1, 0, 0), (0, 1, 0), (0, 0, 1)) -> T = match o with ToFrame g => axes g | By r => r end ->
  turned_with (cframe c) T (array c) (array (rotate c o)) /\
  Forall2 (fun p q => exists w w', placed_at (cframe c) p w /\ placed_at (cframe c) q w' /\ turned_about (origin (cframe c)) T w w') (array c) (array (rotate c o)) /\
  cframe (rotate c o) = cframe c /\ inds (rotate c o) = inds c.
Proof.
  intros c o T E HT. change ((1, 0, 0), (0, 1, 0), (0, 0, 1)) with meye in E. rewrite rotate_value. cbn [array cframe inds].
  assert (ET : target_axes (axes (cframe c)) o = T) by (subst T; destruct o; [reflexivity|]; cbn [target_axes]; now rewrite E, relative_eye). rewrite ET.
  split; [|split; [|auto]].
  - unfold turned_with. apply same_places_iff. rewrite map_map. apply map_ext. intros p. rewrite place_axes, place_origin, E, direction_eye. reflexivity.
  - clear HT ET. induction (array c) as [|p ps IH]; cbn [map]; constructor; [|exact IH]. exists (place (cframe c) p), (place (cframe c) (direction T p)). split; [now apply placed_iff|]. split; [now apply placed_iff|].
    apply turned_iff. rewrite !place_origin, E, !direction_eye, vminus_vplus. reflexivity.
Qed.
(** only the standard axes *)
Lemma direction_unit f : (forall v, direction f v = v) -> f = meye.
Proof.
  intros H. pose proof (H (1, 0, 0)) as H1. pose proof (H (0, 1, 0)) as H2. pose proof (H (0, 0, 1)) as H3. comps. cbn in *. injection H1 as ? ? ?. injection H2 as ? ? ?. injection H3 as ? ? ?.
  unfold meye. repeat apply triple_eq || f_equal; lra.
Qed.
Lemma vplus_inj o a b : vplus o a = vplus o b -> a = b.
Proof. comps. cbn. intros H. injection H as H1 H2 H3. apply triple_eq; lra. Qed.
Lemma turn_only : forall f r, orthonormal (axes f) -> orthonormal r ->
  ((forall ps i, turned_with f (relative_axes (axes f) r) ps (array (rotate (Cloud ps f i) (By r)))) <-> axes f = ((1, 0, 0), (0, 1, 0), (0, 0, 1))).
Proof.
  intros f r Hf Hr. change ((1, 0, 0), (0, 1, 0), (0, 0, 1)) with meye. set (T := relative_axes (axes f) r). assert (HT : orthonormal T) by now apply orthonormal_relative. split.
  - intros H. apply direction_unit. intros v. specialize (H [mvec T v] None). unfold turned_with in H. apply same_places_iff in H. rewrite rotate_value in H. cbn [array cframe target_axes map] in H. fold T in H. injection H as H.
    rewrite place_axes, place_origin in H. apply vplus_inj in H. rewrite direction_mvec in H by assumption. now symmetry.
  - intros E ps i. unfold T. rewrite E, relative_eye. exact (proj1 (turn_standard (Cloud ps f i) (By r) r E eq_refl)).
Qed.
Lemma turn_wrong : exists c, orthonormal (axes (cframe c)) /\ ~ same_places (cframe c) (array c) (cframe c) (array (rotate c (By ((1, 0, 0), (0, 1, 0), (0, 0, 1))))).
Proof.
  exists (Cloud [(1, 0, 0)] turned None). split; [exact orthonormal_turned|]. intros H. apply same_places_iff in H. rewrite rotate_value in H. cbn [array cframe target_axes map] in H. injection H as H. cbn in H. lra.
Qed.
(** the shape is kept *)
Lemma square_dot p q : square_distance p q = vdot3 (vminus p q) (vminus p q).
Proof. comps. reflexivity. Qed.
Lemma direction_minus f a b : direction f (vminus a b) = vminus (direction f a) (direction f b).
Proof. comps. cbn. apply triple_eq; ring. Qed.
Lemma place_minus f p q : vminus (place f p) (place f q) = direction (axes f) (vminus p q).
Proof. rewrite !place_origin, direction_minus. generalize (origin f), (direction (axes f) p), (direction (axes f) q). intros o a b. comps. cbn. apply triple_eq; ring. Qed.
Lemma turn_shape : forall c o, orthonormal (axes (cframe c)) -> orthonormal (match o with ToFrame g => axes g | By r => r end) ->
  length (array (rotate c o)) = length (array c) /\
  (forall i j p q p' q' w1 w2 w1' w2', nth_error (array c) i = Some p -> nth_error (array c) j = Some q -> nth_error (array (rotate c o)) i = Some p' -> nth_error (array (rotate c o)) j = Some q' ->
    placed_at (cframe c) p w1 -> placed_at (cframe c) q w2 -> placed_at (cframe c) p' w1' -> placed_at (cframe c) q' w2' -> square_distance w1' w2' = square_distance w1 w2) /\
  forall i p p' w w', nth_error (array c) i = Some p -> nth_error (array (rotate c o)) i = Some p' -> placed_at (cframe c) p w -> placed_at (cframe c) p' w' ->
    square_distance w' (origin (cframe c)) = square_distance w (origin (cframe c)).
Proof.
  intros c o Hf Ho. rewrite rotate_value. cbn [array]. set (T := target_axes (axes (cframe c)) o). assert (HT : orthonormal T) by (unfold T; destruct o; [exact Ho|now apply orthonormal_relative]).
  split; [apply map_length|]. split.
  - intros i j p q p' q' w1 w2 w1' w2' H1 H2 H3 H4 P1 P2 P3 P4. rewrite nth_error_map, H1 in H3. rewrite nth_error_map, H2 in H4. injection H3 as <-. injection H4 as <-. apply placed_iff in P1, P2, P3, P4. subst.
    rewrite !square_dot, !place_minus, <- direction_minus, !dot_direction by assumption. reflexivity.
  - intros i p p' w w' H1 H2 P1 P2. rewrite nth_error_map, H1 in H2. injection H2 as <-. apply placed_iff in P1, P2. subst.
    rewrite !square_dot, !place_origin, !vminus_vplus, !dot_direction by assumption. reflexivity.
Qed.
(** back again *)
Lemma turn_back : forall c r, axes (cframe c) = ((1, 0, 0), (0, 1, 0), (0, 0, 1)) -> orthonormal r -> rotate (rotate c (By r)) (By (mtrans r)) = c.
Proof.
  intros [x f i] r E Hr. cbn [cframe] in E. change ((1, 0, 0), (0, 1, 0), (0, 0, 1)) with meye in E. rewrite !rotate_value. cbn [array cframe inds target_axes]. rewrite E, !relative_eye. f_equal. rewrite map_map. rewrite <- (map_id x) at 2. apply map_ext. intros p.
  rewrite <- mvec_trans, mtrans_mtrans. now apply mvec_direction.
Qed.

(** ** meshes *)
Lemma changed_rows g h xs xs' rs ps : (forall n x, nth_error xs n = Some x -> exists x', nth_error xs' n = Some x' /\ place g x' = h (place g x)) ->
  Forall2 (fun c qs => Forall2 (node_at (fst c)) (snd c) qs) (map (fun r => (Some (g, xs), r)) rs) ps ->
  Forall2 (fun c qs => Forall2 (node_at (fst c)) (snd c) qs) (map (fun r => (Some (g, xs'), r)) rs) (map (map h) ps).
Proof.
  intros Hx. revert ps. induction rs as [|r rs IH]; intros ps H; inversion H as [|? qs ? ps' Hq Hps]; subst; cbn [map]; constructor; [|now apply IH].
  cbn [fst snd] in *. clear -Hx Hq. induction Hq as [|n q r qs (x & E & Hp) _ IHr]; cbn [map]; constructor; [|assumption].
  destruct (Hx n x E) as (x' & E' & Hp'). exists x'. split; [assumption|]. apply placed_iff in Hp. apply placed_iff. now rewrite Hp', Hp.
Qed.
Lemma change_own m path u s b p g x' h : under None None m path = Some (u, s, b) -> bpd b = Some p -> arrays b = [p] -> frame_in u b = Some g ->
  length x' = length (px p) -> (forall n x, nth_error (px p) n = Some x -> exists y, nth_error x' n = Some y /\ place g y = h (place g x)) ->
  exists m', update_at m path (set_x x') = Ok m' /\ part_changed m path (fun a b => b = h a) m'.
Proof.
  intros Hu Hp Ha Hg Hl Hx. destruct b as [fb pd cd subs]. cbn [bpd] in Hp. subst pd. pose proof (subs_bare _ _ _ _ Ha) as Hb.
  destruct (update_cells path None None m u s _ (set_x x') _ Hu (set_x_same x' fb p cd subs Hl)) as (m' & A & B & E1 & H1 & H2 & H3).
  exists m'. split; [exact E1|]. intros ps Hm. unfold mesh_at in *. rewrite H2 in Hm. apply Forall2_app_inv_l in Hm as (a & r & Ha' & Hr & ->). apply Forall2_app_inv_l in Hr as (q & z & Hq & Hz & ->).
  exists a, q, (map (map h) q), z. split; [reflexivity|]. split; [exists u, s, (Block fb (Some p) cd subs); auto|]. split; [apply Forall2_map_self; intros qs; apply Forall2_map_self; reflexivity|]. rewrite H3. apply Forall2_app; [exact Ha'|]. apply Forall2_app; [|exact Hz].
  assert (Hg' : frame_in u (Block fb (Some (Points x' (pframe p) (pid p) (pact p) (pfields p))) cd subs) = Some g) by (rewrite <- Hg; destruct fb; reflexivity).
  rewrite (cells_in_own _ _ _ _ _ _ g Hg Hb) in Hq. rewrite (cells_in_own _ _ _ _ _ _ g Hg' Hb). cbn [px]. rewrite rows_in_block in *. revert Hq. now apply changed_rows.
Qed.
Lemma changed_impl m path (P Q : vec -> vec -> Prop) m' : (forall a b, P a b -> Q a b) -> part_changed m path P m' -> part_changed m path Q m'.
Proof.
  intros H Hp ps Hm. destruct (Hp ps Hm) as (a & q & q' & z & H1 & H2 & H3 & H4). exists a, q, q', z. split; [assumption|]. split; [assumption|]. split; [|assumption].
  clear -H H3. induction H3 as [|x y l l' Hx _ IH]; constructor; [|assumption]. clear -H Hx. induction Hx; constructor; auto.
Qed.
(** the points of a block that has the only points at and below it *)
Lemma turned_own m path u s b p g : under None None m path = Some (u, s, b) -> bpd b = Some p -> arrays b = [p] -> frame_in u b = Some g -> orthonormal (axes g) ->
  turned_points m path = Ok (g, path, Cloud (px p) g (Some (map Z.of_nat (pid p)))).
Proof.
  intros Hu Hp Ha Hg Ho. destruct b as [fb pd cd subs]. cbn [bpd] in Hp. subst pd. pose proof (subs_bare _ _ _ _ Ha) as Hb.
  destruct (block_at_under path top m u s _ Hu) as (c & E & Ec & _). unfold turned_points. rewrite E. cbn [bind fst snd bpd]. unfold the_frame. rewrite enter_frame, Ec, Hg. cbn [bind].
  rewrite (own_points c fb p cd subs g) by (auto; now rewrite Ec). reflexivity.
Qed.
Lemma target_standard o : target_axes meye o = match o with ToFrame h => axes h | By r => r end.
Proof. destruct o; [reflexivity|]. apply relative_eye. Qed.
Lemma rotate_own : forall m path u s b p g o, under None None m path = Some (u, s, b) -> bpd b = Some p -> arrays b = [p] -> frame_in u b = Some g ->
  axes g = ((1, 0, 0), (0, 1, 0), (0, 0, 1)) -> exists m', mesh_rotate m path o = Ok m' /\ part_changed m path (turned_about (origin g) (match o with ToFrame h => axes h | By r => r end)) m'.
Proof.
  intros m path u s b p g o Hu Hp Ha Hg E. change ((1, 0, 0), (0, 1, 0), (0, 0, 1)) with meye in E. assert (Ho : orthonormal (axes g)) by (rewrite E; exact orthonormal_eye).
  unfold mesh_rotate. rewrite (turned_own m path u s b p g) by assumption. cbn [bind]. rewrite rotate_value. cbn [array cframe inds]. rewrite show_same by assumption. rewrite E, target_standard. set (T := match o with ToFrame h => axes h | By r => r end).
  destruct (change_own m path u s b p g (map (direction T) (px p)) (fun w => vplus (origin g) (direction T (vminus w (origin g)))) Hu Hp Ha Hg (map_length _ _)) as (m' & E1 & H).
  - intros n x Hn. exists (direction T x). split; [exact (map_nth_error (direction T) _ _ Hn)|]. rewrite !place_origin, E, !direction_eye, vminus_vplus. reflexivity.
  - exists m'. split; [exact E1|]. revert H. apply changed_impl. intros a q ->. now apply turned_iff.
Qed.
(** other axes: a rotation by nothing moves the nodes *)
Definition one_turned : block := Block (Some turned) (Some (Points [(1, 0, 0)] None [0%nat] [true] [])) (Some (Cells [[0%nat]] [0%nat] [])) [].
Lemma rotate_wrong : exists m p m' ps ps', bpd m = Some p /\ arrays m = [p] /\ mesh_rotate m [] (By ((1, 0, 0), (0, 1, 0), (0, 0, 1))) = Ok m' /\ mesh_at m ps /\ mesh_at m' ps' /\ ps <> ps'.
Proof.
  exists one_turned. eexists. eexists. exists [[(0, 1, 0)]], [[(-1, 0, 0)]]. split; [reflexivity|]. split; [reflexivity|]. split.
  - unfold mesh_rotate. rewrite (turned_own one_turned [] None None one_turned _ turned eq_refl eq_refl eq_refl eq_refl orthonormal_turned). cbn [bind]. rewrite rotate_value, show_same by exact orthonormal_turned. cbn [update_at]. apply set_x_same. reflexivity.
  - split; [|split]; [| |intros H; injection H; intros; lra]; unfold mesh_at; cbn [one_turned cells_in frame_in nodes flat_map app map]; (constructor; [|constructor]); cbn [fst snd]; (constructor; [|constructor]); cbn [node_at px]; (eexists; split; [reflexivity|]); apply placed_iff; cbn; apply triple_eq; lra.
Qed.
(** blocks without points: the source *)
Lemma turned_part m path u s b sp ps ns up h : under None None m path = Some (u, s, b) -> arrays b = [] -> closest m path sp -> frame_in u b = Some h ->
  (exists u' s' sb p g, under None None m sp = Some (u', s', sb) /\ arrays sb = [p] /\ length (pid p) = length (px p) /\ frame_in u' sb = Some g /\ orthonormal (axes g) /\ up = (u', s', sb, p, g)) ->
  nodes_used b ns -> part_at m path ps -> exists ids ys, turned_points m path = Ok (h, sp, Cloud ys (snd up) ids) /\ mapM (get (px (snd (fst up)))) ns = Ok ys /\ bpd (snd (fst (fst up))) = Some (snd (fst up)).
Proof.
  intros Hu Ha Hs0 Hh (u' & s' & sb & p & g & Hsb & Hap & Hid & Hg & Ho & ->) Hns (u2 & s2 & b2 & Hu2 & Hps). cbn [fst snd]. rewrite Hu in Hu2. injection Hu2 as <- <- <-. pose proof (closest_source m path sp _ Hu Hs0) as Hs. rewrite <- (used_nodes_eq b ns Hns) in *.
  assert (Hb : bpd b = None) by (destruct b as [fb [q|] cd subs]; [discriminate|reflexivity]).
  destruct (source_block m path u s b sp Hu Hb Hs) as (u3 & s3 & fb & p3 & cd & subs & g3 & Hsb3 & Hg3 & ->). rewrite Hsb in Hsb3. injection Hsb3 as <- <- ->.
  cbn [arrays app] in Hap. injection Hap as -> Hsubs. rewrite Hg in Hg3. injection Hg3 as <-.
  destruct (block_at_under path top m u _ _ Hu) as (c & E & Ec & _). destruct (block_at_under sp top m _ _ _ Hsb) as (c' & E' & Ec' & _).
  unfold turned_points. rewrite E. cbn [bind fst snd]. unfold the_frame. rewrite enter_frame, Ec, Hh. cbn [bind]. rewrite Hb. unfold the_source. rewrite Hs. cbn [bind]. rewrite E'. cbn [bind fst snd].
  rewrite (own_points c' fb p cd subs g) by (auto; now rewrite Ec'). cbn [bind]. rewrite topology_rows. fold (used_nodes b).
  pose proof (used_below b u _ g (px p) ps (cells_in_bare b Ha u _) Hps) as Hin.
  destruct (pick_points (px p) g (map Z.of_nat (pid p)) (used_nodes b)) as (i' & ys & Eg & Ey); [now rewrite map_length|assumption|]. rewrite Eg. cbn [bind]. eauto.
Qed.
Lemma show_length c t : length (show c t) = length (array c).
Proof. rewrite show_map. apply map_length. Qed.
Lemma rotate_part : forall m path u s b sp o ps ns h, under None None m path = Some (u, s, b) -> arrays b = [] -> closest m path sp -> frame_in u b = Some h ->
  (exists u' s' sb p g, under None None m sp = Some (u', s', sb) /\ arrays sb = [p] /\ length (pid p) = length (px p) /\ frame_in u' sb = Some g /\ orthonormal (axes g) /\ length ns <> length (px p)) ->
  nodes_used b ns -> length ns <> 1%nat -> part_at m path ps -> mesh_rotate m path o = Err ValueError.
Proof.
  intros m path u s b sp o ps ns h Hu Ha Hs Hh (u' & s' & sb & p & g & Hsb & Hap & Hid & Hg & Ho & Hlen) Hns H1 Hps.
  destruct (turned_part m path u s b sp ps ns (u', s', sb, p, g) h Hu Ha Hs Hh ltac:(exists u', s', sb, p, g; auto 10) Hns Hps) as (ids & ys & Et & Ey & Hbp). cbn [fst snd] in *.
  unfold mesh_rotate. rewrite Et. cbn [bind]. rewrite rotate_value. cbn [array cframe]. apply mapM_length in Ey.
  apply (update_fails sp _ _ None None m _ _ _ Hsb). destruct sb as [fb pd cd subs]. cbn [bpd] in Hbp. subst pd. apply set_x_fails; rewrite show_length; cbn [array]; rewrite map_length, Ey; assumption.
Qed.
Lemma mapM_get_seq {A} (l : list A) : mapM (get l) (seq 0 (length l)) = Ok l.
Proof.
  assert (G : forall (pre l : list A), mapM (get (pre ++ l)) (seq (length pre) (length l)) = Ok l).
  { intros pre l0. revert pre. induction l0 as [|a l0 IH]; intros pre; [reflexivity|]. cbn [length seq mapM]. rewrite (proj2 (get_Ok (pre ++ a :: l0) (length pre) a) (nth_error_mid pre l0 a)).
    cbn [bind]. specialize (IH (pre ++ [a])). rewrite app_length in IH. cbn [length] in IH. rewrite Nat.add_1_r, <- app_assoc in IH. cbn [app] in IH. rewrite IH. reflexivity. }
  exact (G [] l).
Qed.
(** a block without points that uses all points of the source, in the frame of the source *)
Lemma rotate_whole : forall m path u s b sp o ps g, under None None m path = Some (u, s, b) -> arrays b = [] -> closest m path sp -> frame_in u b = Some g ->
  axes g = ((1, 0, 0), (0, 1, 0), (0, 0, 1)) ->
  (exists u' s' sb p, under None None m sp = Some (u', s', sb) /\ arrays sb = [p] /\ length (pid p) = length (px p) /\ frame_in u' sb = Some g /\ nodes_used b (seq 0 (length (px p)))) ->
  part_at m path ps -> exists m', mesh_rotate m path o = Ok m' /\ part_changed m sp (turned_about (origin g) (match o with ToFrame h => axes h | By r => r end)) m'.
Proof.
  intros m path u s b sp o ps g Hu Ha Hs Hh E (u' & s' & sb & p & Hsb & Hap & Hid & Hg & Hns) Hps. change ((1, 0, 0), (0, 1, 0), (0, 0, 1)) with meye in E. assert (Ho : orthonormal (axes g)) by (rewrite E; exact orthonormal_eye).
  destruct (turned_part m path u s b sp ps _ (u', s', sb, p, g) g Hu Ha Hs Hh ltac:(exists u', s', sb, p, g; auto 10) Hns Hps) as (ids & ys & Et & Ey & Hbp). cbn [fst snd] in *. rewrite mapM_get_seq in Ey. injection Ey as <-.
  unfold mesh_rotate. rewrite Et. cbn [bind]. rewrite rotate_value. cbn [array cframe inds]. rewrite show_same by assumption. rewrite E, target_standard. set (T := match o with ToFrame h => axes h | By r => r end).
  destruct (change_own m sp u' s' sb p g (map (direction T) (px p)) (fun w => vplus (origin g) (direction T (vminus w (origin g)))) Hsb Hbp Hap Hg (map_length _ _)) as (m' & E1 & H).
  - intros n x Hn. exists (direction T x). split; [exact (map_nth_error (direction T) _ _ Hn)|]. rewrite !place_origin, E, !direction_eye, vminus_vplus. reflexivity.
  - exists m'. split; [exact E1|]. revert H. apply changed_impl. intros a q ->. now apply turned_iff.
Qed.

(** ** spinning *)
Lemma centralize_all c ctr : FrameModel.center c None = Ok ctr -> FrameModel.centralize c None None = Ok (FrameModel.move c (Array (vneg ctr)) None).
Proof. intros E. unfold FrameModel.centralize. rewrite E. destruct ctr as [[x y] z]. reflexivity. Qed.
Lemma spin_own : forall m path u s b p g o qs ctr d T, under None None m path = Some (u, s, b) -> bpd b = Some p -> arrays b = [p] -> frame_in u b = Some g ->
  axes g = ((1, 0, 0), (0, 1, 0), (0, 0, 1)) -> Forall2 (placed_at g) (px p) qs -> centroid qs ctr ->
  T = match o with ToFrame h => axes h | By r => r end -> displaced d (direction T (origin g)) (origin g) ->
  exists m', mesh_spin m path o = Ok m' /\ part_changed m path (fun a a' => exists w, turned_about ctr T a w /\ displaced d w a') m'.
Proof.
  intros m path u s b p g o qs ctr d T Hu Hp Ha Hg E Hq Hc ET Hd. change ((1, 0, 0), (0, 1, 0), (0, 0, 1)) with meye in E. assert (Ho : orthonormal (axes g)) by (rewrite E; exact orthonormal_eye).
  assert (Eq : qs = map (place g) (px p)). { clear -Hq. induction Hq as [|y q l qs H _ IH]; [reflexivity|]. apply placed_iff in H. cbn [map]. now rewrite IH, H. }
  assert (Hne : px p <> []) by (intros Ep; rewrite Ep in Eq; subst qs; now destruct Hc).
  unfold mesh_spin. rewrite (turned_own m path u s b p g) by assumption. cbn [bind].
  destruct (center_cloud (px p) g (Some (map Z.of_nat (pid p))) Hne) as (c & Ec & Hcc). rewrite <- Eq in Hcc. rewrite (centroid_fun _ _ _ Hcc Hc) in Ec. rewrite (centralize_all _ _ Ec), Ec. cbn [bind].
  rewrite rotate_value, !move_value. cbn [array cframe inds]. rewrite show_same by assumption. rewrite E, target_standard, <- ET, !map_map. apply displaced_iff in Hd.
  set (h := fun a => vplus (vplus ctr (direction T (vminus a ctr))) d).
  match goal with |- context [set_x ?x] => destruct (change_own m path u s b p g x h Hu Hp Ha Hg (map_length _ _)) as (m' & E1 & H) end.
  - intros n x Hn. eexists. split; [exact (map_nth_error (fun x => vplus (direction T (vplus x (vneg ctr))) ctr) _ _ Hn)|]. unfold h. rewrite !place_origin, E, !direction_eye.
    revert Hd. generalize (origin g). intros og Hd. clear -Hd. comps. cbn in *. injection Hd as H1 H2 H3. apply triple_eq; lra.
  - exists m'. split; [exact E1|]. revert H. apply changed_impl. intros a a' ->. exists (vplus ctr (direction T (vminus a ctr))). split; [now apply turned_iff|]. now apply displaced_iff.
Qed.
Lemma spin_fixed : forall m path u s b p g o qs ctr T, under None None m path = Some (u, s, b) -> bpd b = Some p -> arrays b = [p] -> frame_in u b = Some g ->
  axes g = ((1, 0, 0), (0, 1, 0), (0, 0, 1)) -> Forall2 (placed_at g) (px p) qs -> centroid qs ctr ->
  T = match o with ToFrame h => axes h | By r => r end -> direction T (origin g) = origin g ->
  exists m', mesh_spin m path o = Ok m' /\ part_changed m path (turned_about ctr T) m'.
Proof.
  intros m path u s b p g o qs ctr T Hu Hp Ha Hg E Hq Hc ET Hd. destruct (spin_own m path u s b p g o qs ctr (0, 0, 0) T Hu Hp Ha Hg E Hq Hc ET) as (m' & E1 & H).
  - rewrite Hd. apply displaced_iff. destruct (origin g) as [[x y] z]. cbn. apply triple_eq; ring.
  - exists m'. split; [exact E1|]. revert H. apply changed_impl. intros a a' (w & H1 & H2). apply displaced_iff in H2. subst a'. replace (vplus w (0, 0, 0)) with w; [exact H1|]. destruct w as [[x y] z]. cbn. apply triple_eq; ring.
Qed.
(** the only point of a mesh, spun, is elsewhere *)
Definition away : frame := Cartesian ((1, 0, 0), (0, 1, 0), (0, 0, 1)) (1, 0, 0).
Definition one_away : block := Block (Some away) (Some (Points [(0, 0, 0)] None [0%nat] [true] [])) (Some (Cells [[0%nat]] [0%nat] [])) [].
Definition quarter : mat := ((0, 1, 0), (-1, 0, 0), (0, 0, 1)).
Lemma one_away_at : mesh_at one_away [[(1, 0, 0)]].
Proof. unfold mesh_at. cbn [one_away cells_in frame_in nodes flat_map app map]. constructor; [|constructor]. cbn [fst snd]. constructor; [|constructor]. cbn [node_at px]. eexists. split; [reflexivity|]. apply placed_iff. cbn. apply triple_eq; lra. Qed.
Lemma spin_wrong : exists m m' p q r, frame_in None m = Some (Cartesian ((1, 0, 0), (0, 1, 0), (0, 0, 1)) (1, 0, 0)) /\ orthonormal r /\ mesh_spin m [] (By r) = Ok m' /\ mesh_at m [[p]] /\ mesh_at m' [[q]] /\ centroid [p] p /\ p <> q.
Proof.
  destruct (spin_own one_away [] None None one_away _ away (By quarter) [(1, 0, 0)] (1, 0, 0) (1, -1, 0) quarter eq_refl eq_refl eq_refl eq_refl eq_refl) as (m' & E & H); [| | | |].
  - cbn [px]. constructor; [|constructor]. apply placed_iff. cbn. apply triple_eq; lra.
  - apply centroid_one.
  - reflexivity.
  - apply displaced_iff. cbn. apply triple_eq; lra.
  - exists one_away, m', (1, 0, 0), (2, -1, 0), quarter. split; [reflexivity|]. split; [apply orthonormal_dots; cbn; repeat split; ring|]. split; [exact E|]. split; [exact one_away_at|].
    split; [|split; [apply centroid_one|intros H1; injection H1; intros; lra]].
    destruct (H _ one_away_at) as (a & q & q' & z & E1 & Hp & Hq & Hm). destruct Hp as (u & s & b & Hu & Hb). injection Hu as <- <- <-.
    pose proof (mesh_at_fun _ _ _ one_away_at Hb) as E2. subst q. destruct a as [|a1 [|a2 a]]; [|discriminate|discriminate]. cbn [app] in E1. injection E1 as E1. subst z.
    inversion Hq as [|? qs ? ? Hq1 Hq2]; subst. inversion Hq2; subst. inversion Hq1 as [|? w ? ? Hw Hq3]; subst. inversion Hq3; subst. destruct Hw as (w' & Hw1 & Hw2). apply turned_iff in Hw1. apply displaced_iff in Hw2. subst w' w.
    cbn [app] in Hm. replace (2, -1, 0) with (vplus (vplus (1, 0, 0) (direction quarter (vminus (1, 0, 0) (1, 0, 0)))) (1, -1, 0)); [exact Hm|]. cbn. apply triple_eq; lra.
Qed.

(** ** the frames of cells *)
Lemma axes_turned_iff T f f' : axes_turned T f f' <-> f' = relative_axes T f.
Proof. destruct f as [[a b] c]. reflexivity. Qed.
Lemma frames_value g r frames : axes g = meye -> rotate_frames g (By r) frames = map (fun f => relative_axes f r) frames.
Proof.
  intros E. unfold rotate_frames. apply map_ext. intros f. unfold orient_new. cbn [axes]. rewrite mmul_relative. destruct (relative_axes f r) as [[a b] c]. rewrite !vshow_value. cbn [axes_opt direction_in]. rewrite E.
  assert (G : forall v, mvec meye v = v) by (intros v; comps; cbn; apply triple_eq; ring). now rewrite !G.
Qed.
Lemma frames_commute : forall g r frames, axes g = ((1, 0, 0), (0, 1, 0), (0, 0, 1)) ->
  (Forall2 (axes_turned r) frames (rotate_frames g (By r) frames) <-> Forall (fun f => relative_axes f r = relative_axes r f) frames).
Proof.
  intros g r frames E. rewrite (frames_value g r frames E). induction frames as [|f l IH]; cbn [map]; split; intros H; constructor; inversion H; subst.
  - now apply axes_turned_iff.
  - now apply IH.
  - now apply axes_turned_iff.
  - now apply IH.
Qed.
Lemma frames_wrong : exists f r, orthonormal f /\ orthonormal r /\ ~ Forall2 (axes_turned r) [f] (rotate_frames (Cartesian ((1, 0, 0), (0, 1, 0), (0, 0, 1)) (0, 0, 0)) (By r) [f]).
Proof.
  exists ((0, 1, 0), (0, 0, 1), (1, 0, 0)), quarter. split; [apply orthonormal_dots; cbn; repeat split; ring|]. split; [apply orthonormal_dots; cbn; repeat split; ring|].
  intros H. apply frames_commute in H; [|reflexivity]. inversion H as [|? ? H1 _]; subst. cbn in H1. injection H1. intros. lra.
Qed.
(** a block without points that has a frame of its own: the coordinates are written for the wrong frame *)
Definition framed_below : block := Block (Some standard) (Some (Points [(1, 0, 0)] None [0%nat] [true] [])) None [Block (Some turned) None (Some (Cells [[0%nat]] [0%nat] [])) []].
Lemma rotate_frame_wrong : exists p c f m m' ps ps', m = Block (Some (Cartesian ((1, 0, 0), (0, 1, 0), (0, 0, 1)) (0, 0, 0))) (Some p) None [Block (Some f) None (Some c) []] /\ orthonormal (axes f) /\ mesh_rotate m [0%nat] (By ((1, 0, 0), (0, 1, 0), (0, 0, 1))) = Ok m' /\ mesh_at m ps /\ mesh_at m' ps' /\ ps <> ps'.
Proof.
  set (ub := Block (Some turned) None (Some (Cells [[0%nat]] [0%nat] [])) []).
  assert (Hm : mesh_at framed_below [[(1, 0, 0)]]).
  { unfold mesh_at. cbn [framed_below cells_in frame_in nodes flat_map app map]. constructor; [|constructor]. cbn [fst snd]. constructor; [|constructor]. cbn [node_at px]. eexists. split; [reflexivity|]. apply placed_iff. cbn. apply triple_eq; lra. }
  destruct (turned_part framed_below [0%nat] (Some standard) (Some (standard, [(1, 0, 0)])) ub [] [[(1, 0, 0)]] [0%nat] (None, None, framed_below, Points [(1, 0, 0)] None [0%nat] [true] [], standard) turned) as (ids & ys & Et & Ey & _); try reflexivity.
  - exists [0%nat]. split; [reflexivity|]. split; [exists None, None, framed_below; eexists; split; reflexivity|]. intros i Hi (u & s & b & p & Hu & Hp). cbn [length] in Hi. assert (i = 1)%nat as -> by lia. cbn in Hu. injection Hu as <- <- <-. discriminate.
  - exists None, None, framed_below. do 2 eexists. split; [reflexivity|]. split; [reflexivity|]. split; [reflexivity|]. split; [reflexivity|]. split; [exact orthonormal_eye|reflexivity].
  - exact (used_nodes_ok ub).
  - exists (Some standard), (Some (standard, [(1, 0, 0)])), ub. split; [reflexivity|]. exact Hm.
  - cbn [fst snd px mapM] in Ey. cbn in Ey. injection Ey as <-. cbn [fst snd] in Et.
    do 3 eexists. exists framed_below. eexists. exists [[(1, 0, 0)]], [[(0, -1, 0)]]. split; [reflexivity|]. split; [exact orthonormal_turned|]. split; [unfold mesh_rotate; rewrite Et; cbn [bind update_at]; apply set_x_same; reflexivity|]. split; [exact Hm|]. split; [|intros H; injection H; intros; lra].
    unfold mesh_at. cbn [cells_in frame_in nodes flat_map app map]. constructor; [|constructor]. cbn [fst snd]. constructor; [|constructor]. cbn [node_at px]. eexists. split; [reflexivity|]. apply placed_iff. cbn. apply triple_eq; lra.
Qed.
