(** * Places of points in frames (lemmas) *)
From Coq Require Import Reals Lra Lia ZArith List Nsatz.
From Verif Require Import TrSpec BaseFacts NodalProofs6 ExtrudeProofs3 GridProofs5.
From Verif Require Export FrameSpec.
Import ListNotations.
Local Open Scope R_scope.

(** splits vectors and matrices into their components *)
Ltac comps := repeat match goal with
  | v : vec |- _ => destruct v as [[? ?] ?]
  | m : mat |- _ => destruct m as [[[[? ?] ?] [[? ?] ?]] [[? ?] ?]]
  | p : (R * R)%type |- _ => destruct p
  end.

Lemma triple_eq (a b c a' b' c' : R) : a = a' -> b = b' -> c = c' -> (a, b, c) = (a', b', c').
Proof. intros -> -> ->. reflexivity. Qed.

Lemma orthonormal_columns m : orthonormal m -> orthonormal (mtrans m).
Proof. comps. cbn. intros (H1 & H2 & H3 & H4 & H5 & H6). repeat split; nsatz. Qed.
Lemma mtrans_mtrans m : mtrans (mtrans m) = m. Proof. comps. reflexivity. Qed.
Lemma mvec_trans m v : mvec (mtrans m) v = direction m v.
Proof. comps. cbn. apply triple_eq; ring. Qed.
Lemma mvec_eye v : mvec meye v = v. Proof. comps. cbn. apply triple_eq; ring. Qed.
Lemma direction_eye v : direction meye v = v. Proof. comps. cbn. apply triple_eq; ring. Qed.
Lemma direction_in_axes f v : direction_in f v = direction (axes_opt f) v.
Proof. destruct f; [reflexivity|]. cbn [direction_in axes_opt]. now rewrite direction_eye. Qed.
(** directions and components are inverse to each other *)
Lemma mvec_direction m v : orthonormal m -> mvec m (direction m v) = v.
Proof.
  comps. cbn. intros (H1 & H2 & H3 & H4 & H5 & H6).
  apply triple_eq; nsatz.
Qed.
Lemma direction_mvec m v : orthonormal m -> direction m (mvec m v) = v.
Proof.
  intros H. rewrite <- mvec_trans. rewrite <- (mtrans_mtrans m) at 2. rewrite (mvec_trans (mtrans m)).
  apply mvec_direction, orthonormal_columns, H.
Qed.
Lemma orthonormal_eye : orthonormal meye. Proof. cbn. repeat split; ring. Qed.

(** sums of vectors *)
Lemma vplus_0_l v : vplus vzero v = v. Proof. comps. cbn. apply triple_eq; ring. Qed.
Lemma vplus_0_r v : vplus v vzero = v. Proof. comps. cbn. apply triple_eq; ring. Qed.
Lemma vplus_assoc a b c : vplus a (vplus b c) = vplus (vplus a b) c. Proof. comps. cbn. apply triple_eq; ring. Qed.
Lemma vplus_comm a b : vplus a b = vplus b a. Proof. comps. cbn. apply triple_eq; ring. Qed.
Lemma vplus_minus a b : vplus a (vminus b a) = b. Proof. comps. cbn. apply triple_eq; ring. Qed.
Lemma mvec_plus m a b : mvec m (vplus a b) = vplus (mvec m a) (mvec m b). Proof. comps. cbn. apply triple_eq; ring. Qed.
Lemma direction_plus m a b : direction m (vplus a b) = vplus (direction m a) (direction m b). Proof. comps. cbn. apply triple_eq; ring. Qed.
Lemma mvec_minus m a b : mvec m (vminus a b) = vminus (mvec m a) (mvec m b). Proof. comps. cbn. apply triple_eq; ring. Qed.
Lemma displaced_plus v p : displaced v p (vplus p v). Proof. comps. reflexivity. Qed.
Lemma displaced_iff v p q : displaced v p q <-> q = vplus p v. Proof. comps. cbn. split; intros ->; reflexivity. Qed.

(** the place of a point *)
Definition place (f : frame) (p : vec) : vec := vplus (origin_of f) (direction (axes f) p).
Lemma placed_iff f p q : placed_at f p q <-> q = place f p.
Proof. unfold placed_at, place. destruct f; cbn [origin_of axes]; apply displaced_iff. Qed.
Lemma same_places_iff f ps g qs : same_places f ps g qs <-> map (place f) ps = map (place g) qs.
Proof.
  unfold same_places. split.
  - induction 1 as [|p q ps qs (w & Hp & Hq) _ IH]; [reflexivity|]. apply placed_iff in Hp. apply placed_iff in Hq. cbn [map]. rewrite <- Hp, Hq, IH. now rewrite <- Hq.
  - revert qs. induction ps as [|p ps IH]; intros [|q qs] E; cbn [map] in E; try discriminate; [constructor|].
    injection E as E1 E2. constructor; [|now apply IH]. exists (place f p). split; apply placed_iff; [reflexivity|assumption].
Qed.
Lemma moved_places_iff v f ps g qs : moved_places v f ps g qs <-> map (fun p => vplus (place f p) v) ps = map (place g) qs.
Proof.
  unfold moved_places. split.
  - induction 1 as [|p q ps qs (w & w' & Hp & Hq & Hd) _ IH]; [reflexivity|]. apply placed_iff in Hp. apply placed_iff in Hq. apply displaced_iff in Hd.
    cbn [map]. rewrite IH. f_equal. congruence.
  - revert qs. induction ps as [|p ps IH]; intros [|q qs] E; cbn [map] in E; try discriminate; [constructor|].
    injection E as E1 E2. constructor; [|now apply IH]. exists (place f p), (place g q). repeat split; [now apply placed_iff|now apply placed_iff|].
    apply displaced_iff. now symmetry.
Qed.

(** ** Showing *)
Lemma vshow_value f v t : vshow f v t = mvec (axes_opt t) (direction_in f v).
Proof. unfold vshow. now rewrite mvec_trans, direction_in_axes. Qed.
Lemma vshow_none v : vshow None v None = v.
Proof. rewrite vshow_value. apply mvec_eye. Qed.
Lemma relative_origo_value o t : relative_origo o t = match t with None => o | Some g => mvec (axes g) (vminus o (origin_of g)) end.
Proof.
  unfold relative_origo. destruct t as [g|]; rewrite vshow_none; [|reflexivity]. rewrite vshow_value. cbn [direction_in axes_opt].
  destruct g; cbn [origin_of]; [reflexivity|]. now rewrite vshow_none.
Qed.
Lemma rows_plus_const x v : rows_plus x (dcoords x v) = map (fun p => vplus p v) x.
Proof. unfold rows_plus, dcoords. induction x as [|p x IH]; [reflexivity|]. cbn [map combine fst snd]. now rewrite IH. Qed.
(** the coordinates of one point, as shown *)
Definition shown (f : frame) (t : option frame) (p : vec) : vec :=
  match f with
  | Plain _ => vshow (Some f) p t
  | Cartesian _ o => vplus (vshow (Some f) p t) (relative_origo o t)
  end.
Lemma show_map c t : show c t = map (shown (cframe c) t) (array c).
Proof.
  unfold show, shown. destruct (cframe c) as [a|a o]; [reflexivity|]. rewrite rows_plus_const, map_map. reflexivity.
Qed.
Lemma shown_ambient f p : shown f None p = place f p.
Proof.
  unfold shown, place. destruct f as [a|a o]; cbn [origin_of axes]; rewrite vshow_value; cbn [axes_opt direction_in axes]; rewrite mvec_eye.
  - now rewrite vplus_0_l.
  - rewrite relative_origo_value. apply vplus_comm.
Qed.
(** a frame from which points are shown correctly in [t]: it has an origin, or [t] is at the origin *)
Definition sees (f t : frame) : Prop := match f with Plain _ => origin_of t = vzero | Cartesian _ _ => True end.
Lemma place_shown f t p : orthonormal (axes t) -> sees f t -> place t (shown f (Some t) p) = place f p.
Proof.
  intros H Hs. unfold shown, place. destruct f as [a|a o]; cbn [origin_of axes]; rewrite vshow_value; cbn [axes_opt direction_in axes].
  - rewrite direction_mvec by assumption. cbn in Hs. now rewrite Hs.
  - rewrite relative_origo_value, <- mvec_plus, direction_mvec by assumption.
    rewrite (vplus_comm (direction a p)), vplus_assoc, vplus_minus. reflexivity.
Qed.
Lemma place_inj f p q : orthonormal (axes f) -> place f p = place f q -> p = q.
Proof.
  intros H E. unfold place in E. rewrite <- (mvec_direction (axes f) p H), <- (mvec_direction (axes f) q H). f_equal.
  revert E. generalize (direction (axes f) p) (direction (axes f) q) (origin_of f). intros u v o E. comps. cbn in E. injection E as E0 E1 E2. apply triple_eq; lra.
Qed.

(** C88 *)
Lemma show_places c t : orthonormal (axes t) -> (exists a o, cframe c = Cartesian a o) -> same_places (cframe c) (array c) t (show c (Some t)).
Proof.
  intros H (a & o & E). apply same_places_iff. rewrite show_map, map_map. apply map_ext. intros p. symmetry. apply place_shown; [assumption|]. now rewrite E.
Qed.
Lemma show_plain c t : orthonormal (axes t) -> (exists a, t = Plain a \/ t = Cartesian a (0, 0, 0)) -> same_places (cframe c) (array c) t (show c (Some t)).
Proof.
  intros H (a & E). apply same_places_iff. rewrite show_map, map_map. apply map_ext. intros p. symmetry. apply place_shown; [assumption|].
  destruct (cframe c); cbn; [|exact I]. destruct E as [-> | ->]; reflexivity.
Qed.
Lemma show_ambient c : same_places (cframe c) (array c) standard (show c None).
Proof.
  apply same_places_iff. rewrite show_map, map_map. apply map_ext. intros p. rewrite shown_ambient. unfold place at 2, standard. cbn [origin_of axes].
  change (0, 0, 0) with vzero. change ((1, 0, 0), (0, 1, 0), (0, 0, 1)) with meye. now rewrite vplus_0_l, direction_eye.
Qed.
Lemma show_unique c t qs : orthonormal (axes t) -> (exists a o, cframe c = Cartesian a o) -> same_places (cframe c) (array c) t qs -> qs = show c (Some t).
Proof.
  intros H Hc Hq. pose proof (show_places c t H Hc) as Hs. apply same_places_iff in Hs. apply same_places_iff in Hq. rewrite Hs in Hq. clear -H Hq.
  revert qs Hq. generalize (show c (Some t)). intros l. induction l as [|p l IH]; intros [|q qs] E; cbn [map] in E; try discriminate; [reflexivity|].
  injection E as E1 E2. f_equal; [|now apply IH]. symmetry. now apply (place_inj t).
Qed.
Lemma show_own c : orthonormal (axes (cframe c)) -> (exists a o, cframe c = Cartesian a o) -> show c (Some (cframe c)) = array c.
Proof. intros H Hc. symmetry. apply show_unique; [assumption..|]. apply same_places_iff. reflexivity. Qed.
Lemma set_frame_places c t : orthonormal (axes t) -> (exists a o, cframe c = Cartesian a o) ->
  cframe (set_frame c t) = t /\ inds (set_frame c t) = inds c /\ same_places (cframe c) (array c) t (array (set_frame c t)).
Proof. intros H Hc. repeat split. now apply show_places. Qed.
Lemma relative_origo_place o t : orthonormal (axes t) -> placed_at t (relative_origo o (Some t)) o.
Proof.
  intros H. apply placed_iff. unfold place. rewrite relative_origo_value, direction_mvec by assumption. now rewrite vplus_minus.
Qed.
(** coordinates in a frame without an origin are shown wrongly in a frame with one *)
Lemma show_plain_wrong : exists xs i a o, orthonormal a /\ ~ same_places (Plain a) xs (Cartesian a o) (show (Cloud xs (Plain a) i) (Some (Cartesian a o))).
Proof.
  exists [(0, 0, 0)], None, meye, (1, 0, 0). split; [apply orthonormal_eye|].
  intros H. apply same_places_iff in H. rewrite show_map in H. cbn [array cframe map shown] in H. rewrite vshow_value in H. cbn [direction_in axes_opt axes] in H.
  unfold place in H. cbn [origin_of axes] in H. rewrite !direction_eye, mvec_eye in H. cbn in H. injection H; intros; lra.
Qed.

(** ** Moving *)
Lemma move_value c v f : move c v f = Cloud (map (fun p => vplus p (match v, f with Array w, Some _ => vshow f w (Some (cframe c)) | Array w, None => w | Vect w _, _ => w end)) (array c)) (cframe c) (inds c).
Proof. unfold move. now rewrite rows_plus_const. Qed.
Lemma place_plus f p w : place f (vplus p w) = vplus (place f p) (direction (axes f) w).
Proof. unfold place. now rewrite direction_plus, vplus_assoc. Qed.
Lemma move_places c w g : orthonormal (axes (cframe c)) ->
  moved_places (direction (axes g) w) (cframe c) (array c) (cframe c) (array (move c (Array w) (Some g))).
Proof.
  intros H. apply moved_places_iff. rewrite move_value. cbn [array]. rewrite map_map. apply map_ext. intros p. rewrite place_plus, vshow_value. cbn [axes_opt direction_in].
  now rewrite direction_mvec.
Qed.
Lemma move_keeps c v f : cframe (move c v f) = cframe c /\ inds (move c v f) = inds c.
Proof. split; reflexivity. Qed.
(** without a frame the components are those of the frame of the points *)
Lemma move_local c w : moved_places (direction (axes (cframe c)) w) (cframe c) (array c) (cframe c) (array (move c (Array w) None)).
Proof. apply moved_places_iff. rewrite move_value. cbn [array]. rewrite map_map. apply map_ext. intros p. apply eq_sym, place_plus. Qed.
Lemma move_vector_local c w g : moved_places (direction (axes (cframe c)) w) (cframe c) (array c) (cframe c) (array (move c (Vect w g) None)).
Proof. apply moved_places_iff. rewrite move_value. cbn [array]. rewrite map_map. apply map_ext. intros p. apply eq_sym, place_plus. Qed.
(** a frame turned by a right angle about the third axis *)
Definition turned : frame := Cartesian ((0, 1, 0), (-1, 0, 0), (0, 0, 1)) (0, 0, 0).
Lemma orthonormal_turned : orthonormal (axes turned). Proof. cbn. repeat split; ring. Qed.
Lemma move_root_wrong : exists c w a, cframe c = Cartesian a vzero /\ orthonormal a /\ ~ moved_places w (cframe c) (array c) (cframe c) (array (move c (Array w) None)).
Proof.
  eexists (Cloud [(0, 0, 0)] turned None), (1, 0, 0), _. split; [reflexivity|]. split; [apply orthonormal_turned|]. intros H. apply moved_places_iff in H. rewrite move_value in H. cbn in H.
  injection H; intros; lra.
Qed.
Lemma move_vector_wrong : exists c w a, cframe c = standard /\ orthonormal a /\
  ~ moved_places (direction a w) (cframe c) (array c) (cframe c) (array (move c (Vect w (Some (Cartesian a vzero))) (Some standard))).
Proof.
  exists (Cloud [(0, 0, 0)] standard None), (1, 0, 0), (axes turned). split; [reflexivity|]. split; [apply orthonormal_turned|].
  intros H. apply moved_places_iff in H. rewrite move_value in H. cbn in H. injection H; intros; lra.
Qed.
Lemma frame_move_places a o d f : exists o', frame_move a o d f = Cartesian a o' /\
  displaced (match d with Array w => direction_in f w | Vect w g => direction_in g w end) o o'.
Proof.
  unfold frame_move. eexists. split; [reflexivity|]. apply displaced_iff. f_equal. destruct d; rewrite vshow_value; cbn [axes_opt]; now rewrite mvec_eye.
Qed.
Lemma set_origo_wrong a o v : set_origo a o (inl v) = Err ValueError.
Proof. reflexivity. Qed.
Lemma set_origo_matrix a o m : set_origo a o (inr m) = Ok (Cartesian m o).
Proof. reflexivity. Qed.
