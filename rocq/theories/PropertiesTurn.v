(** * Properties C127 to C130: rotations *)
From Coq Require Import Reals List Lia Lra Arith ZArith.
From Verif Require Import FrameProofs MeshProofs7 TurnModel TurnSpec TurnProofs.
Import ListNotations.
Local Open Scope R_scope.

(** ** C127 Rotation of point clouds *)

(** In a frame with the axes of space: the points are those with the old coordinates in the rotated frame, so each is turned about the origin of the frame; the frame and the indices are kept.  Missing: other axes (refuted below). *)
Theorem C127_partial :
  forall c o T, axes (cframe c) = ((1, 0, 0), (0, 1, 0), (0, 0, 1)) -> T = match o with ToFrame g => axes g | By r => r end ->
  turned_with (cframe c) T (array c) (array (rotate c o)) /\
  Forall2 (fun p q => exists w w', placed_at (cframe c) p w /\ placed_at (cframe c) q w' /\ turned_about (origin (cframe c)) T w w') (array c) (array (rotate c o)) /\
  cframe (rotate c o) = cframe c /\ inds (rotate c o) = inds c.
Proof. exact @turn_standard. Qed.
Print Assumptions C127_partial.
(** Only with the axes of space: for any other axes, every rotation is wrong for some points. *)
Theorem C127_only :
  forall f r, orthonormal (axes f) -> orthonormal r ->
  ((forall ps i, turned_with f (relative_axes (axes f) r) ps (array (rotate (Cloud ps f i) (By r)))) <-> axes f = ((1, 0, 0), (0, 1, 0), (0, 0, 1))).
Proof. exact @turn_only. Qed.
Print Assumptions C127_only.
(** Whatever the axes, distances between points, and of points from the origin, are kept. *)
Theorem C127_shape :
  forall c o, orthonormal (axes (cframe c)) -> orthonormal (match o with ToFrame g => axes g | By r => r end) ->
  length (array (rotate c o)) = length (array c) /\
  (forall i j p q p' q' w1 w2 w1' w2', nth_error (array c) i = Some p -> nth_error (array c) j = Some q -> nth_error (array (rotate c o)) i = Some p' -> nth_error (array (rotate c o)) j = Some q' ->
    placed_at (cframe c) p w1 -> placed_at (cframe c) q w2 -> placed_at (cframe c) p' w1' -> placed_at (cframe c) q' w2' -> square_distance w1' w2' = square_distance w1 w2) /\
  forall i p p' w w', nth_error (array c) i = Some p -> nth_error (array (rotate c o)) i = Some p' -> placed_at (cframe c) p w -> placed_at (cframe c) p' w' ->
    square_distance w' (origin (cframe c)) = square_distance w (origin (cframe c)).
Proof. exact @turn_shape. Qed.
Print Assumptions C127_shape.
(** With the axes of space, the opposite rotation restores the points.  Missing: other axes (refuted with the rotation itself). *)
Theorem C127_back_partial :
  forall c r, axes (cframe c) = ((1, 0, 0), (0, 1, 0), (0, 0, 1)) -> orthonormal r -> rotate (rotate c (By r)) (By (mtrans r)) = c.
Proof. exact @turn_back. Qed.
Print Assumptions C127_back_partial.
(** With other axes, even a rotation by nothing moves the points. *)
Theorem C127_refuted :
  exists c, orthonormal (axes (cframe c)) /\ ~ same_places (cframe c) (array c) (cframe c) (array (rotate c (By ((1, 0, 0), (0, 1, 0), (0, 0, 1))))).
Proof. exact @turn_wrong. Qed.
Print Assumptions C127_refuted.
Example C127_ex : orthonormal quarter /\ array (rotate (Cloud [(800, 0, 0)] standard None) (By quarter)) = [(0, 800, 0)] /\ axes standard = ((1, 0, 0), (0, 1, 0), (0, 0, 1)) /\ axes turned <> ((1, 0, 0), (0, 1, 0), (0, 0, 1)) /\ orthonormal (axes turned).
Proof.
  split; [apply orthonormal_dots; cbn; repeat split; ring|]. split; [rewrite rotate_value; cbn; f_equal; apply triple_eq; lra|]. split; [reflexivity|]. split; [|exact orthonormal_turned]. intros H. cbn in H. injection H. intros. lra.
Qed.

(** ** C128 Rotation of meshes *)

(** A block with the only points at and below it, in a frame with the axes of space: the nodes of its cells are turned about the origin of the frame, all others stay.  Missing: other axes, blocks without points (refuted below). *)
Theorem C128_partial :
  forall m path u s b p g o, under None None m path = Some (u, s, b) -> bpd b = Some p -> arrays b = [p] -> frame_in u b = Some g ->
  axes g = ((1, 0, 0), (0, 1, 0), (0, 0, 1)) -> exists m', mesh_rotate m path o = Ok m' /\ part_changed m path (turned_about (origin g) (match o with ToFrame h => axes h | By r => r end)) m'.
Proof. exact @rotate_own. Qed.
Print Assumptions C128_partial.
(** A block without points that uses all points of its source, in the frame of the source with the axes of space: these points are turned. *)
Theorem C128_whole_partial :
  forall m path u s b sp o ps g, under None None m path = Some (u, s, b) -> arrays b = [] -> closest m path sp -> frame_in u b = Some g ->
  axes g = ((1, 0, 0), (0, 1, 0), (0, 0, 1)) ->
  (exists u' s' sb p, under None None m sp = Some (u', s', sb) /\ arrays sb = [p] /\ length (pid p) = length (px p) /\ frame_in u' sb = Some g /\ nodes_used b (seq 0 (length (px p)))) ->
  part_at m path ps -> exists m', mesh_rotate m path o = Ok m' /\ part_changed m sp (turned_about (origin g) (match o with ToFrame h => axes h | By r => r end)) m'.
Proof. exact @rotate_whole. Qed.
Print Assumptions C128_whole_partial.
(** A block without points that does not use all points of its source cannot be rotated. *)
Theorem C128_part_refuted :
  forall m path u s b sp o ps ns h, under None None m path = Some (u, s, b) -> arrays b = [] -> closest m path sp -> frame_in u b = Some h ->
  (exists u' s' sb p g, under None None m sp = Some (u', s', sb) /\ arrays sb = [p] /\ length (pid p) = length (px p) /\ frame_in u' sb = Some g /\ orthonormal (axes g) /\ length ns <> length (px p)) ->
  nodes_used b ns -> length ns <> 1%nat -> part_at m path ps -> mesh_rotate m path o = Err ValueError.
Proof. exact @rotate_part. Qed.
Print Assumptions C128_part_refuted.
(** With other axes, even a rotation by nothing moves the nodes. *)
Theorem C128_axes_refuted :
  exists m p m' ps ps', bpd m = Some p /\ arrays m = [p] /\ mesh_rotate m [] (By ((1, 0, 0), (0, 1, 0), (0, 0, 1))) = Ok m' /\ mesh_at m ps /\ mesh_at m' ps' /\ ps <> ps'.
Proof. exact @rotate_wrong. Qed.
Print Assumptions C128_axes_refuted.
(** A block without points that has a frame of its own: the coordinates of its frame are written to the source, so a rotation by nothing moves the nodes. *)
Theorem C128_frame_refuted :
  exists p c f m m' ps ps', m = Block (Some (Cartesian ((1, 0, 0), (0, 1, 0), (0, 0, 1)) (0, 0, 0))) (Some p) None [Block (Some f) None (Some c) []] /\ orthonormal (axes f) /\ mesh_rotate m [0%nat] (By ((1, 0, 0), (0, 1, 0), (0, 0, 1))) = Ok m' /\ mesh_at m ps /\ mesh_at m' ps' /\ ps <> ps'.
Proof. exact @rotate_frame_wrong. Qed.
Print Assumptions C128_frame_refuted.
Definition line_at (f : frame) : block := Block (Some f) (Some (Points [(0, 0, 0); (2, 0, 0)] None [0%nat; 1%nat] [true; true] [])) (Some (Cells [[0; 1]]%nat [0%nat] [])) [].
Example C128_ex : exists p, bpd (line_at away) = Some p /\ arrays (line_at away) = [p] /\ frame_in None (line_at away) = Some away /\ axes away = ((1, 0, 0), (0, 1, 0), (0, 0, 1)) /\ mesh_at (line_at away) [[(1, 0, 0); (3, 0, 0)]] /\
  turned_about (origin away) quarter (3, 0, 0) (1, 2, 0).
Proof.
  eexists. split; [reflexivity|]. split; [reflexivity|]. split; [reflexivity|]. split; [reflexivity|]. split; [|apply turned_iff; cbn; apply triple_eq; lra].
  unfold mesh_at. cbn [line_at cells_in frame_in nodes flat_map app map px]. constructor; [|constructor]. cbn [fst snd]. constructor; [|constructor; [|constructor]]; cbn [node_at]; (eexists; split; [reflexivity|]); apply placed_iff; cbn; apply triple_eq; lra.
Qed.
(** three points, of which the block below uses two, or all *)
Definition above (r : list nat) : block := Block (Some standard) (Some (Points [(0, 0, 0); (1, 0, 0); (0, 1, 0)] None [0; 1; 2]%nat [true; true; true] [])) None [Block None None (Some (Cells [r] [0%nat] [])) []].
Example C128_part_ex : exists u s b p, under None None (above [0; 1]%nat) [0%nat] = Some (u, s, b) /\ arrays b = [] /\ closest (above [0; 1]%nat) [0%nat] [] /\ frame_in u b = Some standard /\
  arrays (above [0; 1]%nat) = [p] /\ length (pid p) = length (px p) /\ orthonormal (axes standard) /\ nodes_used b [0; 1]%nat /\ length [0; 1]%nat <> length (px p) /\ part_at (above [0; 1]%nat) [0%nat] [[(0, 0, 0); (1, 0, 0)]].
Proof.
  do 4 eexists. split; [reflexivity|]. split; [reflexivity|]. split.
  { exists [0%nat]. split; [reflexivity|]. split; [do 4 eexists; split; reflexivity|]. intros i Hi (u & s & b & p & Hu & Hp). cbn [length] in Hi. assert (i = 1)%nat as -> by lia. cbn in Hu. injection Hu as <- <- <-. discriminate. }
  split; [reflexivity|]. split; [reflexivity|]. split; [reflexivity|]. split; [exact orthonormal_eye|]. split; [exact (used_nodes_ok (Block None None (Some (Cells [[0; 1]%nat] [0%nat] [])) []))|]. split; [cbn; discriminate|].
  do 3 eexists. split; [reflexivity|]. cbn [cells_in nodes flat_map app map]. constructor; [|constructor]. cbn [fst snd]. constructor; [|constructor; [|constructor]]; cbn [node_at px]; (eexists; split; [reflexivity|]); apply placed_iff; cbn; apply triple_eq; lra.
Qed.
Example C128_whole_ex : exists u s b p, under None None (above [2; 1; 0]%nat) [0%nat] = Some (u, s, b) /\ frame_in u b = Some standard /\ arrays (above [2; 1; 0]%nat) = [p] /\ nodes_used b (seq 0 (length (px p))) /\ axes standard = ((1, 0, 0), (0, 1, 0), (0, 0, 1)).
Proof. do 4 eexists. split; [reflexivity|]. split; [reflexivity|]. split; [reflexivity|]. split; [exact (used_nodes_ok (Block None None (Some (Cells [[2; 1; 0]%nat] [0%nat] [])) []))|reflexivity]. Qed.

(** ** C129 Spinning meshes about their centres *)

(** A block with the only points at and below it, in a frame with the axes of space whose origin is not moved by the rotation (such as the origin of space): the nodes of its cells are turned about the mean of the points.  Missing: other origins (refuted below). *)
Theorem C129_partial :
  forall m path u s b p g o qs ctr T, under None None m path = Some (u, s, b) -> bpd b = Some p -> arrays b = [p] -> frame_in u b = Some g ->
  axes g = ((1, 0, 0), (0, 1, 0), (0, 0, 1)) -> Forall2 (placed_at g) (px p) qs -> centroid qs ctr ->
  T = match o with ToFrame h => axes h | By r => r end -> direction T (origin g) = origin g ->
  exists m', mesh_spin m path o = Ok m' /\ part_changed m path (turned_about ctr T) m'.
Proof. exact @spin_fixed. Qed.
Print Assumptions C129_partial.
(** For other origins the turned nodes are displaced, by the vector that leads from the turned origin to the origin. *)
Theorem C129_value :
  forall m path u s b p g o qs ctr d T, under None None m path = Some (u, s, b) -> bpd b = Some p -> arrays b = [p] -> frame_in u b = Some g ->
  axes g = ((1, 0, 0), (0, 1, 0), (0, 0, 1)) -> Forall2 (placed_at g) (px p) qs -> centroid qs ctr ->
  T = match o with ToFrame h => axes h | By r => r end -> displaced d (direction T (origin g)) (origin g) ->
  exists m', mesh_spin m path o = Ok m' /\ part_changed m path (fun a a' => exists w, turned_about ctr T a w /\ displaced d w a') m'.
Proof. exact @spin_own. Qed.
Print Assumptions C129_value.
(** So the only point of a mesh, in a frame with another origin, does not stay where it is. *)
Theorem C129_refuted :
  exists m m' p q r, frame_in None m = Some (Cartesian ((1, 0, 0), (0, 1, 0), (0, 0, 1)) (1, 0, 0)) /\ orthonormal r /\ mesh_spin m [] (By r) = Ok m' /\ mesh_at m [[p]] /\ mesh_at m' [[q]] /\ centroid [p] p /\ p <> q.
Proof. exact @spin_wrong. Qed.
Print Assumptions C129_refuted.
Example C129_ex : frame_in None (line_at standard) = Some standard /\ direction quarter (origin standard) = origin standard /\ Forall2 (placed_at standard) [(0, 0, 0); (2, 0, 0)] [(0, 0, 0); (2, 0, 0)] /\ centroid [(0, 0, 0); (2, 0, 0)] (1, 0, 0) /\
  turned_about (1, 0, 0) quarter (2, 0, 0) (1, 1, 0) /\ displaced (1, -1, 0) (direction quarter (origin away)) (origin away).
Proof.
  split; [reflexivity|]. split; [cbn; apply triple_eq; lra|]. split; [constructor; [|constructor; [|constructor]]; apply placed_iff; cbn; apply triple_eq; lra|].
  split; [split; [discriminate|]; cbn; apply triple_eq; unfold xof, yof, zof; cbn; lra|]. split; [apply turned_iff|apply displaced_iff]; cbn; apply triple_eq; lra.
Qed.

(** ** C130 Rotation of the frames of cells *)

(** With the axes of space for the points: the frames of the cells turn with the cells exactly if the rotation and the rotation of the frame of each cell can be exchanged, as for frames with the axes of space and for rotations about a common axis.  Missing: other frames (refuted below). *)
Theorem C130_partial :
  forall g r frames, axes g = ((1, 0, 0), (0, 1, 0), (0, 0, 1)) ->
  (Forall2 (axes_turned r) frames (rotate_frames g (By r) frames) <-> Forall (fun f => relative_axes f r = relative_axes r f) frames).
Proof. exact @frames_commute. Qed.
Print Assumptions C130_partial.
(** In general the frames are not turned with the cells. *)
Theorem C130_refuted :
  exists f r, orthonormal f /\ orthonormal r /\ ~ Forall2 (axes_turned r) [f] (rotate_frames (Cartesian ((1, 0, 0), (0, 1, 0), (0, 0, 1)) (0, 0, 0)) (By r) [f]).
Proof. exact @frames_wrong. Qed.
Print Assumptions C130_refuted.
Example C130_ex : Forall (fun f => relative_axes f quarter = relative_axes quarter f) [((1, 0, 0), (0, 1, 0), (0, 0, 1)); ((3 / 5, 4 / 5, 0), (- (4 / 5), 3 / 5, 0), (0, 0, 1))].
Proof. constructor; [|constructor; [|constructor]]; unfold quarter; cbn; (f_equal; [f_equal|]); apply triple_eq; lra. Qed.
