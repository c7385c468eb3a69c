(** * Properties C91 - C96: meshes of several blocks *)
From Coq Require Import Reals Lra Lia ZArith List String Sorted.
From Verif Require Import Base BaseFacts TopoSpec TrSpec FrameSpec FrameProofs FrameProofs2 MeshModel MeshSpec MeshProofs MeshProofs2 MeshProofs3 MeshProofs4 MeshProofs5 MeshProofs6 MeshProofs7 MeshProofs8.
Import ListNotations.
Local Open Scope nat_scope.

(** ** C91 Standard form *)

(** If the root has the standard frame or none: the standard form has one array of points at the root, consecutive numbers, the cells of every block, all fields (the default value where a block lacks one), and every node of every cell is where it was.  Missing: other frames, single points, meshes without cells, fields with rows that some block lacks (refuted below). *)
Theorem C91_partial :
  forall dp dc m ps, bframe m = None \/ bframe m = Some standard \/ bframe m = Some (Plain (axes standard)) ->
  mesh_at m ps -> arrays m <> [] -> cell_arrays m <> [] -> Forall (fun p => length (px p) <> 1) (arrays m) -> joinable (map pfields (arrays m)) ->
  exists m', to_standard_form dp dc m = Ok m' /\ standard_form dp dc m m' /\ mesh_at m' ps /\ forall qs, points_at m qs -> points_at m' qs.
Proof. exact @standardize_standard. Qed.
Print Assumptions C91_partial.
(** In general the frame of the root is applied once more: a node at [q] ends at the place that has the coordinates [q] in that frame. *)
Theorem C91_frames :
  forall dp dc m ps, receives (root_frame m) m -> mesh_at m ps -> arrays m <> [] -> cell_arrays m <> [] ->
  Forall (fun p => length (px p) <> 1) (arrays m) -> joinable (map pfields (arrays m)) ->
  exists m' ps', to_standard_form dp dc m = Ok m' /\ standard_form dp dc m m' /\
    mesh_at m' ps' /\ Forall2 (Forall2 (placed_at (root_frame m))) ps ps' /\
    forall qs, points_at m qs -> exists qs', points_at m' qs' /\ Forall2 (placed_at (root_frame m)) qs qs'.
Proof. exact @standardize. Qed.
Print Assumptions C91_frames.
Definition C91_mesh : block := Block None (Some (Points [(0, 0, 0); (1, 0, 0); (0, 1, 0)]%R None [0; 1; 2] [true; true; true] [("t"%string, Field None [[Some 1%R]; [Some 2%R]; [Some 3%R]])]))
  (Some (Cells [[0; 1; 2]] [0] [])) [Block (Some (Cartesian ((0, 1, 0), (-1, 0, 0), (0, 0, 1)) (5, 0, 0)))%R (Some (Points [(0, 0, 0); (1, 0, 0)]%R None [0; 1] [true; true] [])) (Some (Cells [[0; 1]; [1; 0]] [1; 2] [])) []].
Example C91_ex : (exists ps, mesh_at C91_mesh ps) /\ arrays C91_mesh <> [] /\ cell_arrays C91_mesh <> [] /\
  Forall (fun p => length (px p) <> 1) (arrays C91_mesh) /\ joinable (map pfields (arrays C91_mesh)).
Proof.
  split; [|split; [discriminate|split; [discriminate|split; [repeat constructor; discriminate|]]]].
  - eexists. unfold mesh_at. cbn. repeat (constructor; cbn [fst snd node_at]; try (eexists; split; [reflexivity|]; apply placed_iff; reflexivity)).
  - intros s. exists None. cbn [C91_mesh arrays flat_map app map pfields]. constructor; [|constructor; [reflexivity|constructor]]. cbn [find_field]. destruct (String.eqb "t" s); reflexivity.
Qed.
Example C91_frames_ex : receives (root_frame (line_in turned)) (line_in turned) /\ (exists ps, mesh_at (line_in turned) ps).
Proof. split; [split; [exact orthonormal_turned|left; eexists; right; reflexivity]|]. eexists. apply line_in_at. Qed.

(** A mesh whose root has another frame moves. *)
Theorem C91_moves_refuted :
  exists m o p k ps m', m = Block (Some (Cartesian meye o)) (Some p) (Some k) [] /\ pframe p = Some (Cartesian meye o) /\ length (px p) = 2 /\ mesh_at m ps /\ to_standard_form (fun _ => None) (fun _ => None) m = Ok m' /\ ~ mesh_at m' ps.
Proof. exact @standard_moves. Qed.
Print Assumptions C91_moves_refuted.
(** A block with a single point: AssertionError, always. *)
Theorem C91_single_refuted :
  forall dp dc m, Exists (fun p => length (px p) = 1) (arrays m) -> to_standard_form dp dc m = Err AssertionError.
Proof. exact @standard_single. Qed.
Print Assumptions C91_single_refuted.
(** A mesh without cells: ValueError, always. *)
Theorem C91_empty_refuted :
  forall dp dc m, arrays m <> [] -> Forall (fun p => length (px p) <> 1) (arrays m) -> joinable (map pfields (arrays m)) ->
  cell_arrays m = [] -> to_standard_form dp dc m = Err ValueError.
Proof. exact @standard_no_cells. Qed.
Print Assumptions C91_empty_refuted.
(** A field with rows that one of the blocks lacks: ValueError. *)
Theorem C91_rows_refuted :
  exists m p q k r ps, m = Block None None None [Block None (Some p) (Some k) []; Block None (Some q) (Some k) []] /\
  pfields p = [("u"%string, Field (Some 2) r)] /\ pfields q = [] /\ length r = 2 /\ Forall (fun p => length (px p) = 2 /\ pframe p = None) [p; q] /\ cfields k = [] /\
  mesh_at m ps /\ to_standard_form (fun _ => None) (fun _ => None) m = Err ValueError.
Proof. exact @standard_missing_row. Qed.
Print Assumptions C91_rows_refuted.
(** The activity of points is lost. *)
Theorem C91_activity_refuted :
  exists m m' p pd, to_standard_form (fun _ => None) (fun _ => None) m = Ok m' /\ arrays m = [p] /\ bpd m' = Some pd /\
  length (px p) = length (px pd) /\ pact p = [false; true] /\ pact pd = [true; true].
Proof. exact @standard_activity_lost. Qed.
Print Assumptions C91_activity_refuted.
(** With inplace=False the default values are ignored. *)
Theorem C91_copy_refuted :
  exists m m' pd, let d := fun _ : string => Some 0%R in
  standard_copy d d m = Ok m' /\ bpd m' = Some pd /\ find_field "u"%string (pfields pd) = Some (Field None [[Some 1%R]; [Some 3%R]; [None]; [None]]) /\
  exists m'' pd', to_standard_form d d m = Ok m'' /\ bpd m'' = Some pd' /\ find_field "u"%string (pfields pd') = Some (Field None [[Some 1%R]; [Some 3%R]; [Some 0%R]; [Some 0%R]]).
Proof. exact @standard_copy_defaults. Qed.
Print Assumptions C91_copy_refuted.
(** ** C92 Coordinates and centres *)

(** The coordinates of a mesh are those of the places of its points, in any target, if all frames have the same origin.  Missing: other origins (refuted below). *)
Theorem C92_partial :
  forall m T qs, frame_in None m = Some T -> orthonormal (axes T) -> arrays m <> [] ->
  Forall (fun fp => exists f, fst fp = Some f /\ origin_of f = origin_of T) (framed None m) -> points_at m qs ->
  coords_of top m None = Ok qs /\
  forall t, orthonormal (axes t) -> (exists a o, T = Cartesian a o) \/ (exists a, t = Plain a \/ t = Cartesian a (0, 0, 0)%R) ->
    exists cs, coords_of top m (Some t) = Ok cs /\ same_places standard qs t cs.
Proof. exact @coords_places. Qed.
Print Assumptions C92_partial.
(** A new mesh in the standard frame has the coordinates it was given.  Missing: other frames (refuted below). *)
Theorem C92_new_partial :
  forall x t f, f = None \/ f = Some standard \/ f = Some (Plain (axes standard)) -> coords_of top (new_mesh x t f) None = Ok x.
Proof. exact @new_mesh_standard. Qed.
Print Assumptions C92_new_partial.
(** In any other frame, the frame is applied twice. *)
Theorem C92_new_frames :
  forall x t F qs, orthonormal (axes F) -> same_places F x standard qs ->
  exists qs', coords_of top (new_mesh x t (Some F)) None = Ok qs' /\ same_places F qs standard qs'.
Proof. exact @new_mesh_twice. Qed.
Print Assumptions C92_new_frames.
(** The centres of the cells of a block, if all points are at the root and there is no target.  Missing: targets (refuted below). *)
Theorem C92_centers_partial :
  forall m path p T ps, rooted m p T -> orthonormal (axes T) -> part_at m path ps -> ps <> [] -> Forall (fun qs => qs <> []) ps ->
  exists cs, mesh_centers m path None = Ok cs /\ Forall2 centroid ps cs.
Proof. exact @centers_places. Qed.
Print Assumptions C92_centers_partial.
Example C92_ex : let m := Block (Some standard) None None [line_in turned; line_in (Plain meye)] in
  frame_in None m = Some standard /\ orthonormal (axes standard) /\ arrays m <> [] /\ Forall (fun fp => exists f, fst fp = Some f /\ origin_of f = origin_of standard) (framed None m) /\ exists qs, points_at m qs.
Proof.
  cbn zeta. split; [reflexivity|]. split; [exact orthonormal_eye|]. split; [discriminate|]. split.
  - cbn. repeat constructor; eexists; split; reflexivity.
  - eexists. unfold points_at. cbn. repeat (constructor; cbn [fst snd]; try (apply placed_iff; reflexivity)).
Qed.
Example C92_centers_ex : rooted (line_in turned) (two_points (Some turned)) turned /\ orthonormal (axes turned) /\ exists ps, part_at (line_in turned) [] ps /\ ps <> [] /\ Forall (fun qs => qs <> []) ps.
Proof.
  split; [repeat split|]. split; [exact orthonormal_turned|]. eexists. split; [exists None, None, (line_in turned); split; [reflexivity|apply line_in_at]|]. split; [discriminate|repeat constructor; discriminate].
Qed.

(** Blocks whose frame has another origin than that of the root: the origins are ignored. *)
Theorem C92_origins_refuted :
  exists m o p k qs cs, m = Block (Some standard) None None [Block (Some (Cartesian meye o)) (Some p) (Some k) []] /\ pframe p = None /\ points_at m qs /\ coords_of top m None = Ok cs /\ cs <> qs.
Proof. exact @coords_origins_wrong. Qed.
Print Assumptions C92_origins_refuted.
(** The coordinates of a new mesh in a frame with an origin are not where they were given. *)
Theorem C92_new_refuted :
  exists x t F qs qs', orthonormal (axes F) /\ same_places F x standard qs /\ coords_of top (new_mesh x t (Some F)) None = Ok qs' /\ qs' <> qs.
Proof. exact @new_mesh_wrong. Qed.
Print Assumptions C92_new_refuted.
(** With a target the centres, which are in the standard frame, are taken as coordinates in the frame of the mesh. *)
Theorem C92_centers_refuted :
  exists m p k o ps cs t c, t = Cartesian meye o /\ m = Block (Some t) (Some p) (Some k) [] /\ pframe p = Some t /\ mesh_at m ps /\ mesh_centers m [] (Some t) = Ok cs /\
  Forall2 centroid ps [c] /\ ~ same_places standard [c] t cs.
Proof. exact @centers_target_wrong. Qed.
Print Assumptions C92_centers_refuted.
(** ** C93 Copies *)

(** A copy has its cells at the same places, and the same fields, if all frames are at the origin and the points of the blocks below the root are numbered by position.  Missing: other frames and numbers (refuted below). *)
Theorem C93_partial :
  forall m ps, frame_in None m <> None -> Forall (fun fp => exists f, fst fp = Some f /\ centred f) (framed None m) ->
  Forall (fun p => pid p = seq 0 (length (px p))) (flat_map arrays (bsub m)) -> mesh_at m ps ->
  exists m', copy_mesh m = Ok m' /\ mesh_at m' ps /\ Forall2 same_points (arrays m) (arrays m') /\ Forall2 same_cells (cell_arrays m) (cell_arrays m').
Proof. exact @copy_mesh_ok. Qed.
Print Assumptions C93_partial.
Example C93_ex : let m := Block (Some turned) None None [line_in turned; line_in (Plain meye)] in
  frame_in None m <> None /\ Forall (fun fp => exists f, fst fp = Some f /\ centred f) (framed None m) /\ Forall (fun p => pid p = seq 0 (length (px p))) (flat_map arrays (bsub m)) /\ exists ps, mesh_at m ps.
Proof.
  cbn zeta. split; [discriminate|]. split; [|split; [repeat constructor|]].
  - cbn. repeat constructor; eexists; (split; [reflexivity|]); eexists; [right|left]; reflexivity.
  - eexists. unfold mesh_at. cbn. repeat (constructor; cbn [fst snd node_at]; try (eexists; split; [reflexivity|]; apply placed_iff; reflexivity)).
Qed.

(** In every block of a copy the points have the axes of the frame of the points that were copied. *)
Theorem C93_axes :
  forall m m' path u s b p, copy_mesh m = Ok m' -> under None None m path = Some (u, s, b) -> bpd b = Some p ->
  exists u' s' b' p' g, under None None m' path = Some (u', s', b') /\ bpd b' = Some p' /\ pframe p' = Some g /\ origin_of g = vzero /\ axes g = axes (own_frame b p).
Proof. exact @copy_frames. Qed.
Print Assumptions C93_axes.
(** The points of the root keep their indices; those of the blocks below it are numbered by position. *)
Theorem C93_indices :
  forall m m', copy_mesh m = Ok m' ->
  option_map pid (bpd m') = option_map pid (bpd m) /\
  forall i path u s b p, under None None m (i :: path) = Some (u, s, b) -> bpd b = Some p ->
    exists u' s' b' p', under None None m' (i :: path) = Some (u', s', b') /\ bpd b' = Some p' /\ pid p' = seq 0 (length (px p)).
Proof. exact @copy_indices. Qed.
Print Assumptions C93_indices.
Example C93_axes_ex : let m := Block (Some standard) None None [Block (Some standard) (Some (two_points (Some turned))) None []] in
  (exists m', copy_mesh m = Ok m') /\ exists u s b p, under None None m [0] = Some (u, s, b) /\ bpd b = Some p /\ own_frame b p = turned /\ bframe b = Some standard.
Proof. cbn zeta. split; [eexists; reflexivity|]. eexists _, _, _, _. repeat split. Qed.

(** A mesh whose root has neither a frame nor points cannot be copied. *)
Theorem C93_frameless_refuted :
  forall m, frame_in None m = None -> copy_mesh m = Err AttributeError.
Proof. exact @copy_no_frame. Qed.
Print Assumptions C93_frameless_refuted.
(** The origins of frames are lost: the copy is elsewhere. *)
Theorem C93_moves_refuted :
  exists m o p k ps m', m = Block (Some (Cartesian meye o)) (Some p) (Some k) [] /\ pframe p = Some (Cartesian meye o) /\ pid p = seq 0 (length (px p)) /\ mesh_at m ps /\ copy_mesh m = Ok m' /\ ~ mesh_at m' ps.
Proof. exact @copy_moves. Qed.
Print Assumptions C93_moves_refuted.
(** A block whose points are not numbered by position cannot be copied. *)
Theorem C93_ids_refuted :
  exists m p k ps, m = Block (Some standard) None None [Block None (Some p) (Some k) []] /\ pframe p = None /\ complete p /\ length (pid p) = length (px p) /\ pid p <> seq 0 (length (px p)) /\ mesh_at m ps /\ copy_mesh m = Err KeyError.
Proof. exact @copy_ids_lost. Qed.
Print Assumptions C93_ids_refuted.
(** Different cells, different numbers: not in the copy. *)
Theorem C93_numbers_refuted :
  exists m m', NoDup (concat (map cid (cell_arrays m))) /\ copy_mesh m = Ok m' /\ ~ NoDup (concat (map cid (cell_arrays m'))).
Proof. exact @copy_numbers_clash. Qed.
Print Assumptions C93_numbers_refuted.
(** A block without points loses its frame. *)
Theorem C93_frames_refuted :
  exists m m' F, (exists b, bsub m = [b] /\ frame_in (frame_in None m) b = Some F) /\ copy_mesh m = Ok m' /\ exists b, bsub m' = [b] /\ frame_in (frame_in None m') b <> Some F.
Proof. exact @copy_frame_lost. Qed.
Print Assumptions C93_frames_refuted.
(** ** C94 Moving and centring meshes *)

(** Moving a block with points and no other points below it moves its cells, and only these, by the given vector.  Missing: other blocks (refuted below). *)
Theorem C94_move_partial :
  forall m path u s b p g w f, under None None m path = Some (u, s, b) -> bpd b = Some p -> arrays b = [p] -> frame_in u b = Some g -> orthonormal (axes g) ->
  exists m', mesh_move m path (Array w) f = Ok m' /\ part_moved m path (motion g f w) m'.
Proof. exact @move_own. Qed.
Print Assumptions C94_move_partial.
(** The centre of such a block is the mean of its points. *)
Theorem C94_center_partial :
  forall m path u s b p g qs, under None None m path = Some (u, s, b) -> bpd b = Some p -> arrays b = [p] -> frame_in u b = Some g -> orthonormal (axes g) ->
  px p <> [] -> Forall2 (placed_at g) (px p) qs -> exists c, mesh_center m path None = Ok c /\ centroid qs c.
Proof. exact @center_own. Qed.
Print Assumptions C94_center_partial.
(** The centre of a block without points is the mean of the nodes it uses. *)
Theorem C94_center_part :
  forall m path u s b sp ps ns, under None None m path = Some (u, s, b) -> arrays b = [] -> closest m path sp ->
  (exists u' s' sb p g, under None None m sp = Some (u', s', sb) /\ arrays sb = [p] /\ length (pid p) = length (px p) /\ frame_in u' sb = Some g /\ orthonormal (axes g)) ->
  nodes_used b ns -> ns <> [] -> part_at m path ps -> exists qs c, Forall2 (node_at s) ns qs /\ mesh_center m path None = Ok c /\ centroid qs c.
Proof. exact @center_part. Qed.
Print Assumptions C94_center_part.
(** Centring such a block without a target moves its cells, and only these, by one vector, and the mean of the coordinates in its frame is zero afterwards.  Missing: targets, axes, points below (refuted below). *)
Theorem C94_centralize_partial :
  forall m path u s b p g ax, under None None m path = Some (u, s, b) -> bpd b = Some p -> arrays b = [p] -> frame_in u b = Some g -> orthonormal (axes g) ->
  px p <> [] -> exists m' b' p' d, mesh_centralize m path None ax = Ok m' /\ under None None m' path = Some (u, s, b') /\ bpd b' = Some p' /\ frame_in u b' = Some g /\
    centroid (px p') (0, 0, 0)%R /\
    part_moved m path d m'.
Proof. exact @centralize_own. Qed.
Print Assumptions C94_centralize_partial.
Example C94_ex : let m := Block (Some standard) (Some four_points) (Some (Cells [[1; 2]] [0] [])) [line_in turned; Block None None (Some (Cells [[2; 3]] [1] [])) []] in
  (exists u s b, under None None m [0] = Some (u, s, b) /\ bpd b = Some (two_points (Some turned)) /\ arrays b = [two_points (Some turned)] /\ frame_in u b = Some turned /\ px (two_points (Some turned)) <> []) /\ orthonormal (axes turned) /\ exists ps, mesh_at m ps.
Proof.
  cbn zeta. split; [eexists; eexists; eexists; split; [reflexivity|]; split; [reflexivity|]; split; [reflexivity|]; split; [reflexivity|discriminate]|]. split; [exact orthonormal_turned|].
  eexists. unfold mesh_at. cbn. repeat (constructor; cbn [fst snd node_at]; try (eexists; split; [reflexivity|]; apply placed_iff; reflexivity)).
Qed.
Example C94_part_ex : exists u s b, under None None nested_cells [0] = Some (u, s, b) /\ arrays b = [] /\ closest nested_cells [0] [] /\ nodes_used b [2; 3] /\ (exists ps, part_at nested_cells [0] ps) /\
  exists u' s' sb p g, under None None nested_cells [] = Some (u', s', sb) /\ arrays sb = [p] /\ length (pid p) = length (px p) /\ frame_in u' sb = Some g /\ orthonormal (axes g) /\ length [2; 3] <> length (px p).
Proof.
  eexists. eexists. eexists. split; [reflexivity|]. split; [reflexivity|]. split; [|split; [apply (used_nodes_ok (Block None None (Some (Cells [[2; 3]] [1] [])) []))|split]].
  - exists [0]. split; [reflexivity|]. split; [do 4 eexists; split; reflexivity|]. intros i Hi (u & s & b & p & Hu & Hp). cbn in Hi. replace i with 1 in Hu by lia. cbn in Hu. injection Hu as _ _ <-. discriminate.
  - eexists. do 3 eexists. split; [reflexivity|]. cbn. repeat (constructor; cbn [fst snd node_at]; try at_standard).
  - do 5 eexists. split; [reflexivity|]. split; [reflexivity|]. split; [reflexivity|]. split; [reflexivity|]. split; [exact orthonormal_eye|discriminate].
Qed.

(** A block without points that does not use all points of the block it takes them from, but more than one: ValueError, always. *)
Theorem C94_part_refuted :
  forall m path u s b sp w f ps ns, under None None m path = Some (u, s, b) -> arrays b = [] -> closest m path sp ->
  (exists u' s' sb p g, under None None m sp = Some (u', s', sb) /\ arrays sb = [p] /\ length (pid p) = length (px p) /\ frame_in u' sb = Some g /\ orthonormal (axes g) /\ length ns <> length (px p)) ->
  nodes_used b ns -> length ns <> 1 -> part_at m path ps -> mesh_move m path (Array w) f = Err ValueError.
Proof. exact @move_part. Qed.
Print Assumptions C94_part_refuted.
(** A block with other points below it: ValueError (unless the numbers of points happen to fit). *)
Theorem C94_nested_refuted :
  forall m path u s b p w f, under None None m path = Some (u, s, b) -> bpd b = Some p ->
  (let n := list_sum (map (fun p => length (px p)) (arrays b)) in n <> length (px p) /\ n <> 1) -> mesh_move m path (Array w) f = Err ValueError.
Proof. exact @move_nested. Qed.
Print Assumptions C94_nested_refuted.
Example C94_nested_ex : exists u s b p, under None None (Block (Some standard) (Some four_points) None [line_in turned]) [] = Some (u, s, b) /\ bpd b = Some p /\
  (let n := list_sum (map (fun p => length (px p)) (arrays b)) in n <> length (px p) /\ n <> 1).
Proof. do 4 eexists. split; [reflexivity|]. split; [reflexivity|]. cbn. split; discriminate. Qed.

(** With a target whose axes are turned, the centre is not at its origin. *)
Theorem C94_target_refuted :
  exists m m' p' t, orthonormal (axes t) /\ frame_in None m = Some standard /\ mesh_centralize m [] (Some t) None = Ok m' /\ bpd m' = Some p' /\
  exists qs c, same_places standard (px p') t qs /\ centroid qs c /\ c <> (0, 0, 0)%R.
Proof. exact @centralize_turned. Qed.
Print Assumptions C94_target_refuted.
(** The argument axes is ignored. *)
Theorem C94_axes_refuted :
  exists m m' p p' c c', frame_in None m = Some standard /\ bpd m = Some p /\ mesh_centralize m [] (Some standard) (Some [0]) = Ok m' /\ bpd m' = Some p' /\
  centroid (px p) c /\ centroid (px p') c' /\ component 1 c' <> component 1 c.
Proof. exact @centralize_all_axes. Qed.
Print Assumptions C94_axes_refuted.
(** Points of a block below in a frame with other axes move in another direction. *)
Theorem C94_bends_refuted :
  exists m m' F p k q l a b a' b', m = Block (Some standard) (Some p) (Some k) [Block (Some (Cartesian F vzero)) (Some q) (Some l) []] /\ orthonormal F /\ pframe p = None /\ pframe q = None /\ mesh_at m [[a]; [b]] /\ mesh_centralize m [] None None = Ok m' /\ mesh_at m' [[a']; [b']] /\ forall d, ~ (displaced d a a' /\ displaced d b b').
Proof. exact @centralize_bends. Qed.
Print Assumptions C94_bends_refuted.
(** ** C95 Merging the numbers of nodes *)

(** If only the root has points, numbered by position, and no block with cells is below another: the cells stay where they are, the points left are those used, in their order, with all their fields, and are numbered by position.  Missing: nested cells, frames of points, other numbers (refuted below). *)
Theorem C95_partial :
  forall m p ps, bpd m = Some p -> arrays m = [p] -> pid p = seq 0 (length (px p)) -> complete p -> cells_apart m ->
  bframe m <> None \/ pframe p = None \/ pframe p = Some standard -> mesh_at m ps ->
  exists m' p' ns, nummrg m = Ok m' /\ mesh_at m' ps /\ bpd m' = Some p' /\ arrays m' = [p'] /\ pid p' = seq 0 (length (px p')) /\
    nodes_used m ns /\ points_taken ns p p' /\ nodes_used m' (seq 0 (length (px p'))).
Proof. exact @nummrg_ok. Qed.
Print Assumptions C95_partial.
Example C95_ex : let m := Block (Some turned) (Some four_points) None [Block None None (Some (Cells [[1; 3]] [0] [])) []; Block None None (Some (Cells [[3; 1]] [1] [])) []] in
  bpd m = Some four_points /\ arrays m = [four_points] /\ pid four_points = seq 0 (length (px four_points)) /\ complete four_points /\ cells_apart m /\ bframe m <> None /\ (exists ps, mesh_at m ps) /\ nodes_used m [1; 3].
Proof.
  cbn zeta. split; [reflexivity|]. split; [reflexivity|]. split; [reflexivity|]. split; [split; [reflexivity|constructor]|]. split; [cbn; auto|]. split; [discriminate|]. split.
  - eexists. unfold mesh_at. cbn. repeat (constructor; cbn [fst snd node_at]; try (eexists; split; [reflexivity|]; apply placed_iff; reflexivity)).
  - apply (used_nodes_ok (Block (Some turned) (Some four_points) None [Block None None (Some (Cells [[1; 3]] [0] [])) []; Block None None (Some (Cells [[3; 1]] [1] [])) []])).
Qed.

(** Cells in a block below another one with cells are renamed twice. *)
Theorem C95_nested_refuted :
  exists m p k l ps m', m = Block (Some standard) (Some p) (Some k) [Block None None (Some l) []] /\ pframe p = None /\ pid p = seq 0 (length (px p)) /\ mesh_at m ps /\ nummrg m = Ok m' /\ ~ mesh_at m' ps.
Proof. exact @nummrg_nested. Qed.
Print Assumptions C95_nested_refuted.
(** A frame that only the points have is lost. *)
Theorem C95_frame_refuted :
  exists m p k F ps m', m = Block None (Some p) (Some k) [] /\ pframe p = Some F /\ orthonormal (axes F) /\ pid p = seq 0 (length (px p)) /\ mesh_at m ps /\ nummrg m = Ok m' /\ ~ mesh_at m' ps.
Proof. exact @nummrg_frame_lost. Qed.
Print Assumptions C95_frame_refuted.
(** Points that are not numbered by position: KeyError. *)
Theorem C95_ids_refuted :
  exists m p k ps, m = Block None (Some p) (Some k) [] /\ pframe p = None /\ complete p /\ length (pid p) = length (px p) /\ pid p <> seq 0 (length (px p)) /\ mesh_at m ps /\ nummrg m = Err KeyError.
Proof. exact @nummrg_ids. Qed.
Print Assumptions C95_ids_refuted.
(** ** C96 Detaching blocks *)

(** A detached block without points below it has its cells at the same places, and so has the mesh it comes from.  Missing: points below (refuted below). *)
Theorem C96_partial :
  forall m path u s b sp ps, under None None m path = Some (u, s, b) -> flat_map arrays (bsub b) = [] -> closest m path sp -> part_at m path ps ->
  exists m' d, detach m path = Ok (m', d) /\ mesh_at d ps /\ (exists p, arrays d = [p] /\ pid p = seq 0 (length (px p))) /\ forall qs, mesh_at m qs -> mesh_at m' qs.
Proof. exact @detach_ok. Qed.
Print Assumptions C96_partial.
Example C96_ex : exists u s b, under None None nested_cells [0] = Some (u, s, b) /\ flat_map arrays (bsub b) = [] /\ closest nested_cells [0] [] /\ exists ps, part_at nested_cells [0] ps.
Proof. destruct C94_part_ex as (u & s & b & H1 & H2 & H3 & _ & H4 & _). exists u, s, b. cbn in H1. injection H1 as <- <- <-. auto. Qed.

(** Cells of blocks with points of their own get the points of the detached block. *)
Theorem C96_nested_refuted :
  exists m p q k l ps m' d, m = Block (Some standard) (Some p) (Some k) [Block None (Some q) (Some l) []] /\ pframe p = None /\ pframe q = None /\ mesh_at m ps /\ part_at m [] ps /\ detach m [] = Ok (m', d) /\ ~ mesh_at d ps.
Proof. exact @detach_nested. Qed.
Print Assumptions C96_nested_refuted.
(** The indices of the points of the mesh are changed. *)
Theorem C96_ids_refuted :
  exists m p m' d p', bpd m = Some p /\ detach m [] = Ok (m', d) /\ bpd m' = Some p' /\ px p' = px p /\ pid p' <> pid p.
Proof. exact @detach_ids. Qed.
Print Assumptions C96_ids_refuted.
(** A block without points above it: AttributeError. *)
Theorem C96_no_points :
  forall m path x, under None None m path = Some x -> (forall i, i <= length path -> ~ points_on m (firstn i path)) -> detach m path = Err AttributeError.
Proof. exact @detach_no_source. Qed.
Print Assumptions C96_no_points.
Example C96_no_points_ex : under None None (Block (Some standard) None (Some one_line) []) [] = Some (None, None, Block (Some standard) None (Some one_line) []) /\
  forall i, i <= @length nat [] -> ~ points_on (Block (Some standard) None (Some one_line) []) (firstn i []).
Proof. split; [reflexivity|]. intros i Hi (u & s & b & p & Hu & Hp). rewrite firstn_nil in Hu. cbn in Hu. injection Hu as <- <- <-. discriminate. Qed.
