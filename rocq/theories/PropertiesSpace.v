(** * Properties C55, C56, C57, C77: frames, planes, lines, closest and furthest points, local coordinates of cells *)
From Coq Require Import Reals Lra Lia List.
From Verif Require Import BaseFacts TrModel TriProofs SpaceModel SpaceSpec NodalProofs4 NodalProofs5 SpaceProofs SpaceProofs2 SpaceProofs3 SpaceProofs4 SpaceProofs5 SpaceProofs6 SpaceProofs7.
Import ListNotations.
Local Open Scope R_scope.

(** ** C55 Frames *)

(** Frames of surfaces, floating point coordinates. *)
Theorem C55_surfaces :
  forall coords topo ecs, mesh_at coords topo ecs -> rect 3 coords -> Forall (fun ec => (3 <= length ec)%nat /\ solid_surface ec) ecs ->
  exists frs, frames_of_surfaces Floating coords topo = Ok frs /\
    Forall2 (fun ec fr => forall p0 p1 pl, corners ec p0 p1 pl -> surface_frame p0 p1 pl fr) ecs frs.
Proof. exact surface_frames. Qed.
Print Assumptions C55_surfaces.
(** The description determines the frame. *)
Theorem C55_surfaces_unique :
  forall p0 p1 pl fr fr', dim 3 p0 -> dim 3 p1 -> dim 3 pl -> surface_frame p0 p1 pl fr -> surface_frame p0 p1 pl fr' -> fr = fr'.
Proof. exact surface_unique. Qed.
Print Assumptions C55_surfaces_unique.
(** If the first, the second and the last node of a cell are on a line: not a number. *)
Theorem C55_surfaces_degenerate :
  forall coords topo ecs ec p0 p1 pl, mesh_at coords topo ecs -> rect 3 coords -> Forall (fun ec => (2 <= length ec)%nat) ecs -> In ec ecs -> corners ec p0 p1 pl -> on_common_line [p0; p1; pl] ->
  frames_of_surfaces Floating coords topo = Err ValueError.
Proof. exact surface_degenerate. Qed.
Print Assumptions C55_surfaces_degenerate.
(** Integer coordinates: not a number unless the first edge is parallel to a global axis. *)
Theorem C55_integral_refuted :
  forall coords nodes ec p0 p1 pl, nodes_at coords nodes ec -> rect 3 coords -> corners ec p0 p1 pl ->
  (forall i, (i < 3)%nat -> exists j, (j < 3)%nat /\ j <> i /\ at_ j p1 <> at_ j p0) -> frames_of_surfaces Integral coords [nodes] = Err ValueError.
Proof. exact surface_integral. Qed.
Print Assumptions C55_integral_refuted.
Example C55_surfaces_ex : mesh_at [[0; 0; 0]; [2; 0; 0]; [3; 1; 1]; [0; 1; 1]] [[0; 1; 2; 3]%nat] [[[0; 0; 0]; [2; 0; 0]; [3; 1; 1]; [0; 1; 1]]] /\ solid_surface [[0; 0; 0]; [2; 0; 0]; [3; 1; 1]; [0; 1; 1]].
Proof.
  split; [repeat constructor|]. intros p0 p1 pl (H0 & H1 & HL). cbn in H0, H1, HL. injection H0 as <-. injection H1 as <-. injection HL as <-.
  apply not_line; try reflexivity. unfold cross3, sub, px, py, pz, at_. cbn. intros E. injection E. lra.
Qed.
Example C55_integral_ex : nodes_at [[0; 0; 0]; [1; 1; 0]; [0; 1; 0]] [0; 1; 2]%nat [[0; 0; 0]; [1; 1; 0]; [0; 1; 0]] /\ ~ on_common_line [[0; 0; 0]; [1; 1; 0]; [0; 1; 0]] /\
  frames_of_surfaces Integral [[0; 0; 0]; [1; 1; 0]; [0; 1; 0]] [[0; 1; 2]%nat] = Err ValueError.
Proof.
  assert (HN : nodes_at [[0; 0; 0]; [1; 1; 0]; [0; 1; 0]] [0; 1; 2]%nat [[0; 0; 0]; [1; 1; 0]; [0; 1; 0]]) by repeat constructor.
  split; [exact HN|]. split; [apply not_line; try reflexivity; unfold cross3, sub, px, py, pz, at_; cbn; intros E; injection E; lra|].
  apply (C55_integral_refuted _ _ _ [0; 0; 0] [1; 1; 0] [0; 1; 0] HN); [repeat constructor|now split|]. intros [|[|[|i]]] Hi; [exists 1%nat|exists 0%nat|exists 0%nat|lia]; (split; [lia|]; split; [congruence|]; unfold at_; cbn; lra).
Qed.

(** Frames of lines without reference points, *)
Theorem C55_lines_auto :
  forall l coords ecs refZ, mesh_at coords (topo_of l) ecs -> rect 3 coords -> (refZ = RefNone \/ refZ = RefOther) -> Forall (fun ec => ec <> [] /\ forall p0 pl, line_ends ec p0 pl -> p0 <> pl) ecs ->
  exists frs, frames_of_lines coords l refZ = Ok frs /\ Forall2 (fun ec fr => forall p0 pl, line_ends ec p0 pl -> line_frame_auto p0 pl fr) ecs frs.
Proof. exact lines_auto. Qed.
Print Assumptions C55_lines_auto.
(** with a reference point for all lines, *)
Theorem C55_lines_ref :
  forall l coords ecs ref, mesh_at coords (topo_of l) ecs -> rect 3 coords -> dim 3 ref ->
  Forall (fun ec => ec <> [] /\ forall p0 pl, line_ends ec p0 pl -> ~ on_common_line [p0; pl; ref]) ecs ->
  exists frs, frames_of_lines coords l (RefPoint ref) = Ok frs /\ Forall2 (fun ec fr => forall p0 pl, line_ends ec p0 pl -> line_frame_ref p0 pl ref fr) ecs frs.
Proof. exact lines_ref. Qed.
Print Assumptions C55_lines_ref.
(** and with a reference point for each of them. *)
Theorem C55_lines_refs :
  forall l coords ecs refs, mesh_at coords (topo_of l) ecs -> rect 3 coords -> length refs = length ecs -> rect 3 refs ->
  Forall2 (fun ec ref => ec <> [] /\ forall p0 pl, line_ends ec p0 pl -> ~ on_common_line [p0; pl; ref]) ecs refs ->
  exists frs, frames_of_lines coords l (RefPoints refs) = Ok frs /\ length frs = length ecs /\
    forall i ec ref fr, nth_error ecs i = Some ec -> nth_error refs i = Some ref -> nth_error frs i = Some fr -> forall p0 pl, line_ends ec p0 pl -> line_frame_ref p0 pl ref fr.
Proof. exact lines_refs. Qed.
Print Assumptions C55_lines_refs.
(** "Local z axes lean towards global z": not for a line along the global x axis. A reference point that is given as a list is ignored. *)
Theorem C55_lean_refuted :
  exists coords nodes, rect 3 coords /\ (forall refZ, refZ = RefNone \/ refZ = RefOther -> frames_of_lines coords (OneLine nodes) refZ = Ok [[[1; 0; 0]; [0; 0; -1]; [0; 1; 0]]]).
Proof. exact lean_wrong. Qed.
Print Assumptions C55_lean_refuted.
Example C55_lines_ex : mesh_at [[0; 0; 0]; [1; 2; 3]; [1; 1; 1]] (topo_of (OneLine [0; 2; 1]%nat)) [[[0; 0; 0]; [1; 1; 1]; [1; 2; 3]]] /\ line_ends [[0; 0; 0]; [1; 1; 1]; [1; 2; 3]] [0; 0; 0] [1; 2; 3] /\ ~ on_common_line [[0; 0; 0]; [1; 2; 3]; [0; 0; 1]].
Proof.
  split; [repeat constructor|]. split; [split; reflexivity|]. apply not_line; try reflexivity. unfold cross3, sub, px, py, pz, at_. cbn. intros E. injection E. lra.
Qed.

(** Frame of a plane, unless the first point, the one in the middle of the list and the centre are on a line, *)
Theorem C55_plane :
  forall coords p0 pm m, coords <> [] -> rect 3 coords -> nth_error coords 0 = Some p0 -> nth_error coords (Nat.div (length coords) 2) = Some pm -> mean_row 3 coords m -> ~ on_common_line [m; p0; pm] ->
  exists tr a b c, frame_of_plane Floating coords = Ok (m, tr) /\ has_columns tr a b c /\ right_handed a b c /\ along (sub p0 m) a /\ 0 < sprod b (sub pm m) /\ sprod c (sub pm m) = 0.
Proof. exact plane_frame. Qed.
Print Assumptions C55_plane.
(** which is never so for triangles. *)
Theorem C55_plane_triangle :
  forall p0 p1 p2, dim 3 p0 -> dim 3 p1 -> dim 3 p2 -> ~ on_common_line [p0; p1; p2] ->
  exists m tr a b c, frame_of_plane Floating [p0; p1; p2] = Ok (m, tr) /\ mean_row 3 [p0; p1; p2] m /\ has_columns tr a b c /\ right_handed a b c /\ along (sub p0 m) a /\ sprod c p1 = sprod c p0 /\ sprod c p2 = sprod c p0.
Proof. exact plane_triangle. Qed.
Print Assumptions C55_plane_triangle.
(** The third axis is a normal of the plane. *)
Theorem C55_plane_normal :
  forall coords n h tr m, coords <> [] -> rect 3 coords -> dim 3 n -> sprod n n = 1 -> in_plane n h coords -> frame_of_plane Floating coords = Ok (m, tr) ->
  exists a b c, has_columns tr a b c /\ right_handed a b c /\ (n = c \/ n = map Ropp c).
Proof. exact plane_normal. Qed.
Print Assumptions C55_plane_normal.
(** If they are on a line the result is not a number. (Missing: a frame.) *)
Theorem C55_plane_degenerate_partial :
  forall coords p0 pm m, coords <> [] -> rect 3 coords -> nth_error coords 0 = Some p0 -> nth_error coords (Nat.div (length coords) 2) = Some pm -> mean_row 3 coords m -> on_common_line [m; p0; pm] ->
  frame_of_plane Floating coords = Err ValueError.
Proof. exact plane_degenerate. Qed.
Print Assumptions C55_plane_degenerate_partial.
(** This is so for every parallelogram. *)
Theorem C55_parallelogram_refuted :
  forall p0 p1 p2 p3, dim 3 p0 -> dim 3 p1 -> dim 3 p2 -> dim 3 p3 -> (forall k, (k < 3)%nat -> at_ k p0 + at_ k p2 = at_ k p1 + at_ k p3) -> frame_of_plane Floating [p0; p1; p2; p3] = Err ValueError.
Proof. exact plane_parallelogram. Qed.
Print Assumptions C55_parallelogram_refuted.
Example C55_parallelogram_ex : planar [[0; 0; 0]; [1; 0; 0]; [1; 1; 0]; [0; 1; 0]] /\ ~ on_common_line [[0; 0; 0]; [1; 0; 0]; [1; 1; 0]] /\ frame_of_plane Floating [[0; 0; 0]; [1; 0; 0]; [1; 1; 0]; [0; 1; 0]] = Err ValueError.
Proof.
  split; [|split].
  - exists [0; 0; 1], 0. split; [reflexivity|]. split; [intros E; injection E; lra|]. intros p [<-|[<-|[<-|[<-|[]]]]]; unfold sprod; cbn; ring.
  - apply not_line; try reflexivity. unfold cross3, sub, px, py, pz, at_. cbn. intros E. injection E. lra.
  - apply C55_parallelogram_refuted; try reflexivity. intros [|[|[|k]]] Hk; unfold at_; cbn; try lra; lia.
Qed.

(** ** C56 Planar surfaces, points in a plane, points on a line *)

(** Unit normals: True if and only if they differ little from the first one. *)
Theorem C56_surface :
  forall normals n0 tol, nth_error normals 0 = Some n0 -> 0 <= tol -> Forall (fun n => dim 3 n /\ sprod n n = 1) normals ->
  exists b, is_planar_surface normals tol = Ok b /\ (b = true <-> forall n, In n normals -> dist2 n n0 <= 2 * tol).
Proof. exact planar_surface. Qed.
Print Assumptions C56_surface.
(** Triangle meshes: True if and only if the normals differ little from the first one. *)
Theorem C56_trimesh :
  forall coords topo ecs tol, coords <> [] -> rect 3 coords -> mesh_at coords topo ecs -> topo <> [] -> 0 <= tol ->
  Forall (fun ec => exists p0 p1 p2 rest, ec = p0 :: p1 :: p2 :: rest /\ ~ on_common_line [p0; p1; p2]) ecs ->
  exists normals n0 b, trimesh_normals coords topo = Ok normals /\ nth_error normals 0 = Some n0 /\ trimesh_is_planar coords topo tol = Ok b /\
    Forall2 (fun ec n => forall p0 p1 p2 rest, ec = p0 :: p1 :: p2 :: rest -> triangle_normal p0 p1 p2 n) ecs normals /\
    (b = true <-> forall n, In n normals -> dist2 n n0 <= 2 * tol).
Proof. exact trimesh_planar. Qed.
Print Assumptions C56_trimesh.
(** Triangles in parallel planes are said to form a planar surface, triangles of one plane with different orientations are not. *)
Theorem C56_trimesh_refuted :
  exists coords coords' topo topo' tol ecs ecs', 0 < tol < 1 /\ rect 3 coords /\ rect 3 coords' /\ mesh_at coords topo ecs /\ mesh_at coords' topo' ecs' /\
  Forall (fun ec => exists p0 p1 p2, ec = [p0; p1; p2] /\ ~ on_common_line [p0; p1; p2]) (ecs ++ ecs') /\
  ~ planar coords /\ trimesh_is_planar coords topo tol = Ok true /\ planar coords' /\ trimesh_is_planar coords' topo' tol = Ok false.
Proof. exact trimesh_planar_wrong. Qed.
Print Assumptions C56_trimesh_refuted.
(** is_planar: if the answer is True all points but the first one are close to a plane through the origin. (Missing: other planes.) *)
Theorem C56_planar_sound_partial :
  forall coords tol, coords <> [] -> rect 3 coords -> 0 <= tol -> is_planar coords tol = Ok true ->
  exists d, dim 3 d /\ sprod d d = 1 /\ forall i p, (0 < i)%nat -> nth_error coords i = Some p -> Rabs (sprod d p) <= tol.
Proof. exact planar_sound. Qed.
Print Assumptions C56_planar_sound_partial.
(** Three points, which are always in a plane: the answer is whether this plane is close to the origin. (Missing: True.) *)
Theorem C56_three_points_partial :
  forall p0 p1 p2 n h tol, dim 3 p0 -> dim 3 p1 -> dim 3 p2 -> ~ on_common_line [p0; p1; p2] -> dim 3 n -> sprod n n = 1 -> in_plane n h [p0; p1; p2] -> 0 <= tol ->
  exists b, is_planar [p0; p1; p2] tol = Ok b /\ (b = true <-> Rabs h <= tol).
Proof. exact planar_three. Qed.
Print Assumptions C56_three_points_partial.
(** Points of a plane that does not pass near the origin: always False. *)
Theorem C56_offset_refuted :
  forall coords n h tol, coords <> [] -> rect 3 coords -> dim 3 n -> sprod n n = 1 -> in_plane n h coords -> 0 <= tol < Rabs h -> is_planar coords tol = Ok false.
Proof. exact planar_offset. Qed.
Print Assumptions C56_offset_refuted.
(** Points on a line: always False. *)
Theorem C56_aligned_refuted :
  forall coords tol, coords <> [] -> rect 3 coords -> on_common_line coords -> is_planar coords tol = Ok false.
Proof. exact planar_line. Qed.
Print Assumptions C56_aligned_refuted.
(** Points of a plane through the origin: may be False. *)
Theorem C56_choice_refuted :
  exists coords, rect 3 coords /\ in_plane [0; 0; 1] 0 coords /\ ~ on_common_line coords /\ forall tol, is_planar coords tol = Ok false.
Proof. exact planar_choice. Qed.
Print Assumptions C56_choice_refuted.
(** is_line: False for all points, on a line or not, if the last one is not the first one, *)
Theorem C56_line_refuted :
  forall zero coords p0 pl tol, zero = Err ValueError \/ zero = Ok [0; 0; 0] -> rect 3 coords -> nth_error coords 0 = Some p0 -> nth_error coords (length coords - 1) = Some pl -> pl <> p0 -> 0 <= tol < 1 ->
  is_line zero coords tol = Ok false.
Proof. exact is_line_false. Qed.
Print Assumptions C56_line_refuted.
(** True for all closed sequences of points if rows of zeros stay zeros. *)
Theorem C56_closed_refuted :
  forall coords p0 tol, rect 3 coords -> nth_error coords 0 = Some p0 -> nth_error coords (length coords - 1) = Some p0 -> 0 <= tol -> is_line (Ok [0; 0; 0]) coords tol = Ok true.
Proof. exact is_line_closed. Qed.
Print Assumptions C56_closed_refuted.
Example C56_ex : in_plane [0; 0; 1] 1 [[0; 0; 1]; [1; 0; 1]; [0; 1; 1]] /\ is_planar [[0; 0; 1]; [1; 0; 1]; [0; 1; 1]] (1 / 2) = Ok false /\ is_planar [[0; 0; 0]; [1; 0; 0]; [0; 1; 0]] 0 = Ok true /\
  on_common_line [[0; 0; 0]; [1; 1; 1]; [2; 2; 2]] /\ is_line (Ok [0; 0; 0]) [[0; 0; 0]; [1; 1; 1]; [2; 2; 2]] 0 = Ok false /\ ~ on_common_line [[0; 0; 0]; [1; 0; 0]; [0; 1; 0]] /\ is_line (Ok [0; 0; 0]) [[0; 0; 0]; [1; 0; 0]; [0; 1; 0]; [0; 0; 0]] 0 = Ok true.
Proof.
  assert (P : in_plane [0; 0; 1] 1 [[0; 0; 1]; [1; 0; 1]; [0; 1; 1]]) by (intros p [<-|[<-|[<-|[]]]]; unfold sprod; cbn; ring). split; [exact P|].
  assert (NL : ~ on_common_line [[0; 0; 0]; [1; 0; 0]; [0; 1; 0]]) by (apply not_line; try reflexivity; unfold cross3, sub, px, py, pz, at_; cbn; intros E; injection E; lra).
  split; [apply (C56_offset_refuted _ [0; 0; 1] 1); [discriminate|repeat constructor|reflexivity|unfold sprod; cbn; ring|exact P|rewrite Rabs_R1; lra]|]. split.
  { destruct (C56_three_points_partial [0; 0; 0] [1; 0; 0] [0; 1; 0] [0; 0; 1] 0 0) as (b & E & H); try reflexivity; [exact NL|unfold sprod; cbn; ring|intros p [<-|[<-|[<-|[]]]]; unfold sprod; cbn; ring|lra|]. rewrite E. f_equal. apply H. rewrite Rabs_R0. lra. }
  split. { exists [0; 0; 0], [1; 1; 1]. intros p [<-|[<-|[<-|[]]]]; [exists 0|exists 1|exists 2]; intros [|[|[|k]]] Hk; unfold at_; cbn; try lra; lia. }
  split; [apply (C56_line_refuted _ _ [0; 0; 0] [2; 2; 2]); [now right|repeat constructor|reflexivity|reflexivity|intros E; injection E; lra|lra]|]. split; [exact NL|].
  apply (C56_closed_refuted _ [0; 0; 0]); [repeat constructor|reflexivity|reflexivity|lra].
Qed.

(** ** C57 Closest and furthest points *)

(** One position, *)
Theorem C57_closest :
  forall query d coords p, coords <> [] -> rect d coords -> length p = d -> exists i, index_of_closest_point query coords (Target1 p) = Ok (Index1 i) /\ first_closest coords p i.
Proof. exact closest_one. Qed.
Print Assumptions C57_closest.
Theorem C57_furthest :
  forall dt d coords p, coords <> [] -> rect d coords -> length p = d -> exists i, index_of_furthest_point dt coords (Target1 p) = Ok (Index1 i) /\ first_furthest coords p i.
Proof. exact furthest_one. Qed.
Print Assumptions C57_furthest.
(** with another number of coordinates. *)
Theorem C57_closest_dimensions :
  forall query coords p, ncols coords <> length p -> index_of_closest_point query coords (Target1 p) = Err AssertionError.
Proof. exact closest_dims. Qed.
Print Assumptions C57_closest_dimensions.
Theorem C57_furthest_dimensions :
  forall dt coords p, ncols coords <> length p -> index_of_furthest_point dt coords (Target1 p) = Err AssertionError.
Proof. exact furthest_dims. Qed.
Print Assumptions C57_furthest_dimensions.
(** Several positions; the search tree is trusted. (Which one of several closest points is returned is not known.) *)
Theorem C57_closest_many :
  forall query coords ps, nearest_query query -> coords <> [] -> exists inds, index_of_closest_point query coords (Targets ps) = Ok (Indices inds) /\
  Forall2 (fun p i => (i < length coords)%nat /\ forall j, (j < length coords)%nat -> dist p (nth i coords []) <= dist p (nth j coords [])) ps inds.
Proof. exact closest_many. Qed.
Print Assumptions C57_closest_many.
Theorem C57_furthest_many :
  forall d coords ps, coords <> [] -> rect d coords -> rect d ps -> exists inds, index_of_furthest_point Floating coords (Targets ps) = Ok (Indices inds) /\ Forall2 (fun p i => first_furthest coords p i) ps inds.
Proof. exact furthest_many. Qed.
Print Assumptions C57_furthest_many.
(** Positions of an integer type: the distances are cut off. *)
Theorem C57_integral_refuted :
  exists coords ps i, rect 1 coords /\ rect 1 ps /\ has_dtype Integral ps /\ index_of_furthest_point Integral coords (Targets ps) = Ok (Indices [i]) /\
  exists j, (j < length coords)%nat /\ dist (nth 0 ps []) (nth i coords []) < dist (nth 0 ps []) (nth j coords []).
Proof. exact furthest_integral. Qed.
Print Assumptions C57_integral_refuted.
(** Distance matrices, distances from a point, moved points. *)
Theorem C57_matrix :
  forall d X Y, rect d X -> rect d Y -> distance_matrix Floating X Y = Ok (map (fun p => map (fun q => dist p q) Y) X).
Proof. exact matrix_value. Qed.
Print Assumptions C57_matrix.
Theorem C57_distances :
  forall d coords p, rect d coords -> length p = d -> distances_from_point coords p = Ok (map (fun q => dist q p) coords).
Proof. exact distances_value. Qed.
Print Assumptions C57_distances.
Theorem C57_move_points :
  forall d coords p, rect d coords -> length p = d -> exists r, move_points coords p = Ok r /\ Forall2 (moved_by p) r coords.
Proof. exact move_value. Qed.
Print Assumptions C57_move_points.
Example C57_ex : first_closest [[0; 1]; [1; 0]; [2; 0]] [0; 0] 0 /\ first_furthest [[0; 1]; [1; 0]; [2; 0]] [0; 0] 2 /\ exists i, index_of_closest_point (fun _ _ _ _ => []) [[0; 1]; [1; 0]; [2; 0]] (Target1 [0; 0]) = Ok (Index1 i) /\ first_closest [[0; 1]; [1; 0]; [2; 0]] [0; 0] i.
Proof.
  assert (SQ : forall x y, 0 <= y -> x = y * y -> sqrt x = y) by (intros x y Hy ->; now apply sqrt_square).
  assert (E1 : dist [0; 0] [0; 1] = 1) by (unfold dist, dist2; cbn [combine map fold_right fst snd]; apply SQ; lra). assert (E2 : dist [0; 0] [1; 0] = 1) by (unfold dist, dist2; cbn [combine map fold_right fst snd]; apply SQ; lra). assert (E3 : dist [0; 0] [2; 0] = 2) by (unfold dist, dist2; cbn [combine map fold_right fst snd]; apply SQ; lra).
  split; [|split].
  - split; [cbn; lia|]. split; [|intros j Hj; lia]. intros [|[|[|j]]] Hj; cbn [nth]; rewrite ?E1, ?E2, ?E3; try lra; cbn in Hj; lia.
  - split; [cbn; lia|]. split; intros [|[|[|j]]] Hj; cbn [nth]; rewrite ?E1, ?E2, ?E3; try lra; cbn in Hj; lia.
  - apply (C57_closest _ 2); [discriminate|repeat constructor|reflexivity].
Qed.

(** ** C77 Local coordinates of cells *)

(** The coordinates of the projections of the nodes to the plane of the first two axes at the centre. *)
Theorem C77_projected :
  forall coords topo ecs, mesh_at coords topo ecs -> rect 3 coords -> Forall (fun ec => (3 <= length ec)%nat /\ solid_surface ec) ecs ->
  exists res, tr_cell_glob_to_loc_bulk coords topo = Ok res /\ Forall2 (fun ec r => projected ec (fst (fst r)) (snd (fst r)) (snd r)) ecs res.
Proof. exact locs. Qed.
Print Assumptions C77_projected.
(** Planar cells: the coordinates give back the positions of the nodes, *)
Theorem C77_planar :
  forall coords topo ecs, mesh_at coords topo ecs -> rect 3 coords -> Forall (fun ec => (3 <= length ec)%nat /\ solid_surface ec /\ planar ec) ecs ->
  exists res, tr_cell_glob_to_loc_bulk coords topo = Ok res /\ Forall2 (fun ec r => local_coordinates ec (fst (fst r)) (snd (fst r)) (snd r)) ecs res.
Proof. exact locs_planar. Qed.
Print Assumptions C77_planar.
(** the distances are kept, *)
Theorem C77_distances :
  forall ec loc m fr i j p q p' q', rect 3 ec -> (2 <= length ec)%nat -> local_coordinates ec loc m fr -> nth_error ec i = Some p -> nth_error ec j = Some q -> nth_error loc i = Some p' -> nth_error loc j = Some q' -> dist p' q' = dist p q.
Proof. exact local_distance. Qed.
Print Assumptions C77_distances.
(** the centre is the origin, *)
Theorem C77_centre :
  forall ec loc m fr, rect 3 ec -> (2 <= length ec)%nat -> projected ec loc m fr -> mean_row 2 loc [0; 0].
Proof. exact local_centre. Qed.
Print Assumptions C77_centre.
(** the first edge points along the first axis and the first, second and last node are seen counterclockwise. *)
Theorem C77_orientation :
  forall ec loc m fr q0 q1 ql, rect 3 ec -> (2 <= length ec)%nat -> projected ec loc m fr -> corners loc q0 q1 ql -> ccw q0 q1 ql /\ py q1 = py q0 /\ px q0 < px q1.
Proof. exact local_ccw. Qed.
Print Assumptions C77_orientation.
Example C77_ex : mesh_at [[0; 0; 0]; [2; 0; 0]; [3; 1; 1]; [0; 1; 1]] [[0; 1; 2; 3]%nat] [[[0; 0; 0]; [2; 0; 0]; [3; 1; 1]; [0; 1; 1]]] /\ Forall (fun ec => (3 <= length ec)%nat /\ solid_surface ec /\ planar ec) [[[0; 0; 0]; [2; 0; 0]; [3; 1; 1]; [0; 1; 1]]].
Proof.
  split; [repeat constructor|]. constructor; [|constructor]. split; [cbn; lia|]. split; [apply C55_surfaces_ex|].
  exists [0; 1; -1], 0. split; [reflexivity|]. split; [intros E; injection E; lra|]. intros p [<-|[<-|[<-|[<-|[]]]]]; unfold sprod; cbn; ring.
Qed.
