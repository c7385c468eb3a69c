(** * Property C103: surfaces *)
From Coq Require Import Reals Lra Lia ZArith List Permutation.
From Verif Require LocSpec LocProofs7.
From Verif Require Import Base BaseFacts FrameProofs MeshProofs MeshProofs2 SurfaceSpec QueryProofs SurfaceProofs SurfaceProofs2 SurfaceProofs3.
Import ListNotations.
Local Open Scope nat_scope.

(** ** C103 Surfaces *)

(** Cells with their coordinates: the triangles are at the places of those of the tool, and refer to the points of the mesh; if these are different, they are the points the tool has taken. *)
Theorem C103_places :
  forall query tool own x topo orig, LocSpec.nearest_query query -> x <> [] -> own = None \/ own = Some x -> surface_of x (tool x topo) orig ->
  exists ts, extract_surface query tool own x topo false = Ok (x, ts) /\
    (forall ps, triangles_at (fst (tool x topo)) (snd (tool x topo)) ps -> triangles_at x ts ps) /\ (NoDup x -> renamed orig (snd (tool x topo)) ts).
Proof. exact @extract_places. Qed.
Print Assumptions C103_places.
(** A mesh with one block of tetrahedra and different points in a frame that does not move or turn: the surface has the same points, and its triangles are the faces that belong to one cell only.  Missing: several blocks, other frames, points at the same place (refuted below), and other cells than tetrahedra. *)
Theorem C103_partial :
  forall query tool attached m p T k, LocSpec.nearest_query query -> finds_surface tool -> rooted m p T -> plain_frame T -> px p <> [] -> NoDup (px p) ->
  cell_arrays m = [k] -> tetrahedra (length (px p)) (nodes k) ->
  exists s k', mesh_surface query tool attached m = Ok s /\ coords_of top s None = Ok (px p) /\ cell_arrays s = [k'] /\ covers_boundary (nodes k) (nodes k').
Proof. exact @surface_block. Qed.
Print Assumptions C103_partial.
(** Several blocks: the triangles are the faces that belong to one cell only of some block. *)
Theorem C103_blocks :
  forall query tool attached m p T, LocSpec.nearest_query query -> finds_surface tool -> rooted m p T -> plain_frame T -> px p <> [] -> NoDup (px p) -> cell_arrays m <> [] ->
  Forall (fun k => tetrahedra (length (px p)) (nodes k)) (cell_arrays m) ->
  exists s k', mesh_surface query tool attached m = Ok s /\ coords_of top s None = Ok (px p) /\ cell_arrays s = [k'] /\
    forall t, (exists t', In t' (nodes k') /\ Permutation t' t) <-> exists k, In k (cell_arrays m) /\ on_boundary (nodes k) t.
Proof. exact @surface_blocks. Qed.
Print Assumptions C103_blocks.
(** Whatever the mesh: the surface is one block whose points and triangles are numbered consecutively, all points are active, and no data is taken along.  C103_partial gives such a surface for the mesh of C103_ex. *)
Theorem C103_numbers :
  forall query tool attached m s, mesh_surface query tool attached m = Ok s ->
  bsub s = [] /\ exists p k, bpd s = Some p /\ bcd s = Some k /\ pid p = seq 0 (length (px p)) /\ cid k = seq 0 (length (nodes k)) /\ pact p = map (fun _ => true) (px p) /\ pfields p = [] /\ cfields k = [].
Proof. exact @surface_numbers. Qed.
Print Assumptions C103_numbers.
(** Without cells there is no surface. *)
Theorem C103_none :
  forall query tool attached m p T, rooted m p T -> orthonormal (axes T) -> cell_arrays m = [] -> mesh_surface query tool attached m = Err ValueError.
Proof. exact @surface_none. Qed.
Print Assumptions C103_none.
Example C103_tool : finds_surface face_tool /\ LocSpec.nearest_query LocProofs7.sorting_query.
Proof. split; [exact face_tool_finds|exact LocProofs7.sorting_nearest]. Qed.
Example C103_ex : let m := tet_block standard in rooted m (tet_points corners) standard /\ plain_frame standard /\ corners <> [] /\ NoDup corners /\ cell_arrays m = [Cells [[0; 1; 2; 3]] [0] []] /\
  tetrahedra (length corners) [[0; 1; 2; 3]] /\ snd (face_tool corners [[0; 1; 2; 3]]) = [[0; 1; 2]; [0; 1; 3]; [0; 2; 3]; [1; 2; 3]].
Proof.
  cbn zeta. split; [apply tet_rooted|]. split; [now left|]. split; [discriminate|]. split; [exact corners_nodup|]. split; [reflexivity|]. split; [exact tet_tets|]. reflexivity.
Qed.

(** Two blocks of one mesh: their common face remains, though it belongs to two cells. *)
Theorem C103_refuted :
  exists m p, rooted m p standard /\ NoDup (px p) /\ Forall (fun k => tetrahedra (length (px p)) (nodes k)) (cell_arrays m) /\
  forall query tool attached, LocSpec.nearest_query query -> finds_surface tool -> exists s k', mesh_surface query tool attached m = Ok s /\ cell_arrays s = [k'] /\ ~ covers_boundary (concat (map nodes (cell_arrays m))) (nodes k').
Proof. exact @interior_face. Qed.
Print Assumptions C103_refuted.
(** In another frame the coordinates of the surface are moved and turned two times more. *)
Theorem C103_frames :
  forall query tool m p T, LocSpec.nearest_query query -> finds_surface tool -> rooted m p T -> orthonormal (axes T) -> px p <> [] -> cell_arrays m <> [] ->
  exists s, mesh_surface query tool false m = Ok s /\ coords_of top s None = Ok (map (place T) (map (place T) (map (place T) (px p)))).
Proof. exact @surface_frames. Qed.
Print Assumptions C103_frames.
(** So the surface is elsewhere than the mesh. *)
Theorem C103_frame_refuted :
  forall query tool, LocSpec.nearest_query query -> finds_surface tool ->
  exists m x s, coords_of top m None = Ok x /\ mesh_surface query tool false m = Ok s /\ forall y, coords_of top s None = Ok y -> y <> x.
Proof. exact @surface_frame_wrong. Qed.
Print Assumptions C103_frame_refuted.
(** In another frame, if the cells refer to the points: the triangles get the numbers of wrong points. *)
Theorem C103_attached_refuted :
  forall query tool, LocSpec.nearest_query query -> finds_surface tool ->
  exists s k', mesh_surface query tool true (tet_block moved) = Ok s /\ cell_arrays s = [k'] /\ ~ covers_boundary [[0; 1; 2; 3]] (nodes k').
Proof. exact @attached_wrong. Qed.
Print Assumptions C103_attached_refuted.
(** Two cells that do not share points, but have points at the same places: the surface is not that of the mesh. *)
Theorem C103_coincident_refuted :
  forall query tool attached, LocSpec.nearest_query query -> finds_surface tool ->
  exists m k s k', rooted m (tet_points (corners ++ corners)) standard /\ cell_arrays m = [k] /\ tetrahedra 8 (nodes k) /\ mesh_surface query tool attached m = Ok s /\ cell_arrays s = [k'] /\ ~ covers_boundary (nodes k) (nodes k').
Proof. exact @coincident_wrong. Qed.
Print Assumptions C103_coincident_refuted.
