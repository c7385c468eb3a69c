(** * Properties C123 to C126: queries of blocks of cells *)
From Coq Require Import Reals List Lia Lra Arith.
From Verif Require Import TopoProofs3 TopoProofs5 ShapeProofs ShapeProofs2 BlockModel BlockSpec BlockProofs BlockProofs2 BlockProofs3.
From Verif Require TopoSpec NodalSpec.
Import ListNotations.
Local Open Scope R_scope.

(** ** C123 Points of cells *)

(** Without selected cells, the points of all cells are returned, and for positions in the cells the points there. *)
Theorem C123_partial :
  forall shpfnc coords topo ecs ids x n d, mesh_at coords topo ecs -> rect n topo -> rect d coords -> (0 < n)%nat ->
  (forall p, In p x -> exists N, shpfnc p = Ok N /\ length N = n) ->
  points_of_cells shpfnc coords topo ids None None = Ok ecs /\
  exists r, points_of_cells shpfnc coords topo ids (Some x) None = Ok r /\
    Forall2 (fun ec rows => Forall2 (fun p v => dim d v /\ forall a, (a < d)%nat -> at_ a v = position shpfnc ec a p) x rows) ecs r.
Proof. exact @points_all. Qed.
Print Assumptions C123_partial.
(** If the indices of the cells are their positions in the block, the nodes of the selected cells are returned in the given order; other indices are skipped.  Missing: other indices (refuted below). *)
Theorem C123_cells_partial :
  forall shpfnc coords topo ecs ids cells, mesh_at coords topo ecs -> numbered topo ids -> Exists (fun c => In c ids) cells ->
  exists r, points_of_cells shpfnc coords topo ids None (Some cells) = Ok r /\ chosen ids cells ecs r.
Proof. exact @points_cells. Qed.
Print Assumptions C123_cells_partial.
(** The same for positions in the selected cells, if there are not three.  Missing: three positions (refuted below). *)
Theorem C123_cells_at_partial :
  forall shpfnc coords topo ecs ids cells x n d, mesh_at coords topo ecs -> rect n topo -> rect d coords -> (0 < n)%nat ->
  numbered topo ids -> Exists (fun c => In c ids) cells -> (forall p, In p x -> exists N, shpfnc p = Ok N /\ length N = n) -> length x <> 3%nat ->
  exists sel r, points_of_cells shpfnc coords topo ids (Some x) (Some cells) = Ok r /\ chosen ids cells ecs sel /\
    Forall2 (fun ec rows => Forall2 (fun p v => dim d v /\ forall a, (a < d)%nat -> at_ a v = position shpfnc ec a p) x rows) sel r.
Proof. exact @points_cells_at. Qed.
Print Assumptions C123_cells_at_partial.
(** If there are none of the selected cells, an error is raised. *)
Theorem C123_unknown :
  forall shpfnc coords topo ids cells points, Forall (fun c => ~ In c ids) cells ->
  points_of_cells shpfnc coords topo ids points (Some cells) = Err AssertionError.
Proof. exact @points_unknown. Qed.
Print Assumptions C123_unknown.
(** A selected cell is looked up by its position in the block, whatever its index. *)
Theorem C123_position :
  forall shpfnc coords topo ecs ids c, mesh_at coords topo ecs -> In c ids ->
  points_of_cells shpfnc coords topo ids None (Some [c]) = match nth_error ecs c with Some ec => Ok [ec] | None => Err IndexError end.
Proof. exact @points_position. Qed.
Print Assumptions C123_position.
(** If the indices of the cells are not their positions, another cell is returned, or an error is raised. *)
Theorem C123_refuted :
  exists coords topo ecs ids, mesh_at coords topo ecs /\ length ids = length topo /\ NoDup ids /\
  forall shpfnc : list R -> res (list R), nth_error ids 0 = Some 1%nat /\ points_of_cells shpfnc coords topo ids None (Some [1%nat]) = Ok [nth 1 ecs []] /\ nth 1 ecs [] <> nth 0 ecs [] /\
    nth_error ids 1 = Some 2%nat /\ points_of_cells shpfnc coords topo ids None (Some [2%nat]) = Err IndexError.
Proof. exact @points_ids. Qed.
Print Assumptions C123_refuted.
(** With three positions and fewer than three cells, an error is raised. *)
Theorem C123_three_refuted :
  forall shpfnc coords topo ecs ids cells x n d, mesh_at coords topo ecs -> rect n topo -> rect d coords -> (0 < n)%nat ->
  numbered topo ids -> Exists (fun c => In c ids) cells -> (forall p, In p x -> exists N, shpfnc p = Ok N /\ length N = n) ->
  length x = 3%nat -> (length cells < 3)%nat -> points_of_cells shpfnc coords topo ids (Some x) (Some cells) = Err IndexError.
Proof. exact @points_three_few. Qed.
Print Assumptions C123_three_refuted.
(** With three positions and three cells, the points of other positions are returned. *)
Theorem C123_swapped_refuted :
  exists coords topo ecs ids cells x r, mesh_at coords topo ecs /\ rect 3 topo /\ rect 2 coords /\ numbered topo ids /\ length x = 3%nat /\
  points_of_cells (shp_T3 (K := R)) coords topo ids (Some x) (Some cells) = Ok r /\
  exists ec rows v, nth_error r 0 = Some rows /\ (exists c, nth_error cells 0 = Some c /\ nth_error ecs c = Some ec) /\ nth_error rows 0 = Some v /\
    at_ 0 v <> position (shp_T3 (K := R)) ec 0 (nth 0 x []).
Proof. exact @points_three_swapped. Qed.
Print Assumptions C123_swapped_refuted.
Definition four_places : list (list R) := [[0; 0]; [1; 0]; [0; 1]; [1; 1]].
Definition two_triangles : list (list nat) := [[0; 1; 2]; [1; 3; 2]]%nat.
Example C123_ex : mesh_at four_places two_triangles [[[0; 0]; [1; 0]; [0; 1]]; [[1; 0]; [1; 1]; [0; 1]]] /\ rect 3 two_triangles /\ rect 2 four_places /\ numbered two_triangles [0; 1]%nat /\
  Exists (fun c => In c [0; 1]%nat) [7; 1]%nat /\ (forall p, In p [[0; 1 / 2]; [1; 0]] -> exists N, shp_T3 (K := R) p = Ok N /\ length N = 3%nat) /\ Forall (fun c => ~ In c [0; 1]%nat) [7]%nat.
Proof.
  split; [repeat constructor|]. split; [repeat constructor|]. split; [repeat constructor|]. split; [intros i; cbn; lia|]. split; [apply Exists_cons_tl, Exists_cons_hd; cbn; auto|].
  split; [intros p [<-|[<-|[]]]; eexists; (split; [reflexivity|reflexivity])|]. constructor; [cbn; lia|constructor].
Qed.

(** ** C124 Local coordinates of cells *)

(** With a cartesian frame for each cell, the result are the coordinates of the nodes for the axes of the cell through the mean of its nodes; they are centred, and the distances of the nodes are kept.  Missing: one frame for all cells (refuted below). *)
Theorem C124_partial :
  forall coords topo ecs frames, mesh_at coords topo ecs -> rect 3 coords -> Forall (fun ns => ns <> []) topo -> Forall cartesian frames -> length frames = length topo ->
  exists r, block_coordinates coords topo (PerCell frames) = Ok r /\ length r = length topo /\
    forall i ec fr rows, nth_error ecs i = Some ec -> nth_error frames i = Some fr -> nth_error r i = Some rows ->
      (exists c, mean_row 3 ec c /\ Forall2 (coordinates_in fr c) ec rows) /\ mean_row 3 rows [0; 0; 0] /\ same_distances ec rows.
Proof. exact @local_correct. Qed.
Print Assumptions C124_partial.
(** For surfaces, if the third axis is perpendicular to the cell, two coordinates are returned with which each node is found in the plane of the cell. *)
Theorem C124_surface_partial :
  forall coords topo ecs frames, mesh_at coords topo ecs -> rect 3 coords -> Forall (fun ns => ns <> []) topo -> Forall cartesian frames -> length frames = length topo ->
  (forall i ec fr, nth_error ecs i = Some ec -> nth_error frames i = Some fr -> exists h, in_plane (nth 2 fr []) h ec) ->
  exists r, block_coordinates_2d coords topo (PerCell frames) = Ok r /\ length r = length topo /\
    forall i ec a b n rows, nth_error ecs i = Some ec -> nth_error frames i = Some [a; b; n] -> nth_error r i = Some rows ->
      (exists c, mean_row 3 ec c /\ Forall2 (fun p l => dim 2 l /\ in_plane_at c a b (at_ 0 l) (at_ 1 l) p) ec rows) /\ mean_row 2 rows [0; 0] /\ same_distances ec rows.
Proof. exact @local_correct_2d. Qed.
Print Assumptions C124_surface_partial.
(** For a given target frame all coordinates of a node are equal. *)
Theorem C124_single :
  forall coords topo fr r, block_coordinates coords topo (Single fr) = Ok r ->
  forall rows l, In rows r -> In l rows -> exists x, l = repeat x (length l).
Proof. exact @local_single. Qed.
Print Assumptions C124_single.
(** So these are not its coordinates, even for the frame of the axes of space. *)
Theorem C124_refuted :
  exists coords topo ecs r rows, mesh_at coords topo ecs /\ rect 3 coords /\ cartesian [[1; 0; 0]; [0; 1; 0]; [0; 0; 1]] /\
  block_coordinates coords topo (Single [[1; 0; 0]; [0; 1; 0]; [0; 0; 1]]) = Ok r /\ nth_error r 0 = Some rows /\
  exists ec c, nth_error ecs 0 = Some ec /\ mean_row 3 ec c /\ ~ Forall2 (coordinates_in [[1; 0; 0]; [0; 1; 0]; [0; 0; 1]] c) ec rows.
Proof. exact @local_single_wrong. Qed.
Print Assumptions C124_refuted.
Definition in_space : list (list R) := [[0; 0; 2]; [1; 0; 2]; [0; 1; 2]].
Definition turned_axes3 : list (list R) := [[0; 1; 0]; [-1; 0; 0]; [0; 0; 1]].
Example C124_ex : mesh_at in_space [[0; 1; 2]]%nat [in_space] /\ rect 3 in_space /\ Forall (fun ns : list nat => ns <> []) [[0; 1; 2]]%nat /\ Forall cartesian [turned_axes3] /\
  in_plane (nth 2 turned_axes3 []) 2 in_space.
Proof.
  split; [repeat constructor|]. split; [repeat constructor|]. split; [repeat constructor; discriminate|]. split.
  - constructor; [|constructor]. unfold cartesian, turned_axes3. do 3 eexists. split; [reflexivity|]. unfold sprod. cbn. repeat split; lra.
  - intros p [<-|[<-|[<-|[]]]]; unfold turned_axes3, sprod; cbn; lra.
Qed.
Example C124_single_ex : exists r, block_coordinates in_space [[0; 1; 2]]%nat (Single turned_axes3) = Ok r.
Proof. eexists. reflexivity. Qed.

(** ** C125 Determinants of the Jacobian *)

(** Solids with right-handed frames: the determinants are those of the derivatives of the position in space, at every point, so they do not depend on the frames. *)
Theorem C125_solid :
  forall n shp dshp pts ds coords topo ecs frames, differentiates 3 n shp dshp -> derivatives_cancel 3 dshp -> (0 < n)%nat -> rect 3 pts -> mapM dshp pts = Ok ds ->
  mesh_at coords topo ecs -> rect 3 coords -> rect n topo -> Forall (fun fr => exists a b c, fr = [a; b; c] /\ right_handed a b c) frames -> length frames = length topo ->
  exists rows, jacobian 3 (block_coordinates coords topo (PerCell frames)) None (Some ds) = Ok rows /\
    Forall2 (fun ec row => Forall2 (fun p x => exists u v w, tangents3 shp ec p u v w /\ x = map_det u v w) pts row) ecs rows.
Proof. exact @jacobian_solid. Qed.
Print Assumptions C125_solid.
(** Surfaces: the determinants are the areas spanned by the tangents, as seen along the third axis of the frame; for planar cells perpendicular to it, up to the sign, the local ratio of areas. *)
Theorem C125_surface :
  forall n shp dshp pts ds coords topo ecs frames, differentiates 2 n shp dshp -> derivatives_cancel 2 dshp -> (0 < n)%nat -> rect 2 pts -> mapM dshp pts = Ok ds ->
  mesh_at coords topo ecs -> rect 3 coords -> rect n topo -> Forall (fun fr => exists a b c, fr = [a; b; c] /\ right_handed a b c) frames -> length frames = length topo ->
  exists rows, jacobian 2 (block_coordinates_2d coords topo (PerCell frames)) None (Some ds) = Ok rows /\ length rows = length topo /\
    forall i ec a b n row, nth_error ecs i = Some ec -> nth_error frames i = Some [a; b; n] -> nth_error rows i = Some row ->
      Forall2 (fun p x => exists u v, tangents shp ec p u v /\ x = map_det n u v /\
        ((exists h, in_plane n h ec) -> x * x = sprod u u * sprod v v - sprod u v * sprod u v)) pts row.
Proof. exact @jacobian_surface. Qed.
Print Assumptions C125_surface.
(** Triangles: twice the area, as seen along the third axis. *)
Theorem C125_T3 :
  forall pts ds coords topo ecs frames, rect 2 pts -> mapM dshp_T3 pts = Ok ds ->
  mesh_at coords topo ecs -> rect 3 coords -> rect 3 topo -> Forall (fun fr => exists a b c, fr = [a; b; c] /\ right_handed a b c) frames -> length frames = length topo ->
  exists rows, jacobian 2 (block_coordinates_2d coords topo (PerCell frames)) None (Some ds) = Ok rows /\ length rows = length topo /\
    forall i ec a b n row, nth_error ecs i = Some ec -> nth_error frames i = Some [a; b; n] -> nth_error rows i = Some row ->
      row = map (fun _ => 2 * loop_area n ec) pts.
Proof. exact @jacobian_T3. Qed.
Print Assumptions C125_T3.
(** Tetrahedra: six times the signed volume. *)
Theorem C125_TET4 :
  forall pts ds coords topo ecs frames, rect 3 pts -> mapM dshp_TET4 pts = Ok ds ->
  mesh_at coords topo ecs -> rect 3 coords -> rect 4 topo -> Forall (fun fr => exists a b c, fr = [a; b; c] /\ right_handed a b c) frames -> length frames = length topo ->
  exists rows, jacobian 3 (block_coordinates coords topo (PerCell frames)) None (Some ds) = Ok rows /\
    Forall2 (fun ec row => exists p q r s, ec = [p; q; r; s] /\ row = map (fun _ => 6 * signed_volume p q r s) pts) ecs rows.
Proof. exact @jacobian_TET4. Qed.
Print Assumptions C125_TET4.
(** Given matrices are used, whatever else is given. *)
Theorem C125_given :
  forall nD local dshp jac rows, Forall2 (Forall2 (fun J x => det J = Ok x)) jac rows -> jacobian nD local (Some jac) dshp = Ok rows.
Proof. exact @jacobian_given. Qed.
Print Assumptions C125_given.
(** Without matrices and derivatives there is an error. *)
Theorem C125_missing :
  forall nD ec, jacobian nD (Ok ec) None None = Err TypeError.
Proof. exact @jacobian_missing. Qed.
Print Assumptions C125_missing.
(** Lines: given the matrices of the lines, the determinants are half the distances of the ends.  Missing: derivatives instead of matrices (refuted below). *)
Theorem C125_line_partial :
  forall nP ecs dshp d, Forall (fun ec => rect d ec /\ ec <> []) ecs ->
  exists jac rows, jacobian_matrix_bulk_1d nP ecs = Ok jac /\ line_jacobian (Some jac) dshp = Ok rows /\ Forall2 (fun ec row => exists x, NodalSpec.chord ec x /\ row = repeat (x / 2) nP) ecs rows.
Proof. exact @line_given. Qed.
Print Assumptions C125_line_partial.
(** For lines, derivatives without matrices lead to an error. *)
Theorem C125_refuted :
  forall dshp, line_jacobian None dshp = Err TypeError.
Proof. exact @line_missing. Qed.
Print Assumptions C125_refuted.
Example C125_ex : differentiates 2 3 shp_T3 dshp_T3 /\ derivatives_cancel 2 (dshp_T3 (K := R)) /\ differentiates 3 4 shp_TET4 dshp_TET4 /\ derivatives_cancel 3 (dshp_TET4 (K := R)) /\
  Forall (fun fr => exists a b c, fr = [a; b; c] /\ right_handed a b c) [turned_axes3] /\ mesh_at in_space [[0; 1; 2]]%nat [in_space] /\ rect 3 in_space /\ rect 3 [[0; 1; 2]]%nat /\
  mesh_at ([0; 0; 0] :: in_space) [[0; 1; 2; 3]]%nat [[0; 0; 0] :: in_space] /\ rect 2 [[1 / 3; 1 / 3]] /\ rect 3 [[1 / 4; 1 / 4; 1 / 4]] /\
  (exists ds, mapM (dshp_T3 (K := R)) [[1 / 3; 1 / 3]] = Ok ds) /\ (exists ds, mapM (dshp_TET4 (K := R)) [[1 / 4; 1 / 4; 1 / 4]] = Ok ds).
Proof.
  split; [exact diff_T3|]. split; [exact cancel_T3|]. split; [exact diff_TET4|]. split; [exact cancel_TET4|]. split.
  - constructor; [|constructor]. do 3 eexists. split; [reflexivity|]. unfold right_handed, sprod, map_det, px, py, pz, at_. cbn. repeat split; lra.
  - repeat split; try (repeat constructor); eexists; reflexivity.
Qed.
Example C125_given_ex : Forall2 (Forall2 (fun J x => QuadModel.det J = Ok x)) [[[[2; 1]; [0; 3]]]] [[2 * 3 - 1 * 0]].
Proof. repeat constructor. Qed.
Example C125_line_ex : Forall (fun ec : list (list R) => rect 2 ec /\ ec <> []) [[[0; 0]; [3; 4]]].
Proof. constructor; [|constructor]. split; [repeat constructor|discriminate]. Qed.

(** ** C126 Points of blocks, simplices *)

(** The unique indices of a block are the nodes used by its cells, each once, in increasing order. *)
Theorem C126_unique :
  forall topo, TopoSpec.used_list topo (unique_indices topo).
Proof. exact @unique_used. Qed.
Print Assumptions C126_unique.
(** If all nodes exist, the involved points are those of the unique indices; they are the points of the detached mesh, and every node of every cell is, in the detached mesh, the same point. *)
Theorem C126_detached :
  forall coords topo, (forall n, TopoSpec.used topo n -> (n < length coords)%nat) ->
  exists pts topo', points_involved coords topo = Ok pts /\ detach_points_cells coords topo = Ok (pts, topo') /\
    TopoSpec.located_in (unique_indices topo) topo topo' /\ Forall2 (fun n p => nth_error coords n = Some p) (unique_indices topo) pts /\
    forall i j n p, TopoSpec.entry topo i j n -> nth_error coords n = Some p -> exists k, TopoSpec.entry topo' i j k /\ nth_error pts k = Some p.
Proof. exact @involved_detached. Qed.
Print Assumptions C126_detached.
(** The simplices of surfaces are the triangles. *)
Theorem C126_surface_partial :
  forall depth tri tet t, tri = Ok t -> to_simplices (S depth) 2 tri tet = Ok (Some t).
Proof. exact @simplices_2d. Qed.
Print Assumptions C126_surface_partial.
(** The simplices of solids are the tetrahedra.  Missing: lines (refuted below). *)
Theorem C126_solid_partial :
  forall depth tri tet t, tet = Ok t -> to_simplices (S depth) 3 tri tet = Ok (Some t).
Proof. exact @simplices_3d. Qed.
Print Assumptions C126_solid_partial.
(** For lines the function calls itself without end, however deep calls can be nested. *)
Theorem C126_refuted :
  forall depth tri tet, to_simplices depth 1 tri tet = Err RuntimeError.
Proof. exact @simplices_1d. Qed.
Print Assumptions C126_refuted.
Example C126_ex : (forall n, TopoSpec.used [[3; 1]; [1; 5]]%nat n -> (n < 6)%nat) /\ unique_indices [[3; 1]; [1; 5]]%nat = [1; 3; 5]%nat.
Proof. split; [|reflexivity]. intros n Hn. apply entry_in_concat in Hn. cbn in Hn. lia. Qed.
Example C126_surface_ex : to_simplices 2 2 (Ok [[0; 1; 2]]%nat) (Err NotImplementedError) = Ok (Some [[0; 1; 2]]%nat).
Proof. exact (C126_surface_partial 1 _ _ _ eq_refl). Qed.
