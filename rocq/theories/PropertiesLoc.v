(** * Properties C46, C63, C69 - C71, C73, C74: hits, local points, areas and volumes, point location *)
From Coq Require Import Reals Lra Lia List Permutation.
From Verif Require Import LocModel LocSpec QuadSpec TrModel BaseFacts TriProofs TriProofs2 TriProofs3 TriProofs6 LocProofs LocProofs2 LocProofs3 LocProofs4 LocProofs5 LocProofs6 LocProofs7 LocProofs8 LocProofs9 LocProofs10.
Import ListNotations.
Local Open Scope nat_scope.

(** ** C46 The search for hits *)

(** In every order of the iterations a hit of the row is returned, if there is one: the last one that is executed. (Missing: that it is the first hit.) *)
Theorem C46_any_order_partial :
  forall pips its m, rect m pips -> all_entries its (length pips) m ->
  exists g, find_first_hits_in its pips = Ok (g, g) /\ length g = length pips /\
  forall i, i < length pips ->
    (exists j its1 its2, its = its1 ++ (i, j) :: its2 /\ hit pips i j /\ (forall j', In (i, j') its2 -> ~ hit pips i j') /\ nth_error g i = Some j) \/
    ((forall j, ~ hit pips i j) /\ nth_error g i = Some 0).
Proof. exact first_hits. Qed.
Print Assumptions C46_any_order_partial.
(** Executed sequentially: the last hit, not the first. *)
Theorem C46_sequential_partial :
  forall pips m, rect m pips ->
  exists g, find_first_hits pips = Ok (g, g) /\ length g = length pips /\
  forall i, i < length pips ->
    (exists j, hit pips i j /\ (forall j', j < j' -> ~ hit pips i j') /\ nth_error g i = Some j) \/
    ((forall j, ~ hit pips i j) /\ nth_error g i = Some 0).
Proof. exact sequential_hits. Qed.
Print Assumptions C46_sequential_partial.
(** Two hits in a row: the first one is not returned. *)
Theorem C46_refuted :
  forall pips m i j j', rect m pips -> hit pips i j -> hit pips i j' -> j < j' ->
  exists g, find_first_hits pips = Ok (g, g) /\ nth_error g i <> Some j.
Proof. exact not_first. Qed.
Print Assumptions C46_refuted.
(** The result depends on the order. *)
Theorem C46_order_refuted :
  forall n : nat, exists pips its its', rect 2 pips /\ length pips = S n /\ Permutation (list_prod (seq 0 (length pips)) (seq 0 2)) its /\
  Permutation (list_prod (seq 0 (length pips)) (seq 0 2)) its' /\ find_first_hits_in its pips <> find_first_hits_in its' pips.
Proof. exact order_matters. Qed.
Print Assumptions C46_order_refuted.
Example C46_ex : find_first_hits [[false; true; true]; [true; false; false]] = Ok ([2; 0], [2; 0]) /\ hit [[false; true; true]; [true; false; false]] 0 1.
Proof. split; [reflexivity|]. exists [false; true; true]. split; reflexivity. Qed.

Local Open Scope R_scope.
(** ** C63 From local to global positions *)

(** points_of_cells with points: the interpolated positions *)
Theorem C63_points_of_cells :
  forall shpfnc coords topo ecs x n d, mesh_at coords topo ecs -> rect n topo -> rect d coords -> (0 < n)%nat ->
  (forall p, In p x -> exists N, shpfnc p = Ok N /\ length N = n) ->
  exists r, points_of_cells_at shpfnc coords topo x = Ok r /\
    Forall2 (fun ec rows => Forall2 (fun p v => dim d v /\ forall a, (a < d)%nat -> at_ a v = position shpfnc ec a p) x rows) ecs r.
Proof. exact points_at_correct. Qed.
Print Assumptions C63_points_of_cells.
(** loc_to_glob raises unless there are as many points as nodes, *)
Theorem C63_raises_refuted :
  forall shpfnc coords topo ecs x n d, mesh_at coords topo ecs -> rect n topo -> rect d coords -> (0 < n)%nat ->
  (forall p, In p x -> exists N, shpfnc p = Ok N /\ length N = n) ->
  forall shp, mapM shpfnc x = Ok shp -> topo <> [] -> x <> [] -> length x <> n -> loc_to_glob shpfnc coords topo x = Err ValueError.
Proof. exact loc_to_glob_raises. Qed.
Print Assumptions C63_raises_refuted.

(** and if there are it confuses points and nodes: two points at the first end of a line are not both located there. *)
Theorem C63_refuted :
  forall p q : R, p <> q ->
  exists v w, loc_to_glob shp_L2 [[p]; [q]] [[0; 1]%nat] [[-1]; [-1]] = Ok [[v; w]] /\
    position shp_L2 [[p]; [q]] 0 [-1] = p /\ (at_ 0 v <> p \/ at_ 0 w <> p).
Proof. exact loc_to_glob_line. Qed.
Print Assumptions C63_refuted.
(** As many points as nodes, the values of the shape functions forming a symmetric matrix (at the nodes, for example). (Missing: all other points.) *)
Theorem C63_symmetric_partial :
  forall shpfnc coords topo ecs x n d, mesh_at coords topo ecs -> rect n topo -> rect d coords -> (0 < n)%nat ->
  (forall p, In p x -> exists N, shpfnc p = Ok N /\ length N = n) ->
  forall shp, mapM shpfnc x = Ok shp -> length x = n ->
  (forall i j, (i < n)%nat -> (j < n)%nat -> nth j (nth i shp []) 0 = nth i (nth j shp []) 0) ->
  exists r, loc_to_glob shpfnc coords topo x = Ok r /\
    Forall2 (fun ec rows => Forall2 (fun p v => dim d v /\ forall a, (a < d)%nat -> at_ a v = position shpfnc ec a p) x rows) ecs r.
Proof. exact loc_to_glob_symmetric. Qed.
Print Assumptions C63_symmetric_partial.
Example C63_ex : mesh_at [[0]; [5]] [[0; 1]%nat] [[[0]; [5]]] /\ rect 2 [[0; 1]%nat] /\ mapM shp_L2 (lcoords_L2 (K := R)) = Ok [[(1 - -1) / 2; (1 + -1) / 2]; [(1 - 1) / 2; (1 + 1) / 2]].
Proof. split; [repeat constructor|]. split; [repeat constructor|reflexivity]. Qed.

(** ** C69 Areas of polygonal cells, volumes of tetrahedra *)

(** Cells in any plane of space; the area is seen along the third axis of the frame of the cell. *)
Theorem C69_areas_T3 :
  forall coords topo ecs ns frames, mesh_at coords topo ecs -> rect 3 topo -> rect 3 coords ->
  Forall2 frame_with_normal ns frames -> length frames = length topo ->
  areas_T3 coords topo frames = Ok (map (fun ne => loop_area (fst ne) (snd ne)) (combine ns ecs)).
Proof. exact areas_T3_value. Qed.
Print Assumptions C69_areas_T3.
Theorem C69_areas_Q4 :
  forall coords topo ecs ns frames, mesh_at coords topo ecs -> rect 4 topo -> rect 3 coords -> topo <> [] ->
  Forall2 frame_with_normal ns frames -> length frames = length topo ->
  areas_2d trimap_Q4 coords topo frames = Ok (map (fun ne => loop_area (fst ne) (snd ne)) (combine ns ecs)).
Proof. exact areas_Q4_value. Qed.
Print Assumptions C69_areas_Q4.
Theorem C69_areas_Q9 :
  forall coords topo ecs ns frames, mesh_at coords topo ecs -> rect 9 topo -> rect 3 coords -> topo <> [] ->
  Forall2 frame_with_normal ns frames -> length frames = length topo ->
  areas_2d trimap_Q9 coords topo frames = Ok (map (fun ne => loop_area (fst ne) (pick [0; 4; 1; 5; 2; 6; 3; 7]%nat (snd ne))) (combine ns ecs)).
Proof. exact areas_Q9_value. Qed.
Print Assumptions C69_areas_Q9.
Theorem C69_volumes_TET4 :
  forall coords topo ecs, mesh_at coords topo ecs -> rect 4 topo -> rect 3 coords -> topo <> [] ->
  volumes_3d tetmap_TET4 coords topo = Ok (map (fun ec => Rabs (signed_volume (nth 0 ec []) (nth 1 ec []) (nth 2 ec []) (nth 3 ec []))) ecs).
Proof. exact volumes_TET4. Qed.
Print Assumptions C69_volumes_TET4.
(** other solids: the sum of the volumes of their tetrahedra *)
Theorem C69_volumes :
  forall w smap coords topo ecs, mesh_at coords topo ecs -> rect w topo -> rect 3 coords -> pieces 4 w smap -> topo <> [] ->
  volumes_3d smap coords topo = Ok (map (fun ec => fold_right Rplus 0 (map (fun q =>
    Rabs (signed_volume (nth 0 (pick q ec) []) (nth 1 (pick q ec) []) (nth 2 (pick q ec) []) (nth 3 (pick q ec) []))) smap)) ecs).
Proof. exact volumes_value. Qed.
Print Assumptions C69_volumes.
(** a block without cells *)
Theorem C69_no_cells_refuted :
  forall w smap coords, pieces 4 w smap -> volumes_3d smap coords [] = Err ZeroDivisionError.
Proof. exact volumes_empty. Qed.
Print Assumptions C69_no_cells_refuted.
(** Triangles with six nodes and straight edges: the area of the projection to the plane of the first two coordinates. (Missing: other planes.) *)
Theorem C69_areas_T6_partial :
  forall coords topo ecs, mesh_at coords topo ecs -> rect 3 coords -> rect 6 topo -> Forall (fun ec => affine_image 2 lcoords_T6 (map (firstn 2) ec)) ecs ->
  areas_of_T6 coords topo = Ok (map (fun ec => signed_area (nth 0 ec []) (nth 1 ec []) (nth 2 ec [])) ecs).
Proof. exact areas_T6_value. Qed.
Print Assumptions C69_areas_T6_partial.
(** a right triangle with the legs a and b in the plane of the first and the third coordinate: the area is 0 *)
Theorem C69_areas_T6_refuted :
  forall a b, 0 < a -> 0 < b ->
  areas_of_T6 (upright a b) [[0; 1; 2; 3; 4; 5]%nat] = Ok [0] /\ loop_area [0; -1; 0] (firstn 3 (upright a b)) = a * b / 2.
Proof. exact areas_T6_upright. Qed.
Print Assumptions C69_areas_T6_refuted.
Example C69_ex : frame_with_normal [0; -1; 0] [[1; 0; 0]; [0; 0; 1]; [0; -1; 0]] /\
  areas_2d trimap_Q4 [[0; 0; 0]; [2; 0; 0]; [2; 0; 3]; [0; 0; 3]] [[0; 1; 2; 3]%nat] [[[1; 0; 0]; [0; 0; 1]; [0; -1; 0]]] = Ok [6].
Proof.
  assert (F : frame_with_normal [0; -1; 0] [[1; 0; 0]; [0; 0; 1]; [0; -1; 0]]).
  { exists [1; 0; 0], [0; 0; 1]. split; [reflexivity|]. split; [reflexivity|]. split; [reflexivity|]. unfold px, py, pz, at_. cbn [nth]. repeat (apply f_equal2; [lra|]). reflexivity. }
  split; [exact F|]. rewrite (areas_Q4_value _ _ [[[0; 0; 0]; [2; 0; 0]; [2; 0; 3]; [0; 0; 3]]] [[0; -1; 0]]); try reflexivity; try discriminate; try (repeat constructor; assumption).
  unfold loop_area, map_det, px, py, pz, at_. cbn [combine map tl firstn app fold_right fst snd nth]. f_equal. f_equal. lra.
Qed.

(** ** C70 Locating positions in meshes of solids *)

(** every table of tetrahedra: the positions listed are those in some tetrahedron (up to the tolerance); the location has the same weights
    in the tetrahedron of the reference cell as the position in that of the cell *)
Theorem C70_locate_partial :
  forall query sched lcoords smap coords topo ecs, Forall (dim 3) lcoords -> pieces 4 (length lcoords) smap ->
  mesh_at coords topo ecs -> rect (length lcoords) topo -> (forall ec q, In ec ecs -> In q smap -> solid_tet (pick q ec)) ->
  forall tol x, Forall (dim 3) x -> any_order sched -> forall k,
  exists src tgt locs, locate query sched lcoords (Ok smap) coords topo false k tol x = Ok (src, tgt, locs) /\
    located_all x (length topo) (fun p => exists ec, In ec ecs /\ near_cell 3 tol smap ec p)
      (fun e p loc => exists ec, nth_error ecs e = Some ec /\ located 3 tol smap lcoords ec p loc) src tgt locs.
Proof. exact locate_eager. Qed.
Print Assumptions C70_locate_partial.
Theorem C70_pip_partial :
  forall query (lcoords : list (list R)) smap coords topo ecs, pieces 4 (length lcoords) smap ->
  mesh_at coords topo ecs -> rect (length lcoords) topo -> (forall ec q, In ec ecs -> In q smap -> solid_tet (pick q ec)) ->
  forall tol x, Forall (dim 3) x -> forall k,
  exists b, pip_3d query (Ok smap) coords topo false k tol x = Ok b /\
    Forall2 (fun p v => v = true <-> exists ec, In ec ecs /\ near_cell 3 tol smap ec p) x b.
Proof. exact pip_eager. Qed.
Print Assumptions C70_pip_partial.

(** tetrahedra: every position of the mesh is found and the local coordinates returned are right *)
Theorem C70_TET4 :
  forall query sched coords topo ecs k tol x, any_order sched -> mesh_at coords topo ecs -> Forall solid_tet ecs ->
  Forall (dim 3) x -> 0 < tol ->
  exists src tgt locs, locate query sched lcoords_TET4 (Ok tetmap_TET4) coords topo false k tol x = Ok (src, tgt, locs) /\
    (forall i p ec, nth_error x i = Some p -> In ec ecs -> in_element (position shp_TET4 ec) unit_tet p -> In i src) /\
    located_all x (length topo) (fun p => exists ec, In ec ecs /\ near_hull 3 tol ec p)
      (fun e p loc => exists ec, nth_error ecs e = Some ec /\ near_hull 3 tol ec p /\ dim 3 loc /\ forall a, (a < 3)%nat -> position shp_TET4 ec a loc = at_ a p) src tgt locs.
Proof. exact locate_TET4. Qed.
Print Assumptions C70_TET4.
(** Hexahedra that are parallelepipeds. (Missing: distorted ones.) *)
Theorem C70_H8_affine_partial :
  forall query sched coords topo ecs k tol x, any_order sched -> mesh_at coords topo ecs -> affine_mesh lcoords_H8 ecs -> Forall (dim 3) x -> 0 < tol ->
  exists src tgt locs, locate query sched lcoords_H8 (Ok tetmap_H8) coords topo false k tol x = Ok (src, tgt, locs) /\
    (forall i p ec, nth_error x i = Some p -> In ec ecs -> in_element (position shp_H8 ec) cube p -> In i src) /\
    located_all x (length topo) (fun p => exists ec, In ec ecs /\ near_cell 3 tol tetmap_H8 ec p)
      (fun e p loc => exists ec, nth_error ecs e = Some ec /\ near_cell 3 tol tetmap_H8 ec p /\ dim 3 loc /\ forall a, (a < 3)%nat -> position shp_H8 ec a loc = at_ a p) src tgt locs.
Proof. exact locate_H8. Qed.
Print Assumptions C70_H8_affine_partial.
(** Every element and table of tetrahedra with volume, affine cells: the local coordinates are right. (Missing: that every position of the cell is found.) *)
Theorem C70_affine_partial :
  forall query sched lcoords smap coords topo ecs k tol x, any_order sched -> Forall (dim 3) lcoords -> pieces 4 (length lcoords) smap ->
  (forall q, In q smap -> exists a b c d, pick q lcoords = [a; b; c; d] /\ signed_volume a b c d <> 0) ->
  mesh_at coords topo ecs -> affine_mesh lcoords ecs -> Forall (dim 3) x ->
  exists src tgt locs, locate query sched lcoords (Ok smap) coords topo false k tol x = Ok (src, tgt, locs) /\
    located_all x (length topo) (fun p => exists ec, In ec ecs /\ near_cell 3 tol smap ec p)
      (fun e p loc => exists ec, nth_error ecs e = Some ec /\ near_cell 3 tol smap ec p /\ dim 3 loc /\
         forall o u v w, affine_cell lcoords ec o u v w -> p = space_map o u v w loc) src tgt locs.
Proof. exact locate_affine. Qed.
Print Assumptions C70_affine_partial.
(** wedges: positions in the gap between the tetrahedra are not found *)
Theorem C70_W6_refuted :
  forall query sched k tol, any_order sched -> 0 < tol <= 2 / 5 ->
  open_prism (1/20) (1/20) 0 /\
  locate query sched lcoords_W6 (Ok tetmap_W6) lcoords_W6 [[0; 1; 2; 3; 4; 5]%nat] false k tol [[1/20; 1/20; 0]] = Ok ([], [], []).
Proof. exact wedge_gap. Qed.
Print Assumptions C70_W6_refuted.
(** a distorted hexahedron: the local coordinates returned belong to another position *)
Theorem C70_H8_refuted :
  forall query sched k tol, any_order sched -> 0 < tol <= 1 / 5 ->
  exists loc, locate query sched lcoords_H8 (Ok tetmap_H8) distorted [[0; 1; 2; 3; 4; 5; 6; 7]%nat] false k tol [[0; 0; 0]] = Ok ([0%nat], [0%nat], [loc]) /\
    position shp_H8 distorted 0 loc = 1 / 8.
Proof. exact H8_wrong. Qed.
Print Assumptions C70_H8_refuted.
(** no table for TET10 and H27 *)
Theorem C70_missing_refuted :
  forall query sched lcoords coords topo lazy k tol x,
  locate query sched lcoords tetmap_TET10 coords topo lazy k tol x = Err NotImplementedError /\
  locate query sched lcoords tetmap_H27 coords topo lazy k tol x = Err NotImplementedError /\
  pip_3d query tetmap_TET10 coords topo lazy k tol x = Err NotImplementedError /\ pip_3d query tetmap_H27 coords topo lazy k tol x = Err NotImplementedError.
Proof. exact locate_none. Qed.
Print Assumptions C70_missing_refuted.
Example C70_ex_W6 : forall q, In q tetmap_W6 -> exists a b c d, pick q (lcoords_W6 (K := R)) = [a; b; c; d] /\ signed_volume a b c d <> 0.
Proof. exact solid_W6. Qed.
Example C70_ex_W18 : exists t, tetmap_W18 = Ok t /\ pieces 4 18 t /\
  forall q, In q t -> exists a b c d, pick q (lcoords_W18 (K := R)) = [a; b; c; d] /\ signed_volume a b c d <> 0.
Proof. exists w18_tets. split; [exact tetmap_W18_value|]. split; [exact pieces_W18|exact solid_W18]. Qed.
Example C70_ex : mesh_at five_coords five_topo five_ecs /\ (forall ec q, In ec five_ecs -> In q tetmap_TET4 -> solid_tet (pick q ec)) /\
  any_order (fun n m => list_prod (seq 0 n) (seq 0 m)) /\ affine_mesh lcoords_H8 [lcoords_H8].
Proof.
  split; [exact five_mesh|]. split; [exact five_solid|]. split; [intros n m; apply Permutation_refl|]. apply affine_self. repeat constructor.
Qed.

(** ** C71 Lazy search *)

(** As many neighbours as tetrahedra: the same positions are found. (Missing: larger meshes.) *)
Theorem C71_same_partial :
  forall query sched lcoords smap coords topo ecs tol x k, any_order sched -> nearest_query query ->
  Forall (dim 3) lcoords -> pieces 4 (length lcoords) smap -> mesh_at coords topo ecs -> rect (length lcoords) topo ->
  (forall ec q, In ec ecs -> In q smap -> solid_tet (pick q ec)) -> Forall (dim 3) x ->
  (2 <= length topo * length smap <= k)%nat ->
  exists src tgt locs tgt' locs', locate query sched lcoords (Ok smap) coords topo false k tol x = Ok (src, tgt, locs) /\
    locate query sched lcoords (Ok smap) coords topo true k tol x = Ok (src, tgt', locs') /\
    located_all x (length topo) (fun p => exists ec, In ec ecs /\ near_cell 3 tol smap ec p)
      (fun e p loc => exists ec, nth_error ecs e = Some ec /\ located 3 tol smap lcoords ec p loc) src tgt' locs'.
Proof. exact lazy_same. Qed.
Print Assumptions C71_same_partial.
Theorem C71_same_pip_partial :
  forall query smap coords topo ecs w tol x k, nearest_query query ->
  pieces 4 w smap -> mesh_at coords topo ecs -> rect w topo ->
  (forall ec q, In ec ecs -> In q smap -> solid_tet (pick q ec)) -> Forall (dim 3) x ->
  (2 <= length topo * length smap <= k)%nat ->
  exists b, pip_3d query (Ok smap) coords topo false k tol x = Ok b /\ pip_3d query (Ok smap) coords topo true k tol x = Ok b.
Proof. exact lazy_same_pip. Qed.
Print Assumptions C71_same_pip_partial.
(** What is found lazily is found otherwise, and the results are right. (Missing: that everything is found.) *)
Theorem C71_sound_partial :
  forall query sched lcoords smap coords topo ecs tol x k, any_order sched -> nearest_query query ->
  Forall (dim 3) lcoords -> pieces 4 (length lcoords) smap -> mesh_at coords topo ecs -> rect (length lcoords) topo ->
  (forall ec q, In ec ecs -> In q smap -> solid_tet (pick q ec)) -> Forall (dim 3) x ->
  (2 <= Nat.min k (length topo * length smap))%nat ->
  exists src tgt locs src' tgt' locs', locate query sched lcoords (Ok smap) coords topo false k tol x = Ok (src, tgt, locs) /\
    locate query sched lcoords (Ok smap) coords topo true k tol x = Ok (src', tgt', locs') /\ incl src' src /\
    forall s i e loc, nth_error src' s = Some i -> nth_error tgt' s = Some e -> nth_error locs' s = Some loc ->
      exists p ec, nth_error x i = Some p /\ nth_error ecs e = Some ec /\ located 3 tol smap lcoords ec p loc.
Proof. exact lazy_sound. Qed.
Print Assumptions C71_sound_partial.
(** Five tetrahedra, four neighbours: a position in the first tetrahedron is not found, whatever way the neighbours are computed. *)
Theorem C71_refuted :
  forall query sched tol, any_order sched -> nearest_query query -> 0 < tol <= 1 ->
  exists tgt locs,
    locate query sched lcoords_TET4 (Ok tetmap_TET4) five_coords five_topo false 4%nat tol [[1; 1; 1]] = Ok ([0%nat], tgt, locs) /\
    locate query sched lcoords_TET4 (Ok tetmap_TET4) five_coords five_topo true 4%nat tol [[1; 1; 1]] = Ok ([], [], []) /\
    pip_3d query (Ok tetmap_TET4) five_coords five_topo false 4%nat tol [[1; 1; 1]] = Ok [true] /\
    pip_3d query (Ok tetmap_TET4) five_coords five_topo true 4%nat tol [[1; 1; 1]] = Ok [false].
Proof. exact lazy_misses. Qed.
Print Assumptions C71_refuted.
(** A mesh with one tetrahedron: an error. *)
Theorem C71_single_refuted :
  forall query sched coords cell ec tol x k, mesh_at coords [cell] [ec] -> length cell = 4%nat -> solid_tet ec -> (1 <= k)%nat ->
  locate query sched (lcoords_TET4 (K := R)) (Ok tetmap_TET4) coords [cell] true k tol x = Err TypeError /\
  pip_3d query (Ok tetmap_TET4) coords [cell] true k tol x = Err TypeError.
Proof. exact lazy_single. Qed.
Print Assumptions C71_single_refuted.
Example C71_ex : nearest_query sorting_query /\ length five_topo = 5%nat.
Proof. split; [exact sorting_nearest|reflexivity]. Qed.

(** ** C73 Nearest neighbours *)

(** without a bound; the answers of the search tree are assumed to be right *)
Theorem C73_nearest :
  forall query X Y k, nearest_query query -> (k <= length X)%nat -> k <> 1%nat ->
  exists rows, k_nearest_neighbours query false X Y k None = Inds2 rows /\ Forall2 (fun y row => nearest X y k row) Y rows.
Proof. exact knn_nearest. Qed.
Print Assumptions C73_nearest.
Theorem C73_nearest_one :
  forall query X Y, nearest_query query -> X <> [] ->
  exists l, k_nearest_neighbours query false X Y 1 None = Inds1 l /\
    Forall2 (fun y i => (i < length X)%nat /\ forall j, (j < length X)%nat -> dist2 y (nth i X []) <= dist2 y (nth j X [])) Y l.
Proof. exact knn_one. Qed.
Print Assumptions C73_nearest_one.
(** The bound is ignored (scipy 1.6 and later): for every bound there are neighbours farther away that are returned. *)
Theorem C73_refuted :
  forall query bound, nearest_query query -> 0 <= bound ->
  exists X y i, k_nearest_neighbours query false X [y] 1 (Some bound) = Inds1 [i] /\ (i < length X)%nat /\ bound < dist y (nth i X []).
Proof. exact knn_beyond. Qed.
Print Assumptions C73_refuted.
Example C73_ex : nearest_query sorting_query /\ nearest [[0]; [5]; [2]] [1] 2 [0; 2]%nat.
Proof.
  split; [exact sorting_nearest|]. split; [reflexivity|]. split; [repeat constructor; cbn; intuition discriminate|]. split; [repeat constructor|].
  intros i j Hi Hj Hn. assert (j = 1%nat) as -> by (cbn in Hj, Hn; destruct j as [|[|[|j]]]; [exfalso; apply Hn; auto|reflexivity|exfalso; apply Hn; auto|lia]).
  destruct Hi as [<-|[<-|[]]]; unfold dist2; cbn [nth combine map fold_right fst snd]; lra.
Qed.

(** ** C74 Locating positions in plane meshes *)

(** Counterclockwise triangles. (Missing: clockwise ones.) *)
Theorem C74_locate_partial :
  forall query sched coords topo ecs tol x k, any_order sched -> mesh_at coords topo ecs -> Forall ccw_cell ecs -> Forall (dim 2) x ->
  exists src tgt locs, locate_tri_2d query sched coords topo false k tol x = Ok (src, tgt, locs) /\
  located_all x (length topo) (fun p => exists ec, In ec ecs /\ near_hull 2 tol ec p)
    (fun e p loc => exists ec, nth_error ecs e = Some ec /\ near_hull 2 tol ec p /\ dim 2 loc /\
       forall a, (a < 2)%nat -> position shp_tri_loc ec a loc = at_ a p) src tgt locs.
Proof. exact locate_tri. Qed.
Print Assumptions C74_locate_partial.
(** Cells divided into counterclockwise triangles. *)
Theorem C74_pip_partial :
  forall trimap w coords topo ecs tol x, mesh_at coords topo ecs -> rect w topo -> pieces 3 w trimap ->
  (forall ec q, In ec ecs -> In q trimap -> ccw_cell (pick q ec)) -> Forall (dim 2) x ->
  exists b, pip_2d trimap coords topo tol x = Ok b /\ Forall2 (fun p v => v = true <-> exists ec, In ec ecs /\ near_cell 2 tol trimap ec p) x b.
Proof. exact pip_planar. Qed.
Print Assumptions C74_pip_partial.
(** Every clockwise triangle: a position inside of it is not found, neither by locate_tri_2d nor by pip. *)
Theorem C74_clockwise_refuted :
  forall query sched k a b c tol, any_order sched -> has_dim 2 a -> has_dim 2 b -> has_dim 2 c -> clockwise a b c -> 0 < tol <= 1 / 3 ->
  exists p, in_hull 2 [a; b; c] p /\ locate_tri_2d query sched [a; b; c] [[0; 1; 2]%nat] false k tol [p] = Ok ([], [], []) /\
    pip_2d trimap_T3 [a; b; c] [[0; 1; 2]%nat] tol [p] = Ok [false].
Proof. exact locate_tri_clockwise. Qed.
Print Assumptions C74_clockwise_refuted.
Example C74_ex : pieces 3 4 trimap_Q4 /\ ccw_cell (pick [0; 1; 2]%nat [[0; 0]; [1; 0]; [1; 1]; [0; 1]]) /\ ccw_cell (pick [0; 2; 3]%nat [[0; 0]; [1; 0]; [1; 1]; [0; 1]]).
Proof.
  split; [repeat constructor|]. split; unfold pick; cbn [map nth]; do 3 eexists; (split; [reflexivity|]); do 3 (split; [unfold has_dim; cbn; lia|]); ccws.
Qed.
