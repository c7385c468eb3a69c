(** * Properties C99 - C102: bounds, closest points, numbers and points of cells *)
From Coq Require Import Reals Lra Lia ZArith List.
From Verif Require SpaceModel SpaceProofs6 LocSpec EvalModel.
From Verif Require Import Base BaseFacts FrameProofs MeshProofs MeshProofs2 MeshProofs3 MeshProofs4 MeshProofs5 MeshProofs7 QuerySpec QueryProofs QueryProofs2 QueryProofs3.
Import ListNotations.
Local Open Scope nat_scope.

(** The mesh of the examples: three points of the root, two blocks with a line each. *)
Definition line_points : points := Points [(0, 0, 0); (1, 0, 0); (3, 0, 0)]%R None [0; 1; 2] [true; true; true] [].
Definition line_mesh : block := Block (Some standard) (Some line_points) None [Block None None (Some (Cells [[0; 1]] [0] [])) []; Block None None (Some (Cells [[1; 2]] [1] [])) []].
Example line_source : single_source line_mesh [1] line_points standard.
Proof.
  exists [], None, None, line_mesh. split; [|split; [reflexivity|]; split; [reflexivity|]; split; [reflexivity|exact orthonormal_eye]]. exists [1]. split; [reflexivity|]. split.
  - eexists _, _, _, _. split; reflexivity.
  - intros i Hi (u & s & b & p & E & Hp). cbn in Hi. assert (i = 1) as -> by lia. cbn in E. injection E as _ _ <-. discriminate Hp.
Qed.
Example line_part : part_at line_mesh [1] [[(1, 0, 0); (3, 0, 0)]]%R.
Proof. eexists _, _, _. split; [reflexivity|]. cbn. constructor; [|constructor]. cbn [fst snd]. constructor; [|constructor; [|constructor]]; now apply node_standard. Qed.
Example line_points_at : points_at line_mesh [(0, 0, 0); (1, 0, 0); (3, 0, 0)]%R.
Proof. unfold points_at. cbn [framed line_mesh line_points flat_map map px fst snd app frame_in bframe]. 
  constructor; [|constructor; [|constructor; [|constructor]]]; cbn [fst snd]; apply placed_iff; symmetry; apply place_standard; now left. Qed.

(** ** C99 Bounds *)

(** Without a target: the smallest box around the places of the points of a cloud. *)
Theorem C99_ambient :
  forall c qs, array c <> [] -> same_places (cframe c) (array c) standard qs -> exists b, cloud_bounds c None = Ok b /\ tight_box qs b.
Proof. exact @cloud_bounds_ambient. Qed.
Print Assumptions C99_ambient.
(** With a target: the smallest box in the axes of the target.  Missing: clouds in a frame without an origin (C88). *)
Theorem C99_target_partial :
  forall c t qs, array c <> [] -> orthonormal (axes t) -> (exists a o, cframe c = Cartesian a o) \/ centred t -> same_places (cframe c) (array c) t qs ->
  exists b, cloud_bounds c (Some t) = Ok b /\ tight_box qs b.
Proof. exact @cloud_bounds_target. Qed.
Print Assumptions C99_target_partial.
(** Of no points there are no bounds. *)
Theorem C99_empty :
  forall c t, array c = [] -> cloud_bounds c t = Err ValueError.
Proof. exact @cloud_bounds_empty. Qed.
Print Assumptions C99_empty.
(** A mesh of blocks: the smallest box around all points.  Missing: frames with different origins (refuted below). *)
Theorem C99_partial :
  forall m T qs, frame_in None m = Some T -> orthonormal (axes T) -> qs <> [] ->
  Forall (fun fp => exists f, fst fp = Some f /\ origin_of f = origin_of T) (framed None m) -> points_at m qs ->
  (exists b, mesh_bounds m [] None = Ok b /\ tight_box qs b) /\
  forall t cs, orthonormal (axes t) -> (exists a o, T = Cartesian a o) \/ centred t -> same_places standard qs t cs ->
    exists b, mesh_bounds m [] (Some t) = Ok b /\ tight_box cs b.
Proof. exact @mesh_bounds_box. Qed.
Print Assumptions C99_partial.
Example C99_ex : frame_in None line_mesh = Some standard /\ orthonormal (axes standard) /\ Forall (fun fp => exists f, fst fp = Some f /\ origin_of f = origin_of standard) (framed None line_mesh) /\
  points_at line_mesh [(0, 0, 0); (1, 0, 0); (3, 0, 0)]%R /\ tight_box [(0, 0, 0); (1, 0, 0); (3, 0, 0)]%R [(0, 3); (0, 0); (0, 0)]%R.
Proof.
  split; [reflexivity|]. split; [exact orthonormal_eye|]. split; [cbn; repeat constructor; cbn [fst]; eexists; split; reflexivity|]. split; [exact line_points_at|].
  split; [reflexivity|]. intros [|[|[|k]]] lo hi E; cbn in E; try (destruct k; discriminate E); injection E as <- <-; cbn [component]; (split; [repeat constructor; cbn; lra|]);
    (split; [apply Exists_cons_hd; reflexivity|]); do 2 apply Exists_cons_tl; apply Exists_cons_hd; reflexivity.
Qed.
Example C99_cloud_ex : array (pair_cloud None) <> [] /\ same_places (cframe (pair_cloud None)) (array (pair_cloud None)) standard [(0, 0, 0); (1, 0, 0)]%R.
Proof. split; [discriminate|apply pair_places]. Qed.

(** A block in a frame with another origin than that of the root: the box is not that of the points. *)
Theorem C99_refuted :
  exists m o p k qs b, m = Block (Some standard) None None [Block (Some (Cartesian meye o)) (Some p) (Some k) []] /\ pframe p = None /\ points_at m qs /\ mesh_bounds m [] None = Ok b /\ ~ tight_box qs b.
Proof. exact @bounds_origins. Qed.
Print Assumptions C99_refuted.
(** ** C100 Closest and furthest points and cells *)

(** One position: the first of the points that are closest; the point has its place in the cloud, its position and its index.  Missing: positions given in a frame elsewhere than at the origin (refuted below). *)
Theorem C100_closest_partial :
  forall query c p f qs w, array c <> [] -> indexed c -> same_places (cframe c) (array c) standard qs -> given_centred (One p) f -> given_at p f w ->
  exists i r, index_of_closest query c (One p) f = Ok (SpaceModel.Index1 i) /\ closest_points query c (One p) f = Ok (Found1 r) /\
    first_that (nearest_at qs w) i /\ point_of c i r.
Proof. exact @closest_single. Qed.
Print Assumptions C100_closest_partial.
(** The same for the points furthest away. *)
Theorem C100_furthest_partial :
  forall c p f qs w, array c <> [] -> indexed c -> same_places (cframe c) (array c) standard qs -> given_centred (One p) f -> given_at p f w ->
  exists i r, index_of_furthest c (One p) f = Ok (SpaceModel.Index1 i) /\ furthest_points c (One p) f = Ok (Found1 r) /\
    first_that (farthest_at qs w) i /\ point_of c i r.
Proof. exact @furthest_single. Qed.
Print Assumptions C100_furthest_partial.
(** Several positions: for each a closest point.  The points found are the points of the cloud, and have their indices if the cloud was not indexed. *)
Theorem C100_closest_several_partial :
  forall query c p f qs ws, LocSpec.nearest_query query -> array c <> [] -> indexed c -> same_places (cframe c) (array c) standard qs ->
  (forall v, p <> One v) -> given_centred p f -> all_given_at p f ws ->
  exists l c', index_of_closest query c p f = Ok (SpaceModel.Indices l) /\ closest_points query c p f = Ok (FoundMany c') /\
    Forall2 (nearest_at qs) ws l /\ Forall2 (fun i q => nth_error (array c) i = Some q) l (array c') /\ cframe c' = cframe c /\ (inds c = None -> points_of_cloud c l c').
Proof. exact @closest_several. Qed.
Print Assumptions C100_closest_several_partial.
(** For each the first of the points furthest away. *)
Theorem C100_furthest_several_partial :
  forall c p f qs ws, array c <> [] -> indexed c -> same_places (cframe c) (array c) standard qs ->
  (forall v, p <> One v) -> given_centred p f -> all_given_at p f ws ->
  exists l c', index_of_furthest c p f = Ok (SpaceModel.Indices l) /\ furthest_points c p f = Ok (FoundMany c') /\
    Forall2 (fun w => first_that (farthest_at qs w)) ws l /\ Forall2 (fun i q => nth_error (array c) i = Some q) l (array c') /\ cframe c' = cframe c /\ (inds c = None -> points_of_cloud c l c').
Proof. exact @furthest_several. Qed.
Print Assumptions C100_furthest_several_partial.
(** The points of a mesh.  Missing: frames with different origins (C99). *)
Theorem C100_mesh_partial :
  forall query m T qs w, frame_in None m = Some T -> orthonormal (axes T) -> qs <> [] ->
  Forall (fun fp => exists f, fst fp = Some f /\ origin_of f = origin_of T) (framed None m) -> points_at m qs ->
  (exists i, mesh_closest_point query m [] (SpaceModel.Target1 (as_list w)) = Ok (SpaceModel.Index1 i) /\ first_that (nearest_at qs w) i) /\
  (exists i, mesh_furthest_point m [] (SpaceModel.Target1 (as_list w)) = Ok (SpaceModel.Index1 i) /\ first_that (farthest_at qs w) i).
Proof. exact @mesh_points_found. Qed.
Print Assumptions C100_mesh_partial.
(** The cells of a part of a mesh, by their centres.  Missing: parts with several sets of points (C102). *)
Theorem C100_cells_partial :
  forall query m path p g ps w, single_source m path p g -> part_at m path ps -> ps <> [] -> Forall (fun qs => qs <> []) ps ->
  exists cs, Forall2 centroid ps cs /\
  (exists i, mesh_closest_cell query m path (SpaceModel.Target1 (as_list w)) = Ok (SpaceModel.Index1 i) /\ first_that (nearest_at cs w) i) /\
  (exists i, mesh_furthest_cell m path (SpaceModel.Target1 (as_list w)) = Ok (SpaceModel.Index1 i) /\ first_that (farthest_at cs w) i).
Proof. exact @mesh_cells_found. Qed.
Print Assumptions C100_cells_partial.
(** Several positions: one answer for each of them. *)
Theorem C100_mesh_several_partial :
  forall query m T qs ws, LocSpec.nearest_query query -> frame_in None m = Some T -> orthonormal (axes T) -> qs <> [] ->
  Forall (fun fp => exists f, fst fp = Some f /\ origin_of f = origin_of T) (framed None m) -> points_at m qs ->
  (exists l, mesh_closest_point query m [] (SpaceModel.Targets (map as_list ws)) = Ok (SpaceModel.Indices l) /\ Forall2 (nearest_at qs) ws l) /\
  (exists l, mesh_furthest_point m [] (SpaceModel.Targets (map as_list ws)) = Ok (SpaceModel.Indices l) /\ Forall2 (fun w => first_that (farthest_at qs w)) ws l).
Proof. exact @mesh_points_several. Qed.
Print Assumptions C100_mesh_several_partial.
Theorem C100_cells_several_partial :
  forall query m path p g ps ws, LocSpec.nearest_query query -> single_source m path p g -> part_at m path ps -> ps <> [] -> Forall (fun qs => qs <> []) ps ->
  exists cs, Forall2 centroid ps cs /\
  (exists l, mesh_closest_cell query m path (SpaceModel.Targets (map as_list ws)) = Ok (SpaceModel.Indices l) /\ Forall2 (nearest_at cs) ws l) /\
  (exists l, mesh_furthest_cell m path (SpaceModel.Targets (map as_list ws)) = Ok (SpaceModel.Indices l) /\ Forall2 (fun w => first_that (farthest_at cs w)) ws l).
Proof. exact @mesh_cells_several. Qed.
Print Assumptions C100_cells_several_partial.
Example C100_ex : let c := pair_cloud (Some [7; 9]%Z) in array c <> [] /\ indexed c /\ same_places (cframe c) (array c) standard [(0, 0, 0); (1, 0, 0)]%R /\
  given_centred (One (Array (0, 0, 0)%R)) (Some (Plain meye)) /\ given_at (Array (0, 0, 0)%R) (Some (Plain meye)) (0, 0, 0)%R.
Proof. cbn zeta. split; [discriminate|]. split; [reflexivity|]. split; [apply pair_places|]. split; [exists meye; now left|]. apply placed_iff. cbn. apply triple_eq; lra. Qed.
Example C100_several_ex : (forall v, Several [(0, 0, 0); (5, 0, 0)]%R None <> One v) /\ given_centred (Several [(0, 0, 0); (5, 0, 0)]%R None) None /\
  all_given_at (Several [(0, 0, 0); (5, 0, 0)]%R None) None [(0, 0, 0); (5, 0, 0)]%R.
Proof. split; [discriminate|]. split; [exact I|]. repeat (constructor; [apply placed_iff; now rewrite place_standard by auto|]). constructor. Qed.
Example C100_cells_ex : single_source line_mesh [1] line_points standard /\ part_at line_mesh [1] [[(1, 0, 0); (3, 0, 0)]]%R.
Proof. split; [exact line_source|exact line_part]. Qed.

(** The origin of the frame in which the position is given is ignored. *)
Theorem C100_refuted :
  forall query, exists c p o qs w i, array c <> [] /\ cframe c = standard /\ inds c = None /\ same_places standard (array c) standard qs /\ given_at (Array p) (Some (Cartesian meye o)) w /\
  index_of_closest query c (One (Array p)) (Some (Cartesian meye o)) = Ok (SpaceModel.Index1 i) /\ ~ nearest_at qs w i.
Proof. exact @closest_shifted. Qed.
Print Assumptions C100_refuted.
(** The same for the point furthest away. *)
Theorem C100_furthest_refuted :
  exists c p o qs w i, array c <> [] /\ cframe c = standard /\ inds c = None /\ same_places standard (array c) standard qs /\ given_at (Array p) (Some (Cartesian meye o)) w /\
  index_of_furthest c (One (Array p)) (Some (Cartesian meye o)) = Ok (SpaceModel.Index1 i) /\ ~ farthest_at qs w i.
Proof. exact @furthest_shifted. Qed.
Print Assumptions C100_furthest_refuted.
(** Several positions and a cloud with indices: the indices of the points found are their positions, not the indices they have in the cloud. *)
Theorem C100_indices_refuted :
  forall query, LocSpec.nearest_query query -> exists c p f c', array c <> [] /\ indexed c /\ given_centred p f /\ closest_points query c p f = Ok (FoundMany c') /\
  array c' <> [] /\ forall l, ~ points_of_cloud c l c'.
Proof. exact @closest_indices. Qed.
Print Assumptions C100_indices_refuted.
(** The same for the points furthest away. *)
Theorem C100_furthest_indices_refuted :
  exists c p f c', array c <> [] /\ indexed c /\ given_centred p f /\ furthest_points c p f = Ok (FoundMany c') /\
  array c' <> [] /\ forall l, ~ points_of_cloud c l c'.
Proof. exact @furthest_indices. Qed.
Print Assumptions C100_furthest_indices_refuted.
(** ** C101 The blocks of cells *)

(** The dictionary from cells to blocks, for all cells and for given ones, with and without the mappers made when the mesh is locked.  Missing: meshes where two cells have the same number and mappers that were made before the cells were numbered anew (refuted below). *)
Theorem C101_partial :
  forall m cache, cells_numbered m -> cell_arrays m <> [] -> cache = None \/ (exists create, lock m create None = Ok cache) ->
  (exists d, blocks_of_cells m cache None = Ok d /\ entries_are d (cell_in_block m)) /\
  forall cids, (Forall (fun c => exists n, cell_in_block m c n) cids -> exists d, blocks_of_cells m cache (Some cids) = Ok d /\ entries_are d (fun c n => In c cids /\ cell_in_block m c n)) /\
    (forall c, In c cids -> (forall n, ~ cell_in_block m c n) -> blocks_of_cells m cache (Some cids) = Err KeyError).
Proof. exact @blocks_of_cells_ok. Qed.
Print Assumptions C101_partial.
(** In standard form the cells have different numbers. *)
Theorem C101_standard :
  forall dp dc m m', to_standard_form dp dc m = Ok m' -> cells_numbered m' /\ cell_arrays m' <> [].
Proof. exact @standard_numbered. Qed.
Print Assumptions C101_standard.
(** Without cells. *)
Theorem C101_none :
  forall m i, cell_arrays m = [] -> blocks_of_cells m None i = Err ValueError.
Proof. exact @blocks_of_nothing. Qed.
Print Assumptions C101_none.
(** The numbers of the cells of a part, in the order of the walk. *)
Theorem C101_indices :
  forall m path u s b, under None None m path = Some (u, s, b) -> cell_arrays b <> [] -> cell_indices m path = Ok (concat (map cid (cell_arrays b))).
Proof. exact @cell_indices_ok. Qed.
Print Assumptions C101_indices.
(** The number of cells of a part. *)
Theorem C101_number :
  forall m path u s b, under None None m path = Some (u, s, b) -> number_of_cells m path = Ok (length (cells_in u s b)).
Proof. exact @number_of_cells_ok. Qed.
Print Assumptions C101_number.
Example C101_ex : cells_numbered line_mesh /\ cell_arrays line_mesh <> [] /\ cell_in_block line_mesh 1 1 /\ exists m', to_standard_form (fun _ => None) (fun _ => None) line_mesh = Ok m'.
Proof.
  split; [split; [cbn; repeat constructor|cbn; repeat constructor; cbn; intuition lia]|]. split; [discriminate|]. split; [eexists; split; [reflexivity|now left]|]. eexists. lazy -[Rplus Rmult Ropp Rminus IZR]. reflexivity.
Qed.

(** After copying two cells have the same number: the dictionary gives the wrong block for the first. *)
Theorem C101_refuted :
  exists m m' d, cells_numbered m /\ copy_mesh m = Ok m' /\ blocks_of_cells m' None None = Ok d /\ cell_in_block m' 0 0 /\ dget d 0 = Ok 1.
Proof. exact @blocks_clash. Qed.
Print Assumptions C101_refuted.
(** Mappers made before the mesh is brought to standard form do not find cells of the mesh, though they are found once the mesh is unlocked. *)
Theorem C101_stale_refuted :
  exists m m' cache c n, cells_numbered m /\ lock m true None = Ok cache /\ to_standard_form (fun _ => None) (fun _ => None) m = Ok m' /\ cells_numbered m' /\
  cell_in_block m' c n /\ blocks_of_cells m' cache (Some [c]) = Err KeyError /\ exists d, blocks_of_cells m' (unlock cache) (Some [c]) = Ok d /\ dget d c = Ok n.
Proof. exact @blocks_stale. Qed.
Print Assumptions C101_stale_refuted.
(** ** C102 Points of cells *)

(** The points of the cells of a part of a mesh with all points in the root: each point used by a cell once, in the order of their numbers, which are its indices, in the frame of the mesh.  Missing: several sets of points (refuted below). *)
Theorem C102_partial :
  forall m path p T u s b ps ns, rooted m p T -> orthonormal (axes T) -> pid p = seq 0 (length (px p)) ->
  under None None m path = Some (u, s, b) -> frame_in u b = Some T -> part_at m path ps -> ps <> [] -> nodes_used b ns ->
  exists c, points_from_cells m path = Ok c /\ cloud_of_nodes p T ns c.
Proof. exact @points_from_cells_ok. Qed.
Print Assumptions C102_partial.
(** The coordinates of the nodes of the cells are their places.  Missing: parts with several sets of points (refuted below). *)
Theorem C102_coords_partial :
  forall m path p g ps, single_source m path p g -> part_at m path ps -> ps <> [] -> mesh_cells_coords m path = Ok ps.
Proof. exact @cells_coords_places. Qed.
Print Assumptions C102_coords_partial.
(** The centres of the cells of such parts. *)
Theorem C102_centers_partial :
  forall m path p g ps, single_source m path p g -> part_at m path ps -> ps <> [] -> Forall (fun qs => qs <> []) ps ->
  exists cs, mesh_centers m path None = Ok cs /\ Forall2 centroid ps cs.
Proof. exact @centers_source. Qed.
Print Assumptions C102_centers_partial.
(** The number of points. *)
Theorem C102_number_partial :
  forall m path p g, single_source m path p g -> (exists x, under None None m path = Some x) -> number_of_points m path = Ok (length (px p)).
Proof. exact @number_of_points_source. Qed.
Print Assumptions C102_number_partial.
(** A root without points of its own has no number of points. *)
Theorem C102_number_none :
  forall m, bpd m = None -> number_of_points m [] = Err AttributeError.
Proof. exact @number_of_points_none. Qed.
Print Assumptions C102_number_none.
Example C102_ex : rooted line_mesh line_points standard /\ pid line_points = seq 0 (length (px line_points)) /\ part_at line_mesh [1] [[(1, 0, 0); (3, 0, 0)]]%R /\
  exists u s b, under None None line_mesh [1] = Some (u, s, b) /\ frame_in u b = Some standard /\ nodes_used b [1; 2].
Proof.
  split; [repeat split|]. split; [reflexivity|]. split; [exact line_part|]. eexists _, _, _. split; [reflexivity|]. split; [reflexivity|]. split; [repeat constructor|]. intros n. split.
  - intros [<- |[<- |[]]]; [exists 0, 0, [1; 2]|exists 0, 1, [1; 2]]; split; reflexivity.
  - intros (a & b & r & Hr & H). destruct a as [|[|a]]; cbn in Hr; try discriminate Hr. injection Hr as <-. apply nth_error_In in H. exact H.
Qed.

(** Blocks with points of their own: the points taken are not those of the cells. *)
Theorem C102_refuted :
  exists m p q k l ps c, m = Block (Some standard) None None [Block None (Some p) (Some k) []; Block None (Some q) (Some l) []] /\ pframe p = None /\ pframe q = None /\
  part_at m [1] ps /\ points_from_cells m [1] = Ok c /\ ~ Forall (fun q => exists x, In x (array c) /\ placed_at (cframe c) x q) (concat ps).
Proof. exact @from_cells_nested. Qed.
Print Assumptions C102_refuted.
(** A block with points of its own below one with points: the coordinates are taken from the wrong points. *)
Theorem C102_coords_refuted :
  exists m p q k l ps qs, m = Block (Some standard) (Some p) (Some k) [Block None (Some q) (Some l) []] /\ pframe p = None /\ pframe q = None /\ mesh_at m ps /\ mesh_cells_coords m [] = Ok qs /\ qs <> ps.
Proof. exact @cells_coords_nested. Qed.
Print Assumptions C102_coords_refuted.
(** Such points are not counted. *)
Theorem C102_number_refuted :
  exists m p q k l ps, m = Block (Some standard) (Some p) (Some k) [Block None (Some q) (Some l) []] /\ px q <> [] /\ mesh_at m ps /\ number_of_points m [] = Ok (length (px p)).
Proof. exact @number_of_points_nested. Qed.
Print Assumptions C102_number_refuted.
