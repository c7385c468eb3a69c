(** * Properties C117 to C122: what is shown of a mesh *)
From Coq Require Import Reals String List Lia Lra Arith.
From Verif Require Import TopoProofs3 TopoProofs5 MeshProofs4 DisplaySpec DisplayProofs DisplayProofs2 DisplayProofs3 DisplayProofs4.
From Verif Require FrameProofs FrameProofs LocSpec LocProofs7 NodalSpec NodalModel LocModel.
Import ListNotations.
Local Open Scope nat_scope.

(** ** C117 Grids of vtk *)

(** If below a block with cells there are no other cells, each block becomes a grid: its cells are those of the block, read back from the array as [vtk] does, on the coordinates that the source of the block reports, and it has no points but those of its cells.  A single grid, a list of grids or a collection is returned.  Missing: nested blocks of cells, meshes without cells (refuted below). *)
Theorem C117_partial :
  forall ct anc c m (ks : list (cells * list vec)), Forall2 (fun f kx => exists p, proper_block f (fst kx) p (snd kx)) (cell_families anc c m) ks ->
  exists gs, to_vtk ct true anc c m = Ok (VMulti gs) /\ to_vtk ct false anc c m = match gs with [] => Err IndexError | [g] => Ok (VGrid g) | _ => Ok (VList gs) end /\
    map vtype gs = map ct (cell_families anc c m) /\ Forall2 (fun kx g => grid_shows (snd kx) (nodes (fst kx)) g) ks gs.
Proof. exact @vtk_value. Qed.
Print Assumptions C117_partial.
(** In a mesh with points at its root, in any frame, the cells of the grids are, in order, at the places of the cells of the mesh. *)
Theorem C117_places :
  forall ct m p T ps, rooted m p T -> orthonormal (axes T) -> cells_apart m -> even_blocks m -> mesh_at m ps ->
  exists gs pss, to_vtk ct true [] top m = Ok (VMulti gs) /\ length gs = length (cell_arrays m) /\ Forall2 grid_at gs pss /\ concat pss = ps.
Proof. exact @vtk_places. Qed.
Print Assumptions C117_places.
(** If there are cells below a block of cells, these are shown twice: the grid of the upper block contains them, too. *)
Theorem C117_refuted :
  exists m p k l r, m = Block None (Some p) (Some k) [Block None None (Some l) []] /\ rooted m p standard /\ even_blocks m /\ to_vtk (fun _ => 3) false [] top m = Ok r /\ length (mesh_rows m) = 2 /\ cells_shown r = 3.
Proof. exact @nested_twice. Qed.
Print Assumptions C117_refuted.
(** If these have another number of nodes, the conversion fails. *)
Theorem C117_nested_refuted :
  exists m p i j fs gs, m = Block None (Some p) (Some (Cells [[0; 1]] i fs)) [Block None None (Some (Cells [[0; 1; 2]] j gs)) []] /\ rooted m p standard /\ length (px p) = 3 /\ forall multi, to_vtk (fun _ => 3) multi [] top m = Err TypeError.
Proof. exact @nested_fails. Qed.
Print Assumptions C117_nested_refuted.
(** A mesh without cells gives an empty collection, but fails otherwise. *)
Theorem C117_empty_refuted :
  forall ct anc c m, cell_arrays m = [] -> to_vtk ct true anc c m = Ok (VMulti []) /\ to_vtk ct false anc c m = Err IndexError.
Proof. exact @vtk_empty. Qed.
Print Assumptions C117_empty_refuted.
Definition two_lines : block := Block None (Some (corner_points [("T"%string, three_values)])) None [a_block None [[0; 1]] [] []; a_block None [[1; 2]] [("U"%string, one_value)] []].
Lemma two_lines_points b : In b (bsub two_lines) -> points_for [(enter top two_lines, b); (top, two_lines)] (corner_points [("T"%string, three_values)]) [(0, 0, 0); (1, 0, 0); (0, 1, 0)]%R.
Proof.
  intros H. exists [(enter top two_lines, b)], (top, two_lines), []. split; [reflexivity|]. split; [constructor; [|constructor]; destruct H as [<-|[<-|[]]]; reflexivity|]. split; [reflexivity|]. cbn [fst snd].
  rewrite (plain_coords top two_lines) by (try reflexivity; try discriminate; repeat constructor). reflexivity.
Qed.
Lemma two_lines_proper : Forall2 (fun f kx => exists p, proper_block f (fst kx) p (snd kx)) (cell_families [] top two_lines)
  [(Cells [[0; 1]] [0] [], [(0, 0, 0); (1, 0, 0); (0, 1, 0)]%R); (Cells [[1; 2]] [0] [("U"%string, one_value)], [(0, 0, 0); (1, 0, 0); (0, 1, 0)]%R)].
Proof.
  constructor; [|constructor; [|constructor]]; exists (corner_points [("T"%string, three_values)]); cbn [fst snd].
  - split; [exists (enter top two_lines), (a_block None [[0; 1]] [] []), [(top, two_lines)]; repeat split|]. split; [apply two_lines_points; now left|]. split; [discriminate|]. split; [intros r s [<-|[]] [<-|[]]; reflexivity|]. intros n Hn. apply entry_in_concat in Hn. cbn in *. lia.
  - split; [exists (enter top two_lines), (a_block None [[1; 2]] [("U"%string, one_value)] []), [(top, two_lines)]; repeat split|]. split; [apply two_lines_points; right; now left|]. split; [discriminate|]. split; [intros r s [<-|[]] [<-|[]]; reflexivity|]. intros n Hn. apply entry_in_concat in Hn. cbn in *. lia.
Qed.
Example C117_ex : Forall2 (fun f kx => exists p, proper_block f (fst kx) p (snd kx)) (cell_families [] top two_lines)
  [(Cells [[0; 1]] [0] [], [(0, 0, 0); (1, 0, 0); (0, 1, 0)]%R); (Cells [[1; 2]] [0] [("U"%string, one_value)], [(0, 0, 0); (1, 0, 0); (0, 1, 0)]%R)] /\
  rooted two_lines (corner_points [("T"%string, three_values)]) standard /\ orthonormal (axes standard) /\ cells_apart two_lines /\ even_blocks two_lines /\ mesh_at two_lines [[(0, 0, 0); (1, 0, 0)]; [(1, 0, 0); (0, 1, 0)]]%R /\ cell_arrays (Block None None None []) = [].
Proof.
  split; [exact two_lines_proper|]. split; [repeat split|]. split; [exact FrameProofs.orthonormal_eye|]. split; [repeat constructor|]. split; [repeat constructor; try discriminate; intros r s [<-|[]] [<-|[]]; reflexivity|]. split; [|reflexivity].
  unfold mesh_at. cbn. repeat (constructor; cbn [fst snd]); (eexists; split; [reflexivity|]; apply FrameProofs.placed_iff; symmetry; apply place_standard; now left).
Qed.

(** ** C118 Data shown with a mesh *)

(** If below a block with cells there are no other cells and the field fits, each block is shown with the field: the points of the source are asked first, then the cells; of a field with several values for a cell these are the values at its nodes, each of which gets a point of its own.  Missing: fields of cells, if there are as many cells as points; nested cells; collections (refuted below). *)
Theorem C118_partial :
  forall ct anc c m s (ks : list (cells * points * list vec)), Forall2 (fun f kx => proper_block f (fst (fst kx)) (snd (fst kx)) (snd kx) /\ data_fits s (fst (fst kx)) (snd (fst kx)) (snd kx)) (cell_families anc c m) ks ->
  exists r, to_pv ct false (SName s) anc c m = Ok r /\ map (fun ga => vtype (fst ga)) r = map ct (cell_families anc c m) /\
    Forall2 (fun kx ga => data_shown s (fst (fst kx)) (snd (fst kx)) (snd kx) (fst ga) (snd ga)) ks r.
Proof. exact @pv_value. Qed.
Print Assumptions C118_partial.
(** The data of the points follows the points. *)
Theorem C118_points :
  forall f k p X s a, proper_block f k p X -> find_field s (pfields p) = Some a -> length (rows a) = length X ->
  exists c t d, detach_block (SName s) f = Ok (Piece c t (Some (Field (width a) d))) /\ detached X (nodes k) c t /\ shows_points X (rows a) (nodes k) c t d.
Proof. exact @data_points. Qed.
Print Assumptions C118_points.
(** The same for an array given by the caller, whose length is checked. *)
Theorem C118_array :
  forall f k p X a, proper_block f k p X -> length (px p) = length X ->
  (length (rows a) <> length (px p) -> detach_block (SArray a) f = Err ValueError) /\
  (length (rows a) = length (px p) -> exists c t d, detach_block (SArray a) f = Ok (Piece c t (Some (Field (width a) d))) /\ detached X (nodes k) c t /\ shows_points X (rows a) (nodes k) c t d).
Proof. exact @data_array. Qed.
Print Assumptions C118_array.
(** The data of the cells. *)
Theorem C118_cells :
  forall f k p X s a, proper_block f k p X -> find_field s (pfields p) = None -> find_field s (cfields k) = Some a -> width a = None ->
  exists c t, detach_block (SName s) f = Ok (Piece c t (Some a)) /\ detached X (nodes k) c t.
Proof. exact @data_cells. Qed.
Print Assumptions C118_cells.
(** The data of the nodes of the cells. *)
Theorem C118_nodes :
  forall f k p X s a w, proper_block f k p X -> find_field s (pfields p) = None -> find_field s (cfields k) = Some a -> width a = Some w -> same_shape (nodes k) (rows a) ->
  exists c t d, detach_block (SName s) f = Ok (Piece c t (Some (Field None d))) /\ shows_nodes X (rows a) (nodes k) c t d.
Proof. exact @data_nodes. Qed.
Print Assumptions C118_nodes.
(** A field that exists nowhere is ignored. *)
Theorem C118_missing :
  forall f k p X s, proper_block f k p X -> find_field s (pfields p) = None -> find_field s (cfields k) = None ->
  exists c t, detach_block (SName s) f = Ok (Piece c t None) /\ detached X (nodes k) c t.
Proof. exact @data_missing. Qed.
Print Assumptions C118_missing.
(** Other objects are rejected. *)
Theorem C118_other :
  forall f k p X, proper_block f k p X -> detach_block SOther f = Err TypeError.
Proof. exact @data_other. Qed.
Print Assumptions C118_other.
(** If a block has as many cells as points, the data of its cells is shown at the points. *)
Theorem C118_refuted :
  exists m k g, cell_arrays m = [k] /\ find_field "T" (cfields k) = Some three_values /\ length (rows three_values) = length (nodes k) /\
  to_pv (fun _ => 3) false (SName "T") [] top m = Ok [(g, OfPoints "T" three_values)].
Proof. exact @ring_data. Qed.
Print Assumptions C118_refuted.
(** A collection never has data. *)
Theorem C118_collection_refuted :
  forall ct data anc c m r, to_pv ct true data anc c m = Ok r -> Forall (fun ga => snd ga = NoData) r.
Proof. exact @multi_no_data. Qed.
Print Assumptions C118_collection_refuted.
(** A mesh that is shown with data loses them in a collection. *)
Theorem C118_collection_lost_refuted :
  exists m g, to_pv (fun _ => 3) false (SName "T") [] top m = Ok [(g, OfPoints "T" three_values)] /\ to_pv (fun _ => 3) true (SName "T") [] top m = Ok [(g, NoData)].
Proof. exact @multi_lost. Qed.
Print Assumptions C118_collection_lost_refuted.
(** Data of cells that have other cells below them is rejected. *)
Theorem C118_nested_refuted :
  exists m p k a, m = Block None (Some p) (Some k) [Block None None (Some (Cells [[1; 2]] [0] [])) []] /\ rooted m p standard /\ pfields p = [] /\ find_field "T" (cfields k) = Some a /\ length (rows a) = length (nodes k) /\ to_pv (fun _ => 3) false (SName "T") [] top m = Err ValueError.
Proof. exact @nested_data. Qed.
Print Assumptions C118_nested_refuted.
(** If all points are in one block, data is announced if and only if it is shown.  Missing: several blocks with points (refuted below). *)
Theorem C118_announced_partial :
  forall f k p X s, proper_block f k p X -> data_fits s k p X -> Forall (fun cb => bpd (snd cb) = None \/ bpd (snd cb) = Some p) f ->
  exists (b : bool) pc, has_plot_scalars (SName s) f = Ok b /\ detach_block (SName s) f = Ok pc /\ (b = true <-> gdata pc <> None).
Proof. exact @announced. Qed.
Print Assumptions C118_announced_partial.
(** Data given as an array are announced and shown; without data none are announced and none shown. *)
Theorem C118_announced_array :
  forall a f pc, detach_block (SArray a) f = Ok pc -> has_plot_scalars (SArray a) f = Ok true /\ gdata pc <> None.
Proof. exact @announced_array. Qed.
Print Assumptions C118_announced_array.
Theorem C118_announced_none :
  forall f pc, detach_block SNone f = Ok pc -> has_plot_scalars SNone f = Ok false /\ gdata pc = None.
Proof. exact @announced_none. Qed.
Print Assumptions C118_announced_none.
(** A block is said to have data, but is shown without: an ancestor has the field, the closest source has not. *)
Theorem C118_promise_refuted :
  exists m f c t, cell_families [] top m = [f] /\ has_plot_scalars (SName "T") f = Ok true /\ detach_block (SName "T") f = Ok (Piece c t None).
Proof. exact @promised. Qed.
Print Assumptions C118_promise_refuted.
Example C118_ex : Forall2 (fun f kx => proper_block f (fst (fst kx)) (snd (fst kx)) (snd kx) /\ data_fits "T" (fst (fst kx)) (snd (fst kx)) (snd kx) /\ data_fits "U" (fst (fst kx)) (snd (fst kx)) (snd kx)) (cell_families [] top two_lines)
  [(Cells [[0; 1]] [0] [], corner_points [("T"%string, three_values)], [(0, 0, 0); (1, 0, 0); (0, 1, 0)]%R); (Cells [[1; 2]] [0] [("U"%string, one_value)], corner_points [("T"%string, three_values)], [(0, 0, 0); (1, 0, 0); (0, 1, 0)]%R)].
Proof.
  pose proof two_lines_proper as H. inversion H as [|? ? ? ? (p & H1) H2]; subst. inversion H2 as [|? ? ? ? (q & H3) H4]; subst. cbn [fst snd] in *.
  assert (Ep : p = corner_points [("T"%string, three_values)]). { destruct H1 as (_ & (near & s & far & E & Hn & Hs & _) & _). destruct near as [|x near]; [injection E as <- _; discriminate|]. injection E as <- E. destruct near as [|y near]; [injection E as <- _; cbn in Hs; congruence|]. injection E as <- _. inversion Hn as [|? ? _ Hy]. inversion Hy. discriminate. }
  assert (Eq : q = corner_points [("T"%string, three_values)]). { destruct H3 as (_ & (near & s & far & E & Hn & Hs & _) & _). destruct near as [|x near]; [injection E as <- _; discriminate|]. injection E as <- E. destruct near as [|y near]; [injection E as <- _; cbn in Hs; congruence|]. injection E as <- _. inversion Hn as [|? ? _ Hy]. inversion Hy. discriminate. }
  subst p q. constructor; [|constructor; [|constructor]]; cbn [fst snd]; (split; [assumption|]).
  - split; cbn; exact I || reflexivity.
  - split; [reflexivity|]. unfold data_fits. cbn. split; [reflexivity|]. intros ns (Hs & Hu) E. assert (A1 : In 1 ns) by (apply Hu, entry_in_concat; cbn; tauto). assert (A2 : In 2 ns) by (apply Hu, entry_in_concat; cbn; tauto). destruct ns as [|a [|b ns]]; try discriminate E. destruct A1 as [->|[]]. destruct A2 as [A2|[]]. discriminate.
Qed.
Example C118_announced_ex : Forall (fun cb => bpd (snd cb) = None \/ bpd (snd cb) = Some (corner_points [("T"%string, three_values)])) [(enter top two_lines, a_block None [[0; 1]] [] []); (top, two_lines)].
Proof. constructor; [now left|]. constructor; [now right|constructor]. Qed.
Example C118_nodes_ex : exists f k p X a w, proper_block f k p X /\ find_field "V" (pfields p) = None /\ find_field "V" (cfields k) = Some a /\ width a = Some w /\ same_shape (nodes k) (rows a).
Proof.
  set (a := Field (Some 2) [[Some 3%R; Some 4%R]]). set (m := a_block (Some (corner_points [])) [[1; 2]] [("V"%string, a)] []).
  exists [(top, m)], (Cells [[1; 2]] [0] [("V"%string, a)]), (corner_points []), [(0, 0, 0); (1, 0, 0); (0, 1, 0)]%R, a, 2. split; [|repeat split].
  split; [exists top, m, []; repeat split|]. split.
  - exists [], (top, m), []. repeat split; [constructor|]. cbn [fst snd]. rewrite (plain_coords top m) by (try reflexivity; try discriminate; repeat constructor). reflexivity.
  - split; [discriminate|]. split; [intros r s [<-|[]] [<-|[]]; reflexivity|]. intros n Hn. apply entry_in_concat in Hn. cbn in *. lia.
Qed.
Example C118_array_ex : exists m r, to_pv (fun _ => 3) true (SArray three_values) [] top m = Ok r /\ r <> [] /\ length (rows three_values) = length (px (corner_points [])).
Proof.
  exists (ring [] []). destruct (ring_run [] []) as (E1 & E2 & E3). unfold to_pv, detach_block_data. change (cell_families [] top (ring [] [])) with [[(top, ring [] [])]]. cbn [mapM]. unfold detach_block. change (source None [(top, ring [] [])]) with (Some (top, ring [] [])). cbn [bind fst snd]. rewrite E2. cbn [bind]. rewrite E3. cbn [bind].
  change (bpd (ring [] [])) with (Some (corner_points [])). cbn [bind]. eexists. split; [reflexivity|]. split; [discriminate|reflexivity].
Qed.
Example C118_announced_array_ex : (exists pc, detach_block (SArray three_values) [(top, ring [] [])] = Ok pc) /\ exists pc, detach_block SNone [(top, ring [] [])] = Ok pc.
Proof.
  destruct (ring_run [] []) as (E1 & E2 & E3). unfold detach_block. change (source None [(top, ring [] [])]) with (Some (top, ring [] [])). cbn [bind fst snd]. rewrite E2. cbn [bind]. rewrite E3. cbn [bind].
  change (bpd (ring [] [])) with (Some (corner_points [])). cbn [bind]. split; eexists; reflexivity.
Qed.

(** ** C119 Objects of k3d *)

(** Lines and surfaces (the latter by their triangles) of a mesh become objects on the coordinates that its source reports; each has no points but those of its cells and the data of these.  Missing: blocks with points of their own (refuted below). *)
Theorem C119_partial :
  forall ndim tris data anc c m p X, points_for ((c, m) :: anc) p X -> (forall a, data = Some a -> length a = length X) -> forall tps,
  Forall2 (fun k t => (ndim k = 1 /\ t = nodes k \/ ndim k = 2 /\ tris k = Ok t) /\ forall n, used t n -> n < length X) (cell_arrays m) tps ->
  exists os, to_k3d ndim tris data anc c m = Ok os /\ Forall2 (fun t o => k3d_shows X t data o) tps os.
Proof. exact @k3d_value. Qed.
Print Assumptions C119_partial.
(** The cells of a block with points of its own are drawn at other places: its node numbers are taken for points of the whole mesh. *)
Theorem C119_refuted :
  exists m, mesh_at m [[(5, 0, 0); (6, 0, 0)]]%R /\ to_k3d (fun _ => 1) (fun _ => Err TypeError) None [] top m = Ok [([(0, 0, 0); (1, 0, 0)]%R, [[0; 1]], None)].
Proof. exact @k3d_wrong. Qed.
Print Assumptions C119_refuted.
(** A mesh whose points are in its blocks cannot be drawn. *)
Theorem C119_no_points_refuted :
  forall ndim tris data m, bpd m = None -> to_k3d ndim tris data [] top m = Err AttributeError.
Proof. exact @k3d_no_points. Qed.
Print Assumptions C119_no_points_refuted.
Example C119_ex : points_for [(top, two_lines)] (corner_points [("T"%string, three_values)]) [(0, 0, 0); (1, 0, 0); (0, 1, 0)]%R /\
  Forall2 (fun (k : cells) t => (1 = 1 /\ t = nodes k \/ 1 = 2 /\ Err TypeError = Ok t) /\ forall n, used t n -> n < 3) (cell_arrays two_lines) [[[0; 1]]; [[1; 2]]] /\ length [Some 1%R; Some 2%R; None] = 3 /\ bpd (Block None None None [two_lines]) = None.
Proof.
  split; [|split; [|split; reflexivity]].
  - exists [], (top, two_lines), []. repeat split; [constructor|]. cbn [fst snd]. rewrite (plain_coords top two_lines) by (try reflexivity; try discriminate; repeat constructor). reflexivity.
  - constructor; [|constructor; [|constructor]]; (split; [left; split; reflexivity|]; intros n Hn; apply entry_in_concat in Hn; cbn in *; lia).
Qed.

(** ** C120 Parameters of plots *)

(** Each block is plotted with the parameters of the closest of itself and its ancestors that has a configuration, without the colour if it is plotted with data; a block without configuration gets none.  But for the colour all configurations remain what they are.  Missing: the colour of the blocks without data (refuted below). *)
Theorem C120_partial :
  forall cs bs, alike cs (fst (pvplot cs bs)) /\ Forall2 (fun fd q => (no_config cs (fst fd) -> q = []) /\ forall p, nearest_config cs (fst fd) p -> but_color p q /\ (snd fd = true -> ~ has_color q)) bs (snd (pvplot cs bs)).
Proof. exact @plot_value. Qed.
Print Assumptions C120_partial.
(** If no block is plotted with data all configurations remain as they are and each block gets all parameters. *)
Theorem C120_plain :
  forall cs bs, Forall (fun fd => snd fd = false) bs -> fst (pvplot cs bs) = cs /\ Forall2 (fun fd q => (no_config cs (fst fd) -> q = []) /\ forall p, nearest_config cs (fst fd) p -> q = p) bs (snd (pvplot cs bs)).
Proof. exact @plot_plain. Qed.
Print Assumptions C120_plain.
(** After a block is plotted with data its colour is lost for later plots without data. *)
Theorem C120_refuted :
  exists cs f p, nearest_config cs f p /\ has_color p /\ exists q, snd (pvplot (fst (pvplot cs [(f, true)])) [(f, false)]) = [q] /\ ~ has_color q.
Proof. exact @color_lost. Qed.
Print Assumptions C120_refuted.
(** Within a plot a block without data loses the colour that it shares with a block with data. *)
Theorem C120_stolen_refuted :
  exists cs f g p, nearest_config cs g p /\ has_color p /\ exists q q', snd (pvplot cs [(f, true); (g, false)]) = [q; q'] /\ ~ has_color q'.
Proof. exact @color_stolen. Qed.
Print Assumptions C120_stolen_refuted.
(** In general: the stored configuration loses the colour whenever a block is plotted with data. *)
Theorem C120_pops_refuted :
  forall cs f p, nearest_config cs f p -> nearest_config (fst (pvplot cs [(f, true)])) f (pop_color p) /\ snd (pvplot (fst (pvplot cs [(f, true)])) [(f, false)]) = [pop_color p].
Proof. exact @plot_pops. Qed.
Print Assumptions C120_pops_refuted.
Example C120_ex : nearest_config [(0, [("color"%string, 1)]); (4, [("opacity"%string, 2)])] [3; 4; 0] [("opacity"%string, 2)] /\ no_config [(0, [("color"%string, 1)])] [3; 4] /\ Forall (fun fd => snd fd = false) [([3; 4; 0], false); ([0], false)].
Proof.
  split; [exists [3], 4, [0]; split; [reflexivity|split; [reflexivity|intros j [<-|[]] q H; discriminate H]]|]. split; [|repeat constructor]. intros j [<-|[<-|[]]] q H; discriminate H.
Qed.

(** ** C121 Names of the fields of a mesh *)

(** If all blocks of points below an object have the same number of fields, the result has the names of all of them, each once.  Missing: the fields of the object itself, and blocks with different numbers of fields (refuted below). *)
Theorem C121_points_partial :
  forall always c b, (forall p q, In p (flat_map arrays (bsub b)) -> In q (flat_map arrays (bsub b)) -> length (pfields p) = length (pfields q)) ->
  exists l, point_fields always c b = Ok l /\ names_are l (fun s => exists p, In p (flat_map arrays (bsub b)) /\ (In s always \/ In s (map fst (pfields p)))).
Proof. exact @point_fields_ok. Qed.
Print Assumptions C121_points_partial.
(** The same for cells. *)
Theorem C121_cells_partial :
  forall always c b, (forall p q, In p (flat_map cell_arrays (bsub b)) -> In q (flat_map cell_arrays (bsub b)) -> length (cfields p) = length (cfields q)) ->
  exists l, cell_fields always c b = Ok l /\ names_are l (fun s => exists p, In p (flat_map cell_arrays (bsub b)) /\ (In s always \/ In s (map fst (cfields p)))).
Proof. exact @cell_fields_ok. Qed.
Print Assumptions C121_cells_partial.
(** The fields of the object itself are missing: a mesh that consists of one block seems to have none. *)
Theorem C121_refuted :
  exists m p, rooted m p standard /\ In "T"%string (map fst (pfields p)) /\ forall always, point_fields always top m = Ok [] /\ cell_fields always top m = Ok [].
Proof. exact @own_fields_missing. Qed.
Print Assumptions C121_refuted.
(** If the blocks have different numbers of fields, an error is raised. *)
Theorem C121_uneven_refuted :
  exists m k l, m = Block None None None [Block None None (Some k) []; Block None None (Some l) []] /\ length (cfields k) <> length (cfields l) /\ forall always, cell_fields always top m = Err ValueError.
Proof. exact @uneven_fields. Qed.
Print Assumptions C121_uneven_refuted.
Example C121_ex : forall p q, In p (flat_map cell_arrays (bsub (Block None None None [a_block None [[0; 1]] [("T"%string, one_value)] []; a_block None [[0; 1]] [("U"%string, one_value)] []]))) ->
  In q (flat_map cell_arrays (bsub (Block None None None [a_block None [[0; 1]] [("T"%string, one_value)] []; a_block None [[0; 1]] [("U"%string, one_value)] []]))) -> length (cfields p) = length (cfields q).
Proof. intros p q [<-|[<-|[]]] [<-|[<-|[]]]; reflexivity. Qed.
Example C121_points_ex : forall p q, In p (flat_map arrays (bsub two_sources)) -> In q (flat_map arrays (bsub two_sources)) -> length (pfields p) = length (pfields q).
Proof. intros p q [<-|[]] [<-|[]]; reflexivity. Qed.

(** ** C122 Neighbours of cells *)

(** For more than one neighbour: row [i] lists the [k] cells whose centres are closest to that of cell [i].  If no two centres coincide, cell [i] is one of them, so that there are [k - 1] others.  The greatest distance is ignored.  Missing: the case of one neighbour (below). *)
Theorem C122_partial :
  forall query m path p T ps k d, LocSpec.nearest_query query -> rooted m p T -> orthonormal (axes T) -> part_at m path ps -> ps <> [] -> Forall (fun qs => qs <> []) ps -> k <= length ps -> k <> 1 ->
  exists cs rows, Forall2 centroid ps cs /\ k_nearest_cell_neighbours query m path k d None = Ok (LocModel.Inds2 rows) /\ length rows = length ps /\
    (forall i c row, nth_error cs i = Some c -> nth_error rows i = Some row -> LocSpec.nearest (map row_of cs) (row_of c) k row /\ (0 < k -> NoDup cs -> In i row)).
Proof. exact @cells_nearest. Qed.
Print Assumptions C122_partial.
(** With one neighbour, the closest cell of each cell is the cell itself. *)
Theorem C122_one_refuted :
  forall query m path p T ps d, LocSpec.nearest_query query -> rooted m p T -> orthonormal (axes T) -> part_at m path ps -> ps <> [] -> Forall (fun qs => qs <> []) ps ->
  exists cs l, Forall2 centroid ps cs /\ k_nearest_cell_neighbours query m path 1 d None = Ok (LocModel.Inds1 l) /\ (NoDup cs -> l = seq 0 (length ps)).
Proof. exact @cells_nearest_one. Qed.
Print Assumptions C122_one_refuted.
(** The cells within a radius: row [i] has the numbers of the first ten cells whose centres are within the radius, filled up with zeros.  Missing: more than ten cells within the radius, and rows without fillings (refuted below). *)
Theorem C122_around_partial :
  forall m path p T ps r, rooted m p T -> orthonormal (axes T) -> part_at m path ps -> ps <> [] -> Forall (fun qs => qs <> []) ps ->
  exists cs rows, Forall2 centroid ps cs /\ NodalSpec.padded (map row_of cs) r 10 rows /\ cells_around_cells m path r NodalModel.FmtDict = Ok (NodalModel.NbDict (enum rows)) /\
    cells_around_cells m path r NodalModel.FmtJagged = Ok (NodalModel.NbJagged rows) /\ cells_around_cells m path r NodalModel.FmtOther = Err RuntimeError.
Proof. exact @cells_around_rows. Qed.
Print Assumptions C122_around_partial.
(** If there are less than ten cells, every row contains cell 0, wherever it is. *)
Theorem C122_around_refuted :
  forall m path p T ps r, rooted m p T -> orthonormal (axes T) -> part_at m path ps -> ps <> [] -> Forall (fun qs => qs <> []) ps -> length ps < 10 ->
  exists rows, cells_around_cells m path r NodalModel.FmtJagged = Ok (NodalModel.NbJagged rows) /\ length rows = length ps /\ Forall (In 0) rows.
Proof. exact @always_cell_0. Qed.
Print Assumptions C122_around_refuted.
Example C122_ex : LocSpec.nearest_query LocProofs7.sorting_query /\ rooted two_lines (corner_points [("T"%string, three_values)]) standard /\ orthonormal (axes standard) /\ part_at two_lines [] [[(0, 0, 0); (1, 0, 0)]; [(1, 0, 0); (0, 1, 0)]]%R /\
  2 <= length [[(0, 0, 0); (1, 0, 0)]; [(1, 0, 0); (0, 1, 0)]]%R /\ length [[(0, 0, 0); (1, 0, 0)]; [(1, 0, 0); (0, 1, 0)]]%R < 10.
Proof.
  split; [exact LocProofs7.sorting_nearest|]. split; [repeat split|]. split; [exact FrameProofs.orthonormal_eye|]. split; [|cbn; lia].
  unfold part_at. do 3 eexists. split; [reflexivity|]. cbn. repeat (constructor; cbn [fst snd]); (eexists; split; [reflexivity|]; apply FrameProofs.placed_iff; symmetry; apply place_standard; now left).
Qed.
