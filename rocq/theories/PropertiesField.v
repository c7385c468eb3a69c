(** * Properties C151 to C155: data given to new databases and meshes *)
From Coq Require Import Reals String List Lia Lra.
From Verif Require Import Base TrModel FrameProofs FieldSpec FieldProofs FieldProofs2 NodalSpec LocSpec FieldProofs3.
Import ListNotations.
Local Open Scope string_scope.

(** ** C151 Fields of new meshes *)

(** Positions, numbers and frames as the mesh sets them, and all fields that are given with names the mesh does not set, under the names of the columns; nothing else.  Missing: fields the mesh sets (refuted below); fields of other lengths. *)
Theorem C151_partial :
  forall x topo celltype f newaxis frames pf cf,
  celltype = true \/ class_width (ncols topo) -> of_length (length x) (given_columns pf) -> of_length (length topo) (given_columns cf) -> separate (given_columns cf) ->
  (forall l, frames = Some (AMatrices l) -> length l = length topo) ->
  exists tp tc, fst (PolyData_init (Space x) topo celltype f newaxis frames pf cf) = Ok (Some tp, Some tc) /\
    (exists y, lookup tp "_x" = Some (Space y) /\ same_places (frame_or_standard f) x standard y) /\
    lookup tp "_id" = Some (Ids (seq 0 (length x))) /\ lookup tp "_activity" = Some (Flags (repeat true (length x))) /\
    (forall k, ~ own_point_key k -> lookup tp k = lookup (given_columns pf) k) /\
    lookup tc "_nodes" = Some (Nodes topo) /\ lookup tc "_id" = Some (Ids (seq 0 (length topo))) /\
    (forall l, mesh_frames frames f (length topo) = Some l -> lookup tc "_frames" = Some (Matrices l)) /\
    (forall k v, In (k, v) (given_columns cf) -> ~ own_cell_key (column_name k) -> (column_name k = "_frames" -> mesh_frames frames f (length topo) = None) ->
       lookup tc (column_name k) = Some v) /\
    (forall key, lookup tc key <> None -> own_cell_key key \/ (key = "_frames" /\ mesh_frames frames f (length topo) <> None) \/
       exists k v, In (k, v) (given_columns cf) /\ key = column_name k).
Proof. exact @mesh_fields. Qed.
Print Assumptions C151_partial.
(** Cells with a number of nodes no class has are a TypeError. *)
Theorem C151_width :
  forall x topo f newaxis frames pf cf, ~ class_width (ncols topo) -> of_length (length x) (given_columns pf) ->
  fst (PolyData_init (Space x) topo false f newaxis frames pf cf) = Err TypeError.
Proof. exact @unknown_width. Qed.
Print Assumptions C151_width.
(** The activity of points is lost, whether it is given by the name of the attribute or of the column: all points are active. *)
Theorem C151_activity_refuted :
  forall x topo celltype f newaxis key l pt,
  celltype = true \/ class_width (ncols topo) -> key = "activity" \/ key = "_activity" -> length l = length x -> In false l ->
  fst (PolyData_init (Space x) topo celltype f newaxis None (Some [(key, Flags l)]) None) = Ok pt ->
  exists tp tc, pt = (Some tp, tc) /\ exists l', lookup tp "_activity" = Some (Flags l') /\ l' <> l /\ Forall (eq true) l'.
Proof. exact @activity_lost. Qed.
Print Assumptions C151_activity_refuted.
(** Frames of cells given as a field are replaced by the frame of the mesh. *)
Theorem C151_frames_refuted :
  forall x topo celltype g newaxis key l,
  celltype = true \/ class_width (ncols topo) -> key = "frames" \/ key = "_frames" -> length l = length topo ->
  exists tp tc, fst (PolyData_init (Space x) topo celltype (Some g) newaxis None None (Some [(key, Matrices l)])) = Ok (Some tp, Some tc) /\
    lookup tc "_frames" = Some (Matrices (repeat (axes g) (length topo))).
Proof. exact @frames_replaced. Qed.
Print Assumptions C151_frames_refuted.
(** Frames of another type are ignored, and the frame of the mesh with them; a database of cells says that they are of the wrong type. *)
Theorem C151_other_refuted :
  forall x topo celltype f newaxis fields areas t kw,
  celltype = true \/ class_width (ncols topo) -> of_length (length topo) (given_columns fields) -> arrays_of_length (length topo) kw ->
  (forall l, areas = Some (PerCell l) -> length l = length topo) ->
  (exists tp tc, fst (PolyData_init (Space x) topo celltype f newaxis (Some AOther) None None) = Ok (Some tp, Some tc) /\ lookup tc "_frames" = None) /\
  fst (CellData_init (Some topo) fields None (Some AOther) areas t kw) = Err TypeError.
Proof. exact @other_frames_ignored. Qed.
Print Assumptions C151_other_refuted.
Example C151_ex :
  let pf := [("T", Numbers [1%R; 2%R])] in let cf := [("t", Numbers [3%R]); ("density", Numbers [4%R])] in
  class_width (ncols [[0; 1]]%nat) /\ of_length 2 pf /\ of_length 1 cf /\ separate cf /\ column_name "t" = "_t" /\ ~ own_cell_key "_t" /\ ~ own_point_key "T".
Proof.
  cbv zeta. split; [now left|]. split; [intros k v [H|[]]; injection H as <- <-; reflexivity|].
  split; [intros k v [H|[H|[]]]; injection H as <- <-; reflexivity|].
  split; [unfold separate; cbn; constructor; [intros [H|[]]; discriminate H|constructor; [intros []|constructor]]|].
  split; [reflexivity|]. split; [intros [H|H]; discriminate H|intros [H|[H|H]]; discriminate H].
Qed.

(** ** C152 Dictionaries given as arguments *)

(** A database of cells leaves a dictionary with entries unchanged.  Missing: empty dictionaries and meshes (refuted below). *)
Theorem C152_cells_partial :
  forall topo d act frames areas t kw, d <> [] -> snd (CellData_init topo (Some d) act frames areas t kw) = Some d.
Proof. exact @cells_keep. Qed.
Print Assumptions C152_cells_partial.
(** An empty one gets the node numbers. *)
Theorem C152_cells_refuted :
  forall topo, snd (CellData_init (Some topo) (Some []) None None None None []) = Some [("_nodes", Nodes topo)].
Proof. exact @cells_fill. Qed.
Print Assumptions C152_cells_refuted.
(** A mesh writes positions, numbers and activity to the dictionary of points, numbers and frames to that of cells. *)
Theorem C152_refuted :
  forall x topo celltype f newaxis frames pf cf,
  celltype = true \/ class_width (ncols topo) -> of_length (length x) pf -> of_length (length topo) cf ->
  (forall l, frames = Some (AMatrices l) -> length l = length topo) ->
  exists dp dc, snd (PolyData_init (Space x) topo celltype f newaxis frames (Some pf) (Some cf)) = (Some dp, Some dc) /\
    (exists y, lookup dp "_x" = Some (Space y)) /\ lookup dp "_id" = Some (Ids (seq 0 (length x))) /\ lookup dp "_activity" = Some (Flags (repeat true (length x))) /\
    (forall k, ~ own_point_key k -> lookup dp k = lookup pf k) /\
    lookup dc "_id" = Some (Ids (seq 0 (length topo))) /\ (forall l, mesh_frames frames f (length topo) = Some l -> lookup dc "frames" = Some (Matrices l)) /\
    (forall k, k <> "_id" -> (k = "frames" -> mesh_frames frames f (length topo) = None) -> lookup dc k = lookup cf k).
Proof. exact @mesh_fills. Qed.
Print Assumptions C152_refuted.
(** A second mesh, without a frame, made with the same dictionary of cells gets the frame of the first; with another number of cells it is a ValueError. *)
Theorem C152_again_refuted :
  forall x x' topo topo' g newaxis newaxis' celltype celltype',
  celltype = true \/ class_width (ncols topo) -> celltype' = true \/ class_width (ncols topo') ->
  exists dc, snd (snd (PolyData_init (Space x) topo celltype (Some g) newaxis None None (Some []))) = Some dc /\
    (length topo' = length topo -> exists tp tc, fst (PolyData_init (Space x') topo' celltype' None newaxis' None None (Some dc)) = Ok (Some tp, Some tc) /\
       lookup tc "_frames" = Some (Matrices (repeat (axes g) (length topo')))) /\
    (length topo' <> length topo -> fst (PolyData_init (Space x') topo' celltype' None newaxis' None None (Some dc)) = Err ValueError).
Proof. exact @mesh_again. Qed.
Print Assumptions C152_again_refuted.
Example C152_ex : class_width (ncols [[0; 1]]%nat) /\ of_length 1 [("E", Numbers [1%R])] /\ length [[0; 1]; [1; 2]]%nat <> length [[0; 1]]%nat /\
  forall g, lookup [("frames", Matrices [axes g]); ("_id", Ids [0%nat])] "frames" <> lookup [] "frames".
Proof.
  split; [now left|]. split; [intros k v [H|[]]; injection H as <- <-; reflexivity|]. split; [cbn; lia|]. intros g H. discriminate H.
Qed.

(** ** C153 Data of cells as keywords *)

(** Arrays with a row for every cell are kept under their names, frames, areas and thicknesses under those of their columns, one value for all cells repeated.  Missing: other names and lengths (refuted below). *)
Theorem C153_partial :
  forall topo frames areas t kw,
  NoDup (map fst kw) -> arrays_of_length (length topo) kw -> (forall k, In k (map fst kw) -> ~ In k ["_nodes"; "_frames"; "_areas"; "_t"]) ->
  (forall a, frames = Some a -> exists l, given_frames a (length topo) l) -> (forall l, areas = Some (PerCell l) -> length l = length topo) ->
  (forall l, t = Some (PerCell l) -> length l = length topo) ->
  exists tb, fst (CellData_init (Some topo) None None frames areas t kw) = Ok (Some tb) /\
    lookup tb "_nodes" = Some (Nodes topo) /\ (forall k c, In (k, Arr c) kw -> lookup tb k = Some c) /\
    (forall a, frames = Some a -> exists l, given_frames a (length topo) l /\ lookup tb "_frames" = Some (Matrices l)) /\
    (forall a, areas = Some a -> exists l, amounts a (length topo) l /\ lookup tb "_areas" = Some (Numbers l)) /\
    (forall a, t = Some a -> exists l, amounts a (length topo) l /\ lookup tb "_t" = Some (Numbers l)).
Proof. exact @keyword_data. Qed.
Print Assumptions C153_partial.
(** Names of attributes are not translated to those of columns for keywords. *)
Theorem C153_names_refuted :
  forall topo l key, In key ["id"; "ndf"; "nodes"] -> length l = length topo ->
  exists tb, fst (CellData_init (Some topo) None None None None None [(key, Arr (Ids l))]) = Ok (Some tb) /\ lookup tb key = Some (Ids l) /\
    lookup tb (column_name key) <> Some (Ids l).
Proof. exact @keyword_names. Qed.
Print Assumptions C153_names_refuted.
(** An array of another length is a ValueError, although the constructor is written to leave it out. *)
Theorem C153_length_refuted :
  forall topo frames areas t key c, key <> "_nodes" -> key <> "_areas" -> clen c <> length topo -> clen c <> 1%nat -> length topo <> 1%nat ->
  fst (CellData_init (Some topo) None None frames areas t [(key, Arr c)]) = Err ValueError.
Proof. exact @other_length. Qed.
Print Assumptions C153_length_refuted.
(** An activity that is no array, such as True, is ignored. *)
Theorem C153_activity_refuted :
  forall topo, exists tb, fst (CellData_init (Some topo) None (Some Other) None None None []) = Ok (Some tb) /\ lookup tb "_activity" = None.
Proof. exact @activity_ignored. Qed.
Print Assumptions C153_activity_refuted.
Example C153_ex : let topo := [[0; 1]; [1; 2]]%nat in let kw := [("E", Arr (Numbers [1%R; 2%R])); ("name", Other)] in
  NoDup (map fst kw) /\ arrays_of_length (length topo) kw /\ (forall k, In k (map fst kw) -> ~ In k ["_nodes"; "_frames"; "_areas"; "_t"]) /\
  given_frames (AMatrices [meye]) 2 [meye; meye] /\ amounts (Each 3%R) 2 [3%R; 3%R] /\ clen (Numbers [1%R; 2%R]) <> length [[0; 1]; [1; 2]; [2; 3]]%nat.
Proof.
  cbv zeta. split; [cbn; constructor; [intros [H|[]]; discriminate H|constructor; [intros []|constructor]]|].
  split; [intros k c [H|[H|[]]]; [injection H as <- <-; reflexivity|discriminate H]|].
  split; [intros k [<-|[<-|[]]]; cbn; intuition discriminate|]. split; [reflexivity|]. split; [reflexivity|]. cbn. lia.
Qed.

(** ** C154 Data of points asked of cells *)

(** A name no column of the cells has and a column of points with two or three components has: the mean of the values of the nodes of each cell.  Missing: data with one number for every point (refuted next). *)
Theorem C154_partial :
  forall topo points k data rows,
  (exists l, lookup points k = Some (Space l) /\ data = map components l) \/ (exists l, lookup points k = Some (Plane l) /\ data = map components_2 l) ->
  data <> [] -> Forall (fun nodes => nodes <> []) topo -> mesh_at data topo rows ->
  exists r, cell_attribute topo points k = Ok r /\ Forall2 (mean_row (ncols data)) rows r.
Proof. exact @point_data_of_cells. Qed.
Print Assumptions C154_partial.
(** One number for every point: AttributeError. *)
Theorem C154_refuted :
  forall topo points k l, lookup points k = Some (Numbers l) \/ (exists b, lookup points k = Some (Flags b)) ->
  cell_attribute topo points k = Err AttributeError.
Proof. exact @numbers_of_cells. Qed.
Print Assumptions C154_refuted.
(** Whenever no data is returned, the error is an AttributeError, so that [hasattr] and [getattr] with a default can be used. *)
Theorem C154_errors : forall topo points k e, cell_attribute topo points k = Err e -> e = AttributeError.
Proof.
  intros topo points k e. unfold cell_attribute. destruct (lookup points k) as [c|]; [|congruence].
  destruct c; try congruence; destruct (avg_cell_data _ _); congruence.
Qed.
Print Assumptions C154_errors.
Example C154_errors_ex : cell_attribute [[0; 1]]%nat [("_x", Plane [(0, 0); (2, 0)]%R)] "_y" = Err AttributeError.
Proof. reflexivity. Qed.
Example C154_ex : lookup [("_x", Plane [(0, 0); (2, 0); (0, 4)]%R)] "_x" = Some (Plane [(0, 0); (2, 0); (0, 4)]%R) /\
  mesh_at (map components_2 [(0, 0); (2, 0); (0, 4)]%R) [[0; 1]; [1; 2]]%nat [[[0; 0]; [2; 0]]; [[2; 0]; [0; 4]]]%R.
Proof. split; [reflexivity|]. repeat constructor. Qed.

(** ** C155 Positions of new points *)

(** Points of a plane in a frame of three axes: positions with a zero along the new axis in the frame, shown in the standard frame. *)
Theorem C155_plane :
  forall l g newaxis as_coords, (newaxis < 3)%nat ->
  exists t y z, fst (PointData_init (Plane l) as_coords (Some g) newaxis None None []) = Ok (Some t, Some g) /\ lookup t "_x" = Some (Space y) /\
    Forall2 (embedded newaxis) l z /\ same_places g z standard y.
Proof. exact @plane_in_frame. Qed.
Print Assumptions C155_plane.
(** Without a frame they are kept as they are. *)
Theorem C155_plane_alone :
  forall l newaxis as_coords, (newaxis < 3)%nat ->
  exists t fr, fst (PointData_init (Plane l) as_coords None newaxis None None []) = Ok (Some t, fr) /\ lookup t "_x" = Some (Plane l).
Proof. exact @plane_alone. Qed.
Print Assumptions C155_plane_alone.
(** Points of space: the same places in the standard frame; activity, arrays and fields are kept. *)
Theorem C155_space :
  forall x f newaxis as_coords act fields kw,
  of_length (length x) (given_columns fields) -> arrays_of_length (length x) kw -> (forall a, act = Some a -> length a = length x) -> NoDup (map fst kw) ->
  (forall k, In k (map fst kw) -> ~ own_point_key k) ->
  exists t fr y, fst (PointData_init (Space x) as_coords f newaxis act fields kw) = Ok (Some t, fr) /\
    lookup t "_x" = Some (Space y) /\ same_places (frame_or_standard f) x standard y /\
    lookup t "_activity" = Some (Flags (match act with Some a => a | None => repeat true (length x) end)) /\
    (forall k c, In (k, Arr c) kw -> lookup t k = Some c) /\
    (forall k, k <> "_x" -> k <> "_activity" -> ~ In k (map fst kw) -> lookup t k = lookup (given_columns fields) k).
Proof. exact @space_points. Qed.
Print Assumptions C155_space.
(** A new axis that does not exist is an IndexError, with or without a frame. *)
Theorem C155_axis :
  forall l f newaxis as_coords act fields kw, (3 <= newaxis)%nat ->
  fst (PointData_init (Plane l) as_coords f newaxis act fields kw) = Err IndexError.
Proof. exact @new_axis_range. Qed.
Print Assumptions C155_axis.
Example C155_ex : embedded 1 (2, 3)%R (2, 0, 3)%R /\ (1 < 3)%nat /\ ~ own_point_key "T".
Proof. split; [reflexivity|]. split; [lia|]. intros [H|[H|H]]; discriminate H. Qed.
