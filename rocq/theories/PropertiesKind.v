(** * Properties C156 to C158: classes of cells, grids as meshes, line meshes *)
From Coq Require Import Reals String List Lia Lra.
From Verif Require Import Base TrModel FrameProofs KindSpec KindProofs KindProofs2.
Import ListNotations.
Local Open Scope R_scope.
Local Open Scope string_scope.

(** ** C156 Classes of the cells of new meshes *)

(** The cells of a mesh have the class with their number of nodes.  Missing: the three classes a mesh never takes by itself (refuted below) and classes that are given. *)
Theorem C156_partial :
  forall k x topo f newaxis frames pf cf t k',
  of_width (nodes_of k) topo -> ~ In k [KL3; KT6; KTET4] -> mesh_init MPoly x topo None f newaxis frames pf cf = Ok (t, k') -> k' = k.
Proof. exact @class_of_cells. Qed.
Print Assumptions C156_partial.
(** In meshes, line meshes and triangle meshes the class that is taken without a class given has the number of nodes of the cells. *)
Theorem C156_nodes :
  forall m x topo w f newaxis frames pf cf t k,
  of_width w topo -> mesh_init m x topo None f newaxis frames pf cf = Ok (t, k) -> nodes_of k = w.
Proof. exact @default_class_nodes. Qed.
Print Assumptions C156_nodes.
(** The tables are those of C151, whatever class is taken. *)
Theorem C156_tables :
  forall x topo celltype f newaxis frames pf cf,
  match mesh_init MPoly x topo celltype f newaxis frames pf cf with Ok (t, _) => Ok t | Err e => Err e end =
  fst (PolyData_init x topo (match celltype with Some _ => true | None => false end) f newaxis frames pf cf).
Proof. exact @poly_as_before. Qed.
Print Assumptions C156_tables.
(** Lines with three nodes, triangles with six and tetrahedra with four get a class with the same number of nodes and another dimension. *)
Theorem C156_refuted :
  forall k x topo f newaxis frames pf cf,
  of_width (nodes_of k) topo -> of_length (length x) (given_columns pf) -> of_length (length topo) (given_columns cf) ->
  (forall l, frames = Some (AMatrices l) -> length l = length topo) ->
  exists t k', mesh_init MPoly (Space x) topo None f newaxis frames pf cf = Ok (t, k') /\ nodes_of k' = nodes_of k /\
    (In k [KL3; KT6; KTET4] -> dim_of k' <> dim_of k).
Proof. exact @class_of_cells_ok. Qed.
Print Assumptions C156_refuted.
(** A class that is given is taken for any cells, with any number of nodes. *)
Theorem C156_given_refuted :
  forall m k x topo f newaxis frames pf cf,
  of_length (length x) (given_columns pf) -> of_length (length topo) (given_columns cf) -> (forall l, frames = Some (AMatrices l) -> length l = length topo) ->
  exists t, mesh_init m (Space x) topo (Some k) f newaxis frames pf cf = Ok (t, k).
Proof. exact @class_unchecked. Qed.
Print Assumptions C156_given_refuted.
Example C156_ex : let topo := [[0; 1; 2; 3]]%nat in of_width (nodes_of KQ4) topo /\ ~ In KQ4 [KL3; KT6; KTET4] /\ of_width (nodes_of KTET4) topo /\ In KTET4 [KL3; KT6; KTET4] /\
  of_length 4 (given_columns None) /\ cell_classes MPoly 4 = Some KQ4 /\ dim_of KQ4 = 2%nat /\ dim_of KTET4 = 3%nat.
Proof.
  cbv zeta. split; [split; [discriminate|repeat constructor]|]. split; [cbn; intuition discriminate|]. split; [split; [discriminate|repeat constructor]|].
  split; [right; right; now left|]. split; [intros k v []|]. auto.
Qed.

(** ** C157 Grids as meshes *)

(** A grid object holds the coordinates and cells of the grid, with the class that is given or has their number of nodes.  Missing: that the class fits the grid (for names proved next, for shapes refuted below), starts other than zero (refuted below). *)
Theorem C157_partial :
  forall a e coords topo celltype f newaxis frames pf cf k,
  grid a e = Ok (coords, topo) -> coords <> [] -> (rect 2 coords /\ (newaxis < 3)%nat) \/ rect 3 coords ->
  celltype = Some k \/ (celltype = None /\ cell_classes MPoly (ncols topo) = Some k) ->
  of_length (length coords) (given_columns pf) -> of_length (length topo) (given_columns cf) -> (forall l, frames = Some (AMatrices l) -> length l = length topo) ->
  exists tp tc, Grid_init a e celltype f newaxis frames pf cf = Ok (Some tp, Some tc, k) /\ holds_mesh f newaxis coords topo tp tc.
Proof. exact @grid_mesh. Qed.
Print Assumptions C157_partial.
(** Arguments that are an error for the grid are the same error for the object. *)
Theorem C157_error :
  forall a e celltype f newaxis frames pf cf err, grid a e = Err err -> Grid_init a e celltype f newaxis frames pf cf = Err err.
Proof. exact @grid_error. Qed.
Print Assumptions C157_error.
(** The names Q4 and Q9: the cells have this class, and their nodes are where the class has its own. *)
Theorem C157_name_2d :
  forall k lX lY sx sy nx ny start f newaxis, k = KQ4 \/ k = KQ9 -> (1 <= nx)%nat -> (1 <= ny)%nat -> (newaxis < 3)%nat ->
  let a := uargs [lX; lY] [nx; ny] [sx; sy] start in
  exists name coords topo tp tc, grid_name k = Some name /\ grid a (EName name) = Ok (coords, topo) /\
    Grid_init a (EName name) None f newaxis None None None = Ok (Some tp, Some tc, k) /\ holds_mesh f newaxis coords topo tp tc /\
    forall i j, (i < nx)%nat -> (j < ny)%nat -> exists cell, nth_error topo (i * ny + j) = Some cell /\
      box_placed 2 start coords cell (e_lcoords (element_of k))
        (fun d => nth d [sx + lX / INR nx * INR i; sy + lY / INR ny * INR j] 0) (fun d => nth d [lX / INR nx; lY / INR ny] 0).
Proof. exact @grid_name_2d. Qed.
Print Assumptions C157_name_2d.
(** The names H8 and H27. *)
Theorem C157_name_3d :
  forall k lX lY lZ sx sy sz nx ny nz start f newaxis, k = KH8 \/ k = KH27 -> (1 <= nx)%nat -> (1 <= ny)%nat -> (1 <= nz)%nat ->
  let a := uargs [lX; lY; lZ] [nx; ny; nz] [sx; sy; sz] start in
  exists name coords topo tp tc, grid_name k = Some name /\ grid a (EName name) = Ok (coords, topo) /\
    Grid_init a (EName name) None f newaxis None None None = Ok (Some tp, Some tc, k) /\ holds_mesh f newaxis coords topo tp tc /\
    forall i j l, (i < nx)%nat -> (j < ny)%nat -> (l < nz)%nat -> exists cell, nth_error topo ((i * ny + j) * nz + l) = Some cell /\
      box_placed 3 start coords cell (e_lcoords (element_of k))
        (fun d => nth d [sx + lX / INR nx * INR i; sy + lY / INR ny * INR j; sz + lZ / INR nz * INR l] 0)
        (fun d => nth d [lX / INR nx; lY / INR ny; lZ / INR nz] 0).
Proof. exact @grid_name_3d. Qed.
Print Assumptions C157_name_3d.
(** A shape of cells in the plane: the class is one of the plane only for 2 x 2 and 3 x 3 nodes; without a class of the number of nodes a TypeError. *)
Theorem C157_shape_2d_refuted :
  forall lX lY sx sy nx ny ex ey start f newaxis, (1 <= nx)%nat -> (1 <= ny)%nat -> (2 <= ex)%nat -> (2 <= ey)%nat -> (newaxis < 3)%nat ->
  let a := uargs [lX; lY] [nx; ny] [sx; sy] start in
  match cell_classes MPoly (ex * ey) with
  | Some k => exists coords topo tp tc, grid a (ETuple [ex; ey]) = Ok (coords, topo) /\
      Grid_init a (ETuple [ex; ey]) None f newaxis None None None = Ok (Some tp, Some tc, k) /\ holds_mesh f newaxis coords topo tp tc /\
      (dim_of k = 2%nat <-> (ex = 2%nat /\ ey = 2%nat) \/ (ex = 3%nat /\ ey = 3%nat))
  | None => Grid_init a (ETuple [ex; ey]) None f newaxis None None None = Err TypeError
  end.
Proof. exact @grid_shape_2d. Qed.
Print Assumptions C157_shape_2d_refuted.
(** In space: a hexahedron with 8 or 27 nodes, otherwise a wedge. *)
Theorem C157_shape_3d_refuted :
  forall lX lY lZ sx sy sz nx ny nz ex ey ez start f newaxis,
  (1 <= nx)%nat -> (1 <= ny)%nat -> (1 <= nz)%nat -> (2 <= ex)%nat -> (2 <= ey)%nat -> (2 <= ez)%nat ->
  let a := uargs [lX; lY; lZ] [nx; ny; nz] [sx; sy; sz] start in
  match cell_classes MPoly (ex * ey * ez) with
  | Some k => exists coords topo tp tc, grid a (ETuple [ex; ey; ez]) = Ok (coords, topo) /\
      Grid_init a (ETuple [ex; ey; ez]) None f newaxis None None None = Ok (Some tp, Some tc, k) /\ holds_mesh f newaxis coords topo tp tc /\
      k = (if (ex * ey * ez =? 8)%nat then KH8 else if (ex * ey * ez =? 27)%nat then KH27 else KW18)
  | None => Grid_init a (ETuple [ex; ey; ez]) None f newaxis None None None = Err TypeError
  end.
Proof. exact @grid_shape_3d. Qed.
Print Assumptions C157_shape_3d_refuted.
(** The shape 2 x 2 gives cells of the class Q4 with the nodes in another order than that of the class: the polygons of their nodes have area zero, those of the name Q4 the areas of the rectangles. *)
Theorem C157_order_refuted :
  forall lX lY sx sy nx ny f newaxis, (1 <= nx)%nat -> (1 <= ny)%nat -> (newaxis < 3)%nat ->
  let a := uargs [lX; lY] [nx; ny] [sx; sy] 0 in
  exists coords topo tp tc coords' topo' tp' tc',
    grid a (ETuple [2; 2]%nat) = Ok (coords, topo) /\ Grid_init a (ETuple [2; 2]%nat) None f newaxis None None None = Ok (Some tp, Some tc, KQ4) /\
    holds_mesh f newaxis coords topo tp tc /\ length topo = (nx * ny)%nat /\ Forall (fun cell => polygon_area coords cell = 0) topo /\
    grid a (EName "Q4") = Ok (coords', topo') /\ Grid_init a (EName "Q4") None f newaxis None None None = Ok (Some tp', Some tc', KQ4) /\
    holds_mesh f newaxis coords' topo' tp' tc' /\ length topo' = (nx * ny)%nat /\
    Forall (fun cell => polygon_area coords' cell = (lX / INR nx) * (lY / INR ny)) topo'.
Proof. exact @grid_order. Qed.
Print Assumptions C157_order_refuted.
(** Numbers that start at something other than zero: the mesh is made, with nodes that do not exist. *)
Theorem C157_start_refuted :
  forall lX lY sx sy nx ny start f newaxis, (1 <= nx)%nat -> (1 <= ny)%nat -> (newaxis < 3)%nat ->
  let a := uargs [lX; lY] [nx; ny] [sx; sy] start in
  exists coords topo tp tc, Grid_init a (EName "Q4") None f newaxis None None None = Ok (Some tp, Some tc, KQ4) /\ holds_mesh f newaxis coords topo tp tc /\
    (Forall (Forall (fun n => (n < length coords)%nat)) topo <-> start = 0%nat).
Proof. exact @grid_start. Qed.
Print Assumptions C157_start_refuted.
Example C157_ex : cell_classes MPoly (2 * 3) = Some KW6 /\ dim_of KW6 = 3%nat /\ cell_classes MPoly (2 * 6) = None /\ cell_classes MPoly (2 * 3 * 3) = Some KW18 /\
  grid_name KQ9 = Some "Q9" /\ (0 < 3)%nat.
Proof. repeat split; auto. Qed.

(** ** C158 Areas of line meshes *)

(** Line meshes with two or three nodes have the areas that are given, or ones, and otherwise the tables of C151.  Missing: a number for all lines, areas as a field (refuted below). *)
Theorem C158_partial :
  forall x topo w f newaxis frames pf cf areas,
  of_width w topo -> w = 2%nat \/ w = 3%nat -> of_length (length x) (given_columns pf) -> of_length (length topo) (given_columns cf) ->
  (forall l, frames = Some (AMatrices l) -> length l = length topo) -> (forall l, areas = Some l -> length l = length topo) ->
  exists tp tc tc', fst (PolyData_init (Space x) topo true f newaxis frames pf cf) = Ok (Some tp, Some tc) /\
    LineData_init (Space x) topo None f newaxis frames pf cf (match areas with Some l => Some (Areas1 l) | None => None end) =
      Ok (Some tp, Some tc', if Nat.eqb w 2 then KL2 else KL3) /\
    lookup tc' "_areas" = Some (Numbers (match areas with Some l => l | None => repeat 1%R (length topo) end)) /\
    forall k, k <> "_areas" -> lookup tc' k = lookup tc k.
Proof. exact @line_areas. Qed.
Print Assumptions C158_partial.
(** Other numbers of nodes are a TypeError. *)
Theorem C158_class :
  forall x topo f newaxis frames pf cf areas w, of_width w topo -> w <> 2%nat -> w <> 3%nat -> of_length (length x) (given_columns pf) ->
  LineData_init (Space x) topo None f newaxis frames pf cf areas = Err TypeError.
Proof. exact @line_class. Qed.
Print Assumptions C158_class.
(** Areas with more axes are an AssertionError, of another length a ValueError. *)
Theorem C158_invalid :
  forall x topo w f newaxis frames pf cf,
  of_width w topo -> w = 2%nat \/ w = 3%nat -> of_length (length x) (given_columns pf) -> of_length (length topo) (given_columns cf) ->
  (forall l, frames = Some (AMatrices l) -> length l = length topo) ->
  LineData_init (Space x) topo None f newaxis frames pf cf (Some AreasN) = Err AssertionError /\
  (forall l, length l <> length topo -> LineData_init (Space x) topo None f newaxis frames pf cf (Some (Areas1 l)) = Err ValueError).
Proof. exact @line_areas_invalid. Qed.
Print Assumptions C158_invalid.
(** One number for all lines is an AttributeError, although a database of cells takes it. *)
Theorem C158_number_refuted :
  forall x topo w f newaxis frames pf cf a,
  of_width w topo -> w = 2%nat \/ w = 3%nat -> of_length (length x) (given_columns pf) -> of_length (length topo) (given_columns cf) ->
  (forall l, frames = Some (AMatrices l) -> length l = length topo) ->
  LineData_init (Space x) topo None f newaxis frames pf cf (Some AreasOther) = Err AttributeError /\
  exists t, fst (CellData_init (Some topo) cf None None (Some (Each a)) None []) = Ok (Some t) /\ lookup t "_areas" = Some (Numbers (repeat a (length topo))).
Proof. exact @line_area_number. Qed.
Print Assumptions C158_number_refuted.
(** Areas given as a field of cells are replaced by ones. *)
Theorem C158_field_refuted :
  forall x topo w f newaxis key l,
  of_width w topo -> w = 2%nat \/ w = 3%nat -> key = "areas" \/ key = "_areas" -> length l = length topo ->
  exists tp tc tc' k, fst (PolyData_init (Space x) topo true f newaxis None None (Some [(key, Numbers l)])) = Ok (Some tp, Some tc) /\
    lookup tc "_areas" = Some (Numbers l) /\
    LineData_init (Space x) topo None f newaxis None None (Some [(key, Numbers l)]) None = Ok (Some tp, Some tc', k) /\
    lookup tc' "_areas" = Some (Numbers (repeat 1%R (length topo))).
Proof. exact @line_areas_lost. Qed.
Print Assumptions C158_field_refuted.
Example C158_ex : of_width 2 [[0; 1]; [1; 2]]%nat /\ length [2; 3]%R = length [[0; 1]; [1; 2]]%nat /\ [2; 3]%R <> repeat 1 2 /\ length [2]%R <> length [[0; 1]; [1; 2]]%nat.
Proof.
  split; [split; [discriminate|repeat constructor]|]. split; [reflexivity|]. split; [|cbn; lia]. cbn [repeat]. intros H. injection H as H _. lra.
Qed.
