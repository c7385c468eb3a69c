(** * Properties C54, C84 - C87: tables of the cells, triangulation objects, VTK, points of rectangles, reversed cells *)
From Coq Require Import Reals Lra Lia List.
From Verif Require Import Base BaseFacts TrModel TrSpec SplitSpec QuadModel TableModel TableSpec TableProofs TableProofs2 TableProofs3 TableProofs4.
Import ListNotations.
Local Open Scope R_scope.

(** ** C54 Tables *)

(** The edges of triangles: the sides of the reference triangle, counterclockwise. *)
Theorem C54_T3 :
  forall topo, rect 3 topo -> exists edges, table_of edges topo (edges_tri topo) /\ edgeIds_T3 = edges /\ boundary_2d (lcoords_T3 (K := R)) edges.
Proof. exact @tables_T3. Qed.
Print Assumptions C54_T3.
Theorem C54_Q4 :
  forall topo, rect 4 topo -> exists edges, table_of edges topo (edges_Q4 topo) /\ boundary_2d (lcoords_Q4 (K := R)) edges.
Proof. exact @tables_Q4. Qed.
Print Assumptions C54_Q4.
(** Tetrahedra: the faces are the closed boundary of the reference cell, ordered counterclockwise from outside; the edges are the sides of the faces, each once. *)
Theorem C54_TET4 :
  forall topo, rect 4 topo -> exists faces edges,
  table_of faces topo (faces_TET4 topo) /\ boundary (lcoords_TET4 (K := R)) faces /\
  table_of edges topo (edges_TET4 topo) /\ edgeIds_TET4 = edges /\ edges_of faces edges.
Proof. exact @tables_TET4. Qed.
Print Assumptions C54_TET4.
Theorem C54_H8 :
  forall topo, rect 8 topo -> exists faces edges,
  table_of faces topo (faces_H8 topo) /\ boundary (lcoords_H8 (K := R)) faces /\
  table_of edges topo (edges_H8 topo) /\ edgeIds_H8 = edges /\ edges_of faces edges.
Proof. exact @tables_H8. Qed.
Print Assumptions C54_H8.
(** Wedges: the quadrilaterals and the edges.  Missing: the triangles (refuted below). *)
Theorem C54_W6_partial :
  forall topo, rect 6 topo -> exists triangles quads edges,
  boundary (lcoords_W6 (K := R)) (triangles ++ quads) /\
  table_of quads topo (faces_W6_quad topo) /\ table_of edges topo (edges_W6 topo) /\ edges_of (triangles ++ quads) edges.
Proof. exact @tables_W6. Qed.
Print Assumptions C54_W6_partial.
Example C54_ex : rect 8 [[0;1;3;2;4;5;7;6]]%nat /\ faces_H8 [[0;1;3;2;4;5;7;6]]%nat =
  Ok [[[0;4;6;2];[1;3;7;5];[0;1;5;4];[3;2;6;7];[0;2;3;1];[4;5;7;6]]]%nat.
Proof. split; [repeat constructor|reflexivity]. Qed.

(** The triangles of wedges are written to a column that does not exist, for every mesh with a wedge. *)
Theorem C54_W6_refuted :
  forall topo, rect 6 topo -> topo <> [] -> faces_W6 topo = Err IndexError.
Proof. exact @faces_W6_fails. Qed.
Print Assumptions C54_W6_refuted.
Example C54_W6_ex : rect 6 [[0;1;2;3;4;5]]%nat /\ [[0;1;2;3;4;5]]%nat <> [].
Proof. split; [repeat constructor|discriminate]. Qed.

(** The triangles of a plane cell are those of the table of its class. *)
Theorem C54_triangles_T3 :
  forall topo, rect 3 topo -> to_triangles_T3 topo = Ok (pieces_along trimap_T3 topo).
Proof. exact @triangles_T3. Qed.
Print Assumptions C54_triangles_T3.
Theorem C54_triangles_T6 :
  forall topo, rect 6 topo -> to_triangles_T6 topo = Ok (pieces_along (trimap_T6 true) topo).
Proof. exact @triangles_T6. Qed.
Print Assumptions C54_triangles_T6.
Theorem C54_triangles_Q4 :
  forall topo, rect 4 topo -> to_triangles_Q4 topo = Ok (pieces_along trimap_Q4 topo).
Proof. exact @triangles_Q4. Qed.
Print Assumptions C54_triangles_Q4.
(** Into quadrilaterals, then into triangles. *)
Theorem C54_triangles_Q9 :
  forall topo, rect 9 topo -> to_triangles_Q9 topo = Ok (pieces_along trimap_Q9 topo).
Proof. exact @triangles_Q9. Qed.
Print Assumptions C54_triangles_Q9.
(** The tetrahedra of a cell are those of the function of tr.py. *)
Theorem C54_tetrahedra_TET4 :
  forall topo, rect 4 topo -> to_tetrahedra tetmap_TET4 topo = Ok topo.
Proof. exact @tetrahedra_TET4. Qed.
Print Assumptions C54_tetrahedra_TET4.
Theorem C54_tetrahedra_H8 :
  forall {C A} (z : A) (coords : C) topo, rect 8 topo ->
  to_tetrahedra tetmap_H8 topo = Ok (pieces_along path_H8_to_TET4 topo) /\
  H8_to_TET4 z coords topo DNone PNone = Ok (coords, (pieces_along path_H8_to_TET4 topo, DNone)).
Proof. exact @tetrahedra_H8. Qed.
Print Assumptions C54_tetrahedra_H8.
Theorem C54_tetrahedra_W6 :
  forall {C A} (z : A) (coords : C) topo, rect 6 topo ->
  to_tetrahedra tetmap_W6 topo = Ok (pieces_along path_W6_to_TET4 topo) /\
  W6_to_TET4 z coords topo DNone PNone = Ok (coords, (pieces_along path_W6_to_TET4 topo, DNone)).
Proof. exact @tetrahedra_W6. Qed.
Print Assumptions C54_tetrahedra_W6.
(** The table composed for wedges of order two: into eight wedges, then into tetrahedra. *)
Theorem C54_tetrahedra_W18 :
  forall topo, rect 18 topo -> exists tetmap, tetmap_W18 = Ok tetmap /\ length tetmap = 24%nat /\
  to_tetrahedra tetmap topo = Ok (pieces_along path_W6_to_TET4 (pieces_along path_W18_to_W6 topo)).
Proof. exact @tetrahedra_W18. Qed.
Print Assumptions C54_tetrahedra_W18.
Example C54_tetrahedra_ex : rect 6 [[0;1;2;3;4;5];[1;6;2;4;7;5]]%nat /\
  to_tetrahedra tetmap_W6 [[0;1;2;3;4;5];[1;6;2;4;7;5]]%nat =
  Ok [[0;1;2;4];[3;5;4;2];[2;5;0;4];[1;6;2;7];[4;5;7;2];[2;5;1;7]]%nat.
Proof. split; [repeat constructor|reflexivity]. Qed.

(** The quadrilaterals of H8_to_Q4 are the faces. *)
Theorem C54_faces_as_cells :
  forall {C A} (z : A) (coords : C) topo, rect 8 topo -> exists faces, faces_H8 topo = Ok faces /\
  H8_to_Q4 z coords topo DNone PNone = Ok (coords, (concat faces, DNone)).
Proof. exact @faces_H8_cells. Qed.
Print Assumptions C54_faces_as_cells.
(** Whatever the positions of the nodes, the cones over the faces add up to the volume. *)
Theorem C54_TET4_volume :
  forall coords topo faces i cell f, rect 4 topo -> faces_TET4 topo = Ok faces ->
  nth_error topo i = Some cell -> nth_error faces i = Some f ->
  rsum (map (fun t => match t with [a; b; c] => tri_cone coords a b c | _ => 0 end) f) = tet_nodes_volume coords cell.
Proof. exact @faces_TET4_volume. Qed.
Print Assumptions C54_TET4_volume.
(** The same for hexahedra with any positions of the nodes: the quadrature of volumes_H8 gives the volume behind the six bilinear faces. *)
Theorem C54_H8_volume :
  forall coords topo ecs, rect 3 coords -> rect 8 topo -> cells_coords coords topo = Ok ecs ->
  exists faces vs, faces_H8 topo = Ok faces /\ volumes_H8 ecs = Ok vs /\
    forall i f v, nth_error faces i = Some f -> nth_error vs i = Some v ->
      v = rsum (map (fun q => match q with [a; b; c; d] => quad_cone coords a b c d | _ => 0 end) f).
Proof. exact @faces_H8_volume. Qed.
Print Assumptions C54_H8_volume.
Definition bent : list (list R) := [[0;0;0];[1;0;0];[1;1;0];[0;1;0];[0;0;1];[1;0;1];[2;2;2];[0;1;1]].
Example C54_H8_volume_ex : rect 3 bent /\ cells_coords bent [[0;1;2;3;4;5;6;7]]%nat = Ok [bent].
Proof. split; [repeat constructor|reflexivity]. Qed.

(** ** C84 Triangulation objects *)

(** Triangles with three nodes are passed on.  Missing: triangles with six nodes (refuted below). *)
Theorem C84_partial :
  forall coords topo, ncols topo <> 6%nat -> to_triobj coords topo = Ok (coords, topo).
Proof. exact @triobj_T3. Qed.
Print Assumptions C84_partial.
Example C84_partial_ex : ncols [[0;1;2]]%nat <> 6%nat.
Proof. discriminate. Qed.

(** Triangles with six nodes: these pieces, of the same points. *)
Theorem C84_pieces :
  forall coords topo, rect 6 topo -> topo <> [] -> to_triobj coords topo = Ok (coords, pieces_along path_triobj topo).
Proof. exact @triobj_T6. Qed.
Print Assumptions C84_pieces.
(** Every straight triangle that is not degenerate: its pieces overlap, do not cover it, and three of them are oriented the other way round. *)
Theorem C84_refuted :
  forall points cell, straight points cell -> polygon_area points (firstn 3 cell) <> 0 ->
  exists ts, to_triobj points [cell] = Ok (points, ts) /\
    (* three of four pieces are oriented the other way round *)
    map (polygon_area points) ts = map (fun s => s * polygon_area points (firstn 3 cell) / 4) [-1; -1; -1; 1] /\
    (* a point of the triangle is in none of the pieces *)
    (exists q, in_triangle points (firstn 3 cell) q /\ forall t, In t ts -> ~ in_triangle points t q) /\
    (* a point in the interior of a piece is in another piece *)
    exists q s t, In s ts /\ In t ts /\ s <> t /\ in_triangle points s q /\ in_triangle points t q /\
      forall x y z, tri_weights points s q x y z -> 0 < x /\ 0 < y /\ 0 < z.
Proof. exact @triobj_straight. Qed.
Print Assumptions C84_refuted.
Definition six : list (list R) := [[0;0];[2;0];[0;2];[1;0];[1;1];[0;1]].
Example C84_ex : rect 6 [[0;1;2;3;4;5]]%nat /\ straight six [0;1;2;3;4;5]%nat /\ polygon_area six (firstn 3 [0;1;2;3;4;5]%nat) <> 0.
Proof.
  split; [repeat constructor|]. split.
  - exists 0%nat, 1%nat, 2%nat, 3%nat, 4%nat, 5%nat. split; [reflexivity|]. unfold coord. intros [|[|d]] Hd; cbn; [lra|lra|lia].
  - unfold polygon_area. cbn. unfold cross2, coord. cbn. intros E. lra.
Qed.

(** ** C85 Export to VTK *)

(** Read as VTK does, the array of cells gives the topology ... *)
Theorem C85_cells :
  forall w topo, rect w topo -> reads (topo_vtk topo) topo.
Proof. exact @vtk_read. Qed.
Print Assumptions C85_cells.
(** ... and nothing else. *)
Theorem C85_cells_only :
  forall w topo cells, rect w topo -> reads (topo_vtk topo) cells -> cells = topo.
Proof. exact @vtk_unique. Qed.
Print Assumptions C85_cells_only.
Example C85_ex : rect 3 [[0;1;2];[2;1;3]]%nat /\ topo_vtk [[0;1;2];[2;1;3]]%nat = [3;0;1;2;3;2;1;3]%nat.
Proof. split; [repeat constructor|reflexivity]. Qed.

(** The nodes of every class are numbered like those of the VTK type it names: the two lists of local coordinates differ by a translation and positive scalings. *)
Theorem C85_numbering :
  forall c, same_numbering (lcoords_of c) (vtk_points (vtkCellType c)).
Proof. exact @vtk_numbering. Qed.
Print Assumptions C85_numbering.
(** ** C86 Points of a rectangle *)

(** At least two points in both directions: the points of a regular grid over a rectangle with the given size and a corner at -origo, x running fastest.  Missing: one point in a direction, an int as shape, the number of subdivisions (refuted below). *)
Theorem C86_partial :
  forall lx ly nx ny ox oy rest, (2 <= nx)%nat -> (2 <= ny)%nat -> (length rest <= 1)%nat ->
  exists points, rectangle_points (Some (lx, ly)) (Shape2 nx ny) (Some (ox :: oy :: rest)) = Ok points /\
    length points = (nx * ny)%nat /\
    forall i j, (i < nx)%nat -> (j < ny)%nat ->
      nth_error points (j * nx + i) = Some [lx * INR i / INR (nx - 1) - ox; ly * INR j / INR (ny - 1) - oy; 0].
Proof. exact @rectangle_lattice. Qed.
Print Assumptions C86_partial.
Example C86_ex : (2 <= 3)%nat /\ (2 <= 2)%nat /\ (length [5] <= 1)%nat.
Proof. cbn. lia. Qed.
(** The number given as subdivisions is that of the points: one subdivision less. *)
Theorem C86_subdivisions_refuted :
  forall lx ly nx ny, 0 < lx -> (2 <= nx)%nat -> (2 <= ny)%nat -> forall points,
    rectangle_points (Some (lx, ly)) (Shape2 nx ny) None = Ok points ->
    length points <> ((nx + 1) * (ny + 1))%nat /\
    forall i P Q, (i + 1 < nx)%nat -> nth_error points i = Some P -> nth_error points (i + 1) = Some Q ->
      nth 0 Q 0 - nth 0 P 0 = lx / INR (nx - 1).
Proof. exact rectangle_subdivisions. Qed.
Print Assumptions C86_subdivisions_refuted.
Example C86_subdivisions_ex : 0 < 800 /\ (2 <= 10)%nat.
Proof. split; [lra|lia]. Qed.

(** Without shape there is a single point. *)
Theorem C86_default_refuted :
  forall lx ly, rectangle_points (Some (lx, ly)) NoShape None = Ok [[- 0; - 0; 0]].
Proof. exact @rectangle_default. Qed.
Print Assumptions C86_default_refuted.
(** The same with one point in each direction. *)
Theorem C86_single_refuted :
  forall lx ly ox oy rest, (length rest <= 1)%nat ->
  rectangle_points (Some (lx, ly)) (Shape2 1 1) (Some (ox :: oy :: rest)) = Ok [[- ox; - oy; 0]].
Proof. exact @rectangle_single. Qed.
Print Assumptions C86_single_refuted.
(** An int as shape, without random points, raises TypeError. *)
Theorem C86_int_refuted :
  forall size n origo, size <> None -> rectangle_points size (ShapeInt n) origo = Err TypeError.
Proof. exact @rectangle_int. Qed.
Print Assumptions C86_int_refuted.
Example C86_int_ex : Some (800, 600) <> None :> option (R * R).
Proof. discriminate. Qed.

(** ** C87 Reversed cells *)

(** Reversing twice gives the cells back. *)
Theorem C87_twice :
  forall topo, flip (flip topo) = topo.
Proof. exact @flip_twice. Qed.
Print Assumptions C87_twice.
(** Triangles and quadrilaterals change their orientation.  Missing: cells of order two and solids (refuted below). *)
Theorem C87_partial :
  forall coords topo i cell cell', nth_error topo i = Some cell -> nth_error (flip topo) i = Some cell' ->
  (length cell = 3 \/ length cell = 4)%nat -> polygon_area coords cell' = - polygon_area coords cell.
Proof. exact @flip_polygon. Qed.
Print Assumptions C87_partial.
Example C87_ex : nth_error [[0;1;2];[2;1;3]]%nat 1 = Some [2;1;3]%nat /\ nth_error (flip [[0;1;2];[2;1;3]]%nat) 1 = Some [3;1;2]%nat.
Proof. split; reflexivity. Qed.

(** Tetrahedra keep their orientation. *)
Theorem C87_tetrahedra_refuted :
  forall coords topo i cell cell', nth_error topo i = Some cell -> nth_error (flip topo) i = Some cell' ->
  length cell = 4%nat -> tet_nodes_volume coords cell' = tet_nodes_volume coords cell.
Proof. exact @flip_tet. Qed.
Print Assumptions C87_tetrahedra_refuted.
(** So do hexahedra and wedges. *)
Theorem C87_solids_refuted :
  forall coords topo i cell cell' hull w, (hull, w) = (hull_H8, 8%nat) \/ (hull, w) = (hull_W6, 6%nat) ->
  nth_error topo i = Some cell -> nth_error (flip topo) i = Some cell' ->
  length cell = w -> enclosed_volume hull coords cell' = enclosed_volume hull coords cell.
Proof. exact @flip_solid. Qed.
Print Assumptions C87_solids_refuted.
(** A straight triangle with six nodes becomes a smaller one, with midpoints as corners, that is not straight any more. *)
Theorem C87_T6_refuted :
  forall points topo i cell cell', nth_error topo i = Some cell -> nth_error (flip topo) i = Some cell' ->
  straight points cell -> polygon_area points (firstn 3 cell) <> 0 ->
  polygon_area points (firstn 3 cell') = - polygon_area points (firstn 3 cell) / 4 /\ ~ straight points cell'.
Proof. exact @flip_T6. Qed.
Print Assumptions C87_T6_refuted.
Example C87_T6_ex : nth_error [[0;1;2;3;4;5]]%nat 0 = Some [0;1;2;3;4;5]%nat /\ nth_error (flip [[0;1;2;3;4;5]]%nat) 0 = Some [5;4;3;2;1;0]%nat.
Proof. split; reflexivity. Qed.
