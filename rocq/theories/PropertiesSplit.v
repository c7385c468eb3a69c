(** * Properties C16-C18, C59, C60: splitting cells (tr.py) *)
From Coq Require Import Reals Lra.
From Verif Require Import SplitProofs7 ElevProofs3.
Local Open Scope R_scope.

(** ** C16 Splitting 2d cells conserves area *)

Theorem C16_Q4_to_T3 {A} (z : A) coords topo : rect 4 topo ->
  exists t, Q4_to_T3 z coords topo DNone PNone = Ok (coords, (t, DNone)) /\ length t = (length topo * 2)%nat /\
    forall i cell, nth_error topo i = Some cell ->
      pieces_add_up 2 (polygon_area coords) t i (polygon_area coords (reorder loop_Q4 cell)).
Proof. exact (Q4_to_T3_area coords topo z). Qed.
Print Assumptions C16_Q4_to_T3.
Theorem C16_Q4_to_T3_grid {A} (z : A) coords topo : rect 4 topo ->
  exists t, Q4_to_T3 z coords topo DNone PGrid = Ok (coords, (t, DNone)) /\ length t = (length topo * 2)%nat /\
    forall i cell, nth_error topo i = Some cell ->
      pieces_add_up 2 (polygon_area coords) t i (polygon_area coords (reorder loop_Q4_grid cell)).
Proof. exact (Q4_to_T3_grid_area coords topo z). Qed.
Print Assumptions C16_Q4_to_T3_grid.
Theorem C16_T6_to_T3 {A} (z : A) coords topo : rect 6 topo ->
  exists t, T6_to_T3 z true coords topo DNone PNone = Ok (coords, (t, DNone)) /\ length t = (length topo * 4)%nat /\
    forall i cell, nth_error topo i = Some cell ->
      pieces_add_up 4 (polygon_area coords) t i (polygon_area coords (reorder loop_T6 cell)).
Proof. exact (T6_to_T3_area coords topo z). Qed.
Print Assumptions C16_T6_to_T3.
(** without subdivision only the corner triangle is returned *)
Theorem C16_T6_to_T3_corners {A} (z : A) coords topo : rect 6 topo ->
  exists t, T6_to_T3 z false coords topo DNone PNone = Ok (coords, (t, DNone)) /\ length t = (length topo * 1)%nat /\
    forall i cell, nth_error topo i = Some cell ->
      pieces_add_up 1 (polygon_area coords) t i (polygon_area coords (reorder loop_T3 cell)).
Proof. exact (T6_to_T3_corner_area coords topo z). Qed.
Print Assumptions C16_T6_to_T3_corners.
Theorem C16_Q8_to_T3 {A} (z : A) coords topo : rect 8 topo ->
  exists t, Q8_to_T3 z coords topo DNone PNone = Ok (coords, (t, DNone)) /\ length t = (length topo * 6)%nat /\
    forall i cell, nth_error topo i = Some cell ->
      pieces_add_up 6 (polygon_area coords) t i (polygon_area coords (reorder loop_Q8 cell)).
Proof. exact (Q8_to_T3_area coords topo z). Qed.
Print Assumptions C16_Q8_to_T3.
Theorem C16_Q9_to_Q4 {A} (z : A) coords topo : rect 9 topo ->
  exists t, Q9_to_Q4 z coords topo DNone PNone = Ok (coords, (t, DNone)) /\ length t = (length topo * 4)%nat /\
    forall i cell, nth_error topo i = Some cell ->
      pieces_add_up 4 (polygon_area coords) t i (polygon_area coords (reorder loop_Q8 cell)).
Proof. exact (Q9_to_Q4_area coords topo z). Qed.
Print Assumptions C16_Q9_to_Q4.
Theorem C16_Q9_to_Q4_grid {A} (z : A) coords topo : rect 9 topo ->
  exists t, Q9_to_Q4 z coords topo DNone PGrid = Ok (coords, (t, DNone)) /\ length t = (length topo * 4)%nat /\
    forall i cell, nth_error topo i = Some cell ->
      pieces_add_up 4 (polygon_area coords) t i (polygon_area coords (reorder loop_Q9_grid cell)).
Proof. exact (Q9_to_Q4_grid_area coords topo z). Qed.
Print Assumptions C16_Q9_to_Q4_grid.

(** Q9_to_T6 is right for cells numbered row by row, ... *)
Theorem C16_Q9_to_T6_partial coords topo : rect 9 topo ->
  exists t, Q9_to_T6 coords topo None = Ok (coords, t) /\ length t = (length topo * 2)%nat /\
    forall i cell, nth_error topo i = Some cell ->
      pieces_add_up 2 (fun tri => polygon_area coords (reorder loop_T6 tri)) t i (polygon_area coords (reorder loop_Q9_grid cell)).
Proof. exact (Q9_to_T6_grid_area coords topo). Qed.
Print Assumptions C16_Q9_to_T6_partial.
(** ... and wrong for the numbering of the element (the one [Q4_to_Q9] produces): a unit
    square is not turned into triangles of total area 1 *)
Theorem C16_Q9_to_T6_refuted :
  exists coords' topo' t, Q4_to_Q9 [[0;0];[1;0];[1;1];[0;1]] [[0;1;2;3]%nat] = Ok (coords', topo') /\
    Q9_to_T6 coords' topo' None = Ok (coords', t) /\
    rsum (map (fun tri => polygon_area coords' (reorder loop_T6 tri)) t) <> 1 /\
    polygon_area [[0;0];[1;0];[1;1];[0;1]] [0;1;2;3]%nat = 1.
Proof. exact Q9_to_T6_standard_area. Qed.
Print Assumptions C16_Q9_to_T6_refuted.

Example C16_ex_area : polygon_area [[0;0];[2;0];[2;3];[0;3]] [0;1;2;3]%nat = 6.
Proof. unfold polygon_area, shoelace, cross2, coord. simpl. lra. Qed.
Example C16_ex : exists t, Q4_to_T3 0 [[0;0];[2;0];[2;3];[0;3]] [[0;1;2;3]%nat] DNone PNone
  = Ok ([[0;0];[2;0];[2;3];[0;3]], (t, DNone)) /\ t = [[0;1;2];[0;2;3]]%nat /\ rect 4 [[0;1;2;3]%nat].
Proof. eexists. split; [reflexivity|]. split; [reflexivity|repeat constructor]. Qed.

(** ** C17 Splitting 3d cells conserves volume and orientation *)

(** [det_uvw] is positive for a cell of positive orientation; all pieces are positive
    multiples of it and add up to the volume of the cell *)
Theorem C17_H8_to_TET4 {A} (z : A) coords topo : rect 8 topo ->
  exists t, H8_to_TET4 z coords topo DNone PNone = Ok (coords, (t, DNone)) /\ length t = (length topo * 5)%nat /\
  forall i cell o u v w, nth_error topo i = Some cell -> affine_at lcoords_H8 coords cell o u v w ->
    enclosed_volume hull_H8 coords cell = 8 * det_uvw u v w /\
    forall k, (k < 5)%nat -> exists tet, nth_error t (i * 5 + k) = Some tet /\
      tet_nodes_volume coords tet = nth k [4/3; 4/3; 4/3; 4/3; 8/3] 0 * det_uvw u v w.
Proof. exact (H8_volumes z coords topo). Qed.
Print Assumptions C17_H8_to_TET4.
Theorem C17_W6_to_TET4 {A} (z : A) coords topo : rect 6 topo ->
  exists t, W6_to_TET4 z coords topo DNone PNone = Ok (coords, (t, DNone)) /\ length t = (length topo * 3)%nat /\
  forall i cell o u v w, nth_error topo i = Some cell -> affine_at lcoords_W6 coords cell o u v w ->
    enclosed_volume hull_W6 coords cell = det_uvw u v w /\
    forall k, (k < 3)%nat -> exists tet, nth_error t (i * 3 + k) = Some tet /\
      tet_nodes_volume coords tet = 1/3 * det_uvw u v w.
Proof. exact (W6_volumes z coords topo). Qed.
Print Assumptions C17_W6_to_TET4.
(** eight hexahedra, each an octant of the cell *)
Theorem C17_H27_to_H8 {A} (z : A) coords topo : rect 27 topo ->
  exists t, H27_to_H8 z true coords topo DNone PNone = Ok (coords, (t, DNone)) /\ length t = (length topo * 8)%nat /\
  forall i cell o u v w, nth_error topo i = Some cell -> affine_at lcoords_H27 coords cell o u v w ->
    enclosed_volume hull_H27 coords cell = 8 * det_uvw u v w /\
    forall k, (k < 8)%nat -> exists hex m, nth_error t (i * 8 + k) = Some hex /\ nth_error octants k = Some m /\
      mapped_at lcoords_H8 coords hex o u v w m /\ enclosed_volume hull_H8 coords hex = det_uvw u v w.
Proof. exact (H27_volumes z coords topo). Qed.
Print Assumptions C17_H27_to_H8.
(** eight wedges, each one of the small prisms of the cell *)
Theorem C17_W18_to_W6 {A} (z : A) coords topo : rect 18 topo ->
  exists t, W18_to_W6 z true coords topo DNone PNone = Ok (coords, (t, DNone)) /\ length t = (length topo * 8)%nat /\
  forall i cell o u v w, nth_error topo i = Some cell -> affine_at lcoords_W18 coords cell o u v w ->
    enclosed_volume hull_W18 coords cell = det_uvw u v w /\
    forall k, (k < 8)%nat -> exists wedge m, nth_error t (i * 8 + k) = Some wedge /\ nth_error subprisms k = Some m /\
      mapped_at lcoords_W6 coords wedge o u v w m /\ enclosed_volume hull_W6 coords wedge = det_uvw u v w / 8.
Proof. exact (W18_volumes z coords topo). Qed.
Print Assumptions C17_W18_to_W6.
(** five quadratic tetrahedra whose edge nodes are the midpoints of the edges *)
Theorem C17_H27_to_TET10 {A} (z : A) coords topo : rect 27 topo ->
  exists t, H27_to_TET10 z coords topo DNone PNone = Ok (coords, (t, DNone)) /\ length t = (length topo * 5)%nat /\
  forall i cell o u v w, nth_error topo i = Some cell -> affine_at lcoords_H27 coords cell o u v w ->
    forall k, (k < 5)%nat -> exists tet, nth_error t (i * 5 + k) = Some tet /\ length tet = 10%nat /\
      tet_nodes_volume coords tet = nth k [4/3; 4/3; 4/3; 4/3; 8/3] 0 * det_uvw u v w /\
      forall e a b, nth_error tetrahedron_edges e = Some [a; b] ->
        exists na nb nm, nth_error tet a = Some na /\ nth_error tet b = Some nb /\ nth_error tet (4 + e) = Some nm /\
          forall d, (d < 3)%nat -> coord coords nm d = (coord coords na d + coord coords nb d) / 2.
Proof. exact (TET10_volumes z coords topo). Qed.
Print Assumptions C17_H27_to_TET10.

(** cells of any shape: the pieces fill the space enclosed by the surface *)
Theorem C17_H27_to_H8_any {A} (z : A) coords topo : rect 27 topo ->
  exists t, H27_to_H8 z true coords topo DNone PNone = Ok (coords, (t, DNone)) /\ length t = (length topo * 8)%nat /\
    forall i cell, nth_error topo i = Some cell ->
      pieces_add_up 8 (enclosed_volume hull_H8 coords) t i (enclosed_volume hull_H27 coords cell).
Proof. exact (H27_to_H8_volume coords topo z). Qed.
Print Assumptions C17_H27_to_H8_any.
Theorem C17_W18_to_W6_any {A} (z : A) coords topo : rect 18 topo ->
  exists t, W18_to_W6 z true coords topo DNone PNone = Ok (coords, (t, DNone)) /\ length t = (length topo * 8)%nat /\
    forall i cell, nth_error topo i = Some cell ->
      pieces_add_up 8 (enclosed_volume hull_W6 coords) t i (enclosed_volume hull_W18 coords cell).
Proof. exact (W18_to_W6_volume coords topo z). Qed.
Print Assumptions C17_W18_to_W6_any.
Theorem C17_H8_to_TET4_any {A} (z : A) coords topo : rect 8 topo ->
  exists t, H8_to_TET4 z coords topo DNone PNone = Ok (coords, (t, DNone)) /\ length t = (length topo * 5)%nat /\
    forall i cell, nth_error topo i = Some cell ->
      pieces_add_up 5 (tet_nodes_volume coords) t i (enclosed_volume hull_H8_tri coords cell).
Proof. exact (H8_to_TET4_volume coords topo z). Qed.
Print Assumptions C17_H8_to_TET4_any.

(** an affine cell: the box [0,2] x [0,4] x [0,6] sheared *)
Definition ex_place (xi : list R) : list R :=
  match xi with [r; s; t] => [1 + r + s; 2 + 2 * s; 3 + 3 * t] | _ => [] end.
Definition ex_o (d : nat) := nth d [1; 2; 3] 0.
Definition ex_u (d : nat) := nth d [1; 0; 0] 0.
Definition ex_v (d : nat) := nth d [1; 2; 0] 0.
Definition ex_w (d : nat) := nth d [0; 0; 3] 0.
Ltac concrete_affine :=
  let c := fresh in let r := fresh in let s := fresh in let t := fresh in let H := fresh in
  intros c r s t H; assert (c < 27)%nat by (apply nth_error_Some_lt in H; simpl in H; lia);
  exists c; split;
  [apply nth_error_Some_lt in H; simpl in H; rewrite nth_error_seq by lia; reflexivity|];
  intros d Hd; unfold coord;
  rewrite (nth_error_nth (map ex_place _) c _ (x := ex_place [r; s; t])) by (rewrite nth_error_map, H; reflexivity);
  unfold image, ex_place, ex_o, ex_u, ex_v, ex_w;
  destruct d as [|[|[|d]]]; [..|lia]; simpl; ring.
Example C17_ex_H8 : rect 8 [seq 0 8] /\ affine_at lcoords_H8 (map ex_place lcoords_H8) (seq 0 8) ex_o ex_u ex_v ex_w /\
  det_uvw ex_u ex_v ex_w = 6.
Proof. split; [repeat constructor|]. split; [concrete_affine|unfold det_uvw, ex_u, ex_v, ex_w; simpl; lra]. Qed.
Example C17_ex_W6 : affine_at lcoords_W6 (map ex_place lcoords_W6) (seq 0 6) ex_o ex_u ex_v ex_w.
Proof. concrete_affine. Qed.
Example C17_ex_H27 : affine_at lcoords_H27 (map ex_place lcoords_H27) (seq 0 27) ex_o ex_u ex_v ex_w.
Proof. concrete_affine. Qed.
Example C17_ex_W18 : affine_at lcoords_W18 (map ex_place lcoords_W18) (seq 0 18) ex_o ex_u ex_v ex_w.
Proof. concrete_affine. Qed.

(** ** C18 Conformity of H8_to_TET4 *)

(** the five tetrahedra of one cell fit together, ... *)
Theorem C18_one_cell_partial {A} (z : A) coords topo : rect 8 topo ->
  exists t, H8_to_TET4 z coords topo DNone PNone = Ok (coords, (t, DNone)) /\
  forall i cell o u v w, nth_error topo i = Some cell -> affine_at lcoords_H8 coords cell o u v w -> det_uvw u v w <> 0 ->
    conforming coords (firstn 5 (skipn (i * 5) t)).
Proof. exact (H8_cell_conforming z coords topo). Qed.
Print Assumptions C18_one_cell_partial.

(** ... but never those of two cells stacked in the first direction, as in every grid *)
Theorem C18_neighbours_refuted {A} (z : A) coords topo t i i' c c' :
  rect 8 topo -> H8_to_TET4 z coords topo DNone PNone = Ok (coords, (t, DNone)) ->
  nth_error topo i = Some c -> nth_error topo i' = Some c' -> NoDup c ->
  (* the face r = 1 of cell i is the face r = -1 of cell i' *)
  nth 1 c O = nth 0 c' O -> nth 2 c O = nth 3 c' O -> nth 6 c O = nth 7 c' O -> nth 5 c O = nth 4 c' O ->
  (* the other nodes of cell i' are different from those of cell i *)
  (forall k, In k [1;2;5;6]%nat -> ~ In (nth k c' O) c) ->
  (* the face is a parallelogram *)
  (forall d, (d < 3)%nat -> coord coords (nth 1 c O) d + coord coords (nth 6 c O) d
                            = coord coords (nth 2 c O) d + coord coords (nth 5 c O) d) ->
  ~ conforming coords t.
Proof. exact (H8_neighbours_clash z coords topo t i i' c c'). Qed.
Print Assumptions C18_neighbours_refuted.

(** two unit cubes side by side *)
Definition ex_cubes : list (list R) :=
  [[0;0;0];[1;0;0];[1;1;0];[0;1;0];[0;0;1];[1;0;1];[1;1;1];[0;1;1];[2;0;0];[2;1;0];[2;0;1];[2;1;1]].
Definition ex_hexes := [[0;1;2;3;4;5;6;7];[1;8;9;2;5;10;11;6]]%nat.
Example C18_ex : exists t, H8_to_TET4 0 ex_cubes ex_hexes DNone PNone = Ok (ex_cubes, (t, DNone)) /\ ~ conforming ex_cubes t.
Proof.
  eexists. split; [reflexivity|].
  apply (C18_neighbours_refuted 0 ex_cubes ex_hexes _ 0 1 [0;1;2;3;4;5;6;7]%nat [1;8;9;2;5;10;11;6]%nat);
    try reflexivity; try (repeat constructor; simpl; intuition lia).
  - intros k Hk. simpl in Hk. repeat (destruct Hk as [<-|Hk]; [simpl; intuition lia|]). contradiction.
  - intros d Hd. destruct d as [|[|[|d]]]; [..|lia]; unfold coord; simpl; lra.
Qed.

(** ** C59 Tetrahedra and sub-cells of a hexahedron fill it without overlapping *)

Theorem C59_H8_to_TET4 {A} (z : A) coords topo : rect 8 topo ->
  exists t, H8_to_TET4 z coords topo DNone PNone = Ok (coords, (t, DNone)) /\
  forall i cell o u v w, nth_error topo i = Some cell -> affine_at lcoords_H8 coords cell o u v w ->
    (forall q, in_cell cube o u v w q -> exists k tet, (k < 5)%nat /\ nth_error t (i * 5 + k) = Some tet /\ in_tet coords tet q) /\
    (forall k tet q, (k < 5)%nat -> nth_error t (i * 5 + k) = Some tet -> in_tet coords tet q -> in_cell cube o u v w q) /\
    (det_uvw u v w <> 0 -> forall k k' tet tet' q, (k < 5)%nat -> (k' < 5)%nat ->
       nth_error t (i * 5 + k) = Some tet -> nth_error t (i * 5 + k') = Some tet' ->
       inside_tet coords tet q -> inside_tet coords tet' q -> k = k').
Proof. exact (H8_tiling z coords topo). Qed.
Print Assumptions C59_H8_to_TET4.
Theorem C59_H27_to_TET10 {A} (z : A) coords topo : rect 27 topo ->
  exists t, H27_to_TET10 z coords topo DNone PNone = Ok (coords, (t, DNone)) /\
  forall i cell o u v w, nth_error topo i = Some cell -> affine_at lcoords_H27 coords cell o u v w ->
    (forall q, in_cell cube o u v w q -> exists k tet, (k < 5)%nat /\ nth_error t (i * 5 + k) = Some tet /\ in_tet coords tet q) /\
    (forall k tet q, (k < 5)%nat -> nth_error t (i * 5 + k) = Some tet -> in_tet coords tet q -> in_cell cube o u v w q) /\
    (det_uvw u v w <> 0 -> forall k k' tet tet' q, (k < 5)%nat -> (k' < 5)%nat ->
       nth_error t (i * 5 + k) = Some tet -> nth_error t (i * 5 + k') = Some tet' ->
       inside_tet coords tet q -> inside_tet coords tet' q -> k = k').
Proof. exact (TET10_tiling z coords topo). Qed.
Print Assumptions C59_H27_to_TET10.
(** the octants of C17_H27_to_H8 and the small prisms of C17_W18_to_W6 *)
Theorem C59_octants_cover o u v w r s t : cube r s t ->
  exists k m, nth_error octants k = Some m /\ in_mapped cube o u v w m (image o u v w r s t).
Proof. exact (octants_cover o u v w r s t). Qed.
Print Assumptions C59_octants_cover.
Theorem C59_octants_within o u v w k m q :
  nth_error octants k = Some m -> in_mapped cube o u v w m q -> in_cell cube o u v w q.
Proof. exact (octants_within o u v w k m q). Qed.
Print Assumptions C59_octants_within.
Theorem C59_octants_disjoint o u v w k k' m m' q : det_uvw u v w <> 0 ->
  nth_error octants k = Some m -> nth_error octants k' = Some m' ->
  in_mapped open_cube o u v w m q -> in_mapped open_cube o u v w m' q -> k = k'.
Proof. exact (octants_disjoint o u v w k k' m m' q). Qed.
Print Assumptions C59_octants_disjoint.
Theorem C59_prisms_cover o u v w r s t : prism r s t ->
  exists k m, nth_error subprisms k = Some m /\ in_mapped prism o u v w m (image o u v w r s t).
Proof. exact (subprisms_cover o u v w r s t). Qed.
Print Assumptions C59_prisms_cover.
Theorem C59_prisms_within o u v w k m q :
  nth_error subprisms k = Some m -> in_mapped prism o u v w m q -> in_cell prism o u v w q.
Proof. exact (subprisms_within o u v w k m q). Qed.
Print Assumptions C59_prisms_within.
Theorem C59_prisms_disjoint o u v w k k' m m' q : det_uvw u v w <> 0 ->
  nth_error subprisms k = Some m -> nth_error subprisms k' = Some m' ->
  in_mapped open_prism o u v w m q -> in_mapped open_prism o u v w m' q -> k = k'.
Proof. exact (subprisms_disjoint o u v w k k' m m' q). Qed.
Print Assumptions C59_prisms_disjoint.
(** [C17_ex_H8], [C17_ex_H27] and [C17_ex_W18] show cells as required. *)
Example C59_ex : cube (1/2) 0 (-1) /\ prism (1/4) (1/4) 0 /\ det_uvw ex_u ex_v ex_w <> 0.
Proof. split; [unfold cube; lra|]. split; [unfold prism; lra|]. unfold det_uvw, ex_u, ex_v, ex_w; simpl; lra. Qed.

(** ** C60 Tetrahedra of a wedge *)

(** Although their volumes add up to that of the wedge (C17_W6_to_TET4), the three tetrahedra of
    every wedge overlap and leave a part of it uncovered. *)
Theorem C60_W6_to_TET4_refuted {A} (z : A) coords topo : rect 6 topo ->
  exists t, W6_to_TET4 z coords topo DNone PNone = Ok (coords, (t, DNone)) /\
  forall i cell o u v w, nth_error topo i = Some cell -> affine_at lcoords_W6 coords cell o u v w -> det_uvw u v w <> 0 ->
    (exists q, in_cell open_prism o u v w q /\
       forall k tet, (k < 3)%nat -> nth_error t (i * 3 + k) = Some tet -> ~ in_tet coords tet q) /\
    (exists q k k' tet tet', (k < 3)%nat /\ (k' < 3)%nat /\ k <> k' /\
       nth_error t (i * 3 + k) = Some tet /\ nth_error t (i * 3 + k') = Some tet' /\
       inside_tet coords tet q /\ inside_tet coords tet' q).
Proof. exact (W6_no_tiling z coords topo). Qed.
Print Assumptions C60_W6_to_TET4_refuted.
Example C60_ex : rect 6 [seq 0 6] /\ affine_at lcoords_W6 (map ex_place lcoords_W6) (seq 0 6) ex_o ex_u ex_v ex_w /\
  det_uvw ex_u ex_v ex_w <> 0.
Proof. split; [repeat constructor|]. split; [exact C17_ex_W6|]. unfold det_uvw, ex_u, ex_v, ex_w; simpl; lra. Qed.
