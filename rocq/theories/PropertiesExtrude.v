(** * Properties C47, C48, C78: extrusion of triangulations *)
From Coq Require Import Reals Lra Lia List Permutation.
From Verif Require Import BaseFacts TrModel TriProofs SpaceModel SpaceSpec NodalProofs4 SpaceProofs SpaceProofs5 ExtrudeModel ExtrudeSpec ExtrudeProofs ExtrudeProofs2 ExtrudeProofs3 ExtrudeProofs4 ExtrudeProofs5 ExtrudeProofs6.
Import ListNotations.
Local Open Scope R_scope.

(** ** C47 Extruded meshes *)

(** Tetrahedra: layers of points, positions and numbers of cells; the tetrahedra of a layer above a triangle have the same volume, fill the prism and do not overlap. *)
Theorem C47_TET4 :
  forall points triangles h m, plane_points points -> triangles_of (length points) triangles -> (0 < m)%nat ->
  exists coords topo, extrude_T3_TET4 Floating points triangles h m = Ok (coords, topo) /\ layered points h m coords /\
    length topo = (3 * (length triangles * m))%nat /\ rect 4 topo /\ in_range (length coords) topo /\
    rsum (map (tet_nodes_volume coords) topo) = rsum (map (tri_area points) triangles) * h /\
    forall i j t, (i < m)%nat -> nth_error triangles j = Some t -> exists T : nat -> list nat,
      (forall k, (k < 3)%nat -> nth_error topo (3 * (length triangles * i + j) + k) = Some (T k) /\ tet_nodes_volume coords (T k) = tri_area points t * h / (3 * INR m)) /\
      (forall p, in_prism points t (h * INR i / INR m) (h * INR (i + 1) / INR m) p <-> exists k, (k < 3)%nat /\ in_tet coords (T k) p) /\
      (tri_area points t <> 0 -> h <> 0 -> forall k k' p, (k < 3)%nat -> (k' < 3)%nat -> inside_tet coords (T k) p -> inside_tet coords (T k') p -> k = k').
Proof. exact tet4_mesh. Qed.
Print Assumptions C47_TET4.
(** The threads may do the writes in any order. *)
Theorem C47_TET4_schedule :
  forall dt points triangles h m, plane_points points -> triangles_of (length points) triangles ->
  exists coords topo cw tw, extrude_T3_TET4 dt points triangles h m = Ok (coords, topo) /\
    extrude_coord_writes dt points h m = Ok cw /\ extrude_tet_writes (length points) triangles m = Ok tw /\
    forall cw' tw', Permutation cw cw' -> Permutation tw tw' ->
      run_writes2 cw' (zeros2 0 (length points * (m + 1)) 3) = Ok coords /\ run_writes2 tw' (zeros2 0%nat (length triangles * m * 3) 4) = Ok topo.
Proof. exact tet4_order. Qed.
Print Assumptions C47_TET4_schedule.
(** Wedges. *)
Theorem C47_W6 :
  forall points triangles h m, plane_points points -> triangles_of (length points) triangles -> (0 < m)%nat ->
  exists coords topo, extrude_T3_W6 Floating points triangles h m = Ok (coords, topo) /\ layered points h m coords /\
    length topo = (length triangles * m)%nat /\ rect 6 topo /\ in_range (length coords) topo /\
    rsum (map (enclosed_volume hull_W6 coords) topo) = rsum (map (tri_area points) triangles) * h /\
    forall i j t, (i < m)%nat -> nth_error triangles j = Some t ->
      nth_error topo (length triangles * i + j) = Some (map (fun n => length points * i + n)%nat t ++ map (fun n => length points * (i + 1) + n)%nat t).
Proof. exact w6_mesh. Qed.
Print Assumptions C47_W6.
Theorem C47_W6_schedule :
  forall dt points triangles h m, plane_points points -> triangles_of (length points) triangles ->
  exists coords topo cw tw, extrude_T3_W6 dt points triangles h m = Ok (coords, topo) /\
    extrude_coord_writes dt points h m = Ok cw /\ extrude_wedge_writes (length points) triangles m = Ok tw /\
    forall cw' tw', Permutation cw cw' -> Permutation tw tw' ->
      run_writes2 cw' (zeros2 0 (length points * (m + 1)) 3) = Ok coords /\ run_writes2 tw' (zeros2 0%nat (length triangles * m) 6) = Ok topo.
Proof. exact w6_order. Qed.
Print Assumptions C47_W6_schedule.
(** No layers, no cells. *)
Theorem C47_no_layers :
  forall dt points triangles h, plane_points points -> triangles_of (length points) triangles -> exists coords, extrude_T3_TET4 dt points triangles h 0 = Ok (coords, []) /\ extrude_T3_W6 dt points triangles h 0 = Ok (coords, []).
Proof. exact tet4_no_layers. Qed.
Print Assumptions C47_no_layers.
(** Integer points: an extrusion by less than 1 is flat. *)
Theorem C47_integral_refuted :
  forall points triangles h m, plane_points points -> triangles_of (length points) triangles -> (0 < m)%nat -> 0 <= h < 1 ->
  exists coords topo, extrude_T3_TET4 Integral points triangles h m = Ok (coords, topo) /\ length topo = (3 * (length triangles * m))%nat /\ Forall (fun T => tet_nodes_volume coords T = 0) topo.
Proof. exact tet4_integral. Qed.
Print Assumptions C47_integral_refuted.
Definition square : list (list R) := [[0; 0]; [1; 0]; [0; 1]; [1; 1]].
Example C47_ex : plane_points square /\ triangles_of (length square) [[0; 1; 2]; [2; 1; 3]]%nat /\ rsum (map (tri_area square) [[0; 1; 2]; [2; 1; 3]]%nat) = 1.
Proof. split; [repeat constructor|]. split; [repeat constructor|]. unfold rsum, tri_area, polygon_area. cbn. unfold cross2, coord, square. cbn. lra. Qed.

(** ** C48 Conforming tetrahedra *)

(** The tetrahedra above a conforming triangulation are conforming if and only if any two nodes are listed in the same order by all triangles. *)
Theorem C48_exact_partial :
  forall points triangles h m, plane_points points -> triangles_of (length points) triangles -> (0 < m)%nat -> h <> 0 -> solid_triangles points triangles -> conforming_plane points triangles ->
  exists coords topo, extrude_T3_TET4 Floating points triangles h m = Ok (coords, topo) /\ (conforming coords topo <-> same_order triangles).
Proof. exact tet4_conforming_iff. Qed.
Print Assumptions C48_exact_partial.
Theorem C48_ordered_partial :
  forall points triangles h m, plane_points points -> triangles_of (length points) triangles -> (0 < m)%nat -> h <> 0 ->
  solid_triangles points triangles -> conforming_plane points triangles -> same_order triangles ->
  exists coords topo, extrude_T3_TET4 Floating points triangles h m = Ok (coords, topo) /\ conforming coords topo.
Proof. exact tet4_conforming. Qed.
Print Assumptions C48_ordered_partial.
(** which is so if the nodes of all triangles are listed in the order of some numbering. *)
Theorem C48_order :
  forall n triangles, triangles_of n triangles -> ordered_triangles triangles -> same_order triangles.
Proof. exact ordered_same. Qed.
Print Assumptions C48_order.
(** Two triangles that list the nodes of an edge in opposite orders, as any two triangles with the same orientation may: not conforming. *)
Theorem C48_refuted :
  forall points triangles h m s t u v, plane_points points -> triangles_of (length points) triangles -> (0 < m)%nat -> h <> 0 -> solid_triangles points triangles ->
  In s triangles -> In t triangles -> before u v s -> before v u t ->
  exists coords topo, extrude_T3_TET4 Floating points triangles h m = Ok (coords, topo) /\ ~ conforming coords topo.
Proof. exact tet4_not_conforming. Qed.
Print Assumptions C48_refuted.
Example C48_ex : plane_points square /\ triangles_of (length square) [[0; 1; 2]; [1; 2; 3]]%nat /\ solid_triangles square [[0; 1; 2]; [1; 2; 3]]%nat /\
  conforming_plane square [[0; 1; 2]; [1; 2; 3]]%nat /\ ordered_triangles [[0; 1; 2]; [1; 2; 3]]%nat.
Proof.
  split; [repeat constructor|]. split; [repeat constructor|]. split; [repeat constructor; unfold tri_area, polygon_area; cbn; unfold cross2, coord, square; cbn; intros E0; lra|]. split.
  - intros s t q Hs Ht (a & b & c & (S & i & j & k & E & W) & P0 & P1 & P2) (a' & b' & c' & (S' & i' & j' & k' & E' & W') & P0' & P1' & P2'). exists a, b, c. split; [split; [exact S|exists i, j, k; auto]|].
    pose proof (W 0%nat ltac:(lia)) as W0. pose proof (W 1%nat ltac:(lia)) as W1. pose proof (W' 0%nat ltac:(lia)) as V0. pose proof (W' 1%nat ltac:(lia)) as V1. rewrite W0 in V0. rewrite W1 in V1.
    assert (Q : forall x y z (n : nat), nth_error [x; y; z] n = Some (nth n [x; y; z] 0) -> (n < 3)%nat) by (intros x y z n Hn; apply nth_error_Some_lt in Hn; exact Hn).
    destruct Hs as [<-|[<-|[]]]; destruct Ht as [<-|[<-|[]]]; injection E as <- <- <-; injection E' as <- <- <-; intros n l m Hn Hm Hl; destruct n as [|[|[|n]]]; cbn in Hn, Hm; try (destruct n; discriminate Hn); injection Hn as <-; injection Hm as <-; cbn [In]; auto 6; exfalso; apply Hl; unfold coord, square in V0, V1; cbn [nth] in V0, V1; lra.
  - exists (fun n => n). intros t i j k [<-|[<-|[]]] E; injection E as <- <- <-; lia.
Qed.
Example C48_refuted_ex : triangles_of (length square) [[0; 1; 2]; [2; 1; 3]]%nat /\ solid_triangles square [[0; 1; 2]; [2; 1; 3]]%nat /\ before 1 2 [0; 1; 2]%nat /\ before 2 1 [2; 1; 3]%nat.
Proof.
  split; [repeat constructor|]. split; [repeat constructor; unfold tri_area, polygon_area; cbn; unfold cross2, coord, square; cbn; intros E0; lra|]. split; [exists 1%nat, 2%nat|exists 0%nat, 1%nat]; repeat split; lia.
Qed.

(** ** C78 Extruding triangle meshes in space *)

(** Whatever is accepted as planar: copies of the mesh with the coordinate along the new axis replaced by the heights; the volume is the area of the projection times the height. *)
Theorem C78_partial :
  forall coords topo tol d h N, (d < 3)%nat -> (0 < N)%nat -> rect 3 coords -> triangles_of (length coords) topo -> trimesh_is_planar coords topo tol = Ok true ->
  exists c t, trimesh_extrude coords topo tol d h N = Ok (c, t) /\ stacked coords d h N c /\ rect 4 t /\ in_range (length c) t /\ length t = (3 * (length topo * N))%nat /\
    rsum (map (tet_nodes_volume c) t) = rsum (map (area_along coords d) topo) * h.
Proof. exact trimesh_extruded. Qed.
Print Assumptions C78_partial.
(** Meshes in a coordinate plane through the origin: the first layer is the mesh and the volume is its area times the height. *)
Theorem C78_level_partial :
  forall coords topo tol d h N, (d < 3)%nat -> (0 < N)%nat -> rect 3 coords -> triangles_of (length coords) topo -> trimesh_is_planar coords topo tol = Ok true ->
  (forall r, (r < length coords)%nat -> coord coords r d = 0) -> Forall (fun t => 0 < area_along coords d t) topo ->
  exists c t, trimesh_extrude coords topo tol d h N = Ok (c, t) /\ firstn (length coords) c = coords /\ rsum (map (tet_nodes_volume c) t) = rsum (map (area_in_space coords) topo) * h.
Proof. exact trimesh_level. Qed.
Print Assumptions C78_level_partial.
(** Other meshes are rejected. *)
Theorem C78_not_planar :
  forall coords topo tol d h N, trimesh_is_planar coords topo tol = Ok false -> trimesh_extrude coords topo tol d h N = Err RuntimeError.
Proof. exact trimesh_not_planar. Qed.
Print Assumptions C78_not_planar.
(** The position along the new axis is lost: the first layer is not where the mesh is. *)
Theorem C78_offset_refuted :
  forall coords topo tol d h N r, (d < 3)%nat -> (0 < N)%nat -> rect 3 coords -> triangles_of (length coords) topo -> trimesh_is_planar coords topo tol = Ok true ->
  (r < length coords)%nat -> coord coords r d <> 0 -> exists c t, trimesh_extrude coords topo tol d h N = Ok (c, t) /\ coord c r d = 0.
Proof. exact trimesh_offset. Qed.
Print Assumptions C78_offset_refuted.
(** Tilted planes: the volume is less than the area times the height. *)
Theorem C78_tilted_refuted :
  forall tol h N, 0 <= tol -> 0 < h -> (0 < N)%nat -> exists coords t0 c t,
  rect 3 coords /\ triangles_of (length coords) [t0] /\ trimesh_extrude coords [t0] tol 2 h N = Ok (c, t) /\ rsum (map (tet_nodes_volume c) t) < area_in_space coords t0 * h.
Proof. exact trimesh_tilted. Qed.
Print Assumptions C78_tilted_refuted.
Example C78_ex : rect 3 [[0; 0; 0]; [1; 0; 0]; [0; 1; 0]] /\ triangles_of 3 [[0; 1; 2]%nat] /\ 0 < area_along [[0; 0; 0]; [1; 0; 0]; [0; 1; 0]] 2 [0; 1; 2]%nat /\ trimesh_is_planar [[0; 0; 0]; [1; 0; 0]; [0; 1; 0]] [[0; 1; 2]%nat] (/ 100) = Ok true.
Proof.
  split; [repeat constructor|]. split; [repeat constructor|]. split; [unfold area_along, coord; cbn [nth]; lra|]. apply single_planar; auto; [|lra]. apply not_line; try reflexivity. unfold cross3, sub, TriSpec.px, TriSpec.py, TriSpec.pz, TriSpec.at_. cbn. intros E. injection E. lra.
Qed.
Example C78_offset_ex : rect 3 [[0; 0; 5]; [1; 0; 5]; [0; 1; 5]] /\ trimesh_is_planar [[0; 0; 5]; [1; 0; 5]; [0; 1; 5]] [[0; 1; 2]%nat] (/ 100) = Ok true /\ coord [[0; 0; 5]; [1; 0; 5]; [0; 1; 5]] 1 2 <> 0.
Proof.
  split; [repeat constructor|]. split; [|unfold coord; cbn; intros E0; lra]. apply single_planar; auto; [|lra]. apply not_line; try reflexivity. unfold cross3, sub, TriSpec.px, TriSpec.py, TriSpec.pz, TriSpec.at_. cbn. intros E. injection E. lra.
Qed.
