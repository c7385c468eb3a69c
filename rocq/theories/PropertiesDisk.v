(** * Properties C110 to C112: disks, cylinders and cubes with holes *)
From Coq Require Import Reals Lra Lia List Permutation.
From Verif Require Import DiskModel DiskSpec DiskProofs DiskProofs2 DiskProofs3 DiskProofs4 DiskProofs5 DiskProofs6.
Import ListNotations.
Local Open Scope R_scope.

(** ** C110 Disks *)

(** The mesh consists of the points of the rings, with a third coordinate 0, and of those triangles of the triangulation whose centre is not in the hole; points that are not used are left out. *)
Theorem C110_disk :
  forall tool n m rmin rmax points, (0 < n)%nat -> rings n m rmin rmax points -> triangles_of (length points) (tool points) ->
  exists c t, circular_disk tool n m rmin rmax = Ok (c, t) /\ detached (raised points) (kept points rmin (tool points)) c t.
Proof. exact @disk_made. Qed.
Print Assumptions C110_disk.
(** There are such points; *)
Theorem C110_rings :
  forall n m rmin rmax, (0 < n)%nat -> exists points, rings n m rmin rmax points.
Proof. exact @disk_rings_exist. Qed.
Print Assumptions C110_rings.
(** without angles the disk is refused. *)
Theorem C110_no_angles :
  forall tool m rmin rmax, circular_disk tool 0 m rmin rmax = Err ZeroDivisionError.
Proof. exact @disk_no_angles. Qed.
Print Assumptions C110_no_angles.
(** The points are between the two circles. *)
Theorem C110_distances :
  forall tool n m rmin rmax points c t p, (0 < n)%nat -> 0 <= rmin <= rmax -> (2 <= m)%nat -> rings n m rmin rmax points -> triangles_of (length points) (tool points) ->
  circular_disk tool n m rmin rmax = Ok (c, t) -> In p c -> exists i j, (i < n)%nat /\ (j < m)%nat /\ p = [ring_radius m rmin rmax j * cos (ring_angle n i j); ring_radius m rmin rmax j * sin (ring_angle n i j); 0] /\
    rmin <= axis_distance (nth 0 p 0) (nth 1 p 0) <= rmax.
Proof. exact @disk_distances. Qed.
Print Assumptions C110_distances.
(** No triangle with all its nodes on the inner circle is left. *)
Theorem C110_hole :
  forall n m rmin rmax points t ts, 0 <= rmin -> (0 < m)%nat -> rings n m rmin rmax points -> triangulated points ts -> In t ts ->
  (forall k, In k t -> exists i, (i < n)%nat /\ k = (i * m)%nat) -> ~ In t (kept points rmin ts).
Proof. exact @disk_hole. Qed.
Print Assumptions C110_hole.
(** If the triangulation is made of the triangles between neighbouring rings and of triangles in the hole, and the rings are far enough apart, then exactly the triangles between the rings are left and the area is that between two regular polygons.  Missing: rings that are close to each other (refuted below); that the triangulation is such a one. *)
Theorem C110_partial :
  forall tool n m rmin rmax points, (3 <= n)%nat -> (2 <= m)%nat -> 0 < rmin -> rmin <= rmax -> rings n m rmin rmax points -> triangulated points (tool points) -> ring_triangulation n m (tool points) ->
  3 * rmin <= 2 * rmin * cos (PI / INR n) + ring_radius m rmin rmax 1 ->
  exists c t, circular_disk tool n m rmin rmax = Ok (c, t) /\ length t = (2 * n * (m - 1))%nat /\ rsum (map (tri_area c) t) = regular_area n rmax - regular_area n rmin /\ Forall (fun t => 0 < tri_area c t) t.
Proof. exact @disk_area. Qed.
Print Assumptions C110_partial.
(** Otherwise the triangles next to the hole, whose centres are in the circle although they are not in the hole, are lost, and the area is too small. *)
Theorem C110_refuted :
  forall tool n m rmin rmax points, (3 <= n)%nat -> (2 <= m)%nat -> 0 < rmin -> rmin <= rmax -> rings n m rmin rmax points -> triangulated points (tool points) -> ring_triangulation n m (tool points) ->
  2 * rmin * cos (PI / INR n) + ring_radius m rmin rmax 1 < 3 * rmin ->
  (forall i, ~ In (inner_based n m i 0) (kept points rmin (tool points))) /\
  exists c t, circular_disk tool n m rmin rmax = Ok (c, t) /\ (length t < 2 * n * (m - 1))%nat /\ rsum (map (tri_area c) t) < regular_area n rmax - regular_area n rmin.
Proof. exact @disk_lost. Qed.
Print Assumptions C110_refuted.
Example C110_ex : exists points, rings 4 2 1 2 points /\ triangulated points square_rings /\ ring_triangulation 4 2 square_rings /\
  3 * 1 <= 2 * 1 * cos (PI / INR 4) + ring_radius 2 1 2 1.
Proof.
  destruct (disk_rings_exist 4 2 1 2 ltac:(lia)) as (points & HR). exists points. split; [exact HR|]. destruct (square_triangulated 2 points ltac:(lra) HR) as [H1 H2]. split; [exact H1|]. split; [exact H2|].
  rewrite cos_quarter. pose proof sqrt2_bounds. unfold ring_radius. cbn [INR Nat.sub]. unfold Rdiv in *. lra.
Qed.
Example C110_lost_ex : exists points, rings 4 2 1 (3 / 2) points /\ triangulated points square_rings /\ ring_triangulation 4 2 square_rings /\
  2 * 1 * cos (PI / INR 4) + ring_radius 2 1 (3 / 2) 1 < 3 * 1.
Proof.
  destruct (disk_rings_exist 4 2 1 (3 / 2) ltac:(lia)) as (points & HR). exists points. split; [exact HR|]. destruct (square_triangulated (3 / 2) points ltac:(lra) HR) as [H1 H2]. split; [exact H1|]. split; [exact H2|].
  rewrite cos_quarter. pose proof sqrt2_bounds. unfold ring_radius. cbn [INR Nat.sub]. unfold Rdiv in *. lra.
Qed.

(** ** C111 Cylinders *)

(** The layers of a disk: the volume is that between two regular prisms.  Missing: rings close to each other (C110); the order of the sizes and the angle (refuted below). *)
Theorem C111_partial :
  forall tool n m nz rmin rmax angle h points, (3 <= n)%nat -> (2 <= m)%nat -> (0 < nz)%nat -> 0 < rmin -> rmin <= rmax -> rings n m rmin rmax points -> triangulated points (tool points) -> ring_triangulation n m (tool points) ->
  3 * rmin <= 2 * rmin * cos (PI / INR n) + ring_radius m rmin rmax 1 ->
  exists base ts c t, circular_disk tool n m rmin rmax = Ok (base, ts) /\ cylinder tool rmin rmax angle h [m; n; nz] = Ok (c, t) /\ layered base h nz c /\ rect 4 t /\ in_range (length c) t /\ length t = (6 * n * (m - 1) * nz)%nat /\
    rsum (map (tet_nodes_volume c) t) = (regular_area n rmax - regular_area n rmin) * h.
Proof. exact @cylinder_mesh. Qed.
Print Assumptions C111_partial.
(** The documentation has the number of angles first and the number of radii second; they are read the other way round, so a different number of cells results. *)
Theorem C111_order_refuted :
  forall tool n m nz rmin rmax angle h points, (3 <= n)%nat -> (2 <= m)%nat -> (0 < nz)%nat -> 0 < rmin -> rmin <= rmax -> rings n m rmin rmax points -> triangulated points (tool points) -> ring_triangulation n m (tool points) ->
  3 * rmin <= 2 * rmin * cos (PI / INR n) + ring_radius m rmin rmax 1 -> n <> m ->
  exists c t, cylinder tool rmin rmax angle h [m; n; nz] = Ok (c, t) /\ length t <> (6 * m * (n - 1) * nz)%nat.
Proof. exact @cylinder_order. Qed.
Print Assumptions C111_order_refuted.
(** The angle has no effect: a sector cannot be had. *)
Theorem C111_angle_refuted :
  forall tool rmin rmax angle angle' h size, cylinder tool rmin rmax angle h size = cylinder tool rmin rmax angle' h size.
Proof. exact @cylinder_angle. Qed.
Print Assumptions C111_angle_refuted.
(** A size that is not a triple is rejected, whatever the other arguments. *)
Theorem C111_size : forall tool rmin rmax angle h size, length size <> 3%nat -> cylinder tool rmin rmax angle h size = Err ValueError.
Proof. intros tool rmin rmax angle h [|a [|b [|c [|d size]]]] H; try reflexivity. now elim H. Qed.
Print Assumptions C111_size.
Example C111_size_ex : length [4; 2]%nat <> 3%nat.
Proof. discriminate. Qed.
Example C111_ex : (3 <= 4)%nat /\ (2 <= 2)%nat /\ 4%nat <> 2%nat /\ exists points, rings 4 2 1 2 points /\ triangulated points square_rings /\ ring_triangulation 4 2 square_rings.
Proof.
  split; [lia|]. split; [lia|]. split; [lia|]. destruct (disk_rings_exist 4 2 1 2 ltac:(lia)) as (points & HR). exists points. split; [exact HR|]. exact (square_triangulated 2 points ltac:(lra) HR).
Qed.

(** ** C112 Cubes with a hole *)

(** The points that are triangulated: those of a grid that are farther than a largest edge from the hole, and points of the circle. *)
Theorem C112_points :
  forall lx ly radius nangles l, 0 < l -> 0 <= lx -> 0 <= ly -> 0 <= radius ->
  exists nx ny n points, whole_parts 4 lx l nx /\ whole_parts 4 ly l ny /\ (match nangles with Some k => n = k | None => whole_parts 8 (2 * PI * radius) l n end) /\
    cube_points lx ly radius nangles (Some l) = Ok points /\ perforated lx ly radius (radius + l) nx ny n points.
Proof. exact @perforated_points. Qed.
Print Assumptions C112_points.
(** The same without a largest edge. *)
Theorem C112_points_default :
  forall lx ly radius nangles, exists points, cube_points lx ly radius nangles None = Ok points /\
  perforated lx ly radius (radius * (11 / 10)) 4 4 (match nangles with Some k => k | None => 16%nat end) points.
Proof. exact @perforated_points_default. Qed.
Print Assumptions C112_points_default.
(** The result consists of layers of the triangles whose centre is not in the hole, as wedges or as tetrahedra; its volume is their area times the height.  Missing: heights less than the largest edge, cubes that are small compared with hole and edge, quadratic wedges (refuted below). *)
Theorem C112_partial :
  forall tool lx ly lz radius nangles lmax points nz, (match lmax with Some l => 0 < l | None => True end) ->
  cube_points lx ly radius nangles lmax = Ok points -> rect 2 points -> triangles_of (length points) (tool points) -> layer_count lz lmax nz -> (0 < nz)%nat ->
  exists base ts, detached (raised points) (kept points radius (tool points)) base ts /\
   (exists c t, perforated_cube tool lx ly lz radius nangles lmax 1 true = Ok (c, t) /\ layered base lz nz c /\ rect 6 t /\ in_range (length c) t /\ length t = (length ts * nz)%nat /\
     rsum (map (enclosed_volume hull_W6 c) t) = rsum (map (tri_area base) ts) * lz) /\
   (exists c t, perforated_cube tool lx ly lz radius nangles lmax 1 false = Ok (c, t) /\ layered base lz nz c /\ rect 4 t /\ in_range (length c) t /\ length t = (3 * (length ts * nz))%nat /\
     rsum (map (tet_nodes_volume c) t) = rsum (map (tri_area base) ts) * lz).
Proof. exact @perforated_mesh. Qed.
Print Assumptions C112_partial.
(** No node is in the hole. *)
Theorem C112_nodes :
  forall tool lx ly radius points d nx ny n base ts p, 0 <= radius -> radius <= d -> perforated lx ly radius d nx ny n points ->
  detached (raised points) (kept points radius (tool points)) base ts -> In p base ->
  radius <= axis_distance (nth 0 p 0) (nth 1 p 0) /\ (grid_node lx ly nx ny (firstn 2 p) \/ circle_node radius n (firstn 2 p)) /\ nth 2 p 1 = 0.
Proof. exact @perforated_nodes. Qed.
Print Assumptions C112_nodes.
(** If the triangulation fills the rectangle, its triangles on points of the circle fill the polygon of these, and the centres of the others are not in the circle, then the volume is that of the cube without the prism. *)
Theorem C112_volume_partial :
  forall tool lx ly lz radius nangles lmax points nz n, (match lmax with Some l => 0 < l | None => True end) -> 0 <= radius ->
  cube_points lx ly radius nangles lmax = Ok points -> rect 2 points -> triangulated points (tool points) -> rectangle_triangulation lx ly radius n points (tool points) -> layer_count lz lmax nz -> (0 < nz)%nat ->
  (exists c t, perforated_cube tool lx ly lz radius nangles lmax 1 true = Ok (c, t) /\ rsum (map (enclosed_volume hull_W6 c) t) = (lx * ly - regular_area n radius) * lz) /\
  (exists c t, perforated_cube tool lx ly lz radius nangles lmax 1 false = Ok (c, t) /\ rsum (map (tet_nodes_volume c) t) = (lx * ly - regular_area n radius) * lz).
Proof. exact @perforated_volume. Qed.
Print Assumptions C112_volume_partial.
(** Quadratic tetrahedra are made of the linear ones. *)
Theorem C112_quadratic_tetrahedra :
  forall tool lx ly lz radius nangles lmax points nz, (match lmax with Some l => 0 < l | None => True end) ->
  cube_points lx ly radius nangles lmax = Ok points -> rect 2 points -> triangles_of (length points) (tool points) -> layer_count lz lmax nz -> (0 < nz)%nat ->
  exists c t c' t', perforated_cube tool lx ly lz radius nangles lmax 1 false = Ok (c, t) /\ perforated_cube tool lx ly lz radius nangles lmax 2 false = Ok (c', t') /\ TrSpec.elevated 3 TrSpec.plan_TET10 c t c' t'.
Proof. exact @perforated_quadratic_tet. Qed.
Print Assumptions C112_quadratic_tetrahedra.
(** Arguments that are accepted for linear cells are rejected for any order but one and two. *)
Theorem C112_orders : forall tool lx ly lz radius nangles lmax order prismatic r, perforated_cube tool lx ly lz radius nangles lmax 1 prismatic = Ok r ->
  order <> 1%nat -> order <> 2%nat -> perforated_cube tool lx ly lz radius nangles lmax order prismatic = Err ValueError.
Proof.
  intros tool lx ly lz radius nangles lmax order prismatic r H N1 N2. unfold perforated_cube in *.
  destruct (cube_points _ _ _ _ _) as [points|]; cbn [bind] in *; [|discriminate]. destruct (cut_out _ _ _) as [ct|]; cbn [bind] in *; [|discriminate].
  destruct (cube_layers _ _) as [z|]; cbn [bind] in *; [|discriminate]. destruct (if prismatic then _ else _) as [ct'|]; cbn [bind] in *; [|discriminate].
  apply Nat.eqb_neq in N1, N2. now rewrite N1, N2.
Qed.
Print Assumptions C112_orders.
Example C112_orders_ex : 3%nat <> 1%nat /\ 3%nat <> 2%nat /\ exists tool r, perforated_cube tool 8 8 2 1 (Some 4%nat) None 1 false = Ok r.
Proof.
  split; [discriminate|]. split; [discriminate|]. destruct square_with_hole as (points & tool & u & H1 & H2 & H3 & H4 & H5). exists tool.
  destruct (C112_quadratic_tetrahedra tool 8 8 2 1 (Some 4%nat) None points 4 I H1 H2) as (c & t & c' & t' & E & _); [apply H3|reflexivity|lia|]. exists (c, t). exact E.
Qed.
(** A cube that is not as high as the largest edge has no cells; neither has one whose height is negative, if its absolute value is less than that edge. *)
Theorem C112_thin_refuted :
  forall tool lx ly lz radius nangles l points prismatic, - l < lz -> lz < l -> cube_points lx ly radius nangles (Some l) = Ok points -> rect 2 points -> triangles_of (length points) (tool points) ->
  exists c, perforated_cube tool lx ly lz radius nangles (Some l) 1 prismatic = Ok (c, []).
Proof. exact @perforated_thin. Qed.
Print Assumptions C112_thin_refuted.
(** Other negative heights are rejected. *)
Theorem C112_negative :
  forall tool lx ly lz radius nangles l points order prismatic, 0 < l -> lz <= - l -> cube_points lx ly radius nangles (Some l) = Ok points -> rect 2 points -> triangles_of (length points) (tool points) ->
  perforated_cube tool lx ly lz radius nangles (Some l) order prismatic = Err ValueError.
Proof. exact @perforated_negative. Qed.
Print Assumptions C112_negative.
(** A cube whose corners are not farther from the axis than radius and largest edge together has no cells: no point of the grid, not even a corner, is left. *)
Theorem C112_coarse_refuted :
  forall tool lx ly lz radius nangles l points nz prismatic, 0 < l -> 0 <= lx -> 0 <= ly -> 0 <= radius -> axis_distance (lx / 2) (ly / 2) <= radius + l ->
  cube_points lx ly radius nangles (Some l) = Ok points -> triangulated points (tool points) -> layer_count lz (Some l) nz -> (0 < nz)%nat ->
  exists c, perforated_cube tool lx ly lz radius nangles (Some l) 1 prismatic = Ok (c, []).
Proof. exact @perforated_empty. Qed.
Print Assumptions C112_coarse_refuted.
(** Quadratic wedges, the default for the second order, always fail. *)
Theorem C112_quadratic_refuted :
  forall tool lx ly lz radius nangles lmax points nz u, (match lmax with Some l => 0 < l | None => True end) ->
  cube_points lx ly radius nangles lmax = Ok points -> rect 2 points -> triangles_of (length points) (tool points) -> layer_count lz lmax nz -> (0 < nz)%nat -> In u (kept points radius (tool points)) ->
  perforated_cube tool lx ly lz radius nangles lmax 2 true = Err IndexError.
Proof. exact @perforated_quadratic. Qed.
Print Assumptions C112_quadratic_refuted.
Example C112_ex : exists points tool u, cube_points 8 8 1 (Some 4%nat) None = Ok points /\ rect 2 points /\ triangulated points (tool points) /\ rectangle_triangulation 8 8 1 4 points (tool points) /\ In u (kept points 1 (tool points)) /\
  layer_count 2 None 4.
Proof. destruct square_with_hole as (points & tool & u & H1 & H2 & H3 & H4 & H5). exists points, tool, u. repeat (split; [assumption|]). reflexivity. Qed.
Example C112_nodes_ex : exists points, perforated 8 8 1 (1 * (11 / 10)) 4 4 4 points /\ 1 <= 1 * (11 / 10).
Proof. destruct (perforated_points_default 8 8 1 (Some 4%nat)) as (points & _ & H). exists points. split; [exact H|lra]. Qed.
Example C112_empty_ex : exists points tool, cube_points 1 1 (3 / 10) (Some 4%nat) (Some (1 / 2)) = Ok points /\ rect 2 points /\ triangulated points (tool points) /\ tool points <> [] /\
  axis_distance (1 / 2) (1 / 2) <= 3 / 10 + 1 / 2 /\ layer_count 1 (Some (1 / 2)) 2 /\ 1 / 4 < 1 / 2.
Proof.
  destruct coarse_square as (points & tool & H1 & H2 & H3 & H4). exists points, tool. repeat (split; [assumption|]). split; [|split; [unfold layer_count; cbn [INR]; lra|lra]].
  unfold axis_distance. rewrite <- (sqrt_Rsqr (3 / 10 + 1 / 2)) by lra. apply sqrt_le_1_alt. unfold Rsqr. lra.
Qed.

