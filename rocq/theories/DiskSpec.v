(** * Specification vocabulary: disks with holes, triangulations *)
From Coq Require Import Reals Permutation.
From Verif Require Export TopoSpec ExtrudeSpec.
Local Open Scope R_scope.

(** distance of a position from the axis *)
Definition axis_distance (x y : R) : R := sqrt (x ^ 2 + y ^ 2).
(** what is expected of a triangulation of points of the plane: its triangles are counterclockwise *)
Definition triangulated (points : list (list R)) (triangles : list (list nat)) : Prop :=
  triangles_of (length points) triangles /\ Forall (fun t => 0 < tri_area points t) triangles.
(** distance of the centre of a triangle from the axis *)
Definition centre_distance (points : list (list R)) (t : list nat) : R :=
  axis_distance (rsum (map (fun n => coord points n 0) t) / 3) (rsum (map (fun n => coord points n 1) t) / 3).
(** the triangles whose centre is not in the circle of radius [r], in their order *)
Definition kept (points : list (list R)) (r : R) (triangles : list (list nat)) : list (list nat) :=
  filter (fun t => if Rle_dec r (centre_distance points t) then true else false) triangles.
(** the points with a third coordinate 0 *)
Definition raised (points : list (list R)) : list (list R) := map (fun p => [nth 0 p 0; nth 1 p 0; 0]) points.

(** ring [j] of [m] rings from [rmin] to [rmax], and point [i] of the [n] points of ring [j]; the points of neighbouring rings alternate *)
Definition ring_radius (m : nat) (rmin rmax : R) (j : nat) : R := rmin + (rmax - rmin) * INR j / INR (m - 1).
Definition ring_angle (n i j : nat) : R := (2 * INR i + if Nat.odd j then 1 else 0) * PI / INR n.
(** the points of a disk, angle by angle *)
Definition rings (n m : nat) (rmin rmax : R) (points : list (list R)) : Prop :=
  length points = (n * m)%nat /\ rect 2 points /\
  forall i j, (i < n)%nat -> (j < m)%nat ->
    coord points (i * m + j) 0 = ring_radius m rmin rmax j * cos (ring_angle n i j) /\
    coord points (i * m + j) 1 = ring_radius m rmin rmax j * sin (ring_angle n i j).
(** number of the point [i] of ring [j] *)
Definition ring_node (n m i j : nat) : nat := ((i mod n) * m + j)%nat.
(** the two triangles on point [i] between the rings [j] and [j + 1]: the base of one is on the inner ring, of the other on the outer ring *)
Definition inner_based (n m i j : nat) : list nat :=
  if Nat.odd j then [ring_node n m (i + 1) (j + 1); ring_node n m (i + 1) j; ring_node n m i j]
  else [ring_node n m i (j + 1); ring_node n m (i + 1) j; ring_node n m i j].
Definition outer_based (n m i j : nat) : list nat :=
  if Nat.odd j then [ring_node n m i j; ring_node n m i (j + 1); ring_node n m (i + 1) (j + 1)]
  else [ring_node n m (i + 1) j; ring_node n m i (j + 1); ring_node n m (i + 1) (j + 1)].
Definition between_rings (n m : nat) : list (list nat) :=
  flat_map (fun j => flat_map (fun i => [inner_based n m i j; outer_based n m i j]) (seq 0 n)) (seq 0 (m - 1)).
(** a triangulation made of these triangles and of triangles with all nodes on the first ring *)
Definition ring_triangulation (n m : nat) (triangles : list (list nat)) : Prop :=
  exists hole, Permutation triangles (hole ++ between_rings n m) /\ Forall (fun t => forall k, In k t -> exists i, (i < n)%nat /\ k = (i * m)%nat) hole.
(** the area of a regular polygon with [n] corners *)
Definition regular_area (n : nat) (r : R) : R := INR n / 2 * sin (2 * PI / INR n) * r ^ 2.

(** the nodes of a grid of nx by ny rectangles with the origin at its centre *)
Definition grid_node (lx ly : R) (nx ny : nat) (p : list R) : Prop :=
  exists i j, (i <= nx)%nat /\ (j <= ny)%nat /\ p = [- lx / 2 + lx / INR nx * INR i; - ly / 2 + ly / INR ny * INR j].
(** n points of a circle, at equal angles *)
Definition circle_node (r : R) (n : nat) (p : list R) : Prop :=
  exists i, (i < n)%nat /\ p = [r * cos (INR i * (2 * PI / INR n)); r * sin (INR i * (2 * PI / INR n))].
(** the points of a rectangle with a hole: those of a grid of nx by ny rectangles farther than [d] from the axis, and n points of a circle *)
Definition perforated (lx ly r d : R) (nx ny n : nat) (points : list (list R)) : Prop :=
  rect 2 points /\ forall p, In p points <-> (grid_node lx ly nx ny p /\ d < axis_distance (nth 0 p 0) (nth 1 p 0)) \/ circle_node r n p.
(** the division of a length into parts that are not shorter than [l], at least 4 of them, and one of a circle, at least 8 *)
Definition whole_parts (least : nat) (length_ : R) (l : R) (n : nat) : Prop :=
  (least <= n)%nat /\ (INR n * l <= length_ \/ n = least) /\ length_ < (INR n + 1) * l.
(** the distance of the node [k] from the axis *)
Definition node_distance (points : list (list R)) (k : nat) : R := axis_distance (coord points k 0) (coord points k 1).
(** a triangulation of a rectangle: the triangles on nodes of the circle fill a polygon in it, and the centres of the others are not in the circle *)
Definition rectangle_triangulation (lx ly r : R) (n : nat) (points : list (list R)) (triangles : list (list nat)) : Prop :=
  exists hole rest, Permutation triangles (hole ++ rest) /\
    Forall (fun t => forall k, In k t -> node_distance points k = r) hole /\ rsum (map (tri_area points) hole) = regular_area n r /\
    Forall (fun t => r <= centre_distance points t) rest /\ rsum (map (tri_area points) triangles) = lx * ly.
(** the number of layers of a height: 4, or as many as are not thinner than [l] *)
Definition layer_count (lz : R) (lmax : option R) (nz : nat) : Prop :=
  match lmax with Some l => INR nz * l <= lz < (INR nz + 1) * l | None => nz = 4%nat end.
