(** * Specification vocabulary: meshes of boxes, plates with ribs *)
From Coq Require Import Reals.
From Verif Require Export Base GridSpec TopoSpec SplitSpec.
Local Open Scope R_scope.

(** opposite corners of a hexahedron: its nodes 0 and 6 *)
Definition box_lo (coords : list (list R)) (cell : list nat) (d : nat) : R := coord coords (nth 0 cell 0%nat) d.
Definition box_hi (coords : list (list R)) (cell : list nat) (d : nat) : R := coord coords (nth 6 cell 0%nat) d.
Definition in_box (coords : list (list R)) (cell : list nat) (p : list R) : Prop :=
  forall d, (d < 3)%nat -> box_lo coords cell d <= nth d p 0 <= box_hi coords cell d.
Definition inside_box (coords : list (list R)) (cell : list nat) (p : list R) : Prop :=
  forall d, (d < 3)%nat -> box_lo coords cell d < nth d p 0 < box_hi coords cell d.
(** the centre of the box *)
Definition box_mid (coords : list (list R)) (cell : list nat) (d : nat) : R := (box_lo coords cell d + box_hi coords cell d) / 2.

(** the cells are boxes with the nodes of the element at their places, do not overlap, and a node of one cell that lies on another
    cell is a node of that cell; points are different, and are used *)
Definition box_mesh (lcoords : list (list R)) (coords : list (list R)) (topo : list (list nat)) : Prop :=
  rect 3 coords /\ points_differ coords /\ (forall k, used topo k <-> (k < length coords)%nat) /\
  (forall cell, In cell topo -> (forall d, (d < 3)%nat -> box_lo coords cell d < box_hi coords cell d) /\
     box_placed 3 0 coords cell lcoords (box_lo coords cell) (fun d => box_hi coords cell d - box_lo coords cell d)) /\
  (forall c c' cell cell' p, nth_error topo c = Some cell -> nth_error topo c' = Some cell' ->
     inside_box coords cell p -> inside_box coords cell' p -> c = c') /\
  (forall cell cell' n, In cell topo -> In cell' topo -> In n cell -> (In n cell' <-> in_box coords cell' (nth n coords []))).

(** increasing positions, that contain the given ones and stay in their range *)
Definition refines (bins r : list R) : Prop := increasing r /\ incl bins r /\ (length bins <= length r)%nat /\ forall x, In x r -> exists a b, In a bins /\ In b bins /\ a <= x <= b.

(** the points of a plate lx * ly * t, of a rib along x, and of a rib along y; a rib is (width, height, eccentricity) *)
Definition within (lo hi x : R) : Prop := lo <= x <= hi.
Definition in_plate (lx ly t : R) (p : list R) : Prop :=
  within (- lx / 2) (lx / 2) (nth 0 p 0) /\ within (- ly / 2) (ly / 2) (nth 1 p 0) /\ within (- t / 2) (t / 2) (nth 2 p 0).
Definition in_rib_x (lx : R) (r : option (R * R * R)) (p : list R) : Prop :=
  match r with
  | Some (w, h, e) => within (- lx / 2) (lx / 2) (nth 0 p 0) /\ within (- w / 2) (w / 2) (nth 1 p 0) /\ within (e - h / 2) (e + h / 2) (nth 2 p 0)
  | None => False
  end.
Definition in_rib_y (ly : R) (r : option (R * R * R)) (p : list R) : Prop :=
  match r with
  | Some (w, h, e) => within (- w / 2) (w / 2) (nth 0 p 0) /\ within (- ly / 2) (ly / 2) (nth 1 p 0) /\ within (e - h / 2) (e + h / 2) (nth 2 p 0)
  | None => False
  end.
(** a rib of positive width and height, at most as wide as the plate (of width [l]), that touches the plate *)
Definition rib_fits (l t : R) (r : option (R * R * R)) : Prop :=
  match r with Some (w, h, e) => 0 < w <= l /\ 0 < h /\ e - h / 2 <= t / 2 /\ - t / 2 <= e + h / 2 | None => True end.
(** the rib described by optional arguments: width and height are both given; no eccentricity means 0 *)
Definition the_rib (w h e : option R) : option (R * R * R) :=
  match w, h, e with
  | Some w, Some h, Some e => Some (w, h, e)
  | Some w, Some h, None => Some (w, h, 0)
  | _, _, _ => None
  end.

(** tetrahedra of positive volume that do not overlap; points are different, and are used *)
Definition tet_mesh (coords : list (list R)) (topo : list (list nat)) : Prop :=
  rect 3 coords /\ points_differ coords /\ (forall k, used topo k <-> (k < length coords)%nat) /\
  (forall tet, In tet topo -> 0 < tet_nodes_volume coords tet) /\
  (forall k k' tet tet' q, nth_error topo k = Some tet -> nth_error topo k' = Some tet' -> inside_tet coords tet q -> inside_tet coords tet' q -> k = k').
(** node [4 + e] of a tetrahedron is the midpoint of edge [e] *)
Definition edges_halved (coords : list (list R)) (tet : list nat) : Prop :=
  length tet = 10%nat /\ forall e a b, nth_error tetrahedron_edges e = Some [a; b] ->
    exists na nb nm, nth_error tet a = Some na /\ nth_error tet b = Some nb /\ nth_error tet (4 + e) = Some nm /\
      forall d, (d < 3)%nat -> coord coords nm d = (coord coords na d + coord coords nb d) / 2.

(** distance from the third axis *)
Definition axis_dist (p : list R) : R := sqrt (nth 0 p 0 ^ 2 + nth 1 p 0 ^ 2).
(** a voxel of edge [s] reaches this far from its centre, across the axis *)
Definition half_diagonal (s : R) : R := s * sqrt 2 / 2.

(** a circular helix around the third axis: the angle is the parameter, a turn advances by the pitch *)
Definition is_helix (radius pitch : R) (f : R -> res (R * R * R)) : Prop :=
  forall t, f t = Ok (radius * cos t, radius * sin t, pitch * (t / (2 * PI))).
