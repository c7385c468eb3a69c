(** * Specifications for [SpaceModel.v], independent of its helper functions *)
From Coq Require Import Reals List Lia.
From Verif Require Export TriSpec LocSpec NodalSpec.
Import ListNotations.
Local Open Scope R_scope.

(** three perpendicular unit vectors of space, right-handed *)
Definition right_handed (a b c : list R) : Prop :=
  dim 3 a /\ dim 3 b /\ dim 3 c /\ sprod a a = 1 /\ sprod b b = 1 /\ sprod c c = 1 /\
  sprod a b = 0 /\ sprod b c = 0 /\ sprod c a = 0 /\ map_det a b c = 1.
(** [a] points in the direction of [u] *)
Definition along (u a : list R) : Prop := exists t, 0 < t /\ scaled t u a.
(** the positions are on a line of space *)
Definition on_common_line (ps : list (list R)) : Prop :=
  exists o u, forall p, In p ps -> exists t, forall k, (k < 3)%nat -> at_ k p = at_ k o + t * at_ k u.
(** the first, the second and the last one of the positions *)
Definition corners (ec : list (list R)) (p0 p1 pl : list R) : Prop :=
  nth_error ec 0 = Some p0 /\ nth_error ec 1 = Some p1 /\ nth_error ec (length ec - 1) = Some pl.
(** the frame of the cell: right-handed, the first axis along the first edge, the last node in the half plane of the first two axes
    where the second coordinate is positive *)
Definition surface_frame (p0 p1 pl : list R) (fr : list (list R)) : Prop :=
  exists a b c, fr = [a; b; c] /\ right_handed a b c /\ along (sub p1 p0) a /\ 0 < sprod b (sub pl p0) /\ sprod c (sub pl p0) = 0.
(** the first, the second and the last node of the cell are not on a line *)
Definition solid_surface (ec : list (list R)) : Prop := forall p0 p1 pl, corners ec p0 p1 pl -> ~ on_common_line [p0; p1; pl].
(** the position of the plane through [o] with the coordinates (x, y) for the axes [a], [b] *)
Definition in_plane_at (o a b : list R) (x y : R) (p : list R) : Prop :=
  forall k, (k < 3)%nat -> at_ k p = at_ k o + x * at_ k a + y * at_ k b.
(** all the positions are in the plane sprod n p = h *)
Definition in_plane (n : list R) (h : R) (ps : list (list R)) : Prop := forall p, In p ps -> sprod n p = h.
(** unit vectors along the global axes *)
Definition unit_vector (i : nat) : list R := map (fun k => if Nat.eqb k i then 1 else 0) (seq 0 3).
(** the first one of the global axes for which the component of [a] is smallest is perpendicular to [b] and makes an acute angle with [c] *)
Definition leans (a b c : list R) : Prop :=
  exists i, (i < 3)%nat /\ (forall j, (j < 3)%nat -> Rabs (at_ i a) <= Rabs (at_ j a)) /\ (forall j, (j < i)%nat -> Rabs (at_ i a) < Rabs (at_ j a)) /\
    sprod b (unit_vector i) = 0 /\ 0 < sprod c (unit_vector i).
(** the ends of a line; its frame with the reference point [ref] in the half plane of the first and third axis where the third
    coordinate is positive; its frame without a reference point *)
Definition line_ends (ec : list (list R)) (p0 pl : list R) : Prop := nth_error ec 0 = Some p0 /\ nth_error ec (length ec - 1) = Some pl.
Definition line_frame_ref (p0 pl ref : list R) (fr : list (list R)) : Prop :=
  exists a b c, fr = [a; b; c] /\ right_handed a b c /\ along (sub pl p0) a /\ sprod b (sub ref p0) = 0 /\ 0 < sprod c (sub ref p0).
Definition line_frame_auto (p0 pl : list R) (fr : list (list R)) : Prop :=
  exists a b c, fr = [a; b; c] /\ right_handed a b c /\ along (sub pl p0) a /\ leans a b c.
(** the matrix with these columns *)
Definition has_columns (tr : list (list R)) (a b c : list R) : Prop := tr = map (fun k => [at_ k a; at_ k b; at_ k c]) (seq 0 3).
(** index of the first one of the positions with the least / greatest distance from [p] *)
Definition first_closest (X : list (list R)) (p : list R) (i : nat) : Prop :=
  (i < length X)%nat /\ (forall j, (j < length X)%nat -> dist p (nth i X []) <= dist p (nth j X [])) /\
  forall j, (j < i)%nat -> dist p (nth i X []) < dist p (nth j X []).
Definition first_furthest (X : list (list R)) (p : list R) (i : nat) : Prop :=
  (i < length X)%nat /\ (forall j, (j < length X)%nat -> dist p (nth j X []) <= dist p (nth i X [])) /\
  forall j, (j < i)%nat -> dist p (nth j X []) < dist p (nth i X []).
(** the positions are in a plane *)
Definition planar (ps : list (list R)) : Prop := exists n h, dim 3 n /\ n <> [0; 0; 0] /\ in_plane n h ps.
(** local coordinates [loc] of the nodes of a cell for the frame [fr] at the centre [m] *)
Definition local_coordinates (ec loc : list (list R)) (m : list R) (fr : list (list R)) : Prop :=
  mean_row 3 ec m /\ (forall p0 p1 pl, corners ec p0 p1 pl -> surface_frame p0 p1 pl fr) /\
  Forall2 (fun p q => dim 2 q /\ in_plane_at m (nth 0 fr []) (nth 1 fr []) (px q) (py q) p) ec loc.
(** as for cells that are not planar: the coordinates of the projections *)
Definition projected (ec loc : list (list R)) (m : list R) (fr : list (list R)) : Prop :=
  mean_row 3 ec m /\ (forall p0 p1 pl, corners ec p0 p1 pl -> surface_frame p0 p1 pl fr) /\
  Forall2 (fun p q => q = [sprod (nth 0 fr []) (sub p m); sprod (nth 1 fr []) (sub p m)]) ec loc.
(** the unit normal of a triangle, on the side from which its nodes are seen counterclockwise *)
Definition triangle_normal (p0 p1 p2 n : list R) : Prop :=
  dim 3 n /\ sprod n n = 1 /\ sprod n (sub p1 p0) = 0 /\ sprod n (sub p2 p0) = 0 /\ 0 < map_det (sub p1 p0) (sub p2 p0) n.
