(** * Specification vocabulary: triangles of the plane, prisms above them, layers *)
From Coq Require Import Reals.
From Verif Require Export SplitSpec.
Local Open Scope R_scope.

(** every row has at least two entries *)
Definition plane_points (points : list (list R)) : Prop := Forall (fun p => (2 <= length p)%nat) points.
(** the rows of [triangles] have three node numbers below [n] *)
Definition triangles_of (n : nat) (triangles : list (list nat)) : Prop := Forall (fun t => length t = 3%nat /\ Forall (fun k => (k < n)%nat) t) triangles.
(** signed area of a triangle of the plane, positive for counterclockwise ones *)
Definition tri_area (points : list (list R)) (t : list nat) : R := polygon_area points t.
Definition solid_triangles (points : list (list R)) (triangles : list (list nat)) : Prop := Forall (fun t => tri_area points t <> 0) triangles.

(** the position [q] is the combination of the nodes of [t] with the weights a, b, c *)
Definition tri_weights (points : list (list R)) (t : list nat) (q : nat -> R) (a b c : R) : Prop :=
  a + b + c = 1 /\ exists i j k, t = [i; j; k] /\ forall d, (d < 2)%nat -> q d = a * coord points i d + b * coord points j d + c * coord points k d.
Definition in_triangle (points : list (list R)) (t : list nat) (q : nat -> R) : Prop :=
  exists a b c, tri_weights points t q a b c /\ 0 <= a /\ 0 <= b /\ 0 <= c.
(** two triangles meet in common nodes or edges only *)
Definition conforming_plane (points : list (list R)) (triangles : list (list nat)) : Prop :=
  forall s t q, In s triangles -> In t triangles -> in_triangle points s q -> in_triangle points t q ->
    exists a b c, tri_weights points s q a b c /\
      forall k l n, nth_error [a; b; c] k = Some l -> nth_error s k = Some n -> l <> 0 -> In n t.

(** the points of the prism above a triangle between two heights *)
Definition in_prism (points : list (list R)) (t : list nat) (z0 z1 : R) (p : nat -> R) : Prop :=
  in_triangle points t p /\ exists s, 0 <= s <= 1 /\ p 2%nat = z0 + s * (z1 - z0).
(** layers of copies of [points] at the heights h l / m, l = 0 .. m *)
Definition layered (points : list (list R)) (h : R) (m : nat) (coords : list (list R)) : Prop :=
  length coords = (length points * (m + 1))%nat /\ rect 3 coords /\
  forall l r, (l <= m)%nat -> (r < length points)%nat ->
    coord coords (length points * l + r) 0 = coord points r 0 /\ coord coords (length points * l + r) 1 = coord points r 1 /\
    coord coords (length points * l + r) 2 = h * INR l / INR m.
(** the node numbers are below [n] *)
Definition in_range (n : nat) (topo : list (list nat)) : Prop := Forall (Forall (fun k => (k < n)%nat)) topo.

(** there is an order of the nodes in which the nodes of all triangles are listed *)
Definition ordered_triangles (triangles : list (list nat)) : Prop :=
  exists rank : nat -> nat, forall t i j k, In t triangles -> t = [i; j; k] -> (rank i < rank j < rank k)%nat.
(** node [u] is listed before node [v] *)
Definition before (u v : nat) (t : list nat) : Prop := exists p q, (p < q)%nat /\ nth_error t p = Some u /\ nth_error t q = Some v.
(** two nodes are listed in the same order by all triangles that contain both of them *)
Definition same_order (triangles : list (list nat)) : Prop := forall s t u v, In s triangles -> In t triangles -> before u v s -> ~ before v u t.
(** component of the area vector of a triangle in space along the axis [d] *)
Definition area_along (coords : list (list R)) (d : nat) (t : list nat) : R :=
  match t with
  | a :: b :: c :: _ =>
      let e := match d with 0 => 1 | 1 => 2 | _ => 0 end%nat in let f := match d with 0 => 2 | 1 => 0 | _ => 1 end%nat in
      ((coord coords b e - coord coords a e) * (coord coords c f - coord coords a f) - (coord coords b f - coord coords a f) * (coord coords c e - coord coords a e)) / 2
  | _ => 0
  end.
(** copies of the points, moved along the axis [d] to the heights h l / m, l = 0 .. m *)
Definition stacked (points : list (list R)) (d : nat) (h : R) (m : nat) (coords : list (list R)) : Prop :=
  length coords = (length points * (m + 1))%nat /\ rect 3 coords /\
  forall l r e, (l <= m)%nat -> (r < length points)%nat -> (e < 3)%nat ->
    coord coords (length points * l + r) e = if Nat.eqb e d then h * INR l / INR m else coord points r e.
(** area of a triangle in space *)
Definition area_in_space (coords : list (list R)) (t : list nat) : R :=
  sqrt (area_along coords 0 t * area_along coords 0 t + area_along coords 1 t * area_along coords 1 t + area_along coords 2 t * area_along coords 2 t).
