(** * Specification vocabulary: triangles and tetrahedra given by the positions of their nodes *)
From Coq Require Import Reals List.
Import ListNotations.
Local Open Scope R_scope.

(** component [d] of a position *)
Definition at_ (d : nat) (p : list R) : R := nth d p 0.
(** in the plane of the first two coordinates *)
Definition px (p : list R) : R := at_ 0 p.
Definition py (p : list R) : R := at_ 1 p.
Definition pz (p : list R) : R := at_ 2 p.
(** the position has at least [d] components *)
Definition has_dim (d : nat) (p : list R) : Prop := (d <= length p)%nat.
Definition dim (d : nat) (p : list R) : Prop := length p = d.

(** signed area of a b c: half the determinant of the edges from a *)
Definition signed_area (a b c : list R) : R :=
  ((px b - px a) * (py c - py a) - (px c - px a) * (py b - py a)) / 2.
Definition ccw (a b c : list R) : Prop := 0 < signed_area a b c.
Definition clockwise (a b c : list R) : Prop := signed_area a b c < 0.
(** the three points are on a line *)
Definition collinear (a b c : list R) : Prop :=
  exists n m k, (n <> 0 \/ m <> 0) /\ n * px a + m * py a = k /\ n * px b + m * py b = k /\ n * px c + m * py c = k.
(** images of points under the affine map (x, y) -> (o + u x + v y) *)
Definition plane_map (ox oy ux uy vx vy : R) (p : list R) : list R :=
  [ox + ux * px p + vx * py p; oy + uy * px p + vy * py p].

(** [l] are weights for the points of the cell, with sum 1, that give the point [p] *)
Definition weighted (l : list R) (cell : list (list R)) (d : nat) : R :=
  fold_right Rplus 0 (map (fun lp => fst lp * at_ d (snd lp)) (combine l cell)).
Definition weights_of (dim : nat) (l : list R) (cell : list (list R)) (p : list R) : Prop :=
  length l = length cell /\ fold_right Rplus 0 l = 1 /\ forall d, (d < dim)%nat -> at_ d p = weighted l cell d.
(** the point is in the cell (the convex hull of its nodes); is in the cell up to a tolerance on the weights *)
Definition in_hull (dim : nat) (cell : list (list R)) (p : list R) : Prop :=
  exists l, weights_of dim l cell p /\ Forall (fun x => 0 <= x) l.
Definition near_hull (dim : nat) (tol : R) (cell : list (list R)) (p : list R) : Prop :=
  exists l, weights_of dim l cell p /\ Forall (fun x => - tol < x < 1 + tol) l.

(** signed volume of a b c d: a sixth of the determinant of the edges from a *)
Definition signed_volume (a b c d : list R) : R :=
  let u k := at_ k b - at_ k a in let v k := at_ k c - at_ k a in let w k := at_ k d - at_ k a in
  (u 0%nat * (v 1%nat * w 2%nat - v 2%nat * w 1%nat)
   - u 1%nat * (v 0%nat * w 2%nat - v 2%nat * w 0%nat)
   + u 2%nat * (v 0%nat * w 1%nat - v 1%nat * w 0%nat)) / 6.
(** the four points are in a plane *)
Definition coplanar (a b c d : list R) : Prop :=
  exists n m k o, (n <> 0 \/ m <> 0 \/ k <> 0) /\
    n * px a + m * py a + k * pz a = o /\ n * px b + m * py b + k * pz b = o /\
    n * px c + m * py c + k * pz c = o /\ n * px d + m * py d + k * pz d = o.
(** an affine map of space: (x, y, z) -> o + x u + y v + z w *)
Definition space_map (o u v w : list R) (p : list R) : list R :=
  map (fun d => at_ d o + px p * at_ d u + py p * at_ d v + pz p * at_ d w) [0; 1; 2]%nat.
Definition map_det (u v w : list R) : R :=
  px u * (py v * pz w - pz v * py w) - py u * (px v * pz w - pz v * px w) + pz u * (px v * py w - py v * px w).

(** squared distance and distance of two positions with the same number of components *)
Definition dist2 (a b : list R) : R := fold_right Rplus 0 (map (fun xy => (fst xy - snd xy) * (fst xy - snd xy)) (combine a b)).
Definition dist (a b : list R) : R := sqrt (dist2 a b).
(** scalar product *)
Definition sprod (a b : list R) : R := fold_right Rplus 0 (map (fun xy => fst xy * snd xy) (combine a b)).
Definition sub (a b : list R) : list R := map (fun xy => fst xy - snd xy) (combine a b).

(** a planar triangle with positive orientation *)
Definition ccw_cell (ec : list (list R)) : Prop :=
  exists a b c, ec = [a; b; c] /\ has_dim 2 a /\ has_dim 2 b /\ has_dim 2 c /\ ccw a b c.
(** some weight of the point in the triangle is above 1 *)
Definition beyond (ec : list (list R)) (p : list R) : Prop :=
  exists l, weights_of 2 l ec p /\ Exists (fun w => 1 < w) l.
(** [ec'] is the triangle [ec] contracted towards its centre by the factor [alpha] *)
Definition contracted (n : nat) (alpha : R) (ec ec' : list (list R)) : Prop :=
  length ec' = 3%nat /\ forall i d, (i < 3)%nat -> (d < n)%nat ->
    let x k := at_ d (nth k ec []) in let g := (x 0%nat + x 1%nat + x 2%nat) / 3 in
    length (nth i ec' []) = n /\ at_ d (nth i ec' []) = g + alpha * (x i - g).
(** the least number that is at least 1 and at least the magnitude of all the numbers *)
Definition magnitude_bound (data : list R) (m : R) : Prop :=
  1 <= m /\ Forall (fun x => Rabs x <= m) data /\ (m = 1 \/ Exists (fun x => Rabs x = m) data).
(** four positions in space; not in a plane *)
Definition tet_cell (ec : list (list R)) : Prop := exists a b c d, ec = [a; b; c; d] /\ dim 3 a /\ dim 3 b /\ dim 3 c /\ dim 3 d.
Definition solid_tet (ec : list (list R)) : Prop :=
  exists a b c d, ec = [a; b; c; d] /\ dim 3 a /\ dim 3 b /\ dim 3 c /\ dim 3 d /\ ~ coplanar a b c d.
(** interpolated data: the weights applied to the rows of the nodes *)
Definition interpolates (l : list R) (rows : list (list R)) (n : nat) (v : list R) : Prop :=
  length v = n /\ forall d, (d < n)%nat -> at_ d v = weighted l rows d.
