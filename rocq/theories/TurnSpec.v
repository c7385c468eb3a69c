(** * Specifications for [TurnModel.v], independent of its helper functions *)
From Coq Require Import Reals ZArith List.
From Verif Require Export MeshSpec.
Import ListNotations.
Local Open Scope R_scope.

(** [q] is [p] turned about [o] by the rotation that carries the standard axes to the rows of [T] *)
Definition turned_about (o : vec) (T : mat) (p q : vec) : Prop :=
  exists v, displaced v o p /\ displaced (direction T v) o q.
(** the axes whose components for the axes [f] are the rows of [r] *)
Definition relative_axes (f r : mat) : mat := let '(a, b, c) := r in (direction f a, direction f b, direction f c).
(** the frame with other axes, at the same origin *)
Definition with_axes (f : frame) (T : mat) : frame := match f with Plain _ => Plain T | Cartesian _ o => Cartesian T o end.
(** The second list are the coordinates, in the frame [f], of the points turned with the axes of [f] to the axes [T]: the places that have for
    [T] the coordinates [ps]. *)
Definition turned_with (f : frame) (T : mat) (ps qs : list vec) : Prop := same_places (with_axes f T) ps f qs.
(** the square of the distance *)
Definition square_distance (p q : vec) : R :=
  let '(p0, p1, p2) := p in let '(q0, q1, q2) := q in (p0 - q0) * (p0 - q0) + (p1 - q1) * (p1 - q1) + (p2 - q2) * (p2 - q2).
(** [m'] is [m] with the nodes of the cells of one block, and of those below it, at other places *)
Definition part_changed (m : block) (path : list nat) (P : vec -> vec -> Prop) (m' : block) : Prop :=
  forall ps, mesh_at m ps -> exists a q q' z, ps = a ++ q ++ z /\ part_at m path q /\ Forall2 (Forall2 P) q q' /\ mesh_at m' (a ++ q' ++ z).
(** all nodes of the cells of the mesh are turned *)
Definition origin (f : frame) : vec := match f with Plain _ => (0, 0, 0) | Cartesian _ o => o end.
(** the axes of [f'] are those of [f], turned by the rotation that carries the standard axes to the rows of [T] *)
Definition axes_turned (T f f' : mat) : Prop := let '(a, b, c) := f in f' = (direction T a, direction T b, direction T c).
