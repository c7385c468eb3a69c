(** * Specifications for [BlockModel.v], independent of its helper functions *)
From Coq Require Import Reals List.
From Verif Require Export SpaceSpec QuadSpec.
Import ListNotations.
Local Open Scope R_scope.

(** three perpendicular unit vectors of space *)
Definition cartesian (fr : list (list R)) : Prop :=
  exists a b c, fr = [a; b; c] /\ dim 3 a /\ dim 3 b /\ dim 3 c /\ sprod a a = 1 /\ sprod b b = 1 /\ sprod c c = 1 /\
    sprod a b = 0 /\ sprod b c = 0 /\ sprod c a = 0.
(** [l] are the coordinates of the position [p] for the axes [fr] through [o] *)
Definition coordinates_in (fr : list (list R)) (o p l : list R) : Prop :=
  dim 3 l /\ forall k, (k < 3)%nat -> at_ k p = at_ k o + at_ 0 l * at_ k (nth 0 fr []) + at_ 1 l * at_ k (nth 1 fr []) + at_ 2 l * at_ k (nth 2 fr []).
(** the distances of the positions are those of the others *)
Definition same_distances (ps qs : list (list R)) : Prop :=
  length ps = length qs /\ forall i j p p' q q', nth_error ps i = Some p -> nth_error ps j = Some p' -> nth_error qs i = Some q -> nth_error qs j = Some q' ->
    dist p p' = dist q q'.
(** the indices of the cells are their positions in the block *)
Definition numbered (topo : list (list nat)) (ids : list nat) : Prop := forall i, In i ids <-> (i < length topo)%nat.
(** the selected cells, in the given order; indices of other cells are skipped *)
Definition chosen (ids cells : list nat) (ecs : list (list (list R))) (r : list (list (list R))) : Prop :=
  exists kept, Forall2 (fun c ec => nth_error ecs c = Some ec) kept r /\ kept = filter (fun c => if in_dec Nat.eq_dec c ids then true else false) cells.
(** [u] and [v] are the derivatives of the position in space in the two local directions *)
Definition tangents (shp : list R -> res (list R)) (ec : list (list R)) (p u v : list R) : Prop :=
  dim 3 u /\ dim 3 v /\ forall a, (a < 3)%nat ->
    derivable_pt_lim (fun x => position shp ec a (replace_nth 0 x p)) (nth 0 p 0) (at_ a u) /\
    derivable_pt_lim (fun x => position shp ec a (replace_nth 1 x p)) (nth 1 p 0) (at_ a v).
(** three vectors, the columns of the derivative of the position in space *)
Definition tangents3 (shp : list R -> res (list R)) (ec : list (list R)) (p u v w : list R) : Prop :=
  tangents shp ec p u v /\ dim 3 w /\ forall a, (a < 3)%nat ->
    derivable_pt_lim (fun x => position shp ec a (replace_nth 2 x p)) (nth 2 p 0) (at_ a w).
