(** * Specifications for [QueryModel.v] *)
From Coq Require Import Reals ZArith List.
From Verif Require LocSpec SpaceModel.
From Verif Require Export MeshSpec QueryModel.
Import ListNotations.
Local Open Scope R_scope.

(** The box of the points: for each direction a pair of the least and the greatest coordinate, both of which occur. *)
Definition tight_box (qs : list vec) (b : list (R * R)) : Prop :=
  length b = 3%nat /\ forall k lo hi, nth_error b k = Some (lo, hi) ->
    Forall (fun q => lo <= component k q <= hi) qs /\ Exists (fun q => component k q = lo) qs /\ Exists (fun q => component k q = hi) qs.
(** the coordinates of a place as a list *)
Definition as_list (p : vec) : list R := [component 0 p; component 1 p; component 2 p].
(** the square of the distance *)
Definition apart (p q : vec) : R :=
  let '(p0, p1, p2) := p in let '(q0, q1, q2) := q in (p0 - q0) * (p0 - q0) + (p1 - q1) * (p1 - q1) + (p2 - q2) * (p2 - q2).
(** position [i] of the list has one of the points closest to [p]; one of those furthest away *)
Definition nearest_at (qs : list vec) (p : vec) (i : nat) : Prop :=
  exists q, nth_error qs i = Some q /\ Forall (fun r => apart p q <= apart p r) qs.
Definition farthest_at (qs : list vec) (p : vec) (i : nat) : Prop :=
  exists q, nth_error qs i = Some q /\ Forall (fun r => apart p r <= apart p q) qs.
(** and no position before it has one *)
Definition first_that (P : nat -> Prop) (i : nat) : Prop := P i /\ forall j, (j < i)%nat -> ~ P j.
(** the place of a position given as an array in the frame [f] (the standard one by default), or as a vector with a frame *)
Definition in_frame (f : option frame) (v w : vec) : Prop := placed_at (match f with Some g => g | None => standard end) v w.
Definition given_at (p : vectorlike) (f : option frame) (w : vec) : Prop :=
  match p with Array v => in_frame f v w | Vect v g => in_frame g v w end.
(** the places of several ones *)
Definition all_given_at (p : positions) (f : option frame) (ws : list vec) : Prop :=
  match p with
  | One v => exists w, ws = [w] /\ given_at v f w
  | Several vs None => Forall2 (in_frame f) vs ws
  | Several vs (Some g) => Forall2 (in_frame g) vs ws
  | OfCloud c => same_places (cframe c) (array c) standard ws
  end.
(** positions are not given in frames that are elsewhere than at the origin *)
Definition given_centred (p : positions) (f : option frame) : Prop :=
  let at_origin g := match g with Some h => centred h | None => True end in
  match p with
  | One (Array _) | Several _ None => at_origin f
  | One (Vect _ g) | Several _ (Some g) => at_origin g
  | OfCloud _ => True
  end.
(** there is an index for every point *)
Definition indexed (c : cloud) : Prop := match inds c with Some l => length l = length (array c) | None => True end.
(** the index of the point at position [i] of a cloud: the one it was given, else its position *)
Definition index_at (c : cloud) (i : nat) (g : Z) : Prop :=
  match inds c with Some l => nth_error l i = Some g | None => g = Z.of_nat i end.
(** [r] is the point of the cloud at position [i] *)
Definition point_of (c : cloud) (i : nat) (r : point) : Prop :=
  nth_error (array c) i = Some (pos r) /\ point_frame r = cframe c /\ point_id r = i /\ index_at c i (gid r).
(** the cloud [c'] has the points of [c] at the positions [l], with their indices *)
Definition points_of_cloud (c : cloud) (l : list nat) (c' : cloud) : Prop :=
  Forall2 (fun i q => nth_error (array c) i = Some q) l (array c') /\ cframe c' = cframe c /\
  exists k, inds c' = Some k /\ Forall2 (index_at c) l k.

(** cell [c] is in block [n], counted along the walk through the blocks with cells *)
Definition cell_in_block (m : block) (c n : nat) : Prop := exists k, nth_error (cell_arrays m) n = Some k /\ In c (cid k).
(** every cell has a number, no two have the same *)
Definition cells_numbered (m : block) : Prop :=
  Forall (fun k => length (cid k) = length (nodes k)) (cell_arrays m) /\ NoDup (concat (map cid (cell_arrays m))).
(** a dictionary with exactly the given entries *)
Definition entries_are {A} (d : dict A) (P : nat -> A -> Prop) : Prop := NoDup (dkeys d) /\ forall k v, dget d k = Ok v <-> P k v.
(** the cloud has the points with the numbers [ns] of the mesh, in the given frame, at their places *)
Definition cloud_of_nodes (p : points) (T : frame) (ns : list nat) (c : cloud) : Prop :=
  cframe c = T /\ inds c = Some (map Z.of_nat ns) /\ rows_taken ns (px p) (array c).
(** the points of the part [path] of the mesh: the closest block with points has the points [p], the frame [g], and no other points below *)
Definition single_source (m : block) (path : list nat) (p : points) (g : frame) : Prop :=
  exists sp u s sb, closest m path sp /\ under None None m sp = Some (u, s, sb) /\ arrays sb = [p] /\ frame_in u sb = Some g /\ orthonormal (axes g).
