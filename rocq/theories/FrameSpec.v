(** * Specifications for [FrameModel.v]: places of points, motions, indices *)
From Coq Require Import Reals ZArith List.
From Verif Require Import TrSpec.
From Verif Require Export FrameModel.
Import ListNotations.
Local Open Scope R_scope.

(** the axes are perpendicular unit vectors *)
Definition orthonormal (m : mat) : Prop :=
  let '((a0, a1, a2), (b0, b1, b2), (c0, c1, c2)) := m in
  a0 * a0 + a1 * a1 + a2 * a2 = 1 /\ b0 * b0 + b1 * b1 + b2 * b2 = 1 /\ c0 * c0 + c1 * c1 + c2 * c2 = 1 /\
  a0 * b0 + a1 * b1 + a2 * b2 = 0 /\ a0 * c0 + a1 * c1 + a2 * c2 = 0 /\ b0 * c0 + b1 * c1 + b2 * c2 = 0.
(** the vector of ambient space with the given components for the axes; for no frame: the components themselves *)
Definition direction (m : mat) (v : vec) : vec :=
  let '((a0, a1, a2), (b0, b1, b2), (c0, c1, c2)) := m in let '(x, y, z) := v in
  (x * a0 + y * b0 + z * c0, x * a1 + y * b1 + z * c1, x * a2 + y * b2 + z * c2).
Definition direction_in (f : option frame) (v : vec) : vec := match f with Some g => direction (axes g) v | None => v end.
(** [q] is [p] moved by [v] *)
Definition displaced (v p q : vec) : Prop :=
  let '(v0, v1, v2) := v in let '(p0, p1, p2) := p in q = (p0 + v0, p1 + v1, p2 + v2).
(** [q] is the place in ambient space of the point with the coordinates [p] in the frame: the origin moved by the direction of [p] *)
Definition placed_at (f : frame) (p q : vec) : Prop :=
  displaced (direction (axes f) p) (match f with Plain _ => (0, 0, 0) | Cartesian _ o => o end) q.
(** two lists of coordinates, each in its frame, describe the same places *)
Definition same_places (f : frame) (ps : list vec) (g : frame) (qs : list vec) : Prop :=
  Forall2 (fun p q => exists w, placed_at f p w /\ placed_at g q w) ps qs.
(** the points of the second list are those of the first one, each in its frame, moved by [v] in ambient space *)
Definition moved_places (v : vec) (f : frame) (ps : list vec) (g : frame) (qs : list vec) : Prop :=
  Forall2 (fun p q => exists w w', placed_at f p w /\ placed_at g q w' /\ displaced v w w') ps qs.
(** the mean of the rows *)
Definition xof (p : vec) : R := fst (fst p).
Definition yof (p : vec) : R := snd (fst p).
Definition zof (p : vec) : R := snd p.
Definition centroid (ps : list vec) (m : vec) : Prop :=
  ps <> [] /\ m = (rsum (map xof ps) / INR (length ps), rsum (map yof ps) / INR (length ps), rsum (map zof ps) / INR (length ps)).
(** the coordinates, in [g], of the places of the points *)
Definition seen_from (f : frame) (ps : list vec) (g : frame) (qs : list vec) : Prop := same_places f ps g qs.
(** the standard frame *)
Definition standard : frame := Cartesian ((1, 0, 0), (0, 1, 0), (0, 0, 1)) (0, 0, 0).
(** component [i] of [v] *)
Definition component (i : nat) (v : vec) : R := match i with 0 => xof v | 1 => yof v | _ => zof v end%nat.

(** The indices of a point cloud refer to the array [top] (an index may count from the end): without indices the array is [top]
    itself, with indices there is one for every point, and it is the index of that point. *)
Definition entry_of {A} (l : list A) (i : Z) (x : A) : Prop :=
  exists k : nat, nth_error l k = Some x /\ (i = Z.of_nat k \/ i = (Z.of_nat k - Z.of_nat (length l))%Z).
Definition refers_to (top : list vec) (c : cloud) : Prop :=
  match inds c with None => array c = top | Some l => Forall2 (fun p i => entry_of top i p) (array c) l end.
(** keys for which the indices are tracked, for an array of [n] rows: slices within the array with a positive step, indices *)
Definition plain_key (n : nat) (k : key) : Prop :=
  match k with
  | KSlice a b s => (match a with Some x => 0 <= x | None => True end)%Z /\ (match b with Some x => 0 <= x <= Z.of_nat n | None => True end)%Z /\
                    (match s with Some x => 0 < x | None => True end)%Z
  | KList _ | KInt _ => True
  | KMask _ => False
  end.
(** every pair of a point and its index of one cloud is one of the other, equally often *)
Definition pairs_of (c : cloud) : list (vec * Z) := match inds c with Some l => combine (array c) l | None => [] end.
(** the points picked by a key: the entries at the given indices; for slices the entries a, a + s, a + 2 s, ... below b *)
Definition picks (ps : list vec) (k : key) (qs : list vec) : Prop :=
  match k with
  | KSlice a b s =>
      let a := match a with Some x => x | None => 0%Z end in
      let b := match b with Some x => x | None => Z.of_nat (length ps) end in
      let s := match s with Some x => x | None => 1%Z end in
      forall i q, nth_error qs i = Some q <->
        exists j : nat, Z.of_nat j = (a + s * Z.of_nat i)%Z /\ (Z.of_nat j < b)%Z /\ nth_error ps j = Some q
  | KList l => Forall2 (entry_of ps) l qs
  | KInt i => exists q, qs = [q] /\ entry_of ps i q
  | KMask m => qs = map fst (filter snd (combine ps m))
  end.
(** the indices of a key are within an array with [n] entries *)
Definition key_within (n : nat) (k : key) : Prop :=
  let within i := (- Z.of_nat n <= i < Z.of_nat n)%Z in
  match k with KList l => Forall within l | KInt i => within i | _ => True end.
