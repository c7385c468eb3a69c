(** * Properties C88 - C90: frames and point clouds *)
From Coq Require Import Reals Lra Lia ZArith List Permutation Sorted.
From Verif Require Import Base BaseFacts TrSpec FrameModel FrameSpec FrameProofs FrameProofs2 FrameProofs3.
Import ListNotations.
Local Open Scope R_scope.

(** ** C88 Coordinates in other frames *)

(** Without a target the coordinates are those of the places in the standard frame, for every cloud. *)
Theorem C88_ambient :
  forall c, same_places (cframe c) (array c) standard (show c None).
Proof. exact @show_ambient. Qed.
Print Assumptions C88_ambient.
(** With a target they describe the same places.  Missing: clouds in a frame without an origin (refuted below). *)
Theorem C88_partial :
  forall c t, orthonormal (axes t) -> (exists a o, cframe c = Cartesian a o) -> same_places (cframe c) (array c) t (show c (Some t)).
Proof. exact @show_places. Qed.
Print Assumptions C88_partial.
(** For clouds in any frame, if the target is at the origin. *)
Theorem C88_plain :
  forall c t, orthonormal (axes t) -> (exists a, t = Plain a \/ t = Cartesian a (0, 0, 0)) -> same_places (cframe c) (array c) t (show c (Some t)).
Proof. exact @show_plain. Qed.
Print Assumptions C88_plain.
(** These are the only coordinates of the points in the target. *)
Theorem C88_unique :
  forall c t qs, orthonormal (axes t) -> (exists a o, cframe c = Cartesian a o) -> same_places (cframe c) (array c) t qs -> qs = show c (Some t).
Proof. exact @show_unique. Qed.
Print Assumptions C88_unique.
(** In their own frame the coordinates are unchanged. *)
Theorem C88_own :
  forall c, orthonormal (axes (cframe c)) -> (exists a o, cframe c = Cartesian a o) -> show c (Some (cframe c)) = array c.
Proof. exact @show_own. Qed.
Print Assumptions C88_own.
(** Setting the frame does not move the points. *)
Theorem C88_frame :
  forall c t, orthonormal (axes t) -> (exists a o, cframe c = Cartesian a o) ->
  cframe (set_frame c t) = t /\ inds (set_frame c t) = inds c /\ same_places (cframe c) (array c) t (array (set_frame c t)).
Proof. exact @set_frame_places. Qed.
Print Assumptions C88_frame.
(** The relative origin is the origin, seen from the target. *)
Theorem C88_origin :
  forall o t, orthonormal (axes t) -> placed_at t (relative_origo o (Some t)) o.
Proof. exact @relative_origo_place. Qed.
Print Assumptions C88_origin.
Example C88_ex : let f := Cartesian ((0, 1, 0), (-1, 0, 0), (0, 0, 1)) (5, 0, 0) in let t := Cartesian ((0, 0, 1), (1, 0, 0), (0, 1, 0)) (0, 2, 0) in
  orthonormal (axes f) /\ orthonormal (axes t) /\ show (Cloud [(1, 0, 0)] f None) (Some t) = [(0, 5, -1)].
Proof.
  cbn zeta. split; [cbn; repeat split; lra|]. split; [cbn; repeat split; lra|]. rewrite show_map. cbn. f_equal. apply triple_eq; lra.
Qed.

(** For a cloud in a frame of the package neumann, which has no origin, the origin of the target is ignored. *)
Theorem C88_refuted :
  exists xs i a o, orthonormal a /\ ~ same_places (Plain a) xs (Cartesian a o) (show (Cloud xs (Plain a) i) (Some (Cartesian a o))).
Proof. exact @show_plain_wrong. Qed.
Print Assumptions C88_refuted.
(** ** C89 Moving points and frames *)

(** An array with a frame: every point is moved by that vector. *)
Theorem C89_move :
  forall c w g, orthonormal (axes (cframe c)) ->
  moved_places (direction (axes g) w) (cframe c) (array c) (cframe c) (array (move c (Array w) (Some g))).
Proof. exact @move_places. Qed.
Print Assumptions C89_move.
(** An array without a frame: the components are those of the frame of the points.  Missing: the root frame, as documented (refuted below). *)
Theorem C89_move_partial :
  forall c w, moved_places (direction (axes (cframe c)) w) (cframe c) (array c) (cframe c) (array (move c (Array w) None)).
Proof. exact @move_local. Qed.
Print Assumptions C89_move_partial.
(** The frame and the indices stay. *)
Theorem C89_keeps :
  forall c v f, cframe (move c v f) = cframe c /\ inds (move c v f) = inds c.
Proof. exact @move_keeps. Qed.
Print Assumptions C89_keeps.
Example C89_ex : orthonormal (axes turned) /\ array (move (Cloud [(1, 2, 3)] turned None) (Array (1, 0, 0)) (Some standard)) = [(1, 1, 3)].
Proof. split; [apply orthonormal_turned|]. rewrite move_value. cbn. f_equal. apply triple_eq; lra. Qed.

(** Without a frame the points are not moved in the root frame. *)
Theorem C89_move_refuted :
  exists c w a, cframe c = Cartesian a vzero /\ orthonormal a /\ ~ moved_places w (cframe c) (array c) (cframe c) (array (move c (Array w) None)).
Proof. exact @move_root_wrong. Qed.
Print Assumptions C89_move_refuted.
(** A vector with a frame of its own: the frame is ignored. *)
Theorem C89_vector_refuted :
  exists c w a, cframe c = standard /\ orthonormal a /\
  ~ moved_places (direction a w) (cframe c) (array c) (cframe c) (array (move c (Vect w (Some (Cartesian a vzero))) (Some standard))).
Proof. exact @move_vector_wrong. Qed.
Print Assumptions C89_vector_refuted.
(** Centralizing with a target: the mean of the points, seen from the target, becomes zero along the chosen axes and stays the same along the others; all points are moved by the same vector. *)
Theorem C89_centralize :
  forall c t ax, orthonormal (axes (cframe c)) -> orthonormal (axes t) -> (exists a o, cframe c = Cartesian a o) ->
  array c <> [] -> (forall l, ax = Some l -> Forall (fun i => (i < 3)%nat) l) ->
  exists c' v, centralize c (Some t) ax = Ok c' /\ cframe c' = cframe c /\ inds c' = inds c /\ moved_places v (cframe c) (array c) (cframe c) (array c') /\
    forall qs qs' m m', seen_from (cframe c) (array c) t qs -> centroid qs m -> seen_from (cframe c) (array c') t qs' -> centroid qs' m' ->
      forall i, (i < 3)%nat -> component i m' = if in_dec Nat.eq_dec i (match ax with None => [0; 1; 2]%nat | Some l => l end) then 0 else component i m.
Proof. exact @centralize_target. Qed.
Print Assumptions C89_centralize.
(** Without a target, for points in a frame with the standard axes.  Missing: other frames (refuted below). *)
Theorem C89_centralize_partial :
  forall c ax, axes (cframe c) = ((1, 0, 0), (0, 1, 0), (0, 0, 1)) -> array c <> [] -> (forall l, ax = Some l -> Forall (fun i => (i < 3)%nat) l) ->
  exists c', centralize c None ax = Ok c' /\ cframe c' = cframe c /\ inds c' = inds c /\
    forall qs qs' m m', seen_from (cframe c) (array c) standard qs -> centroid qs m -> seen_from (cframe c) (array c') standard qs' -> centroid qs' m' ->
      forall i, (i < 3)%nat -> component i m' = if in_dec Nat.eq_dec i (match ax with None => [0; 1; 2]%nat | Some l => l end) then 0 else component i m.
Proof. exact @centralize_root. Qed.
Print Assumptions C89_centralize_partial.
Example C89_centralize_ex : let c := Cloud [(1, 2, 3); (3, 2, 1)] turned None in
  orthonormal (axes (cframe c)) /\ orthonormal (axes standard) /\ array c <> [] /\ Forall (fun i => (i < 3)%nat) [0; 2]%nat.
Proof. cbn zeta. split; [apply orthonormal_turned|]. split; [apply orthonormal_eye|]. split; [discriminate|]. repeat constructor. Qed.
Example C89_centralize_root_ex : let c := Cloud [(1, 2, 3); (3, 2, 1)] (Cartesian ((1, 0, 0), (0, 1, 0), (0, 0, 1)) (5, 5, 5)) None in
  axes (cframe c) = ((1, 0, 0), (0, 1, 0), (0, 0, 1)) /\ array c <> [].
Proof. split; [reflexivity|discriminate]. Qed.

(** In a turned frame the centre is not at the origin afterwards. *)
Theorem C89_centralize_refuted :
  exists c c' qs, orthonormal (axes (cframe c)) /\ centralize c None None = Ok c' /\
  seen_from (cframe c) (array c') standard qs /\ centroid qs (1, 1, 0).
Proof. exact @centralize_root_wrong. Qed.
Print Assumptions C89_centralize_refuted.
(** Moving a frame moves its origin by the given vector and keeps the axes. *)
Theorem C89_frame :
  forall a o d f, exists o', frame_move a o d f = Cartesian a o' /\
  displaced (match d with Array w => direction_in f w | Vect w g => direction_in g w end) o o'.
Proof. exact @frame_move_places. Qed.
Print Assumptions C89_frame.
(** Moving a deep copy of a frame does not move the frame. *)
Theorem C89_deep_copy :
  forall m f m' f' d g m'', copy_frame true m f = Ok (m', f') -> move_frame m' f' d g = Ok m'' ->
  exists a o o', frame_at m f = Ok (Cartesian a o) /\ frame_at m' f' = Ok (Cartesian a o) /\ frame_at m'' f = Ok (Cartesian a o) /\
    frame_at m'' f' = Ok (Cartesian a o') /\ displaced (match d with Array w => direction_in g w | Vect w h => direction_in h w end) o o'.
Proof. exact @deep_copy. Qed.
Print Assumptions C89_deep_copy.
Example C89_deep_copy_ex : exists m'' , copy_frame true [(0, 0, 0)] (FrameRef meye 0) = Ok ([(0, 0, 0); (0, 0, 0)], FrameRef meye 1) /\
  move_frame [(0, 0, 0); (0, 0, 0)] (FrameRef meye 1) (Array (1, 0, 0)) None = Ok m''.
Proof. eexists. split; [reflexivity|]. cbn. reflexivity. Qed.

(** Moving a shallow copy moves the original. *)
Theorem C89_shallow_copy_refuted :
  exists m f m' f' m'' a, copy_frame false m f = Ok (m', f') /\ frame_at m f = Ok (Cartesian a (0, 0, 0)) /\
  move_frame m' f' (Array (1, 0, 0)) None = Ok m'' /\ frame_at m'' f = Ok (Cartesian a (1, 0, 0)).
Proof. exact @shallow_copy_wrong. Qed.
Print Assumptions C89_shallow_copy_refuted.
(** The origin cannot be set: a vector is rejected, always. *)
Theorem C89_origo_refuted :
  forall a o v, set_origo a o (inl v) = Err ValueError.
Proof. exact @set_origo_wrong. Qed.
Print Assumptions C89_origo_refuted.
(** A matrix is accepted, but it replaces the axes. *)
Theorem C89_origo_axes_refuted :
  forall a o m, set_origo a o (inr m) = Ok (Cartesian m o).
Proof. exact @set_origo_matrix. Qed.
Print Assumptions C89_origo_axes_refuted.
(** ** C90 Indices of point clouds *)

(** Indexing with slices within the array and a positive step, with lists of indices and with indices: the points are those asked for, and their indices refer to the same array as before.  Missing: other slices and masks (refuted below). *)
Theorem C90_partial :
  forall top c k c', refers_to top c -> plain_key (length (array c)) k -> getitem c k = Ok c' -> refers_to top c' /\ picks (array c) k (array c').
Proof. exact @getitem_refers. Qed.
Print Assumptions C90_partial.
(** Such a key never fails if the indices are within the array. *)
Theorem C90_total :
  forall top c k, refers_to top c -> plain_key (length (array c)) k -> key_within (length (array c)) k -> exists c', getitem c k = Ok c'.
Proof. exact @getitem_total. Qed.
Print Assumptions C90_total.
(** Masks, for a cloud that already has indices. *)
Theorem C90_mask :
  forall c own m c' top, refers_to top c -> inds c = Some own -> getitem c (KMask m) = Ok c' -> refers_to top c'.
Proof. exact @getitem_mask_own. Qed.
Print Assumptions C90_mask.
(** A mask of another length is an IndexError. *)
Theorem C90_mask_length :
  forall c m top, refers_to top c -> length m <> length (array c) -> getitem c (KMask m) = Err IndexError.
Proof. exact @getitem_mask_length. Qed.
Print Assumptions C90_mask_length.
Example C90_ex : let top := map (fun n => (INR n, 0, 0)) (seq 0 6) in let c := Cloud top standard None in
  refers_to top c /\ plain_key 6 (KSlice (Some 1) (Some 5) None)%Z /\
  (exists d, getitem c (KSlice (Some 1) (Some 5) None)%Z = Ok d /\ inds d = Some [1; 2; 3; 4]%Z /\ length (array d) = 4%nat /\ plain_key 4 (KList [1; -1]%Z) /\ key_within 4 (KList [1; -1]%Z) /\
     exists e, getitem d (KList [1; -1]%Z) = Ok e /\ inds e = Some [2; 4]%Z).
Proof.
  cbn zeta. split; [reflexivity|]. split; [cbn; lia|]. eexists. split; [reflexivity|]. split; [reflexivity|]. split; [reflexivity|]. split; [exact I|].
  split; [repeat constructor; lia|]. eexists. split; reflexivity.
Qed.

(** A slice that starts at an index from the end: wrong number of indices. *)
Theorem C90_negative_refuted :
  exists c a c', refers_to (array c) c /\ (- Z.of_nat (length (array c)) <= a < 0)%Z /\
  getitem c (KSlice (Some a) None None) = Ok c' /\ ~ refers_to (array c) c'.
Proof. exact @getitem_negative_wrong. Qed.
Print Assumptions C90_negative_refuted.
(** A slice that ends behind the array: too many indices. *)
Theorem C90_long_refuted :
  exists c b c', refers_to (array c) c /\ (0 <= b)%Z /\ getitem c (KSlice None (Some b) None) = Ok c' /\ ~ refers_to (array c) c'.
Proof. exact @getitem_long_wrong. Qed.
Print Assumptions C90_long_refuted.
(** The same for a cloud with indices: IndexError. *)
Theorem C90_long_fails_refuted :
  exists c b, refers_to (array c) c /\ (0 <= b)%Z /\ inds c = Some [0; 1]%Z /\ getitem c (KSlice None (Some b) None) = Err IndexError.
Proof. exact @getitem_long_fails. Qed.
Print Assumptions C90_long_fails_refuted.
(** A reversed cloud has no indices. *)
Theorem C90_reverse_refuted :
  exists c c', refers_to (array c) c /\ getitem c (KSlice None None (Some (-1))%Z) = Ok c' /\ ~ refers_to (array c) c'.
Proof. exact @getitem_reverse_wrong. Qed.
Print Assumptions C90_reverse_refuted.
(** A mask on a cloud without indices: the indices are zeros and ones. *)
Theorem C90_mask_refuted :
  exists c m c', refers_to (array c) c /\ length m = length (array c) /\ getitem c (KMask m) = Ok c' /\ ~ refers_to (array c) c'.
Proof. exact @getitem_mask_wrong. Qed.
Print Assumptions C90_mask_refuted.
(** In general: they are the entries of the mask, not those of the points chosen. *)
Theorem C90_mask_flags_refuted :
  forall c m c', inds c = None -> getitem c (KMask m) = Ok c' -> length m = length (array c) /\ inds c' = Some (map Z.b2z m).
Proof. exact @getitem_mask_flags. Qed.
Print Assumptions C90_mask_flags_refuted.
Example C90_mask_flags_ex : exists c', getitem (Cloud [(0, 0, 0); (1, 0, 0)] standard None) (KMask [false; true]) = Ok c'.
Proof. eexists. reflexivity. Qed.
(** Sorting: the same pairs of points and indices, in the order of the indices. *)
Theorem C90_sort :
  forall c l, inds c = Some l -> length l = length (array c) ->
  exists c' l', sort_indices c = Ok c' /\ inds c' = Some l' /\ cframe c' = cframe c /\ length l' = length (array c') /\
    Permutation (pairs_of c) (pairs_of c') /\ StronglySorted Z.le l'.
Proof. exact @sort_indices_correct. Qed.
Print Assumptions C90_sort.
Example C90_sort_ex : let c := Cloud [(0, 0, 0); (1, 0, 0); (2, 0, 0)] standard (Some [5; 3; 4]%Z) in
  length [5; 3; 4]%Z = length (array c) /\ exists c', sort_indices c = Ok c' /\ inds c' = Some [3; 4; 5]%Z.
Proof. cbn zeta. split; [reflexivity|]. eexists. split; reflexivity. Qed.
