(** * Properties C131 to C133: the points that cells refer to *)
From Coq Require Import Reals List Lia Lra Arith Sorted.
From Verif Require Import LinkModel LinkSpec LinkProofs LinkProofs2.
Import ListNotations.
Local Open Scope nat_scope.

(** ** C131 Cells find the points of their mesh *)

(** New meshes with coordinates, with or without cells: the cells find the points, wherever these are moved. *)
Theorem C131_new :
  forall h x rows, sound (snd (new_mesh h x rows)) /\ sound (snd (new_points h x)) /\ present (fst (new_mesh h x rows)) (snd (new_mesh h x rows)).
Proof. exact @new_mesh_sound. Qed.
Print Assumptions C131_new.
(** The same for a block made of objects with points and cells. *)
Theorem C131_new_block :
  forall r cd, sound (new_block (Some r) cd).
Proof. exact @new_block_sound. Qed.
Print Assumptions C131_new_block.
(** A block whose cells refer to their points in the block, or to nothing, joins a mesh with points at any block: only this block is added, and all cells find the points of their source.  Missing: blocks that were part of another mesh (refuted below), meshes without points. *)
Theorem C131_partial :
  forall t path b, sound t -> ready b -> tpd t <> None -> below t path <> None ->
  exists b' t', join None t path b = Ok t' /\ grown t path b' t' /\ unlinked b' = unlinked b /\ sound t'.
Proof. exact @join_sound. Qed.
Print Assumptions C131_partial.
(** New blocks of cells only, and blocks in which all cells find their points, can join. *)
Theorem C131_ready :
  forall rows b, sound b -> ready (new_block None (Some rows)) /\ ready b.
Proof. exact @new_ready. Qed.
Print Assumptions C131_ready.
(** New cells cannot join a mesh without points. *)
Theorem C131_no_points :
  forall t rows, tpd t = None -> join None t [] (new_block None (Some rows)) = Err AttributeError.
Proof. exact @join_no_points. Qed.
Print Assumptions C131_no_points.
(** Leaving a mesh removes just this block; the cells that are left still find their points. *)
Theorem C131_leave :
  forall t i t' b, leave t i = Ok (t', b) ->
  (exists l r, tsub t = l ++ b :: r /\ length l = i /\ t' = Tree (tpd t) (tcd t) (l ++ r)) /\ (sound t -> sound t').
Proof. exact @leave_sound. Qed.
Print Assumptions C131_leave.
(** A block that leaves a mesh and joins another still refers to the points of the first. *)
Theorem C131_refuted :
  exists i j c t2', i <> j /\ sound (Tree (Some i) None [Tree None (Some c) []]) /\
  leave (Tree (Some i) None [Tree None (Some c) []]) 0 = Ok (Tree (Some i) None [], Tree None (Some c) []) /\
  sound (Tree (Some j) None []) /\ join None (Tree (Some j) None []) [] (Tree None (Some c) []) = Ok t2' /\ ~ sound t2'.
Proof. exact @leave_wrong. Qed.
Print Assumptions C131_refuted.
(** points, below them a block without points or cells, which a block of cells joins *)
Definition nested : tree := Tree (Some 0) None [Tree None None []].
Example C131_ex : sound nested /\ ready (new_block None (Some [[0; 1]])) /\ tpd nested <> None /\ below nested [0] <> None /\
  join None nested [0] (new_block None (Some [[0; 1]])) = Ok (Tree (Some 0) None [Tree None None [Tree None (Some (Cell [[0; 1]] (Some (Pts 0)))) []]]).
Proof. split; [apply sound_linked; cbn; auto|]. split; [exact (proj1 (new_ready [[0; 1]] nested ltac:(apply sound_linked; cbn; auto)))|]. split; [discriminate|]. split; [discriminate|reflexivity]. Qed.
Example C131_no_points_ex : tpd (Tree None None []) = None.
Proof. reflexivity. Qed.
Example C131_leave_ex : leave (with_child 0) 0 = Ok (bare 0, Tree None (Some (Cell [[0]] (Some (Pts 0)))) []) /\ sound (with_child 0).
Proof. split; [reflexivity|]. apply sound_linked. cbn. eauto 10. Qed.

(** ** C132 Copies *)

(** A deep copy has the same blocks, points and cells, its cells find its points, and no object is shared with the original. *)
Theorem C132_deep :
  forall h t, sound t -> present h t ->
  exists h' t', copy_mesh true h t = Ok (h', t') /\ (exists e, h' = h ++ e) /\ same_mesh h h' t t' /\ sound t' /\ present h' t' /\ (forall r, In r (mentions t') -> ~ In r (mentions t)).
Proof. exact @deep_copy. Qed.
Print Assumptions C132_deep.
(** So moving the copy leaves the original where it is, and the other way round. *)
Theorem C132_separate :
  forall h t t' d h', (forall r, In r (mentions t') -> ~ In r (mentions t)) -> move h t' d = Ok h' -> forall r, In r (mentions t) -> nth_error h' r = nth_error h r.
Proof. exact @move_separate. Qed.
Print Assumptions C132_separate.
(** The same for a shallow copy, if the root has no cells or its cells refer to nothing.  Missing: a root with cells that refer to its points (refuted below). *)
Theorem C132_partial :
  forall h t, sound t -> present h t -> tcd t = None \/ (exists c, tcd t = Some c /\ clink c = None) ->
  exists h' t', copy_mesh false h t = Ok (h', t') /\ (exists e, h' = h ++ e) /\ same_mesh h h' t t' /\ sound t' /\ present h' t' /\ (forall r, In r (mentions t') -> ~ In r (mentions t)).
Proof. exact @shallow_copy. Qed.
Print Assumptions C132_partial.
(** The shallow copy of every new mesh with cells: after the copy is moved, its cells still find the old points. *)
Theorem C132_refuted :
  forall h x rows d, exists h2 t2 c h3,
  copy_mesh false (fst (new_mesh h x rows)) (snd (new_mesh h x rows)) = Ok (h2, t2) /\ ~ sound t2 /\ tcd t2 = Some c /\
  move h2 t2 d = Ok h3 /\ coords h3 t2 = Ok (map (fun p => vplus p d) x) /\ source_coords h3 (Some t2) c = Ok x.
Proof. exact @shallow_stale. Qed.
Print Assumptions C132_refuted.
Definition family : tree := Tree (Some 0) (Some (Cell [[0; 1]] (Some (Pts 0)))) [Tree (Some 1) (Some (Cell [[1; 0]] (Some (Pts 1)))) []; Tree None (Some (Cell [[1; 0]] (Some (Pts 0)))) []].
Definition two : heap := [[(0, 0, 0); (1, 0, 0)]; [(0, 1, 0); (0, 2, 0)]]%R.
Example C132_ex : sound family /\ present two family /\
  copy_mesh true two family = Ok (two ++ two, Tree (Some 2) (Some (Cell [[0; 1]] (Some (Pts 2)))) [Tree (Some 3) (Some (Cell [[1; 0]] (Some (Pts 3)))) []; Tree None (Some (Cell [[1; 0]] (Some (Pts 2)))) []]).
Proof. split; [apply sound_linked; cbn; eauto 15|]. split; [|reflexivity]. intros r Hr. cbn in Hr |- *. intuition lia. Qed.
Example C132_separate_ex : (forall r, In r (mentions (bare 1)) -> ~ In r (mentions (bare 0))) /\ exists h', move two (bare 1) (1, 1, 1)%R = Ok h'.
Proof. split; [cbn; intros r [<-|[]] [H|[]]; discriminate|]. eexists. reflexivity. Qed.
Example C132_partial_ex : sound (with_child 0) /\ present two (with_child 0) /\ tcd (with_child 0) = None.
Proof. split; [apply sound_linked; cbn; eauto 10|]. split; [|reflexivity]. intros r Hr. cbn in Hr |- *. intuition lia. Qed.

(** ** C133 Renumbering, standard form and detached blocks *)

(** Cells that refer to nothing: after nummrg they find the corners they had, and the points are the used ones, in the old order. *)
Theorem C133_unlinked :
  forall h r c x, nth_error h r = Some x -> Forall (Forall (fun n => n < length x)) (crows c) -> clink c = None ->
  exists h' t' c', nummrg h r c = Ok (h', t') /\ tcd t' = Some c' /\ sound t' /\ (forall ps, corners x (crows c) ps -> seen h' (Some t') c' ps) /\
    exists inds y, StronglySorted lt inds /\ (forall n, In n inds <-> In n (concat (crows c))) /\ Forall2 (fun n p => nth_error x n = Some p) inds y /\ tpd t' = Some (length h) /\ h' = h ++ [y].
Proof. exact @nummrg_unlinked. Qed.
Print Assumptions C133_unlinked.
(** Cells that refer to their points, if all points are used: the cells and their corners are unchanged.  Missing: unused points (refuted below). *)
Theorem C133_partial :
  forall h r c x, nth_error h r = Some x -> Forall (Forall (fun n => n < length x)) (crows c) -> clink c = Some (Pts r) -> (forall n, n < length x -> In n (concat (crows c))) ->
  exists h' t' c', nummrg h r c = Ok (h', t') /\ tcd t' = Some c' /\ crows c' = crows c /\ forall ps, corners x (crows c) ps -> seen h' (Some t') c' ps.
Proof. exact @nummrg_all_used. Qed.
Print Assumptions C133_partial.
(** Whenever the cells refer to their points, they find the old points after nummrg, while their numbers are those of the new points. *)
Theorem C133_stale :
  forall h r c x, nth_error h r = Some x -> Forall (Forall (fun n => n < length x)) (crows c) -> clink c = Some (Pts r) ->
  exists h' t' c', nummrg h r c = Ok (h', t') /\ tcd t' = Some c' /\ ~ sound t' /\ source_coords h' (Some t') c' = Ok x /\
    (forall ps y r', tpd t' = Some r' -> nth_error h' r' = Some y -> corners x (crows c) ps -> corners y (crows c') ps) /\
    exists inds y, StronglySorted lt inds /\ (forall n, In n inds <-> In n (concat (crows c))) /\ Forall2 (fun n p => nth_error x n = Some p) inds y /\ tpd t' = Some (length h) /\ h' = h ++ [y].
Proof. exact @nummrg_stale. Qed.
Print Assumptions C133_stale.
(** So the cells of a sound mesh find other corners than before. *)
Theorem C133_refuted :
  exists h x c h' t' c' ps, nth_error h 0 = Some x /\ Forall (Forall (fun n => n < length x)) (crows c) /\ sound (Tree (Some 0) (Some c) []) /\
  nummrg h 0 c = Ok (h', t') /\ tcd t' = Some c' /\ seen h (Some (Tree (Some 0) (Some c) [])) c ps /\ ~ seen h' (Some t') c' ps.
Proof. exact @nummrg_wrong. Qed.
Print Assumptions C133_refuted.
(** Standard form: one set of points, made of those of the blocks; each cell finds the corners it had. *)
Theorem C133_standard :
  forall h t, sound t -> present h t -> refs t <> [] ->
  (forall r x, In r (refs t) -> nth_error h r = Some x -> length x <> 1) ->
  (forall s c r x, In (Some s, c) (holders None t) -> tpd s = Some r -> nth_error h r = Some x -> Forall (Forall (fun n => n < length x)) (crows c)) ->
  exists h' t', to_standard_form h t = Ok (h', t') /\ sound t' /\ present h' t' /\ refs t' = [length h] /\ (exists X, coords h t = Ok X /\ h' = h ++ [X]) /\
    Forall2 (fun a b => forall ps, seen h (fst a) (snd a) ps -> seen h' (fst b) (snd b) ps) (holders None t) (holders None t').
Proof. exact @standard_form. Qed.
Print Assumptions C133_standard.
(** Detaching a block without cells of its own: the cells below find their points.  Missing: a block with cells, objects of its own (refuted below). *)
Theorem C133_detach_partial :
  forall r t, tcd t = None -> sound (detach r t) /\ forall q, In q (mentions (detach r t)) -> q = r.
Proof. exact @detach_sound. Qed.
Print Assumptions C133_detach_partial.
(** The cells of a detached block refer to the mesh instead of its points: asking for their coordinates is an error. *)
Theorem C133_detach_refuted :
  forall r t c, tcd t = Some c -> exists c', tcd (detach r t) = Some c' /\ crows c' = crows c /\ (forall h src, source_coords h src c' = Err AttributeError) /\ ~ sound (detach r t).
Proof. exact @detach_lost. Qed.
Print Assumptions C133_detach_refuted.
(** A detached mesh shares its points with the original: moving one moves the other. *)
Theorem C133_shared_refuted :
  forall h t r x d, tpd t = Some r -> nth_error h r = Some x ->
  exists h', move h (detach r t) d = Ok h' /\ nth_error h' r = Some (map (fun p => vplus p d) x).
Proof. exact @detach_shared. Qed.
Print Assumptions C133_shared_refuted.
Definition loose : cell := Cell [[1; 2]] None.
Definition three : list vec := [(0, 0, 0); (1, 0, 0); (2, 0, 0)]%R.
Example C133_ex : nth_error [three] 0 = Some three /\ Forall (Forall (fun n => n < length three)) (crows loose) /\ clink loose = None /\ corners three (crows loose) [[(1, 0, 0); (2, 0, 0)]]%R.
Proof. split; [reflexivity|]. split; [cbn; repeat constructor|]. split; [reflexivity|]. repeat constructor. Qed.
Example C133_partial_ex : nth_error [three] 0 = Some three /\ Forall (Forall (fun n => n < length three)) [[2; 1]; [1; 0]] /\ forall n, n < length three -> In n (concat [[2; 1]; [1; 0]]).
Proof. split; [reflexivity|]. split; [cbn; repeat constructor|]. cbn. intros n Hn. lia. Qed.
Example C133_standard_ex : sound family /\ present two family /\ refs family <> [] /\ (forall r x, In r (refs family) -> nth_error two r = Some x -> length x <> 1) /\
  (forall s c r x, In (Some s, c) (holders None family) -> tpd s = Some r -> nth_error two r = Some x -> Forall (Forall (fun n => n < length x)) (crows c)) /\
  exists h', to_standard_form two family = Ok (h', Tree (Some 2) (Some (Cell [[0; 1]] None)) [Tree None (Some (Cell [[3; 2]] None)) []; Tree None (Some (Cell [[1; 0]] None)) []]).
Proof.
  split; [exact (proj1 C132_ex)|]. split; [exact (proj1 (proj2 C132_ex))|]. split; [discriminate|]. split; [|split].
  - intros r x Hr Hx. cbn in Hr. destruct Hr as [<-|[<-|[]]]; injection Hx as <-; discriminate.
  - intros s c r x Hin Hr Hx. cbn in Hin. destruct Hin as [H|[H|[H|[]]]]; injection H as <- <-; injection Hr as <-; injection Hx as <-; cbn; repeat constructor.
  - eexists. reflexivity.
Qed.
Example C133_detach_ex : tcd (with_child 0) = None /\ tcd family = Some (Cell [[0; 1]] (Some (Pts 0))) /\ tpd family = Some 0.
Proof. repeat split. Qed.
