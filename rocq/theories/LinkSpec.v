(** * Specifications for [LinkModel.v], independent of its helper functions *)
From Coq Require Import Reals List.
From Verif Require Export LinkModel.
Import ListNotations.
Local Open Scope nat_scope.

(** the cells of a mesh, each with the closest block with points at or above it; [up]: the closest one above the mesh *)
Fixpoint holders (up : option tree) (t : tree) : list (option tree * cell) :=
  match t with
  | Tree pd cd subs =>
      let here := match pd with Some _ => Some t | None => up end in
      match cd with Some c => [(here, c)] | None => [] end ++ flat_map (holders here) subs
  end.
(** the objects that occur in a mesh: its points, and what its cells refer to *)
Fixpoint mentions (t : tree) : list nat :=
  match t with
  | Tree pd cd subs =>
      match pd with Some r => [r] | None => [] end ++ match cd with Some (Cell _ (Some (Pts r))) => [r] | _ => [] end ++ flat_map mentions subs
  end.
Definition present (h : heap) (t : tree) : Prop := forall r, In r (mentions t) -> r < length h.
(** the cells of the mesh find the points of their source, at the same numbers *)
Definition consistent (h : heap) (t : tree) : Prop :=
  forall src c, In (src, c) (holders None t) ->
    exists s r x y, src = Some s /\ tpd s = Some r /\ nth_error h r = Some x /\ source_coords h src c = Ok (x ++ y).
(** the same, wherever the points are and will be moved to *)
Definition sound (t : tree) : Prop := forall h, present h t -> consistent h t.
(** the corners of cells at the given points *)
Definition corners (x : list vec) (rows : list (list nat)) (ps : list (list vec)) : Prop := Forall2 (Forall2 (fun n p => nth_error x n = Some p)) rows ps.
(** the corners as the functions of the cells find them *)
Definition seen (h : heap) (src : option tree) (c : cell) (ps : list (list vec)) : Prop := exists x, source_coords h src c = Ok x /\ corners x (crows c) ps.
(** of a block that is to join a mesh: its cells refer to the points of their source in the block or, if there is none, to nothing *)
Definition ready (b : tree) : Prop :=
  forall src c, In (src, c) (holders None b) ->
    match src with Some s => exists r, tpd s = Some r /\ (clink c = None \/ clink c = Some (Pts r)) | None => clink c = None end.
(** a tree without what the cells refer to *)
Fixpoint unlinked (t : tree) : tree := let 'Tree pd cd subs := t in Tree pd (option_map (fun c => Cell (crows c) None) cd) (map unlinked subs).
(** [t'] is [t] with the block [b] as the last child of the block at [path] *)
Inductive grown : tree -> list nat -> tree -> tree -> Prop :=
| grown_here pd cd subs b : grown (Tree pd cd subs) [] b (Tree pd cd (subs ++ [b]))
| grown_below pd cd l s s' r p b : grown s p b s' -> grown (Tree pd cd (l ++ s :: r)) (length l :: p) b (Tree pd cd (l ++ s' :: r)).
(** the block at a path *)
Fixpoint below (t : tree) (path : list nat) : option tree :=
  match path with [] => Some t | i :: p => match nth_error (tsub t) i with Some s => below s p | None => None end end.
(** two meshes, each in its heap, with the same blocks, points at the same places and the same cells *)
Definition same_points (h : heap) (pd : option nat) (h' : heap) (pd' : option nat) : Prop :=
  match pd, pd' with Some r, Some r' => exists x, nth_error h r = Some x /\ nth_error h' r' = Some x | None, None => True | _, _ => False end.
Inductive same_mesh (h h' : heap) : tree -> tree -> Prop :=
| same_tree pd pd' cd cd' subs subs' : same_points h pd h' pd' -> option_map crows cd = option_map crows cd' -> Forall2 (same_mesh h h') subs subs' ->
    same_mesh h h' (Tree pd cd subs) (Tree pd' cd' subs').
