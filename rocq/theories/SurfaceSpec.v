(** * Specifications for [SurfaceModel.v] *)
From Coq Require Import Reals ZArith List Permutation.
From Verif Require Export QuerySpec SurfaceModel.
Import ListNotations.

(** The points of a surface are points of the mesh, with the numbers [orig]; its triangles refer to its points. *)
Definition surface_of (x : list vec) (s : list vec * list (list nat)) (orig : list nat) : Prop :=
  Forall2 (fun q i => nth_error x i = Some q) (fst s) orig /\ Forall (Forall (fun i => (i < length (fst s))%nat)) (snd s).
(** the places of the nodes of the triangles *)
Definition triangles_at (x : list vec) (ts : list (list nat)) (ps : list (list vec)) : Prop :=
  Forall2 (Forall2 (fun i q => nth_error x i = Some q)) ts ps.
(** the rows with other names *)
Definition renamed (orig : list nat) (ts ts' : list (list nat)) : Prop :=
  Forall2 (Forall2 (fun i n => nth_error orig i = Some n)) ts ts'.
(** [t] is a face of the tetrahedron [r]: three of its nodes *)
Definition face_of (t r : list nat) : Prop := length t = 3%nat /\ NoDup t /\ incl t r.
(** a face of one cell only *)
Definition on_boundary (topo : list (list nat)) (t : list nat) : Prop :=
  exists i r, nth_error topo i = Some r /\ face_of t r /\ forall j r', nth_error topo j = Some r' -> face_of t r' -> j = i.
(** tetrahedra: four different nodes each, of [n] nodes *)
Definition tetrahedra (n : nat) (topo : list (list nat)) : Prop :=
  Forall (fun r => length r = 4%nat /\ NoDup r /\ Forall (fun i => (i < n)%nat) r) topo.
(** the triangles are the faces on the boundary, in some order and with some orientation *)
Definition covers_boundary (topo ts : list (list nat)) : Prop :=
  forall t, (exists t', In t' ts /\ Permutation t' t) <-> on_boundary topo t.
(** What is expected of the tool: for tetrahedra it finds the faces that belong to one cell only; for other cells nothing is known but that the
    points are points of the mesh. *)
Definition finds_surface (tool : surface_tool) : Prop :=
  forall x topo, exists orig, surface_of x (tool x topo) orig /\
    (tetrahedra (length x) topo -> forall ts, renamed orig (snd (tool x topo)) ts -> covers_boundary topo ts).
(** a frame that neither moves nor turns: coordinates in it are those in the standard frame *)
Definition plain_frame (T : frame) : Prop := T = standard \/ T = Plain (axes standard).
