(** * Specifications for [TriangModel.v] *)
From Coq Require Import Reals List.
From Verif Require Export TrSpec NetSpec TriangModel.
Import ListNotations.
Local Open Scope R_scope.

(** the package an object belongs to, its points in the plane and its triangles *)
Definition backend_of (o : triobj) : option backend :=
  match o with Scipy _ _ => Some BScipy | Mpl _ _ _ => Some BMpl | Pv _ _ => Some BPv | NoTriobj => None end.
Definition points_of (o : triobj) : list (list R) :=
  match o with
  | Scipy p _ => p
  | Mpl x y _ => map (fun ab => [fst ab; snd ab]) (combine x y)
  | Pv p _ => map (firstn 2) p
  | NoTriobj => []
  end.
Definition triangles_of (o : triobj) : list (list nat) :=
  match o with Scipy _ t | Mpl _ _ t | Pv _ t => t | NoTriobj => [] end.
(** an object of scipy or matplotlib *)
Definition sound_object (o : triobj) : Prop :=
  match o with Scipy _ _ => True | Mpl x y _ => length x = length y | _ => False end.
(** triangles between [n] points *)
Definition triangles_in (n : nat) (t : list (list nat)) : Prop := Forall (fun r => length r = 3%nat /\ Forall (fun k => (k < n)%nat) r) t.
(** points with at least two coordinates *)
Definition flat (p : list (list R)) : Prop := Forall (fun r => (2 <= length r)%nat) p.

(** the arguments [triobj=o, backend=b], [points=p, backend=b] and [points=p, triangles=t, backend=b] *)
Definition object_args (o : triobj) (b : backend) : targs :=
  {| t_first := None; t_points := None; t_size := None; t_shape := NoShape; t_origo := None; t_backend := b; t_random := false;
     t_triangles := None; t_triobj := Some o; t_trim2d := true |}.
Definition points_args (p : list (list R)) (b : backend) : targs :=
  {| t_first := None; t_points := Some p; t_size := None; t_shape := NoShape; t_origo := None; t_backend := b; t_random := false;
     t_triangles := None; t_triobj := None; t_trim2d := true |}.
Definition given_args (p : list (list R)) (t : list (list nat)) (b : backend) : targs :=
  {| t_first := None; t_points := Some p; t_size := None; t_shape := NoShape; t_origo := None; t_backend := b; t_random := false;
     t_triangles := Some t; t_triobj := None; t_trim2d := true |}.
(** [size=(lx, ly), shape=shape, origo=origo, random=random] *)
Definition rectangle_args (lx ly : R) (shape : shape_arg) (origo : list R) (random : bool) : targs :=
  {| t_first := None; t_points := None; t_size := Some (lx, ly); t_shape := shape; t_origo := Some origo; t_backend := BMpl; t_random := random;
     t_triangles := None; t_triobj := None; t_trim2d := true |}.
(** the triangles a package finds for points *)
Definition found_by (sp : list (list R) -> res (list (list nat))) (mp : list R -> list R -> res (list (list nat))) (pv : list (list R) -> res (list (list nat)))
    (b : backend) (p : list (list R)) : res (list (list nat)) :=
  match b with
  | BMpl => mp (map (fun r => nth 0 r 0) p) (map (fun r => nth 1 r 0) p)
  | BScipy => sp (map (firstn 2) p)
  | BPv => pv p
  | BOther => Err ValueError
  end.
(** random numbers between 0 and 1 *)
Definition random_numbers (f : nat -> list R) : Prop := forall n, length (f n) = n /\ Forall (fun x => 0 <= x < 1) (f n).
