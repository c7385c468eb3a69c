(** * Specification vocabulary for the evaluators of element classes *)
From Coq Require Import Reals.
From Verif Require Export ShapeSpec ClassModel.
Local Open Scope R_scope.

(** the shape functions of a class: the formulas of utils/cells (C28 to C30 are about them), or the usual formulas *)
Definition shape_of (k : kind) : list R -> list R :=
  match k with
  | KL2 => values shp_L2 | KL3 => shape_L3 | KT3 => values shp_T3 | KT6 => values shp_T6 | KQ4 => values shp_Q4 | KQ9 => values shp_Q9
  | KTET4 => values shp_TET4 | KTET10 => shape_TET10 | KH8 => values shp_H8 | KH27 => values shp_H27 | KW6 => shape_W6 | KW18 => shape_W18
  end.
Definition dim_of (k : kind) : nat :=
  match k with KL2 | KL3 => 1 | KT3 | KT6 | KQ4 | KQ9 => 2 | _ => 3 end.
Definition nodes_of (k : kind) : nat :=
  match k with KL2 => 2 | KL3 => 3 | KT3 => 3 | KT6 => 6 | KQ4 => 4 | KQ9 => 9 | KTET4 => 4 | KTET10 => 10 | KH8 => 8 | KH27 => 27 | KW6 => 6 | KW18 => 18 end.
Definition has_formulas (k : kind) : bool := match k with KL3 | KTET10 | KW6 | KW18 => false | _ => true end.

(** [inv] inverts the matrix of the monomials of a class at its nodes, if this matrix can be built *)
Definition inverts (inv : list (list R) -> list (list R)) (k : kind) : Prop :=
  let e := element_of k in
  forall M, gen_matrix (e_nodes e) (e_lcoords e) (e_monoms e) = Ok M -> right_inverse (nodes_of k) M (inv M).

(** the rows of [D] are the gradients of the functions [shape] at [p] *)
Definition gradients_at (dim n : nat) (shape : list R -> list R) (p : list R) (D : list (list R)) : Prop :=
  length D = n /\ rect dim D /\
  forall j d, (j < n)%nat -> (d < dim)%nat ->
    derivable_pt_lim (fun x => nth j (shape (replace_nth d x p)) 0) (nth d p 0) (nth d (nth j D []) 0).
(** [M] times the stacked nodal values [u], one row of [ndof] values per node, is the interpolated value at [p] *)
Definition interpolation_matrix (n ndof : nat) (shape : list R -> list R) (p : list R) (M : list (list R)) : Prop :=
  length M = ndof /\ rect (ndof * n) M /\
  forall u a, length u = n -> rect ndof u -> (a < ndof)%nat -> dot (nth a M []) (concat u) = dot (shape p) (map (fun v => nth a v 0) u).
