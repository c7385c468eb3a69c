(** * Vocabulary for quadrature: integrals over reference cells, polynomials *)
From Coq Require Import Reals.
From Verif Require Export ShapeSpec QuadModel.
Local Open Scope R_scope.

(** [v] is the integral of [f] from [a] to [b]: the difference of the values of an antiderivative *)
Definition integral1 (a b : R) (f : R -> R) (v : R) : Prop :=
  exists F, (forall x, derivable_pt_lim F x (f x)) /\ F b - F a = v.
(** iterated integrals over [-1, 1], its square and its cube, *)
Definition integral_line (f : list R -> R) (v : R) : Prop := integral1 (-1) 1 (fun x => f [x]) v.
Definition integral_square (f : list R -> R) (v : R) : Prop :=
  exists g, (forall x, integral1 (-1) 1 (fun y => f [x; y]) (g [x])) /\ integral_line g v.
Definition integral_cube (f : list R -> R) (v : R) : Prop :=
  exists g, (forall x y, integral1 (-1) 1 (fun z => f [x; y; z]) (g [x; y])) /\ integral_square g v.
(** over the triangle 0 <= x, 0 <= y, x + y <= 1, over the tetrahedron 0 <= x, y, z, x + y + z <= 1, and over the
    wedge: triangle times [-1, 1] *)
Definition integral_triangle (f : list R -> R) (v : R) : Prop :=
  exists g, (forall x, integral1 0 (1 - x) (fun y => f [x; y]) (g x)) /\ integral1 0 1 g v.
Definition integral_tetrahedron (f : list R -> R) (v : R) : Prop :=
  exists g, (forall x y, integral1 0 (1 - x - y) (fun z => f [x; y; z]) (g [x; y])) /\ integral_triangle g v.
Definition integral_wedge (f : list R -> R) (v : R) : Prop :=
  exists g, (forall x y, integral1 (-1) 1 (fun z => f [x; y; z]) (g [x; y])) /\ integral_triangle g v.

(** a polynomial: the sum of the given multiples of monomials *)
Definition poly (terms : list (R * list nat)) (p : list R) : R :=
  rsum (map (fun ce => fst ce * monomial (snd ce) p) terms).
(** polynomials in [dim] variables with total degree [n] at most, with degree [n] at most in each variable, and
    for wedges: total degree [n] in the first two variables, degree [m] in the third one *)
Definition total_degree (dim n : nat) (terms : list (R * list nat)) : Prop :=
  Forall (fun ce => length (snd ce) = dim /\ (fold_right plus 0 (snd ce) <= n)%nat) terms.
Definition each_degree (dim n : nat) (terms : list (R * list nat)) : Prop :=
  Forall (fun ce => length (snd ce) = dim /\ Forall (fun e => (e <= n)%nat) (snd ce)) terms.
Definition wedge_degree (n m : nat) (terms : list (R * list nat)) : Prop :=
  Forall (fun ce => exists i j k, snd ce = [i; j; k] /\ (i + j <= n)%nat /\ (k <= m)%nat) terms.
(** degrees bounded in each variable by the given numbers *)
Definition degrees (ds : list nat) (terms : list (R * list nat)) : Prop :=
  Forall (fun ce => Forall2 (fun e d => (e <= d)%nat) (snd ce) ds) terms.

(** the value a rule assigns to a function *)
Definition quad (q : rule) (f : list R -> R) : R :=
  rsum (map (fun pw => snd pw * f (fst pw)) (combine (fst q) (snd q))).

(** the point is in the tetrahedron 0 <= x, y, z, x + y + z <= 1 *)
Definition in_tetrahedron (p : list R) : Prop := Forall (fun x => 0 <= x) p /\ rsum p <= 1.
(** the rule with the number [new] in the place of the coordinates that are equal to [old] *)
Definition with_coordinate (old new : R) (q : rule) : rule :=
  (map (map (fun x => if Req_EM_T x old then new else x)) (fst q), snd q).
(** the rule with the points from number [n] on mirrored in the plane z = 0 *)
Definition mirrored_from (n : nat) (q : rule) : rule :=
  (firstn n (fst q) ++ map (fun p => [nth 0 p 0; nth 1 p 0; - nth 2 p 0]) (skipn n (fst q)), snd q).

(** ** Volumes of cells *)

(** coordinate [a] of the point of the cell (a list of nodes) at the local coordinates [p] *)
Definition position (shp : list R -> res (list R)) (cell : list (list R)) (a : nat) (p : list R) : R :=
  match shp p with Ok N => dot N (map (fun x => nth a x 0) cell) | Err _ => 0 end.
(** [J p a d] is the derivative of coordinate [a] in the local direction [d] *)
Definition is_jacobian (dim : nat) (shp : list R -> res (list R)) (cell : list (list R)) (J : list R -> nat -> nat -> R) : Prop :=
  forall p a d, length p = dim -> (a < dim)%nat -> (d < dim)%nat ->
    derivable_pt_lim (fun x => position shp cell a (replace_nth d x p)) (nth d p 0) (J p a d).
Definition jac_det2 (J : list R -> nat -> nat -> R) (p : list R) : R :=
  J p 0%nat 0%nat * J p 1%nat 1%nat - J p 0%nat 1%nat * J p 1%nat 0%nat.
Definition jac_det3 (J : list R -> nat -> nat -> R) (p : list R) : R :=
  det_uvw (J p 0%nat) (J p 1%nat) (J p 2%nat).
(** the area or volume of a cell: the integral over the reference cell of the determinant of the derivative of
    the map to the cell *)
Definition cell_area (integ : (list R -> R) -> R -> Prop) (shp : list R -> res (list R)) (cell : list (list R)) (v : R) : Prop :=
  exists J, is_jacobian 2 shp cell J /\ integ (jac_det2 J) v.
Definition cell_volume (integ : (list R -> R) -> R -> Prop) (shp : list R -> res (list R)) (cell : list (list R)) (v : R) : Prop :=
  exists J, is_jacobian 3 shp cell J /\ integ (jac_det3 J) v.

(** the nodes of the cell are the images of the nodes of the reference cell under an affine map *)
Definition affine_image (dim : nat) (lcoords cell : list (list R)) : Prop :=
  exists b A, length A = dim /\ rect dim A /\
    cell = map (fun q => map (fun a => affine (nth a b 0) (nth a A []) q) (seq 0 dim)) lcoords.
(** signed area and volume spanned by the edges from node [i] to the other nodes *)
Definition edge (cell : list (list R)) (i j a : nat) : R := nth a (nth j cell []) 0 - nth a (nth i cell []) 0.
Definition parallelogram (cell : list (list R)) (i j k : nat) : R :=
  edge cell i j 0 * edge cell i k 1 - edge cell i j 1 * edge cell i k 0.
Definition parallelepiped (cell : list (list R)) (i j k l : nat) : R :=
  det_uvw (edge cell i j) (edge cell i k) (edge cell i l).
(** cells with [n] nodes in [dim] dimensions *)
Definition shaped (n dim : nat) (cells : list (list (list R))) : Prop := Forall (fun c => length c = n /\ rect dim c) cells.
