(** * Specification vocabulary for reference elements and shape functions *)
From Coq Require Import Reals.
From Verif Require Export SplitSpec.
Local Open Scope R_scope.

(** shape function k has value 1 at node k and 0 at the other nodes *)
Definition interpolates_nodes (shp : list R -> res (list R)) (lcoords : list (list R)) : Prop :=
  forall k p, nth_error lcoords k = Some p ->
  exists N, shp p = Ok N /\ length N = length lcoords /\
    forall j, (j < length lcoords)%nat -> nth j N 0 = if Nat.eqb j k then 1 else 0.

(** interpolating the values of [f] at the nodes gives [f] everywhere *)
Definition reproduces (dim : nat) (shp : list R -> res (list R)) (lcoords : list (list R))
    (f : list R -> R) : Prop :=
  forall p, length p = dim ->
  exists N, shp p = Ok N /\ length N = length lcoords /\
    rsum (map (fun Nq => fst Nq * f (snd Nq)) (combine N lcoords)) = f p.

(** a0 + a1 x1 + ... + an xn *)
Definition affine (a0 : R) (a : list R) (p : list R) : R :=
  a0 + rsum (map (fun ax => fst ax * snd ax) (combine a p)).
(** x1^e1 ... xn^en *)
Definition monomial (e : list nat) (p : list R) : R :=
  fold_right Rmult 1 (map (fun ex => pow (snd ex) (fst ex)) (combine e p)).

(** the j-th shape function along the line through [p] in coordinate direction [d] *)
Definition replace_nth {A} (d : nat) (x : A) (l : list A) : list A := firstn d l ++ x :: skipn (S d) l.
Definition along (shp : list R -> res (list R)) (p : list R) (d j : nat) (x : R) : R :=
  match shp (replace_nth d x p) with Ok N => nth j N 0 | Err _ => 0 end.
(** [dshp] returns at every point the partial derivatives of the [n] functions [shp] *)
Definition differentiates (dim n : nat) (shp : list R -> res (list R)) (dshp : list R -> res (list (list R))) : Prop :=
  forall p, length p = dim ->
  exists D, dshp p = Ok D /\ length D = n /\ rect dim D /\
    forall j d, (j < n)%nat -> (d < dim)%nat ->
      derivable_pt_lim (along shp p d j) (nth d p 0) (nth d (nth j D []) 0).

(** a matrix times the stacked nodal values [u] (one row of [ndof] values per node) is the interpolated
    value *)
Definition interpolates_vectors (dim n ndof : nat) (shp : list R -> res (list R))
    (shpm : list R -> nat -> res (list (list R))) : Prop :=
  forall p, length p = dim ->
  exists N M, shp p = Ok N /\ shpm p ndof = Ok M /\ length M = ndof /\ rect (ndof * n) M /\
    forall u a, length u = n -> rect ndof u -> (a < ndof)%nat ->
      rsum (map (fun mx => fst mx * snd mx) (combine (nth a M []) (concat u)))
      = rsum (map (fun Nu => fst Nu * nth a (snd Nu) 0) (combine N u)).

(** the derivatives of all shape functions in one direction add up to zero *)
Definition derivatives_cancel (dim : nat) (dshp : list R -> res (list (list R))) : Prop :=
  forall p, length p = dim -> exists D, dshp p = Ok D /\
    forall d, (d < dim)%nat -> rsum (map (fun g => nth d g 0) D) = 0.

(** ** Generated shape functions *)

Definition dot (a b : list R) : R := rsum (map (fun xy => fst xy * snd xy) (combine a b)).
(** [M C] is the unit matrix of size [n] ([np.linalg.inv]) *)
Definition right_inverse (n : nat) (M C : list (list R)) : Prop :=
  length C = n /\ rect n C /\
  forall i j, (i < n)%nat -> (j < n)%nat ->
    dot (nth i M []) (map (fun row => nth j row 0) C) = if Nat.eqb i j then 1 else 0.

(** barycentric coordinates and the usual closed formulas of the elements whose functions are generated *)
Definition shape_L3 (p : list R) : list R :=
  match p with [r] => [r * (r - 1) / 2; 1 - r * r; r * (r + 1) / 2] | _ => [] end.
Definition shape_TET10 (p : list R) : list R :=
  match p with
  | [r; s; t] => let l := 1 - r - s - t in
      [l * (2 * l - 1); r * (2 * r - 1); s * (2 * s - 1); t * (2 * t - 1);
       4 * l * r; 4 * r * s; 4 * l * s; 4 * l * t; 4 * r * t; 4 * s * t]
  | _ => []
  end.
Definition shape_W6 (p : list R) : list R :=
  match p with
  | [r; s; t] => let l := 1 - r - s in let a := (1 - t) / 2 in let b := (1 + t) / 2 in
      [l * a; r * a; s * a; l * b; r * b; s * b]
  | _ => []
  end.
Definition shape_W18 (p : list R) : list R :=
  match p with
  | [r; s; t] =>
      let l := 1 - r - s in
      let corner x := x * (2 * x - 1) in
      let a := t * (t - 1) / 2 in let b := t * (t + 1) / 2 in let c := 1 - t * t in
      [corner l * a; corner r * a; corner s * a; corner l * b; corner r * b; corner s * b;
       4 * l * r * a; 4 * r * s * a; 4 * l * s * a; 4 * l * r * b; 4 * r * s * b; 4 * l * s * b;
       corner l * c; corner r * c; corner s * c; 4 * l * r * c; 4 * r * s * c; 4 * l * s * c]
  | _ => []
  end.
(** closed formulas built into the code, as functions *)
Definition values (shp : list R -> res (list R)) (p : list R) : list R :=
  match shp p with Ok N => N | Err _ => [] end.
(** What [generate_class_functions] is expected to produce for an element with [n] nodes at [lcoords]: the
    matrix of the monomials at the nodes has an inverse; and whichever inverse is used, the functions built
    from it are [shape], and the generated derivatives are theirs. *)
Definition generates (n dim : nat) (lcoords : list (list R)) (monoms : list (list nat))
    (shape : list R -> list R) : Prop :=
  exists M, gen_matrix n lcoords monoms = Ok M /\
    (exists C, right_inverse n M C) /\
    forall C, right_inverse n M C ->
      (forall p, length p = dim -> gen_shp C monoms p = Ok (shape p)) /\
      differentiates dim n (gen_shp C monoms) (gen_dshp dim C monoms).
