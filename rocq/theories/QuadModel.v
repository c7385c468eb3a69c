(** * Model of the quadrature rules (src/polymesh/utils/cells/gauss.py) and of areas and volumes by quadrature

    Definitions only, over the reals (the rules contain square roots). *)
From Coq Require Import Reals.
From Verif Require Export CellsModel.
Local Open Scope R_scope.

(** a rule: positions and weights *)
Definition rule : Type := list (list R) * list R.

(** ** Rules *)

(** [neumann.numint.gauss_points(n)], not part of the repository: the Gauss-Legendre rule with [n] points on
    [-1, 1] in increasing order, for the numbers of points used by the cells. *)
Definition gauss_line (n : nat) : res (list R * list R) :=
  match n with
  | 1%nat => Ok ([0], [2])
  | 2%nat => Ok ([- sqrt (1 / 3); sqrt (1 / 3)], [1; 1])
  | 3%nat => Ok ([- sqrt (3 / 5); 0; sqrt (3 / 5)], [5 / 9; 8 / 9; 5 / 9])
  | _ => Err NotImplementedError
  end.
(** [gauss_points(n, m)] and [gauss_points(n, m, k)]: products of the rules on lines, the last direction
    varying fastest *)
Definition gauss_line_rule (n : nat) : res rule := do g <- gauss_line n; Ok (map (fun x => [x]) (fst g), snd g).
Definition times_line (a : rule) (b : list R * list R) : rule :=
  (flat_map (fun p => map (fun x => p ++ [x]) (fst b)) (fst a),
   flat_map (fun w => map (fun v => w * v) (snd b)) (snd a)).
Definition gauss_square (n m : nat) : res rule :=
  do a <- gauss_line_rule n; do b <- gauss_line m; Ok (times_line a b).
Definition gauss_cube (n m k : nat) : res rule :=
  do a <- gauss_square n m; do b <- gauss_line k; Ok (times_line a b).

(** gauss.py 9-10 *)
Definition Gauss_Legendre_Line_Grid := gauss_line_rule.
(** gauss.py 16-17 *)
Definition Gauss_Legendre_Tri_1 : rule := ([[1 / 3; 1 / 3]], [1 / 2]).
(** gauss.py 20-23 *)
Definition Gauss_Legendre_Tri_3a : rule :=
  ([[1 / 6; 1 / 6]; [2 / 3; 1 / 6]; [1 / 6; 2 / 3]], [1 / 6; 1 / 6; 1 / 6]).
(** gauss.py 26-29 *)
Definition Gauss_Legendre_Tri_3b : rule :=
  ([[1 / 2; 1 / 2]; [0; 1 / 2]; [1 / 2; 0]], [1 / 6; 1 / 6; 1 / 6]).
(** gauss.py 40-49 *)
Definition Gauss_Legendre_Quad_1 := gauss_square 1 1.
Definition Gauss_Legendre_Quad_4 := gauss_square 2 2.
Definition Gauss_Legendre_Quad_9 := gauss_square 3 3.
(** gauss.py 55-58 *)
Definition Gauss_Legendre_Tet_1 : rule := ([[1 / 4; 1 / 4; 1 / 4]], [1 / 6]).
(** gauss.py 61-66 *)
Definition Gauss_Legendre_Tet_4 : rule :=
  let a := (5 + 3 * sqrt 5) / 20 in
  let b := (5 - sqrt 5) / 20 in
  ([[a; b; b]; [b; a; b]; [b; b; a]; [b; b; b]], repeat (1 / 24) 4).
(** gauss.py 69-80 *)
Definition Gauss_Legendre_Tet_5 : rule :=
  ([[1 / 4; 1 / 4; 1 / 4]; [1 / 2; 1 / 6; 1 / 6]; [1 / 6; 1 / 2; 1 / 6]; [1 / 6; 1 / 6; 1 / 2]; [1 / 6; 1 / 6; 1 / 6]],
   [-4 / 30; 9 / 120; 9 / 120; 9 / 120; 9 / 120]).
(** gauss.py 83-116; the number [a] is the one in the code *)
Definition Gauss_Legendre_Tet_11 : rule :=
  let a := (1 + 3 * sqrt (5 / 15)) / 4 in
  let b := (1 - sqrt (5 / 14)) / 4 in
  ([[1 / 4; 1 / 4; 1 / 4];
    [11 / 14; 1 / 14; 1 / 14]; [1 / 14; 11 / 14; 1 / 14]; [1 / 14; 1 / 14; 11 / 14]; [1 / 14; 1 / 14; 1 / 14];
    [a; a; b]; [a; b; a]; [a; b; b]; [b; a; a]; [b; a; b]; [b; b; a]],
   [-74 / 5625; 343 / 45000; 343 / 45000; 343 / 45000; 343 / 45000;
    56 / 2250; 56 / 2250; 56 / 2250; 56 / 2250; 56 / 2250; 56 / 2250]).
(** gauss.py 131-142: both layers are placed at the first point of the line *)
Definition Gauss_Legendre_Wedge_3x2 : res rule :=
  let '(p_tri, w_tri) := Gauss_Legendre_Tri_3a in
  do g <- gauss_line 2;
  let '(p_line, w_line) := g in
  do x0 <- get p_line 0; do w0 <- get w_line 0; do w1 <- get w_line 1;
  Ok (map (fun p => p ++ [x0]) p_tri ++ map (fun p => p ++ [x0]) p_tri,
      map (fun w => w * w0) w_tri ++ map (fun w => w * w1) w_tri).
(** gauss.py 145-155 *)
Definition Gauss_Legendre_Wedge_3x3 : res rule :=
  let '(p_tri, w_tri) := Gauss_Legendre_Tri_3a in
  do g <- gauss_line 3;
  let '(p_line, w_line) := g in
  Ok (flat_map (fun x => map (fun p => p ++ [x]) p_tri) p_line,
      flat_map (fun v => map (fun w => w * v) w_tri) w_line).

(** ** Areas and volumes by quadrature *)

(** [np.linalg.det] of a square matrix with two or three rows *)
Definition det (m : list (list R)) : res R :=
  match m with
  | [[a; b]; [c; d]] => Ok (a * d - b * c)
  | [[a; b; c]; [d; e; f]; [g; h; i]] => Ok (a * (e * i - f * h) - b * (d * i - f * g) + c * (d * h - e * g))
  | _ => Err ValueError
  end.
(** [ecoords[iE].T @ dshp]: entry (a, d) is the sum over the nodes of coordinate [a] times derivative [d];
    [nD] is the number of columns of [dshp], [nA] that of the coordinates *)
Definition cell_jacobian (nA nD : nat) (ecoords dshp : list (list R)) : res (list (list R)) :=
  mapM (fun a => mapM (fun d =>
      do xs <- mapM (fun row => get row a) ecoords;
      do ds <- mapM (fun row => get row d) dshp;
      vdot xs ds) (seq 0 nD)) (seq 0 nA).
(** utils/cells/utils.py volumes, 10-21; utils/cells/t6.py areas_T6, 83-93; h8.py volumes_H8, 229-239;
    h27.py volumes_H27, 942-952.  [dshp] lists the derivatives at the points of the rule.  The iterations
    of the parallel loop over the cells write different entries of the result.  The coordinates are
    floating point numbers (numba refuses the product of an integer and a floating point matrix). *)
Definition quad_step (nD : nat) (ecoords : list (list (list R))) (res : list R) (dw : list (list R) * R) : Base.res (list R) :=
  mapM (fun ce => do jac <- cell_jacobian nD nD (fst ce) (fst dw);
                  do djac <- det jac;
                  Ok (snd ce + snd dw * djac)) (combine ecoords res).
Definition volumes (nD : nat) (ecoords : list (list (list R))) (dshp : list (list (list R))) (qweight : list R) : res (list R) :=
  foldM (quad_step nD ecoords) (combine dshp qweight) (repeat 0 (length ecoords)).
Definition quad_volumes (nD : nat) (dshp : list R -> res (list (list R))) (q : rule) (ecoords : list (list (list R))) : res (list R) :=
  do ds <- mapM dshp (fst q); volumes nD ecoords ds (snd q).

(** cells/t6.py areas, 77-89 (after the selection of the coordinates of the cells) *)
Definition areas_T6 (ecoords : list (list (list R))) : res (list R) :=
  quad_volumes 2 dshp_T6 Gauss_Legendre_Tri_3a ecoords.
(** cells/h8.py volumes, 100-112; cells/h27.py volumes, 159-174 *)
Definition volumes_H8 (ecoords : list (list (list R))) : res (list R) :=
  do q <- gauss_cube 2 2 2; quad_volumes 3 dshp_H8 q ecoords.
Definition volumes_H27 (ecoords : list (list (list R))) : res (list R) :=
  do q <- gauss_cube 3 3 3; quad_volumes 3 dshp_H27 q ecoords.
(** cells/tet10.py volumes, 67-77, cells/w6.py volumes, 61-67, cells/w18.py volumes, 92-98.  The derivatives are
    those of the generated functions ([C]: the matrix of coefficients). *)
Definition volumes_TET10 (C : list (list R)) (ecoords : list (list (list R))) : res (list R) :=
  quad_volumes 3 (gen_dshp 3 C polybase_TET10) Gauss_Legendre_Tet_4 ecoords.
Definition volumes_W6 (C : list (list R)) (ecoords : list (list (list R))) : res (list R) :=
  do q <- Gauss_Legendre_Wedge_3x2; quad_volumes 3 (gen_dshp 3 C polybase_W6) q ecoords.
Definition volumes_W18 (C : list (list R)) (ecoords : list (list (list R))) : res (list R) :=
  do q <- Gauss_Legendre_Wedge_3x3; quad_volumes 3 (gen_dshp 3 C polybase_W18) q ecoords.
