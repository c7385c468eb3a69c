(** * Model of the evaluators of element classes
    [PolyCell.generate_class_functions], [.shape_function_values], [.shape_function_matrix] and
    [.shape_function_derivatives] (src/polymesh/cell.py 113-278) as methods that read and replace attributes of a class

    Definitions only, over the reals.  [np.linalg.inv] is a parameter. *)
From Coq Require Import Reals.
From Verif Require Export EvalModel.
Local Open Scope R_scope.

(** ** Classes *)

(** The formulas of utils/cells that the body of a class names: cells/l2.py 28-31, t3.py 26-28, t6.py 28-30, q4.py 26-28,
    q9.py 25-27, tet4.py 26-28, h8.py 42-44, h27.py 52-54.  [f_ndof] is the default value of [ndof] of the function with
    [_multi] in its name; [f_constant]: the function for the derivatives does not look at its argument (utils/cells/l2.py
    50-51, t3.py 49-50, tet4.py 81-84), so numba accepts numbers as well as arrays. *)
Record formulas := { f_shp : list R -> res (list R); f_dshp : list R -> res (list (list R));
                     f_shpm : list R -> nat -> res (list (list R)); f_ndof : nat; f_constant : bool }.
(** The class attributes NDIM and NNODE, the class methods lcoords and polybase, and the formulas *)
Record element := { e_dim : nat; e_nodes : nat; e_lcoords : list (list R); e_monoms : list (list nat); e_formulas : option formulas }.

Inductive kind := KL2 | KL3 | KT3 | KT6 | KQ4 | KQ9 | KTET4 | KTET10 | KH8 | KH27 | KW6 | KW18.
(** cells/*.py with line.py 15, 59, polygon.py, polyhedron.py (NNODE) and cell.py 663, 759, 871 (NDIM) *)
Definition element_of (k : kind) : element :=
  match k with
  | KL2 => {| e_dim := 1; e_nodes := 2; e_lcoords := lcoords_L2; e_monoms := polybase_L2; e_formulas :=
      Some {| f_shp := shp_L2; f_dshp := dshp_L2; f_shpm := shape_function_matrix_L2; f_ndof := 2; f_constant := true |} |}
  | KL3 => {| e_dim := 1; e_nodes := 3; e_lcoords := lcoords_L3; e_monoms := polybase_L3; e_formulas := None |}
  | KT3 => {| e_dim := 2; e_nodes := 3; e_lcoords := lcoords_T3; e_monoms := polybase_T3; e_formulas :=
      Some {| f_shp := shp_T3; f_dshp := dshp_T3; f_shpm := shape_function_matrix_T3; f_ndof := 2; f_constant := true |} |}
  | KT6 => {| e_dim := 2; e_nodes := 6; e_lcoords := lcoords_T6; e_monoms := polybase_T6; e_formulas :=
      Some {| f_shp := shp_T6; f_dshp := dshp_T6; f_shpm := shape_function_matrix_T6; f_ndof := 2; f_constant := false |} |}
  | KQ4 => {| e_dim := 2; e_nodes := 4; e_lcoords := lcoords_Q4; e_monoms := polybase_Q4; e_formulas :=
      Some {| f_shp := shp_Q4; f_dshp := dshp_Q4; f_shpm := shape_function_matrix_Q4; f_ndof := 2; f_constant := false |} |}
  | KQ9 => {| e_dim := 2; e_nodes := 9; e_lcoords := lcoords_Q9; e_monoms := polybase_Q9; e_formulas :=
      Some {| f_shp := shp_Q9; f_dshp := dshp_Q9; f_shpm := shape_function_matrix_Q9; f_ndof := 2; f_constant := false |} |}
  | KTET4 => {| e_dim := 3; e_nodes := 4; e_lcoords := lcoords_TET4; e_monoms := polybase_TET4; e_formulas :=
      Some {| f_shp := shp_TET4; f_dshp := dshp_TET4; f_shpm := shape_function_matrix_TET4; f_ndof := 3; f_constant := true |} |}
  | KTET10 => {| e_dim := 3; e_nodes := 10; e_lcoords := lcoords_TET10; e_monoms := polybase_TET10; e_formulas := None |}
  | KH8 => {| e_dim := 3; e_nodes := 8; e_lcoords := lcoords_H8; e_monoms := polybase_H8; e_formulas :=
      Some {| f_shp := shp_H8; f_dshp := dshp_H8; f_shpm := shape_function_matrix_H8; f_ndof := 3; f_constant := false |} |}
  | KH27 => {| e_dim := 3; e_nodes := 27; e_lcoords := lcoords_H27; e_monoms := polybase_H27; e_formulas :=
      Some {| f_shp := shp_H27; f_dshp := dshp_H27; f_shpm := shape_function_matrix_H27; f_ndof := 3; f_constant := false |} |}
  | KW6 => {| e_dim := 3; e_nodes := 6; e_lcoords := lcoords_W6; e_monoms := polybase_W6; e_formulas := None |}
  | KW18 => {| e_dim := 3; e_nodes := 18; e_lcoords := lcoords_W18; e_monoms := polybase_W18; e_formulas := None |}
  end%nat.

(** The attributes shpfnc, shpmfnc and dshpfnc (cell.py 65-67): those of the body of the class, or the functions built from a
    matrix of coefficients.  [generate_class_functions] replaces all three at once. *)
Inductive attributes := AsDefined | Generated (C : list (list R)).

(** An array of points: [np.array(pcoords)] of one or of two dimensions *)
Inductive parray := P1 (xs : list R) | P2 (rows : list (list R)).
(** [f[i, :]] of arrays of two dimensions, [f[i]] of three *)
Inductive darray := D2 (rows : list (list R)) | D3 (blocks : list (list (list R))).

Section Inv.
Variable inv : list (list R) -> list (list R).  (* np.linalg.inv *)

(** cell.py generate_class_functions, 130-147: the coefficients *)
Definition coefficients (e : element) : res (list (list R)) :=
  do M <- gen_matrix (e_nodes e) (e_lcoords e) (e_monoms e); Ok (inv M).
(** cell.py 184-187 *)
Definition generate (e : element) (update : bool) (st : attributes) : res (list (list R)) * attributes :=
  match coefficients e with
  | Ok C => (Ok C, if update then Generated C else st)
  | Err x => (Err x, st)
  end.

(** ** Functions of utils/cells on arrays *)

(** the argument of the formulas for every point, [pcoords[iP]].  The formulas for lines take numbers: numba cannot make an
    array of the list of two arrays (utils/cells/l2.py 18).  The others take arrays: numba can neither unpack nor index a
    number.  Both are errors of numba's type inference, here TypeError. *)
Definition formula_points (dim : nat) (p : parray) : res (list (list R)) :=
  match dim, p with
  | 1%nat, P1 xs => Ok (map (fun x => [x]) xs)
  | 1%nat, P2 _ => Err TypeError
  | _, P1 _ => Err TypeError
  | _, P2 rows => Ok rows
  end.
(** the same for a function that does not look at its argument *)
Definition any_points (p : parray) : list (list R) := match p with P1 xs => map (fun x => [x]) xs | P2 rows => rows end.
(** [shp_X_multi], see [EvalModel.shp_multi] *)
Definition formula_values (e : element) (f : formulas) (dt : dtype) (p : parray) : res (list (list R)) :=
  do rows <- formula_points (e_dim e) p; shp_multi (f_shp f) dt rows.
(** [dshp_X_multi], see [EvalModel.dshp_multi]; of lines the result has two dimensions (utils/cells/l2.py 54-60) *)
Definition formula_derivatives (e : element) (f : formulas) (dt : dtype) (p : parray) : res darray :=
  do rows <- if f_constant f then Ok (any_points p) else formula_points (e_dim e) p;
  do D <- dshp_multi (f_dshp f) dt rows;
  Ok (if Nat.eqb (e_dim e) 1 then D2 (map (@concat R) D) else D3 D).
(** [shape_function_matrix_X_multi]: utils/cells/t3.py 40-45, t6.py 50-55, q4.py 84-89, q9.py 87-92, tet4.py 72-77, h8.py 162-167,
    h27.py 321-326, each with [res = np.zeros((nP, ndof, ndof * nNE), dtype=pcoords.dtype)].  l2.py 41-46 asks a number for its
    [dtype], which numba may reject: no theorem is about it. *)
Definition formula_matrix (e : element) (f : formulas) (dt : dtype) (p : parray) (ndof : nat) : res (list (list (list R))) :=
  do rows <- formula_points (e_dim e) p;
  mapM (fun r => do M <- f_shpm f r ndof; Ok (map (map (store dt)) M)) rows.

(** ** Generated functions on arrays *)

(** [p[i] for i in range(len(p))] as the argument of a function made by lambdify, which unpacks it (ValueError for another number
    of coordinates, TypeError for a number); [np.stack] needs at least one array.  cell.py 151-158, 174-181 *)
Definition generated_points (dim : nat) (p : parray) : res (list (list R)) :=
  match p with
  | P1 [] | P2 [] => Err ValueError
  | P1 _ => Err TypeError
  | P2 rows => do _ <- guard (forallb (fun r => Nat.eqb (length r) dim) rows) ValueError; Ok rows
  end.
(** cell.py shpf, 151-158.  The coefficients are floating point numbers, hence the results. *)
Definition generated_values (e : element) (C : list (list R)) (p : parray) : res (list (list R)) :=
  do rows <- generated_points (e_dim e) p; mapM (gen_shp C (e_monoms e)) rows.
(** cell.py dshpf, 174-181 *)
Definition generated_derivatives (e : element) (C : list (list R)) (p : parray) : res darray :=
  do rows <- generated_points (e_dim e) p;
  do D <- mapM (gen_dshp (e_dim e) C (e_monoms e)) rows; Ok (D3 D).
(** cell.py shpmf, 160-172 *)
Definition generated_matrix (e : element) (C : list (list R)) (p : parray) (ndof : nat) : res (list (list (list R))) :=
  do rows <- generated_points (e_dim e) p;
  mapM (fun r => shape_function_matrix_ (e_nodes e) ndof (gen_shp C (e_monoms e)) r ndof) rows.

(** ** Class methods *)

(** cell.py 212-213, 241-242, 272-273: functions are generated if there are none *)
Definition prepare (e : element) (st : attributes) : res unit * attributes :=
  match st, e_formulas e with
  | AsDefined, None => let '(r, st') := generate e true st in (match r with Ok _ => Ok tt | Err x => Err x end, st')
  | _, _ => (Ok tt, st)
  end.
(** cell.py 214-217, 243-249, 274-277: in three dimensions one point may be given *)
Definition allow_one (e : element) (p : parray) : parray :=
  match p with P1 xs => if Nat.eqb (e_dim e) 3 then P2 [xs] else p | P2 _ => p end.
(** a call of the function found in the attribute; [None] cannot be called *)
Definition dispatch {A} (e : element) (st : attributes) (f : formulas -> res A) (g : list (list R) -> res A) : res A :=
  match st with
  | Generated C => g C
  | AsDefined => match e_formulas e with Some fs => f fs | None => Err TypeError end
  end.
Definition method {A} (e : element) (st : attributes) (f : formulas -> res A) (g : list (list R) -> res A) : res A * attributes :=
  let '(r, st') := prepare e st in
  (match r with Ok _ => dispatch e st' f g | Err x => Err x end, st').
(** cell.py shape_function_values, 194-218 *)
Definition class_values (e : element) (st : attributes) (dt : dtype) (p : parray) : res (list (list R)) * attributes :=
  let p := allow_one e p in
  method e st (fun f => formula_values e f dt p) (fun C => generated_values e C p).
(** cell.py shape_function_derivatives, 255-278 *)
Definition class_derivatives (e : element) (st : attributes) (dt : dtype) (p : parray) : res darray * attributes :=
  let p := allow_one e p in
  method e st (fun f => formula_derivatives e f dt p) (fun C => generated_derivatives e C p).
(** cell.py shape_function_matrix, 220-253.  No class has an attribute NDOFN; [if nDOFN:] treats 0 like None.  The default value of
    a generated function is 3 (cell.py 132, 160). *)
Definition class_matrix (e : element) (st : attributes) (dt : dtype) (p : parray) (N : option nat) : res (list (list (list R))) * attributes :=
  let p := allow_one e p in
  let ndof default := match N with Some (S n) => S n | _ => default end in
  method e st (fun f => formula_matrix e f dt p (ndof (f_ndof f))) (fun C => generated_matrix e C p (ndof 3%nat)).

(** ** Sequences of calls *)
Inductive call := Values (dt : dtype) (p : parray) | Derivatives (dt : dtype) (p : parray)
  | Matrices (dt : dtype) (p : parray) (N : option nat) | Generate (update : bool).
(** the attributes after a call, whether it raises or not *)
Definition after_call (e : element) (st : attributes) (c : call) : attributes :=
  match c with
  | Values dt p => snd (class_values e st dt p)
  | Derivatives dt p => snd (class_derivatives e st dt p)
  | Matrices dt p N => snd (class_matrix e st dt p N)
  | Generate update => snd (generate e update st)
  end.
Definition after_calls (e : element) (cs : list call) : attributes := fold_left (after_call e) cs AsDefined.
End Inv.
