(** * Model of src/polymesh/utils/tri.py, src/polymesh/utils/tet.py and of the point location functions

    Definitions only, over the reals.  A cell is given by the list of the positions of its nodes.
    Every function here is compiled with numba, with its default error model: the division of two numbers
    raises ZeroDivisionError for a zero divisor.  The iterations of the parallel loops write different
    entries of the result unless said otherwise. *)
From Coq Require Import Reals.
From Verif Require Import TrModel.
From Verif Require Export EvalModel.
Local Open Scope R_scope.

Definition div (a b : R) : res R := if Req_EM_T b 0 then Err ZeroDivisionError else Ok (a / b).
(** [neumann.linalg.norm] (not part of the repository): length of a vector *)
Definition norm (v : list R) : res R := do d <- vdot v v; Ok (sqrt d).
(** [neumann.linalg.normalize] (not part of the repository): v / |v|; 0 / 0 is not a number, reported
    as ValueError *)
Definition normalize (v : list R) : res (list R) :=
  do n <- norm v; if Req_EM_T n 0 then Err ValueError else Ok (map (fun x => x / n) v).
(** [np.cross] of vectors with three components *)
Definition vcross (a b : list R) : res (list R) :=
  match a, b with
  | [a0; a1; a2], [b0; b1; b2] => Ok [a1 * b2 - a2 * b1; a2 * b0 - a0 * b2; a0 * b1 - a1 * b0]
  | _, _ => Err ValueError
  end.
(** [M @ v] and [v @ M] *)
Definition matvec (M : list (list R)) (v : list R) : res (list R) := mapM (fun row => vdot row v) M.
Definition vecmat (v : list R) (M : list (list R)) : res (list R) :=
  do rows <- map2 (fun s row => vscale s row) v M; vsum rows.
Definition matmul (A B : list (list R)) : res (list (list R)) := mapM (fun row => vecmat row B) A.

(** utils/utils.py cells_coords, 254-287: the positions of the nodes of each cell *)
Definition cells_coords (coords : list (list R)) (topo : list (list nat)) : res (list (list (list R))) :=
  mapM (mapM (get coords)) topo.

(** ** tri.py *)

(** triangulate_cell_coords, 13-25 *)
Definition triangulate_cell_coords (ecoords : list (list (list R))) (trimap : list (list nat)) : res (list (list (list R))) :=
  do r <- mapM (fun ec => mapM (fun t => mapM (fun k => get ec k) t) trimap) ecoords; Ok (concat r).
(** lcoords_tri, 41-43 *)
Definition lcoords_tri : list (list R) := [[0; 0]; [1; 0]; [0; 1]].
(** ncenter_tri, 51-53 *)
Definition ncenter_tri : list R := [1 / 3; 1 / 3; 1 / 3].
(** shp_tri_loc, 56-58 *)
Definition shp_tri_loc (lcoord : list R) : res (list R) :=
  do r <- get lcoord 0; do s <- get lcoord 1; Ok [1 - r - s; r; s].
(** shape_function_matrix_tri_loc, 61-68: block [i] is written to the columns from [i * nNODE] to
    [(i + 1) * nNODE]; numba refuses the assignment of a matrix with another shape *)
Definition shape_function_matrix_tri_loc (lcoord : list R) (nDOFN nNODE : nat) : res (list (list R)) :=
  do shp <- shp_tri_loc lcoord;
  do _ <- guard (Nat.eqb nDOFN nNODE) ValueError;
  do shps <- mapM (get shp) (seq 0 nNODE);
  Ok (map (fun a => flat_map (fun s => map (fun b => if Nat.eqb a b then 1 * s else 0 * s) (seq 0 nDOFN)) shps) (seq 0 nDOFN)).
(** twice the area; in 106-111, 192-202 and 230-240 *)
Definition area2_tri (ec : list (list R)) : res R :=
  do x0 <- get2 ec 0 0; do y0 <- get2 ec 0 1; do x1 <- get2 ec 1 0; do y1 <- get2 ec 1 1; do x2 <- get2 ec 2 0; do y2 <- get2 ec 2 1;
  Ok ((x1 * y2 - x2 * y1) + (x2 * y0 - x0 * y2) + (x0 * y1 - x1 * y0)).
(** area_tri, 86-111 *)
Definition area_tri (ec : list (list R)) : res R := do a <- area2_tri ec; Ok (a / 2).
(** inscribed_radius, 114-141; inscribed_radii, 145-168 *)
Definition inscribed_radius (ec : list (list R)) : res R :=
  do p0 <- get ec 0; do p1 <- get ec 1; do p2 <- get ec 2;
  do e1 <- vsub p1 p0; do a <- norm e1;
  do e2 <- vsub p2 p1; do b <- norm e2;
  do e3 <- vsub p2 p0; do c <- norm e3;
  let s := (a + b + c) / 2 in
  do r2 <- div ((s - a) * (s - b) * (s - c)) s;
  Ok (sqrt r2).
Definition inscribed_radii (ecoords : list (list (list R))) : res (list R) := mapM inscribed_radius ecoords.
(** areas_tri, 171-204 *)
Definition areas_tri (ecoords : list (list (list R))) : res R :=
  do A <- foldM (fun A ec => do a <- area2_tri ec; Ok (A + a)) ecoords 0; Ok (A / 2).
(** area_tri_bulk, 207-241.  (For integer coordinates the doubled areas are integers, so that nothing is lost.) *)
Definition area_tri_bulk (ecoords : list (list (list R))) : res (list R) :=
  do r <- mapM area2_tri ecoords; Ok (map (fun a => a / 2) r).
(** area_tri_u, 244-253; area_tri_u2, 256-266: componentwise *)
Definition area_tri_u (x1 y1 x2 y2 x3 y3 : R) : R := (x2 * y3 - x3 * y2 + x3 * y1 - x1 * y3 + x1 * y2 - x2 * y1) / 2.
Definition area_tri_u2 (x1 x2 x3 y1 y2 y3 : R) : R := (x2 * y3 - x3 * y2 + x3 * y1 - x1 * y3 + x1 * y2 - x2 * y1) / 2.
(** loc_to_glob_tri, 268-277 *)
Definition loc_to_glob_tri (lcoord : list R) (gcoords : list (list R)) : res (list R) :=
  do shp <- shp_tri_loc lcoord; vecmat shp gcoords.
(** glob_to_loc_tri, 280-292.  [C]: the inverse of the matrix of the monomials at the nodes. *)
Definition monoms_tri (p : list R) : res (list R) := do x <- get p 0; do y <- get p 1; Ok [1; x; y].
Definition glob_to_loc_tri (C : list (list R)) (gcoord : list R) : res (list R) :=
  do m <- monoms_tri gcoord; do shp <- matvec C m; vecmat shp lcoords_tri.
(** glob_to_nat_tri, 295-309; [dt] is the type of the numbers of [gcoord] *)
Definition glob_to_nat_tri (dt : dtype) (gcoord : list R) (ecoords : list (list R)) : res (list R) :=
  do x <- get gcoord 0; do y <- get gcoord 1;
  do xs <- mapM (fun row => get row 0) ecoords; do ys <- mapM (fun row => get row 1) ecoords;
  match xs, ys with
  | [x1; x2; x3], [y1; y2; y3] =>
      let A2 := Rabs (x2 * (y3 - y1) + x1 * (y2 - y3) + x3 * (y1 - y2)) in
      do n1 <- div (x2 * y3 - x * y3 - x3 * y2 + x * y2 + x3 * y - x2 * y) A2;
      do n2 <- div (x * y3 - x1 * y3 + x3 * y1 - x * y1 - x3 * y + x1 * y) A2;
      Ok (map (store dt) [n1; n2; 1 - n1 - n2])
  | _, _ => Err ValueError
  end.
(** _glob_to_nat_tri_bulk_, 312-320; _glob_to_nat_tri_bulk_knn_, 341-351 *)
Definition glob_to_nat_tri_bulk (dt : dtype) (points : list (list R)) (ecoords : list (list (list R))) : res (list (list (list R))) :=
  mapM (fun p => mapM (fun ec => glob_to_nat_tri dt p ec) ecoords) points.
Definition nat_bulk_knn (g : list R -> list (list R) -> res (list R)) (points : list (list R)) (ecoords : list (list (list R)))
    (neighbours : list (list nat)) : res (list (list (list R))) :=
  do r <- map2 (fun p knn => mapM (fun j => do ec <- get ecoords j; g p ec) knn) points neighbours; mapM (fun x => x) r.
Definition glob_to_nat_tri_bulk_knn (dt : dtype) := nat_bulk_knn (glob_to_nat_tri dt).
(** __pip_tri_bulk__, 323-332; tet.py __pip_tet_bulk__, 108-117 (the same) *)
Definition inside (tol : R) (nat : list R) : bool :=
  forallb (kltb (- tol)) nat && forallb (fun n => kltb n (1 + tol)) nat.
Definition pip_of_nat (tol : R) (nat : list (list (list R))) : list (list bool) := map (map (inside tol)) nat.
(** _pip_tri_bulk_, 335-338; _pip_tri_bulk_knn_, 354-359 *)
Definition pip_tri_bulk_knn (dt : dtype) (points : list (list R)) (ecoords : list (list (list R))) (neighbours : list (list nat)) (tol : R)
    : res (list (list bool)) :=
  do nat <- glob_to_nat_tri_bulk_knn dt points ecoords neighbours; Ok (pip_of_nat tol nat).
Definition pip_tri_bulk (dt : dtype) (points : list (list R)) (ecoords : list (list (list R))) (tol : R) : res (list (list bool)) :=
  do nat <- glob_to_nat_tri_bulk dt points ecoords; Ok (pip_of_nat tol nat).
(** nat_to_glob_tri, 362-371 *)
Definition nat_to_glob_tri (ncoord : list R) (ecoords : list (list R)) : res (list R) := vecmat ncoord ecoords.
(** loc_to_nat_tri, 374-383; nat_to_loc_tri, 386-395 *)
Definition loc_to_nat_tri := shp_tri_loc.
Definition nat_to_loc_tri (acoord : list R) : res (list R) := vecmat acoord lcoords_tri.
(** localize_points, 398-412.  For every position the number of the first triangle that passes the test, [None]
    for -1, and the natural coordinates.  ([np.max(nat) <= 1]: no coordinate is above 1.)  The inner loop
    is left with [break], numba runs it sequentially. *)
Fixpoint localize_from (dt : dtype) (i : nat) (x : list R) (ecoords : list (list (list R))) : res (option (nat * list R)) :=
  match ecoords with
  | [] => Ok None
  | ec :: rest =>
      do nat <- glob_to_nat_tri dt x ec;
      if forallb (fun n => kleb n 1) nat then Ok (Some (i, nat)) else localize_from dt (S i) x rest
  end.
Definition localize_points (dt : dtype) (points : list (list R)) (triangles : list (list nat)) (coords : list (list R))
    : res (list (option (nat * list R))) :=
  do ecoords <- cells_coords points triangles; mapM (fun x => localize_from dt 0 x ecoords) coords.
(** get_points_inside_triangles, 415-424 *)
Definition get_points_inside_triangles (dt : dtype) (points : list (list R)) (topo : list (list nat)) (coords : list (list R)) : res (list bool) :=
  do l <- localize_points dt points topo coords; Ok (map (fun o => match o with Some _ => true | None => false end) l).
(** approx_data_to_points, 427-440.  The result has a row for every position; the rows written are those with
    the number of the triangle (iterations may then write the same row, here one after the other); writing
    outside of the array is reported as IndexError *)
Definition approx_data_to_points (dt : dtype) (points : list (list R)) (triangles : list (list nat)) (data : list (list R))
    (coords : list (list R)) (defval : R) : res (list (list R)) :=
  do loc <- localize_points dt points triangles coords;
  foldM (fun res o =>
    match o with
    | None => Ok res
    | Some (i, shp) =>
        do tri <- get triangles i; do rows <- mapM (get data) tri;
        do v <- vecmat shp rows;
        set res i v
    end) loc (repeat (repeat defval (ncols data)) (length coords)).
(** offset_tri, 443-454, offset_tri_uniform, 457-468 (calls ncenter_tri with an argument it does not have, which
    numba refuses), _offset_tri_, 471-482 *)
Inductive offset_data := DataArray (a : list R) | DataFloat (a : R) | DataOther.
Definition offset_rows (alpha : R) : list (list R) :=
  map (fun i => map (fun j => nth j ncenter_tri 0 + ((if Nat.eqb i j then 1 else 0) - nth j ncenter_tri 0) * alpha) (seq 0 3)) (seq 0 3).
Definition offset_tri_ (coords : list (list R)) (topo : list (list nat)) (alpha : list R) : res (list (list (list R))) :=
  do ec <- cells_coords coords topo;
  do r <- map2 (fun e a => matmul (offset_rows a) e) ec alpha; mapM (fun x => x) r.
Definition offset_tri (coords : list (list R)) (topo : list (list nat)) (data : offset_data) : res (list (list (list R))) :=
  match data with
  | DataArray a =>
      let alpha := map Rabs a in
      match alpha with
      | [] => Err ValueError
      | x :: rest =>
          let amax := fold_left Rmax rest x in
          offset_tri_ coords topo (if kltb 1 amax then map (fun a => a / amax) alpha else alpha)
      end
  | DataFloat _ => Err TypeError
  | DataOther => Err RuntimeError
  end.
(** tri_glob_to_loc, 517-535, for one triangle: local coordinates of the nodes, centre, axes *)
Definition tri_glob_to_loc (ec : list (list R)) : res (list (list R) * list R * list (list R)) :=
  do center <- vmean ec;
  do p0 <- get ec 0; do p1 <- get ec 1; do p2 <- get ec 2;
  do e1 <- vsub p1 p0; do t0 <- normalize e1;
  do e2 <- vsub p2 p0; do t1 <- normalize e2;
  do t2 <- vcross t0 t1;
  do t1 <- vcross t2 t0;
  do loc <- mapM (fun p => do v <- vsub p center; do a <- vdot t0 v; do b <- vdot t1 v; Ok [a; b]) [p0; p1; p2];
  Ok (loc, center, [t0; t1; t2]).

(** ** tet.py *)

(** vol_tet, 8-35; vol_tet_bulk, 38-66 *)
Definition vol_tet (ec : list (list R)) : res R :=
  do p0 <- get ec 0; do p1 <- get ec 1; do p2 <- get ec 2; do p3 <- get ec 3;
  do v1 <- vsub p1 p0; do v2 <- vsub p2 p0; do v3 <- vsub p3 p0;
  do c <- vcross v1 v2; do d <- vdot c v3; Ok (d / 6).
Definition vol_tet_bulk (ecoords : list (list (list R))) : res (list R) :=
  do r <- mapM vol_tet ecoords; Ok (map Rabs r).
(** glob_to_nat_tet, 69-94 (floating point numbers only: numba has no [np.dot] for integers) *)
Definition glob_to_nat_tet (gcoord : list R) (ec : list (list R)) : res (list R) :=
  do V <- vol_tet ec;
  do c1 <- set ec 0 gcoord; do w1 <- vol_tet c1; do v1 <- div w1 V;
  do c2 <- set ec 1 gcoord; do w2 <- vol_tet c2; do v2 <- div w2 V;
  do c3 <- set ec 2 gcoord; do w3 <- vol_tet c3; do v3 <- div w3 V;
  Ok [v1; v2; v3; 1 - v1 - v2 - v3].
(** _glob_to_nat_tet_bulk_, 97-105; _glob_to_nat_tet_bulk_knn_, 134-144 *)
Definition glob_to_nat_tet_bulk (points : list (list R)) (ecoords : list (list (list R))) : res (list (list (list R))) :=
  mapM (fun p => mapM (fun ec => glob_to_nat_tet p ec) ecoords) points.
Definition glob_to_nat_tet_bulk_knn := nat_bulk_knn glob_to_nat_tet.
(** _pip_tet_bulk_, 120-123; _pip_tet_bulk_knn_, 126-131 *)
Definition pip_tet_bulk (points : list (list R)) (ecoords : list (list (list R))) (tol : R) : res (list (list bool)) :=
  do nat <- glob_to_nat_tet_bulk points ecoords; Ok (pip_of_nat tol nat).
Definition pip_tet_bulk_knn (points : list (list R)) (ecoords : list (list (list R))) (neighbours : list (list nat)) (tol : R) : res (list (list bool)) :=
  do nat <- glob_to_nat_tet_bulk_knn points ecoords neighbours; Ok (pip_of_nat tol nat).
(** lcoords_tet, 147-155; nat_to_loc_tet, 158-168 *)
Definition lcoords_tet : list (list R) := [[0; 0; 0]; [1; 0; 0]; [0; 1; 0]; [0; 0; 1]].
Definition nat_to_loc_tet (acoord : list R) : res (list R) := vecmat acoord lcoords_tet.
