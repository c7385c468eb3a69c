(** * Model of functions for local coordinates and hits (src/polymesh/utils/cells/utils.py 50-78, 115-122 and h8.py 23-66) and of
    copies of triangle meshes (src/polymesh/pop.py)

    Definitions only.  Parallel loops write different entries of the result unless said otherwise. *)
From Coq Require Import Reals.
From Verif Require Import TrModel.
From Verif Require Export LocModel NetModel ClassModel.
Local Open Scope R_scope.

(** ** Local coordinates from monomials *)
Section Inv.
Context (inv : list (list R) -> list (list R)).  (* neumann.linalg.inv (not part of the repository): the inverse matrix *)
(** utils/cells/utils.py 60-63 and 75-77: [coeffs = inv(cell).T; shp = coeffs @ point; shp @ lcoords] *)
Definition glob_to_loc_monoms (lcoords cell : list (list R)) (point : list R) : res (list R) :=
  do coeffs <- transpose (inv cell);
  do shp <- matvec coeffs point;
  vecmat shp lcoords.
(** _glob_to_loc_bulk_, 50-64: every point with every cell *)
Definition glob_to_loc_bulk (lcoords : list (list R)) (cells : list (list (list R))) (points : list (list R)) : res (list (list (list R))) :=
  mapM (fun c => mapM (glob_to_loc_monoms lcoords c) points) cells.
(** _glob_to_loc_bulk_2_, 67-78: point [i] with cell [i] *)
Definition glob_to_loc_bulk_2 (lcoords : list (list R)) (cells : list (list (list R))) (points : list (list R)) : res (list (list R)) :=
  mapM (fun ip => do c <- get cells (fst ip); glob_to_loc_monoms lcoords c (snd ip)) (enum points).
End Inv.
(** monoms_X_multi for [n] nodes, utils/cells/tet4.py 17-22, tet10.py 17-22, h8.py 15-20, h27.py 47-52, w6.py 15-20, w18.py 37-42: rows of [n]
    numbers are written; and monoms_X_bulk_multi, tet4.py 26-31, tet10.py 26-31, h8.py 24-29, h27.py 56-61, w6.py 24-29, w18.py 46-51: [n] such
    rows for every cell.  numba raises ValueError if the numbers do not fit. *)
Definition monoms_multi (n : nat) (monoms : list R -> res (list R)) (x : list (list R)) : res (list (list R)) :=
  mapM (fun p => do m <- monoms p; do _ <- guard (Nat.eqb (length m) n) ValueError; Ok m) x.
Definition monoms_bulk_multi (n : nat) (monoms : list R -> res (list R)) (x : list (list (list R))) : res (list (list (list R))) :=
  mapM (fun c => do m <- monoms_multi n monoms c; do _ <- guard (Nat.eqb (length m) n) ValueError; Ok m) x.
(** the attribute monomsfnc of the classes in three dimensions, cells/tet4.py 29, tet10.py 24, h8.py 45, h27.py 55, w6.py 22, w18.py 22 *)
Definition monoms_of (k : kind) : list R -> res (list R) :=
  match k with
  | KTET4 => monoms_TET4 | KTET10 => monoms_TET10 | KH8 => monoms_H8 | KH27 => monoms_H27 | KW6 => monoms_W6 | KW18 => monoms_W18
  | _ => fun _ => Err AttributeError
  end.

(** ** Points in hexahedra *)

(** h8.py 50-52: all coordinates between [-1 - tol] and [1 + tol] *)
Definition in_cube (tol : R) (x : list R) : bool :=
  forallb (fun c => kltb (-1 - tol) c) x && forallb (fun c => kltb c (1 + tol)) x.
(** h8.py _pip_H8_bulk_, 45-53; [x] has a row for every cell, in it the local coordinates of every point *)
Definition pip_H8_bulk (x : list (list (list R))) (tol : R) : res (list (list bool)) :=
  mapM (fun i => mapM (fun j => do c <- get2 x j i; Ok (in_cube tol c)) (seq 0 (length x))) (seq 0 (ncols x)).
(** h8.py _pip_H8_bulk_knn_, 57-66; [nK] columns of an array with as many columns as there are cells are written *)
Definition pip_H8_bulk_knn (x : list (list (list R))) (knn : list (list nat)) (tol : R) : res (list (list bool)) :=
  let nK := ncols knn in
  do _ <- guard (Nat.leb nK (length x)) IndexError;
  mapM (fun i => do hits <- mapM (fun k => do c <- get2 x k i; Ok (in_cube tol c)) (seq 0 nK);
                 Ok (hits ++ repeat false (length x - nK))) (seq 0 (ncols x)).

(** ** First hits *)

(** utils/cells/utils.py _find_first_hits_1d_, 115-122, executing the iterations [its] in this order.  Iterations that write the same
    entry are in conflict. *)
Definition find_first_hits_1d_in (its : list nat) (indices : list nat) : res (list nat) :=
  do m <- np_max indices;
  foldM (fun r i => do v <- get indices i; set r v i) its (zeros 0%nat (m + 1)).
Definition find_first_hits_1d (indices : list nat) := find_first_hits_1d_in (seq 0 (length indices)) indices.

(** ** Copies of a triangle mesh *)

(** [neumann.tile] (not part of the repository): [N] copies of the array one after the other, copy [i] with [i] times [da] added *)
Definition tile_nat (a : list (list nat)) (da N : nat) : list (list nat) :=
  concat (map (fun i => map (map (fun x => x + i * da)%nat) a) (seq 0 N)).
Definition tile_points (a : list (list R)) (da : list R) (N : nat) : res (list (list R)) :=
  do cs <- mapM (fun i => mapM (fun p => vadd p (vscale (INR i) da)) a) (seq 0 N); Ok (concat cs).
(** pop.py populate_trimesh_T3_njit, 36-39 *)
Definition populate_njit (points : list (list R)) (topo : list (list nat)) (dp : list R) (N : nat) : res (list (list R) * list (list nat)) :=
  do p <- tile_points points dp N; Ok (p, tile_nat topo (length points) N).
(** pop.py populate_trimesh_T3, 13-32: without and with lines *)
Definition populate_trimesh_T3 := populate_njit.
Definition populate_trimesh_T3_lines (points : list (list R)) (topo : list (list nat)) (dp : list R) (N : nat)
    (edges edgeIDs : option (list (list nat))) : res (list (list R) * list (list nat) * list (list nat) * list (list nat)) :=
  do pt <- populate_njit points topo dp N;
  do ei <- match edges, edgeIDs with Some e, Some i => Ok (e, i) | _, _ => mesh_edges topo end;
  Ok (fst pt, tile_nat (fst ei) (length points) N, snd pt, tile_nat (snd ei) (length (fst ei)) N).
