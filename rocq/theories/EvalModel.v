(** * Model of the evaluation of shape functions at arrays of points
    [PolyCell.shape_function_values] and [.shape_function_derivatives] (src/polymesh/cell.py 194-278)

    Definitions only, over the reals. *)
From Coq Require Import Reals.
From Verif Require Export CellsModel.
Local Open Scope R_scope.

(** The type of the numbers in an array made by [np.array(pcoords)]: it is an integer array when all the
    numbers given are integers.  Simplification: machine integers and floating point numbers are exact. *)
Inductive dtype := Floating | Integral.

(** Storing a number in an array: numpy and numba drop the fractional part for integer arrays. *)
Definition truncate (x : R) : R := if Rle_dec 0 x then IZR (Int_part x) else - IZR (Int_part (- x)).
Definition store (dt : dtype) (x : R) : R := match dt with Floating => x | Integral => truncate x end.

(** [np.array(pcoords)] for an array of type [dt]: integer arrays contain integers *)
Definition has_dtype (dt : dtype) (pcoords : list (list R)) : Prop :=
  match dt with Floating => True | Integral => exists zs, pcoords = map (map IZR) zs end.

(** [shp_X_multi]: utils/cells/l2.py 21-27, t3.py 20-26, t6.py 30-36, q4.py 41-47, q9.py 67-73,
    tet4.py 52-58, h8.py 142-148, h27.py 301-307: [res = np.zeros((nP, nNE), dtype=pcoords.dtype)],
    then [res[iP, :] = shp_X(pcoords[iP])] for each point.  Where [shp_X] itself ends with
    [dtype=pcoord.dtype] the truncation happens one step earlier; the second one has no effect. *)
Definition shp_multi (shp : list R -> res (list R)) (dt : dtype) (pcoords : list (list R)) : res (list (list R)) :=
  mapM (fun p => do N <- shp p; Ok (map (store dt) N)) pcoords.
(** [dshp_X_multi]: utils/cells/l2.py 54-60, t3.py 53-59, t6.py 73-79, q4.py 64-70, q9.py 145-151,
    tet4.py 87-93, h8.py 219-225, h27.py 932-938; same scheme *)
Definition dshp_multi (dshp : list R -> res (list (list R))) (dt : dtype) (pcoords : list (list R))
    : res (list (list (list R))) :=
  mapM (fun p => do D <- dshp p; Ok (map (map (store dt)) D)) pcoords.

(** cell.py 194-218 and 255-278, for elements with built in functions ([shpfnc], [dshpfnc] are
    [shp_X_multi], [dshp_X_multi]); the final [astype(float)] changes no value.  [pcoords] is the array
    of points after [np.array], with two dimensions. *)
Definition shape_function_values (shp : list R -> res (list R)) (dt : dtype) (pcoords : list (list R)) :=
  shp_multi shp dt pcoords.
Definition shape_function_derivatives (dshp : list R -> res (list (list R))) (dt : dtype) (pcoords : list (list R)) :=
  dshp_multi dshp dt pcoords.
