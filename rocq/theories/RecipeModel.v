(** * Model of src/polymesh/recipes.py (circular_helix, ribbed_plate), src/polymesh/voxelize.py *)
From Coq Require Import Reals String.
From Verif Require Export GridModel NodalModel.
Local Open Scope R_scope.

(** [np.ceil] *)
Definition ceil (x : R) : Z := (- Int_part (- x))%Z.
(** [np.unique(np.sort(l))]: sorted, without duplicates *)
Fixpoint insert_unique (x : R) (l : list R) : list R :=
  match l with
  | [] => [x]
  | y :: t => if Rlt_dec x y then x :: l else if Req_EM_T x y then l else y :: insert_unique x t
  end.
Definition sort_unique (l : list R) : list R := fold_right insert_unique [] l.
(** [a > x] and [a < y], for the entry [d] of a centre *)
Definition strictly (x y a : R) : bool := (if Rlt_dec x a then true else false) && (if Rlt_dec a y then true else false).
(** [topo[mask, :]] *)
Definition select {A} (l : list A) (mask : list bool) : list A := map fst (filter snd (combine l mask)).

(** circular_helix, 18-35: the radius and the number b of the helix, from the arguments; None * number and number / None are TypeErrors *)
Definition helix_args (a b slope pitch : option R) : res (option R * option R) :=
  let b := match pitch with Some p => match b with Some _ => b | None => Some (p / 2 / PI) end | None => b end in
  match slope with
  | None => Ok (a, b)
  | Some s =>
      do a <- match a with Some _ => Ok a | None => match b with Some b => Ok (Some (s * b)) | None => Err TypeError end end;
      do b <- match b with
              | Some _ => Ok b
              | None => match a with Some a => if Req_EM_T a 0 then Err ZeroDivisionError else Ok (Some (s / a)) | None => Err TypeError end
              end;
      Ok (a, b)
  end.
(** the function that is returned, 29-35 *)
Definition helix (a b slope pitch : option R) (t : R) : res (R * R * R) :=
  do ab <- helix_args a b slope pitch;
  match ab with
  | (Some a, Some b) => Ok (a * cos t, a * sin t, b * t)
  | _ => Err TypeError
  end.

(** the argument [lmax] of ribbed_plate: absent, a float, an int *)
Inductive lmax_arg := LNone | LFloat (l : R) | LInt (l : Z).
(** ribbed_plate, 254-263, one interval; [lmax = 0] gives [int(inf)], an OverflowError *)
Definition divide_interval (lmax a b : R) : res (list R) :=
  do ndiv <- if Rlt_dec lmax (b - a) then (if Req_EM_T lmax 0 then Err ZeroDivisionError else Ok (ceil ((b - a) / lmax))) else Ok 1%Z;
  let ldiv := (b - a) / IZR ndiv in
  Ok (map (fun j => a + INR j * ldiv) (seq 0 (Z.to_nat ndiv))).
(** ribbed_plate, subdivide, 251-265 *)
Definition subdivide (bins : list R) (lmax : R) : res (list R) :=
  do parts <- mapM (fun i => do a <- get bins i; do b <- get bins (i + 1); divide_interval lmax a b) (seq 0 (length bins - 1));
  do last <- get bins (length bins - 1);
  Ok (concat parts ++ [last]).
(** 290-293 *)
Definition refine (lmax : lmax_arg) (bins : list R) : res (list R) :=
  match lmax with LFloat l => subdivide bins l | _ => Ok bins end.

(** the conditions [w is not None and h is not None], 272 and 279, with the eccentricity filled in: (w, h, e) *)
Definition rib (w h e : option R) : option (R * R * R) :=
  match w, h with Some w, Some h => Some (w, h, match e with Some e => e | None => 0 end) | _, _ => None end.
(** positions added for ribs, 267-285: across the ribs, and vertical *)
Definition rib_across (r : option (R * R * R)) : list R :=
  match r with Some (w, _, _) => [- w / 2; w / 2] | None => [] end.
Definition rib_vertical (t : R) (r : option (R * R * R)) : list R :=
  match r with
  | Some (_, h, e) =>
      (if Rlt_dec (e - h / 2) (- t / 2) then [e - h / 2] else []) ++ (if Rlt_dec (t / 2) (e + h / 2) then [e + h / 2] else [])
  | None => []
  end.
Definition plate_xbins (lx : R) (ry : option (R * R * R)) : list R := sort_unique ([- lx / 2; 0; lx / 2] ++ rib_across ry).
Definition plate_ybins (ly : R) (rx : option (R * R * R)) : list R := sort_unique ([- ly / 2; 0; ly / 2] ++ rib_across rx).
Definition plate_zbins (t : R) (rx ry : option (R * R * R)) : list R := sort_unique ([- t / 2; 0; t / 2] ++ rib_vertical t rx ++ rib_vertical t ry).
(** the mask, 303-311, for one centre *)
Definition rib_mask (axis : nat) (r : option (R * R * R)) (c : list R) : res bool :=
  match r with
  | Some (w, h, e) => do y <- get c axis; do z <- get c 2; Ok (strictly (- w / 2) (w / 2) y && strictly (e - h / 2) (e + h / 2) z)
  | None => Ok false
  end.
Definition plate_mask (t : R) (rx ry : option (R * R * R)) (c : list R) : res bool :=
  do z <- get c 2;
  do mx <- rib_mask 1 rx c;
  do my <- rib_mask 0 ry c;
  Ok (strictly (- t / 2) (t / 2) z || mx || my).
(** the arguments of the calls of [grid], 296-298 and voxelize.py 23-25 *)
Definition bins_args (bins : list (list R)) : grid_args (K := R) :=
  {| a_size := None; a_shape := None; a_shift := None; a_start := 0; a_bins := Some bins; a_cast := fun x => x; a_centralize := false; a_path := None |}.
Definition size_args (size : list R) (shape : list nat) : grid_args (K := R) :=
  {| a_size := Some size; a_shape := Some shape; a_shift := None; a_start := 0; a_bins := None; a_cast := fun x => x; a_centralize := true; a_path := None |}.
(** ribbed_plate, 188-328, up to the construction of the PolyData object: coordinates, topology and the name of the cell type *)
Definition ribbed_plate (lx ly t : R) (wx wy hx hy ex ey : option R) (lmax : lmax_arg) (order : nat) (tetrahedralize : bool)
    : res (list (list R) * list (list nat) * string) :=
  let rx := rib wx hx ex in
  let ry := rib wy hy ey in
  do xbins <- refine lmax (plate_xbins lx ry);
  do ybins <- refine lmax (plate_ybins ly rx);
  do zbins <- refine lmax (plate_zbins t rx ry);
  let bins := [xbins; ybins; zbins] in
  do ct <- if Nat.eqb order 1 then grid (bins_args bins) (EName "H8")
           else if Nat.eqb order 2 then grid (bins_args bins) (EName "H27") else Err ValueError;
  let (coords, topo) := ct in
  do centers <- cell_centers_bulk coords topo;
  do mask <- mapM (plate_mask t rx ry) centers;
  let topo := select topo mask in
  do ctt <- if tetrahedralize then
              (if Nat.eqb order 1 then do r <- H8_to_TET4 0%nat coords topo DNone PNone; Ok (fst r, fst (snd r), "TET4"%string)
               else do r <- H27_to_TET10 0%nat coords topo DNone PNone; Ok (fst r, fst (snd r), "TET10"%string))
            else Ok (coords, topo, if Nat.eqb order 1 then "H8"%string else "H27"%string);
  let '(coords, topo, celltype) := ctt in
  do r <- detach_mesh_bulk coords topo;
  Ok (fst r, snd r, celltype).

(** the argument [radius] of voxelize_cylinder: an int, a float, or an array (list, tuple) *)
Inductive radius_arg := RInt (r : Z) | RFloat (r : R) | RArr (r : list R).
(** voxelize.py 17-20; [np.array] of a float has no axis, so that reading [radius[1]] is an IndexError *)
Definition radii (radius : radius_arg) : list R := match radius with RInt r => [0; IZR r] | RFloat _ => [] | RArr r => r end.
(** [int(np.ceil(l / size))]; numbers below 0 are refused by numpy *)
Definition pieces (l size : R) : res nat :=
  if Req_EM_T size 0 then Err ZeroDivisionError else
  let n := ceil (l / size) in if Z.ltb n 0 then Err ValueError else Ok (Z.to_nat n).
(** voxelize_cylinder, 14-32; [centers()] is cell_centers_bulk, the frame being the standard frame *)
Definition voxelize_cylinder (radius : radius_arg) (height size : R) : res (list (list R) * list (list nat)) :=
  do r1 <- get (radii radius) 1;
  do nXY <- pieces (2 * r1) size;
  do nZ <- pieces height size;
  do ct <- grid (size_args [2 * r1; 2 * r1; height] [nXY; nXY; nZ]) (EName "H8");
  let (coords, topo) := ct in
  do c <- cell_centers_bulk coords topo;
  do r0 <- get (radii radius) 0;
  do cond <- mapM (fun c => do x <- get c 0; do y <- get c 1;
      let r := sqrt (x ^ 2 + y ^ 2) in Ok ((if Rle_dec r r1 then true else false) && (if Rle_dec r0 r then true else false))) c;
  detach_mesh_bulk coords (select topo cond).
(** recipes.py cylinder, 131-151, with [voxelize]: the argument [size] is an int or a float.  An int [radius] is replaced in the same way as
    in voxelize_cylinder *)
Inductive voxel_arg := VInt (n : Z) | VFloat (s : R).
Definition cylinder_voxels (radius : radius_arg) (height : R) (size : voxel_arg) : res (list (list R) * list (list nat)) :=
  do s <- match size with
          | VInt n => do r1 <- get (radii radius) 1; do r0 <- get (radii radius) 0; if Z.eqb n 0 then Err ZeroDivisionError else Ok ((r1 - r0) / IZR n)
          | VFloat s => Ok s
          end;
  voxelize_cylinder (RArr (radii radius)) height s.
