(** * Model of src/polymesh/recipes.py: circular_disk, cylinder, perforated_cube

    Definitions only, over the reals.  The triangulation of points of the plane (triang.py 143-145, [tri.Triangulation] of matplotlib) is a
    parameter: a function from the points to triangles. *)
From Coq Require Import Reals ZArith.
From Verif Require TrModel.
From Verif Require Export TableModel RecipeModel ExtrudeModel.
Local Open Scope R_scope.

Definition triangulation := list (list R) -> list (list nat).

(** [np.linspace(0, 2 * np.pi, n, endpoint=False)] *)
Definition full_circle (n : nat) : list R := map (fun i => INR i * (2 * PI / INR n)) (seq 0 n).
(** [radius * np.cos(angles)] and [radius * np.sin(angles)] *)
Definition on_circle (r a : R) : list R := [r * cos a; r * sin a].
(** circular_disk, 64-71; the angles of every second ring are shifted, 67 *)
Definition disk_points (nangles nradii : nat) (rmin rmax : R) : res (list (list R)) :=
  if Nat.eqb nangles 0 then Err ZeroDivisionError else
  let radii := linspace rmin rmax nradii in
  Ok (flat_map (fun a => map (fun jr => on_circle (snd jr) (if Nat.odd (fst jr) then a + PI / INR nangles else a)) (enum radii)) (full_circle nangles)).
(** [np.hypot] of a point, or of the mean of the nodes of a triangle, 76 and 376-379 *)
Definition hypot (x y : R) : R := sqrt (x ^ 2 + y ^ 2).
Definition point_hypot (p : list R) : res R := do x <- get p 0; do y <- get p 1; Ok (hypot x y).
Definition mean (xs : list R) : R := fold_right Rplus 0 xs / INR (length xs).
Definition triangle_hypot (points : list (list R)) (t : list nat) : res R :=
  do ps <- take points t;
  do xs <- mapM (fun p => get p 0) ps;
  do ys <- mapM (fun p => get p 1) ps;
  Ok (hypot (mean xs) (mean ys)).
(** 75-79 and 375-382: [set_mask], [get_masked_triangles] *)
Definition unmasked (points : list (list R)) (triangles : list (list nat)) (r : R) : res (list (list nat)) :=
  do h <- mapM (triangle_hypot points) triangles;
  Ok (select triangles (map (fun x => if Rlt_dec x r then false else true) h)).
(** 80 and 383: a third coordinate *)
Definition with_zero (points : list (list R)) : res (list (list R)) :=
  mapM (fun p => do x <- get p 0; do y <- get p 1; Ok [x; y; 0]) points.
(** 72-81 and 374-384 *)
Definition cut_out (tool : triangulation) (points : list (list R)) (r : R) : res (list (list R) * list (list nat)) :=
  do triangles <- unmasked points (tool points) r;
  do points <- with_zero points;
  detach_mesh_bulk points triangles.
(** circular_disk, 38-83, up to the construction of the TriMesh object *)
Definition circular_disk (tool : triangulation) (nangles nradii : nat) (rmin rmax : R) : res (list (list R) * list (list nat)) :=
  do points <- disk_points nangles nradii rmin rmax;
  cut_out tool points rmin.

(** cylinder, 133-162, with [regular=True], [voxelize=False], the default cell type and a pair as the radius; [mesh.coords()] and
    [mesh.topology()] are those of circular_disk, the frame being the standard frame; the angle is unpacked (135) and not used *)
Definition cylinder (tool : triangulation) (rmin rmax angle h : R) (size : list nat) : res (list (list R) * list (list nat)) :=
  match size with
  | [n_radii; n_angles; n_z] =>
      do pt <- circular_disk tool n_angles n_radii rmin rmax;
      extrude_T3_TET4 Floating (fst pt) (snd pt) h n_z
  | _ => Err ValueError
  end.

(** [int(x)] *)
Definition int_of (x : R) : Z := if Rle_dec 0 x then Int_part x else (- Int_part (- x))%Z.
(** [int(l / lmax)] *)
Definition parts (l lmax : R) : res Z := if Req_EM_T lmax 0 then Err ZeroDivisionError else Ok (int_of (l / lmax)).
(** perforated_cube, 351-354 *)
Definition cube_shape (lx ly : R) (lmax : option R) : res (list nat) :=
  match lmax with
  | Some l => do x <- parts lx l; do y <- parts ly l; Ok [Z.to_nat (Z.max x 4); Z.to_nat (Z.max y 4)]
  | None => Ok [4; 4]%nat
  end.
(** 356-360: the points of the grid that are kept *)
Definition clearance (radius : R) (lmax : option R) : R := match lmax with Some l => radius + l | None => radius * (11 / 10) end.
Definition outer_points (coords : list (list R)) (d : R) : res (list (list R)) :=
  do h <- mapM point_hypot coords;
  Ok (select coords (map (fun x => if Rlt_dec d x then true else false) h)).
(** 362-366 *)
Definition hole_angles (radius : R) (nangles : option nat) (lmax : option R) : res nat :=
  match nangles with
  | Some n => Ok n
  | None => match lmax with Some l => do n <- parts (2 * PI * radius) l; Ok (Z.to_nat (Z.max n 8)) | None => Ok 16%nat end
  end.
(** 350-372: the points of the triangulation *)
Definition cube_points (lx ly radius : R) (nangles : option nat) (lmax : option R) : res (list (list R)) :=
  do shape <- cube_shape lx ly lmax;
  do ct <- grid (size_args [lx; ly] shape) (ETuple [2; 2]%nat);
  do coords <- outer_points (fst ct) (clearance radius lmax);
  do n <- hole_angles radius nangles lmax;
  Ok (coords ++ map (on_circle radius) (full_circle n)).
(** 386-389; a negative number is not a length *)
Definition cube_layers (lz : R) (lmax : option R) : res nat :=
  match lmax with
  | Some l => do z <- parts lz l; if Z.ltb z 0 then Err ValueError else Ok (Z.to_nat z)
  | None => Ok 4%nat
  end.
(** perforated_cube, 331-411, up to the construction of the PolyData object *)
Definition perforated_cube (tool : triangulation) (lx ly lz radius : R) (nangles : option nat) (lmax : option R) (order : nat) (prismatic : bool)
    : res (list (list R) * list (list nat)) :=
  do points <- cube_points lx ly radius nangles lmax;
  do ct <- cut_out tool points radius;
  do zres <- cube_layers lz lmax;
  do ct <- if prismatic then extrude_T3_W6 Floating (fst ct) (snd ct) lz zres else extrude_T3_TET4 Floating (fst ct) (snd ct) lz zres;
  if Nat.eqb order 1 then Ok ct
  else if Nat.eqb order 2 then (if prismatic then TrModel.W6_to_W18 (fst ct) (snd ct) else TrModel.TET4_to_TET10 (fst ct) (snd ct))
  else Err ValueError.
