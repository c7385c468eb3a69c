(** * Properties C51, C79 - C83: ribbed plates, helices, voxels, centred grids *)
From Coq Require Import Reals Lra Lia List String.
From Verif Require Import Base BaseFacts GridModel GridSpec NodalSpec SplitSpec RecipeModel RecipeSpec RecipeProofs3 RecipeProofs4 RecipeProofs7 RecipeProofs8 RecipeProofs9.
Import ListNotations.
Local Open Scope R_scope.

(** Positive lmax: the refined positions are increasing, contain the given positions, stay between them, keep both ends, and no interval is longer than lmax.  Missing: an lmax that is an integer (refuted below). *)
Theorem C51_partial :
  forall lmax, 0 < lmax -> forall bins, bins <> [] -> increasing bins -> exists r, subdivide bins lmax = Ok r /\ refines bins r /\
  (forall i, (i + 1 < length r)%nat -> nth (i + 1) r 0 - nth i r 0 <= lmax) /\ hd 0 r = hd 0 bins /\ last r 0 = last bins 0.
Proof. exact @subdivide_ok. Qed.
Print Assumptions C51_partial.
Example C51_ex : [0; 1; 5] <> [] /\ increasing [0; 1; 5].
Proof. split; [discriminate|]. intros [|[|i]] Hi; cbn in *; (lra || lia). Qed.

(** An lmax that is an int is ignored: whatever its value, the cells of a plate without ribs are half as long as the plate. *)
Theorem C51_integer_refuted :
  forall lx ly t m order, 0 < lx -> 0 < ly -> 0 < t -> order = 1%nat \/ order = 2%nat ->
  exists coords topo, ribbed_plate lx ly t None None None None None None (LInt m) order false = Ok (coords, topo, if Nat.eqb order 1 then "H8" else "H27")%string /\ topo <> [] /\
    forall cell, In cell topo -> box_hi coords cell 0 - box_lo coords cell 0 = lx / 2.
Proof. exact @plate_integer. Qed.
Print Assumptions C51_integer_refuted.
(** A plate with ribs that touch it: boxes that do not overlap and conform, with the nodes of the cells at their places, that fill the plate and the ribs and nothing else; no side is longer than lmax.  Missing: ribs that do not touch the plate or are wider than it (refuted below). *)
Theorem C79_partial :
  forall lx ly t wx wy hx hy ex ey lmax order, 0 < lx -> 0 < ly -> 0 < t -> rib_fits ly t (the_rib wx hx ex) -> rib_fits lx t (the_rib wy hy ey) ->
  match lmax with LFloat l => 0 < l | _ => True end -> order = 1%nat \/ order = 2%nat ->
  exists coords topo, ribbed_plate lx ly t wx wy hx hy ex ey lmax order false = Ok (coords, topo, if Nat.eqb order 1 then "H8" else "H27")%string /\
    box_mesh (if Nat.eqb order 1 then lcoords_H8 else lcoords_H27) coords topo /\
    (forall p, (exists cell, In cell topo /\ in_box coords cell p) <-> in_plate lx ly t p \/ in_rib_x lx (the_rib wx hx ex) p \/ in_rib_y ly (the_rib wy hy ey) p) /\
    (forall l cell d, lmax = LFloat l -> In cell topo -> (d < 3)%nat -> box_hi coords cell d - box_lo coords cell d <= l).
Proof. exact @plate_filled. Qed.
Print Assumptions C79_partial.
(** a plate with an eccentric rib along x and a centric rib along y *)
Example C79_ex : rib_fits 4 (1/10) (the_rib (Some 1) (Some (1/2)) (Some (1/4))) /\ rib_fits 3 (1/10) (the_rib (Some (1/2)) (Some 1) None).
Proof. cbn. lra. Qed.

(** A rib above the plate: if the gap is narrower than the rib is high, cells fill the gap; if it is wider, the rib is lost. *)
Theorem C79_gap_refuted :
  forall lx ly t w h e order, 0 < lx -> 0 < ly -> 0 < t -> 0 < w <= ly -> 0 < h -> t / 2 < e - h / 2 -> order = 1%nat \/ order = 2%nat ->
  exists coords topo, ribbed_plate lx ly t (Some w) None (Some h) None (Some e) None LNone order false = Ok (coords, topo, if Nat.eqb order 1 then "H8" else "H27")%string /\
    (* a narrow gap is filled, *)
    (e - h / 2 - t / 2 < h -> exists p cell, In cell topo /\ in_box coords cell p /\ t / 2 < nth 2 p 0 < e - h / 2) /\
    (* a wide gap loses the rib *)
    (h <= e - h / 2 - t / 2 -> forall cell, In cell topo -> box_hi coords cell 2 <= t / 2).
Proof. exact @plate_gap. Qed.
Print Assumptions C79_gap_refuted.
Example C79_gap_ex : 1 / 2 < 2 - 2 / 2 /\ 2 - 2 / 2 - 1 / 2 < 2 /\ (1 <= 3 - 1 / 2 - 1 / 2).
Proof. lra. Qed.

(** A rib wider than the plate, inside of its thickness: the plate itself is made wider, cells reach points that are neither in the plate nor in the rib. *)
Theorem C79_widened_refuted :
  forall lx ly t w h order, 0 < lx -> 0 < ly -> 0 < t -> ly < w -> 0 < h < t -> order = 1%nat \/ order = 2%nat ->
  exists coords topo, ribbed_plate lx ly t (Some w) None (Some h) None None None LNone order false = Ok (coords, topo, if Nat.eqb order 1 then "H8" else "H27")%string /\
    exists p cell, In cell topo /\ in_box coords cell p /\ ly / 2 < nth 1 p 0 /\ h / 2 < nth 2 p 0.
Proof. exact @plate_widened. Qed.
Print Assumptions C79_widened_refuted.
(** Tetrahedra: of positive volume, without overlap, that fill the plate and the ribs and nothing else; those of order two have the midpoints of their edges as nodes.  Missing: that they conform (refuted below). *)
Theorem C80_partial :
  forall lx ly t wx wy hx hy ex ey lmax order ,  0 < lx -> 0 < ly -> 0 < t -> rib_fits ly t (the_rib wx hx ex) -> rib_fits lx t (the_rib wy hy ey) ->
  match lmax with LFloat l => 0 < l | _ => True end -> order = 1%nat \/ order = 2%nat ->
  exists coords topo, ribbed_plate lx ly t wx wy hx hy ex ey lmax order true = Ok (coords, topo, if Nat.eqb order 1 then "TET4" else "TET10")%string /\
    tet_mesh coords topo /\ (order = 2%nat -> forall tet, In tet topo -> edges_halved coords tet) /\
    (forall p, (exists tet, In tet topo /\ in_tet coords tet (fun d => nth d p 0)) <-> in_plate lx ly t p \/ in_rib_x lx (the_rib wx hx ex) p \/ in_rib_y ly (the_rib wy hy ey) p).
Proof. intros * H1 H2 H3 H4 H5 H6 H7. destruct (plate_tets _ _ _ _ _ _ _ _ _ _ _ H1 H2 H3 H4 H5 H6 H7) as (c & t0 & A & B & C & D & _). exists c, t0. auto. Qed.
Print Assumptions C80_partial.
(** The tetrahedra of a ribbed plate never conform: the diagonals of neighbouring boxes cross. *)
Theorem C80_conforming_refuted :
  forall lx ly t wx wy hx hy ex ey lmax order ,  0 < lx -> 0 < ly -> 0 < t -> rib_fits ly t (the_rib wx hx ex) -> rib_fits lx t (the_rib wy hy ey) ->
  match lmax with LFloat l => 0 < l | _ => True end -> order = 1%nat \/ order = 2%nat ->
  exists coords topo, ribbed_plate lx ly t wx wy hx hy ex ey lmax order true = Ok (coords, topo, if Nat.eqb order 1 then "TET4" else "TET10")%string  /\ ~ conforming coords topo.
Proof. intros * H1 H2 H3 H4 H5 H6 H7. destruct (plate_tets _ _ _ _ _ _ _ _ _ _ _ H1 H2 H3 H4 H5 H6 H7) as (c & t0 & A & _ & _ & _ & B). exists c, t0. auto. Qed.
Print Assumptions C80_conforming_refuted.

Example C80_ex : rib_fits 4 (1/10) (the_rib (Some 1) (Some (1/2)) (Some (1/4))) /\ rib_fits 3 (1/10) (the_rib None None None) /\ 0 < 1 / 3.
Proof. cbn. lra. Qed.

(** The radius or the slope, and b or the pitch: a circular helix with all the given parameters; the slope is radius / b, the pitch is 2 pi b.  Missing: the radius and the slope; contradicting parameters (both refuted below). *)
Theorem C81_partial :
  forall a b slope pitch, (forall x, a = Some x -> slope = None) -> (forall x, b = Some x -> pitch = None) -> a <> None \/ slope <> None -> b <> None \/ pitch <> None ->
  exists radius advance, is_helix radius advance (helix a b slope pitch) /\
    (forall x, a = Some x -> radius = x) /\ (forall x, b = Some x -> advance = 2 * PI * x) /\ (forall x, pitch = Some x -> advance = x) /\ (forall x, slope = Some x -> radius = x * (advance / (2 * PI))).
Proof. exact @helix_given. Qed.
Print Assumptions C81_partial.
Example C81_ex : (forall x : R, @None R = Some x -> Some 2 = None) /\ (forall x : R, @None R = Some x -> Some 3 = None) /\ (@None R <> None \/ Some 2 <> None) /\ (@None R <> None \/ Some 3 <> None).
Proof. repeat split; intros; try discriminate; right; discriminate. Qed.

(** The radius and the slope: the helix has the given radius, and has the given slope only if the slope and the radius are equal up to sign. *)
Theorem C81_slope_refuted :
  forall a s, a <> 0 -> exists radius advance, is_helix radius advance (helix (Some a) None (Some s) None) /\ radius = a /\ (radius = s * (advance / (2 * PI)) <-> a * a = s * s).
Proof. exact @helix_slope. Qed.
Print Assumptions C81_slope_refuted.
(** If the radius and b are given, the slope and the pitch are ignored. *)
Theorem C81_ignored_refuted :
  forall a b s p t, helix (Some a) (Some b) s p t = helix (Some a) (Some b) None None t.
Proof. exact @helix_both. Qed.
Print Assumptions C81_ignored_refuted.
(** Parameters that do not determine a helix: TypeError, when the helix is evaluated or created. *)
Theorem C81_missing :
  forall a b slope pitch t, (a = None /\ slope = None) \/ (a = None /\ b = None /\ pitch = None) \/ (b = None /\ pitch = None /\ slope = None) -> helix a b slope pitch t = Err TypeError.
Proof. exact @helix_missing. Qed.
Print Assumptions C81_missing.
(** Cells that are boxes with sides up to the size, do not overlap and conform; their centres lie between the two cylinders; every cell stays within half a diagonal of the tube, and every point of the tube that is at least half a diagonal away from both cylinders is in a cell.  Missing: a radius that is a float (refuted below). *)
Theorem C82_partial :
  forall r0 r1 h s, 0 < r1 -> 0 < h -> 0 < s ->
  exists coords topo, voxelize_cylinder (RArr [r0; r1]) h s = Ok (coords, topo) /\ box_mesh lcoords_H8 coords topo /\
    (forall cell d, In cell topo -> (d < 3)%nat -> box_hi coords cell d - box_lo coords cell d <= s) /\
    (forall cell, In cell topo -> r0 <= axis_dist (map (box_mid coords cell) [0; 1]%nat) <= r1) /\
    (forall cell p, In cell topo -> in_box coords cell p -> r0 - half_diagonal s <= axis_dist p <= r1 + half_diagonal s /\ within (- h / 2) (h / 2) (nth 2 p 0)) /\
    (forall p, r0 + half_diagonal s <= axis_dist p <= r1 - half_diagonal s -> within (- h / 2) (h / 2) (nth 2 p 0) -> exists cell, In cell topo /\ in_box coords cell p).
Proof. exact @voxel_cells. Qed.
Print Assumptions C82_partial.
Example C82_ex : exists coords topo, voxelize_cylinder (RArr [1; 2]) 3 (1/4) = Ok (coords, topo) /\ topo <> [].
Proof.
  destruct (voxel_cells 1 2 3 (1/4) ltac:(lra) ltac:(lra) ltac:(lra)) as (c & t & E & _ & _ & _ & _ & F). exists c, t. split; [exact E|].
  destruct (F [3/2; 0; 0]) as (cell & H & _); [|unfold within; cbn; lra|intros H0; now rewrite H0 in H].
  unfold axis_dist, half_diagonal. cbn [nth]. replace ((3/2)^2 + 0^2) with (Rsqr (3/2)) by (unfold Rsqr; lra). rewrite sqrt_Rsqr by lra. assert (sqrt 2 <= 2); [|lra]. rewrite <- (sqrt_Rsqr 2) at 2 by lra. apply sqrt_le_1; unfold Rsqr; lra.
Qed.

(** The size of the recipe as an int: the sides of the voxels are at most the thickness of the tube divided by it. *)
Theorem C82_count_partial :
  forall r0 r1 h m, 0 <= r0 < r1 -> 0 < h -> (0 < m)%Z ->
  exists coords topo, cylinder_voxels (RArr [r0; r1]) h (VInt m) = Ok (coords, topo) /\
    forall cell d, In cell topo -> (d < 3)%nat -> box_hi coords cell d - box_lo coords cell d <= (r1 - r0) / IZR m.
Proof. exact @voxel_count_cells. Qed.
Print Assumptions C82_count_partial.
(** A radius that is an int is the radius of a solid cylinder. *)
Theorem C82_int :
  forall r h s, voxelize_cylinder (RInt r) h s = voxelize_cylinder (RArr [0; IZR r]) h s.
Proof. exact @voxel_int. Qed.
Print Assumptions C82_int.
(** A radius that is a float is an IndexError. *)
Theorem C82_float_refuted :
  forall r h s, voxelize_cylinder (RFloat r) h s = Err IndexError.
Proof. exact @voxel_float. Qed.
Print Assumptions C82_float_refuted.
(** Centred uniform grids of quadrilaterals are the grids on [-lx/2, lx/2] x [-ly/2, ly/2], whatever the shift. *)
Theorem C83_quads :
  forall name nx ny start lX lY sx sy, (1 <= nx)%nat -> (1 <= ny)%nat -> name = "Q4"%string \/ name = "Q9"%string ->
  grid (with_centralize true (uargs [lX; lY] [nx; ny] [sx; sy] start)) (EName name) = grid (uargs [lX; lY] [nx; ny] [- lX / 2; - lY / 2] start) (EName name).
Proof. exact @centered_quads. Qed.
Print Assumptions C83_quads.
(** Centred uniform grids of hexahedra are the grids on [-lx/2, lx/2] x [-ly/2, ly/2] x [-lz/2, lz/2], whatever the shift. *)
Theorem C83_hexas :
  forall name nx ny nz start lX lY lZ sx sy sz, (1 <= nx)%nat -> (1 <= ny)%nat -> (1 <= nz)%nat -> name = "H8"%string \/ name = "H27"%string ->
  grid (with_centralize true (uargs [lX; lY; lZ] [nx; ny; nz] [sx; sy; sz] start)) (EName name) = grid (uargs [lX; lY; lZ] [nx; ny; nz] [- lX / 2; - lY / 2; - lZ / 2] start) (EName name).
Proof. exact @centered_hexas. Qed.
Print Assumptions C83_hexas.
(** The same for grids of cells with any number of nodes in each direction. *)
Theorem C83_2d :
  forall nx ny ex ey start lX lY sx sy, (1 <= nx)%nat -> (1 <= ny)%nat -> (2 <= ex)%nat -> (2 <= ey)%nat ->
  grid (with_centralize true (uargs [lX; lY] [nx; ny] [sx; sy] start)) (ETuple [ex; ey]) = grid (uargs [lX; lY] [nx; ny] [- lX / 2; - lY / 2] start) (ETuple [ex; ey]).
Proof. exact @centered_grid2. Qed.
Print Assumptions C83_2d.
Theorem C83_3d :
  forall nx ny nz ex ey ez start lX lY lZ sx sy sz, (1 <= nx)%nat -> (1 <= ny)%nat -> (1 <= nz)%nat -> (2 <= ex)%nat -> (2 <= ey)%nat -> (2 <= ez)%nat ->
  grid (with_centralize true (uargs [lX; lY; lZ] [nx; ny; nz] [sx; sy; sz] start)) (ETuple [ex; ey; ez]) = grid (uargs [lX; lY; lZ] [nx; ny; nz] [- lX / 2; - lY / 2; - lZ / 2] start) (ETuple [ex; ey; ez]).
Proof. exact @centered_grid3. Qed.
Print Assumptions C83_3d.
Example C83_ex : exists coords topo, grid (with_centralize true (uargs [2; 4] [1; 2]%nat [7; 9] 0)) (EName "Q4") = Ok (coords, topo) /\ nth 0 coords [] = [-1; -2].
Proof.
  rewrite (centered_quads "Q4" 1 2 0 2 4 7 9) by auto. do 2 eexists. split; [reflexivity|]. cbn. repeat f_equal; lra.
Qed.
