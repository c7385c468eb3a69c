(** * Properties C36 - C39, C64 - C68, C72: triangles and tetrahedra *)
From Coq Require Import Reals Lra Lia Permutation.
From Verif Require Import TriModel TriSpec TriProofs TriProofs2 TriProofs3 TriProofs4 TriProofs5 TriProofs6.
Local Open Scope R_scope.

(** ** C36 Areas of triangles *)

(** the signed area; positions in space are projected to the plane of the first two coordinates *)
Theorem C36_area_tri :
  forall a b c, has_dim 2 a -> has_dim 2 b -> has_dim 2 c ->
  area_tri [a; b; c] = Ok (signed_area a b c).
Proof. exact area_tri_value. Qed.
Print Assumptions C36_area_tri.
Theorem C36_vectorized :
  forall a b c,
  area_tri_u (px a) (py a) (px b) (py b) (px c) (py c) = signed_area a b c /\
  area_tri_u2 (px a) (px b) (px c) (py a) (py b) (py c) = signed_area a b c.
Proof. exact area_u_value. Qed.
Print Assumptions C36_vectorized.
(** the functions for many triangles: the signed areas, and their sum *)
Theorem C36_bulk :
  forall ecs, Forall (fun ec => exists a b c, ec = [a; b; c] /\ has_dim 2 a /\ has_dim 2 b /\ has_dim 2 c) ecs ->
  exists l, mapM area_tri ecs = Ok l /\ area_tri_bulk ecs = Ok l /\ areas_tri ecs = Ok (fold_right Rplus 0 l).
Proof. exact area_bulk_value. Qed.
Print Assumptions C36_bulk.
(** under affine maps (translations and rotations among them) the area is multiplied by the determinant *)
Theorem C36_affine :
  forall ox oy ux uy vx vy a b c,
  area_tri (map (plane_map ox oy ux uy vx vy) [a; b; c]) = Ok ((ux * vy - uy * vx) * signed_area a b c).
Proof. exact area_map. Qed.
Print Assumptions C36_affine.
(** cyclic permutations of the nodes; the others change the sign *)
Theorem C36_orientation :
  forall a b c, has_dim 2 a -> has_dim 2 b -> has_dim 2 c ->
  exists A, area_tri [a; b; c] = Ok A /\ area_tri [b; c; a] = Ok A /\ area_tri [c; a; b] = Ok A /\
    area_tri [b; a; c] = Ok (- A) /\ area_tri [a; c; b] = Ok (- A) /\ area_tri [c; b; a] = Ok (- A).
Proof. exact area_cyclic. Qed.
Print Assumptions C36_orientation.
Theorem C36_zero :
  forall a b c, has_dim 2 a -> has_dim 2 b -> has_dim 2 c ->
  (area_tri [a; b; c] = Ok 0 <-> collinear a b c).
Proof. exact area_zero. Qed.
Print Assumptions C36_zero.
Example C36_ex : has_dim 2 [1; 2; 7] /\ area_tri [[0; 0]; [4; 0]; [1; 3]] = Ok 6 /\ area_tri [[0; 0]; [1; 3]; [4; 0]] = Ok (-6).
Proof.
  split; [unfold has_dim; cbn; lia|]. rewrite !area_tri_value by (unfold has_dim; cbn; lia). unfold signed_area, px, py, at_. cbn [nth]. split; f_equal; lra.
Qed.
Example C36_ex_collinear : collinear [0; 0] [1; 2] [2; 4].
Proof. exists 2, (-1), 0. unfold px, py, at_. cbn [nth]. split; [left; lra|lra]. Qed.

(** ** C37 Natural coordinates of triangles *)

(** Counterclockwise triangles: the weights that give the point, the only ones. (Missing: clockwise triangles, integer arrays.) *)
Theorem C37_ccw_partial :
  forall a b c p, dim 2 a -> dim 2 b -> dim 2 c -> dim 2 p -> ccw a b c ->
  exists l, glob_to_nat_tri Floating p [a; b; c] = Ok l /\ weights_of 2 l [a; b; c] p /\
    nat_to_glob_tri l [a; b; c] = Ok p /\ forall l', weights_of 2 l' [a; b; c] p -> l' = l.
Proof. exact nat_tri_correct. Qed.
Print Assumptions C37_ccw_partial.
Theorem C37_ccw_inverse_partial :
  forall a b c l, dim 2 a -> dim 2 b -> dim 2 c -> ccw a b c -> length l = 3%nat -> fold_right Rplus 0 l = 1 ->
  exists p, nat_to_glob_tri l [a; b; c] = Ok p /\ dim 2 p /\ glob_to_nat_tri Floating p [a; b; c] = Ok l.
Proof. exact nat_tri_inverse. Qed.
Print Assumptions C37_ccw_inverse_partial.
(** Clockwise triangles: for every point other than the third node the coordinates belong to another point, *)
Theorem C37_clockwise_refuted :
  forall a b c p, dim 2 a -> dim 2 b -> dim 2 c -> dim 2 p -> clockwise a b c -> p <> c ->
  exists l q, glob_to_nat_tri Floating p [a; b; c] = Ok l /\ nat_to_glob_tri l [a; b; c] = Ok q /\ q <> p.
Proof. exact nat_clockwise_wrong. Qed.
Print Assumptions C37_clockwise_refuted.
(** since the first two have the wrong sign. *)
Theorem C37_clockwise_values_refuted :
  forall a b c p, has_dim 2 a -> has_dim 2 b -> has_dim 2 c -> has_dim 2 p -> clockwise a b c ->
  exists l0 l1 l2, weights_of 2 [l0; l1; l2] [a; b; c] p /\ glob_to_nat_tri Floating p [a; b; c] = Ok [- l0; - l1; 1 + l0 + l1].
Proof. exact nat_clockwise. Qed.
Print Assumptions C37_clockwise_values_refuted.
(** positions given as integers: the coordinates of (1, 1) are rounded to (0, 0, 0) *)
Theorem C37_integer_points_refuted :
  glob_to_nat_tri Integral [1; 1] [[0; 0]; [4; 0]; [0; 4]] = Ok [0; 0; 0].
Proof. exact nat_integral_wrong. Qed.
Print Assumptions C37_integer_points_refuted.
Theorem C37_degenerate :
  forall dt a b c p, has_dim 2 a -> has_dim 2 b -> has_dim 2 c -> has_dim 2 p -> signed_area a b c = 0 ->
  glob_to_nat_tri dt p [a; b; c] = Err ZeroDivisionError.
Proof. exact nat_degenerate. Qed.
Print Assumptions C37_degenerate.
Theorem C37_local_natural :
  forall r s, exists l, loc_to_nat_tri [r; s] = Ok l /\ fold_right Rplus 0 l = 1 /\ nat_to_loc_tri l = Ok [r; s].
Proof. exact loc_nat_loc. Qed.
Print Assumptions C37_local_natural.
Theorem C37_natural_local :
  forall l, length l = 3%nat -> fold_right Rplus 0 l = 1 ->
  exists r s, nat_to_loc_tri l = Ok [r; s] /\ loc_to_nat_tri [r; s] = Ok l.
Proof. exact nat_loc_nat. Qed.
Print Assumptions C37_natural_local.
Theorem C37_local_global :
  forall r s ec, exists l, loc_to_nat_tri [r; s] = Ok l /\ loc_to_glob_tri [r; s] ec = nat_to_glob_tri l ec.
Proof. exact loc_to_glob_nat. Qed.
Print Assumptions C37_local_global.
Theorem C37_local_global_natural :
  forall a b c r s, dim 2 a -> dim 2 b -> dim 2 c -> ccw a b c ->
  exists p l, loc_to_glob_tri [r; s] [a; b; c] = Ok p /\ glob_to_nat_tri Floating p [a; b; c] = Ok l /\ nat_to_loc_tri l = Ok [r; s].
Proof. exact loc_glob_loc. Qed.
Print Assumptions C37_local_global_natural.
Example C37_ex : ccw [0; 0] [4; 0] [1; 3] /\ clockwise [0; 0] [1; 3] [4; 0] /\
  glob_to_nat_tri Floating [2; 1] [[0; 0]; [4; 0]; [1; 3]] = Ok [1 / 4; 5 / 12; 1 / 3] /\
  glob_to_nat_tri Floating [2; 1] [[0; 0]; [1; 3]; [4; 0]] = Ok [- (1 / 4); - (1 / 3); 1 + 1 / 4 + 1 / 3].
Proof.
  assert (H : clockwise [0; 0] [1; 3] [4; 0]) by (unfold clockwise, signed_area, px, py, at_; cbn [nth]; lra).
  split; [ccws|]. split; [exact H|]. split.
  - apply nat_at; try (unfold has_dim; cbn; lia); [ccws|weights].
  - apply (nat_clockwise_of _ _ _ _ (1 / 4) (1 / 3) (5 / 12)); try (unfold has_dim; cbn; lia); [exact H|weights].
Qed.

(** ** C38 Point location in triangles and tetrahedra *)

(** Counterclockwise triangles: exactly the points with weights in the cell up to the tolerance. (Missing: clockwise triangles.) *)
Theorem C38_triangles_partial :
  forall points ecs tol, Forall (has_dim 2) points -> Forall ccw_cell ecs ->
  exists M, pip_tri_bulk Floating points ecs tol = Ok M /\
    Forall2 (fun p row => Forall2 (fun ec b => b = true <-> near_hull 2 tol ec p) ecs row) points M.
Proof. exact pip_tri_correct. Qed.
Print Assumptions C38_triangles_partial.
Theorem C38_triangles_neighbours_partial :
  forall points ecs neighbours tol, Forall (has_dim 2) points -> Forall ccw_cell ecs ->
  length neighbours = length points -> Forall (Forall (fun j => (j < length ecs)%nat)) neighbours ->
  exists M, pip_tri_bulk_knn Floating points ecs neighbours tol = Ok M /\
    Forall2 (fun pk row => Forall2 (fun j b => exists ec, nth_error ecs j = Some ec /\ (b = true <-> near_hull 2 tol ec (fst pk))) (snd pk) row)
      (combine points neighbours) M.
Proof. exact pip_tri_knn_correct. Qed.
Print Assumptions C38_triangles_neighbours_partial.
(** the points found with every tolerance are those of the closed triangle *)
Theorem C38_closed_triangle :
  forall ec p, ccw_cell ec -> has_dim 2 p ->
  ((forall tol, 0 < tol -> near_hull 2 tol ec p) <-> in_hull 2 ec p).
Proof. exact closed_triangle. Qed.
Print Assumptions C38_closed_triangle.
(** clockwise triangles: the centre is not found *)
Theorem C38_triangles_clockwise_refuted :
  forall a b c tol, has_dim 2 a -> has_dim 2 b -> has_dim 2 c -> clockwise a b c -> 0 < tol <= 1 / 3 ->
  exists p, in_hull 2 [a; b; c] p /\ pip_tri_bulk Floating [p] [[a; b; c]] tol = Ok [[false]].
Proof. exact pip_clockwise_wrong. Qed.
Print Assumptions C38_triangles_clockwise_refuted.
(** tetrahedra with either orientation *)
Theorem C38_tetrahedra :
  forall points ecs tol, Forall (dim 3) points -> Forall solid_tet ecs ->
  exists M, pip_tet_bulk points ecs tol = Ok M /\
    Forall2 (fun p row => Forall2 (fun ec b => b = true <-> near_hull 3 tol ec p) ecs row) points M.
Proof. exact pip_tet_correct. Qed.
Print Assumptions C38_tetrahedra.
Theorem C38_tetrahedra_neighbours :
  forall points ecs neighbours tol, Forall (dim 3) points -> Forall solid_tet ecs ->
  length neighbours = length points -> Forall (Forall (fun j => (j < length ecs)%nat)) neighbours ->
  exists M, pip_tet_bulk_knn points ecs neighbours tol = Ok M /\
    Forall2 (fun pk row => Forall2 (fun j b => exists ec, nth_error ecs j = Some ec /\ (b = true <-> near_hull 3 tol ec (fst pk))) (snd pk) row)
      (combine points neighbours) M.
Proof. exact pip_tet_knn_correct. Qed.
Print Assumptions C38_tetrahedra_neighbours.
Theorem C38_closed_tetrahedron :
  forall ec p, solid_tet ec -> dim 3 p ->
  ((forall tol, 0 < tol -> near_hull 3 tol ec p) <-> in_hull 3 ec p).
Proof. exact closed_tet. Qed.
Print Assumptions C38_closed_tetrahedron.
(** localize_points finds all the points of counterclockwise triangles, and the coordinates it returns are right.
    (Missing: that the point is in the triangle that is returned.) *)
Theorem C38_localize_partial :
  forall points triangles coords ecs, cells_coords points triangles = Ok ecs -> Forall ccw_cell ecs ->
  Forall (has_dim 2) coords ->
  exists locs, localize_points Floating points triangles coords = Ok locs /\
    Forall2 (fun x o => match o with
      | None => forall ec, In ec ecs -> ~ in_hull 2 ec x
      | Some (i, l) => exists ec, nth_error ecs i = Some ec /\ weights_of 2 l ec x /\ Forall (fun w => w <= 1) l /\
          forall j ec', (j < i)%nat -> nth_error ecs j = Some ec' -> beyond ec' x
      end) coords locs.
Proof. exact localize_partial. Qed.
Print Assumptions C38_localize_partial.
(** Exactly the positions that are [beyond] every triangle are not reported, and points of triangles are reported.
    (Missing: that no other point is reported.) *)
Theorem C38_inside_partial :
  forall points triangles coords ecs, cells_coords points triangles = Ok ecs -> Forall ccw_cell ecs ->
  Forall (has_dim 2) coords ->
  exists found, get_points_inside_triangles Floating points triangles coords = Ok found /\
    Forall2 (fun x b => (b = false <-> forall ec, In ec ecs -> beyond ec x) /\
                        (forall ec, In ec ecs -> in_hull 2 ec x -> b = true)) coords found.
Proof. exact inside_triangles_exact. Qed.
Print Assumptions C38_inside_partial.
(** For every triangle there are points outside of it that are reported to be inside. *)
Theorem C38_localize_refuted :
  forall a b c, dim 2 a -> dim 2 b -> dim 2 c -> ccw a b c ->
  exists x l, ~ in_hull 2 [a; b; c] x /\ localize_points Floating [a; b; c] [[0; 1; 2]%nat] [x] = Ok [Some (0%nat, l)] /\
    get_points_inside_triangles Floating [a; b; c] [[0; 1; 2]%nat] [x] = Ok [true].
Proof. exact localize_wrong. Qed.
Print Assumptions C38_localize_refuted.
(** A square divided by a diagonal: a point of the second triangle is located in the first. *)
Theorem C38_localize_cell_refuted :
  exists x l, in_hull 2 [[0; 0]; [1; 1]; [0; 1]] x /\ ~ in_hull 2 [[0; 0]; [1; 0]; [1; 1]] x /\
    localize_points Floating [[0; 0]; [1; 0]; [1; 1]; [0; 1]] [[0; 1; 2]%nat; [0; 2; 3]%nat] [x] = Ok [Some (0%nat, l)].
Proof. exact localize_wrong_cell. Qed.
Print Assumptions C38_localize_cell_refuted.
Example C38_ex : ccw_cell [[0; 0]; [4; 0]; [1; 3]] /\ in_hull 2 [[0; 0]; [4; 0]; [1; 3]] [2; 1].
Proof.
  split; [exists [0; 0], [4; 0], [1; 3]; repeat split; try (unfold has_dim; cbn; lia); ccws|].
  exists [1 / 4; 5 / 12; 1 / 3]. split; [weights|repeat constructor; lra].
Qed.
Example C38_ex_tet : solid_tet [[0; 0; 0]; [0; 1; 0]; [1; 0; 0]; [0; 0; 1]].
Proof.
  do 4 eexists. split; [reflexivity|]. repeat (split; [reflexivity|]). intros (n & m & k & o & Hn & E1 & E2 & E3 & E4).
  unfold px, py, pz, at_ in *. cbn [nth] in *. assert (n = 0) by lra. assert (m = 0) by lra. assert (k = 0) by lra. tauto.
Qed.

(** ** C39 Tetrahedra *)

Theorem C39_vol_tet :
  forall a b c d, dim 3 a -> dim 3 b -> dim 3 c -> dim 3 d -> vol_tet [a; b; c; d] = Ok (signed_volume a b c d).
Proof. exact vol_value. Qed.
Print Assumptions C39_vol_tet.
Theorem C39_bulk :
  forall ecs, Forall tet_cell ecs -> exists l, vol_tet_bulk ecs = Ok l /\
  Forall2 (fun ec v => forall a b c d, ec = [a; b; c; d] -> v = Rabs (signed_volume a b c d)) ecs l.
Proof. exact vol_bulk_value. Qed.
Print Assumptions C39_bulk.
Theorem C39_affine :
  forall o u v w a b c d,
  vol_tet (map (space_map o u v w) [a; b; c; d]) = Ok (map_det u v w * signed_volume a b c d).
Proof. exact vol_map. Qed.
Print Assumptions C39_affine.
Theorem C39_permutation :
  forall ec ec' , tet_cell ec -> Permutation ec ec' -> exists v, vol_tet_bulk [ec] = Ok [v] /\ vol_tet_bulk [ec'] = Ok [v].
Proof. exact vol_permutation. Qed.
Print Assumptions C39_permutation.
Theorem C39_zero :
  forall a b c d, dim 3 a -> dim 3 b -> dim 3 c -> dim 3 d -> (vol_tet [a; b; c; d] = Ok 0 <-> coplanar a b c d).
Proof. exact vol_zero. Qed.
Print Assumptions C39_zero.
(** both orientations *)
Theorem C39_natural :
  forall a b c d p, dim 3 a -> dim 3 b -> dim 3 c -> dim 3 d -> dim 3 p -> ~ coplanar a b c d ->
  exists l, glob_to_nat_tet p [a; b; c; d] = Ok l /\ weights_of 3 l [a; b; c; d] p /\ forall l', weights_of 3 l' [a; b; c; d] p -> l' = l.
Proof. exact nat_tet_correct. Qed.
Print Assumptions C39_natural.
Theorem C39_degenerate :
  forall a b c d p, dim 3 a -> dim 3 b -> dim 3 c -> dim 3 d -> dim 3 p -> coplanar a b c d ->
  glob_to_nat_tet p [a; b; c; d] = Err ZeroDivisionError.
Proof. exact nat_tet_degenerate. Qed.
Print Assumptions C39_degenerate.
Theorem C39_natural_to_local :
  forall l0 l1 l2 l3, nat_to_loc_tet [l0; l1; l2; l3] = Ok [l1; l2; l3].
Proof. exact nat_to_loc_tet_value. Qed.
Print Assumptions C39_natural_to_local.
Example C39_ex : vol_tet [[0; 0; 0]; [1; 0; 0]; [0; 1; 0]; [0; 0; 1]] = Ok (1 / 6) /\ vol_tet [[0; 0; 0]; [0; 1; 0]; [1; 0; 0]; [0; 0; 1]] = Ok (- (1 / 6)) /\
  tet_cell [[0; 0; 0]; [0; 1; 0]; [1; 0; 0]; [0; 0; 1]] /\ coplanar [0; 0; 0] [1; 0; 0] [0; 1; 0] [1; 1; 0].
Proof.
  rewrite !vol_value by reflexivity. unfold signed_volume, at_. cbn [nth]. split; [f_equal; lra|]. split; [f_equal; lra|]. split; [do 4 eexists; repeat split|].
  exists 0, 0, 1, 0. unfold px, py, pz, at_. cbn [nth]. split; [right; right; lra|lra].
Qed.

(** ** C64 glob_to_loc_tri is the inverse of loc_to_glob_tri *)

(** The reference triangle itself, with the inverse matrix of [C64_ex]: wrong for every point. *)
Theorem C64_refuted :
  forall r s, exists p q,
  loc_to_glob_tri [r; s] lcoords_tri = Ok p /\ glob_to_loc_tri unit_inverse p = Ok q /\ q <> [r; s].
Proof. exact glob_to_loc_wrong. Qed.
Print Assumptions C64_refuted.
(** Right if the matrix of the monomials of the nodes is symmetric. (Missing: all the other triangles.) *)
Theorem C64_partial :
  forall x1 y1 y2 C c00 c01 c02 c10 c11 c12 c20 c21 c22 r s,
  C = [[c00; c01; c02]; [c10; c11; c12]; [c20; c21; c22]] ->
  (exists M, mapM monoms_tri [[1; 1]; [x1; y1]; [y1; y2]] = Ok M /\ matmul M C = Ok [[1; 0; 0]; [0; 1; 0]; [0; 0; 1]]) ->
  exists p, loc_to_glob_tri [r; s] [[1; 1]; [x1; y1]; [y1; y2]] = Ok p /\ glob_to_loc_tri C p = Ok [r; s].
Proof. exact glob_to_loc_partial. Qed.
Print Assumptions C64_partial.
Example C64_ex : exists M, mapM monoms_tri lcoords_tri = Ok M /\ matmul M unit_inverse = Ok [[1; 0; 0]; [0; 1; 0]; [0; 0; 1]].
Proof. exact unit_inverse_ok. Qed.
Example C64_ex_symmetric : exists M, mapM monoms_tri [[1; 1]; [2; 1]; [1; 2]] = Ok M /\
  matmul M [[3; -1; -1]; [-1; 1; 0]; [-1; 0; 1]] = Ok [[1; 0; 0]; [0; 1; 0]; [0; 0; 1]].
Proof.
  eexists. split; [reflexivity|]. unfold matmul. cbn [mapM]. rewrite !(vecmat3 _ _ _ _ _ _ 3) by reflexivity. cbn [bind map seq nth].
  f_equal. repeat (apply f_equal2; [repeat (apply f_equal2; [lra|]); reflexivity|]). reflexivity.
Qed.

(** ** C65 approx_data_to_points interpolates data at points *)

(** If position number k is in triangle number k (and is rejected by those before).  (Missing: all the other cases.) *)
Theorem C65_partial :
  forall points triangles data coords n defval ecs,
  cells_coords points triangles = Ok ecs -> Forall ccw_cell ecs -> Forall (has_dim 2) coords ->
  Forall (fun r => length r = n) data -> data <> [] ->
  Forall (fun t => length t = 3%nat /\ Forall (fun j => (j < length data)%nat) t) triangles ->
  (forall k x, nth_error coords k = Some x -> exists ec, nth_error ecs k = Some ec /\ in_hull 2 ec x /\
     forall j ec', (j < k)%nat -> nth_error ecs j = Some ec' -> beyond ec' x) ->
  exists res, approx_data_to_points Floating points triangles data coords defval = Ok res /\ length res = length coords /\
    forall k x ec tri v, nth_error coords k = Some x -> nth_error ecs k = Some ec -> nth_error triangles k = Some tri -> nth_error res k = Some v ->
      exists l, weights_of 2 l ec x /\ interpolates l (map (fun j => nth j data []) tri) n v.
Proof. exact approx_partial. Qed.
Print Assumptions C65_partial.
(** The data are the first coordinates of the nodes; the values at 41/4 and 1/4 are exchanged. *)
Theorem C65_refuted :
  exists a b : R, a = 1/4 /\ b = 41/4 /\
  approx_data_to_points Floating two_points two_triangles two_data [[41/4; 1/4]; [1/4; 1/4]] 0 = Ok [[a]; [b]].
Proof. exact approx_wrong. Qed.
Print Assumptions C65_refuted.
(** The only position is in the second triangle: the second row of the result is written, which does not exist. *)
Theorem C65_bounds_refuted :
  in_hull 2 [[10; 0]; [11; 0]; [10; 1]] [41/4; 1/4] /\
  approx_data_to_points Floating two_points two_triangles two_data [[41/4; 1/4]] 0 = Err IndexError.
Proof. exact approx_out_of_bounds. Qed.
Print Assumptions C65_bounds_refuted.
Example C65_ex : exists ecs, cells_coords two_points two_triangles = Ok ecs /\ Forall ccw_cell ecs /\ in_hull 2 (nth 0 ecs []) [1 / 4; 1 / 4] /\
  in_hull 2 (nth 1 ecs []) [41 / 4; 1 / 4] /\ beyond (nth 0 ecs []) [41 / 4; 1 / 4].
Proof.
  eexists. split; [reflexivity|]. split; [|cbn [nth]; split; [|split]].
  - constructor; [|constructor; [|constructor]]; do 3 eexists; (split; [reflexivity|]); repeat (split; [unfold has_dim; cbn; lia|]); ccws.
  - exists [1 / 2; 1 / 4; 1 / 4]. split; [weights|repeat constructor; lra].
  - exists [1 / 2; 1 / 4; 1 / 4]. split; [weights|repeat constructor; lra].
  - exists [- 19 / 2; 41 / 4; 1 / 4]. split; [weights|]. right. left. lra.
Qed.

(** ** C66 offset_tri contracts triangles towards their centres *)

(** A factor for every triangle, divided by the largest if that is above 1. (Missing: one number for all.) *)
Theorem C66_array_partial :
  forall coords topo data n ecs,
  cells_coords coords topo = Ok ecs -> Forall (fun ec => length ec = 3%nat /\ Forall (fun p => length p = n) ec) ecs ->
  length data = length topo -> data <> [] ->
  exists m ecs', magnitude_bound data m /\ offset_tri coords topo (DataArray data) = Ok ecs' /\ length ecs' = length topo /\
    forall e ec x ec', nth_error ecs e = Some ec -> nth_error data e = Some x -> nth_error ecs' e = Some ec' -> contracted n (Rabs x / m) ec ec'.
Proof. exact offset_array. Qed.
Print Assumptions C66_array_partial.
Theorem C66_factor :
  forall data m x, magnitude_bound data m -> In x data -> 0 <= Rabs x / m <= 1.
Proof. exact magnitude_factor. Qed.
Print Assumptions C66_factor.
(** one number for all triangles: never works *)
Theorem C66_float_refuted :
  forall coords topo a, offset_tri coords topo (DataFloat a) = Err TypeError.
Proof. exact offset_float. Qed.
Print Assumptions C66_float_refuted.
Example C66_ex : magnitude_bound [1 / 2; -2] 2 /\ contracted 2 (1 / 2) [[0; 0]; [3; 0]; [0; 3]] [[1 / 2; 1 / 2]; [2; 1 / 2]; [1 / 2; 2]].
Proof.
  split.
  - split; [lra|]. split; [repeat constructor; [rewrite Rabs_pos_eq; lra|rewrite Rabs_left; lra]|]. right. right. left. rewrite Rabs_left; lra.
  - split; [reflexivity|]. intros i d Hi Hd. unfold at_. destruct i as [|[|[|]]]; try lia; destruct d as [|[|]]; try lia; cbn [nth]; (split; [reflexivity|lra]).
Qed.

(** ** C67 tri_glob_to_loc keeps distances *)

(** Triangles with a right angle at the first node. (Missing: all the others.) *)
Theorem C67_right_angle_partial :
  forall a b c, dim 3 a -> dim 3 b -> dim 3 c -> a <> b -> a <> c -> sprod (sub b a) (sub c a) = 0 ->
  exists la lb lc g T, tri_glob_to_loc [a; b; c] = Ok ([la; lb; lc], g, T) /\
    dist2 la lb = dist2 a b /\ dist2 la lc = dist2 a c /\ dist2 lb lc = dist2 b c /\ length la = 2%nat /\ length lb = 2%nat /\ length lc = 2%nat.
Proof. exact loc_right_angle. Qed.
Print Assumptions C67_right_angle_partial.
(** All other triangles: the edge from the first to the third node gets shorter. *)
Theorem C67_refuted :
  forall a b c, dim 3 a -> dim 3 b -> dim 3 c ->
  sprod (sub b a) (sub c a) <> 0 -> sprod (sub b a) (sub c a) * sprod (sub b a) (sub c a) < dist2 a b * dist2 a c ->
  exists la lb lc g T, tri_glob_to_loc [a; b; c] = Ok ([la; lb; lc], g, T) /\ dist2 la lc < dist2 a c.
Proof. exact loc_not_isometric. Qed.
Print Assumptions C67_refuted.
Example C67_ex : sprod (sub [1; 0; 0] [0; 0; 0]) (sub [1; 1; 0] [0; 0; 0]) = 1 /\ dist2 [0; 0; 0] [1; 0; 0] * dist2 [0; 0; 0] [1; 1; 0] = 2 /\
  sprod (sub [1; 0; 0] [0; 0; 0]) (sub [0; 2; 0] [0; 0; 0]) = 0.
Proof. unfold sprod, sub, dist2. cbn [combine map fold_right fst snd]. lra. Qed.

(** ** C68 The radius of the inscribed circle *)

(** radius times half of the perimeter is the area *)
Theorem C68_plane :
  forall a b c, dim 2 a -> dim 2 b -> dim 2 c -> (a <> b \/ a <> c) ->
  exists r, inscribed_radius [a; b; c] = Ok r /\ 0 <= r /\ r * ((dist a b + dist b c + dist a c) / 2) = Rabs (signed_area a b c).
Proof. exact inscribed_2d. Qed.
Print Assumptions C68_plane.
Theorem C68_space :
  forall a b c, dim 3 a -> dim 3 b -> dim 3 c -> (a <> b \/ a <> c) ->
  exists r n, inscribed_radius [a; b; c] = Ok r /\ 0 <= r /\ vcross (sub b a) (sub c a) = Ok n /\
    r * ((dist a b + dist b c + dist a c) / 2) = sqrt (sprod n n) / 2.
Proof. exact inscribed_3d. Qed.
Print Assumptions C68_space.
(** several triangles: the radius of each *)
Theorem C68_bulk :
  forall cells, Forall (fun t => exists d a b c, (d = 2%nat \/ d = 3%nat) /\ t = [a; b; c] /\ dim d a /\ dim d b /\ dim d c /\ (a <> b \/ a <> c)) cells ->
  exists rs, inscribed_radii cells = Ok rs /\ Forall2 (fun t r => inscribed_radius t = Ok r) cells rs.
Proof. exact inscribed_all. Qed.
Print Assumptions C68_bulk.
Example C68_ex : signed_area [0; 0] [4; 0] [0; 3] = 6 /\ dist [0; 0] [4; 0] = 4 /\ [0; 0] <> [4; 0].
Proof.
  unfold signed_area, px, py, at_, dist, dist2. cbn [nth combine map fold_right fst snd]. split; [lra|]. split.
  - replace ((0 - 4) * (0 - 4) + ((0 - 0) * (0 - 0) + 0)) with (4 * 4) by ring. apply sqrt_square. lra.
  - intros [= H]. lra.
Qed.

(** ** C72 The shape functions of the triangle as a matrix *)

(** only three variables per node work, not two, the default *)
Theorem C72_refuted :
  forall r s nDOFN, nDOFN <> 3%nat -> shape_function_matrix_tri_loc [r; s] nDOFN 3 = Err ValueError.
Proof. exact shape_matrix_fails. Qed.
Print Assumptions C72_refuted.
(** Three variables per node. (Missing: all the other numbers.) *)
Theorem C72_partial :
  forall r s, exists N M, shp_tri_loc [r; s] = Ok N /\ shape_function_matrix_tri_loc [r; s] 3 3 = Ok M /\ length M = 3%nat /\
  forall a row, nth_error M a = Some row -> length row = 9%nat /\
    forall i b, (i < 3)%nat -> (b < 3)%nat -> nth (i * 3 + b) row 0 = if Nat.eqb a b then nth i N 0 else 0.
Proof. exact shape_matrix_3. Qed.
Print Assumptions C72_partial.
Example C72_ex : shp_tri_loc [1 / 4; 1 / 4] = Ok [1 - 1 / 4 - 1 / 4; 1 / 4; 1 / 4].
Proof. reflexivity. Qed.
