(** * Properties C141 to C144: local coordinates from monomials, points in hexahedra, first hits, copies of meshes *)
From Coq Require Import Reals List Lia Lra Permutation.
From Verif Require Import TrModel ShapeProofs ProbeModel ProbeSpec ProbeProofs ProbeProofs2 ProbeProofs3 ProbeProofs4 ProbeProofs5.
Import ListNotations.
Local Open Scope R_scope.

(** ** C141 Local coordinates *)

(** Cells that an affine map takes to the reference cell, with matrices of monomials that can be inverted: the map.  Missing: other cells and cells whose matrices have no inverse (refuted below). *)
Theorem C141_partial :
  forall inv k cells points maps,
  In k solids -> cells3 (nodes_of k) cells -> rect 3 points -> Forall2 (maps_cell (e_lcoords (element_of k))) cells maps ->
  exists Ms ms, monoms_bulk_multi (nodes_of k) (monoms_of k) cells = Ok Ms /\ monoms_multi (nodes_of k) (monoms_of k) points = Ok ms /\
    ((forall M, In M Ms -> inverse_of (nodes_of k) M (inv M)) ->
      glob_to_loc_bulk inv (e_lcoords (element_of k)) Ms ms = Ok (map (fun Ab => map (affine_map Ab) points) maps)).
Proof. exact @bulk_affine. Qed.
Print Assumptions C141_partial.
(** The same, each point with its own cell. *)
Theorem C141_pairs_partial :
  forall inv k cells points maps,
  In k solids -> cells3 (nodes_of k) cells -> rect 3 points -> length points = length cells -> Forall2 (maps_cell (e_lcoords (element_of k))) cells maps ->
  exists Ms ms, monoms_bulk_multi (nodes_of k) (monoms_of k) cells = Ok Ms /\ monoms_multi (nodes_of k) (monoms_of k) points = Ok ms /\
    ((forall M, In M Ms -> inverse_of (nodes_of k) M (inv M)) ->
      glob_to_loc_bulk_2 inv (e_lcoords (element_of k)) Ms ms = Ok (map (fun mp => affine_map (fst mp) (snd mp)) (combine maps points))).
Proof. exact @bulk_2_affine. Qed.
Print Assumptions C141_pairs_partial.
(** In any cell with an inverse the coordinates of its nodes are those of the nodes of the reference cell. *)
Theorem C141_nodes :
  forall inv k cell M,
  In k solids -> length cell = nodes_of k -> rect 3 cell -> monoms_multi (nodes_of k) (monoms_of k) cell = Ok M ->
  right_inverse (nodes_of k) M (inv M) ->
  glob_to_loc_bulk inv (e_lcoords (element_of k)) [M] M = Ok [e_lcoords (element_of k)].
Proof. exact @at_nodes. Qed.
Print Assumptions C141_nodes.
(** A trapezoid: the point of local coordinates (9/10, 0, 0), itself (9/10, 0, 0), gets 6/5. *)
Theorem C141_refuted :
  forall inv M m,
  monoms_multi 8 monoms_H8 trapezoid = Ok M -> monoms_H8 [9/10; 0; 0] = Ok m -> inverse_of 8 M (inv M) ->
  glob_to_loc_monoms inv lcoords_H8 M m = Ok [6/5; 0; 0].
Proof. exact @trapezoid_value. Qed.
Print Assumptions C141_refuted.
(** A turned cube, an image of the reference cube under an affine map: the matrix has no inverse. *)
Theorem C141_turned_refuted :
  forall M,
  monoms_multi 8 monoms_H8 turned_cube = Ok M ->
  (exists A b, maps_cell lcoords_H8 turned_cube (A, b)) /\ forall C, ~ right_inverse 8 C M.
Proof. exact @turned_singular. Qed.
Print Assumptions C141_turned_refuted.
(** TET4 has ten monomials and room for four. *)
Theorem C141_TET4_refuted :
  forall p ps, rect 3 (p :: ps) -> monoms_multi 4 monoms_TET4 (p :: ps) = Err ValueError.
Proof. exact @tet4_misfit. Qed.
Print Assumptions C141_TET4_refuted.
Definition brick : list (list R) := [[1; -1/2; -1];
   [5; -1/2; -1];
   [5; 1/2; -1];
   [1; 1/2; -1];
   [1; -1/2; 1];
   [5; -1/2; 1];
   [5; 1/2; 1];
   [1; 1/2; 1]].
Definition brick_inverse : list (list R) :=
  [[5/16; -1/16; -1/16; 5/16; 5/16; -1/16; -1/16; 5/16];
   [-1/16; 1/16; 1/16; -1/16; -1/16; 1/16; 1/16; -1/16];
   [-5/8; 1/8; -1/8; 5/8; -5/8; 1/8; -1/8; 5/8];
   [-5/16; 1/16; 1/16; -5/16; 5/16; -1/16; -1/16; 5/16];
   [1/8; -1/8; 1/8; -1/8; 1/8; -1/8; 1/8; -1/8];
   [1/16; -1/16; -1/16; 1/16; -1/16; 1/16; 1/16; -1/16];
   [5/8; -1/8; 1/8; -5/8; -5/8; 1/8; -1/8; 5/8];
   [-1/8; 1/8; -1/8; 1/8; 1/8; -1/8; 1/8; -1/8]].
Definition trapezoid_inverse : list (list R) :=
  [[1/8; 1/8; 1/8; 1/8; 1/8; 1/8; 1/8; 1/8];
   [-1/4; 1/4; 1/12; -1/12; -1/4; 1/4; 1/12; -1/12];
   [-1/8; -1/8; 1/8; 1/8; -1/8; -1/8; 1/8; 1/8];
   [-1/8; -1/8; -1/8; -1/8; 1/8; 1/8; 1/8; 1/8];
   [1/4; -1/4; 1/12; -1/12; 1/4; -1/4; 1/12; -1/12];
   [1/4; -1/4; -1/12; 1/12; -1/4; 1/4; 1/12; -1/12];
   [1/8; 1/8; -1/8; -1/8; -1/8; -1/8; 1/8; 1/8];
   [-1/4; 1/4; -1/12; 1/12; 1/4; -1/4; 1/12; -1/12]].
Lemma rows_of_eight (M : list (list R)) : forallb (fun r => Nat.eqb (length r) 8) M = true -> rect 8 M.
Proof. intros H. apply Forall_forall. intros r Hr. apply Nat.eqb_eq. exact (proj1 (forallb_forall _ _) H r Hr). Qed.
Ltac checkProduct := split; [reflexivity|split; [apply rows_of_eight; reflexivity|intros i j Hi Hj;
  do 8 (destruct i as [|i]; [do 8 (destruct j as [|j]; [unfold dot, rsum; cbn [nth map combine fst snd fold_right Nat.eqb]; numR; lra|]); lia|]); lia]].
Example C141_ex : exists M, monoms_bulk_multi 8 monoms_H8 [brick] = Ok [M] /\ inverse_of 8 M brick_inverse /\
  cells3 8 [brick] /\ maps_cell lcoords_H8 brick ([[1/2; 0; 0]; [0; 2; 0]; [0; 0; 1]], [-3/2; 0; 0]).
Proof.
  eexists. split; [reflexivity|]. split; [unfold brick_inverse; split; checkProduct|]. split.
  - constructor; [|constructor]. split; [reflexivity|]. unfold rect, brick. repeat (constructor; [reflexivity|]). constructor.
  - split; [reflexivity|]. split; [unfold rect; repeat (constructor; [reflexivity|]); constructor|]. split; [reflexivity|].
    unfold affine_map, brick, lcoords_H8, dot, rsum. simplR. repeat (f_equal; try lra).
Qed.
Example C141_refuted_ex : exists M, monoms_multi 8 monoms_H8 trapezoid = Ok M /\ inverse_of 8 M trapezoid_inverse.
Proof. eexists. split; [reflexivity|]. unfold trapezoid_inverse. split; checkProduct. Qed.

(** ** C142 Points in hexahedra *)

(** The table: row for every point, column for every cell, true where all local coordinates are in the cube, up to the tolerance. *)
Theorem C142_table :
  forall x nP tol,
  x <> [] -> Forall (fun row => length row = nP) x ->
  exists t, pip_H8_bulk x tol = Ok t /\ length t = nP /\ Forall (fun r => length r = length x) t /\
    forall i j, hit t i j <-> exists row c, nth_error x j = Some row /\ nth_error row i = Some c /\ cube tol c.
Proof. exact @pip_table. Qed.
Print Assumptions C142_table.
(** With C141: a point is reported for a cell if and only if it is in the cell, up to the tolerance in local coordinates; points on the boundary are reported.  Missing: other cells (refuted below). *)
Theorem C142_partial :
  forall inv cells points maps tol,
  cells <> [] -> cells3 8 cells -> rect 3 points -> Forall2 (maps_cell lcoords_H8) cells maps ->
  exists Ms ms, monoms_bulk_multi 8 monoms_H8 cells = Ok Ms /\ monoms_multi 8 monoms_H8 points = Ok ms /\
    ((forall M, In M Ms -> inverse_of 8 M (inv M)) ->
     exists locs t, glob_to_loc_bulk inv lcoords_H8 Ms ms = Ok locs /\ pip_H8_bulk locs tol = Ok t /\
       length t = length points /\ Forall (fun r => length r = length cells) t /\
       forall i j p Ab, nth_error points i = Some p -> nth_error maps j = Some Ab ->
         (hit t i j <-> cube tol (affine_map Ab p)) /\ (0 < tol -> closed_cube (affine_map Ab p) -> hit t i j)).
Proof. exact @pip_affine. Qed.
Print Assumptions C142_partial.
(** A point of the trapezoid, the image of (9/10, 0, 0), that is not reported. *)
Theorem C142_refuted :
  forall inv tol M m,
  monoms_bulk_multi 8 monoms_H8 [trapezoid] = Ok M -> monoms_multi 8 monoms_H8 [[9/10; 0; 0]] = Ok m ->
  (forall C, In C M -> inverse_of 8 C (inv C)) -> 0 < tol < 1/5 ->
  (exists N, shp_H8 [9/10; 0; 0] = Ok N /\ forall a, (a < 3)%nat -> dot N (map (fun q => nth a q 0) trapezoid) = nth a [9/10; 0; 0] 0) /\
  exists locs, glob_to_loc_bulk inv lcoords_H8 M m = Ok locs /\ locs = [[[6/5; 0; 0]]] /\ pip_H8_bulk locs tol = Ok [[false]].
Proof. exact @trapezoid_missed. Qed.
Print Assumptions C142_refuted.
(** With neighbours: column k is about cell k, not about neighbour k ... *)
Theorem C142_knn_table :
  forall x nP knn nK tol,
  x <> [] -> Forall (fun row => length row = nP) x -> knn <> [] -> Forall (fun row => length row = nK) knn -> (nK <= length x)%nat ->
  exists t, pip_H8_bulk_knn x knn tol = Ok t /\ length t = nP /\ Forall (fun r => length r = length x) t /\
    forall i k, hit t i k <-> (k < nK)%nat /\ exists row c, nth_error x k = Some row /\ nth_error row i = Some c /\ cube tol c.
Proof. exact @pip_knn_table. Qed.
Print Assumptions C142_knn_table.
(** ... so a point of the cell that is its neighbour is missed, and one of another cell reported. *)
Theorem C142_knn_refuted :
  forall tol x0 x1,
  ~ cube tol x0 -> cube tol x1 -> pip_H8_bulk_knn [[x0]; [x1]] [[1%nat]] tol = Ok [[false; false]] /\ pip_H8_bulk_knn [[x1]; [x0]] [[1%nat]] tol = Ok [[true; false]].
Proof. exact @knn_ignored. Qed.
Print Assumptions C142_knn_refuted.
(** More neighbours than cells: an error. *)
Theorem C142_narrow :
  forall x knn tol, (length x < ncols knn)%nat -> pip_H8_bulk_knn x knn tol = Err IndexError.
Proof. exact @knn_narrow. Qed.
Print Assumptions C142_narrow.
Example C142_ex : [[[1/2; 0; 0]; [2; 0; 0]]; [[0; 0; 0]; [-3; 1; 0]]] <> [] /\ Forall (fun row => length row = 2%nat) [[[1/2; 0; 0]; [2; 0; 0]]; [[0; 0; 0]; [-3; 1; 0]]] /\
  cube (1/10) [1; 0; -1] /\ ~ cube (1/10) [2; 0; 0] /\ closed_cube [1; 0; -1].
Proof.
  split; [discriminate|]. split; [repeat constructor|]. split; [unfold cube; repeat (constructor; [lra|]); constructor|].
  split; [intros H; apply Forall_inv in H; lra|]. unfold closed_cube. repeat (constructor; [lra|]). constructor.
Qed.

(** ** C143 First hits *)

(** In whatever order the iterations are executed: a position of every value, zero for numbers that are no values, and the inverse of the list if it has no duplicates.  Missing: that the position is the first (refuted below). *)
Theorem C143_partial :
  forall its indices,
  indices <> [] -> Permutation (seq 0 (length indices)) its ->
  exists r m, find_first_hits_1d_in its indices = Ok r /\ In m indices /\ Forall (fun v => (v <= m)%nat) indices /\ length r = S m /\
    (forall v, In v indices -> exists i, nth_error r v = Some i /\ nth_error indices i = Some v) /\
    (forall v, (v <= m)%nat -> ~ In v indices -> nth_error r v = Some 0%nat) /\
    (NoDup indices -> forall i v, nth_error indices i = Some v -> nth_error r v = Some i).
Proof. exact @hits_1d. Qed.
Print Assumptions C143_partial.
(** One iteration after the other: the last position. *)
Theorem C143_last :
  forall indices v i,
  nth_error indices i = Some v -> (forall k, (i < k)%nat -> nth_error indices k <> Some v) ->
  exists r, find_first_hits_1d indices = Ok r /\ nth_error r v = Some i.
Proof. exact @hits_last. Qed.
Print Assumptions C143_last.
(** Not the first; depends on the order; a missing value looks like one at position zero. *)
Theorem C143_refuted :
  find_first_hits_1d [0; 0]%nat = Ok [1%nat] /\ find_first_hits_1d_in [1; 0]%nat [0; 0]%nat = Ok [0%nat] /\ find_first_hits_1d [1]%nat = Ok [0; 0]%nat.
Proof. exact @not_first. Qed.
Print Assumptions C143_refuted.
(** No values: an error. *)
Theorem C143_empty :
  forall its, find_first_hits_1d_in its [] = Err ValueError.
Proof. exact @hits_empty. Qed.
Print Assumptions C143_empty.
Example C143_ex : [3; 0; 1]%nat <> [] /\ Permutation (seq 0 3) [2; 0; 1]%nat /\ NoDup [3; 0; 1]%nat /\ find_first_hits_1d_in [2; 0; 1]%nat [3; 0; 1]%nat = Ok [1; 2; 0; 0]%nat.
Proof.
  split; [discriminate|]. split; [apply perm_trans with [0; 2; 1]%nat; [apply perm_skip, perm_swap|apply perm_swap]|].
  split; [|reflexivity]. repeat constructor; cbn; intuition discriminate.
Qed.

(** ** C144 Copies of a triangle mesh *)
Local Open Scope nat_scope.

(** Points and triangles of the copies. *)
Theorem C144_points :
  forall points topo dp N d,
  rect d points -> length dp = d ->
  exists ps cells, populate_trimesh_T3 points topo dp N = Ok (ps, cells) /\ copies_of_points points dp N ps /\ copies_of_cells topo (length points) N cells.
Proof. exact @populate_ok. Qed.
Print Assumptions C144_points.
(** Their edges, and the numbers of their sides, are those of the triangles of all copies. *)
Theorem C144_lines :
  forall points topo dp N d,
  rect d points -> length dp = d -> Forall (fun r => 3 <= length r) topo -> Forall (Forall (fun n => n < length points)) topo ->
  exists ps edges cells ids, populate_trimesh_T3_lines points topo dp N None None = Ok (ps, edges, cells, ids) /\
    copies_of_points points dp N ps /\ copies_of_cells topo (length points) N cells /\ edges_of cells edges ids.
Proof. exact @populate_lines_ok. Qed.
Print Assumptions C144_lines.
(** The same if edges of the mesh are given. *)
Theorem C144_given :
  forall points topo dp N d e ids,
  rect d points -> length dp = d -> edges_of topo e ids -> Forall (Forall (fun n => n < length points)) topo ->
  exists ps edges cells ids', populate_trimesh_T3_lines points topo dp N (Some e) (Some ids) = Ok (ps, edges, cells, ids') /\
    copies_of_points points dp N ps /\ copies_of_cells topo (length points) N cells /\ edges_of cells edges ids'.
Proof. exact @populate_given_ok. Qed.
Print Assumptions C144_given.
Example C144_ex : exists ps edges ids, populate_trimesh_T3_lines [[0; 0]; [1; 0]; [1; 1]; [0; 1]]%R [[0; 1; 2]; [0; 2; 3]] [2; 0]%R 2 None None
  = Ok (ps, edges, [[0; 1; 2]; [0; 2; 3]; [4; 5; 6]; [4; 6; 7]], ids) /\ edges = [[0; 1]; [0; 2]; [0; 3]; [1; 2]; [2; 3]; [4; 5]; [4; 6]; [4; 7]; [5; 6]; [6; 7]].
Proof. do 3 eexists. split; reflexivity. Qed.
