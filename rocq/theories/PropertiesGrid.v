(** * Properties C21-C27: grids (grid.py)

    [uargs size shape shift start] and [bargs bins shift start] are the arguments of a call of [grid] with
    these values; [ETuple], [EName] and [ENone] tell how [eshape] is given. *)
From Coq Require Import QArith Reals Lra String.
From Verif Require Import GridProofs7.
Local Open Scope R_scope.

(** ** C21 Grid numbering is complete and in range *)

Theorem C21_grid_2d (lX lY sx sy : R) nx ny ex ey start :
  (1 <= nx)%nat -> (1 <= ny)%nat -> (2 <= ex)%nat -> (2 <= ey)%nat ->
  exists coords topo, grid (uargs [lX; lY] [nx; ny] [sx; sy] start) (ETuple [ex; ey]) = Ok (coords, topo) /\
    length coords = ((nx * (ex - 1) + 1) * (ny * (ey - 1) + 1))%nat /\ length topo = (nx * ny)%nat /\ rect (ex * ey) topo /\
    numbering_ok start (length coords) topo.
Proof. exact (grid2_numbering lX lY sx sy nx ny ex ey start). Qed.
Print Assumptions C21_grid_2d.
Theorem C21_grid_3d (lX lY lZ sx sy sz : R) nx ny nz ex ey ez start :
  (1 <= nx)%nat -> (1 <= ny)%nat -> (1 <= nz)%nat -> (2 <= ex)%nat -> (2 <= ey)%nat -> (2 <= ez)%nat ->
  exists coords topo, grid (uargs [lX; lY; lZ] [nx; ny; nz] [sx; sy; sz] start) (ETuple [ex; ey; ez]) = Ok (coords, topo) /\
    length coords = ((nx * (ex - 1) + 1) * (ny * (ey - 1) + 1) * (nz * (ez - 1) + 1))%nat /\ length topo = (nx * ny * nz)%nat /\
    rect (ex * ey * ez) topo /\ numbering_ok start (length coords) topo.
Proof. exact (grid3_numbering lX lY lZ sx sy sz nx ny nz ex ey ez start). Qed.
Print Assumptions C21_grid_3d.
Theorem C21_bins_2d (xb yb : list R) sx sy ex ey start :
  (2 <= length xb)%nat -> (2 <= length yb)%nat -> (2 <= ex)%nat -> (2 <= ey)%nat ->
  let nx := (length xb - 1)%nat in let ny := (length yb - 1)%nat in
  exists coords topo, grid (bargs [xb; yb] [sx; sy] start) (ETuple [ex; ey]) = Ok (coords, topo) /\
    length coords = ((nx * (ex - 1) + 1) * (ny * (ey - 1) + 1))%nat /\ length topo = (nx * ny)%nat /\ rect (ex * ey) topo /\
    numbering_ok start (length coords) topo.
Proof. exact (gridb2_numbering xb yb sx sy ex ey start). Qed.
Print Assumptions C21_bins_2d.
Theorem C21_bins_3d (xb yb zb : list R) sx sy sz ex ey ez start :
  (2 <= length xb)%nat -> (2 <= length yb)%nat -> (2 <= length zb)%nat -> (2 <= ex)%nat -> (2 <= ey)%nat -> (2 <= ez)%nat ->
  let nx := (length xb - 1)%nat in let ny := (length yb - 1)%nat in let nz := (length zb - 1)%nat in
  exists coords topo, grid (bargs [xb; yb; zb] [sx; sy; sz] start) (ETuple [ex; ey; ez]) = Ok (coords, topo) /\
    length coords = ((nx * (ex - 1) + 1) * (ny * (ey - 1) + 1) * (nz * (ez - 1) + 1))%nat /\ length topo = (nx * ny * nz)%nat /\
    rect (ex * ey * ez) topo /\ numbering_ok start (length coords) topo.
Proof. exact (gridb3_numbering xb yb zb sx sy sz ex ey ez start). Qed.
Print Assumptions C21_bins_3d.
(** if there are no bins in one of the directions, there is no grid *)
Theorem C21_empty_bins_2d (xb yb : list R) sx sy ex ey start : xb = [] \/ yb = [] ->
  grid (bargs [xb; yb] [sx; sy] start) (ETuple [ex; ey]) = Err ValueError.
Proof. intros [-> | ->]; [reflexivity|]. destruct xb; reflexivity. Qed.
Print Assumptions C21_empty_bins_2d.
Theorem C21_empty_bins_3d (xb yb zb : list R) sx sy sz ex ey ez start : xb = [] \/ yb = [] \/ zb = [] ->
  grid (bargs [xb; yb; zb] [sx; sy; sz] start) (ETuple [ex; ey; ez]) = Err ValueError.
Proof. intros [-> | [-> | ->]]; [reflexivity| |]; destruct xb; try reflexivity. destruct yb; reflexivity. Qed.
Print Assumptions C21_empty_bins_3d.
(** a run of the model: two cells of 2 x 3 nodes, numbered from 10 *)
Example C21_ex : rgridMT (K := Q) [2; 2]%Q [2; 1]%nat [2; 3]%nat [0; 0]%Q 10 =
  Ok ([[0; 0]; [0; 1]; [0; 2]; [1; 0]; [1; 1]; [1; 2]; [2; 0]; [2; 1]; [2; 2]]%Q,
      [[10; 11; 12; 13; 14; 15]; [13; 14; 15; 16; 17; 18]]%nat).
Proof. vm_compute. reflexivity. Qed.

(** ** C22 Grid cells tile the box; C25 Grids are conforming and free of duplicate points *)

Theorem C22_grid_2d (lX lY sx sy : R) nx ny ex ey start :
  (1 <= nx)%nat -> (1 <= ny)%nat -> (2 <= ex)%nat -> (2 <= ey)%nat ->
  exists coords topo, grid (uargs [lX; lY] [nx; ny] [sx; sy] start) (ETuple [ex; ey]) = Ok (coords, topo) /\
    lattice2 nx ny (ex - 1) (ey - 1) start (uniform sx lX nx (ex - 1)) (uniform sy lY ny (ey - 1)) coords topo /\
    (0 <= lX -> 0 <= lY -> tiles_box 2 start coords topo [sx; sy] [lX; lY]).
Proof.
  intros H1 H2 H3 H4. destruct (grid2_tiles lX lY sx sy nx ny ex ey start H1 H2 H3 H4) as (c & t & E & HL & HT & _).
  exists c, t. auto.
Qed.
Print Assumptions C22_grid_2d.
Theorem C22_grid_3d (lX lY lZ sx sy sz : R) nx ny nz ex ey ez start :
  (1 <= nx)%nat -> (1 <= ny)%nat -> (1 <= nz)%nat -> (2 <= ex)%nat -> (2 <= ey)%nat -> (2 <= ez)%nat ->
  exists coords topo, grid (uargs [lX; lY; lZ] [nx; ny; nz] [sx; sy; sz] start) (ETuple [ex; ey; ez]) = Ok (coords, topo) /\
    lattice3 nx ny nz (ex - 1) (ey - 1) (ez - 1) start
      (uniform sx lX nx (ex - 1)) (uniform sy lY ny (ey - 1)) (uniform sz lZ nz (ez - 1)) coords topo /\
    (0 <= lX -> 0 <= lY -> 0 <= lZ -> tiles_box 3 start coords topo [sx; sy; sz] [lX; lY; lZ]).
Proof.
  intros H1 H2 H3 H4 H5 H6. destruct (grid3_tiles lX lY lZ sx sy sz nx ny nz ex ey ez start H1 H2 H3 H4 H5 H6) as (c & t & E & HL & HT & _).
  exists c, t. auto.
Qed.
Print Assumptions C22_grid_3d.
Theorem C25_grid_2d (lX lY sx sy : R) nx ny ex ey start :
  (1 <= nx)%nat -> (1 <= ny)%nat -> (2 <= ex)%nat -> (2 <= ey)%nat -> 0 < lX -> 0 < lY ->
  exists coords topo, grid (uargs [lX; lY] [nx; ny] [sx; sy] start) (ETuple [ex; ey]) = Ok (coords, topo) /\
    points_differ coords /\ shares_faces 2 start coords topo.
Proof.
  intros H1 H2 H3 H4 H5 H6. destruct (grid2_tiles lX lY sx sy nx ny ex ey start H1 H2 H3 H4) as (c & t & E & _ & _ & HT).
  exists c, t. auto.
Qed.
Print Assumptions C25_grid_2d.
Theorem C25_grid_3d (lX lY lZ sx sy sz : R) nx ny nz ex ey ez start :
  (1 <= nx)%nat -> (1 <= ny)%nat -> (1 <= nz)%nat -> (2 <= ex)%nat -> (2 <= ey)%nat -> (2 <= ez)%nat -> 0 < lX -> 0 < lY -> 0 < lZ ->
  exists coords topo, grid (uargs [lX; lY; lZ] [nx; ny; nz] [sx; sy; sz] start) (ETuple [ex; ey; ez]) = Ok (coords, topo) /\
    points_differ coords /\ shares_faces 3 start coords topo.
Proof.
  intros H1 H2 H3 H4 H5 H6 H7 H8 H9.
  destruct (grid3_tiles lX lY lZ sx sy sz nx ny nz ex ey ez start H1 H2 H3 H4 H5 H6) as (c & t & E & _ & _ & HT).
  exists c, t. auto.
Qed.
Print Assumptions C25_grid_3d.
(** two cells sharing an edge: the common nodes are those at x = 1 *)
Example C22_C25_ex : rgridMT (K := Q) [2; 1; 1]%Q [2; 1; 1]%nat [2; 2; 2]%nat [0; 0; 5]%Q 0 =
  Ok ([[0; 0; 5]; [0; 0; 6]; [0; 1; 5]; [0; 1; 6]; [1; 0; 5]; [1; 0; 6]; [1; 1; 5]; [1; 1; 6];
       [2; 0; 5]; [2; 0; 6]; [2; 1; 5]; [2; 1; 6]]%Q,
      [[0; 1; 2; 3; 4; 5; 6; 7]; [4; 5; 6; 7; 8; 9; 10; 11]]%nat).
Proof. vm_compute. reflexivity. Qed.

(** ** C23 Grid generation is independent of the thread schedule *)

(** [rgridST2], [rgridST3]: the sequential version; [cw], [tw]: the writes of the parallel loops to the two arrays *)
Theorem C23_schedule_2d (lX lY sx sy : R) nx ny ex ey start :
  (1 <= nx)%nat -> (1 <= ny)%nat -> (2 <= ex)%nat -> (2 <= ey)%nat ->
  exists coords topo nP nC nN cw tw,
    rgridST2 lX lY nx ny ex ey sx sy start = Ok (coords, topo) /\
    grid (uargs [lX; lY] [nx; ny] [sx; sy] start) (ETuple [ex; ey]) = Ok (coords, topo) /\
    rgrid_writes2 lX lY nx ny ex ey sx sy = Ok ((nP, cw), (nC, nN, tw)) /\
    forall cw' tw', Permutation cw cw' -> Permutation tw tw' ->
      run_writes2 cw' (zeros2 0 nP 2) = Ok coords /\
      exists t, run_writes2 tw' (zeros2 0%nat nC nN) = Ok t /\ add_start1 start t = topo.
Proof. exact (grid2_schedule lX lY sx sy nx ny ex ey start). Qed.
Print Assumptions C23_schedule_2d.
Theorem C23_schedule_3d (lX lY lZ sx sy sz : R) nx ny nz ex ey ez start :
  (1 <= nx)%nat -> (1 <= ny)%nat -> (1 <= nz)%nat -> (2 <= ex)%nat -> (2 <= ey)%nat -> (2 <= ez)%nat ->
  exists coords topo nP nC nN cw tw,
    rgridST3 lX lY lZ nx ny nz ex ey ez sx sy sz start = Ok (coords, topo) /\
    grid (uargs [lX; lY; lZ] [nx; ny; nz] [sx; sy; sz] start) (ETuple [ex; ey; ez]) = Ok (coords, topo) /\
    rgrid_writes3 lX lY lZ nx ny nz ex ey ez sx sy sz = Ok ((nP, cw), (nC, nN, tw)) /\
    forall cw' tw', Permutation cw cw' -> Permutation tw tw' ->
      run_writes2 cw' (zeros2 0 nP 3) = Ok coords /\
      exists t, run_writes2 tw' (zeros2 0%nat nC nN) = Ok t /\ add_start1 start t = topo.
Proof. exact (grid3_schedule lX lY lZ sx sy sz nx ny nz ex ey ez start). Qed.
Print Assumptions C23_schedule_3d.
Theorem C23_schedule_bins_2d (xb yb : list R) sx sy ex ey start :
  (2 <= length xb)%nat -> (2 <= length yb)%nat -> (2 <= ex)%nat -> (2 <= ey)%nat ->
  exists coords topo nP nC nN cw tw,
    grid (bargs [xb; yb] [sx; sy] start) (ETuple [ex; ey]) = Ok (coords, topo) /\
    bins_writes2 xb yb ex ey sx sy = Ok ((nP, cw), (nC, nN, tw)) /\
    forall cw' tw', Permutation cw cw' -> Permutation tw tw' ->
      run_writes2 cw' (zeros2 0 nP 2) = Ok coords /\
      exists t, run_writes2 tw' (zeros2 0%nat nC nN) = Ok t /\ map (map (fun n => n + start)%nat) t = topo.
Proof. exact (gridb2_schedule xb yb sx sy ex ey start). Qed.
Print Assumptions C23_schedule_bins_2d.
(** [cast]: conversion to the element type of the array of coordinates *)
Theorem C23_schedule_bins_3d (cast : R -> R) (xb yb zb : list R) sx sy sz ex ey ez start :
  (2 <= length xb)%nat -> (2 <= length yb)%nat -> (2 <= length zb)%nat -> (2 <= ex)%nat -> (2 <= ey)%nat -> (2 <= ez)%nat ->
  exists coords topo nP nC nN cw tw,
    grid_3d_bins cast xb yb zb [ex; ey; ez] [sx; sy; sz] start = Ok (coords, topo) /\
    bins_writes3 cast xb yb zb ex ey ez sx sy sz = Ok ((nP, cw), (nC, nN, tw)) /\
    forall cw' tw', Permutation cw cw' -> Permutation tw tw' ->
      run_writes2 cw' (zeros2 0 nP 3) = Ok coords /\
      exists t, run_writes2 tw' (zeros2 0%nat nC nN) = Ok t /\ map (map (fun n => n + start)%nat) t = topo.
Proof. exact (gridb3_schedule cast xb yb zb sx sy sz ex ey ez start). Qed.
Print Assumptions C23_schedule_bins_3d.
(** the loops do write the same cell several times *)
Example C23_ex : exists nP cw r, rgrid_writes2 (K := Q) 2%Q 1%Q 2%nat 1%nat 2%nat 2%nat 0%Q 0%Q = Ok ((nP, cw), r) /\
  length cw = 16%nat /\ nP = 6%nat /\ nth_error cw 4 = Some (2%nat, 0%nat, 1%Q) /\ nth_error cw 8 = Some (2%nat, 0%nat, 1%Q).
Proof. do 3 eexists. split; [vm_compute; reflexivity|]. vm_compute. auto. Qed.

(** ** C24 Named grids follow the reference node order *)

Theorem C24_Q4 (lX lY sx sy : R) nx ny start : (1 <= nx)%nat -> (1 <= ny)%nat ->
  exists coords topo, grid (uargs [lX; lY] [nx; ny] [sx; sy] start) (EName "Q4") = Ok (coords, topo) /\
    length topo = (nx * ny)%nat /\ numbering_ok start (length coords) topo /\
    forall i j, (i < nx)%nat -> (j < ny)%nat -> exists cell, nth_error topo (i * ny + j) = Some cell /\
      box_placed 2 start coords cell lcoords_Q4
        (fun d => nth d [sx + lX / INR nx * INR i; sy + lY / INR ny * INR j] 0) (fun d => nth d [lX / INR nx; lY / INR ny] 0).
Proof.
  intros H1 H2. apply (grid2_named lX lY sx sy nx ny 1 start "Q4" path_Q4 lcoords_Q4 H1 H2 ltac:(lia)); auto using table_Q4.
  apply named_Q4 with (s := [sx ; sy]); reflexivity.
Qed.
Print Assumptions C24_Q4.
Theorem C24_Q4_bins (xb yb : list R) sx sy start : (2 <= length xb)%nat -> (2 <= length yb)%nat ->
  let nx := (length xb - 1)%nat in let ny := (length yb - 1)%nat in
  exists coords topo, grid (bargs [xb; yb] [sx; sy] start) (EName "Q4") = Ok (coords, topo) /\
    length topo = (nx * ny)%nat /\ numbering_ok start (length coords) topo /\
    forall i j, (i < nx)%nat -> (j < ny)%nat -> exists cell, nth_error topo (i * ny + j) = Some cell /\
      box_placed 2 start coords cell lcoords_Q4
        (fun d => nth d [sx + nth i xb 0; sy + nth j yb 0] 0)
        (fun d => nth d [nth (i + 1) xb 0 - nth i xb 0; nth (j + 1) yb 0 - nth j yb 0] 0).
Proof.
  intros H1 H2. apply (gridb2_named xb yb sx sy 1 start "Q4" path_Q4 lcoords_Q4 H1 H2 ltac:(lia)); auto using table_Q4.
  apply named_Q4 with (s := [sx ; sy]); reflexivity.
Qed.
Print Assumptions C24_Q4_bins.
Theorem C24_Q9 (lX lY sx sy : R) nx ny start : (1 <= nx)%nat -> (1 <= ny)%nat ->
  exists coords topo, grid (uargs [lX; lY] [nx; ny] [sx; sy] start) (EName "Q9") = Ok (coords, topo) /\
    length topo = (nx * ny)%nat /\ numbering_ok start (length coords) topo /\
    forall i j, (i < nx)%nat -> (j < ny)%nat -> exists cell, nth_error topo (i * ny + j) = Some cell /\
      box_placed 2 start coords cell lcoords_Q9
        (fun d => nth d [sx + lX / INR nx * INR i; sy + lY / INR ny * INR j] 0) (fun d => nth d [lX / INR nx; lY / INR ny] 0).
Proof.
  intros H1 H2. apply (grid2_named lX lY sx sy nx ny 2 start "Q9" path_Q9 lcoords_Q9 H1 H2 ltac:(lia)); auto using table_Q9.
  apply named_Q9 with (s := [sx ; sy]); reflexivity.
Qed.
Print Assumptions C24_Q9.
Theorem C24_Q9_bins (xb yb : list R) sx sy start : (2 <= length xb)%nat -> (2 <= length yb)%nat ->
  let nx := (length xb - 1)%nat in let ny := (length yb - 1)%nat in
  exists coords topo, grid (bargs [xb; yb] [sx; sy] start) (EName "Q9") = Ok (coords, topo) /\
    length topo = (nx * ny)%nat /\ numbering_ok start (length coords) topo /\
    forall i j, (i < nx)%nat -> (j < ny)%nat -> exists cell, nth_error topo (i * ny + j) = Some cell /\
      box_placed 2 start coords cell lcoords_Q9
        (fun d => nth d [sx + nth i xb 0; sy + nth j yb 0] 0)
        (fun d => nth d [nth (i + 1) xb 0 - nth i xb 0; nth (j + 1) yb 0 - nth j yb 0] 0).
Proof.
  intros H1 H2. apply (gridb2_named xb yb sx sy 2 start "Q9" path_Q9 lcoords_Q9 H1 H2 ltac:(lia)); auto using table_Q9.
  apply named_Q9 with (s := [sx ; sy]); reflexivity.
Qed.
Print Assumptions C24_Q9_bins.
Theorem C24_H8 (lX lY lZ sx sy sz : R) nx ny nz start : (1 <= nx)%nat -> (1 <= ny)%nat -> (1 <= nz)%nat ->
  exists coords topo, grid (uargs [lX; lY; lZ] [nx; ny; nz] [sx; sy; sz] start) (EName "H8") = Ok (coords, topo) /\
    length topo = (nx * ny * nz)%nat /\ numbering_ok start (length coords) topo /\
    forall i j l, (i < nx)%nat -> (j < ny)%nat -> (l < nz)%nat -> exists cell, nth_error topo ((i * ny + j) * nz + l) = Some cell /\
      box_placed 3 start coords cell lcoords_H8
        (fun d => nth d [sx + lX / INR nx * INR i; sy + lY / INR ny * INR j; sz + lZ / INR nz * INR l] 0)
        (fun d => nth d [lX / INR nx; lY / INR ny; lZ / INR nz] 0).
Proof.
  intros H1 H2 H3. apply (grid3_named lX lY lZ sx sy sz nx ny nz 1 start "H8" path_H8 lcoords_H8 H1 H2 H3 ltac:(lia)); auto using table_H8.
  apply named_H8 with (s := [sx ; sy ; sz]); reflexivity.
Qed.
Print Assumptions C24_H8.
Theorem C24_H8_bins (xb yb zb : list R) sx sy sz start : (2 <= length xb)%nat -> (2 <= length yb)%nat -> (2 <= length zb)%nat ->
  let nx := (length xb - 1)%nat in let ny := (length yb - 1)%nat in let nz := (length zb - 1)%nat in
  exists coords topo, grid (bargs [xb; yb; zb] [sx; sy; sz] start) (EName "H8") = Ok (coords, topo) /\
    length topo = (nx * ny * nz)%nat /\ numbering_ok start (length coords) topo /\
    forall i j l, (i < nx)%nat -> (j < ny)%nat -> (l < nz)%nat -> exists cell, nth_error topo ((i * ny + j) * nz + l) = Some cell /\
      box_placed 3 start coords cell lcoords_H8
        (fun d => nth d [sx + nth i xb 0; sy + nth j yb 0; sz + nth l zb 0] 0)
        (fun d => nth d [nth (i + 1) xb 0 - nth i xb 0; nth (j + 1) yb 0 - nth j yb 0; nth (l + 1) zb 0 - nth l zb 0] 0).
Proof.
  intros H1 H2 H3. apply (gridb3_named xb yb zb sx sy sz 1 start "H8" path_H8 lcoords_H8 H1 H2 H3 ltac:(lia)); auto using table_H8.
  apply named_H8 with (s := [sx ; sy ; sz]); reflexivity.
Qed.
Print Assumptions C24_H8_bins.
Theorem C24_H27 (lX lY lZ sx sy sz : R) nx ny nz start : (1 <= nx)%nat -> (1 <= ny)%nat -> (1 <= nz)%nat ->
  exists coords topo, grid (uargs [lX; lY; lZ] [nx; ny; nz] [sx; sy; sz] start) (EName "H27") = Ok (coords, topo) /\
    length topo = (nx * ny * nz)%nat /\ numbering_ok start (length coords) topo /\
    forall i j l, (i < nx)%nat -> (j < ny)%nat -> (l < nz)%nat -> exists cell, nth_error topo ((i * ny + j) * nz + l) = Some cell /\
      box_placed 3 start coords cell lcoords_H27
        (fun d => nth d [sx + lX / INR nx * INR i; sy + lY / INR ny * INR j; sz + lZ / INR nz * INR l] 0)
        (fun d => nth d [lX / INR nx; lY / INR ny; lZ / INR nz] 0).
Proof.
  intros H1 H2 H3. apply (grid3_named lX lY lZ sx sy sz nx ny nz 2 start "H27" path_H27 lcoords_H27 H1 H2 H3 ltac:(lia)); auto using table_H27.
  apply named_H27 with (s := [sx ; sy ; sz]); reflexivity.
Qed.
Print Assumptions C24_H27.
Theorem C24_H27_bins (xb yb zb : list R) sx sy sz start : (2 <= length xb)%nat -> (2 <= length yb)%nat -> (2 <= length zb)%nat ->
  let nx := (length xb - 1)%nat in let ny := (length yb - 1)%nat in let nz := (length zb - 1)%nat in
  exists coords topo, grid (bargs [xb; yb; zb] [sx; sy; sz] start) (EName "H27") = Ok (coords, topo) /\
    length topo = (nx * ny * nz)%nat /\ numbering_ok start (length coords) topo /\
    forall i j l, (i < nx)%nat -> (j < ny)%nat -> (l < nz)%nat -> exists cell, nth_error topo ((i * ny + j) * nz + l) = Some cell /\
      box_placed 3 start coords cell lcoords_H27
        (fun d => nth d [sx + nth i xb 0; sy + nth j yb 0; sz + nth l zb 0] 0)
        (fun d => nth d [nth (i + 1) xb 0 - nth i xb 0; nth (j + 1) yb 0 - nth j yb 0; nth (l + 1) zb 0 - nth l zb 0] 0).
Proof.
  intros H1 H2 H3. apply (gridb3_named xb yb zb sx sy sz 2 start "H27" path_H27 lcoords_H27 H1 H2 H3 ltac:(lia)); auto using table_H27.
  apply named_H27 with (s := [sx ; sy ; sz]); reflexivity.
Qed.
Print Assumptions C24_H27_bins.
(** without [shift] the grid starts at the origin *)
Theorem C24_no_shift (a : grid_args (K := R)) d e : a_shift a = None ->
  (exists s, a_size a = Some s /\ length s = d) \/ (a_size a = None /\ exists b, a_bins a = Some b /\ length b = d) ->
  let b := with_shift a (repeat 0 d) in
  grid a e = grid b e /\ gridQ4 a = gridQ4 b /\ gridQ9 a = gridQ9 b /\ gridH8 a = gridH8 b /\ gridH27 a = gridH27 b.
Proof. exact (@no_shift a d e). Qed.
Print Assumptions C24_no_shift.
Example C24_no_shift_ex : let a := {| a_size := Some [2; 1]; a_shape := Some [2; 1]%nat; a_shift := None; a_start := 0;
    a_bins := None; a_cast := fun x => x; a_centralize := false; a_path := None |} in
  a_shift a = None /\ exists s, a_size a = Some s /\ length s = 2%nat.
Proof. split; [reflexivity|]. eexists. split; reflexivity. Qed.
(** a Q4 cell goes round counter-clockwise *)
Example C24_ex : grid (K := Q) {| a_size := Some [2; 1]%Q; a_shape := Some [2; 1]%nat; a_shift := None; a_start := 0;
    a_bins := None; a_cast := fun x => x; a_centralize := false; a_path := None |} (EName "Q4") =
  Ok ([[0; 0]; [0; 1]; [1; 0]; [1; 1]; [2; 0]; [2; 1]]%Q, [[0; 2; 3; 1]; [2; 4; 5; 3]]%nat).
Proof. vm_compute. reflexivity. Qed.

(** ** C26 Grids from bins *)

Theorem C26_bins_2d (xb yb : list R) sx sy ex ey start e :
  (2 <= length xb)%nat -> (2 <= length yb)%nat -> (2 <= ex)%nat -> (2 <= ey)%nat -> e = ETuple [ex; ey] \/ e = ESeq [ex; ey] ->
  let nx := (length xb - 1)%nat in let ny := (length yb - 1)%nat in
  exists coords topo, grid (bargs [xb; yb] [sx; sy] start) e = Ok (coords, topo) /\
    lattice2 nx ny (ex - 1) (ey - 1) start (binned sx xb (ex - 1)) (binned sy yb (ey - 1)) coords topo /\
    (increasing xb -> increasing yb ->
       tiles_box 2 start coords topo [sx + nth 0 xb 0; sy + nth 0 yb 0] [nth nx xb 0 - nth 0 xb 0; nth ny yb 0 - nth 0 yb 0] /\
       points_differ coords /\ shares_faces 2 start coords topo).
Proof. exact (gridb2_tiles xb yb sx sy ex ey start e). Qed.
Print Assumptions C26_bins_2d.
(** for floating point bins *)
Theorem C26_bins_3d_partial (xb yb zb : list R) sx sy sz ex ey ez start e :
  (2 <= length xb)%nat -> (2 <= length yb)%nat -> (2 <= length zb)%nat -> (2 <= ex)%nat -> (2 <= ey)%nat -> (2 <= ez)%nat ->
  e = ETuple [ex; ey; ez] \/ e = ESeq [ex; ey; ez] ->
  let nx := (length xb - 1)%nat in let ny := (length yb - 1)%nat in let nz := (length zb - 1)%nat in
  exists coords topo, grid (bargs [xb; yb; zb] [sx; sy; sz] start) e = Ok (coords, topo) /\
    lattice3 nx ny nz (ex - 1) (ey - 1) (ez - 1) start
      (binned sx xb (ex - 1)) (binned sy yb (ey - 1)) (binned sz zb (ez - 1)) coords topo /\
    (increasing xb -> increasing yb -> increasing zb ->
       tiles_box 3 start coords topo [sx + nth 0 xb 0; sy + nth 0 yb 0; sz + nth 0 zb 0]
         [nth nx xb 0 - nth 0 xb 0; nth ny yb 0 - nth 0 yb 0; nth nz zb 0 - nth 0 zb 0] /\
       points_differ coords /\ shares_faces 3 start coords topo).
Proof. exact (gridb3_tiles xb yb zb sx sy sz ex ey ez start e). Qed.
Print Assumptions C26_bins_3d_partial.
Theorem C26_even_bins_2d (lX lY sx sy : R) nx ny ex ey start :
  (1 <= nx)%nat -> (1 <= ny)%nat -> (2 <= ex)%nat -> (2 <= ey)%nat ->
  grid (bargs [even_bins lX nx; even_bins lY ny] [sx; sy] start) (ETuple [ex; ey]) =
  grid (uargs [lX; lY] [nx; ny] [sx; sy] start) (ETuple [ex; ey]).
Proof. exact (even_bins2 lX lY sx sy nx ny ex ey start). Qed.
Print Assumptions C26_even_bins_2d.
Theorem C26_even_bins_3d (lX lY lZ sx sy sz : R) nx ny nz ex ey ez start :
  (1 <= nx)%nat -> (1 <= ny)%nat -> (1 <= nz)%nat -> (2 <= ex)%nat -> (2 <= ey)%nat -> (2 <= ez)%nat ->
  grid (bargs [even_bins lX nx; even_bins lY ny; even_bins lZ nz] [sx; sy; sz] start) (ETuple [ex; ey; ez]) =
  grid (uargs [lX; lY; lZ] [nx; ny; nz] [sx; sy; sz] start) (ETuple [ex; ey; ez]).
Proof. exact (even_bins3 lX lY lZ sx sy sz nx ny nz ex ey ez start). Qed.
Print Assumptions C26_even_bins_3d.
(** integer bins in three dimensions: coordinates between the bins are truncated, here two nodes of a cell coincide *)
Theorem C26_integer_bins_3d_refuted : exists coords topo, grid int_args (ETuple [3; 3; 3]%nat) = Ok (coords, topo) /\
  nth_error coords 0 = Some [0; 0; 0] /\ nth_error coords 1 = Some [0; 0; 0] /\ ~ points_differ coords.
Proof. exact (int_bins_bad ). Qed.
Print Assumptions C26_integer_bins_3d_refuted.
Example C26_ex : grid_2d_bins (K := Q) [0; 1; 4]%Q [0; 2]%Q [2; 3]%nat [10; 0]%Q 0 =
  Ok ([[10; 0]; [10; 1]; [10; 2]; [11; 0]; [11; 1]; [11; 2]; [14; 0]; [14; 1]; [14; 2]]%Q,
      [[0; 1; 2; 3; 4; 5]; [3; 4; 5; 6; 7; 8]]%nat).
Proof. vm_compute. reflexivity. Qed.
Example C26_ex_increasing : increasing [0; 1; 4].
Proof. intros i Hi. simpl in Hi. destruct i as [|[|i]]; simpl; try lra; lia. Qed.

(** ** C27 Optional arguments of grid are honoured *)

(** without [eshape] (and without bins) every call fails *)
Theorem C27_default_eshape_refuted (a : grid_args (K := R)) n : a_bins a = None -> grid_dim a = Ok n -> grid a ENone = Err AssertionError.
Proof. exact (grid_default_eshape a n). Qed.
Print Assumptions C27_default_eshape_refuted.
(** with a named cell type the argument [path] is ignored, whatever it is *)
Theorem C27_named_path_refuted (a : grid_args (K := R)) s p : a_path a = None -> grid (with_path a p) (EName s) = grid a (EName s).
Proof. exact (grid_named_ignores_path a s p). Qed.
Print Assumptions C27_named_path_refuted.
(** grids in one dimension always fail *)
Theorem C27_one_dimension_refuted (a : grid_args (K := R)) l es : a_size a = Some [l] -> a_bins a = None -> grid a (ETuple es) = Err TypeError.
Proof. exact (grid_1d a l es). Qed.
Print Assumptions C27_one_dimension_refuted.
(** with a tuple the argument [path] reorders the nodes of every cell *)
Theorem C27_path_partial (a : grid_args (K := R)) es coords topo w p : a_path a = None -> grid a (ETuple es) = Ok (coords, topo) ->
  rect w topo -> Forall (fun q => (q < w)%nat) p ->
  exists topo', grid (with_path a p) (ETuple es) = Ok (coords, topo') /\ reordered p topo topo'.
Proof. exact (grid_path a es coords topo w p). Qed.
Print Assumptions C27_path_partial.
(** with bins the default [eshape] works *)
Theorem C27_default_eshape_bins_partial (xb yb : list R) sx sy start :
  (2 <= length xb)%nat -> (2 <= length yb)%nat ->
  exists coords topo, grid (bargs [xb; yb] [sx; sy] start) ENone = Ok (coords, topo) /\
    lattice2 (length xb - 1) (length yb - 1) 1 1 start (binned sx xb 1) (binned sy yb 1) coords topo.
Proof.
  intros H1 H2. destruct (gridb2_tiles xb yb sx sy 2 2 start (ESeq [2; 2]%nat) H1 H2 ltac:(lia) ltac:(lia) (or_intror eq_refl))
    as (c & t & E & HL & _). exists c, t. split; auto.
Qed.
Print Assumptions C27_default_eshape_bins_partial.
(** a path which makes a difference, and which the named grid ignores *)
Example C27_ex : let a p := {| a_size := Some [1; 1]%Q; a_shape := Some [1; 1]%nat; a_shift := None; a_start := 0;
    a_bins := None; a_cast := fun x : Q => x; a_centralize := false; a_path := p |} in
  grid (a (Some [3; 2; 1; 0]%nat)) (ETuple [2; 2]%nat) = Ok ([[0; 0]; [0; 1]; [1; 0]; [1; 1]]%Q, [[3; 2; 1; 0]]%nat) /\
  grid (a (Some [3; 2; 1; 0]%nat)) (EName "Q4") = Ok ([[0; 0]; [0; 1]; [1; 0]; [1; 1]]%Q, [[0; 2; 3; 1]]%nat) /\
  grid (a None) ENone = Err AssertionError.
Proof. vm_compute. auto. Qed.
