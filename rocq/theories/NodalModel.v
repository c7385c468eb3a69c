(** * Model of the functions for data of nodes and cells in src/polymesh/utils/utils.py

    Definitions only, over the reals.  The functions are compiled with numba (default error model: the division of two
    numbers raises ZeroDivisionError for a zero divisor), except [is_cw], [is_ccw] and the functions that only call others. *)
From Coq Require Import Reals.
From Verif Require Import TrModel.
From Verif Require Export TriModel TopoModel.
Local Open Scope R_scope.

(** ** Nodal distribution factors *)

(** [a[inds] += v], in 424-425 and 448-449: all the entries are read before the first one is written, so an index that
    is repeated in [inds] counts once *)
Definition add_at (a : list R) (inds : list nat) (v : R) : res (list R) :=
  do old <- take a inds; run_writes (combine inds (map (fun x => x + v) old)) a.
(** 423-425 and 447-449: the sum of the weights of the cells at each of the nodes [0 .. n - 1] *)
Definition nodal_weights (rows : list (list nat)) (w : list R) (n : nat) : res (list R) :=
  foldM (fun a ir => do wi <- get w (fst ir); add_at a (snd ir) wi) (enum rows) (zeros 0 n).
(** _nodal_distribution_factors_dense_, 434-453.  [dt] is the element type of the weights, used for the result.
    [es] are the iterations [(iE, jNE, topo[iE, jNE])] of the two parallel loops in the order of their execution. *)
Definition ndf_dense_in (es : list (nat * nat * nat)) (dt : dtype) (topo : list (list nat)) (w : list R) : res (list (list R)) :=
  do m <- np_max (concat topo);
  do nw <- nodal_weights topo w (m + 1);
  do ws <- mapM (fun e => do wi <- get w (fst (fst e)); do s <- get nw (snd e); do q <- div wi s; Ok (fst e, store dt q)) es;
  run_writes2 ws (zeros2 0 (length topo) (ncols topo)).
Definition ndf_dense (dt : dtype) (topo : list (list nat)) (w : list R) := ndf_dense_in (entries topo) dt topo w.
(** row [i] of an array in csr format: [data[indptr[i] : indptr[i + 1]]] *)
Definition csr_row {A} (ptr : list nat) (data : list A) (i : nat) : res (list A) :=
  do lo <- get ptr i; do hi <- get ptr (S i); Ok (slice data lo hi).
Definition csr_rows {A} (ptr : list nat) (data : list A) : res (list (list A)) :=
  mapM (csr_row ptr data) (seq 0 (length ptr - 1)).
(** _nodal_distribution_factors_csr_, 404-430; [topo.shape[0]] is the number of rows, [len(indptr) - 1] *)
Definition ndf_csr_in (es : list (nat * nat * nat)) (dt : dtype) (ptr data : list nat) (w : list R) : res (list R) :=
  do m <- np_max data;
  do rows <- csr_rows ptr data;
  do nw <- nodal_weights rows w (m + 1);
  do ws <- mapM (fun e => do lo <- get ptr (fst (fst e)); do wi <- get w (fst (fst e));
                          do n <- get data (lo + snd (fst e)); do s <- get nw n; do q <- div wi s;
                          Ok ((lo + snd (fst e))%nat, store dt q)) es;
  run_writes ws (zeros 0 (length data)).
Definition ndf_csr (dt : dtype) (ptr data : list nat) (w : list R) : res (list R) :=
  do es <- entries_csr ptr data; ndf_csr_in es dt ptr data w.
(** nodal_distribution_factors, 456-489: a csr matrix is returned with the [indptr] of the topology *)
Inductive factors := FacDense (f : list (list R)) | FacCsr (ptr : list nat) (f : list R).
Definition nodal_distribution_factors (dt : dtype) (topo : topo_like) (w : list R) : res factors :=
  match topo with
  | TNp t => do f <- ndf_dense dt t w; Ok (FacDense f)
  | TCsr ptr data => do f <- ndf_csr dt ptr data w; Ok (FacCsr ptr f)
  | TNp1 _ => Err IndexError   (* [topo.shape[1]] *)
  | TAk _ => Err TypeError
  end.

(** ** Distributing and collecting data *)

(** distribute_nodal_data_bulk, 493-519.  A row of [data] holds the values of a point.  The iterations of the parallel
    loops write different entries of the result. *)
Definition distribute_bulk (data : list (list R)) (topo : list (list nat)) (ndf : list (list R)) : res (list (list (list R))) :=
  mapM (fun ir => mapM (fun jn => do row <- get data (snd jn); do f <- get2 ndf (fst ir) (fst jn); Ok (vscale f row))
                       (enum (snd ir))) (enum topo).
(** distribute_nodal_data_sparse, 523-555 *)
Definition distribute_sparse (data : list (list R)) (topo : list (list nat)) (cids : list nat) (ptr : list nat) (ndf : list R)
    : res (list (list (list R))) :=
  mapM (fun ir =>
      do c <- get cids (fst ir);
      do ndf_e <- csr_row ptr ndf c;
      mapM (fun jn => do row <- get data (snd jn); do f <- get ndf_e (fst jn); Ok (vscale f row)) (enum (snd ir))) (enum topo).
(** celldata.py CellData.pull, 314-350, without the look-up of the data by name.  [None]: no factors are given. *)
Definition celldata_pull (data : list (list R)) (topo : list (list nat)) (cids : list nat) (ndf : option factors)
    : res (list (list (list R))) :=
  match ndf with
  | None => distribute_bulk data topo (map (map (fun _ => 1)) topo)
  | Some (FacDense f) => distribute_bulk data topo f
  | Some (FacCsr ptr f) => distribute_sparse data topo cids ptr f
  end.

(** collect_nodal_data, 559-592.  The loop over the cells is sequential, the loop over the nodes of a cell is parallel and
    [res[k] += v] consists of reading and writing.  [Fetch j] is the first half of iteration [j], [Store_ j] the second one;
    [tmp] holds the values computed by the iterations between the two halves.  (An entry of the array is a row, as in
    the code, where it has any number of axes; the additions of its components are not separated.) *)
Inductive step := Fetch (j : nat) | Store_ (j : nat).
Definition collect_step (nodes : list nat) (vals : list (list R)) (st : list (list R) * dict (list R)) (s : step)
    : res (list (list R) * dict (list R)) :=
  match s with
  | Fetch j => do n <- get nodes j; do old <- get (fst st) n; do v <- get vals j; do x <- vadd old v; Ok (fst st, dset (snd st) j x)
  | Store_ j => do n <- get nodes j; do x <- dget (snd st) j; do a <- set (fst st) n x; Ok (a, snd st)
  end.
Definition collect_cell (steps : list step) (nodes : list nat) (vals : list (list R)) (res : list (list R)) : Base.res (list (list R)) :=
  do st <- foldM (collect_step nodes vals) steps (res, []); Ok (fst st).
(** [sched i]: the order of the steps for cell [i] *)
Definition collect_nodal_data (sched : nat -> list step) (celldata : list (list (list R))) (topo : list (list nat)) (cids : list nat)
    (ptr : list nat) (ndf : list R) (res : list (list R)) : Base.res (list (list R)) :=
  foldM (fun r ir =>
      do c <- get cids (fst ir);
      do ndf_e <- csr_row ptr ndf c;
      do cd <- get celldata (fst ir);
      do vals <- mapM (fun j => do v <- get cd j; do f <- get ndf_e j; Ok (vscale f v)) (seq 0 (length (snd ir)));
      collect_cell (sched (fst ir)) (snd ir) vals r) (enum topo) res.
(** pointdata.py PointData.pull, 221-264, with factors in csr format (the conversion of a dense array of factors by
    neumann is not modelled).  A block of cells: the ids of its cells, its topology and the data, given per cell (249-251)
    or per node of the cell.  [nP] is the number of points. *)
Inductive cell_data := PerCell (d : list R) | PerNode (d : list (list (list R))).
Record block := { b_ids : list nat; b_nodes : list (list nat); b_data : cell_data }.
Definition spread (topo : list (list nat)) (d : cell_data) : list (list (list R)) :=
  match d with PerCell l => map (fun x => repeat [x] (ncols topo)) l | PerNode l => l end.
Definition pull_block (sched : nat -> list step) (ptr : list nat) (ndf : list R) (res : list (list R)) (b : block) : Base.res (list (list R)) :=
  collect_nodal_data sched (spread (b_nodes b) (b_data b)) (b_nodes b) (b_ids b) ptr ndf res.
Definition pointdata_pull (sched : nat -> list step) (nP : nat) (blocks : list block) (ptr : list nat) (ndf : list R) : res (list (list R)) :=
  do b <- get blocks 0;
  let width := ncols (concat (spread (b_nodes b) (b_data b))) in
  foldM (pull_block sched ptr ndf) blocks (zeros2 0 nP width).

(** ** Exploding meshes *)

(** explode_mesh_bulk, 596-627, and explode_mesh_data_bulk, 631-672.  [es] are the iterations of the parallel loops in the
    order of their execution.  [dt] is the element type of the coordinates, which is used for the data, too (664). *)
Definition explode_in (es : list (nat * nat * nat)) (coords : list (list R)) (topo : list (list nat)) : res (list (list R) * list (list nat)) :=
  let nNE := ncols topo in
  do cw <- mapM (fun e => do p <- get coords (snd e); Ok ((fst (fst e) * nNE + snd (fst e))%nat, p)) es;
  let tw := map (fun e => (fst e, (fst (fst e) * nNE + snd (fst e))%nat)) es in
  do c <- run_writes cw (zeros2 0 (length topo * nNE) (ncols coords));
  do t <- run_writes2 tw (zeros2 0%nat (length topo) nNE);
  Ok (c, t).
Definition explode_data_in (es : list (nat * nat * nat)) (dt : dtype) (coords : list (list R)) (topo : list (list nat)) (data : list (list R))
    : res (list (list R) * list (list nat) * list R) :=
  let nNE := ncols topo in
  do ct <- explode_in es coords topo;
  do dw <- mapM (fun e => do x <- get2 data (fst (fst e)) (snd (fst e)); Ok ((fst (fst e) * nNE + snd (fst e))%nat, store dt x)) es;
  do d <- run_writes dw (zeros 0 (length topo * nNE));
  Ok (ct, d).
Definition explode_mesh_bulk (coords : list (list R)) (topo : list (list nat)) := explode_in (entries topo) coords topo.
Definition explode_mesh_data_bulk (dt : dtype) (coords : list (list R)) (topo : list (list nat)) (data : list (list R)) :=
  explode_data_in (entries topo) dt coords topo data.
(** decompose, 684-692, for arrays and jagged arrays; the iterations of the parallel loops may write the same point *)
Definition decompose_in (es : list (nat * nat * nat)) (ecoords : list (list (list R))) (coords_out : list (list R)) : res (list (list R)) :=
  do ws <- mapM (fun e => do p <- get2 ecoords (fst (fst e)) (snd (fst e)); Ok (snd e, p)) es;
  run_writes ws coords_out.
Definition decompose (ecoords : list (list (list R))) (topo : list (list nat)) (coords_out : list (list R)) : res (list (list R)) :=
  decompose_in (entries topo) ecoords coords_out.

(** ** Centres and averages *)

(** [np.mean(coords[:, i])]; the mean of nothing is not a number, reported as ValueError *)
Definition column_mean (coords : list (list R)) (i : nat) : res R :=
  do col <- mapM (fun r => get r i) coords;
  if Nat.eqb (length col) 0 then Err ValueError else Ok (ksum col / INR (length col)).
(** cell_center_2d, 324-342, cell_center, 345-363 (the result has the element type [dt] of the coordinates) *)
Definition cell_center_2d (dt : dtype) (ecoords : list (list R)) : res (list R) :=
  do x <- column_mean ecoords 0; do y <- column_mean ecoords 1; Ok [store dt x; store dt y].
Definition cell_center (dt : dtype) (coords : list (list R)) : res (list R) :=
  do c <- mapM (column_mean coords) (seq 0 (ncols coords)); Ok (map (store dt) c).
(** cell_centers_bulk, 366-382, cell_centers_bulk2, 385-401: [np.mean] of numpy, always floating point *)
Definition cell_centers_bulk2 (ecoords : list (list (list R))) : res (list (list R)) := mapM vmean ecoords.
Definition cell_centers_bulk (coords : list (list R)) (topo : list (list nat)) : res (list (list R)) :=
  do ec <- cells_coords coords topo; cell_centers_bulk2 ec.
(** center_of_points, 800-813 *)
Definition center_of_points (dt : dtype) (coords : list (list R)) : res (list R) := cell_center dt coords.
(** centralize, 816-832 *)
Definition sub_column (coords : list (list R)) (i : nat) (c : R) : res (list (list R)) :=
  mapM (fun r => do x <- get r i; set r i (x - c)) coords.
Definition centralize (dt : dtype) (coords : list (list R)) : res (list (list R)) :=
  do center <- center_of_points dt coords;
  do c0 <- get center 0; do a <- sub_column coords 0 c0;
  do c1 <- get center 1; do b <- sub_column a 1 c1;
  if Nat.ltb 2 (ncols coords) then do c2 <- get center 2; sub_column b 2 c2 else Ok b.
(** _avg_cell_data_1d_bulk_, 695-706 (data of floating point type).  Only the loop over the cells is executed in parallel,
    numba runs the nested ones sequentially. *)
Definition avg_cell (data : list (list R)) (nodes : list nat) : res (list R) :=
  do s <- foldM (fun acc n => do row <- get data n; vadd acc row) nodes (repeat 0 (ncols data));
  Ok (map (fun x => x / INR (length nodes)) s).
Definition avg_cell_data_bulk (data : list (list R)) (topo : list (list nat)) : res (list (list R)) := mapM (avg_cell data) topo.
(** avg_cell_data, 709-713; data of another rank than two leave the result undefined *)
Inductive nodal_data := Rank1 (d : list R) | Rank2 (d : list (list R)).
Definition avg_cell_data (data : nodal_data) (topo : list (list nat)) : res (list (list R)) :=
  match data with Rank1 _ => Err NameError | Rank2 d => avg_cell_data_bulk d topo end.
(** homogenize_nodal_values, 969-980 (data of floating point type) *)
Definition homogenize (data : list (list (list R))) (measure : list R) : res (list (list R)) :=
  mapM (fun ir => mapM (fun j => do col <- mapM (fun r => get r j) (snd ir); do m <- get measure (fst ir); div (ksum col) m)
                       (seq 0 (ncols (snd ir)))) (enum data).

(** ** Orientation of polygons *)

(** is_cw, 983-993 *)
Definition is_cw (points : list (list R)) : res bool :=
  let n := length points in
  do area <- foldM (fun area i =>
      let j := Nat.modulo (i + 1) n in
      do xi <- get2 points i 0; do yj <- get2 points j 1; do xj <- get2 points j 0; do yi <- get2 points i 1;
      Ok (area + (xi * yj - xj * yi))) (seq 0 n) 0;
  Ok (if Rlt_dec area 0 then true else false).
(** is_ccw, 996-1001 *)
Definition is_ccw (points : list (list R)) : res bool := do b <- is_cw points; Ok (negb b).

(** ** Neighbouring points *)

(** norms, 946-966 *)
Definition norms (a : list (list R)) : res (list R) := mapM norm a.
(** [np.where(norms(centers - centers[iE]) <= r_max)[0]], 154 and 168 *)
Definition within (centers : list (list R)) (c : list R) (r_max : R) : res (list nat) :=
  do d <- mapM (fun p => vsub p c) centers;
  do ns <- norms d;
  Ok (map fst (filter (fun ix => if Rle_dec (snd ix) r_max then true else false) (enum ns))).
(** _cells_around_ST_, 145-158 (not called in the repository): keys 0, 1, ... in this order *)
Definition cells_around_ST (centers : list (list R)) (r_max : R) : res (list (list nat) * list nat) :=
  do rows <- mapM (fun c => within centers c r_max) centers; Ok (rows, map (@length nat) rows).
(** _cells_around_MT_, 161-173: a row of [n_max] zeros is filled from the left, its whole length is stored as the width *)
Definition cells_around_MT (centers : list (list R)) (r_max : R) (n_max : nat) : res (list (list nat) * list nat) :=
  do rows <- mapM (fun c =>
      do inds <- within centers c r_max;
      if Nat.leb (length inds) n_max
      then Ok (inds ++ skipn (length inds) (zeros 0%nat n_max))
      else Ok (firstn n_max inds)) centers;
  Ok (rows, map (@length nat) rows).
(** _cells_data_to_dict, 120-126 *)
Definition cells_data_to_dict (data : list (list nat)) (widths : list nat) : res (dict (list nat)) :=
  foldM (fun d iw => do row <- get data (fst iw); Ok (dset d (fst iw) (firstn (snd iw) row))) (enum widths) [].
(** _flatten_jagged_data, 129-137, _cells_data_to_jagged, 140-142; the entries become floating point numbers, written here
    as the integers they represent *)
Definition cells_data_to_jagged (data : list (list nat)) (widths : list nat) : res (list (list nat)) :=
  do rows <- mapM (fun iw => do row <- get data (fst iw); Ok (firstn (snd iw) row)) (enum widths);
  do flat <- scatter 0%nat (np_sum widths) (indptr widths) rows;
  Ok (split_by widths flat).
(** _dict_to_spdata, 77-97: data, indices, indptr and shape; loop state: data, inds, indptr, _c, wmax *)
Definition slice_set {A} (a : list A) (lo hi : nat) (vals : list A) : res (list A) :=
  do _ <- guard (Nat.eqb (length vals) (length (slice a lo hi))) ValueError; run_writes (slice_writes lo vals) a.
Definition dict_to_spdata (d : dict (list nat)) (widths : list nat) : res (list nat * list nat * list nat * (nat * nat)) :=
  let N := np_sum widths in
  do st <- foldM (fun st i =>
      let '(data, inds, ptr, c, wmax) := st in
      do w <- get widths i;
      let wmax := if Nat.ltb wmax w then w else wmax in
      do row <- dget d i;
      do data <- slice_set data c (c + w) row;
      do inds <- slice_set inds c (c + w) (seq 0 w);
      do ptr <- set ptr (i + 1) (c + w)%nat;
      Ok (data, inds, ptr, (c + w)%nat, wmax)) (seq 0 (length d))
    (zeros 0%nat N, zeros 0%nat N, zeros 0%nat (length widths + 1), 0%nat, 0%nat);
  let '(data, inds, ptr, _, wmax) := st in
  Ok (data, inds, ptr, (length widths, wmax)).
(** points_around, 26-74; [MT=False] raises *)
Inductive around_format := FmtDict | FmtJagged | FmtCsr | FmtOther.
Inductive around := NbDict (d : dict (list nat)) | NbJagged (rows : list (list nat)) | NbCsr (data inds ptr : list nat) (shape : nat * nat).
Definition points_around (points : list (list R)) (r_max : R) (fmt : around_format) (MT : bool) (n_max : nat) : res around :=
  do dw <- if MT then cells_around_MT points r_max n_max else Err NotImplementedError;
  let '(data, widths) := dw in
  match fmt with
  | FmtDict => do d <- cells_data_to_dict data widths; Ok (NbDict d)
  | FmtJagged => do j <- cells_data_to_jagged data widths; Ok (NbJagged j)
  | FmtCsr => do d <- cells_data_to_dict data widths;
              do s <- dict_to_spdata d widths;
              let '(data, inds, ptr, shp) := s in Ok (NbCsr data inds ptr shp)
  | FmtOther => Err RuntimeError
  end.

(** ** Lines *)

(** lengths_of_lines, 835-852, cell.py PolyCell1d.lengths, 670-676; lengths_of_lines2, 855-873 (floating point coordinates) *)
Definition length_of_line (ec : list (list R)) : res R :=
  do b <- get ec (length ec - 1); do a <- get ec 0; do d <- vsub b a; norm d.
Definition lengths_of_lines (coords : list (list R)) (topo : list (list nat)) : res (list R) :=
  mapM (fun nodes => do nb <- get nodes (ncols topo - 1); do na <- get nodes 0;
                     do b <- get coords nb; do a <- get coords na; do d <- vsub b a; norm d) topo.
Definition lengths_of_lines2 (ecoords : list (list (list R))) : res (list R) := mapM length_of_line ecoords.
(** distances_of_points, 875-893 (floating point coordinates) *)
Definition distances_of_points (coords : list (list R)) : res (list R) :=
  mapM (fun i => if Nat.eqb i 0 then Ok 0 else do b <- get coords i; do a <- get coords (i - 1); do d <- vsub b a; norm d)
       (seq 0 (length coords)).
(** pcoords_to_coords_1d, 909-941 *)
Definition pcoords_to_coords_1d (pcoords : list R) (ecoords : list (list (list R))) : res (list (list R)) :=
  do rows <- mapM (fun ec => mapM (fun p => do a <- get ec 0; do b <- get ec (length ec - 1); vadd (vscale (1 - p) a) (vscale p b)) pcoords) ecoords;
  Ok (concat rows).
(** [neumann.utils.to_range_1d] (not part of the repository): the affine map that sends the ends of [source] to those of [target] *)
Definition to_range_1d (x s0 s1 t0 t1 : R) : res R := do q <- div (x - s0) (s1 - s0); Ok (t0 + q * (t1 - t0)).
(** cell.py PolyCell1d.points_of_cells, 701-751, with [flatten=False]; [lcoords] are the positions of the nodes on the
    reference line, [ids] the ids of the cells of the block, [points] and [rng] the optional arguments.  [cells] is the
    optional list of cells; the empty dictionary that is returned when none of them is in the block is an empty list here. *)
Definition points_of_lines (lcoords : list R) (coords : list (list R)) (topo : list (list nat)) (ids : list nat)
    (points : option (list R)) (rng : option (R * R)) (cells : option (list nat)) : res (list (list (list R))) :=
  do ecoords <- cells_coords coords topo;
  match points, cells with
  | None, None => Ok ecoords
  | _, _ =>
    do ecoords <- match cells with
                  | None => Ok ecoords
                  | Some cs => take ecoords (filter (fun c => existsb (Nat.eqb c) ids) cs)
                  end;
    let '(pts, (r0, r1)) := match points with
                            | None => (lcoords, (-1, 1))
                            | Some p => (p, match rng with None => (0, 1) | Some r => r end)
                            end in
    do pts <- mapM (fun x => to_range_1d x r0 r1 0 1) pts;
    do r <- pcoords_to_coords_1d pts ecoords;
    Ok (reshape (length ecoords) (length pts) r)
  end.

(** ** Jacobian matrices *)

(** jacobian_matrix_bulk, 716-743, cell.py PolyCell.jacobian_matrix, 315-339: [dshp[iG].T @ ecoords[iE]]; [nD] is the number of
    columns of [dshp[iG]].  The result has room for [nD] columns.  (Coordinates with a single column are outside the model,
    the assignment copies them into all columns.) *)
Definition jacobian_matrix_bulk (nD : nat) (dshp : list (list (list R))) (ecoords : list (list (list R))) : res (list (list (list (list R)))) :=
  mapM (fun ec => mapM (fun ds => mapM (fun d =>
      do _ <- guard (Nat.eqb (ncols ec) nD) ValueError;
      do col <- mapM (fun row => get row d) ds; vecmat col ec) (seq 0 nD)) dshp) ecoords.
(** jacobian_matrix_bulk_1d, 770-797, for constant derivatives: the number of points is the length of [dshp]; line.py 21-32 *)
Definition jacobian_matrix_bulk_1d (nP : nat) (ecoords : list (list (list R))) : res (list (list (list (list R)))) :=
  do l <- lengths_of_lines2 ecoords; Ok (map (fun x => repeat [[x / 2]] nP) l).
(** jacobian_det_bulk_1d, 746-767 *)
Definition jacobian_det_bulk_1d (jac : list (list (list (list R)))) : res (list (list R)) :=
  mapM (mapM (fun j => get2 j 0 0)) jac.
