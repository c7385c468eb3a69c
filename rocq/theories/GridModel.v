(** * Model of [src/polymesh/grid.py]

    Definitions only.  Simplifications: integers are natural numbers (a negative [start] and
    an [eshape] entry of 0 are outside the model); [fastmath] changes nothing in exact arithmetic. *)
From Coq Require Import String.
From Verif Require Export TrModel NumBase.

Section Grid.
Context {K : Type} {NK : Num K}.
Local Open Scope num_scope.

(** conversion of an integer *)
Definition kn (n : nat) : K := kofZ (Z.of_nat n).

(** [a / n] for an integer [n]; numba raises ZeroDivisionError *)
Definition divn (a : K) (n : nat) : res K :=
  if Nat.eqb n 0 then Err ZeroDivisionError else Ok (a / kn n).

(** iteration space of four and six nested loops in sequential order; the bounds are given by lists *)
Definition nest4 (a b c d : list nat) : list (nat * nat * nat * nat) :=
  flat_map (fun i => flat_map (fun j => flat_map (fun k => map (fun m => (i, j, k, m)) d) c) b) a.
Definition nest6 (a b c d e f : list nat) : list (nat * nat * nat * (nat * nat * nat)) :=
  flat_map (fun i => flat_map (fun j => flat_map (fun k =>
    flat_map (fun m => flat_map (fun q => map (fun p => (i, j, k, (m, q, p))) f) e) d) c) b) a.

(** [n] of rgridMT, 440-444; [nY] is the number of points in the second direction *)
Definition rgrid_node2 (nNodeX nNodeY nY i j k m : nat) : nat :=
  ((nNodeX - 1) * (i - 1) + k - 1) * nY + (nNodeY - 1) * (j - 1) + m.
(** writes to [coords] (446-447) and [topo] (445, 448) in one iteration *)
Definition rgrid_coord_writes2 (nNodeX nNodeY nY : nat) (sx sy dX dY ddX ddY : K) (it : nat * nat * nat * nat)
    : list (nat * nat * K) :=
  let '(i, j, k, m) := it in
  let n := rgrid_node2 nNodeX nNodeY nY i j k m in
  [((n - 1)%nat, 0%nat, sx + dX * kn (i - 1) + ddX * kn (k - 1));
   ((n - 1)%nat, 1%nat, sy + dY * kn (j - 1) + ddY * kn (m - 1))].
Definition rgrid_topo_write2 (nNodeX nNodeY nY ndivY : nat) (it : nat * nat * nat * nat) : nat * nat * nat :=
  let '(i, j, k, m) := it in
  (((i - 1) * ndivY + j - 1)%nat, ((k - 1) * nNodeY + m - 1)%nat, rgrid_node2 nNodeX nNodeY nY i j k m).

(** [n] of rgridMT, 457-467 *)
Definition rgrid_node3 (nNodeX nNodeY nNodeZ nY nZ i j k m q p : nat) : nat :=
  (((nNodeX - 1) * (i - 1) + m - 1) * nY + (nNodeY - 1) * (j - 1) + q - 1) * nZ + (nNodeZ - 1) * (k - 1) + p.
(** writes to [coords] (471-479) and [topo] (455, 468-470, 480) in one iteration *)
Definition rgrid_coord_writes3 (nNodeX nNodeY nNodeZ nY nZ : nat) (sx sy sz dX dY dZ ddX ddY ddZ : K)
    (it : nat * nat * nat * (nat * nat * nat)) : list (nat * nat * K) :=
  let '(i, j, k, (m, q, p)) := it in
  let n := rgrid_node3 nNodeX nNodeY nNodeZ nY nZ i j k m q p in
  [((n - 1)%nat, 0%nat, sx + dX * kn (i - 1) + ddX * kn (m - 1));
   ((n - 1)%nat, 1%nat, sy + dY * kn (j - 1) + ddY * kn (q - 1));
   ((n - 1)%nat, 2%nat, sz + dZ * kn (k - 1) + ddZ * kn (p - 1))].
Definition rgrid_topo_write3 (nNodeX nNodeY nNodeZ nY nZ ndivY ndivZ : nat)
    (it : nat * nat * nat * (nat * nat * nat)) : nat * nat * nat :=
  let '(i, j, k, (m, q, p)) := it in
  (((i - 1) * ndivY * ndivZ + (j - 1) * ndivZ + k - 1)%nat,
   ((m - 1) * nNodeY * nNodeZ + (q - 1) * nNodeZ + p - 1)%nat,
   rgrid_node3 nNodeX nNodeY nNodeZ nY nZ i j k m q p).

(** all the writes of the parallel loops of rgridMT, in sequential order, and the sizes of the arrays:
    ((rows of coords, writes to coords), (rows and columns of topo, writes to topo)); 383-480 *)
Definition rgrid_writes2 (lX lY : K) (ndivX ndivY nNodeX nNodeY : nat) (sx sy : K)
    : res ((nat * list (nat * nat * K)) * (nat * nat * list (nat * nat * nat))) :=
  let nX := (ndivX * (nNodeX - 1) + 1)%nat in
  let nY := (ndivY * (nNodeY - 1) + 1)%nat in
  do dX <- divn lX ndivX;
  do dY <- divn lY ndivY;
  do ddX <- divn dX (nNodeX - 1);
  do ddY <- divn dY (nNodeY - 1);
  let its := nest4 (seq 1 ndivX) (seq 1 ndivY) (seq 1 nNodeX) (seq 1 nNodeY) in
  Ok (((nX * nY)%nat, flat_map (rgrid_coord_writes2 nNodeX nNodeY nY sx sy dX dY ddX ddY) its),
      ((ndivX * ndivY)%nat, (nNodeX * nNodeY)%nat, map (rgrid_topo_write2 nNodeX nNodeY nY ndivY) its)).
Definition rgrid_writes3 (lX lY lZ : K) (ndivX ndivY ndivZ nNodeX nNodeY nNodeZ : nat) (sx sy sz : K)
    : res ((nat * list (nat * nat * K)) * (nat * nat * list (nat * nat * nat))) :=
  let nX := (ndivX * (nNodeX - 1) + 1)%nat in
  let nY := (ndivY * (nNodeY - 1) + 1)%nat in
  let nZ := (ndivZ * (nNodeZ - 1) + 1)%nat in
  do dX <- divn lX ndivX;
  do dY <- divn lY ndivY;
  do dZ <- divn lZ ndivZ;
  do ddX <- divn dX (nNodeX - 1);
  do ddY <- divn dY (nNodeY - 1);
  do ddZ <- divn dZ (nNodeZ - 1);
  let its := nest6 (seq 1 ndivX) (seq 1 ndivY) (seq 1 ndivZ) (seq 1 nNodeX) (seq 1 nNodeY) (seq 1 nNodeZ) in
  Ok (((nX * nY * nZ)%nat, flat_map (rgrid_coord_writes3 nNodeX nNodeY nNodeZ nY nZ sx sy sz dX dY dZ ddX ddY ddZ) its),
      ((ndivY * ndivX * ndivZ)%nat, (nNodeX * nNodeY * nNodeZ)%nat,
       map (rgrid_topo_write3 nNodeX nNodeY nNodeZ nY nZ ndivY ndivZ) its)).

(** [topo + (start - 1)] (481-482); the node numbers written are positive *)
Definition add_start1 (start : nat) (topo : list (list nat)) : list (list nat) :=
  map (map (fun n => n + start - 1)%nat) topo.

(** rgridMT, 383-484.  In one dimension [eshape - 1] and [shape * ...] are applied to tuples: TypeError.
    Unpacking tuples of the wrong length: ValueError. *)
Definition rgridMT (size : list K) (shape eshape : list nat) (shift : list K) (start : nat)
    : res (list (list K) * list (list nat)) :=
  match size with
  | [_] => Err TypeError
  | [lX; lY] =>
      match shape, eshape with
      | [ndivX; ndivY], [nNodeX; nNodeY] =>
          do sx <- get shift 0; do sy <- get shift 1;
          do w <- rgrid_writes2 lX lY ndivX ndivY nNodeX nNodeY sx sy;
          let '((nP, cw), (nC, nN, tw)) := w in
          do coords <- run_writes2 cw (zeros2 #0 nP 2);
          do topo <- run_writes2 tw (zeros2 0%nat nC nN);
          Ok (coords, add_start1 start topo)
      | _, _ => Err ValueError
      end
  | [lX; lY; lZ] =>
      match shape, eshape with
      | [ndivX; ndivY; ndivZ], [nNodeX; nNodeY; nNodeZ] =>
          do sx <- get shift 0; do sy <- get shift 1; do sz <- get shift 2;
          do w <- rgrid_writes3 lX lY lZ ndivX ndivY ndivZ nNodeX nNodeY nNodeZ sx sy sz;
          let '((nP, cw), (nC, nN, tw)) := w in
          do coords <- run_writes2 cw (zeros2 #0 nP 3);
          do topo <- run_writes2 tw (zeros2 0%nat nC nN);
          Ok (coords, add_start1 start topo)
      | _, _ => Err ValueError
      end
  | _ => Err ValueError
  end.

(** ** The sequential legacy version *)

(** state of the loops of [_rgridST]: the next cell ([elem + 1]), the next local node ([ne + 1]) and the
    two arrays *)
Definition st_state : Type := nat * nat * list (list K) * list (list nat).
(** loop body 2d, 330-341: [ne += 1] comes before its use, so the index is the old value of [ne + 1] *)
Definition rgridST_body2 (nNodeX nNodeY nY : nat) (sx sy dX dY ddX ddY : K) (i j k : nat) (st : st_state) (m : nat)
    : res st_state :=
  let '(elem1, ne1, coords, topo) := st in
  let n := rgrid_node2 nNodeX nNodeY nY i j k m in
  do coords <- set2 coords (n - 1) 0 (sx + dX * kn (i - 1) + ddX * kn (k - 1));
  do coords <- set2 coords (n - 1) 1 (sy + dY * kn (j - 1) + ddY * kn (m - 1));
  do topo <- set2 topo (elem1 - 1) ne1 n;
  Ok (elem1, (ne1 + 1)%nat, coords, topo).
(** _rgridST, 270-379, two dimensions (the one used for comparison with rgridMT) *)
Definition rgridST2 (lX lY : K) (ndivX ndivY nNodeX nNodeY : nat) (sx sy : K) (start : nat)
    : res (list (list K) * list (list nat)) :=
  let nX := (ndivX * (nNodeX - 1) + 1)%nat in
  let nY := (ndivY * (nNodeY - 1) + 1)%nat in
  do dX <- divn lX ndivX;
  do dY <- divn lY ndivY;
  do ddX <- divn dX (nNodeX - 1);
  do ddY <- divn dY (nNodeY - 1);
  do st <- foldM (fun st i =>
      foldM (fun st j =>
          let '(elem1, _, coords, topo) := st in
          foldM (fun st k =>
              foldM (rgridST_body2 nNodeX nNodeY nY sx sy dX dY ddX ddY i j k) (seq 1 nNodeY) st)
            (seq 1 nNodeX) ((elem1 + 1)%nat, 0%nat, coords, topo))
        (seq 1 ndivY) st)
    (seq 1 ndivX) (0%nat, 0%nat, zeros2 #0 (nX * nY) 2, zeros2 0%nat (ndivX * ndivY) (nNodeX * nNodeY));
  let '(_, _, coords, topo) := st in
  Ok (coords, add_start1 start topo).

(** loop body 3d, 349-376 *)
Definition rgridST_body3 (nNodeX nNodeY nNodeZ nY nZ : nat) (sx sy sz dX dY dZ ddX ddY ddZ : K)
    (i j k m q : nat) (st : st_state) (p : nat) : res st_state :=
  let '(elem1, ne1, coords, topo) := st in
  let n := rgrid_node3 nNodeX nNodeY nNodeZ nY nZ i j k m q p in
  do coords <- set2 coords (n - 1) 0 (sx + dX * kn (i - 1) + ddX * kn (m - 1));
  do coords <- set2 coords (n - 1) 1 (sy + dY * kn (j - 1) + ddY * kn (q - 1));
  do coords <- set2 coords (n - 1) 2 (sz + dZ * kn (k - 1) + ddZ * kn (p - 1));
  do topo <- set2 topo (elem1 - 1) ne1 n;
  Ok (elem1, (ne1 + 1)%nat, coords, topo).
(** _rgridST, 270-379, three dimensions *)
Definition rgridST3 (lX lY lZ : K) (ndivX ndivY ndivZ nNodeX nNodeY nNodeZ : nat) (sx sy sz : K) (start : nat)
    : res (list (list K) * list (list nat)) :=
  let nX := (ndivX * (nNodeX - 1) + 1)%nat in
  let nY := (ndivY * (nNodeY - 1) + 1)%nat in
  let nZ := (ndivZ * (nNodeZ - 1) + 1)%nat in
  do dX <- divn lX ndivX;
  do dY <- divn lY ndivY;
  do dZ <- divn lZ ndivZ;
  do ddX <- divn dX (nNodeX - 1);
  do ddY <- divn dY (nNodeY - 1);
  do ddZ <- divn dZ (nNodeZ - 1);
  do st <- foldM (fun st i =>
      foldM (fun st j =>
        foldM (fun st k =>
          let '(elem1, _, coords, topo) := st in
          foldM (fun st m =>
              foldM (fun st q =>
                foldM (rgridST_body3 nNodeX nNodeY nNodeZ nY nZ sx sy sz dX dY dZ ddX ddY ddZ i j k m q) (seq 1 nNodeZ) st)
              (seq 1 nNodeY) st)
            (seq 1 nNodeX) ((elem1 + 1)%nat, 0%nat, coords, topo))
          (seq 1 ndivZ) st)
        (seq 1 ndivY) st)
    (seq 1 ndivX) (0%nat, 0%nat, zeros2 #0 (nX * nY * nZ) 3,
                   zeros2 0%nat (ndivY * ndivX * ndivZ) (nNodeX * nNodeY * nNodeZ));
  let '(_, _, coords, topo) := st in
  Ok (coords, add_start1 start topo).

(** ** Bins *)

(** grid_2d_bins, 488-520: the writes.  [xbins.max()] fails for an empty array (491-492; the values are
    not used). *)
Definition bins_node2 (nDIVX nDIVY nNY i j p q : nat) : nat := ((nDIVX * i + p) * nNY + nDIVY * j + q)%nat.
Definition bins_coord_writes2 (xbins ybins : list K) (nDIVX nDIVY nNY : nat) (sx sy : K)
    (it : nat * nat * nat * nat) : res (list (nat * nat * K)) :=
  let '(i, j, p, q) := it in
  do x0 <- get xbins i; do x1 <- get xbins (i + 1);
  do y0 <- get ybins j; do y1 <- get ybins (j + 1);
  do ddX <- divn (x1 - x0) nDIVX;
  do ddY <- divn (y1 - y0) nDIVY;
  let n := bins_node2 nDIVX nDIVY nNY i j p q in
  Ok [(n, 0%nat, sx + x0 + ddX * kn p); (n, 1%nat, sy + y0 + ddY * kn q)].
Definition bins_topo_write2 (nDIVX nDIVY nNY nEY nNEY : nat) (it : nat * nat * nat * nat) : nat * nat * nat :=
  let '(i, j, p, q) := it in
  ((i * nEY + j)%nat, (p * nNEY + q)%nat, bins_node2 nDIVX nDIVY nNY i j p q).
Definition bins_writes2 (xbins ybins : list K) (nNEX nNEY : nat) (sx sy : K)
    : res ((nat * list (nat * nat * K)) * (nat * nat * list (nat * nat * nat))) :=
  do _ <- guard (negb (Nat.eqb (length xbins) 0 || Nat.eqb (length ybins) 0)) ValueError;
  let nEX := (length xbins - 1)%nat in
  let nEY := (length ybins - 1)%nat in
  let nDIVX := (nNEX - 1)%nat in
  let nDIVY := (nNEY - 1)%nat in
  let nNX := (nEX * nDIVX + 1)%nat in
  let nNY := (nEY * nDIVY + 1)%nat in
  let its := nest4 (seq 0 nEX) (seq 0 nEY) (seq 0 nNEX) (seq 0 nNEY) in
  do cw <- mapM (bins_coord_writes2 xbins ybins nDIVX nDIVY nNY sx sy) its;
  Ok (((nNX * nNY)%nat, concat cw),
      ((nEX * nEY)%nat, (nNEX * nNEY)%nat, map (bins_topo_write2 nDIVX nDIVY nNY nEY nNEY) its)).
Definition grid_2d_bins (xbins ybins : list K) (eshape : list nat) (shift : list K) (start : nat)
    : res (list (list K) * list (list nat)) :=
  match eshape with
  | [nNEX; nNEY] =>
      do sx <- get shift 0; do sy <- get shift 1;
      do w <- bins_writes2 xbins ybins nNEX nNEY sx sy;
      let '((nP, cw), (nC, nN, tw)) := w in
      do coords <- run_writes2 cw (zeros2 #0 nP 2);
      do topo <- run_writes2 tw (zeros2 0%nat nC nN);
      Ok (coords, map (map (fun n => n + start)%nat) topo)
  | _ => Err ValueError
  end.

(** grid_3d_bins, 524-568.  [coords] has the element type of [xbins]; [cast] is the conversion made when
    a number is stored in such an array (the identity for floating point arrays). *)
Definition bins_node3 (nDIVX nDIVY nDIVZ nNY nNZ i j k p q r : nat) : nat :=
  (((nDIVX * i + p) * nNY + nDIVY * j + q) * nNZ + nDIVZ * k + r)%nat.
Definition bins_coord_writes3 (cast : K -> K) (xbins ybins zbins : list K) (nDIVX nDIVY nDIVZ nNY nNZ : nat) (sx sy sz : K)
    (it : nat * nat * nat * (nat * nat * nat)) : res (list (nat * nat * K)) :=
  let '(i, j, k, (p, q, r)) := it in
  do x0 <- get xbins i; do x1 <- get xbins (i + 1);
  do y0 <- get ybins j; do y1 <- get ybins (j + 1);
  do z0 <- get zbins k; do z1 <- get zbins (k + 1);
  do ddX <- divn (x1 - x0) nDIVX;
  do ddY <- divn (y1 - y0) nDIVY;
  do ddZ <- divn (z1 - z0) nDIVZ;
  let n := bins_node3 nDIVX nDIVY nDIVZ nNY nNZ i j k p q r in
  Ok [(n, 0%nat, cast (sx + x0 + ddX * kn p)); (n, 1%nat, cast (sy + y0 + ddY * kn q));
      (n, 2%nat, cast (sz + z0 + ddZ * kn r))].
Definition bins_topo_write3 (nDIVX nDIVY nDIVZ nNY nNZ nEY nEZ nNEY nNEZ : nat)
    (it : nat * nat * nat * (nat * nat * nat)) : nat * nat * nat :=
  let '(i, j, k, (p, q, r)) := it in
  ((i * nEZ * nEY + j * nEZ + k)%nat, (p * nNEZ * nNEY + q * nNEZ + r)%nat,
   bins_node3 nDIVX nDIVY nDIVZ nNY nNZ i j k p q r).
Definition bins_writes3 (cast : K -> K) (xbins ybins zbins : list K) (nNEX nNEY nNEZ : nat) (sx sy sz : K)
    : res ((nat * list (nat * nat * K)) * (nat * nat * list (nat * nat * nat))) :=
  do _ <- guard (negb (Nat.eqb (length xbins) 0 || Nat.eqb (length ybins) 0 || Nat.eqb (length zbins) 0)) ValueError;
  let nEX := (length xbins - 1)%nat in
  let nEY := (length ybins - 1)%nat in
  let nEZ := (length zbins - 1)%nat in
  let nDIVX := (nNEX - 1)%nat in
  let nDIVY := (nNEY - 1)%nat in
  let nDIVZ := (nNEZ - 1)%nat in
  let nNX := (nEX * nDIVX + 1)%nat in
  let nNY := (nEY * nDIVY + 1)%nat in
  let nNZ := (nEZ * nDIVZ + 1)%nat in
  let its := nest6 (seq 0 nEX) (seq 0 nEY) (seq 0 nEZ) (seq 0 nNEX) (seq 0 nNEY) (seq 0 nNEZ) in
  do cw <- mapM (bins_coord_writes3 cast xbins ybins zbins nDIVX nDIVY nDIVZ nNY nNZ sx sy sz) its;
  Ok (((nNX * nNY * nNZ)%nat, concat cw),
      ((nEX * nEY * nEZ)%nat, (nNEX * nNEY * nNEZ)%nat,
       map (bins_topo_write3 nDIVX nDIVY nDIVZ nNY nNZ nEY nEZ nNEY nNEZ) its)).
Definition grid_3d_bins (cast : K -> K) (xbins ybins zbins : list K) (eshape : list nat) (shift : list K) (start : nat)
    : res (list (list K) * list (list nat)) :=
  match eshape with
  | [nNEX; nNEY; nNEZ] =>
      do sx <- get shift 0; do sy <- get shift 1; do sz <- get shift 2;
      do w <- bins_writes3 cast xbins ybins zbins nNEX nNEY nNEZ sx sy sz;
      let '((nP, cw), (nC, nN, tw)) := w in
      do coords <- run_writes2 cw (zeros2 #0 nP 3);
      do topo <- run_writes2 tw (zeros2 0%nat nC nN);
      Ok (coords, map (map (fun n => n + start)%nat) topo)
  | _ => Err ValueError
  end.

(** ** grid and the named grids *)

(** utils/utils.py center_of_points, 801-813: the mean of every column *)
Definition center_of_points (coords : list (list K)) : res (list K) := vmean coords.
(** grid.py 172-177: subtract the centre (two or three columns); the rows have two or three entries *)
Definition grid_centralize (coords : list (list K)) : res (list (list K)) :=
  do center <- center_of_points coords; mapM (fun r => vsub r center) coords.

(** the argument [eshape]: absent, a name, a tuple, or another sequence (list or array) *)
Inductive eshape_arg := ENone | EName (s : string) | ETuple (l : list nat) | ESeq (l : list nat).
(** the arguments of [grid], 16-26, apart from [eshape]; [a_cast] is the conversion to the element type of
    [bins[0]] *)
Record grid_args := {
  a_size : option (list K); a_shape : option (list nat); a_shift : option (list K); a_start : nat;
  a_bins : option (list (list K)); a_cast : K -> K; a_centralize : bool; a_path : option (list nat) }.

(** nDime, 105-110 *)
Definition grid_dim (a : grid_args) : res nat :=
  match a_size a, a_bins a, a_shape a with
  | Some s, _, _ => Ok (length s)
  | None, Some b, _ => Ok (length b)
  | None, None, Some s => Ok (length s)
  | None, None, None => Err NameError
  end.

(** grid, 105-116 and 158-188: all but the branch for named element shapes; [eshape] as a list together
    with the information whether it is a tuple *)
Definition grid_tail (a : grid_args) (tuple : bool) (eshape : list nat) (shift : list K)
    (nDime : nat) : res (list (list K) * list (list nat)) :=
  do ct <-
    match a_bins a with
    | Some [xb; yb] => grid_2d_bins xb yb eshape shift (a_start a)
    | Some [xb; yb; zb] => grid_3d_bins (a_cast a) xb yb zb eshape shift (a_start a)
    | Some _ => Err NotImplementedError
    | None =>
        do _ <- guard tuple AssertionError;
        let shape := match a_shape a with Some s => s | None => repeat 1%nat nDime end in
        match a_size a with
        | Some size => rgridMT size shape eshape shift (a_start a)
        | None => Err TypeError                              (* len(None) *)
        end
    end;
  let '(coords, topo) := ct in
  do coords <- if a_centralize a then grid_centralize coords else Ok coords;
  do topo <- match a_path a with
             | None => Ok topo
             | Some p => do td <- transform_topology 0%nat topo (P1 p) DNone; Ok (fst td)
             end;
  Ok (coords, topo).

Definition grid_shift (a : grid_args) (nDime : nat) : list K :=
  match a_shift a with Some s => s | None => repeat #0 nDime end.

(** grid called with a tuple *)
Definition grid_tuple (a : grid_args) (eshape : list nat) : res (list (list K) * list (list nat)) :=
  do nDime <- grid_dim a;
  grid_tail a true eshape (grid_shift a nDime) nDime.

(** gridQ4 191-215, gridQ9 218-229, gridH8 232-243, gridH27 247-265 *)
Definition path_Q4 : list nat := [0; 2; 3; 1]%nat.
Definition path_Q9 : list nat := [0; 6; 8; 2; 3; 7; 5; 1; 4]%nat.
Definition path_H8 : list nat := [0; 4; 6; 2; 1; 5; 7; 3]%nat.
Definition path_H27 : list nat :=
  [0; 18; 24; 6; 2; 20; 26; 8; 9; 21; 15; 3; 11; 23; 17; 5; 1; 19; 25; 7; 4; 22; 10; 16; 12; 14; 13]%nat.
Definition grid_named (eshape path : list nat) (a : grid_args) : res (list (list K) * list (list nat)) :=
  do ct <- grid_tuple a eshape;
  do td <- transform_topology 0%nat (snd ct) (P1 path) DNone;
  Ok (fst ct, fst td).
Definition gridQ4 := grid_named [2; 2]%nat path_Q4.
Definition gridQ9 := grid_named [3; 3]%nat path_Q9.
Definition gridH8 := grid_named [2; 2; 2]%nat path_H8.
Definition gridH27 := grid_named [3; 3; 3]%nat path_H27.

(** grid, 16-188.  The named branches (117-156) pass on [size], [shape], [shift] (already filled in),
    [start], [centralize] and [bins], but not [path]. *)
Definition grid (a : grid_args) (eshape : eshape_arg) : res (list (list K) * list (list nat)) :=
  do nDime <- grid_dim a;
  let shift := grid_shift a nDime in
  let inner := {| a_size := a_size a; a_shape := a_shape a; a_shift := Some shift; a_start := a_start a;
                  a_bins := a_bins a; a_cast := a_cast a; a_centralize := a_centralize a; a_path := None |} in
  match eshape with
  | ENone => grid_tail a false (repeat 2%nat nDime) shift nDime
  | ETuple l => grid_tail a true l shift nDime
  | ESeq l => grid_tail a false l shift nDime
  | EName s =>
      if String.eqb s "Q4" then gridQ4 inner
      else if String.eqb s "Q9" then gridQ9 inner
      else if String.eqb s "H8" then gridH8 inner
      else if String.eqb s "H27" then gridH27 inner
      else Err NotImplementedError
  end.
End Grid.
