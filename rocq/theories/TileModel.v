(** * Model of src/polymesh/tile.py *)
From Coq Require Import Reals.
From Verif Require Export TopoModel TrModel.
Local Open Scope R_scope.

(** [neumann.minmax] (not part of the repository): the least and the greatest entry *)
Definition minmax (l : list R) : res (R * R) :=
  match l with [] => Err ValueError | x :: t => Ok (fold_left Rmin t x, fold_left Rmax t x) end.
(** [np.where(np.abs(vals - b) < tol)[0]], 38-41 *)
Definition where_near (vals : list R) (b tol : R) : list nat :=
  map fst (filter (fun kx => if Rlt_dec (Rabs (snd kx - b)) tol then true else false) (enum vals)).

(** one iteration of the loops 51-70: the writes to [coords_new], 57-61, *)
Definition tile_coord_writes (nP nY : nat) (dx dy : R) (xs ys zs : list R) (ij : nat * nat) : list (nat * nat * R) :=
  let (i, j) := ij in
  let start := ((i * nY + j) * nP)%nat in
  map (fun kx => ((start + fst kx)%nat, 0%nat, snd kx + INR i * dx)) (enum xs) ++
  map (fun ky => ((start + fst ky)%nat, 1%nat, snd ky + INR j * dy)) (enum ys) ++
  map (fun kz => ((start + fst kz)%nat, 2%nat, snd kz)) (enum zs).
(** to [topo_new], 54-56, *)
Definition tile_topo_writes (nP nY nE : nat) (topo : list (list nat)) (ij : nat * nat) : list (nat * nat * nat) :=
  let (i, j) := ij in
  let block := (i * nY + j)%nat in
  map (fun e => let '(r, c, n) := e in ((block * nE + r)%nat, c, (n + block * nP)%nat)) (entries topo).
(** and to [imap], 63-70: [imap[inds_old] = inds_new] needs arrays of the same length *)
Definition tile_side_writes (lo hi : list nat) (from to : nat) : res (list (nat * nat)) :=
  do _ <- guard (Nat.eqb (length lo) (length hi)) ValueError;
  Ok (combine (map (fun n => n + from)%nat lo) (map (fun n => n + to)%nat hi)).
Definition tile_map_writes (nP nY : nat) (lx hx ly hy : list nat) (ij : nat * nat) : res (list (nat * nat)) :=
  let (i, j) := ij in
  do wx <- (if Nat.ltb 0 i then tile_side_writes lx hx ((i * nY + j) * nP) (((i - 1) * nY + j) * nP) else Ok []);
  do wy <- (if Nat.ltb 0 j then tile_side_writes ly hy ((i * nY + j) * nP) ((i * nY + (j - 1)) * nP) else Ok []);
  Ok (wx ++ wy).

(** tile2d, 13-74; [its]: the iterations of the loops 51-52, in the order in which they are done (the three arrays are
    different ones, so the writes to each of them are listed separately) *)
Definition tile2d_in (its : list (nat * nat)) (coords : list (list R)) (topo : list (list nat)) (nX nY : nat) (tol : R)
    : res (list (list R) * list (list nat)) :=
  let nP := length coords in
  let nE := length topo in
  do xs <- mapM (fun p => get p 0) coords;
  do ys <- mapM (fun p => get p 1) coords;
  do zs <- mapM (fun p => get p 2) coords;
  do bx <- minmax xs;
  do by_ <- minmax ys;
  let dx := snd bx - fst bx in
  let dy := snd by_ - fst by_ in
  let lx := where_near xs (fst bx) tol in
  let hx := where_near xs (snd bx) tol in
  let ly := where_near ys (fst by_) tol in
  let hy := where_near ys (snd by_) tol in
  do c <- run_writes2 (flat_map (tile_coord_writes nP nY dx dy xs ys zs) its) (zeros2 0 (nX * nY * nP) (ncols coords));
  do t <- run_writes2 (flat_map (tile_topo_writes nP nY nE topo) its) (zeros2 0%nat (nX * nY * nE) (ncols topo));
  do ws <- mapM (tile_map_writes nP nY lx hx ly hy) its;
  do imap <- run_writes (concat ws) (seq 0 (nX * nY * nP));
  do t' <- remap_topo t (MArr imap);
  detach_mesh_bulk c t'.
Definition tile2d (coords : list (list R)) (topo : list (list nat)) (nX nY : nat) (tol : R) : res (list (list R) * list (list nat)) :=
  tile2d_in (list_prod (seq 0 nX) (seq 0 nY)) coords topo nX nY tol.
