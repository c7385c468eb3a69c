(** * Model of [src/polymesh/utils/topology/topo.py]

    Definitions only.  Every definition cites the lines it models.  Common
    simplifications: integers are unbounded naturals (dtypes and [astype] are
    dropped); JaggedArray, TopologyArray and awkward arrays are lists of rows;
    [unique2d] and [count_cols] (package neumann) are taken at their documented
    meaning, the same as numpy's on the flattened data. *)
From Verif Require Export Base.

(** ** Arguments *)

(** A topology argument ([TopoLike], topo.py 42).  [TNp1]: 1d numpy array;
    [TNp]: 2d numpy array (rows); [TAk]: awkward / jagged array; [TCsr]: neumann
    [csr_matrix], of which the functions below only read [indptr] and [data]. *)
Inductive topo_like :=
| TNp1 (t : list nat)
| TNp (t : list (list nat))
| TAk (t : list (list nat))
| TCsr (ptr data : list nat).

(** A mapping argument ([MappingLike], topo.py 43): an index array or a dict. *)
Inductive mapping :=
| MArr (a : list nat)
| MDict (d : dict nat).

(** [imap[k]] *)
Definition mlookup (m : mapping) (k : nat) : res nat :=
  match m with MArr a => get a k | MDict d => dget d k end.

(** ** Loops over the entries of a topology *)

(** [for iE in range(nE): for jNE in range(nNE): ... topo[iE, jNE] ...], e.g.
    topo.py 183-185, 215-217, 338-341: the visited triples in loop order. *)
Definition row_entries (ir : nat * list nat) : list (nat * nat * nat) :=
  map (fun jn => (fst ir, fst jn, snd jn)) (enum (snd ir)).
Definition entries (t : list (list nat)) : list (nat * nat * nat) :=
  flat_map row_entries (enum t).

(** topo.py 250-256, 274-280, 376-383: the same loop over csr data *)
Definition entries_csr (ptr data : list nat) : res (list (nat * nat * nat)) :=
  do rows <- mapM (fun iE =>
      do lo <- get ptr iE;
      do hi <- get ptr (S iE);
      mapM (fun j => do n <- get data (lo + j); Ok (iE, j, n)) (seq 0 (hi - lo)))
    (seq 0 (length ptr - 1));
  Ok (concat rows).

Definition node_of (e : nat * nat * nat) : nat := snd e.

(** ** rewire (51-91) and remapping (94-120) *)

(** remap_topo, 94-106: the iterations of the two prange loops, in the order
    [es], each writing one cell of the zero-initialised result. *)
Definition remap_topo_in (es : list (nat * nat * nat)) (t : list (list nat)) (imap : mapping)
  : res (list (list nat)) :=
  do ws <- mapM (fun e => do v <- mlookup imap (node_of e); Ok (fst e, v)) es;
  run_writes2 ws (map (fun r => zeros 0 (length r)) t).
Definition remap_topo (t : list (list nat)) (imap : mapping) : res (list (list nat)) :=
  remap_topo_in (entries t) t imap.

(** remap_topo_1d, 109-120 *)
Definition remap_topo_1d_in (es : list (nat * nat)) (t : list nat) (imap : mapping) : res (list nat) :=
  do ws <- mapM (fun e => do v <- mlookup imap (snd e); Ok (fst e, v)) es;
  run_writes ws (zeros 0 (length t)).
Definition remap_topo_1d (t : list nat) (imap : mapping) : res (list nat) :=
  remap_topo_1d_in (enum t) t imap.

(** inds_to_invmap_as_dict, 720-738 *)
Definition inds_to_invmap_as_dict (inds : list nat) : dict nat :=
  fold_left (fun d ig => dset d (snd ig) (fst ig)) (enum inds) [].

(** arrays_to_imap_as_dict, 741-761: reads [target[i]] for each [i < len(source)] *)
Definition arrays_to_imap_as_dict (source target : list nat) : res (dict nat) :=
  foldM (fun d ig => do v <- get target (fst ig); Ok (dset d (snd ig) v)) (enum source) [].

(** inds_to_invmap_as_array, 764-783: prange over the positions, in order [es] *)
Definition inds_to_invmap_as_array_in (es : list (nat * nat)) (inds : list nat) : res (list nat) :=
  do m <- np_max inds;
  run_writes (map (fun ig => (snd ig, fst ig)) es) (zeros 0 (m + 1)).
Definition inds_to_invmap_as_array (inds : list nat) : res (list nat) :=
  inds_to_invmap_as_array_in (enum inds) inds.

(** rewire, 51-91.  TopologyArray and awkward arrays (82-90) both flatten, remap
    and cut again by the row widths. *)
Definition rewire (topo : topo_like) (imap : mapping) (invert : bool) : res topo_like :=
  do imap <- (if invert then
                match imap with
                | MArr a => Ok (MDict (inds_to_invmap_as_dict a))
                | MDict _ => Err AssertionError
                end
              else Ok imap);
  match topo with
  | TNp t => do r <- remap_topo t imap; Ok (TNp r)
  | TNp1 t => do r <- remap_topo_1d t imap; Ok (TNp1 r)
  | TAk t =>
      let cuts := map (@length nat) t in
      do r <- remap_topo_1d (concat t) imap;
      Ok (TAk (split_by cuts r))
  | TCsr _ _ => Err TypeError
  end.

(** ** Regularity (123-172) *)

(** all stored node numbers, flattened *)
Definition flat (topo : topo_like) : list nat :=
  match topo with
  | TNp1 t => t
  | TNp t => concat t
  | TAk t => concat t
  | TCsr _ data => data
  end.

(** is_regular, 123-139.  (The scipy branch, 136-137, refers to an undefined name.)
    Python's [and] only evaluates the right side when the left one is true; it
    cannot fail there. *)
Definition is_regular (topo : topo_like) : res bool :=
  let l := flat topo in
  do mn <- np_min l;
  do mx <- np_max l;
  Ok (Nat.eqb mn 0 && Nat.eqb (length (np_unique l)) (mx + 1))%bool.

(** A call on a mutable argument: the argument after the call and the result. *)
Definition call (A : Type) := (topo_like * res A)%type.

(** regularize, 142-172.  The csr branch (166-170) overwrites [topo.data] and returns
    the argument itself. *)
Definition regularize (topo : topo_like) : call (topo_like * list nat) :=
  match topo with
  | TNp1 t =>
      (topo, do ui <- unique_inverse Nat.compare t; Ok (TNp1 (snd ui), fst ui))
  | TNp t =>
      (topo, do ui <- unique_inverse Nat.compare (concat t);
             Ok (TNp (split_by (map (@length nat) t) (snd ui)), fst ui))
  | TAk t =>
      (topo, do ui <- unique_inverse Nat.compare (concat t);
             Ok (TAk (split_by (map (@length nat) t) (snd ui)), fst ui))
  | TCsr ptr data =>
      match unique_inverse Nat.compare data with
      | Ok (u, inv) => (TCsr ptr inv, Ok (TCsr ptr inv, u))
      | Err e => (topo, Err e)
      end
  end.

(** ** Counting (175-324) *)

(** [count[n] += 1] *)
Definition incr (count : list nat) (n : nat) : res (list nat) :=
  do c <- get count n; set count n (c + 1).

(** the loop [for iE..: for jNE..: count[topo[iE, jNE]] += 1] shared by
    _count_cells_at_nodes_reg_np_ 183-185, _reg_ak_ 215-217, _reg_csr_ 250-256 *)
Definition count_loop (es : list (nat * nat * nat)) (nN : nat) : res (list nat) :=
  foldM (fun c e => incr c (node_of e)) es (zeros 0 nN).

(** _count_cells_at_nodes_reg_np_, 175-186 *)
Definition count_cells_at_nodes_reg_np (t : list (list nat)) : res (list nat) :=
  do m <- np_max (concat t); count_loop (entries t) (m + 1).

(** _count_cells_at_nodes_reg_ak_, 207-218 *)
Definition count_cells_at_nodes_reg_ak (t : list (list nat)) (nN : nat) : res (list nat) :=
  count_loop (entries t) nN.

(** _count_cells_at_nodes_reg_csr_, 240-257 *)
Definition count_cells_at_nodes_reg_csr (ptr data : list nat) : res (list nat) :=
  do m <- np_max data; do es <- entries_csr ptr data; count_loop es (m + 1).

(** [count[k] += 1] on a dict *)
Definition dincr (d : dict nat) (k : nat) : res (dict nat) :=
  do c <- dget d k; Ok (dset d k (c + 1)).

(** _count_cells_at_nodes_np_ 189-204, _ak_ 221-237, _csr_ 260-281: zero for each
    node id, then one increment per entry *)
Definition count_loop_dict (es : list (nat * nat * nat)) (nodeIDs : list nat) : res (dict nat) :=
  foldM (fun d e => do g <- get nodeIDs (node_of e); dincr d g) es
        (fold_left (fun d g => dset d g 0) nodeIDs []).

(** the returned value: an array (regular) or a dict *)
Inductive counts_out := CArr (c : list nat) | CDict (d : dict nat).

(** count_cells_at_nodes, 284-324.  A 1d array fails to unpack its shape (181, 197),
    reported as TypeError. *)
Definition count_cells_at_nodes (topo : topo_like) (regular : bool) : call counts_out :=
  if regular then
    (topo,
     match topo with
     | TNp1 _ => Err TypeError
     | TNp t => do c <- count_cells_at_nodes_reg_np t; Ok (CArr c)
     | TAk t => do m <- np_max (concat t);
                do c <- count_cells_at_nodes_reg_ak t (m + 1); Ok (CArr c)
     | TCsr ptr data => do c <- count_cells_at_nodes_reg_csr ptr data; Ok (CArr c)
     end)
  else
    let (topo', r) := regularize topo in
    (topo',
     do ru <- r;
     match fst ru with
     | TNp1 _ => Err TypeError
     | TNp t => do d <- count_loop_dict (entries t) (snd ru); Ok (CDict d)
     | TAk t => do d <- count_loop_dict (entries t) (snd ru); Ok (CDict d)
     | TCsr ptr data =>
         do es <- entries_csr ptr data;
         do d <- count_loop_dict es (snd ru); Ok (CDict d)
     end).

(** ** Cells at nodes (327-562) *)

(** one iteration of the fill loop, 338-341, 356-359, 381-383 *)
Definition cells_step (s : list nat * list (list nat) * list (list nat)) (e : nat * nat * nat)
  : res (list nat * list (list nat) * list (list nat)) :=
  let '(count, ereg, nreg) := s in
  let '(iE, jNE, n) := e in
  do c <- get count n;
  do ereg' <- set2 ereg n c iE;
  do nreg' <- set2 nreg n c jNE;
  do count' <- incr count n;
  Ok (count', ereg', nreg').

(** _cells_at_nodes_reg_np_ 327-342, _ak_ 345-360, _csr_ 363-384, after the first count *)
Definition cells_loop (es : list (nat * nat * nat)) (nN : nat) (count : list nat)
  : res (list nat * list (list nat) * list (list nat)) :=
  do cmax <- np_max count;
  foldM cells_step es (zeros 0 nN, zeros2 0 nN cmax, zeros2 0 nN cmax).

Definition cells_at_nodes_reg_np (t : list (list nat)) :=
  do m <- np_max (concat t);
  do count <- count_cells_at_nodes_reg_np t;
  cells_loop (entries t) (m + 1) count.

Definition cells_at_nodes_reg_ak (t : list (list nat)) (nN : nat) :=
  do count <- count_cells_at_nodes_reg_ak t nN;
  cells_loop (entries t) nN count.

Definition cells_at_nodes_reg_csr (ptr data : list nat) :=
  do count <- count_cells_at_nodes_reg_csr ptr data;
  do m <- np_max data;
  do es <- entries_csr ptr data;
  cells_loop es (m + 1) count.

(** _nodal_cell_data_to_dicts_, 387-396 *)
Definition nodal_cell_data_to_dicts (count : list nat) (ereg nreg : list (list nat))
    (cellIDs nodeIDs : list nat) : res (dict (list nat) * dict (list nat)) :=
  foldM (fun dd ic =>
      let '(i, c) := ic in
      do g <- get nodeIDs i;
      do er <- get ereg i;
      do nr <- get nreg i;
      do ids <- take cellIDs (firstn c er);
      Ok (dset (fst dd) g ids, dset (snd dd) g (firstn c nr)))
    (enum count) ([], []).

(** _nodal_cell_data_to_spdata_, 399-414: data, indices, indptr, shape *)
Definition nodal_cell_data_to_spdata (count : list nat) (ereg nreg : list (list nat))
  : res (list nat * list nat * list nat * (nat * nat)) :=
  do emax <- np_max (concat ereg);
  let nN := length count in
  let N := np_sum count in
  let ptr := indptr count in
  do erows <- mapM (fun ic => do r <- get ereg (fst ic); Ok (firstn (snd ic) r)) (enum count);
  do nrows <- mapM (fun ic => do r <- get nreg (fst ic); Ok (firstn (snd ic) r)) (enum count);
  do indices <- scatter 0 N ptr erows;
  do data <- scatter 0 N ptr nrows;
  Ok (data, indices, ptr, (nN, emax + 1)).

(** the argument [frmt] of cells_at_nodes; [FOther]: any other string *)
Inductive frmt := FNone | FCsr | FScipyCsr | FDicts | FJagged | FOther.

(** what cells_at_nodes returns; the counts of the non-raw formats are present only
    with [return_counts] *)
Inductive cells_out :=
| ORaw (counts : list nat) (ereg nreg : list (list nat))
| OCsr (counts : option (list nat)) (data indices ptr : list nat) (shape : nat * nat)
| ODicts (counts : option (list nat)) (ereg nreg : dict (list nat))
| OJagged (counts : option (list nat)) (ereg nreg : list (list nat)).

Definition is_dicts (f : frmt) : bool := match f with FDicts => true | _ => false end.

(** number of cells, [len(topo)] or [len(topo.indptr) - 1] (540-543) *)
Definition n_cells (topo : topo_like) : nat :=
  match topo with
  | TNp1 t => length t
  | TNp t => length t
  | TAk t => length t
  | TCsr ptr _ => length ptr - 1
  end.

(** cells_at_nodes, 417-562; scipy's csr container holds the same three arrays *)
Definition cells_at_nodes (topo : topo_like) (f : frmt) (assume_regular : bool)
    (cellIDs : option (list nat)) (return_counts : bool) : call cells_out :=
  match cellIDs, is_dicts f with
  | Some _, false => (topo, Err AssertionError)
  | _, _ =>
    (* 503-509: topology to work on, node ids, argument after the call *)
    let '(topo', prep) :=
      if assume_regular then (topo, Ok (topo, None))
      else match is_regular topo with
           | Err e => (topo, Err e)
           | Ok true => (topo, Ok (topo, None))
           | Ok false => let (t', r) := regularize topo in
                         (t', do ru <- r; Ok (fst ru, Some (snd ru)))
           end in
    (topo',
     do tn <- prep;
     let '(t, nodeIDs) := tn in
     do _ <- guard (match nodeIDs with Some _ => is_dicts f | None => true end) AssertionError;
     do cen <- match t with
               | TNp1 _ => Err TypeError
               | TNp t => cells_at_nodes_reg_np t
               | TAk t => do m <- np_max (concat t); cells_at_nodes_reg_ak t (m + 1)
               | TCsr ptr data => cells_at_nodes_reg_csr ptr data
               end;
     let '(counts, ereg, nreg) := cen in
     let oc := if return_counts then Some counts else None in
     match f with
     | FCsr | FScipyCsr =>
         do sp <- nodal_cell_data_to_spdata counts ereg nreg;
         let '(data, indices, ptr, shape) := sp in
         Ok (OCsr oc data indices ptr shape)
     | FDicts =>
         let cids := match cellIDs with Some c => c | None => seq 0 (n_cells t) end in
         let nids := match nodeIDs with Some n => n | None => seq 0 (length counts) end in
         do en <- nodal_cell_data_to_dicts counts ereg nreg cids nids;
         Ok (ODicts oc (fst en) (snd en))
     | FJagged =>
         do sp <- nodal_cell_data_to_spdata counts ereg nreg;
         let '(data, indices, ptr, shape) := sp in
         Ok (OJagged oc (split_by counts indices) (split_by counts data))
     | FNone | FOther => Ok (ORaw counts ereg nreg)
     end)
  end.

(** ** Nodal adjacency (565-626, 786-845) *)

(** _nodal_adjacency_as_dol_np_, 565-571 *)
Definition nodal_adjacency_as_dol_np (topo : list (list nat)) (ereg : dict (list nat))
  : res (dict (list nat)) :=
  foldM (fun d ke => do rows <- take topo (snd ke); Ok (dset d (fst ke) (np_unique (concat rows))))
        ereg [].

(** _subtopo_1d_, 574-587 *)
Definition subtopo_1d (topo1d cuts inds ptr : list nat) : res (list nat) :=
  do w <- take cuts inds;
  let nN := np_sum w in
  let subptr := indptr w in
  do rows <- mapM (fun i => do lo <- get ptr i; do hi <- get ptr (S i); Ok (slice topo1d lo hi)) inds;
  scatter 0 nN subptr rows.

(** _nodal_adjacency_as_dol_ak_, 590-599 *)
Definition nodal_adjacency_as_dol_ak (topo1d cuts : list nat) (ereg : dict (list nat))
  : res (dict (list nat)) :=
  let ptr := indptr cuts in
  foldM (fun d ke => do s <- subtopo_1d topo1d cuts (snd ke) ptr;
                     Ok (dset d (fst ke) (np_unique s))) ereg [].

(** dol_to_jagged_data, 602-626 (dol_keys lists the keys in insertion order) *)
Definition dol_to_jagged_data (dol : dict (list nat)) : res (list nat * list nat) :=
  let keys := dkeys dol in
  do rows <- mapM (dget dol) keys;
  let widths := map (@length nat) rows in
  do data1d <- scatter 0 (np_sum widths) (indptr widths) rows;
  Ok (widths, data1d).

(** formats of nodal_adjacency; [ANx]: 'nx', 'csr' and 'scipy-csr', which convert the
    dictionary by networkx (not modelled further); [AOther]: None and other strings *)
Inductive adj_frmt := AFJagged | AFNx | AFOther.
Inductive adj_out :=
| ADol (d : dict (list nat))
| AJagged (rows : list (list nat))
| ANx (d : dict (list nat)).

(** nodal_adjacency, 786-845; [hasnx] is [config.__hasnx__].  For a csr_matrix the
    name [dol] stays unbound (820-824; UnboundLocalError, a NameError). *)
Definition nodal_adjacency (hasnx : bool) (topo : topo_like) (f : adj_frmt) (assume_regular : bool)
  : call adj_out :=
  let (topo', r) := cells_at_nodes topo FDicts assume_regular None false in
  (topo',
   do out <- r;
   match out with
   | ODicts _ ereg _ =>
       do dol <- match topo with
                 | TNp t => do d <- nodal_adjacency_as_dol_np t ereg; Ok (Some d)
                 | TNp1 t => Err TypeError
                 | TAk t => do d <- nodal_adjacency_as_dol_ak (concat t) (map (@length nat) t) ereg;
                            Ok (Some d)
                 | TCsr _ _ => Ok None
                 end;
       do _ <- guard (hasnx || match f with AFJagged => true | _ => false end)%bool ImportError;
       match dol with
       | None => Err NameError
       | Some d =>
           match f with
           | AFNx => Ok (ANx d)
           | AFJagged => do wd <- dol_to_jagged_data d; Ok (AJagged (split_by (fst wd) (snd wd)))
           | AFOther => Ok (ADol d)
           end
       end
   | _ => Err RuntimeError
   end).

(** ** Detaching (629-717).  Coordinates are rows of any type [A]. *)

(** detach_mesh_bulk, 694-703 *)
Definition detach_mesh_bulk {A} (coords : list A) (topo : list (list nat))
  : res (list A * list (list nat)) :=
  let inds := np_unique (concat topo) in
  do c <- take coords inds;
  do t <- remap_topo topo (MDict (inds_to_invmap_as_dict inds));
  Ok (c, t).

(** detach_mesh_data_bulk, 706-717 *)
Definition detach_mesh_data_bulk {A B} (coords : list A) (topo : list (list nat)) (data : list B)
  : res (list A * list B * list (list nat)) :=
  let inds := np_unique (concat topo) in
  do c <- take coords inds;
  do d <- take data inds;
  do t <- remap_topo topo (MDict (inds_to_invmap_as_dict inds));
  Ok (c, d, t).

(** detach_mesh_jagged, 679-691 *)
Definition detach_mesh_jagged {A} (coords : list A) (topo : list (list nat))
  : res (list A * list (list nat)) :=
  let inds := np_unique (concat topo) in
  let cuts := map (@length nat) topo in
  let imap := inds_to_invmap_as_dict inds in
  do t1 <- remap_topo_1d (concat topo) (MDict imap);
  do c <- take coords inds;
  Ok (c, split_by cuts t1).

(** detach, 629-676: [pc_inds] are the global ids carried by a PointCloud
    argument, [inds] the optional argument *)
Definition detach {A} (coords : list A) (pc_inds : option (list nat)) (topo : topo_like)
    (inds : option (list nat)) : res (list A * topo_like) :=
  let inds := match inds with Some i => Some i | None => pc_inds end in
  match topo with
  | TCsr _ _ => Err TypeError
  | _ =>
    do topo <- match inds with
               | Some i => rewire topo (MArr i) true
               | None => Ok topo
               end;
    match topo with
    | TNp t => do ct <- detach_mesh_bulk coords t; Ok (fst ct, TNp (snd ct))
    | TAk t => do ct <- detach_mesh_jagged coords t; Ok (fst ct, TAk (snd ct))
    | _ => Err TypeError
    end
  end.

(** ** Unique edges / faces (848-906) *)

(** unique_topo_data, 848-906, for a 3d numpy array (nE x nD x nN) *)
Definition unique_topo_data (topo3d : list (list (list nat)))
  : res (list (list nat) * list (list nat)) :=
  let rows := map np_sort (concat topo3d) in
  do ui <- unique_inverse lex_cmp rows;
  Ok (fst ui, split_by (map (@length (list nat)) topo3d) (snd ui)).
