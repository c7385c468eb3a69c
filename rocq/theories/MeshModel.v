(** * Model of meshes with several blocks: src/polymesh/polydata.py and src/polymesh/pointdata.py

    Definitions only.  A mesh is a tree of blocks (class [PolyData]); the dictionaries that hold the children are those of the package
    [linkeddeepdict], which is not part of the repository: [containers], used in [blocks] (866-890), is modelled as the walk through the tree
    that visits a block before its children, and these in their order.  Frames and point clouds are those of FrameModel.  Tables of the package
    [awkward] are lists of fields with one row for every point or cell. *)
From Coq Require Import Reals ZArith String.
From Verif Require Export FrameModel TopoModel.
Local Open Scope R_scope.

(** a number of a field, or not a number *)
Definition value := option R.
(** a field: an array with one axis ([width] is [None], rows with one entry) or with two *)
Record field := Field { width : option nat; rows : list (list value) }.
Definition fields := list (string * field).
(** class PointData, pointdata.py 45-112: coordinates, frame, indices, activity and other fields *)
Record points := Points { px : list vec; pframe : option frame; pid : list nat; pact : list bool; pfields : fields }.
(** class CellData: node indices, indices of the cells, other fields *)
Record cells := Cells { nodes : list (list nat); cid : list nat; cfields : fields }.
(** class PolyData, polydata.py 172-292: the attribute [_frame], points, cells, children *)
Inductive block := Block (bframe : option frame) (bpd : option points) (bcd : option cells) (bsub : list block).
Definition bframe (b : block) : option frame := let 'Block f _ _ _ := b in f.
Definition bpd (b : block) : option points := let 'Block _ p _ _ := b in p.
Definition bcd (b : block) : option cells := let 'Block _ _ c _ := b in c.
Definition bsub (b : block) : list block := let 'Block _ _ _ s := b in s.

(** the default frame, [CartesianFrame(dim=3)] *)
Definition default_frame : frame := Cartesian meye vzero.
(** PointData.__init__, pointdata.py 64-109, for coordinates in space given as [coords=]; [fs]: the argument [fields] *)
Definition new_points (x : list vec) (f : option frame) (ids : list nat) (act : option (list bool)) (fs : fields) : points :=
  Points (show (new_cloud x f None) None) (Some (match f with Some g => g | None => default_frame end)) ids
         (match act with Some a => a | None => map (fun _ => true) x end) fs.
(** PointData.frame, pointdata.py 179-192, of the points of a block with the given [_frame] *)
Definition points_frame (own : option frame) (p : points) : frame :=
  match pframe p with Some f => f | None => match own with Some f => f | None => default_frame end end.
(** PolyData.frame, 958-973; [up]: the frame of the parent, if there is one *)
Definition block_frame (up : option frame) (b : block) : option frame :=
  match bframe b with
  | Some f => Some f
  | None => match bpd b with Some p => Some (points_frame None p) | None => up end
  end.

(** What a block knows of its ancestors: its frame (958-973), and its source (833-864): the closest block with points, its frame and
    its points *)
Record ctx := Ctx { frame_here : option frame; source_here : option (frame * points) }.
Definition top : ctx := Ctx None None.
Definition enter (c : ctx) (b : block) : ctx :=
  let f := block_frame (frame_here c) b in
  Ctx f (match bpd b, f with Some p, Some g => Some (g, p) | _, _ => source_here c end).
(** PolyData.blocks(inclusive=True), 866-890, with what each block knows *)
Fixpoint walk (c : ctx) (b : block) : list (ctx * block) :=
  (enter c b, b) :: concat (map (walk (enter c b)) (bsub b)).
(** pointblocks and cellblocks, 892-924 *)
Definition pointblocks (w : list (ctx * block)) : list (ctx * points) :=
  flat_map (fun cb => match bpd (snd cb) with Some p => [(fst cb, p)] | None => [] end) w.
Definition cellblocks (w : list (ctx * block)) : list (ctx * cells) :=
  flat_map (fun cb => match bcd (snd cb) with Some k => [(fst cb, k)] | None => [] end) w.

(** ** Points and coordinates *)

(** the frame of a block, AttributeError if there is none (971) *)
Definition the_frame (c : ctx) : res frame := match frame_here c with Some f => Ok f | None => Err AttributeError end.
(** PolyData.points, 1131-1170, with from_cells=False, of the block [b] below the ancestors [c] *)
Definition points_of (c : ctx) (b : block) : res cloud :=
  do target <- the_frame (enter c b);
  let pbs := pointblocks (walk c b) in
  do parts <- mapM (fun cp => do fr <- the_frame (fst cp); Ok (map (fun p => vshow (Some fr) p (Some target)) (px (snd cp)))) pbs;
  match parts with
  | [] => Err ValueError
  | _ => Ok (new_cloud (concat parts) (Some target) (Some (map Z.of_nat (concat (map (fun cp => pid (snd cp)) pbs)))))
  end.
(** PolyData.coords, 1172-1195 *)
Definition coords_of (c : ctx) (b : block) (target : option frame) : res (list vec) := do pc <- points_of c b; Ok (show pc target).
(** PolyData.topology, 1231-1268: the rows of all blocks (an array if all have the same width, else a jagged one) *)
Definition topology_of (c : ctx) (b : block) : list (list nat) := concat (map (fun ck => nodes (snd ck)) (cellblocks (walk c b))).

(** ** Standard form *)

(** a loop over the children of a block that counts *)
Section Thread.
  Context {A B : Type} (step : nat -> A -> res (nat * B)).
  Fixpoint thread (n : nat) (l : list A) {struct l} : res (nat * list B) :=
    match l with
    | [] => Ok (n, [])
    | a :: t => do r <- step n a; do s <- thread (fst r) t; Ok (fst s, snd r :: snd s)
    end.
End Thread.

(** IndexManager.generate_np, 2293-2297, of a new manager that has given away [next] numbers, and the setter of PointData.id, pointdata.py
    216-219: a single number is no array *)
Definition new_point_ids (next n : nat) : res (list nat) := if Nat.eqb n 1 then Err AssertionError else Ok (seq next n).
(** PolyData.to_standard_form, 1091-1101: the blocks with points get new indices and coordinates in the frame of the root *)
Fixpoint number (target : option frame) (up : option frame) (next : nat) (b : block) {struct b} : res (nat * block) :=
  match b with
  | Block f pd cd subs =>
      let here := block_frame up b in
      do r <- match pd with
              | None => Ok (next, None)
              | Some p =>
                  do ids <- new_point_ids next (length (px p));
                  let x := show (new_cloud (px p) here None) target in
                  Ok ((next + length (px p))%nat, Some (Points x (pframe p) ids (pact p) (pfields p)))
              end;
      do s <- thread (number target here) (fst r) subs;
      Ok (fst s, Block f (snd r) cd (snd s))
  end.
(** the names of the fields of several tables, each once ([set(np.concatenate(..))], 1088 and 1117; the order is arbitrary) *)
Definition has (s : string) (l : list string) : bool := existsb (String.eqb s) l.
Fixpoint once (l : list string) : list string := match l with [] => [] | s :: t => if has s t then once t else s :: once t end.
Fixpoint find_field (s : string) (fs : fields) : option field :=
  match fs with [] => None | (k, f) :: t => if String.eqb k s then Some f else find_field s t end.
(** [np.concatenate] of the arrays of one field: all of them have the same number of axes and the same width *)
Definition same_width (a b : option nat) : bool :=
  match a, b with Some n, Some m => Nat.eqb n m | None, None => true | _, _ => false end.
Definition concat_fields (l : list field) : res field :=
  match l with
  | [] => Err ValueError
  | f :: t => if forallb (fun g => same_width (width f) (width g)) t then Ok (Field (width f) (concat (map rows l))) else Err ValueError
  end.
(** a missing field, 1099-1101 and 1124-1125: [np.full(len, default)] *)
Definition fill_field (defaults : string -> value) (n : nat) (s : string) (fs : fields) : field :=
  match find_field s fs with Some f => f | None => Field None (repeat [defaults s] n) end.
(** the merged fields, 1092-1104 *)
Definition merge_fields (defaults : string -> value) (ps : list points) : res fields :=
  let names := once (concat (map (fun p => map fst (pfields p)) ps)) in
  mapM (fun s => do f <- concat_fields (map (fun p => fill_field defaults (length (px p)) s (pfields p)) ps); Ok (s, f)) names.
(** 1118-1126: the cells refer to the merged points (rewire: polydata.py 1031-1036, cell.py 485-490); new numbers; missing fields *)
Fixpoint wire (defaults : string -> value) (names : list string) (src : option (list nat)) (next : nat) (b : block) {struct b} : res (nat * block) :=
  match b with
  | Block f pd cd subs =>
      let src := match pd with Some p => Some (pid p) | None => src end in
      do r <- match cd with
              | None => Ok (next, None)
              | Some k =>
                  do imap <- match src with Some i => Ok i | None => Err AttributeError end;
                  do t <- remap_topo (nodes k) (MArr imap);
                  Ok ((next + length (nodes k))%nat,
                      Some (Cells t (seq next (length (nodes k)))
                                  (cfields k ++ map (fun s => (s, Field None (repeat [defaults s] (length (nodes k)))))
                                                    (filter (fun s => negb (has s (map fst (cfields k)))) names))))
              end;
      do s <- thread (wire defaults names src) (fst r) subs;
      Ok (fst s, Block f pd (snd r) (snd s))
  end.
(** 1128-1130: the points of the other blocks are dropped *)
Fixpoint drop_points (b : block) : block := let 'Block f _ cd subs := b in Block f None cd (map drop_points subs).
(** PolyData.to_standard_form, 1047-1130, of a root, in place *)
Definition to_standard_form (dp dc : string -> value) (b : block) : res block :=
  do r <- number (bframe b) None 0 b;
  let b1 := snd r in
  let ps := map snd (pointblocks (walk top b1)) in
  do _ <- guard (match ps with [] => false | _ => true end) ValueError;
  do fs <- merge_fields dp ps;
  let pd := new_points (concat (map px ps)) (bframe b) (concat (map pid ps)) None fs in
  let b2 := Block (bframe b1) (Some pd) (bcd b1) (bsub b1) in
  let ks := map snd (cellblocks (walk top b2)) in
  do _ <- guard (match ks with [] => false | _ => true end) ValueError;
  let names := once (concat (map (fun k => map fst (cfields k)) ks)) in
  do r <- wire dc names None 0 b2;
  let 'Block f pd cd subs := snd r in Ok (Block f pd cd (map drop_points subs)).

(** ** Copies *)

(** the frame of a copy, polydata.py 305-311 and 338-342: made of the axes; that of points keeps the class, pointdata.py 122-131 *)
Definition copy_axes (f : frame) : frame := Cartesian (axes f) vzero.
Definition copy_axes_same (f : frame) : frame := match f with Plain a => Plain a | Cartesian a _ => Cartesian a vzero end.
(** PointData.__copy__, pointdata.py 117-141; [own]: the [_frame] of the container *)
Definition copy_points (own : option frame) (p : points) : points :=
  Points (px p) (Some (copy_axes_same (points_frame own p))) (pid p) (pact p) (pfields p).
(** PolyData.__copy__, 297-351.  The children: for a block with points the constructor rewires the cells from the indices of the points
    (218-221) and gives new indices to the points; the cells get new numbers from the new root (2266-2267), which has given away [next]. *)
Fixpoint copy_child (up : option frame) (next : nat) (b : block) {struct b} : res (nat * block) :=
  match b with
  | Block f pd cd subs =>
      let here := block_frame up b in
      do r <- match cd with
              | None => Ok (next, None)
              | Some k =>
                  do t <- match pd with Some p => remap_topo (nodes k) (MDict (inds_to_invmap_as_dict (pid p))) | None => Ok (nodes k) end;
                  Ok ((next + length (nodes k))%nat, Some (Cells t (seq next (length (nodes k))) (cfields k)))
              end;
      let pd' := match pd with
                 | Some p => Some (Points (px p) (Some (copy_axes_same (points_frame f p))) (seq 0 (length (px p))) (pact p) (pfields p))
                 | None => None
                 end in
      let f' := match pd with Some _ => option_map copy_axes here | None => None end in
      do s <- thread (copy_child here) (fst r) subs;
      Ok (fst s, Block f' pd' (snd r) (snd s))
  end.
Definition copy_mesh (b : block) : res block :=
  do f <- the_frame (enter top b);
  do s <- thread (copy_child (Some f)) 0%nat (bsub b);
  Ok (Block (Some (copy_axes f)) (option_map (copy_points (bframe b)) (bpd b)) (bcd b) (snd s)).
(** to_standard_form with inplace=False, 1077-1078: the default values are not passed on *)
Definition standard_copy (dp dc : string -> value) (b : block) : res block :=
  do c <- copy_mesh b; to_standard_form (fun _ => None) (fun _ => None) c.

(** ** Operations on a block of a mesh

    A block is given by the positions of its ancestors among the children of their parents. *)
Fixpoint block_at (c : ctx) (b : block) (path : list nat) : res (ctx * block) :=
  match path with
  | [] => Ok (c, b)
  | i :: t => do s <- get (bsub b) i; block_at (enter c b) s t
  end.
Fixpoint update_at (b : block) (path : list nat) (f : block -> res block) : res block :=
  match path with
  | [] => f b
  | i :: t => let 'Block fr pd cd subs := b in do s <- get subs i; do s' <- update_at s t f; do l <- set subs i s'; Ok (Block fr pd cd l)
  end.
(** PolyData.source, 833-864: the path to the closest block with points *)
Fixpoint source_path (b : block) (path : list nat) : option (list nat) :=
  match path with
  | [] => match bpd b with Some _ => Some [] | None => None end
  | i :: t =>
      match nth_error (bsub b) i with
      | None => None
      | Some s => match source_path s t with
                  | Some p => Some (i :: p)
                  | None => match bpd b with Some _ => Some [] | None => None end
                  end
      end
  end.
Definition the_source (b : block) (path : list nat) : res (list nat) :=
  match source_path b path with Some p => Ok p | None => Err AttributeError end.
(** the assignment [pointdata.x = ..], pointdata.py 207-210: a column of a table of [awkward] has as many rows as the table, a single row is
    repeated, other lengths are rejected *)
Definition set_x (x : list vec) (b : block) : res block :=
  match b with
  | Block f (Some p) cd subs =>
      let n := length (px p) in
      let x := match x with [y] => repeat y n | _ => x end in
      do _ <- guard (Nat.eqb (length x) n) ValueError;
      Ok (Block f (Some (Points x (pframe p) (pid p) (pact p) (pfields p))) cd subs)
  | Block _ None _ _ => Err AttributeError
  end.
(** PolyData.move, 1345-1357, in place: of a block with points, or of another one *)
Definition mesh_move (m : block) (path : list nat) (v : vectorlike) (f : option frame) : res block :=
  do cb <- block_at top m path;
  match bpd (snd cb) with
  | Some _ =>
      do pc <- points_of (fst cb) (snd cb);
      update_at m path (set_x (array (FrameModel.move pc v f)))
  | None =>
      do sp <- the_source m path;
      do sb <- block_at top m sp;
      let inds := np_unique (concat (topology_of (fst cb) (snd cb))) in
      do pc <- points_of (fst sb) (snd sb);
      do pc <- getitem pc (KList (map Z.of_nat inds));
      update_at m sp (set_x (array (FrameModel.move pc v f)))
  end.
(** PolyData.center, 1526-1548 *)
Definition mesh_center (m : block) (path : list nat) (target : option frame) : res vec :=
  do cb <- block_at top m path;
  match bpd (snd cb) with
  | Some _ => do pc <- points_of (fst cb) (snd cb); FrameModel.center pc target
  | None =>
      do sp <- the_source m path;
      do sb <- block_at top m sp;
      let inds := np_unique (concat (topology_of (fst cb) (snd cb))) in
      do pc <- points_of (fst sb) (snd sb);
      do pc <- getitem pc (KList (map Z.of_nat inds));
      FrameModel.center pc target
  end.
(** PolyData.centers, 1565-1580 (utils/utils.py cell_centers_bulk, 367-383: the average of the nodes of each cell) *)
Definition row_mean (l : list vec) : res vec :=
  do x <- FrameModel.mean (map (fun p => fst (fst p)) l); do y <- FrameModel.mean (map (fun p => snd (fst p)) l); do z <- FrameModel.mean (map snd l); Ok (x, y, z).
Definition mesh_centers (m : block) (path : list nat) (target : option frame) : res (list vec) :=
  do cb <- block_at top m path;
  do sp <- the_source m path;
  do sb <- block_at top m sp;
  do coords <- coords_of (fst sb) (snd sb) None;
  do _ <- guard (match cellblocks (walk (fst cb) (snd cb)) with [] => false | _ => true end) ValueError;
  do cs <- mapM (fun row => do q <- mapM (get coords) row; row_mean q) (topology_of (fst cb) (snd cb));
  match target with
  | None => Ok cs
  | Some t => do fr <- the_frame (enter (fst sb) (snd sb)); Ok (show (new_cloud cs (Some fr) None) (Some t))
  end.
(** PolyData.centralize, 1611-1618 (the argument [axes] is not used) *)
Fixpoint shift_points (v : vec) (b : block) : block :=
  let 'Block f pd cd subs := b in
  Block f (option_map (fun p => Points (map (fun x => vminus x v) (px p)) (pframe p) (pid p) (pact p) (pfields p)) pd) cd (map (shift_points v) subs).
Definition mesh_centralize (m : block) (path : list nat) (target : option frame) (ax : option (list nat)) : res block :=
  do sp <- the_source m path;
  do sb <- block_at top m sp;
  do fr <- the_frame (enter (fst sb) (snd sb));
  do ctr <- mesh_center m path (Some (match target with Some t => t | None => fr end));
  update_at m sp (fun b => Ok (shift_points ctr b)).

(** ** Making meshes, merging numbers, detaching *)

(** PolyData.__init__, 238-290, of a root with coordinates and a topology: points with the given frame *)
Definition new_mesh (x : list vec) (t : list (list nat)) (f : option frame) : block :=
  Block f (Some (new_points x f (seq 0 (length x)) None [])) (Some (Cells t (seq 0 (length t)) [])) [].
(** the selected rows of a table of points, [self.pd[inds]] *)
Definition take_points (p : points) (inds : list nat) : res points :=
  do x <- mapM (get (px p)) inds;
  do i <- mapM (get (pid p)) inds;
  do a <- mapM (get (pact p)) inds;
  do fs <- mapM (fun sf => do r <- mapM (get (rows (snd sf))) inds; Ok (fst sf, Field (width (snd sf)) r)) (pfields p);
  Ok (Points x None i a fs).
(** the loop over the cell blocks in nummrg, 1316-1317: each block is rewired together with all blocks below it (1011-1044, deep=True), so that
    a block is rewired once for itself and once for every block above it that has cells; [d]: the number of these *)
Fixpoint rewire_times (n : nat) (imap : mapping) (t : list (list nat)) : res (list (list nat)) :=
  match n with 0 => Ok t | S k => do t' <- remap_topo t imap; rewire_times k imap t' end%nat.
Section Each.
  Context {A B : Type} (f : A -> res B).
  Fixpoint each (l : list A) : res (list B) := match l with [] => Ok [] | a :: t => do b <- f a; do r <- each t; Ok (b :: r) end.
End Each.
Fixpoint rewire_deep (imap : mapping) (d : nat) (b : block) {struct b} : res block :=
  match b with
  | Block f pd cd subs =>
      let d' := match cd with Some _ => S d | None => d end in
      do cd' <- match cd with Some k => do t <- rewire_times d' imap (nodes k); Ok (Some (Cells t (cid k) (cfields k))) | None => Ok None end;
      do subs' <- each (rewire_deep imap d') subs;
      Ok (Block f pd cd' subs')
  end.
(** PolyData.nummrg, 1307-1319, of a root *)
Definition nummrg (m : block) : res block :=
  match m with
  | Block f (Some p) cd subs =>
      let inds := np_unique (concat (topology_of top m)) in
      do p' <- take_points p inds;
      do m' <- rewire_deep (MDict (inds_to_invmap_as_dict (pid p'))) 0 m;
      Ok (Block f (Some (Points (px p') (pframe p') (seq 0 (length (px p'))) (pact p') (pfields p'))) (bcd m') (bsub m'))
  | Block _ None _ _ => Err TypeError
  end.
(** PolyData.detach, 1278-1305.  The points are those of the source, not a copy (1288): the constructor gives them new indices (222-225), also
    for the mesh they belong to.  Blocks between that have no cells are made anew by the dictionary; those without cells below are left out. *)
Fixpoint bare_copy (b : block) : list block :=
  let 'Block _ _ cd subs := b in
  let subs' := flat_map bare_copy subs in
  match cd, subs' with None, [] => [] | _, _ => [Block None None cd subs'] end.
Definition renew_ids (p : points) : points := Points (px p) (pframe p) (seq 0 (length (px p))) (pact p) (pfields p).
Definition renew_block (b : block) : res block := let 'Block f pd cd subs := b in Ok (Block f (option_map renew_ids pd) cd subs).
(** the mesh afterwards, and the detached mesh *)
Definition detach (m : block) (path : list nat) : res (block * block) :=
  do cb <- block_at top m path;
  do sp <- the_source m path;
  do sb <- block_at top m sp;
  do f <- the_frame (enter (fst sb) (snd sb));
  do m' <- update_at m sp renew_block;
  Ok (m', Block (Some f) (option_map renew_ids (bpd (snd sb))) (bcd (snd cb)) (flat_map bare_copy (bsub (snd cb)))).
