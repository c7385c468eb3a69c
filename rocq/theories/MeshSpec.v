(** * Specifications for [MeshModel.v]: where the nodes of the cells are *)
From Coq Require Import Reals ZArith List String.
From Verif Require Export TopoSpec FrameSpec MeshModel.
Import ListNotations.
Local Open Scope R_scope.

(** the frame of a block below one with the frame [up]: its own, that of its points (the standard one by default), or [up] *)
Definition frame_in (up : option frame) (b : block) : option frame :=
  match b with
  | Block (Some f) _ _ _ => Some f
  | Block None (Some p) _ _ => match pframe p with Some f => Some f | None => Some standard end
  | Block None None _ _ => up
  end.
(** The cells of a block and of all blocks below it, each with the frame and the coordinates of the closest block with points, which is
    the block of the cell or one above it. *)
Fixpoint cells_in (up : option frame) (src : option (frame * list vec)) (b : block) : list (option (frame * list vec) * list nat) :=
  let 'Block f pd cd subs := b in
  let here := frame_in up b in
  let src := match pd, here with Some p, Some g => Some (g, px p) | _, _ => src end in
  (match cd with Some k => map (fun r => (src, r)) (nodes k) | None => [] end) ++ flat_map (cells_in here src) subs.
(** node [n] of these points is at the place [q] *)
Definition node_at (src : option (frame * list vec)) (n : nat) (q : vec) : Prop :=
  match src with Some (f, xs) => exists x, nth_error xs n = Some x /\ placed_at f x q | None => False end.
(** The places of the nodes of all cells of a mesh.  There are such places only if every cell has points above it that include its nodes. *)
Definition mesh_at (m : block) (ps : list (list vec)) : Prop :=
  Forall2 (fun c qs => Forall2 (node_at (fst c)) (snd c) qs) (cells_in None None m) ps.

(** all points and all cells of a mesh *)
Fixpoint arrays (b : block) : list points :=
  let 'Block _ pd _ subs := b in (match pd with Some p => [p] | None => [] end) ++ flat_map arrays subs.
Fixpoint cell_arrays (b : block) : list cells :=
  let 'Block _ _ cd subs := b in (match cd with Some k => [k] | None => [] end) ++ flat_map cell_arrays subs.
(** all points, with their frames *)
Fixpoint framed (up : option frame) (b : block) : list (option frame * points) :=
  let 'Block _ pd _ subs := b in
  (match pd with Some p => [(frame_in up b, p)] | None => [] end) ++ flat_map (framed (frame_in up b)) subs.
(** the rows of a field, with the default value where it is missing *)
Definition field_rows (d : string -> value) (s : string) (n : nat) (fs : fields) : list (list value) :=
  match find_field s fs with Some f => rows f | None => repeat [d s] n end.
(** the arrays of each field can be joined: all have the same width, and if one is missing this is a single number *)
Definition joinable (fs : list fields) : Prop :=
  forall s, exists w, Forall (fun l => match find_field s l with Some f => width f = w | None => w = None end) fs.
(** some table has the field *)
Definition some_has (s : string) (fs : list fields) : Prop := Exists (fun l => find_field s l <> None) fs.

(** the second mesh has the blocks of the first one, with as many cells each, whose fields are kept; fields of other blocks are added with
    the default value *)
Definition cells_kept (dc : string -> value) (all : list fields) (k k' : cells) : Prop :=
  length (nodes k') = length (nodes k) /\
  (forall s f, find_field s (cfields k) = Some f -> find_field s (cfields k') = Some f) /\
  forall s, find_field s (cfields k) = None -> some_has s all -> find_field s (cfields k') = Some (Field None (repeat [dc s] (length (nodes k)))).
Inductive blocks_kept (dc : string -> value) (all : list fields) : block -> block -> Prop :=
| BlocksKept f pd cd subs pd' cd' subs' :
    match cd, cd' with Some k, Some k' => cells_kept dc all k k' | None, None => True | _, _ => False end ->
    Forall2 (blocks_kept dc all) subs subs' ->
    blocks_kept dc all (Block f pd cd subs) (Block f pd' cd' subs').

(** the places of all points of a mesh, in the order of the blocks *)
Definition points_at (m : block) (qs : list vec) : Prop :=
  Forall2 (fun fx q => match fst fx with Some f => placed_at f (snd fx) q | None => False end)
          (flat_map (fun fp => map (fun x => (fst fp, x)) (px (snd fp))) (framed None m)) qs.
(** the frame of the root *)
Definition root_frame (m : block) : frame := match bframe m with Some f => f | None => standard end.
(** Coordinates can be given in the frame [g]: its axes are orthonormal, and it is at the origin, or all points are in frames with an
    origin (C88). *)
Definition receives (g : frame) (m : block) : Prop :=
  orthonormal (axes g) /\
  ((exists a, g = Plain a \/ g = Cartesian a (0, 0, 0)) \/ Forall (fun fp => exists a o, fst fp = Some (Cartesian a o)) (framed None m)).
(** [m'] is a standard form of [m]: one array of points at the root, points and cells numbered consecutively in the order of the blocks,
    the blocks with their cells and all fields *)
Definition standard_form (dp dc : string -> value) (m m' : block) : Prop :=
  exists pd, bpd m' = Some pd /\ arrays m' = [pd] /\ pid pd = seq 0 (length (px pd)) /\ length (px pd) = list_sum (map (fun p => length (px p)) (arrays m)) /\
    concat (map cid (cell_arrays m')) = seq 0 (length (concat (map nodes (cell_arrays m)))) /\
    blocks_kept dc (map cfields (cell_arrays m)) m m' /\
    forall s, (some_has s (map pfields (arrays m)) -> exists f, find_field s (pfields pd) = Some f /\
                 rows f = concat (map (fun p => field_rows dp s (length (px p)) (pfields p)) (arrays m))) /\
              (~ some_has s (map pfields (arrays m)) -> find_field s (pfields pd) = None).

(** The block reached from [b] by a path (the positions of the children), with the frame of its parent and the closest points above it. *)
Definition source_in (up : option frame) (src : option (frame * list vec)) (b : block) : option (frame * list vec) :=
  match bpd b, frame_in up b with Some p, Some g => Some (g, px p) | _, _ => src end.
Fixpoint under (up : option frame) (src : option (frame * list vec)) (b : block) (path : list nat) : option (option frame * option (frame * list vec) * block) :=
  match path with
  | [] => Some (up, src, b)
  | i :: t => match nth_error (bsub b) i with Some s => under (frame_in up b) (source_in up src b) s t | None => None end
  end.
(** the frame of the points of a block: their own, that of the block, or the standard one *)
Definition own_frame (b : block) (p : points) : frame :=
  match pframe p, bframe b with Some f, _ => f | None, Some f => f | None, None => standard end.
(** the places of the nodes of the cells of this block and of those below it *)
Definition part_at (m : block) (path : list nat) (ps : list (list vec)) : Prop :=
  exists up src b, under None None m path = Some (up, src, b) /\
    Forall2 (fun c qs => Forall2 (node_at (fst c)) (snd c) qs) (cells_in up src b) ps.

(** the frame is at the origin *)
Definition centred (f : frame) : Prop := exists a, f = Plain a \/ f = Cartesian a (0, 0, 0).
(** two tables of points, and two of cells, agree but for frames and indices *)
Definition same_points (p p' : points) : Prop := px p' = px p /\ pact p' = pact p /\ pfields p' = pfields p.
Definition same_cells (k k' : cells) : Prop := nodes k' = nodes k /\ cfields k' = cfields k.
(** the nodes of the cells of a block and of those below it, each once, in increasing order *)
Definition nodes_used (b : block) (ns : list nat) : Prop := used_list (concat (map nodes (cell_arrays b))) ns.
(** no block with cells has another one below it *)
Fixpoint cells_apart (b : block) : Prop :=
  let 'Block _ _ cd subs := b in
  match cd with Some _ => flat_map cell_arrays subs = [] | None => fold_right (fun s P => cells_apart s /\ P) True subs end.
(** every field of a table of points has one row for each point *)
Definition complete (p : points) : Prop :=
  length (pact p) = length (px p) /\ Forall (fun sf => length (rows (snd sf)) = length (px p)) (pfields p).
(** the second table has the given rows of the first one *)
Definition rows_taken {A} (ns : list nat) (l l' : list A) : Prop := Forall2 (fun n x => nth_error l n = Some x) ns l'.
Definition points_taken (ns : list nat) (p p' : points) : Prop :=
  rows_taken ns (px p) (px p') /\ rows_taken ns (pact p) (pact p') /\
  Forall2 (fun sf sf' => fst sf' = fst sf /\ width (snd sf') = width (snd sf) /\ rows_taken ns (rows (snd sf)) (rows (snd sf'))) (pfields p) (pfields p').
(** [m'] is [m] with the cells of one block, and of those below it, moved by [d] *)
Definition part_moved (m : block) (path : list nat) (d : vec) (m' : block) : Prop :=
  forall ps, mesh_at m ps -> exists a q q' z, ps = a ++ q ++ z /\ part_at m path q /\ Forall2 (Forall2 (displaced d)) q q' /\ mesh_at m' (a ++ q' ++ z).
(** the vector with the given components in the frame [f], or in [g] if no frame is given *)
Definition motion (g : frame) (f : option frame) (w : vec) : vec := direction (axes (match f with Some h => h | None => g end)) w.
(** [sp] is the path of the closest block with points: a beginning of [path], and the blocks between have none *)
Definition points_on (m : block) (path : list nat) : Prop := exists u s b p, under None None m path = Some (u, s, b) /\ bpd b = Some p.
Definition closest (m : block) (path sp : list nat) : Prop :=
  exists t, path = sp ++ t /\ points_on m sp /\ forall i, (0 < i <= length t)%nat -> ~ points_on m (sp ++ firstn i t).
(** all points of the mesh belong to the root, which has the frame [T] *)
Definition rooted (m : block) (p : points) (T : frame) : Prop := bpd m = Some p /\ arrays m = [p] /\ frame_in None m = Some T.
