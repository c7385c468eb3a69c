(** * Model of the points that cells refer to: src/polymesh/polydata.py, celldata.py, pointdata.py, cell.py

    Definitions only.  Objects of the class [PointData] have identities: the heap is the list of the coordinates of all of them, and an object is
    its position in the heap.  A table of cells (class [CellData]) refers to such an object by its attribute [pd], which is not the same as the
    points of the block that is its source.  All frames are the axes of space; the points of a new object are numbered from 0, so the
    renumbering in the constructor of [PolyData] (218-221) changes nothing.  Objects that nothing refers to stay in the heap. *)
From Coq Require Import Reals.
From Verif Require Export FrameModel TopoModel.
Local Open Scope nat_scope.

Definition heap := list (list vec).
(** what the attribute [pd] of cells may be: an object of the class PointData, or (after detach, 1291) of the class PolyData *)
Inductive link := Pts (r : nat) | Mesh.
Record cell := Cell { crows : list (list nat); clink : option link }.
(** class PolyData: the object with the points, the cells, the children *)
Inductive tree := Tree (tpd : option nat) (tcd : option cell) (tsub : list tree).
Definition tpd (t : tree) : option nat := let 'Tree p _ _ := t in p.
Definition tcd (t : tree) : option cell := let 'Tree _ c _ := t in c.
Definition tsub (t : tree) : list tree := let 'Tree _ _ s := t in s.

(** PolyData.source, 833-864: the points of the block, or those of the source of its parent *)
Definition source (up : option nat) (t : tree) : option nat := match tpd t with Some r => Some r | None => up end.
(** PolyData.coords, 1172-1195: the points of the block and of the blocks below it *)
Fixpoint refs (t : tree) : list nat := let 'Tree p _ subs := t in match p with Some r => [r] | None => [] end ++ flat_map refs subs.
Definition coords (h : heap) (t : tree) : res (list vec) := do parts <- mapM (get h) (refs t); Ok (concat parts).
(** PolyCell.source_coords, cell.py 371-379, also in local_coordinates (440-444); [src]: the source of the container.  An object of the class PolyData
    has no attribute [x]. *)
Definition source_coords (h : heap) (src : option tree) (c : cell) : res (list vec) :=
  match clink c with
  | Some (Pts r) => get h r
  | Some Mesh => Err AttributeError
  | None => match src with Some s => coords h s | None => Err AttributeError end
  end.

(** ** New meshes *)

(** PolyData.__init__, 238-292, with coordinates and topology *)
Definition new_mesh (h : heap) (x : list vec) (rows : list (list nat)) : heap * tree :=
  (h ++ [x], Tree (Some (length h)) (Some (Cell rows (Some (Pts (length h))))) []).
(** the same, with coordinates only *)
Definition new_points (h : heap) (x : list vec) : heap * tree := (h ++ [x], Tree (Some (length h)) None []).
(** PolyData.__init__, 203-237, with objects: the cells refer to the points, or if there are none, to nothing (232-236) *)
Definition new_block (pd : option nat) (cd : option (list (list nat))) : tree :=
  Tree pd (option_map (fun rows => Cell rows (option_map Pts pd)) cd) [].
(** PolyData.__join_parent__, 2263-2270: cells that refer to nothing get the points of the source; the blocks below are not visited *)
Definition joined (up : option nat) (b : tree) : res tree :=
  match b with
  | Tree pd (Some (Cell rows None)) subs =>
      match source up b with Some r => Ok (Tree pd (Some (Cell rows (Some (Pts r)))) subs) | None => Err AttributeError end
  | _ => Ok b
  end.
(** [mesh[path][key] = b] *)
Fixpoint join (up : option nat) (t : tree) (path : list nat) (b : tree) : res tree :=
  match t with
  | Tree pd cd subs =>
      match path with
      | [] => do b' <- joined (source up t) b; Ok (Tree pd cd (subs ++ [b']))
      | i :: p => do s <- get subs i; do s' <- join (source up t) s p b; do l <- set subs i s'; Ok (Tree pd cd l)
      end
  end.
(** [del mesh[key]], __leave_parent__, 2272-2277, of a child of the root: what is left, and the block *)
Definition leave (t : tree) (i : nat) : res (tree * tree) :=
  do b <- get (tsub t) i; Ok (Tree (tpd t) (tcd t) (firstn i (tsub t) ++ skipn (S i) (tsub t)), b).
(** [pointdata.x = ..], pointdata.py 207-210, of the points of the root, here as in move (1345-1357), with all of its points *)
Definition move (h : heap) (t : tree) (d : vec) : res heap :=
  match tpd t with
  | Some r => do x <- get h r; set h r (map (fun p => vplus p d) x)
  | None => Err AttributeError
  end.

(** ** Copies *)

(** the heap, and the objects that are already copied (the [memo] of deep copies) with their copies *)
Definition state := (heap * list (nat * nat))%type.
Fixpoint lookup (r : nat) (l : list (nat * nat)) : option nat :=
  match l with [] => None | (a, b) :: t => if Nat.eqb a r then Some b else lookup r t end.
(** [copy(pd)] and [deepcopy(pd, memo)], PointData.__copy__, pointdata.py 117-141 *)
Definition copy_object (deep : bool) (st : state) (r : nat) : res (state * nat) :=
  match (if deep then lookup r (snd st) else None) with
  | Some r' => Ok (st, r')
  | None => do x <- get (fst st) r; Ok ((fst st ++ [x], (r, length (fst st)) :: snd st), length (fst st))
  end.
Definition copy_pd (deep : bool) (st : state) (pd : option nat) : res (state * option nat) :=
  match pd with Some r => do s <- copy_object deep st r; Ok (fst s, Some (snd s)) | None => Ok (st, None) end.
(** CellData.__copy__, celldata.py 141-164 *)
Definition copy_cell (deep : bool) (st : state) (cd : option cell) : res (state * option cell) :=
  match cd with
  | None => Ok (st, None)
  | Some c => match clink c with
              | Some (Pts r) => do s <- copy_object deep st r; Ok (fst s, Some (Cell (crows c) (Some (Pts (snd s)))))
              | l => Ok (st, Some (Cell (crows c) l))
              end
  end.
Section Copies.
  Context {A : Type} (step : state -> A -> res (state * A)).
  Fixpoint thread_copies (st : state) (l : list A) {struct l} : res (state * list A) :=
    match l with
    | [] => Ok (st, [])
    | a :: t => do r <- step st a; do s <- thread_copies (fst r) t; Ok (fst s, snd r :: snd s)
    end.
End Copies.
(** PolyData.__copy__, 329-350: the blocks below are made by the constructor (232-236), and join the copy (2268-2269) *)
Fixpoint copy_child (deep : bool) (up : option nat) (st : state) (t : tree) {struct t} : res (state * tree) :=
  match t with
  | Tree pd cd subs =>
      do p <- copy_pd deep st pd;
      do c <- copy_cell deep (fst p) cd;
      let src := match snd p with Some r => Some r | None => up end in
      do cd' <- match snd c with
                | None => Ok None
                | Some k => match src with Some r => Ok (Some (Cell (crows k) (Some (Pts r)))) | None => Err AttributeError end
                end;
      do l <- thread_copies (copy_child deep src) (fst c) subs;
      Ok (fst l, Tree (snd p) cd' (snd l))
  end.
(** PolyData.__copy__, 297-352; [deep] for [deepcopy] *)
Definition copy_mesh (deep : bool) (h : heap) (t : tree) : res (heap * tree) :=
  match t with
  | Tree pd cd subs =>
      do p <- copy_pd deep (h, []) pd;
      do c <- copy_cell deep (fst p) cd;
      do l <- thread_copies (copy_child deep (snd p)) (fst c) subs;
      Ok (fst (fst l), Tree (snd p) (snd c) (snd l))
  end.

(** ** Renumbering *)

(** PolyData.nummrg, 1307-1319, of a mesh without children: the points are replaced by an object with the used points, the cells are renumbered *)
Definition nummrg (h : heap) (r : nat) (c : cell) : res (heap * tree) :=
  let inds := np_unique (concat (crows c)) in
  do x <- get h r;
  do y <- mapM (get x) inds;
  do rows <- remap_topo (crows c) (MDict (inds_to_invmap_as_dict inds));
  Ok (h ++ [y], Tree (Some (length h)) (Some (Cell rows (clink c))) []).
(** PolyData.to_standard_form, 1091-1130, where each object with points belongs to one block: the points are numbered along the walk, and the cells
    get the numbers of the points of their source ([off] and [n]: the first number and how many there are); they refer to nothing (1126).  A
    single number is no array (MeshModel, new_point_ids). *)
Definition number_points (h : heap) (next : nat) (src : option (nat * nat)) (pd : option nat) : res (nat * option (nat * nat)) :=
  match pd with
  | None => Ok (next, src)
  | Some r => do x <- get h r; do _ <- guard (negb (Nat.eqb (length x) 1)) AssertionError; Ok (next + length x, Some (next, length x))
  end.
Definition renumber (src : option (nat * nat)) (cd : option cell) : res (option cell) :=
  match cd with
  | None => Ok None
  | Some c => match src with
              | Some (off, n) => do rows <- remap_topo (crows c) (MArr (seq off n)); Ok (Some (Cell rows None))
              | None => Err AttributeError
              end
  end.
Section Numbers.
  Context {A : Type} (step : nat -> A -> res (nat * A)).
  Fixpoint thread_numbers (n : nat) (l : list A) {struct l} : res (nat * list A) :=
    match l with
    | [] => Ok (n, [])
    | a :: t => do r <- step n a; do s <- thread_numbers (fst r) t; Ok (fst s, snd r :: snd s)
    end.
End Numbers.
Fixpoint standard (h : heap) (src : option (nat * nat)) (next : nat) (t : tree) {struct t} : res (nat * tree) :=
  match t with
  | Tree pd cd subs =>
      do n <- number_points h next src pd;
      do cd' <- renumber (snd n) cd;
      do l <- thread_numbers (standard h (snd n)) (fst n) subs;
      Ok (fst l, Tree None cd' (snd l))
  end.
Definition to_standard_form (h : heap) (t : tree) : res (heap * tree) :=
  do _ <- guard (match refs t with [] => false | _ => true end) ValueError;
  do x <- coords h t;
  do r <- standard h None 0 t;
  let 'Tree _ cd subs := snd r in Ok (h ++ [x], Tree (Some (length h)) cd subs).
(** PolyData.detach, 1281-1305, without renumbering, of a block whose source has the points [r]: the new mesh has the same object with points;
    its cells refer to the mesh (1291); the cells of the blocks below refer to nothing (1299-1300) until they join *)
Fixpoint detach_child (r : nat) (t : tree) : tree :=
  let 'Tree _ cd subs := t in Tree None (option_map (fun c => Cell (crows c) (Some (Pts r))) cd) (map (detach_child r) subs).
Definition detach (r : nat) (t : tree) : tree :=
  Tree (Some r) (option_map (fun c => Cell (crows c) (Some Mesh)) (tcd t)) (map (detach_child r) (tsub t)).
