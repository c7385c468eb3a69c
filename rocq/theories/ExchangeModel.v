(** * Model of the exchange of data: meshes of other packages, lists and tables, the registry of cell types

    Definitions only.  src/polymesh/polydata.py from_meshio, from_pv and to_lists, src/polymesh/akwrap.py,
    src/polymesh/abcdata.py.  The names of cell types, of fields and of classes are represented by numbers: only
    their equality matters.  Coordinates are floating point numbers (from_meshio does not convert integers, see C55). *)
From Coq Require Import Reals.
From Verif Require Export SpaceModel.

(** ** Meshes of other packages *)

(** the class that stands for a cell type: an identification and its attribute [NDIM] (1, 2 or 3 for all classes in the registry) *)
Record cellclass := Class { cname : nat; cndim : nat }.
(** the block of cells made by [celltype(topo=.., frames=..)]: the class, the nodes, the axes of each cell *)
Record cellblock := CellBlock { bclass : cellclass; btopo : list (list nat); bframes : list (list (list R)) }.
(** the mesh that is built: the points, and the blocks under their keys (the dictionary of the package [linkeddeepdict], taken to
    behave like the builtin one: assigning to a key that exists replaces the value).  Not modelled: the numbers of points and cells. *)
Record imported := Imported { ipoints : list (list R); iblocks : dict cellblock }.

(** polydata.py 535-540 and 593-599: the frames of a block.  A class with another [NDIM] leaves the variable unbound (for the first
    block; later ones would get the frames of the block before, which is not modelled). *)
Definition import_frames (coords : list (list R)) (c : cellclass) (topo : list (list nat)) : res (list (list (list R))) :=
  match cndim c with
  | 1 => frames_of_lines coords (Lines topo) RefNone
  | 2 => frames_of_surfaces Floating coords topo
  | 3 => Ok [ijk]
  | _ => Err NameError
  end.
(** celldata.py CellData.frames (the setter), 380-400: a single frame is repeated *)
Definition set_frames (topo : list (list nat)) (frames : list (list (list R))) : res (list (list (list R))) :=
  match frames with
  | [fr] => Ok (repeat fr (length topo))
  | _ => do _ <- guard (Nat.eqb (length frames) (length topo)) AssertionError; Ok frames
  end.
(** polydata.py 534-543 and 592-602: the block for a supported type *)
Definition import_block (coords : list (list R)) (c : cellclass) (topo : list (list nat)) : res cellblock :=
  do frames <- import_frames coords c topo; do frames <- set_frames topo frames; Ok (CellBlock c topo frames).
(** polydata.py from_meshio, 518-550.  [registry]: [meshio_to_celltype]; [cells]: type and data of the cell blocks, in order. *)
Definition from_meshio (registry : dict cellclass) (coords : list (list R)) (cells : list (nat * list (list nat))) : res imported :=
  do blocks <- foldM (fun (bs : dict cellblock) cb =>
                        match dget registry (fst cb) with
                        | Ok c => do b <- import_block coords c (snd cb); Ok (dset bs (fst cb) b)
                        | Err _ => Ok bs
                        end) cells [];
  Ok (Imported coords blocks).
(** polydata.py from_pv, 553-609, for objects with a dictionary of cells [cells_dict] (575-604).  [registry]: [vtk_to_celltype].
    A dictionary has each key once. *)
Definition from_pv (registry : dict cellclass) (coords : list (list R)) (cells : dict (list (list nat))) : res imported :=
  do blocks <- foldM (fun (bs : dict cellblock) cb =>
                        match dget registry (fst cb) with
                        | Ok c => do b <- import_block coords c (snd cb); Ok (dset bs (fst cb) b)
                        | Err _ => Err NotImplementedError
                        end) cells [];
  Ok (Imported coords blocks).

(** ** Lists of records *)
Section Tables.
(** the values of the fields *)
Context {V : Type}.
(** a database (an awkward array of records): the fields, each with a column.  The columns have the same length. *)
Definition table := dict (list V).
(** a record *)
Definition record := list (nat * V).
(** [db.to_list()], polydata.py 738, 743 and akwrap.py 207: the records one after the other *)
Definition to_records (d : table) : res (list record) :=
  match d with
  | [] => Ok []
  | (_, c) :: _ => mapM (fun i => mapM (fun kc => do v <- get (snd kc) i; Ok (fst kc, v)) d) (seq 0 (length c))
  end.
(** polydata.py 729-736, 755-762 and akwrap.py 201-206, 176-181: the columns of the given fields *)
Definition pick (d : table) (fields : list nat) : res table :=
  foldM (fun s f => do c <- dget d f; Ok (dset s f c)) fields [].
(** [AkWrapper(fields=db).db.to_list()], polydata.py 737-738, 763-764: without fields nothing is wrapped (akwrap.py 26) *)
Definition wrapped_records (d : table) : res (list record) :=
  match d with [] => Err AttributeError | _ => to_records d end.
(** the inner functions [foo], polydata.py 727-743 and 753-769 *)
Definition block_records (fields : option (list nat)) (d : table) : res (list record) :=
  match fields with
  | Some fs => do s <- pick d fs; wrapped_records s
  | None => to_records d
  end.
(** [functools.reduce(lambda a, b: a + b, l)], polydata.py 746, 772: TypeError for an empty list *)
Definition reduce_app {A} (l : list (list A)) : res (list A) :=
  match l with [] => Err TypeError | x :: r => Ok (fold_left (@app A) r x) end.
(** polydata.py to_lists, 698-774.  [pts], [cls]: the databases of the blocks with points and of the blocks with cells, in the order
    of [pointblocks] and [cellblocks]. *)
Definition to_lists (pts cls : list table) (point_fields cell_fields : option (list nat)) : res (list record * list record) :=
  do lp <- mapM (block_records point_fields) pts; do lp <- reduce_app lp;
  do lc <- mapM (block_records cell_fields) cls; do lc <- reduce_app lc;
  Ok (lp, lc).

(** ** Wrapped databases *)

(** the argument [fields]: absent, a list, or a tuple (which has no method [extend]) *)
Inductive given := Absent | GivenList (l : list nat) | GivenTuple (l : list nat).
(** akwrap.py to_dict, 153-181: the result, and what the object given as [fields] contains afterwards *)
Definition to_dict (d : table) (args : list nat) (fields : given) : res table * given :=
  match fields with
  | Absent => ((if Nat.eqb (length args) 0 then pick d (dkeys d) else pick d args), Absent)
  | GivenList l => ((if Nat.eqb (length (l ++ args)) 0 then pick d (dkeys d) else pick d (l ++ args)), GivenList (l ++ args))
  | GivenTuple l => (Err AttributeError, GivenTuple l)
  end.
(** akwrap.py to_list, 183-211.  Line 207 calls the method of a wrapper that wraps nothing if there are no fields. *)
Definition to_list (d : table) (args : list nat) (fields : given) : res (list record) * given :=
  match fields with
  | Absent => (match args with [] => to_records d | _ => do s <- pick d args; wrapped_records s end, Absent)
  | GivenList l => ((do s <- pick d (l ++ args); wrapped_records s), GivenList (l ++ args))
  | GivenTuple l => (Err AttributeError, GivenTuple l)
  end.
(** a value of a keyword argument: an array, or something else *)
Inductive keyword := KArray (c : list V) | KOther.
(** akwrap.py AkWrapper.__init__, 20-32, without [wrap]: the columns that are wrapped, and what the dictionary given as [fields]
    contains afterwards.  ([ak.zip] of columns of the same length.) *)
Definition wrapper (fields : option table) (kwargs : dict keyword) : option table * option table :=
  let start := match fields with Some f => f | None => [] end in
  let full := fold_left (fun s kv => match snd kv with KArray c => dset s (fst kv) c | KOther => s end) kwargs start in
  (match full with [] => None | _ => Some full end, match fields with Some _ => Some full | None => None end).
End Tables.

(** ** Classes of data and the registry of cell types *)

(** the attribute [vtkCellType] in the body of a class: absent, [None] or a number *)
Inductive vtkattr := NotSet | SetNone | SetTo (n : nat).
(** a class statement: name, the map of names [_attr_map_] in its body (if any), the names of the bases, [vtkCellType] *)
Record classdef := ClassDef { dname : nat; down : option (dict nat); dbases : list nat; dvtk : vtkattr }.
(** the classes so far: [_attr_map_] and [vtkCellType] of each; the two dictionaries of helpers.py 3-4 *)
Record world := World { wclasses : dict (dict nat * option nat); wvtk : dict nat; wmeshio : dict nat }.
(** [a.update(b)] *)
Definition update (a b : dict nat) : dict nat := fold_left (fun s kv => dset s (fst kv) (snd kv)) b a.
(** [getattr(cls, "vtkCellType", None)], abcdata.py 31: the class, otherwise its bases from left to right (for classes whose bases have
    no common ancestor with that attribute) *)
Definition vtk_of (d : classdef) (bases : list (dict nat * option nat)) : option nat :=
  match dvtk d with
  | SetTo n => Some n
  | SetNone => None
  | NotSet => fold_right (fun (b : dict nat * option nat) r => match snd b with Some n => Some n | None => r end) None bases
  end.
(** abcdata.py ABCMeta_MeshData.__new__, 21-35.  [names]: [vtk_to_meshio_type] of the package meshio.  NameError: a base that is not
    defined. *)
Definition define_class (names : dict nat) (w : world) (d : classdef) : res world :=
  do bases <- mapM (fun b => match dget (wclasses w) b with Ok c => Ok c | Err _ => Err NameError end) (dbases d);
  let attrs := fold_left (fun m (b : dict nat * option nat) => update m (fst b)) bases (match down d with Some m => m | None => [] end) in
  let vtk := vtk_of d bases in
  let classes := dset (wclasses w) (dname d) (attrs, vtk) in
  match vtk with
  | Some n => do name <- dget names n; Ok (World classes (dset (wvtk w) n (dname d)) (dset (wmeshio w) name (dname d)))
  | None => Ok (World classes (wvtk w) (wmeshio w))
  end.
(** a sequence of class statements *)
Definition define_classes (names : dict nat) (ds : list classdef) (w : world) : res world := foldM (define_class names) ds w.
