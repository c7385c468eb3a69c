(** * Model of the constructors of databases and meshes, and of what becomes of the dictionaries given to them
    (src/polymesh/celldata.py 71-136, pointdata.py 45-112, polydata.py 172-292, akwrap.py 20-31)

    Definitions only.  A table is a dictionary from names to columns.  Frames have three axes. *)
From Coq Require Import Reals String List.
From Verif Require Import TrModel.
From Verif Require Export FrameModel NodalModel.
Import ListNotations.
Local Open Scope R_scope.
Local Open Scope string_scope.

(** an array: numbers, booleans, node numbers, positions in the plane or in space, matrices (one for every point or cell), numbers of points
    or cells *)
Inductive column := Numbers (l : list R) | Flags (l : list bool) | Nodes (l : list (list nat)) | Plane (l : list (R * R)) | Space (l : list vec)
  | Matrices (l : list mat) | Ids (l : list nat).
Definition clen (c : column) : nat :=
  match c with
  | Numbers l => length l | Flags l => length l | Nodes l => length l | Plane l => length l | Space l => length l | Matrices l => length l
  | Ids l => length l
  end.
Definition table := list (string * column).
(** [d[k]] and [d[k] = v] of a dictionary *)
Fixpoint lookup (d : table) (k : string) : option column :=
  match d with [] => None | (k', v) :: d' => if String.eqb k' k then Some v else lookup d' k end.
Fixpoint store (d : table) (k : string) (v : column) : table :=
  match d with [] => [(k, v)] | (k', v') :: d' => if String.eqb k' k then (k', v) :: d' else (k', v') :: store d' k v end.
(** the value of an argument: an array, or something else *)
Inductive arg := Arr (c : column) | Other.
Definition kwargs := list (string * arg).

(** [for k, v in kwargs.items(): if isinstance(v, np.ndarray): fields[k] = v], akwrap.py 24-26, and the same for arrays of a length,
    celldata.py 108-111, pointdata.py 100-103 *)
Definition add_arrays (keep : nat -> bool) (kw : kwargs) (d : table) : table :=
  fold_left (fun d kv => match snd kv with Arr c => if keep (clen c) then store d (fst kv) c else d | Other => d end) kw d.
(** [ak.zip(fields, depth_limit=1)] of the package awkward: columns of different lengths are a ValueError.  (A column of length one may be
    repeated; no theorem is about it.) *)
Definition zip_columns (d : table) : res table :=
  match d with
  | [] => Ok d
  | (_, c) :: d' => do _ <- guard (forallb (fun kc => Nat.eqb (clen (snd kc)) (clen c)) d') ValueError; Ok d
  end.
(** AkWrapper.__init__, akwrap.py 20-31, without [wrap]: the table that is wrapped, if there are columns, and the dictionary afterwards *)
Definition wrapper_init (fields : table) (kw : kwargs) : res (option table) * table :=
  let d := add_arrays (fun _ => true) kw fields in
  (match d with [] => Ok None | _ => do t <- zip_columns d; Ok (Some t) end, d).
(** [db[k] = v] of a table of awkward: the column has as many rows as the table, otherwise a ValueError *)
Definition set_column (t : table) (k : string) (v : column) : res table :=
  match t with
  | [] => Err ValueError
  | (_, c) :: _ => do _ <- guard (Nat.eqb (clen v) (clen c)) ValueError; Ok (store t k v)
  end.
Definition table_rows (t : table) : nat := match t with [] => 0 | (_, c) :: _ => clen c end.

(** ** Cells *)

(** CellData._attr_map_, celldata.py 61-69, and [attr_map.get(k, k)], 90 *)
Definition cell_key (k : string) : string :=
  if String.eqb k "nodes" then "_nodes" else if String.eqb k "frames" then "_frames" else if String.eqb k "ndf" then "_ndf"
  else if String.eqb k "id" then "_id" else if String.eqb k "areas" then "_areas" else if String.eqb k "t" then "_t"
  else if String.eqb k "activity" then "_activity" else k.
(** the dictionary comprehension in line 90 *)
Definition mapped (d : table) : table := fold_left (fun r kv => store r (cell_key (fst kv)) (snd kv)) d [].
(** a number or an array, for the arguments areas and t *)
Inductive amount := Each (x : R) | PerCell (l : list R).
(** the argument frames: a frame, one matrix, several matrices, something else *)
Inductive frames_arg := AFrame (f : frame) | AMatrix (m : mat) | AMatrices (l : list mat) | AOther.
(** the setters of t and A, 407-412, 419-424 *)
Definition set_amount (t : table) (k : string) (a : amount) : res table :=
  match a with Each x => set_column t k (Numbers (repeat x (table_rows t))) | PerCell l => set_column t k (Numbers l) end.
(** the setter of frames, 380-400 *)
Definition set_cell_frames (t : table) (a : frames_arg) : res table :=
  let put l :=
    match l with
    | [m] => set_column t "_frames" (Matrices (repeat m (table_rows t)))
    | _ => do _ <- guard (Nat.eqb (length l) (table_rows t)) AssertionError; set_column t "_frames" (Matrices l)
    end in
  match a with AFrame f => put [axes f] | AMatrix m => put [m] | AMatrices l => put l | AOther => Err TypeError end.
(** CellData.__init__, 71-136, without [db] and [wrap]; [topo]: the node numbers, positional or as keyword; [activity]: an array or
    something else.  The result, and the dictionary given as [fields] afterwards. *)
Definition CellData_init (topo : option (list (list nat))) (fields : option table) (activity : option arg) (frames : option frames_arg)
    (areas t : option amount) (kw : kwargs) : res (option table) * option table :=
  let given := match fields with Some d => d | None => [] end in
  let d := match given with [] => [] | _ => mapped given end in
  let d := match activity with Some (Arr a) => store d "_activity" a | _ => d end in
  let d := match topo with Some n => add_arrays (Nat.eqb (length n)) kw (store d "_nodes" (Nodes n)) | None => d end in
  let d := match areas with Some (PerCell l) => store d "_areas" (Numbers l) | _ => d end in
  let '(wrapped, d) := wrapper_init d kw in
  (do w <- wrapped;
   match w with
   | None => Ok None
   | Some db =>
       do db <- match frames with Some f => set_cell_frames db f | None => Ok db end;
       do db <- match t with Some a => set_amount db "_t" a | None => Ok db end;
       do db <- match areas with Some a => set_amount db "_areas" a | None => Ok db end;
       Ok (Some db)
   end,
   match fields with Some [] => Some d | _ => fields end).
(** CellData.__getattr__, 270-291, of a name that is no column of the cells and no other attribute, for cells with the given points; a column
    of numbers is an array with one axis, one of positions has two, the data of the other columns are not of floating point type or of
    another rank; for integers with two axes the model stops where the code averages *)
Definition cell_attribute (topo : list (list nat)) (points : table) (k : string) : res (list (list R)) :=
  match lookup points k with
  | Some (Numbers l) => match avg_cell_data (Rank1 l) topo with Ok r => Ok r | Err _ => Err AttributeError end
  | Some (Plane l) => match avg_cell_data (Rank2 (map (fun p => [fst p; snd p]) l)) topo with Ok r => Ok r | Err _ => Err AttributeError end
  | Some (Space l) => match avg_cell_data (Rank2 (map (fun v => [fst (fst v); snd (fst v); snd v]) l)) topo with Ok r => Ok r | Err _ => Err AttributeError end
  | _ => Err AttributeError
  end.

(** ** Points *)

(** [_c[:, inds] = X], pointdata.py 82-83: the new coordinate is zero *)
Definition insert_axis (newaxis : nat) (p : R * R) : vec :=
  match newaxis with 0%nat => (0, fst p, snd p) | 1%nat => (fst p, 0, snd p) | _ => (fst p, snd p, 0) end.
(** 76-89; [list.pop], 79, of an index greater than two is an IndexError *)
Definition point_array (x : column) (f : option frame) (newaxis : nat) : res column :=
  match x with
  | Plane l =>
      do _ <- guard (Nat.ltb newaxis 3) IndexError;
      Ok (match f with Some g => Space (show (new_cloud (map (insert_axis newaxis) l) (Some g) None) None) | None => Plane l end)
  | Space l => Ok (Space (show (new_cloud l f None) None))
  | _ => Err ValueError
  end.
(** PointData.__init__, 45-112, without [db] and [wrap], for positions given as [coords] or [points], [activity] an array of booleans or absent:
    the table and the frame; and the dictionary given as [fields] afterwards.  The frame made in line 108 of positions in the plane has two
    axes; it is not distinguished from the absence of a frame. *)
Definition PointData_init (x : column) (as_coords : bool) (f : option frame) (newaxis : nat) (activity : option (list bool)) (fields : option table)
    (kw : kwargs) : res (option table * option frame) * option table :=
  let d := match fields with Some d => d | None => [] end in
  match point_array x f newaxis with
  | Err e => (Err e, fields)
  | Ok x' =>
      let n := clen x in
      let d := store d "_x" x' in
      let d := store d "_activity" (Flags (match activity with Some a => a | None => repeat true n end)) in
      let d := add_arrays (Nat.eqb n) kw d in
      let fr := match f with Some g => Some g | None => match x, as_coords with Space _, true => Some (Cartesian meye vzero) | _, _ => None end end in
      let '(wrapped, d) := wrapper_init d kw in
      (do w <- wrapped; Ok (w, fr), match fields with Some _ => Some d | None => None end)
  end.

(** ** Meshes *)

(** PolyData._cell_classes_, polydata.py 158-168: numbers of nodes with a class *)
Definition known_width (n : nat) : bool := existsb (Nat.eqb n) [2; 3; 4; 6; 8; 9; 10; 18; 27]%nat.
(** PolyData.__init__, 241-288, with coordinates and node numbers, for a new mesh without parent: the tables of points and cells, and the
    dictionaries given as [point_fields] and [cell_fields] afterwards.  [celltype]: a class is given.  [None]: the table is not made because of an exception before. *)
Definition PolyData_init (coords : column) (topo : list (list nat)) (celltype : bool) (f : option frame) (newaxis : nat) (frames : option frames_arg)
    (point_fields cell_fields : option table) : res (option table * option table) * (option table * option table) :=
  let pf := store (match point_fields with Some d => d | None => [] end) "_id" (Ids (seq 0 (clen coords))) in
  let '(rp, pf) := PointData_init coords true f newaxis None (Some pf) [("stateful", Other)] in
  let pafter := match point_fields with Some _ => pf | None => None end in
  match rp with
  | Err e => (Err e, (pafter, cell_fields))
  | Ok (pd, _) =>
      if celltype || known_width (ncols topo) then
        let cf := match cell_fields with Some d => d | None => [] end in
        let n := length topo in
        let cf := match frames with
                  | Some (AFrame g) => store cf "frames" (Matrices (repeat (axes g) n))
                  | Some (AMatrix m) => store cf "frames" (Matrices (repeat m n))
                  | Some (AMatrices l) => store cf "frames" (Matrices l)
                  | Some AOther => cf
                  | None => match f with Some g => store cf "frames" (Matrices (repeat (axes g) n)) | None => cf end
                  end in
        let cf := store cf "_id" (Ids (seq 0 n)) in
        let '(rc, cf) := CellData_init (Some topo) (Some cf) None None None None [] in
        (do cd <- rc; Ok (pd, cd), (pafter, match cell_fields with Some _ => cf | None => None end))
      else (Err TypeError, (pafter, cell_fields))
  end.
