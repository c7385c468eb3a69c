(** * Model of topologies of whole meshes: src/polymesh/topoarray.py; polydata.py, 1231-1268, 1437-1510, 1639-1658 and 1680-1728;
    celldata.py, 293-312

    Definitions only.  The class [JaggedArray] of the package [neumann] is not part of the repository: an instance is the list of its rows. *)
From Coq Require Import Reals String List.
From Verif Require Export MeshModel.
From Verif Require TrModel EvalModel NodalModel.
Local Open Scope nat_scope.

(** ** Topology arrays *)

(** arguments of TopologyArray: arrays with one or two axes (the latter with the number of columns), arrays of the package [awkward], and other
    objects, such as lists *)
Inductive topo_arg := Arr1 (r : list nat) | Arr2 (w : nat) (t : list (list nat)) | AkArr (t : list (list nat)) | Other.
(** [atleast2d(t, front=True)] of an array: its number of columns and its rows.  Other objects have no shape. *)
Definition atleast2d (a : topo_arg) : res (nat * list (list nat)) :=
  match a with Arr1 r => Ok (length r, [r]) | Arr2 w t => Ok (w, t) | _ => Err AttributeError end.
(** [a[lo : lo + len(v)] = v], the slice being within the array *)
Definition set_slice (a : list nat) (lo : nat) (v : list nat) : res (list nat) :=
  if Nat.leb (lo + length v) (length a) then Ok (firstn lo a ++ v ++ skipn (lo + length v) a) else Err ValueError.
(** JaggedArray(data, cuts=cuts): the parts of the array, which the lengths have to use up ([awkward.unflatten]) *)
Definition jagged_array (data cuts : list nat) : res (list (list nat)) :=
  if Nat.eqb (np_sum cuts) (length data) then Ok (split_by cuts data) else Err ValueError.
(** TopologyArray.__init__, 95-113: several arguments *)
Definition join_arrays (ts : list (nat * list (list nat))) : res (list (list nat)) :=
  let cN := np_sum (map (fun wt => length (snd wt) * fst wt) ts) in
  let cE := np_sum (map (fun wt => length (snd wt)) ts) in
  do r <- foldM (fun s wt =>
            let '(data, cuts, cN, cE) := s in
            let dE := length (snd wt) in
            let dN := dE * fst wt in
            do data <- set_slice data cN (concat (snd wt));
            do cuts <- set_slice cuts cE (repeat (fst wt) dE);
            Ok (data, cuts, cN + dN, cE + dE))
          ts (repeat 0 cN, repeat 0 cE, 0, 0);
  jagged_array (fst (fst (fst r))) (snd (fst (fst r))).
(** TopologyArray.__init__, 85-114.  One argument that is neither an array nor one of awkward: [data] has no value (UnboundLocalError).
    With [cuts] the argument is an array with one axis. *)
Definition topology_array (args : list topo_arg) (cuts : option (list nat)) : res (list (list nat)) :=
  match args, cuts with
  | [a], None => match a with AkArr t => Ok t | Other => Err NameError | _ => do wt <- atleast2d a; Ok (snd wt) end
  | [a], Some c => match a with Arr1 data => jagged_array data c | _ => Err ValueError end
  | _, _ => do ts <- mapM atleast2d args; join_arrays ts
  end.
(** [np.vstack], 147-151; [t.flatten()] and [t.widths()] of every array *)
Definition vstack (ts : list (list (list nat))) : res (list (list nat)) :=
  match ts with
  | [] => Err ValueError
  | _ => topology_array [Arr1 (concat (map (@concat nat) ts))] (Some (concat (map (map (@length nat)) ts)))
  end.
(** [np.unique], 142-144 *)
Definition unique (t : list (list nat)) : list nat := np_unique (concat t).
(** [JaggedArray.is_jagged] *)
Definition is_jagged (t : list (list nat)) : bool :=
  match t with [] => false | r :: t => negb (forallb (fun s => Nat.eqb (length s) (length r)) t) end.

(** ** Topology of a mesh *)

(** polydata.py topology, 1231-1268: the array, and whether it is a TopologyArray *)
Definition topology (jagged : bool) (c : ctx) (b : block) : res (bool * list (list nat)) :=
  let topo := map (fun ck => nodes (snd ck)) (cellblocks (walk c b)) in
  match topo with
  | [] => Err ValueError
  | _ =>
      match concat (map (map (@length nat)) topo) with
      | [] => Err IndexError
      | w :: ws =>
          if orb jagged (negb (forallb (Nat.eqb w) (w :: ws)))
          then do t <- vstack topo; Ok (true, t)
          else Ok (false, concat topo)
      end
  end.
(** [to_csr] or [to_numpy], 1453-1456 and 1714-1717 *)
Definition csr_or_np (t : bool * list (list nat)) : topo_like :=
  if andb (fst t) (is_jagged (snd t)) then TCsr (indptr (map (@length nat) (snd t))) (concat (snd t)) else TNp (snd t).
(** polydata.py cells_at_nodes, 1437-1457 *)
Definition mesh_cells_at_nodes (c : ctx) (b : block) (f : frmt) (assume_regular : bool) (cellIDs : option (list nat)) (return_counts : bool) : res cells_out :=
  do t <- topology false c b;
  snd (cells_at_nodes (csr_or_np t) f assume_regular cellIDs return_counts).
(** polydata.py nodal_adjacency, 1478-1494: [to_array] gives an array of awkward or of numpy *)
Definition mesh_nodal_adjacency (hasnx : bool) (c : ctx) (b : block) (f : adj_frmt) (assume_regular : bool) : res adj_out :=
  do t <- topology true c b;
  snd (nodal_adjacency hasnx (if is_jagged (snd t) then TAk (snd t) else TNp (snd t)) f assume_regular).

(** ** Volumes and nodal distribution factors *)

(** polydata.py volumes, 1651-1655; [vol] returns the volumes of the cells of a block *)
Definition mesh_volumes (vol : ctx * cells -> res (list R)) (c : ctx) (b : block) : res (list R) :=
  do vs <- mapM vol (cellblocks (walk c b));
  match vs with [] => Err ValueError | _ => Ok (concat vs) end.
(** the argument [weights]: "volume", "uniform", another string or object, or an array *)
Inductive weights := WVolume | WUniform | WOther | WArray (dt : EvalModel.dtype) (w : list R).
(** polydata.py nodal_distribution_factors, 1680-1728; the length of a csr matrix, 1722, is not defined (TypeError) *)
Definition mesh_factors (vol : ctx * cells -> res (list R)) (c : ctx) (b : block) (ws : weights) : res NodalModel.factors :=
  match bpd b with
  | None => Err AssertionError
  | Some _ =>
      do t <- topology false c b;
      let topo := csr_or_np t in
      do w <- match ws with
              | WVolume => do v <- mesh_volumes vol c b; Ok (EvalModel.Floating, v)
              | WUniform => match topo with TCsr _ _ => Err TypeError | _ => Ok (EvalModel.Floating, repeat 1%R (length (snd t))) end
              | WOther => Err AssertionError
              | WArray dt w => Ok (dt, w)
              end;
      do _ <- guard (Nat.eqb (length (snd w)) (length (snd t))) AssertionError;
      NodalModel.nodal_distribution_factors (fst w) topo (snd w)
  end.
(** celldata.py set_nodal_distribution_factors, 293-312, for a block with [n] cells: what is stored, and under which name (a given [key]).
    Without a key the name of the field is looked up among the names of the attributes (KeyError); [self._wrapped.id] is not a field (the
    indices are stored as "_id"; AttributeError). *)
Definition set_factors (n : nat) (factors : list (list R)) (key : option string) : res (string * list (list R)) :=
  match key with
  | None => Err KeyError
  | Some k => if Nat.eqb (length factors) n then Ok (k, factors) else Err AttributeError
  end.

(** ** Areas *)

(** cell.py PolyCell1d.areas, 682-690, and PolyCell2d.thickness, 834-845: the field of the block, or ones; [n] is the number of cells *)
Definition field_or_ones (n : nat) (f : option (list R)) : list R := match f with Some l => l | None => repeat 1%R n end.
(** cell.py PolyCell1d.volumes, 692-696, and PolyCell2d.volumes, 816-822: the products of two arrays of the same length *)
Definition products (a b : list R) : res (list R) :=
  if Nat.eqb (length a) (length b) then Ok (map (fun xy => Rmult (fst xy) (snd xy)) (combine a b)) else Err ValueError.
(** polydata.py areas, 1639-1644; [ndim]: the attribute NDIM of the class of the cells, [areas]: the areas of the cells of a block *)
Definition mesh_areas (ndim : cells -> nat) (areas : ctx * cells -> res (list R)) (c : ctx) (b : block) : res (list R) :=
  do vs <- mapM areas (filter (fun ck => Nat.ltb (ndim (snd ck)) 3) (cellblocks (walk c b)));
  match vs with [] => Err ValueError | _ => Ok (concat vs) end.
