(** * Specification vocabulary for topology properties

    Small definitions, independent of the model's loops, in which the
    theorems of [PropertiesTopo.v] are stated. *)
From Verif Require Export Base TopoModel.

(** node [j] of cell [i] is [n] *)
Definition entry (t : list (list nat)) (i j n : nat) : Prop :=
  exists r, nth_error t i = Some r /\ nth_error r j = Some n.

(** node [n] occurs in the topology *)
Definition used (t : list (list nat)) (n : nat) : Prop := exists i j, entry t i j n.

(** Both topologies have the same number of cells and the same number of nodes in
    each cell. *)
Definition same_shape {A B} (t : list (list A)) (t' : list (list B)) : Prop :=
  map (@length A) t = map (@length B) t'.

(** strict lexicographic order of positions (cell, local index) *)
Definition lex2 (p q : nat * nat) : Prop := fst p < fst q \/ (fst p = fst q /\ snd p < snd q).

(** [L] lists exactly the positions (cell, local index) of node [n] in the cells
    [t], in strictly increasing lexicographic order.  This determines [L]. *)
Definition incidence (t : list (list nat)) (n : nat) (L : list (nat * nat)) : Prop :=
  (forall i j, In (i, j) L <-> entry t i j n) /\ StronglySorted lex2 L.

(** the set of numbers in use is {0, ..., m} for some m *)
Definition tight (l : list nat) : Prop := exists m, forall k, In k l <-> k <= m.

(** The topology argument [topo] holds the cells [t]. *)
Inductive represents : topo_like -> list (list nat) -> Prop :=
| rep_np t : represents (TNp t) t
| rep_ak t : represents (TAk t) t
| rep_csr t : represents (TCsr (indptr (map (@length nat) t)) (concat t)) t.

(** not stored as csr_matrix *)
Definition is_csr (topo : topo_like) : Prop :=
  match topo with TCsr _ _ => True | _ => False end.

(** same container kind *)
Definition same_kind (a b : topo_like) : Prop :=
  match a, b with
  | TNp1 _, TNp1 _ | TNp _, TNp _ | TAk _, TAk _ | TCsr _ _, TCsr _ _ => True
  | _, _ => False
  end.

(** [n] and [m] occur in a common cell *)
Definition share_cell (t : list (list nat)) (n m : nat) : Prop := exists r, In r t /\ In n r /\ In m r.

(** kinds of topology that can be renumbered *)
Definition rewires (topo : topo_like) : Prop := match topo with TCsr _ _ => False | _ => True end.

(** apply [f] to every stored node number *)
Definition map_nodes (f : nat -> nat) (topo : topo_like) : topo_like :=
  match topo with
  | TNp1 t => TNp1 (map f t)
  | TNp t => TNp (map (map f) t)
  | TAk t => TAk (map (map f) t)
  | TCsr p d => TCsr p (map f d)
  end.

(** all node numbers stored in a topology argument *)
Definition stores (topo : topo_like) (n : nat) : Prop :=
  match topo with
  | TNp1 t => In n t
  | TNp t | TAk t => exists r, In r t /\ In n r
  | TCsr _ d => In n d
  end.

(** [t'] is [t] with every node number [n] replaced by its position in [u] *)
Definition located_in (u : list nat) (t t' : list (list nat)) : Prop :=
  same_shape t t' /\ forall i j n, entry t i j n -> exists k, entry t' i j k /\ nth_error u k = Some n.

(** [inds] is the increasing list of the used nodes *)
Definition used_list (t : list (list nat)) (inds : list nat) : Prop :=
  StronglySorted lt inds /\ forall n, In n inds <-> used t n.

(** what it means that (c, t') is the detached mesh of (coords, t) *)
Definition detached {A} (coords : list A) (t : list (list nat)) (c : list A) (t' : list (list nat)) : Prop :=
  same_shape t t' /\
  (forall i j n, entry t i j n -> exists n', entry t' i j n' /\ nth_error c n' = nth_error coords n) /\
  (concat t <> [] -> tight (concat t')) /\
  (forall k, used t' k <-> k < length c) /\
  (exists inds, used_list t inds /\ take coords inds = Ok c).

(** an entity (edge or face): entity [j] of cell [i] is the node tuple [e] *)
Definition entity (t3 : list (list (list nat))) (i j : nat) (e : list nat) : Prop :=
  exists c, nth_error t3 i = Some c /\ nth_error c j = Some e.

(** C10, the loop of the docstring (topo.py 892-896): [edges[edgeIDs[i, j]]] for all i, j *)
Definition reconstruct (us : list (list nat)) (ids : list (list nat)) : res (list (list (list nat))) :=
  mapM (take us) ids.

(** C11: the queries on one topology argument, by name *)
Inductive query := QCount (regular : bool) | QCells (f : frmt) (assume : bool) (cids : option (list nat)) (rc : bool)
  | QAdj (hasnx : bool) (f : adj_frmt) (assume : bool) | QRegularize.

(** the argument after the query *)
Definition after (q : query) (topo : topo_like) : topo_like :=
  match q with
  | QCount r => fst (count_cells_at_nodes topo r)
  | QCells f a c r => fst (cells_at_nodes topo f a c r)
  | QAdj h f a => fst (nodal_adjacency h topo f a)
  | QRegularize => fst (regularize topo)
  end.

Definition node_keys (t : list (list nat)) (assume : bool) (ks : list nat) : Prop :=
  StronglySorted lt ks /\
  if assume then (forall n, In n ks <-> exists m, used t m /\ n <= m)
  else (forall n, In n ks <-> used t n).

(** [m] is the largest node number in use *)
Definition largest (t : list (list nat)) (m : nat) : Prop := used t m /\ forall n, used t n -> n <= m.
