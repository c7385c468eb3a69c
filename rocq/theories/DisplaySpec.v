(** * Specifications for [DisplayModel.v] *)
From Coq Require Import Reals String List.
From Verif Require Export IncidenceSpec DisplayModel.
Import ListNotations.
Local Open Scope nat_scope.

(** the coordinates that the source of a block reports: [s] is the closest of the block and its ancestors that has points, [p] its points *)
Definition points_for (f : family) (p : points) (X : list vec) : Prop :=
  exists near s far, f = near ++ s :: far /\ Forall (fun cb => bpd (snd cb) = None) near /\ bpd (snd s) = Some p /\ coords_of (fst s) (snd s) None = Ok X.
(** the block [f] has the cells [k], all with the same number of nodes and at least one of them; no cells below it; all nodes are points of the source *)
Definition proper_block (f : family) (k : cells) (p : points) (X : list vec) : Prop :=
  (exists c b anc, f = (c, b) :: anc /\ bcd b = Some k /\ flat_map cell_arrays (bsub b) = []) /\ points_for f p X /\
  nodes k <> [] /\ same_widths (nodes k) /\ forall n, used (nodes k) n -> n < length X.

(** how the package [vtk] reads the array of cells: [n] times a number of nodes and the nodes *)
Fixpoint read_cells (n : nat) (l : list nat) : option (list (list nat)) :=
  match n, l with
  | 0, [] => Some []
  | S n, w :: r => if Nat.leb w (length r) then option_map (cons (firstn w r)) (read_cells n (skipn w r)) else None
  | _, _ => None
  end.
(** a grid has the given cells of the points [X], and only points that belong to them *)
Definition grid_shows (X : list vec) (topo : list (list nat)) (g : grid) : Prop :=
  exists t, read_cells (vnumber g) (vcells g) = Some t /\ detached X topo (vpoints g) t.
(** a grid has cells with nodes at the given places *)
Definition grid_at (g : grid) (ps : list (list vec)) : Prop :=
  exists t, read_cells (vnumber g) (vcells g) = Some t /\ Forall2 (Forall2 (fun n q => nth_error (vpoints g) n = Some q)) t ps.
(** the number of the cells of all grids of a result *)
Definition grids_of (r : vtk_out) : list grid := match r with VGrid g => [g] | VList l | VMulti l => l end.
Definition cells_shown (r : vtk_out) : nat := list_sum (map vnumber (grids_of r)).

(** The detached mesh [(c, t)] has the rows [d] of the data at its points: each node of each cell keeps its coordinates and its row. *)
Definition shows_points (X : list vec) (data : list (list value)) (topo : list (list nat)) (c : list vec) (t : list (list nat)) (d : list (list value)) : Prop :=
  same_shape topo t /\ length d = length c /\
  forall i j n, entry topo i j n -> exists n', entry t i j n' /\ nth_error c n' = nth_error X n /\ nth_error d n' = nth_error data n.
(** Every node of every cell has a point of its own, which has the coordinates of the node and the value of the data for it. *)
Definition shows_nodes (X : list vec) (data : list (list value)) (topo : list (list nat)) (c : list vec) (t : list (list nat)) (d : list (list value)) : Prop :=
  same_shape topo t /\ length d = length c /\ NoDup (concat t) /\
  forall i j n x, entry topo i j n -> NodalSpec.cell_entry data i j x -> exists n', entry t i j n' /\ nth_error c n' = nth_error X n /\ nth_error d n' = Some [x].

(** every block has cells, all with the same number of nodes *)
Definition even_blocks (m : block) : Prop := Forall (fun k => nodes k <> [] /\ same_widths (nodes k)) (cell_arrays m).
(** the field [s] fits: one row for each point, one value for each cell (and there are not as many points as cells), or one value for each
    node of each cell *)
Definition data_fits (s : string) (k : cells) (p : points) (X : list vec) : Prop :=
  match find_field s (pfields p), find_field s (cfields k) with
  | Some a, _ => length (rows a) = length X
  | None, Some a => match width a with
                    | None => length (rows a) = length (nodes k) /\ forall ns, used_list (nodes k) ns -> length ns <> length (nodes k)
                    | Some _ => same_shape (nodes k) (rows a)
                    end
  | None, None => True
  end.
(** what is shown of the field [s]: the rows of the points, if these have the field, else those of the cells *)
Definition data_shown (s : string) (k : cells) (p : points) (X : list vec) (g : grid) (at_ : attached) : Prop :=
  match find_field s (pfields p), find_field s (cfields k) with
  | Some a, _ => grid_shows X (nodes k) g /\ exists t d, read_cells (vnumber g) (vcells g) = Some t /\ at_ = OfPoints s (Field (width a) d) /\ shows_points X (rows a) (nodes k) (vpoints g) t d
  | None, Some a => match width a with
                    | None => grid_shows X (nodes k) g /\ at_ = OfCells s a
                    | Some _ => exists t d, read_cells (vnumber g) (vcells g) = Some t /\ at_ = OfPoints s (Field None d) /\ shows_nodes X (rows a) (nodes k) (vpoints g) t d
                    end
  | None, None => grid_shows X (nodes k) g /\ at_ = NoData
  end.
(** an object has the given cells of the points [X], and the data at its points *)
Definition k3d_shows (X : list vec) (topo : list (list nat)) (data : option (list value)) (o : list vec * list (list nat) * option (list value)) : Prop :=
  let '(c, t, d) := o in detached X topo c t /\
  match data, d with None, None => True | Some a, Some b => shows_points X (map (fun x => [x]) a) topo c t (map (fun x => [x]) b) | _, _ => False end.

(** the closest configuration among a block and its ancestors, before anything is shown *)
Definition nearest_config (cs : configs) (f : list nat) (p : params) : Prop :=
  exists near i far, f = near ++ i :: far /\ dget cs i = Ok p /\ forall j, In j near -> forall q, dget cs j <> Ok q.
Definition no_config (cs : configs) (f : list nat) : Prop := forall j, In j f -> forall q, dget cs j <> Ok q.
(** the same parameters but for the colour *)
Definition but_color (p q : params) : Prop := filter (fun kv => negb (String.eqb (fst kv) "color")) p = filter (fun kv => negb (String.eqb (fst kv) "color")) q.
Definition has_color (p : params) : Prop := exists v, In ("color"%string, v) p.

(** each of the names once *)
Definition names_are (l : list string) (P : string -> Prop) : Prop := NoDup l /\ forall s, In s l <-> P s.
