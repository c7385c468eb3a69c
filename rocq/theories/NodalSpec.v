(** * Specification vocabulary: data of nodes and cells *)
From Coq Require Import Reals List Permutation.
From Verif Require NodalModel GridModel.
From Verif Require Export TopoSpec LocSpec ShapeSpec.
Import ListNotations.
Local Open Scope R_scope.

(** entry [j] of row [i] is [x] *)
Definition cell_entry {A} (rows : list (list A)) (i j : nat) (x : A) : Prop :=
  exists r, nth_error rows i = Some r /\ nth_error r j = Some x.
(** the entries of [rows], an array of the shape of the topology, that belong to node [n] *)
Definition at_node {A} (topo : list (list nat)) (rows : list (list A)) (n : nat) : list A :=
  map snd (filter (fun kx => Nat.eqb (fst kx) n) (combine (concat topo) (concat rows))).
(** the sum of the weights of the cells that have node [n] *)
Definition total_weight (topo : list (list nat)) (w : list R) (n : nat) : R :=
  rsum (map snd (filter (fun cw => existsb (Nat.eqb n) (fst cw)) (combine topo w))).
(** the share of cell [i] at its [j]-th node is its weight divided by the weight of all the cells at this node *)
Definition shares (topo : list (list nat)) (w : list R) (f : list (list R)) : Prop :=
  same_shape topo f /\
  forall i j n wi, entry topo i j n -> nth_error w i = Some wi -> cell_entry f i j (wi / total_weight topo w n).
(** cells without repeated nodes *)
Definition proper (topo : list (list nat)) : Prop := Forall (@NoDup nat) topo.
(** an array of rows in csr format *)
Definition csr_of {A} (rows : list (list A)) (ptr : list nat) (data : list A) : Prop :=
  ptr = indptr (map (@length A) rows) /\ data = concat rows.
(** [rows] are the rows of [table] with the given numbers *)
Definition rows_at {A} (table : list A) (ids : list nat) (rows : list A) : Prop :=
  Forall2 (fun c r => nth_error table c = Some r) ids rows.
(** what the factors [f] make of the values [v] (rows of numbers), component [a] *)
Definition weighted_sum (a : nat) (f : list R) (v : list (list R)) : R :=
  rsum (map (fun fv => fst fv * at_ a (snd fv)) (combine f v)).
(** a mesh of rows: every entry has [k] components *)
Definition rows_of (k : nat) (rows : list (list (list R))) : Prop := Forall (Forall (fun v => length v = k)) rows.

(** the positions of the points [p] are those of [q] moved by [t] *)
Definition moved_by (t p q : list R) : Prop := length p = length q /\ forall a, (a < length q)%nat -> at_ a p = at_ a q + at_ a t.
(** [c] is the mean of the rows, in every component *)
Definition mean_row (d : nat) (rows : list (list R)) (c : list R) : Prop :=
  dim d c /\ forall a, (a < d)%nat -> at_ a c * INR (length rows) = rsum (map (at_ a) rows).
(** the signed area of a closed polygon in the plane: the sum of the signed areas of the triangles formed by
    a reference position and the edges; positive for a polygon that goes around the reference counterclockwise *)
Definition fan_area (o : list R) (ps : list (list R)) : R :=
  rsum (map (fun ab => signed_area o (fst ab) (snd ab)) (combine ps (tl ps ++ firstn 1 ps))).
(** the vertices of a convex polygon in counterclockwise order: any three of them, in this order, turn to the left *)
Definition convex_ccw (ps : list (list R)) : Prop :=
  forall i j k a b c, (i < j < k)%nat -> nth_error ps i = Some a -> nth_error ps j = Some b -> nth_error ps k = Some c -> ccw a b c.

(** the numbers of the positions within the distance [r] of [c], in increasing order *)
Definition neighbours_in (pts : list (list R)) (c : list R) (r : R) (row : list nat) : Prop :=
  StronglySorted lt row /\ forall j, In j row <-> exists p, nth_error pts j = Some p /\ dist p c <= r.

(** an execution of the iterations of a parallel loop whose bodies first read and then write: every half is executed
    once, the first half of an iteration before its second one *)
Definition interleaving (n : nat) (steps : list NodalModel.step) : Prop :=
  Permutation (map NodalModel.Fetch (seq 0 n) ++ map NodalModel.Store_ (seq 0 n)) steps /\
  forall j, (j < n)%nat -> exists l1 l2, steps = l1 ++ NodalModel.Fetch j :: l2 /\ In (NodalModel.Store_ j) l2.
(** the values of the data of a block at the nodes of its cells: data of a cell counts for each of its nodes *)
Definition values_of (topo : list (list nat)) (d : NodalModel.cell_data) (cd : list (list (list R))) : Prop :=
  match d with
  | NodalModel.PerCell l => Forall2 (fun row rx => rx = repeat [snd row] (length (fst row))) (combine topo l) cd /\ length l = length topo
  | NodalModel.PerNode l => cd = l
  end.
(** the cells of several blocks, one block after the other *)
Definition all_nodes (blocks : list NodalModel.block) : list (list nat) := concat (map NodalModel.b_nodes blocks).
Definition all_ids (blocks : list NodalModel.block) : list nat := concat (map NodalModel.b_ids blocks).
(** the weight of each cell, at each of its nodes *)
Definition weight_table (topo : list (list nat)) (w : list R) : list (list R) :=
  map (fun rw => map (fun _ => snd rw) (fst rw)) (combine topo w).
(** the rows of factors, in either format *)
Definition same_factors (topo : list (list nat)) (f : list (list R)) (r : NodalModel.factors) : Prop :=
  match r with NodalModel.FacDense g => g = f | NodalModel.FacCsr ptr g => csr_of f ptr g end.
(** [q] is [p] times the number [x] *)
Definition scaled (x : R) (p q : list R) : Prop := length q = length p /\ forall a, at_ a q = x * at_ a p.
(** every cell gets at each of its nodes the data of the node times the factor *)
Definition distributed (data : list (list R)) (topo : list (list nat)) (f : list (list R)) (D : list (list (list R))) : Prop :=
  same_shape topo D /\
  forall i j n p x, entry topo i j n -> nth_error data n = Some p -> cell_entry f i j x -> exists q, cell_entry D i j q /\ scaled x p q.
(** to the data of each node the weighted sum of the data of its cells has been added *)
Definition adds (k : nat) (topo : list (list nat)) (f : list (list R)) (cd : list (list (list R))) (r r' : list (list R)) : Prop :=
  length r' = length r /\ rect k r' /\
  forall n x, nth_error r n = Some x -> exists y, nth_error r' n = Some y /\ forall a, at_ a y = at_ a x + weighted_sum a (at_node topo f n) (at_node topo cd n).
(** the data of each node is the weighted sum of the data of the cells at this node *)
Definition pulled (blocks : list NodalModel.block) (nP k : nat) (f : list (list R)) (cd : list (list (list R))) (r : list (list R)) : Prop :=
  length r = nP /\ rect k r /\ forall n, (n < nP)%nat -> exists y, nth_error r n = Some y /\ forall a, at_ a y = weighted_sum a (at_node (all_nodes blocks) f n) (at_node (all_nodes blocks) cd n).
(** the numbers of the columns of the entries of a csr matrix without gaps *)
Definition columns (rows : list (list nat)) : list nat := concat (map (fun r => seq 0 (length r)) rows).
(** the rows of the result of the parallel search: the points within the distance, cut or filled up with zeros *)
Definition padded (pts : list (list R)) (r : R) (n_max : nat) (rows : list (list nat)) : Prop :=
  Forall2 (fun c row => exists close, neighbours_in pts c r close /\ row = firstn n_max close ++ repeat 0%nat (n_max - length close)) pts rows.
(** [x] is the distance of the first and the last node of the cell *)
Definition chord (ec : list (list R)) (x : R) : Prop := exists a b, nth_error ec 0 = Some a /\ nth_error ec (length ec - 1) = Some b /\ x = dist b a.
(** [q] divides the line from [a] to [b] at the ratio [p] *)
Definition on_line (a b : list R) (p : R) (q : list R) : Prop := length q = length a /\ forall k, (k < length a)%nat -> at_ k q = (1 - p) * at_ k a + p * at_ k b.
(** [q] divides the line from the first to the last node of the cell at the ratio [p] *)
Definition on_chord (ec : list (list R)) (p : R) (q : list R) : Prop := exists a b, nth_error ec 0 = Some a /\ nth_error ec (length ec - 1) = Some b /\ on_line a b p q.
(** the arguments of [grid] with the given value of the option [centralize] *)
Definition with_centralize (b : bool) (a : GridModel.grid_args (K := R)) : GridModel.grid_args (K := R) :=
  {| GridModel.a_size := GridModel.a_size a; GridModel.a_shape := GridModel.a_shape a; GridModel.a_shift := GridModel.a_shift a; GridModel.a_start := GridModel.a_start a;
     GridModel.a_bins := GridModel.a_bins a; GridModel.a_cast := GridModel.a_cast a; GridModel.a_centralize := b; GridModel.a_path := GridModel.a_path a |}.
