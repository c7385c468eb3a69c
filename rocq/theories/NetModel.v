(** * Model of nets of lines: src/polymesh/grid.py, 571-603, src/polymesh/utils/knn.py, 128-136, and src/polymesh/trimesh.py, 144-170

    Definitions only.  The search tree is that of LocModel ([query]). *)
From Coq Require Import Reals.
From Verif Require Import TrModel.
From Verif Require Export LocModel.

(** utils/knn.py knn_to_lines, 128-136.  Each entry of the result is written by one iteration of the parallel loops. *)
Definition knn_to_lines (inds : list (list nat)) : list (list (list nat)) :=
  map (fun ir => map (fun n => [fst ir; n]) (snd ir)) (enum inds).
(** [T[:, 0] - T[:, -1]] is not zero, grid.py 601-602 *)
Definition proper_line (r : list nat) : bool :=
  match r with [] => false | a :: _ => negb (Nat.eqb a (last r a)) end.
(** grid.py knngridL2, 571-603, of the points [X].  [k = 1]: the array of neighbours has one axis, which the compiled function refuses. *)
Definition knngridL2 (query : list (list R) -> list R -> nat -> option R -> list nat) (old : bool) (X : list (list R)) (k : nat) (max_distance : option R)
  : res (list (list R) * list (list nat)) :=
  match k_nearest_neighbours query old X X k max_distance with
  | Inds1 _ => Err TypeError
  | Inds2 i =>
      do t <- unique_topo_data (knn_to_lines i);
      detach_mesh_bulk X (filter proper_line (fst t))
  end.

(** trimesh.py TriMesh.edges, 144-170, for the topology of the mesh; both results are returned *)
Definition mesh_edges (topo : list (list nat)) : res (list (list nat) * list (list nat)) :=
  do e <- edges_tri topo; unique_topo_data e.
