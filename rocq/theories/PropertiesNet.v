(** * Properties C104 and C105: nets of lines *)
From Coq Require Import Reals Lra Lia List Sorted.
From Verif Require LocProofs7.
From Verif Require Import BaseFacts NetSpec NetProofs.
Import ListNotations.
Local Open Scope nat_scope.

(** ** C104 Lines between neighbours *)

(** All points are kept, in their order, and the lines are those between each point and the others among its [k] nearest points, each once; at least [k - 1] lines end at each point.  Missing: the greatest distance (refuted below). *)
Theorem C104_partial :
  forall query X k d, nearest_query query -> 2 <= k -> k <= length X ->
  exists rows t, knngridL2 query false X k d = Ok (X, t) /\ Forall2 (fun x row => nearest X x k row) X rows /\ lines_of rows t /\ forall n, n < length X -> k - 1 <= length (filter (at_node n) t).
Proof. exact @knn_grid. Qed.
Print Assumptions C104_partial.
Example C104_ex : nearest_query LocProofs7.sorting_query /\ lines_of [[0; 1]; [1; 0]; [2; 1]] [[0; 1]; [1; 2]].
Proof.
  split; [exact LocProofs7.sorting_nearest|]. split.
  - constructor; [constructor; [constructor|constructor]|]. constructor; [reflexivity|constructor].
  - intros l. split.
    + intros [<-|[<-|[]]]; [exists 0, 1|exists 1, 2]; (split; [reflexivity|]); (split; [lia|]); [left; exists [0; 1]|right; exists [2; 1]]; cbn; auto.
    + intros (a & b & -> & Hab & [(r & Hr & Hb)|(r & Hr & Ha)]);
        [destruct a as [|[|[|a]]]|destruct b as [|[|[|b]]]]; cbn [nth_error] in Hr; try (destruct a; discriminate Hr); try (destruct b; discriminate Hr); injection Hr as <-; cbn [In] in *; lia || (assert (a = 1 /\ b = 2 \/ a = 0 /\ b = 1) as [[-> ->]|[-> ->]] by lia; auto) || (assert (b = 1) as -> by lia; auto) || (assert (a = 0) as -> by lia; auto) || (assert (a = 1) as -> by lia; auto).
Qed.

(** With recent versions of the library that searches, the greatest distance is ignored: whatever it is, there may be longer lines. *)
Theorem C104_refuted :
  forall query d, nearest_query query -> (0 <= d)%R ->
  exists X t a b, knngridL2 query false X 2 (Some d) = Ok (X, t) /\ In [a; b] t /\ (d < dist (nth a X []) (nth b X []))%R.
Proof. exact @knn_grid_long. Qed.
Print Assumptions C104_refuted.
(** With old versions the greatest distance is used, but a point with less than [k] points in reach makes the function fail: for the missing ones the tree returns the number of the points. *)
Theorem C104_missing_refuted :
  forall query X k d i y, k <> 1 -> nth_error X i = Some y -> In (length X) (query X y k (Some d)) ->
  exists e, knngridL2 query true X k (Some d) = Err e.
Proof. exact @knn_grid_missing. Qed.
Print Assumptions C104_missing_refuted.
(** For one neighbour the function fails. *)
Theorem C104_one_refuted :
  forall query old X d, knngridL2 query old X 1 d = Err TypeError.
Proof. exact @knn_grid_one. Qed.
Print Assumptions C104_one_refuted.
(** ** C105 Edges of triangles *)

(** Triangles with three or six nodes: the edges are the sides of the triangles, each once, whatever triangles it belongs to; the second result lists the numbers of the sides of each triangle, in order. *)
Theorem C105_edges :
  forall topo, Forall (fun r => 3 <= length r) topo -> exists e ids, mesh_edges topo = Ok (e, ids) /\ edges_of topo e ids.
Proof. exact @mesh_edges_ok. Qed.
Print Assumptions C105_edges.
(** The edges and the numbers determine the triangles: each corner is the one node that two sides have in common. *)
Theorem C105_corners :
  forall topo e ids i a b c r id, edges_of topo e ids -> nth_error topo i = Some (a :: b :: c :: r) -> nth_error ids i = Some id -> NoDup [a; b; c] ->
  exists k k' k'', id = [k; k'; k''] /\ common e k'' k a /\ common e k k' b /\ common e k' k'' c.
Proof. exact @corners_common. Qed.
Print Assumptions C105_corners.
(** Cells with less than three nodes are refused. *)
Theorem C105_short :
  forall r topo, length r < 3 -> exists x, mesh_edges (r :: topo) = Err x.
Proof. exact @mesh_edges_short. Qed.
Print Assumptions C105_short.
Example C105_ex : mesh_edges [[0; 1; 2]; [2; 1; 3]] = Ok ([[0; 1]; [0; 2]; [1; 2]; [1; 3]; [2; 3]], [[0; 2; 1]; [2; 3; 4]]) /\ Forall (fun r => 3 <= length r) [[0; 1; 2]; [2; 1; 3]] /\ NoDup [2; 1; 3].
Proof. split; [reflexivity|]. split; [repeat constructor|]. repeat constructor; cbn; lia. Qed.

