(** * Property C162: tables given by the caller *)
From Coq Require Import List Lia.
From Verif Require Import TrModel SplitSpec2 TableSpec SplitProofs8.
Import ListNotations.

(** ** C162 Splitting and edges along tables given by the caller *)

(** Every function that splits cells: the pieces of every cell in order are those the table selects. *)
Theorem C162_given :
  forall {C A} (z : A) (coords : C) n f w topo path, In (n, f) (splitters z) ->
  rect w topo -> path <> [] -> rect n path -> (forall p q, In p path -> In q p -> q < w) ->
  f coords topo DNone (PArr path) = Ok (coords, (pieces_along path topo, DNone)).
Proof. exact @given_table. Qed.
Print Assumptions C162_given.
(** A table for pieces with another number of nodes is rejected. *)
Theorem C162_wrong :
  forall {C A} (z : A) (coords : C) n f topo data m path, In (n, f) (splitters z) ->
  path <> [] -> rect m path -> m <> n -> f coords topo data (PArr path) = Err AssertionError.
Proof. exact @wrong_table. Qed.
Print Assumptions C162_wrong.
(** Without subdivision the corners of the cells are left. *)
Theorem C162_corners_T6 :
  forall {C A} (z : A) (coords : C) topo, rect 6 topo ->
  T6_to_T3 z false coords topo DNone PNone = Ok (coords, (map (firstn 3) topo, DNone)).
Proof. exact @corners_T6. Qed.
Print Assumptions C162_corners_T6.
Theorem C162_corners_H27 :
  forall {C A} (z : A) (coords : C) topo, rect 27 topo ->
  H27_to_H8 z false coords topo DNone PNone = Ok (coords, (map (firstn 8) topo, DNone)).
Proof. exact @corners_H27. Qed.
Print Assumptions C162_corners_H27.
Theorem C162_corners_W18 :
  forall {C A} (z : A) (coords : C) topo, rect 18 topo ->
  W18_to_W6 z false coords topo DNone PNone = Ok (coords, (map (firstn 6) topo, DNone)).
Proof. exact @corners_W18. Qed.
Print Assumptions C162_corners_W18.
(** Extraction of edges: without a table the edges of the cells, each once; *)
Theorem C162_edges :
  forall {C A} (coords : C) w r f topo, In (w, r, f) (edge_functions (C := C) (A := A)) -> rect w topo ->
  exists es, f coords topo DNone PNone = Ok (coords, es) /\ edges_listed (usual_edges w) topo es.
Proof. exact @edges_default. Qed.
Print Assumptions C162_edges.
(** with a table the pairs it selects; *)
Theorem C162_edges_given :
  forall {C A} (coords : C) w r f topo path, In (w, r, f) (edge_functions (C := C) (A := A)) -> rect w topo ->
  length path = r -> rect 2 path -> (forall p q, In p path -> In q p -> q < w) ->
  exists es, f coords topo DNone (PArr path) = Ok (coords, es) /\ edges_listed path topo es.
Proof. exact @edges_given. Qed.
Print Assumptions C162_edges_given.
(** tables with another shape are rejected, *)
Theorem C162_edges_wrong :
  forall {C A} (coords : C) w r f topo data m path, In (w, r, f) (edge_functions (C := C) (A := A)) ->
  path <> [] -> rect m path -> length path <> r \/ m <> 2 -> f coords topo data (PArr path) = Err AssertionError.
Proof. exact @edges_wrong. Qed.
Print Assumptions C162_edges_wrong.
(** and so are data and strings. *)
Theorem C162_edges_refused :
  forall {C A} (coords : C) w r f topo (data : data_arg A), In (w, r, f) (edge_functions (C := C) (A := A)) ->
  (data <> DNone -> f coords topo data PNone = Err NotImplementedError) /\
  f coords topo data PGrid = Err NotImplementedError /\ f coords topo data PStr = Err NotImplementedError.
Proof. exact @edges_refused. Qed.
Print Assumptions C162_edges_refused.
Example C162_ex : In (3, Q4_to_T3 0) (splitters (C := unit) 0) /\ rect 4 [[5;6;7;8]] /\ rect 3 [[0;1;3];[1;2;3]] /\
  Q4_to_T3 0 tt [[5;6;7;8]] DNone (PArr [[0;1;3];[1;2;3]]) = Ok (tt, ([[5;6;8];[6;7;8]], DNone)) /\
  Q4_to_T3 0 tt [[5;6;7;8]] DNone (PArr [[0;1];[1;2]]) = Err AssertionError.
Proof. split; [cbn; auto 10|]. split; [repeat constructor|]. split; [repeat constructor|]. split; reflexivity. Qed.
Example C162_ex_edges : In (3, 3, T3_to_L2_with) (edge_functions (C := unit) (A := nat)) /\ rect 2 [[0;1];[1;2];[1;0]] /\
  T3_to_L2_with (A := nat) tt [[4;5;6]] DNone (PArr [[0;1];[1;2];[1;0]]) = Ok (tt, [[4;5];[5;6]]).
Proof. split; [now left|]. split; [repeat constructor|reflexivity]. Qed.
