(** * Model: extraction of edges with all the arguments of the functions (src/polymesh/utils/topology/tr.py) *)
From Coq Require Import Arith List.
From Verif Require Export TrModel.
Import ListNotations.

(** T3_to_L2 398-421, TET4_to_L2 424-447 and H8_to_L2 450-473 with the arguments [data] and [path]: [rows] is the
    number of edges of a cell, [dflt] the table used for None.  The path is looked at before the data. *)
Definition edges_with {C A} (rows : nat) (dflt : list (list nat)) (coords : C) (topo : list (list nat)) (data : data_arg A) (p : path_arg)
    : res (C * list (list nat)) :=
  do path <- match p with
    | PArr p => do _ <- guard (Nat.eqb (length p) rows) AssertionError; do _ <- guard (Nat.eqb (ncols p) 2) AssertionError; Ok p
    | PNone => Ok dflt
    | PGrid | PStr => Err NotImplementedError
    end;
  match data with
  | DNone => cells_to_L2 path coords topo
  | _ => Err NotImplementedError
  end.
(** 398-421 *)
Definition T3_to_L2_with {C A} := edges_with (C := C) (A := A) 3 edgeIds_T3.
(** 424-447 *)
Definition TET4_to_L2_with {C A} := edges_with (C := C) (A := A) 6 edgeIds_TET4.
(** 450-473 *)
Definition H8_to_L2_with {C A} := edges_with (C := C) (A := A) 12 edgeIds_H8.
