(** * Specifications for [TailModel.v] *)
From Coq Require Import Reals List.
From Verif Require Export NodalSpec LocSpec ExchangeSpec TailModel.
Import ListNotations.

Section Exports.
Context {V : Type}.
(** a table of records: a column for every name that occurs, no name twice, a row for every record, which has its value under the name, or none *)
Definition tabulates (rs : list (list (nat * V))) (t : list (nat * list (option V))) : Prop :=
  NoDup (map fst t) /\ (forall k, In k (map fst t) <-> exists r, In r rs /\ In k (map fst r)) /\
  forall k col, In (k, col) t -> length col = length rs /\
    forall i r, nth_error rs i = Some r -> exists o, nth_error col i = Some o /\ forall v, o = Some v <-> In (k, v) r.
(** all rows have a value *)
Definition complete (s : list (nat * list V)) : list (nat * list (option V)) := map (fun kc => (fst kc, map Some (snd kc))) s.
End Exports.

(** the mesh of an input *)
Definition mesh_of {M} (haspyvista : bool) (i : @input M) (m : M) : Prop := i = IPath (Some m) \/ (haspyvista = true /\ (i = IPolyData m \/ i = IGrid m)).
(** an input without a mesh, other than None *)
Definition unreadable {M} (haspyvista : bool) (i : @input M) : Prop := i <> INone /\ forall m, ~ mesh_of haspyvista i m.
(** an integer *)
Definition whole (x : R) : Prop := exists z, x = IZR z.
