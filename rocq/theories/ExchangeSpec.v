(** * Specifications for [ExchangeModel.v], independent of its functions *)
From Coq Require Import Reals List Lia.
From Verif Require Export SpaceSpec ExchangeModel.
Import ListNotations.

(** ** Meshes of other packages *)

(** the cells have frames: lines have different ends, the corners of surfaces are not on a line; any solid cells *)
Definition importable (coords : list (list R)) (c : cellclass) (topo : list (list nat)) : Prop :=
  cndim c = 1 /\ (exists ecs, mesh_at coords topo ecs /\ Forall (fun ec => ec <> [] /\ forall p0 pl, line_ends ec p0 pl -> p0 <> pl) ecs) \/
  cndim c = 2 /\ (exists ecs, mesh_at coords topo ecs /\ Forall (fun ec => 3 <= length ec /\ solid_surface ec) ecs) \/
  cndim c = 3.
(** the frames of the cells of a block: along the lines; those of the surfaces; the global axes for solids *)
Definition block_frames (coords : list (list R)) (b : cellblock) : Prop :=
  cndim (bclass b) = 1 /\ (exists ecs, mesh_at coords (btopo b) ecs /\
    Forall2 (fun ec fr => forall p0 pl, line_ends ec p0 pl -> line_frame_auto p0 pl fr) ecs (bframes b)) \/
  cndim (bclass b) = 2 /\ (exists ecs, mesh_at coords (btopo b) ecs /\
    Forall2 (fun ec fr => forall p0 p1 pl, corners ec p0 p1 pl -> surface_frame p0 p1 pl fr) ecs (bframes b)) \/
  cndim (bclass b) = 3 /\ length (bframes b) = length (btopo b) /\ Forall (eq [unit_vector 0; unit_vector 1; unit_vector 2]) (bframes b).
(** the entry [kb] of the mesh is the block for the cells [cb]: its key is the type, its class the one registered for it, with the same nodes *)
Definition block_for (registry : dict cellclass) (coords : list (list R)) (cb : nat * list (list nat)) (kb : nat * cellblock) : Prop :=
  fst kb = fst cb /\ In (fst cb, bclass (snd kb)) registry /\ btopo (snd kb) = snd cb /\ block_frames coords (snd kb).
(** the type has a class *)
Definition supported (registry : dict cellclass) (ty : nat) : bool := existsb (Nat.eqb ty) (map fst registry).
(** all supported cells have frames *)
Definition all_importable (registry : dict cellclass) (coords : list (list R)) (cells : list (nat * list (list nat))) : Prop :=
  forall ty topo c, In (ty, topo) cells -> In (ty, c) registry -> importable coords c topo.
(** number of cells of a mesh of the other package and of ours *)
Definition cells_given (cells : list (nat * list (list nat))) : nat := length (concat (map snd cells)).
Definition cells_made (m : imported) : nat := length (concat (map (fun kb => btopo (snd kb)) (iblocks m))).

(** ** Lists of records *)
Section Tables.
Context {V : Type}.
(** a database: at least one field, no field twice, [n] entries in each column *)
Definition database (n : nat) (d : list (nat * list V)) : Prop :=
  d <> [] /\ NoDup (map fst d) /\ Forall (fun kc => length (snd kc) = n) d.
(** the records of the database, restricted to the fields [fs]: record [i] consists of entry [i] of each of these columns *)
Definition records_of (fs : list nat) (d : list (nat * list V)) (l : list (list (nat * V))) : Prop :=
  (forall n, database n d -> length l = n) /\
  forall i r, nth_error l i = Some r -> map fst r = fs /\
    forall f v, In (f, v) r -> exists col, In (f, col) d /\ nth_error col i = Some v.
(** the fields to be written: those asked for, otherwise all *)
Definition wanted (fields : option (list nat)) (d : list (nat * list V)) : list nat :=
  match fields with Some fs => fs | None => map fst d end.
(** all of the fields exist in the database, none is asked for twice, at least one is *)
Definition available (fields : option (list nat)) (d : list (nat * list V)) : Prop :=
  match fields with Some fs => fs <> [] /\ NoDup fs /\ incl fs (map fst d) | None => True end.
(** the records of some databases one after the other *)
Definition records_of_all (fields : option (list nat)) (ds : list (list (nat * list V))) (l : list (list (nat * V))) : Prop :=
  exists parts, l = concat parts /\ Forall2 (fun d part => records_of (wanted fields d) d part) ds parts.
(** the names given as [fields] and then those given as further arguments *)
Definition asked (args : list nat) (fields : given) : list nat :=
  match fields with Absent => args | GivenList l => l ++ args | GivenTuple l => l ++ args end.
(** the columns of the fields [fs], in this order *)
Definition columns_of (fs : list nat) (d s : list (nat * list V)) : Prop := map fst s = fs /\ incl s d.
End Tables.

(** ** Classes *)

(** after some class statements: the class that was defined last with the property *)
Definition last_with {A} (P : A -> Prop) (l : list A) (x : A) : Prop :=
  exists pre post, l = pre ++ x :: post /\ P x /\ Forall (fun y => ~ P y) post.
(** the dictionary has the value [v] for the key [k] *)
Definition entry (d : dict nat) (k : nat) (v : nat) : Prop := dget d k = Ok v.
