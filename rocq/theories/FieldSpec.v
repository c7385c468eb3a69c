(** * Specifications for [FieldModel.v] *)
From Coq Require Import Reals String List.
From Verif Require Export FrameSpec FieldModel.
From Verif Require NodalSpec LocSpec.
Import ListNotations.
Local Open Scope R_scope.
Local Open Scope string_scope.

(** all columns have [n] rows *)
Definition of_length (n : nat) (d : table) : Prop := forall k v, In (k, v) d -> clen v = n.
(** the arrays among arguments, all with [n] rows *)
Definition arrays_of_length (n : nat) (kw : kwargs) : Prop := forall k c, In (k, Arr c) kw -> clen c = n.
(** the name of the column of cells: the names of attributes have an underscore before them *)
Definition column_name (k : string) : string :=
  if existsb (String.eqb k) ["nodes"; "frames"; "ndf"; "id"; "areas"; "t"; "activity"] then "_" ++ k else k.
(** the columns have different names, also if names of attributes stand for those of the columns *)
Definition separate (d : table) : Prop := NoDup (map (fun kv => column_name (fst kv)) d).
(** numbers of nodes of the classes of cells a mesh takes by itself (the classes are the subject of C156) *)
Definition class_width (n : nat) : Prop := In n [2; 3; 4; 6; 8; 9; 10; 18; 27]%nat.
(** names in the table of points, or cells, that the mesh sets *)
Definition own_point_key (k : string) : Prop := k = "_x" \/ k = "_activity" \/ k = "_id".
Definition own_cell_key (k : string) : Prop := k = "_nodes" \/ k = "_id".
(** the frames a mesh gives its cells: the argument frames, if it is a frame or an array, otherwise, if it is absent, the axes of the mesh *)
Definition mesh_frames (frames : option frames_arg) (f : option frame) (n : nat) : option (list mat) :=
  match frames with
  | Some (AFrame g) => Some (repeat (axes g) n)
  | Some (AMatrix m) => Some (repeat m n)
  | Some (AMatrices l) => Some l
  | Some AOther => None
  | None => match f with Some g => Some (repeat (axes g) n) | None => None end
  end.
(** the point of the plane with a zero as the coordinate along the new axis *)
Definition embedded (newaxis : nat) (p : R * R) (v : vec) : Prop :=
  match newaxis with
  | 0%nat => v = (0, fst p, snd p)
  | 1%nat => v = (fst p, 0, snd p)
  | 2%nat => v = (fst p, snd p, 0)
  | _ => False
  end.
(** the amount of each of [n] cells *)
Definition amounts (a : amount) (n : nat) (l : list R) : Prop := match a with Each x => l = repeat x n | PerCell l' => l = l' end.
(** the components of a position *)
Definition components (v : vec) : list R := [fst (fst v); snd (fst v); snd v].
Definition components_2 (p : R * R) : list R := [fst p; snd p].
(** the frames a database of cells gives them: one for all or one for each *)
Definition given_frames (a : frames_arg) (n : nat) (l : list mat) : Prop :=
  match a with
  | AFrame g => l = repeat (axes g) n
  | AMatrix m => l = repeat m n
  | AMatrices [m] => l = repeat m n
  | AMatrices l' => l = l' /\ length l' = n
  | AOther => False
  end.
(** the columns of a dictionary that may be absent *)
Definition given_columns (o : option table) : table := match o with Some d => d | None => [] end.
(** the frame of positions *)
Definition frame_or_standard (f : option frame) : frame := match f with Some g => g | None => standard end.
