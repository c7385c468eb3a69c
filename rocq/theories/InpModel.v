(** * Model of src/polymesh/io/inp2stl.py: tetrahedra of an Abaqus input file as triangles of STL files

    Definitions only, over the reals.  The file system is left out: the content of the input file is given as the list of its lines (each
    with the character that ends it), and the files that are written are given as their names and facets (195-243: the text of a facet
    consists of the normal and the three vertices).  The builtin functions [int] and [float] of a string are arguments of the model
    ([None] means ValueError).  A plain [Exception] is reported as RuntimeError. *)
From Coq Require Import Reals ZArith String Ascii DecimalString.
From Verif Require Export FrameModel.
Local Open Scope R_scope.
Local Open Scope string_scope.

(** ** Strings *)

(** [str.upper] and [str.lower], letters of ASCII *)
Definition upper_char (c : ascii) : ascii :=
  let n := nat_of_ascii c in if (Nat.leb 97 n && Nat.leb n 122)%bool then ascii_of_nat (n - 32) else c.
Definition lower_char (c : ascii) : ascii :=
  let n := nat_of_ascii c in if (Nat.leb 65 n && Nat.leb n 90)%bool then ascii_of_nat (n + 32) else c.
Fixpoint map_string (f : ascii -> ascii) (s : string) : string :=
  match s with "" => "" | String c t => String (f c) (map_string f t) end.
Definition upper (s : string) : string := map_string upper_char s.
Definition lower (s : string) : string := map_string lower_char s.
(** [line.split(",")] *)
Fixpoint split_commas (s : string) : list string :=
  match s with
  | "" => [""]
  | String c t =>
      if Ascii.eqb c "," then "" :: split_commas t
      else match split_commas t with w :: ws => String c w :: ws | [] => [] end
  end.
(** [s.replace("PT_", "")]; [k]: how many characters are left out *)
Fixpoint leave_out (k : nat) (s : string) : string :=
  match s with
  | "" => ""
  | String c t => match k with S k' => leave_out k' t | O => if prefix "PT_" s then leave_out 2 t else String c (leave_out 0 t) end
  end.
Definition without_pt (s : string) : string := leave_out 0 s.
(** [s[len(s) - 4:].lower() == ext], isFileExtensionINF and isFileExtensionSTL, 70-75 *)
Definition has_extension (ext name : string) : bool := String.eqb (lower (substring (String.length name - 4) 4 name)) ext.

(** ** Reading, 78-192 *)

(** the variables of the loop: [record_type], [vertex_set], [triangle_index_set], [material_set], [vertex_set_offset] *)
Record reading := Reading { record : option string; vertices : list vec; meshes : list (list (list Z)); materials : list string; offset : nat }.
(** 85-93 *)
Definition start : reading := Reading None [] [] [] 0.
(** the part of a record behind ELSET=, 109-114, without the last character *)
Definition material_of (rt : string) : list string :=
  match index 0 "ELSET=" rt with
  | Some i => let s := (i + 6)%nat in let e := (String.length rt - 1)%nat in [without_pt (substring s (e - s) rt)]
  | None => []
  end.
(** [triangle_index_set[-1].append(..)] *)
Fixpoint append_last {A} (l : list (list A)) (x : list A) : res (list (list A)) :=
  match l with
  | [] => Err IndexError
  | [t] => Ok [(t ++ x)%list]
  | t :: r => do r' <- append_last r x; Ok (t :: r')
  end.
(** a number of a line, ValueError if the text is not a number *)
Definition number_in {A} (parse : string -> option A) (s : string) : res A := match parse s with Some x => Ok x | None => Err ValueError end.

Section Read.
  Context (int : string -> option Z) (float : string -> option R).

  (** 118-128: a line of *NODE *)
  Definition read_node (line : string) (s : reading) : res reading :=
    match split_commas line with
    | [_; a; b; c] =>
        do x <- number_in float a; do y <- number_in float b; do z <- number_in float c;
        Ok (Reading (record s) (vertices s ++ [(x, y, z)])%list (meshes s) (materials s) (offset s))
    | _ => Err RuntimeError
    end.
  (** 130-165: a line of *ELEMENT, TYPE=C3D4 *)
  Definition read_tet (line : string) (s : reading) : res reading :=
    match split_commas line with
    | [_; a; b; c; d] =>
        do i1 <- number_in int a; do i2 <- number_in int b; do i3 <- number_in int c; do i4 <- number_in int d;
        let o := Z.of_nat (offset s) in
        let n1 := (i1 - 1 + o)%Z in let n2 := (i2 - 1 + o)%Z in let n3 := (i3 - 1 + o)%Z in let n4 := (i4 - 1 + o)%Z in
        do m <- append_last (meshes s) [[n1; n2; n3]; [n1; n4; n2]; [n4; n3; n2]; [n4; n1; n3]];
        Ok (Reading (record s) (vertices s) m (materials s) (offset s))
    | _ => Err RuntimeError
    end.
  (** 96-174: one line *)
  Definition read_line (s : reading) (line : string) : res reading :=
    match line with
    | "" => Err IndexError
    | String c rest =>
        if Ascii.eqb c "*" then
          match rest with
          | "" => Err IndexError
          | String d _ =>
              if Ascii.eqb d "*" then Ok s
              else
                let rt := upper line in
                if prefix "*PART" rt then Ok (Reading (Some rt) (vertices s) (meshes s) (materials s) (length (vertices s)))
                else if prefix "*ELEMENT, TYPE=C3D4" rt then
                  Ok (Reading (Some rt) (vertices s) (meshes s ++ [[]])%list (materials s ++ material_of rt)%list (offset s))
                else Ok (Reading (Some rt) (vertices s) (meshes s) (materials s) (offset s))
          end
        else
          match record s with
          | None => Err TypeError
          | Some rt =>
              if prefix "*HEADING" rt then Ok s
              else if (prefix "*NODE" rt && negb (prefix "*NODE OUTPUT" rt))%bool then read_node line s
              else if prefix "*ELEMENT, TYPE=C3D4" rt then read_tet line s
              else Ok s
          end
    end.
  (** 177-190: the second and third corner of each triangle exchanged *)
  Definition flip_triangle (t : list Z) : res (list Z) :=
    match t with a :: b :: c :: _ => Ok [a; c; b] | _ => Err IndexError end.
  (** readInpFile, 78-192 *)
  Definition read_inp (name : string) (lines : list string) (flip : bool) : res (list vec * list (list (list Z)) * list string) :=
    do _ <- guard (has_extension ".inp" name) RuntimeError;
    do s <- foldM read_line lines start;
    do m <- if flip then mapM (mapM flip_triangle) (meshes s) else Ok (meshes s);
    Ok (vertices s, m, materials s).
End Read.

(** ** Writing, 195-243 *)

(** computeLength, 47-50, computeNormal, 53-67: the division of floats by zero raises *)
Definition length3 (v : vec) : R := sqrt (vdot3 v v).
Definition compute_normal (p1 p2 p3 : vec) : res vec :=
  let '(u0, u1, u2) := vminus p2 p1 in
  let '(v0, v1, v2) := vminus p3 p1 in
  let n := (u1 * v2 - u2 * v1, u2 * v0 - u0 * v2, u0 * v1 - u1 * v0) in
  let l := length3 n in
  if Req_EM_T l 0 then Err ZeroDivisionError else let '(n0, n1, n2) := n in Ok (n0 / l, n1 / l, n2 / l).
(** a facet: the normal and the vertices *)
Definition facet : Type := vec * (vec * vec * vec).
(** writeStlFile, 195-243 *)
Definition write_facet (vs : list vec) (t : list Z) : res facet :=
  match t with
  | i1 :: i2 :: i3 :: _ =>
      do p1 <- np_get vs i1; do p2 <- np_get vs i2; do p3 <- np_get vs i3;
      do n <- compute_normal p1 p2 p3; Ok (n, (p1, p2, p3))
  | _ => Err IndexError
  end.
Definition write_stl (name : string) (vs : list vec) (ts : list (list Z)) : res (string * list facet) :=
  do _ <- guard (has_extension ".stl" name) RuntimeError;
  do fs <- mapM (write_facet vs) ts; Ok (name, fs).

(** ** Bounding box, 246-288 *)

Definition vmin (a b : vec) : vec := let '(a0, a1, a2) := a in let '(b0, b1, b2) := b in (Rmin a0 b0, Rmin a1 b1, Rmin a2 b2).
Definition vmax (a b : vec) : vec := let '(a0, a1, a2) := a in let '(b0, b1, b2) := b in (Rmax a0 b0, Rmax a1 b1, Rmax a2 b2).
(** getMeshBBox, 246-266 *)
Definition mesh_bbox (vs : list vec) (ts : list (list Z)) : res (option (vec * vec)) :=
  foldM (fun box i => do p <- np_get vs i;
                      Ok (Some (match box with None => (p, p) | Some (lo, hi) => (vmin lo p, vmax hi p) end))) (concat ts) None.
(** getBBox, 269-288; without a mesh the variables are not bound (UnboundLocalError, a NameError); several meshes, one of them without
    triangles: TypeError, 280-286 *)
Definition get_bbox (vs : list vec) (ms : list (list (list Z))) : res (option (vec * vec)) :=
  match ms with
  | [] => Err NameError
  | m :: rest =>
      do b <- mesh_bbox vs m;
      foldM (fun box m => do t <- mesh_bbox vs m;
                          match box, t with
                          | Some (lo, hi), Some (tlo, thi) => Ok (Some (vmin lo tlo, vmax hi thi))
                          | _, _ => Err TypeError
                          end) rest b
  end.

(** ** The program, 291-341 *)

(** [str(n)] *)
Definition str_nat (n : nat) : string := NilZero.string_of_uint (Nat.to_uint n).
(** 323-338: the name of the file of mesh [i] of several *)
Definition file_name (output : string) (materials : list string) (i : nat) : string :=
  let stem := if has_extension ".stl" output then substring 0 (String.length output - 4) output else output in
  match nth_error materials i with
  | Some m => stem ++ "-" ++ m ++ "-" ++ str_nat (i + 1) ++ ".stl"
  | None => stem ++ "-" ++ str_nat (i + 1) ++ ".stl"
  end.
(** 300-341; the differences of the corners of the box, 309-313, raise TypeError if there is no box *)
Definition inp_to_stl (int : string -> option Z) (float : string -> option R) (input output : string) (flip : bool) (lines : list string)
  : res (list (string * list facet)) :=
  do r <- read_inp int float input lines flip;
  let '(vs, ms, mats) := r in
  do box <- get_bbox vs ms;
  do _ <- guard (match box with None => false | Some _ => true end) TypeError;
  match ms with
  | [m] => do f <- write_stl output vs m; Ok [f]
  | _ => mapM (fun im => write_stl (file_name output mats (fst im)) vs (snd im)) (enum ms)
  end.
