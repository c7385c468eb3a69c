(** * Specifications for [InpModel.v]: what an Abaqus input file says, triangles and solids *)
From Coq Require Import Reals ZArith List String Ascii.
From Verif Require Export InpModel.
Import ListNotations.
Local Open Scope R_scope.
Local Open Scope string_scope.

(** ** Input files

    A deck is a list of parts, a part a list of blocks: nodes with their labels and coordinates, tetrahedra with the labels of their corners
    (the name of the set if there is one), or something else.  Labels refer to the nodes of the same part. *)
Inductive item :=
| Nodes (l : list (Z * vec))
| Tets (name : option string) (l : list (Z * Z * Z * Z))
| Other.
Definition deck := list (list item).
Definition item_nodes (i : item) : list (Z * vec) := match i with Nodes l => l | _ => [] end.
Definition part_nodes (p : list item) : list (Z * vec) := flat_map item_nodes p.
(** a tetrahedron as the places of its corners *)
Definition solid : Type := vec * vec * vec * vec.
Definition corners_of (p : list item) (t : Z * Z * Z * Z) (s : solid) : Prop :=
  let '(a, b, c, d) := t in let '(A, B, C, D) := s in
  In (a, A) (part_nodes p) /\ In (b, B) (part_nodes p) /\ In (c, C) (part_nodes p) /\ In (d, D) (part_nodes p).
(** the blocks of tetrahedra with their part, in the order of the file *)
Definition item_tets (p : list item) (i : item) : list (list item * option string * list (Z * Z * Z * Z)) :=
  match i with Tets n l => [(p, n, l)] | _ => [] end.
Definition tet_blocks (d : deck) : list (list item * option string * list (Z * Z * Z * Z)) := flat_map (fun p => flat_map (item_tets p) p) d.
(** the solids of a deck, block by block *)
Definition means (d : deck) (solids : list (list solid)) : Prop :=
  Forall2 (fun b ss => Forall2 (corners_of (fst (fst b))) (snd b) ss) (tet_blocks d) solids.
(** every label is the label of one node of its part *)
Definition labels_unique (d : deck) : Prop := Forall (fun p => NoDup (map fst (part_nodes p))) d.

(** ** How a deck is written

    Keywords and parameters are written in letters of any case; lines that begin with two stars are comments. *)
Definition newline : string := String (ascii_of_nat 10) "".
(** behind a keyword or a parameter: a comma, or the end of the line *)
Definition ends (s : string) : Prop := s = "" \/ s = newline \/ exists t, s = "," ++ t.
Definition keyword (k line : string) : Prop := exists rest, upper line = k ++ rest /\ ends rest.
Definition blanks (s : string) : Prop := exists n, s = String.concat "" (repeat " " n).
Definition parameter (p line : string) : Prop := exists a b rest, upper line = a ++ "," ++ b ++ p ++ rest /\ blanks b /\ ends rest.
Definition comment (line : string) : Prop := exists t, line = "**" ++ t.
(** a keyword line: a star, and not a comment *)
Definition command (line : string) : Prop := exists c t, line = "*" ++ String c t /\ c <> "*"%char.
(** a text in which the mark PT_ is left out wherever it occurs *)
Definition unmarked (s : string) : Prop := forall a b, s <> a ++ "PT_" ++ b.
Definition marks_left_out (s t : string) : Prop :=
  exists parts, parts <> [] /\ Forall unmarked parts /\ s = String.concat "PT_" parts /\ t = String.concat "" parts.
(** the letters, and two texts that differ at most in letters of [from] where the other one has the letters of [to] *)
Definition small_letters : string := "abcdefghijklmnopqrstuvwxyz".
Definition big_letters : string := "ABCDEFGHIJKLMNOPQRSTUVWXYZ".
Definition letter_for (from to : string) (c d : ascii) : Prop :=
  (exists k, String.get k from = Some c /\ String.get k to = Some d) \/ ((forall k, String.get k from <> Some c) /\ d = c).
Definition with_letters (from to s t : string) : Prop := Forall2 (letter_for from to) (list_ascii_of_string s) (list_ascii_of_string t).
(** the extension of STL files in letters of any case *)
Definition stl_extension (e : string) : Prop := In e [".stl"; ".stL"; ".sTl"; ".sTL"; ".Stl"; ".StL"; ".STl"; ".STL"].
Definition data_line (line : string) : Prop := exists c t, line = String c t /\ c <> "*"%char.
(** texts between commas *)
Definition no_comma (s : string) : Prop := ~ In ","%char (list_ascii_of_string s).
Definition commas (fields : list string) (line : string) : Prop := Forall no_comma fields /\ line = String.concat "," fields.

Section Written.
  Context (int : string -> option Z) (float : string -> option R).
  Definition node_line (n : Z * vec) (line : string) : Prop :=
    let '(l, (x, y, z)) := n in data_line line /\
    exists t a b c, commas [t; a; b; c] line /\ int t = Some l /\ float a = Some x /\ float b = Some y /\ float c = Some z.
  Definition tet_line (e : Z * Z * Z * Z) (line : string) : Prop :=
    let '(i, j, k, l) := e in data_line line /\
    exists t a b c d, commas [t; a; b; c; d] line /\ int a = Some i /\ int b = Some j /\ int c = Some k /\ int d = Some l.
  (** the lines of a block, with comments between *)
  Inductive rows_written {A} (R : A -> string -> Prop) : list A -> list string -> Prop :=
  | rows_nil : rows_written R [] []
  | rows_note : forall l lines c, comment c -> rows_written R l lines -> rows_written R l (c :: lines)
  | rows_row : forall x l line lines, R x line -> rows_written R l lines -> rows_written R (x :: l) (line :: lines).
  (** keyword lines *)
  Definition nodes_head (line : string) : Prop := command line /\ keyword "*NODE" line.
  Definition tets_head (name : option string) (line : string) : Prop :=
    command line /\ keyword "*ELEMENT" line /\ parameter "TYPE=C3D4" line /\
    match name with Some n => parameter ("ELSET=" ++ n) line | None => forall n, ~ parameter ("ELSET=" ++ n) line end.
  Definition part_head (line : string) : Prop := command line /\ keyword "*PART" line.
  Definition other_head (line : string) : Prop :=
    command line /\ ~ keyword "*NODE" line /\ ~ keyword "*PART" line /\ ~ (keyword "*ELEMENT" line /\ parameter "TYPE=C3D4" line).
  Definition item_written (i : item) (lines : list string) : Prop :=
    match i with
    | Nodes l => exists h r, lines = h :: r /\ nodes_head h /\ rows_written node_line l r
    | Tets n l => exists h r, lines = h :: r /\ tets_head n h /\ rows_written tet_line l r
    | Other => exists h r, lines = h :: r /\ other_head h /\ Forall (fun s => data_line s \/ comment s) r
    end.
  Definition items_written (p : list item) (lines : list string) : Prop :=
    exists ls, lines = List.concat ls /\ Forall2 item_written p ls.
  (** the first part needs no keyword line *)
  Definition part_written (p : list item) (lines : list string) : Prop :=
    exists h c r, lines = h :: (c ++ r)%list /\ part_head h /\ Forall comment c /\ items_written p r.
  Definition deck_written (d : deck) (lines : list string) : Prop :=
    match d with
    | [] => Forall comment lines
    | p :: ps => exists c r ls, lines = (c ++ r ++ List.concat ls)%list /\ Forall comment c /\ items_written p r /\ Forall2 part_written ps ls
    end.
End Written.

(** ** Restrictions under which the program reads decks as they are meant *)

(** the nodes of every part are labelled 1, 2, 3, ... *)
Definition labelled_in_order (d : deck) : Prop :=
  Forall (fun p => map fst (part_nodes p) = map Z.of_nat (seq 1 (length (part_nodes p)))) d.
(** how the keyword line of tetrahedra begins; no other keyword begins like that of nodes, parts or tetrahedra *)
Definition plain_line (line : string) : Prop :=
  (command line -> keyword "*ELEMENT" line -> parameter "TYPE=C3D4" line -> prefix "*ELEMENT, TYPE=C3D4" (upper line) = true) /\
  (other_head line -> prefix "*NODE OUTPUT" (upper line) = true \/
     prefix "*NODE" (upper line) = false /\ prefix "*PART" (upper line) = false /\ prefix "*ELEMENT, TYPE=C3D4" (upper line) = false).

(** ** Triangles *)

Definition triangle : Type := vec * vec * vec.
(** the same corners in the same sense of rotation *)
Definition turned_to (t u : triangle) : Prop := let '(a, b, c) := t in u = (a, b, c) \/ u = (b, c, a) \/ u = (c, a, b).
(** the faces of a tetrahedron, as numbered in the manuals of Abaqus and CalculiX *)
Definition faces_of (s : solid) : list triangle := let '(A, B, C, D) := s in [(A, B, C); (A, D, B); (B, D, C); (C, D, A)].
Definition reversed (t : triangle) : triangle := let '(a, b, c) := t in (a, c, b).
(** the corners of a triangle given by the positions of its vertices *)
Definition triangle_at (vs : list vec) (t : list Z) (u : triangle) : Prop :=
  let '(a, b, c) := u in exists i j k : nat, t = [Z.of_nat i; Z.of_nat j; Z.of_nat k] /\
    nth_error vs i = Some a /\ nth_error vs j = Some b /\ nth_error vs k = Some c.
(** the triangles of a mesh are the faces of the solids *)
Definition mesh_of (flip : bool) (vs : list vec) (ts : list (list Z)) (ss : list solid) : Prop :=
  Forall2 (fun t u => exists v, triangle_at vs t v /\ turned_to (if flip then reversed u else u) v) ts (flat_map faces_of ss).
(** vectors *)
Definition along (p q : vec) : vec := let '(p0, p1, p2) := p in let '(q0, q1, q2) := q in (q0 - p0, q1 - p1, q2 - p2).
Definition inner (u v : vec) : R := let '(u0, u1, u2) := u in let '(v0, v1, v2) := v in u0 * v0 + u1 * v1 + u2 * v2.
Definition outer (u v : vec) : vec :=
  let '(u0, u1, u2) := u in let '(v0, v1, v2) := v in (u1 * v2 - u2 * v1, u2 * v0 - u0 * v2, u0 * v1 - u1 * v0).
(** six times the volume of a tetrahedron, positive if the fourth corner lies on the side from which the first three are seen counterclockwise *)
Definition volume6 (s : solid) : R := let '(A, B, C, D) := s in inner (outer (along A B) (along A C)) (along A D).
(** a vector points away from a solid at a face: the corners of the solid lie on the other side *)
Definition points_out (n : vec) (t : triangle) (s : solid) : Prop :=
  let '(P, _, _) := t in let '(A, B, C, D) := s in
  Forall (fun Q => inner n (along P Q) <= 0) [A; B; C; D] /\ Exists (fun Q => inner n (along P Q) < 0) [A; B; C; D].
(** a unit vector perpendicular to the triangle from whose side it is seen counterclockwise *)
Definition unit_normal (n : vec) (t : triangle) : Prop :=
  let '(a, b, c) := t in inner n n = 1 /\ inner n (along a b) = 0 /\ inner n (along a c) = 0 /\ 0 < inner n (outer (along a b) (along a c)).
(** the corners are not on a line *)
Definition proper (t : triangle) : Prop := let '(a, b, c) := t in outer (along a b) (along a c) <> (0, 0, 0).

(** the faces of several solids, each with the solid *)
Definition faces_with (ss : list solid) : list (solid * triangle) := flat_map (fun s => map (pair s) (faces_of s)) ss.
(** a sense of rotation for which the normals point out: with the triangles reversed that of solids with positive volume *)
Definition right_sense (flip : bool) (s : solid) : Prop := if flip then 0 < volume6 s else volume6 s < 0.
(** the same three corners *)
Definition same_corners (t u : triangle) : Prop := turned_to t u \/ turned_to (reversed t) u.
(** the directed edges of a triangle *)
Definition directed_edges (t : list Z) : list (Z * Z) := match t with [a; b; c] => [(a, b); (b, c); (c, a)] | _ => [] end.

(** ** Boxes *)
Definition within (lo hi p : vec) : Prop :=
  let '(l0, l1, l2) := lo in let '(h0, h1, h2) := hi in let '(p0, p1, p2) := p in l0 <= p0 <= h0 /\ l1 <= p1 <= h1 /\ l2 <= p2 <= h2.
(** the smallest box that contains the points *)
Definition box_of (ps : list vec) (lo hi : vec) : Prop :=
  Forall (within lo hi) ps /\ forall lo' hi', Forall (within lo' hi') ps -> within lo' hi' lo /\ within lo' hi' hi.
