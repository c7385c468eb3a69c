(** * Properties C97 and C98: from Abaqus input files to STL files *)
From Coq Require Import Reals Lra Lia ZArith List Permutation String Ascii DecimalString.
From Verif Require Import Base BaseFacts FrameModel FrameSpec FrameProofs InpModel InpSpec InpProofs InpProofs2 InpProofs3 InpProofs4 InpProofs5.
Import ListNotations.
Local Open Scope R_scope.
Local Open Scope string_scope.

(** ** C97 Reading tetrahedra *)

(** Whenever a file is written as the deck says, the vertices are the nodes of all parts in order and the triangles of the meshes are the faces of the solids of the blocks.  Missing: nodes with other labels than 1, 2, 3, ... in each part, keyword lines of tetrahedra that begin differently, and other keywords that begin in the same way (all refuted below). *)
Theorem C97_partial :
  forall int float d lines name flip solids, has_extension ".inp" name = true -> deck_written int float d lines -> Forall plain_line lines -> labelled_in_order d -> means d solids ->
  exists vs ms names, read_inp int float name lines flip = Ok (vs, ms, names) /\ vs = flat_map (fun p => map snd (part_nodes p)) d /\
    Forall2 (mesh_of flip vs) ms solids.
Proof. exact @read_inp_means. Qed.
Print Assumptions C97_partial.
Example C97_ex : deck_written digit digit_r (unit_deck None) unit_lines /\ Forall plain_line unit_lines /\ labelled_in_order (unit_deck None) /\ means (unit_deck None) [[unit_solid]].
Proof. split; [apply unit_written|]. split; [apply unit_plain|]. split; [apply unit_labelled|apply unit_means]. Qed.

(** Every mesh that is read, from any file, is a closed surface: each directed edge occurs as often as its reverse. *)
Theorem C97_closed :
  forall int float name lines flip vs ms names, read_inp int float name lines flip = Ok (vs, ms, names) ->
  Forall (fun m => Permutation (flat_map directed_edges m) (map (fun e => (snd e, fst e)) (flat_map directed_edges m))) ms.
Proof. exact @read_closed. Qed.
Print Assumptions C97_closed.
Example C97_closed_ex : exists vs names, read_inp digit digit_r "a.inp" unit_lines false = Ok (vs, [[[0; 1; 2]; [0; 3; 1]; [3; 2; 1]; [3; 0; 2]]%Z], names).
Proof. do 2 eexists. cbv - [IZR]. reflexivity. Qed.

(** If the labels of the nodes are not 1, 2, 3, ... in this order, other solids are read without a message. *)
Theorem C97_labels_refuted :
  exists int float d lines solids vs ms names, deck_written int float d lines /\ Forall plain_line lines /\ labels_unique d /\ means d solids /\
  read_inp int float "a.inp" lines false = Ok (vs, ms, names) /\ ~ Forall2 (mesh_of false vs) ms solids.
Proof. exact @read_wrong_solid. Qed.
Print Assumptions C97_labels_refuted.
(** Labels that begin with 2: the program fails. *)
Theorem C97_labels_fail_refuted :
  exists int float d lines solids, deck_written int float d lines /\ Forall plain_line lines /\ labels_unique d /\ means d solids /\
  solids <> [] /\ Forall (fun ss => ss <> [] /\ Forall (fun s => volume6 s <> 0) ss) solids /\
  forall flip, inp_to_stl int float "a.inp" "a.stl" flip lines = Err IndexError.
Proof. exact @program_labels_fail. Qed.
Print Assumptions C97_labels_fail_refuted.
(** If the name of the set is written before the type, no tetrahedra are read. *)
Theorem C97_parameters_refuted :
  exists int float d lines solids, deck_written int float d lines /\ labelled_in_order d /\ means d solids /\ Forall (fun ss => ss <> []) solids /\ length solids = 1%nat /\
  forall flip, exists vs names, read_inp int float "a.inp" lines flip = Ok (vs, [], names).
Proof. exact @read_no_tets. Qed.
Print Assumptions C97_parameters_refuted.
(** A file with a request for printed results, *NODE PRINT, is not read. *)
Theorem C97_keywords_refuted :
  exists int float d lines solids, deck_written int float d lines /\ labelled_in_order d /\ means d solids /\ length solids = 1%nat /\
  forall flip, read_inp int float "a.inp" lines flip = Err RuntimeError.
Proof. exact @read_print_fails. Qed.
Print Assumptions C97_keywords_refuted.
(** ** C98 Writing facets *)

(** The program writes one file for each block of tetrahedra, with a facet for each face of each solid and a unit normal by the right hand rule; with --flip the normals of solids with positive volume point out, without it those of solids with negative volume.  Missing: solids with positive volume without --flip, faces between two solids, blocks without tetrahedra and flat tetrahedra (refuted below); the restrictions of C97. *)
Theorem C98_partial :
  forall int float d lines input output (flip : bool) solids, has_extension ".inp" input = true -> (length solids = 1%nat -> has_extension ".stl" output = true) ->
  deck_written int float d lines -> Forall plain_line lines -> labelled_in_order d -> means d solids ->
  solids <> [] -> Forall (fun ss => ss <> [] /\ Forall (fun s => volume6 s <> 0) ss) solids ->
  exists files, inp_to_stl int float input output flip lines = Ok files /\
    Forall2 (fun file ss => Forall2 (fun f su => turned_to (if flip then reversed (snd su) else snd su) (snd f) /\ unit_normal (fst f) (snd f) /\
                                       (right_sense flip (fst su) -> points_out (fst f) (snd f) (fst su)))
                                    (snd file) (faces_with ss)) files solids.
Proof. exact @program_facets. Qed.
Print Assumptions C98_partial.
Example C98_ex : (List.length [[unit_solid]] = 1%nat -> has_extension ".stl" "a.stl" = true) /\ right_sense true unit_solid /\
  exists files, inp_to_stl digit digit_r "a.inp" "a.stl" true unit_lines = Ok files.
Proof. split; [reflexivity|]. split; [cbn [right_sense]; rewrite unit_positive; lra|]. destruct (unit_program true) as (files & E & _). now exists files. Qed.

(** Without the option the normals of tetrahedra numbered as in the manual of Abaqus point into the solid. *)
Theorem C98_inward_refuted :
  exists int float d lines solids files, deck_written int float d lines /\ Forall plain_line lines /\ labelled_in_order d /\ means d solids /\
  Forall (Forall (fun s => 0 < volume6 s)) solids /\ inp_to_stl int float "a.inp" "a.stl" false lines = Ok files /\
  Forall2 (fun file ss => snd file <> [] /\ Forall2 (fun f su => ~ points_out (fst f) (snd f) (fst su)) (snd file) (faces_with ss)) files solids.
Proof. exact @program_inward. Qed.
Print Assumptions C98_inward_refuted.
(** The face between two tetrahedra is written twice: the facets are not the surface of the solid. *)
Theorem C98_interior_refuted :
  exists int float d lines solids, deck_written int float d lines /\ Forall plain_line lines /\ labelled_in_order d /\ means d solids /\
  Forall (Forall (fun s => 0 < volume6 s)) solids /\
  forall flip, exists name fs, inp_to_stl int float "a.inp" "a.stl" flip lines = Ok [(name, fs)] /\
    exists i j f g, i <> j /\ nth_error fs i = Some f /\ nth_error fs j = Some g /\ same_corners (snd f) (snd g).
Proof. exact @program_interior. Qed.
Print Assumptions C98_interior_refuted.
(** A face with its corners on a line: no file is written, the program fails. *)
Theorem C98_flat_refuted :
  forall name vs ts us, has_extension ".stl" name = true -> Forall2 (triangle_at vs) ts us -> Exists (fun u => ~ proper u) us ->
  write_stl name vs ts = Err ZeroDivisionError.
Proof. exact @flat_facet. Qed.
Print Assumptions C98_flat_refuted.
Example C98_flat_ex : let vs := [(0, 0, 0); (1, 0, 0); (2, 0, 0)] in Forall2 (triangle_at vs) [[0; 1; 2]%Z] [((0, 0, 0), (1, 0, 0), (2, 0, 0))] /\
  Exists (fun u => ~ proper u) [((0, 0, 0), (1, 0, 0), (2, 0, 0))].
Proof.
  split; [constructor; [|constructor]; exists 0%nat, 1%nat, 2%nat; repeat split|]. constructor. intros H. apply H. cbn. apply triple_eq; ring.
Qed.

(** The box that is printed is the smallest one that contains the corners of the triangles. *)
Theorem C98_box :
  forall vs ms pss, ms <> [] ->
  Forall2 (fun m ps => Forall2 (fun i p => entry_of vs i p) (List.concat m) ps /\ ps <> []) ms pss ->
  exists lo hi, get_bbox vs ms = Ok (Some (lo, hi)) /\ box_of (List.concat pss) lo hi.
Proof. exact @get_bbox_smallest. Qed.
Print Assumptions C98_box.
Example C98_box_ex : let vs := [(0, 0, 0); (1, 0, 0); (0, 1, 0)] in
  Forall2 (fun m ps => Forall2 (fun i p => entry_of vs i p) (List.concat m) ps /\ ps <> []) [[[0; 1; 2]%Z]] [[(0, 0, 0); (1, 0, 0); (0, 1, 0)]].
Proof.
  cbn zeta. constructor; [|constructor]. split; [|discriminate]. cbn [List.concat app]. constructor; [now exists 0%nat; split; [|left]|]. constructor; [now exists 1%nat; split; [|left]|]. constructor; [now exists 2%nat; split; [|left]|]. constructor.
Qed.

(** Several blocks, one of them without tetrahedra: there is no box and the program fails. *)
Theorem C98_box_empty_refuted :
  forall vs ms, (1 < length ms)%nat -> Exists (fun m => m = []) ms -> forall b, get_bbox vs ms <> Ok b.
Proof. exact @get_bbox_empty. Qed.
Print Assumptions C98_box_empty_refuted.
(** A file in which some block of tetrahedra has no rows gives no files at all. *)
Theorem C98_empty_block_refuted :
  forall int float d lines input output flip solids, deck_written int float d lines -> Forall plain_line lines -> labelled_in_order d -> means d solids ->
  Exists (fun ss => ss = []) solids -> forall files, inp_to_stl int float input output flip lines <> Ok files.
Proof. exact @program_empty. Qed.
Print Assumptions C98_empty_block_refuted.
Example C98_empty_block_ex : deck_written digit digit_r hollow_deck hollow_lines /\ Forall plain_line hollow_lines /\ labelled_in_order hollow_deck /\ means hollow_deck [[]] /\
  Exists (fun ss : list solid => ss = []) [[]].
Proof. exact hollow_ok. Qed.
(** The files of one run have different names. *)
Theorem C98_names :
  forall int float input output flip lines files, inp_to_stl int float input output flip lines = Ok files -> NoDup (map fst files).
Proof. exact @program_names. Qed.
Print Assumptions C98_names.
(** If each block of tetrahedra names its set, the file of the block carries that name, in which every PT_ is left out.  Missing: files in which a block has no name (refuted below). *)
Theorem C98_set_names_partial :
  forall int float input output flip lines files ns, inp_to_stl int float input output flip lines = Ok files -> length files <> 1%nat ->
  Forall2 (fun h n => exists m, upper h = "*ELEMENT, TYPE=C3D4, ELSET=" ++ m ++ newline /\ marks_left_out m n)
          (filter (fun l => prefix "*ELEMENT, TYPE=C3D4" (upper l)) lines) ns ->
  length ns = length files /\
  forall i n file, nth_error ns i = Some n -> nth_error files i = Some file ->
    exists stem, fst file = stem ++ "-" ++ n ++ "-" ++ NilZero.string_of_uint (Nat.to_uint (i + 1)) ++ ".stl" /\ (output = stem \/ exists e, output = stem ++ e /\ stl_extension e).
Proof. exact @program_set_names. Qed.
Print Assumptions C98_set_names_partial.
Example C98_set_names_ex : (exists files, inp_to_stl digit digit_r "a.inp" "a.stl" true named_lines = Ok files /\ List.length files = 2%nat) /\
  Forall2 (fun h n => exists m, upper h = "*ELEMENT, TYPE=C3D4, ELSET=" ++ m ++ newline /\ marks_left_out m n)
          (filter (fun l => prefix "*ELEMENT, TYPE=C3D4" (upper l)) named_lines) ["A"; "B"].
Proof.
  split.
  - destruct (named_run true) as (files & E & N). exists files. split; [exact E|]. apply (f_equal (@List.length _)) in N. rewrite map_length in N. exact N.
  - replace (filter _ named_lines) with [line "*Element, type=C3D4, Elset=A"; line "*Element, type=C3D4, Elset=B"] by (vm_compute; reflexivity).
    assert (U : forall x, occurs "PT_" x = false -> marks_left_out x x) by (intros x H; exists [x]; split; [discriminate|]; split; [constructor; [exact (no_pt x H)|constructor]|]; split; reflexivity).
    constructor; [exists "A"; split; [reflexivity|apply U; reflexivity]|]. constructor; [exists "B"; split; [reflexivity|apply U; reflexivity]|constructor].
Qed.
Example C98_marks_ex : marks_left_out "PT_LEFT_PT_2" "LEFT_2".
Proof. exists [""; "LEFT_"; "2"]. split; [discriminate|]. split; [constructor; [unfold unmarked; apply no_pt; reflexivity|]; constructor; [unfold unmarked; apply no_pt; reflexivity|]; constructor; [unfold unmarked; apply no_pt; reflexivity|constructor]|]. split; reflexivity. Qed.
(** The letters of lines and extensions: [upper] and [lower] exchange the letters of the two alphabets and nothing else. *)
Theorem C98_letters :
  forall s, with_letters small_letters big_letters s (upper s) /\ with_letters big_letters small_letters s (lower s).
Proof. exact @letters_exchanged. Qed.
Print Assumptions C98_letters.
Example C98_letters_ex : upper "*Node, 1" = "*NODE, 1" /\ lower ".StL" = ".stl".
Proof. split; reflexivity. Qed.

(** A block without a name shifts the names: the file of the first block carries the name of the second set. *)
Theorem C98_set_names_refuted :
  exists int float d lines solids, deck_written int float d lines /\ Forall plain_line lines /\ labelled_in_order d /\ means d solids /\
  map (fun b => snd (fst b)) (tet_blocks d) = [None; Some "B"] /\
  forall flip, exists files, inp_to_stl int float "a.inp" "a.stl" flip lines = Ok files /\ map fst files = ["a-B-1.stl"; "a-2.stl"].
Proof. exact @program_shifted. Qed.
Print Assumptions C98_set_names_refuted.