(** * Proofs about [InpModel.v]: concrete files *)
From Coq Require Import Reals ZArith List String Ascii Lia Lra.
From Verif Require Import Base BaseFacts FrameModel FrameSpec FrameProofs InpModel InpSpec InpProofs InpProofs2 InpProofs3 InpProofs4.
Import ListNotations.
Local Open Scope R_scope.
Local Open Scope string_scope.

(** numbers of one digit *)
Definition digit (s : string) : option Z := match s with String c _ => Some (Z.of_nat (nat_of_ascii c - 48)) | "" => None end.
Definition digit_r (s : string) : option R := match digit s with Some z => Some (IZR z) | None => None end.
Definition line (s : string) : string := s ++ newline.

Lemma commas_line fs s : forallb (fun f => negb (existsb (Ascii.eqb ",") (list_ascii_of_string f))) fs = true -> s = String.concat "," fs -> commas fs s.
Proof.
  intros H E. split; [|exact E]. apply Forall_forall. intros f I J. rewrite forallb_forall in H. specialize (H f I). apply negb_true_iff in H.
  assert (X : existsb (Ascii.eqb ",") (list_ascii_of_string f) = true); [|congruence]. apply existsb_exists. exists ","%char. split; [exact J|apply Ascii.eqb_refl].
Qed.
Lemma data_here c t : c <> "*"%char -> data_line (String c t).
Proof. intros H. exists c, t. now split. Qed.
Lemma command_here c t : c <> "*"%char -> command (String "*" (String c t)).
Proof. intros H. exists c, t. now split. Qed.
Ltac node_row := split; [apply data_here; discriminate|]; do 4 eexists;
  split; [eapply (commas_line [_; _; _; _]); [|reflexivity]; reflexivity|]; repeat split; reflexivity.
Lemma keyword_here k rest s : upper s = k ++ rest -> ends rest -> keyword k s.
Proof. intros E H. now exists rest. Qed.

(** ** A tetrahedron *)
Definition unit_deck (name : option string) : deck :=
  [[Nodes [(1%Z, (0, 0, 0)); (2%Z, (1, 0, 0)); (3%Z, (0, 1, 0)); (4%Z, (0, 0, 1))]; Tets name [(1, 2, 3, 4)%Z]]].
Definition unit_nodes : list string := map line ["*Node"; "1,0,0,0"; "2,1,0,0"; "3,0,1,0"; "4,0,0,1"].
Definition unit_lines : list string := (unit_nodes ++ map line ["*Element, type=C3D4"; "1,1,2,3,4"])%list.
Definition unit_solid : solid := ((0, 0, 0), (1, 0, 0), (0, 1, 0), (0, 0, 1)).
Lemma node_row_written l x y z t a b c s : data_line s -> commas [t; a; b; c] s -> digit t = Some l -> digit_r a = Some x -> digit_r b = Some y -> digit_r c = Some z ->
  node_line digit digit_r (l, (x, y, z)) s.
Proof. intros D C T A B E. split; [exact D|]. exists t, a, b, c. auto. Qed.
Lemma tet_row_written i j k l t a b c d s : data_line s -> commas [t; a; b; c; d] s -> digit a = Some i -> digit b = Some j -> digit c = Some k -> digit d = Some l ->
  tet_line digit (i, j, k, l) s.
Proof. intros D C A B E F. split; [exact D|]. exists t, a, b, c, d. auto. Qed.
Ltac row_node t a b c := eapply (node_row_written _ _ _ _ t a b c); [apply data_here; discriminate|apply commas_line; reflexivity|reflexivity|reflexivity|reflexivity|reflexivity].
Ltac row_tet t a b c d := eapply (tet_row_written _ _ _ _ t a b c d); [apply data_here; discriminate|apply commas_line; reflexivity|reflexivity|reflexivity|reflexivity|reflexivity].
Lemma nodes_head_here s : command s -> upper s = "*NODE" ++ newline -> nodes_head s.
Proof. intros C E. split; [exact C|]. exists newline. split; [exact E|]. right. now left. Qed.
Lemma unit_nodes_written : item_written digit digit_r (Nodes [(1%Z, (0, 0, 0)); (2%Z, (1, 0, 0)); (3%Z, (0, 1, 0)); (4%Z, (0, 0, 1))]) unit_nodes.
Proof.
  exists (line "*Node"), (map line ["1,0,0,0"; "2,1,0,0"; "3,0,1,0"; "4,0,0,1"]). split; [reflexivity|]. split; [apply nodes_head_here; [apply command_here; discriminate|reflexivity]|].
  cbn [map]. apply rows_row; [row_node "1" "0" "0" (line "0")|]. apply rows_row; [row_node "2" "1" "0" (line "0")|].
  apply rows_row; [row_node "3" "0" "1" (line "0")|]. apply rows_row; [row_node "4" "0" "0" (line "1")|]. apply rows_nil.
Qed.
Lemma prefix_append s a b : s ++ a = s ++ b -> a = b.
Proof. induction s as [|c s IH]; cbn; intros H; [exact H|]. injection H as H. now apply IH. Qed.
(** a text that does not occur *)
Definition occurs (p s : string) : bool := match index 0 p s with Some _ => true | None => false end.
Lemma occurs_false p s a b : occurs p s = false -> p <> "" -> s <> a ++ p ++ b.
Proof.
  unfold occurs. intros H N E. destruct (index 0 p s) as [n|] eqn:I; [discriminate|]. pose proof (index_correct3 0 (String.length a) p s I N) as C.
  assert (L : (0 <= String.length a)%nat) by lia. specialize (C L). apply C. rewrite E, substring_behind, substring_all. reflexivity.
Qed.
Lemma no_parameter p s : occurs p (upper s) = false -> p <> "" -> forall x, ~ parameter (p ++ x) s.
Proof.
  intros O N x (a & b & rest & E & _). apply (occurs_false p (upper s) (a ++ "," ++ b) (x ++ rest) O N). rewrite E, !append_assoc_s. reflexivity.
Qed.
Lemma unit_tets_written : item_written digit digit_r (Tets None [(1, 2, 3, 4)%Z]) (map line ["*Element, type=C3D4"; "1,1,2,3,4"]).
Proof.
  exists (line "*Element, type=C3D4"), [line "1,1,2,3,4"]. split; [reflexivity|]. split; [|apply rows_row; [row_tet "1" "1" "2" "3" (line "4")|apply rows_nil]].
  split; [apply command_here; discriminate|]. split; [|split].
  - exists (", TYPE=C3D4" ++ newline). split; [reflexivity|]. right. right. eexists. reflexivity.
  - exists "*ELEMENT", " ", newline. split; [reflexivity|]. split; [now exists 1%nat|]. right. now left.
  - apply no_parameter; [reflexivity|discriminate].
Qed.
Lemma unit_written : deck_written digit digit_r (unit_deck None) unit_lines.
Proof.
  exists [], unit_lines, []. split; [now rewrite app_nil_r|]. split; [constructor|]. split; [|constructor]. exists [unit_nodes; map line ["*Element, type=C3D4"; "1,1,2,3,4"]].
  split; [reflexivity|]. constructor; [apply unit_nodes_written|]. constructor; [apply unit_tets_written|constructor].
Qed.
(** plain lines *)
Definition plain_b (s : string) : bool :=
  let u := upper s in
  match s with
  | String c _ => negb (Ascii.eqb c "*") ||
                  (prefix "*ELEMENT, TYPE=C3D4" u || ((prefix "*NODE OUTPUT" u || (negb (prefix "*NODE" u) || prefix ("*NODE" ++ newline) u)) && negb (prefix "*PART" u) && negb (prefix "*ELEMENT" u)))
  | "" => true
  end%bool.
Lemma prefix_of_keyword k s : keyword k s -> prefix k (upper s) = true.
Proof. intros (r & -> & _). apply prefix_app. Qed.
Lemma prefix_longer k l s : prefix (k ++ l) s = true -> prefix k s = true.
Proof. intros H. apply prefix_true in H. destruct H as (r & ->). rewrite append_assoc_s. apply prefix_app. Qed.
Lemma plain_here s : plain_b s = true -> forall rest, (prefix "*ELEMENT, TYPE=C3D4" (upper s) = true -> upper s = "*ELEMENT, TYPE=C3D4" ++ rest /\ ends rest) ->
  (prefix ("*NODE" ++ newline) (upper s) = true -> upper s = "*NODE" ++ newline) -> plain_line s.
Proof.
  intros H rest R1 R2. split.
  - intros (c & t & -> & N) K P. cbn [plain_b append] in H. change (Ascii.eqb "*" "*") with true in H. cbn [negb orb] in H.
    apply orb_true_iff in H. destruct H as [H|H]; [exact H|]. apply andb_true_iff in H. destruct H as (_ & H). apply prefix_of_keyword in K. cbn [append] in K. rewrite K in H. discriminate.
  - intros (C & K1 & K2 & K3). destruct C as (c & t & -> & N). cbn [plain_b append] in H. change (Ascii.eqb "*" "*") with true in H. cbn [negb orb] in H. cbn [append] in *.
    destruct (prefix "*ELEMENT, TYPE=C3D4" _) eqn:T.
    + exfalso. apply K3. destruct (R1 eq_refl) as (E & D). split.
      * exists (", TYPE=C3D4" ++ rest). split; [exact E|]. right. right. eexists. reflexivity.
      * exists "*ELEMENT", " ", rest. split; [exact E|]. split; [now exists 1%nat|exact D].
    + cbn [orb] in H. apply andb_true_iff in H. destruct H as (H & H3). apply andb_true_iff in H. destruct H as (H1 & H2). apply orb_true_iff in H1. destruct H1 as [H1|H1]; [now left|].
      right. apply negb_true_iff in H2. split; [|now split]. apply orb_true_iff in H1. destruct H1 as [H1|H1]; [now apply negb_true_iff in H1|].
      exfalso. apply K1. exists newline. split; [now apply R2|]. right. now left.
Qed.
Ltac plain r := apply plain_here with (rest := r); [reflexivity|intros H; first [discriminate H|split; [reflexivity|first [now left|right; now left|right; right; eexists; reflexivity]]]|intros H; first [discriminate H|reflexivity]].
Lemma unit_plain : Forall plain_line unit_lines.
Proof. unfold unit_lines, unit_nodes. cbn [map app]. repeat (apply Forall_cons; [plain newline|]). apply Forall_nil. Qed.
Lemma unit_labelled n : labelled_in_order (unit_deck n).
Proof. constructor; [reflexivity|constructor]. Qed.
Lemma unit_means n : means (unit_deck n) [[unit_solid]].
Proof. constructor; [|constructor]. constructor; [|constructor]. cbn. intuition. Qed.
Lemma unit_positive : volume6 unit_solid = 1.
Proof. cbn. ring. Qed.
Lemma unit_program flip : exists files, inp_to_stl digit digit_r "a.inp" "a.stl" flip unit_lines = Ok files /\
    Forall2 (fun file ss => Forall2 (fun f su => turned_to (if flip : bool then reversed (snd su) else snd su) (snd f) /\ unit_normal (fst f) (snd f) /\
                                       (right_sense flip (fst su) -> points_out (fst f) (snd f) (fst su)))
                                    (snd file) (faces_with ss)) files [[unit_solid]].
Proof.
  apply (program_facets digit digit_r (unit_deck None)); try reflexivity.
  - apply unit_written.
  - apply unit_plain.
  - apply unit_labelled.
  - apply unit_means.
  - discriminate.
  - constructor; [|constructor]. split; [discriminate|]. constructor; [|constructor]. rewrite unit_positive. lra.
Qed.
(** a block of tetrahedra without rows *)
Definition hollow_deck : deck :=
  [[Nodes [(1%Z, (0, 0, 0)); (2%Z, (1, 0, 0)); (3%Z, (0, 1, 0)); (4%Z, (0, 0, 1))]; Tets None []]].
Definition hollow_lines : list string := (unit_nodes ++ [line "*Element, type=C3D4"])%list.
Lemma hollow_ok : deck_written digit digit_r hollow_deck hollow_lines /\ Forall plain_line hollow_lines /\ labelled_in_order hollow_deck /\ means hollow_deck [[]] /\
  Exists (fun ss : list solid => ss = []) [[]].
Proof.
  split; [|split; [|split; [|split]]].
  - exists [], hollow_lines, []. split; [now rewrite app_nil_r|]. split; [constructor|]. split; [|constructor]. exists [unit_nodes; [line "*Element, type=C3D4"]].
    split; [reflexivity|]. constructor; [apply unit_nodes_written|]. constructor; [|constructor].
    exists (line "*Element, type=C3D4"), []. split; [reflexivity|]. split; [|apply rows_nil].
    split; [apply command_here; discriminate|]. split; [|split].
    + exists (", TYPE=C3D4" ++ newline). split; [reflexivity|]. right. right. eexists. reflexivity.
    + exists "*ELEMENT", " ", newline. split; [reflexivity|]. split; [now exists 1%nat|]. right. now left.
    + apply no_parameter; [reflexivity|discriminate].
  - unfold hollow_lines, unit_nodes. cbn [map app]. repeat (apply Forall_cons; [plain newline|]). apply Forall_nil.
  - constructor; [reflexivity|constructor].
  - constructor; [constructor|constructor].
  - now left.
Qed.
(** without the option all normals point into the solid *)
Lemma program_inward : exists int float d lines solids files, deck_written int float d lines /\ Forall plain_line lines /\ labelled_in_order d /\ means d solids /\
  Forall (Forall (fun s => 0 < volume6 s)) solids /\ inp_to_stl int float "a.inp" "a.stl" false lines = Ok files /\
  Forall2 (fun file ss => snd file <> [] /\ Forall2 (fun f su => ~ points_out (fst f) (snd f) (fst su)) (snd file) (faces_with ss)) files solids.
Proof.
  destruct (unit_program false) as (files & E & F). exists digit, digit_r, (unit_deck None), unit_lines, [[unit_solid]], files.
  split; [apply unit_written|]. split; [apply unit_plain|]. split; [apply unit_labelled|]. split; [apply unit_means|].
  split; [repeat constructor; rewrite unit_positive; lra|]. split; [exact E|].
  inversion F as [|file ss fs r G F']; subst. inversion F'; subst. constructor; [|constructor]. split; [intros Z; rewrite Z in G; inversion G|].
  assert (I : Forall (fun su => In (snd su) (faces_of (fst su)) /\ fst su = unit_solid) (faces_with [unit_solid])).
  { apply Forall_forall. intros su J. apply faces_with_in in J. destruct J as ([J|[]] & K). now split. }
  clear - G I. destruct file as [nm fs]. cbn [snd] in *. generalize dependent (faces_with [unit_solid]). intros fw G I.
  induction G as [|f su fs fw (T & U & _) G IH]; [constructor|]. inversion I as [|x l (I1 & I2) I']; subst. constructor; [|now apply IH].
  apply (face_out false (fst su) (snd su) (snd f) (fst f) I1 T U). rewrite I2. cbn [wrong_sense]. rewrite unit_positive. lra.
Qed.

(** ** Labels in another order: a different solid *)
Definition extra_deck : deck :=
  [[Nodes [(5%Z, (9, 9, 9)); (1%Z, (0, 0, 0)); (2%Z, (1, 0, 0)); (3%Z, (0, 1, 0)); (4%Z, (0, 0, 1))]; Tets None [(1, 2, 3, 4)%Z]]].
Definition extra_nodes : list string := map line ["*Node"; "5,9,9,9"; "1,0,0,0"; "2,1,0,0"; "3,0,1,0"; "4,0,0,1"].
Definition extra_lines : list string := (extra_nodes ++ map line ["*Element, type=C3D4"; "1,1,2,3,4"])%list.
Lemma extra_written : deck_written digit digit_r extra_deck extra_lines.
Proof.
  exists [], extra_lines, []. split; [now rewrite app_nil_r|]. split; [constructor|]. split; [|constructor]. exists [extra_nodes; map line ["*Element, type=C3D4"; "1,1,2,3,4"]].
  split; [reflexivity|]. constructor; [|constructor; [apply unit_tets_written|constructor]].
  exists (line "*Node"), (map line ["5,9,9,9"; "1,0,0,0"; "2,1,0,0"; "3,0,1,0"; "4,0,0,1"]). split; [reflexivity|]. split; [apply nodes_head_here; [apply command_here; discriminate|reflexivity]|].
  cbn [map]. apply rows_row; [row_node "5" "9" "9" (line "9")|]. apply rows_row; [row_node "1" "0" "0" (line "0")|]. apply rows_row; [row_node "2" "1" "0" (line "0")|].
  apply rows_row; [row_node "3" "0" "1" (line "0")|]. apply rows_row; [row_node "4" "0" "0" (line "1")|]. apply rows_nil.
Qed.
Lemma extra_plain : Forall plain_line extra_lines.
Proof. unfold extra_lines, extra_nodes. cbn [map app]. repeat (apply Forall_cons; [plain newline|]). apply Forall_nil. Qed.
Lemma read_wrong_solid : exists int float d lines solids vs ms names, deck_written int float d lines /\ Forall plain_line lines /\ labels_unique d /\ means d solids /\
  read_inp int float "a.inp" lines false = Ok (vs, ms, names) /\ ~ Forall2 (mesh_of false vs) ms solids.
Proof.
  exists digit, digit_r, extra_deck, extra_lines, [[unit_solid]]. do 3 eexists. split; [apply extra_written|]. split; [apply extra_plain|].
  split; [repeat constructor; cbn; intuition discriminate|]. split; [constructor; [|constructor]; constructor; [|constructor]; cbn; intuition|].
  split; [cbv - [IZR]; reflexivity|]. intros F. inversion F as [|m ss ms sss M F']; subst. unfold mesh_of in M. cbn [app] in M.
  inversion M as [|t u ts us (v & T & U) M']; subst. destruct v as [[a b] c]. destruct T as (i & j & k & E & A & B & C).
  injection E as E1 E2 E3. assert (i = 0%nat) by lia. subst i. injection A as <-. cbn in U. destruct U as [U|[U|U]]; injection U; intros; lra.
Qed.

(** ** Labels that do not begin with 1: the program fails *)
Definition later_deck : deck :=
  [[Nodes [(2%Z, (0, 0, 0)); (3%Z, (1, 0, 0)); (4%Z, (0, 1, 0)); (5%Z, (0, 0, 1))]; Tets None [(2, 3, 4, 5)%Z]]].
Definition later_nodes : list string := map line ["*Node"; "2,0,0,0"; "3,1,0,0"; "4,0,1,0"; "5,0,0,1"].
Definition later_tets : list string := map line ["*Element, type=C3D4"; "1,2,3,4,5"].
Lemma later_written : deck_written digit digit_r later_deck (later_nodes ++ later_tets)%list.
Proof.
  exists [], (later_nodes ++ later_tets)%list, []. split; [now rewrite app_nil_r|]. split; [constructor|]. split; [|constructor]. exists [later_nodes; later_tets].
  split; [reflexivity|]. constructor; [|constructor; [|constructor]].
  - exists (line "*Node"), (map line ["2,0,0,0"; "3,1,0,0"; "4,0,1,0"; "5,0,0,1"]). split; [reflexivity|]. split; [apply nodes_head_here; [apply command_here; discriminate|reflexivity]|].
    cbn [map]. apply rows_row; [row_node "2" "0" "0" (line "0")|]. apply rows_row; [row_node "3" "1" "0" (line "0")|].
    apply rows_row; [row_node "4" "0" "1" (line "0")|]. apply rows_row; [row_node "5" "0" "0" (line "1")|]. apply rows_nil.
  - destruct unit_tets_written as (h & r & E & H & _). injection E as <- _. exists (line "*Element, type=C3D4"), [line "1,2,3,4,5"]. split; [reflexivity|]. split; [exact H|].
    apply rows_row; [row_tet "1" "2" "3" "4" (line "5")|apply rows_nil].
Qed.
Lemma later_plain : Forall plain_line (later_nodes ++ later_tets)%list.
Proof. unfold later_nodes, later_tets. cbn [map app]. repeat (apply Forall_cons; [plain newline|]). apply Forall_nil. Qed.
Lemma program_labels_fail : exists int float d lines solids, deck_written int float d lines /\ Forall plain_line lines /\ labels_unique d /\ means d solids /\
  solids <> [] /\ Forall (fun ss => ss <> [] /\ Forall (fun s => volume6 s <> 0) ss) solids /\
  forall flip, inp_to_stl int float "a.inp" "a.stl" flip lines = Err IndexError.
Proof.
  exists digit, digit_r, later_deck, (later_nodes ++ later_tets)%list, [[unit_solid]]. split; [apply later_written|]. split; [apply later_plain|].
  split; [repeat constructor; cbn; intuition discriminate|]. split; [constructor; [|constructor]; constructor; [|constructor]; cbn; intuition|].
  split; [discriminate|]. split; [constructor; [|constructor]; split; [discriminate|]; constructor; [rewrite unit_positive; lra|constructor]|]. intros [|]; cbv - [IZR Rmin Rmax]; reflexivity.
Qed.

(** ** The parameters of a keyword in another order: no tetrahedra *)
Definition swapped_lines : list string := (unit_nodes ++ map line ["*Element, Elset=A, type=C3D4"; "1,1,2,3,4"])%list.
Lemma swapped_written : deck_written digit digit_r (unit_deck (Some "A")) swapped_lines.
Proof.
  exists [], swapped_lines, []. split; [now rewrite app_nil_r|]. split; [constructor|]. split; [|constructor]. exists [unit_nodes; map line ["*Element, Elset=A, type=C3D4"; "1,1,2,3,4"]].
  split; [reflexivity|]. constructor; [apply unit_nodes_written|constructor; [|constructor]].
  exists (line "*Element, Elset=A, type=C3D4"), [line "1,1,2,3,4"]. split; [reflexivity|]. split; [|apply rows_row; [row_tet "1" "1" "2" "3" (line "4")|apply rows_nil]].
  split; [apply command_here; discriminate|]. split; [|split].
  - exists (", ELSET=A, TYPE=C3D4" ++ newline). split; [reflexivity|]. right. right. eexists. reflexivity.
  - exists "*ELEMENT, ELSET=A", " ", newline. split; [reflexivity|]. split; [now exists 1%nat|]. right. now left.
  - exists "*ELEMENT", " ", (", TYPE=C3D4" ++ newline). split; [reflexivity|]. split; [now exists 1%nat|]. right. right. eexists. reflexivity.
Qed.
Lemma read_no_tets : exists int float d lines solids, deck_written int float d lines /\ labelled_in_order d /\ means d solids /\ Forall (fun ss => ss <> []) solids /\ length solids = 1%nat /\
  forall flip, exists vs names, read_inp int float "a.inp" lines flip = Ok (vs, [], names).
Proof.
  exists digit, digit_r, (unit_deck (Some "A")), swapped_lines, [[unit_solid]]. split; [apply swapped_written|]. split; [apply unit_labelled|]. split; [apply unit_means|].
  split; [constructor; [discriminate|constructor]|]. split; [reflexivity|]. intros [|]; do 2 eexists; cbv - [IZR]; reflexivity.
Qed.

(** ** Another keyword that begins like that of nodes: the file is not read *)
Definition print_lines : list string := (unit_lines ++ map line ["*Node print"; "U"])%list.
Lemma print_written : deck_written digit digit_r [[Nodes [(1%Z, (0, 0, 0)); (2%Z, (1, 0, 0)); (3%Z, (0, 1, 0)); (4%Z, (0, 0, 1))]; Tets None [(1, 2, 3, 4)%Z]; Other]] print_lines.
Proof.
  exists [], print_lines, []. split; [now rewrite app_nil_r|]. split; [constructor|]. split; [|constructor]. exists [unit_nodes; map line ["*Element, type=C3D4"; "1,1,2,3,4"]; map line ["*Node print"; "U"]].
  split; [reflexivity|]. constructor; [apply unit_nodes_written|]. constructor; [apply unit_tets_written|constructor; [|constructor]].
  exists (line "*Node print"), [line "U"]. split; [reflexivity|]. split; [|constructor; [left; apply data_here; discriminate|constructor]].
  split; [apply command_here; discriminate|]. split; [|split].
  - intros (r & E & [->|[->|(t & ->)]]); discriminate E.
  - intros (r & E & _). discriminate E.
  - intros ((r & E & _) & _). discriminate E.
Qed.
Lemma read_print_fails : exists int float d lines solids, deck_written int float d lines /\ labelled_in_order d /\ means d solids /\ length solids = 1%nat /\
  forall flip, read_inp int float "a.inp" lines flip = Err RuntimeError.
Proof.
  eexists digit, digit_r, _, print_lines, [[unit_solid]]. split; [apply print_written|]. split; [constructor; [reflexivity|constructor]|].
  split; [constructor; [|constructor]; constructor; [|constructor]; cbn; intuition|]. split; [reflexivity|]. intros [|]; cbv - [IZR Rmin Rmax]; reflexivity.
Qed.

(** ** Faces between two tetrahedra are written twice *)
Definition two_deck : deck :=
  [[Nodes [(1%Z, (0, 0, 0)); (2%Z, (1, 0, 0)); (3%Z, (0, 1, 0)); (4%Z, (0, 0, 1)); (5%Z, (1, 1, 1))]; Tets None [(1, 2, 3, 4)%Z; (2, 3, 4, 5)%Z]]].
Definition two_nodes : list string := map line ["*Node"; "1,0,0,0"; "2,1,0,0"; "3,0,1,0"; "4,0,0,1"; "5,1,1,1"].
Definition two_tets : list string := map line ["*Element, type=C3D4"; "1,1,2,3,4"; "2,2,3,4,5"].
Definition second_solid : solid := ((1, 0, 0), (0, 1, 0), (0, 0, 1), (1, 1, 1)).
Lemma two_written : deck_written digit digit_r two_deck (two_nodes ++ two_tets)%list.
Proof.
  exists [], (two_nodes ++ two_tets)%list, []. split; [now rewrite app_nil_r|]. split; [constructor|]. split; [|constructor]. exists [two_nodes; two_tets].
  split; [reflexivity|]. constructor; [|constructor; [|constructor]].
  - exists (line "*Node"), (map line ["1,0,0,0"; "2,1,0,0"; "3,0,1,0"; "4,0,0,1"; "5,1,1,1"]). split; [reflexivity|]. split; [apply nodes_head_here; [apply command_here; discriminate|reflexivity]|].
    cbn [map]. apply rows_row; [row_node "1" "0" "0" (line "0")|]. apply rows_row; [row_node "2" "1" "0" (line "0")|].
    apply rows_row; [row_node "3" "0" "1" (line "0")|]. apply rows_row; [row_node "4" "0" "0" (line "1")|]. apply rows_row; [row_node "5" "1" "1" (line "1")|]. apply rows_nil.
  - destruct unit_tets_written as (h & r & E & H & _). injection E as <- _. exists (line "*Element, type=C3D4"), [line "1,1,2,3,4"; line "2,2,3,4,5"]. split; [reflexivity|]. split; [exact H|].
    apply rows_row; [row_tet "1" "1" "2" "3" (line "4")|]. apply rows_row; [row_tet "2" "2" "3" "4" (line "5")|]. apply rows_nil.
Qed.
Lemma two_plain : Forall plain_line (two_nodes ++ two_tets)%list.
Proof. unfold two_nodes, two_tets. cbn [map app]. repeat (apply Forall_cons; [plain newline|]). apply Forall_nil. Qed.
Lemma two_program flip : exists name fs, inp_to_stl digit digit_r "a.inp" "a.stl" flip (two_nodes ++ two_tets)%list = Ok [(name, fs)] /\
    Forall2 (fun f su => turned_to (if flip : bool then reversed (snd su) else snd su) (snd f)) fs (faces_with [unit_solid; second_solid]).
Proof.
  destruct (program_facets digit digit_r two_deck (two_nodes ++ two_tets)%list "a.inp" "a.stl" flip [[unit_solid; second_solid]]) as (files & E & F); try reflexivity.
  - apply two_written.
  - apply two_plain.
  - constructor; [reflexivity|constructor].
  - constructor; [|constructor]. constructor; [cbn; intuition|]. constructor; [cbn; intuition|constructor].
  - discriminate.
  - constructor; [|constructor]. split; [discriminate|]. constructor; [rewrite unit_positive; lra|]. constructor; [|constructor]. cbn. lra.
  - inversion F as [|[name fs] ss r rr G F']; subst. inversion F'; subst. exists name, fs. split; [exact E|]. cbn [snd] in G.
    revert G. generalize (faces_with [unit_solid; second_solid]). intros fw G. clear - G. induction G as [|f su fs fw (T & _) G IH]; constructor; auto.
Qed.
Lemma F2_at {A B} (P : A -> B -> Prop) l m : Forall2 P l m -> forall i y, nth_error m i = Some y -> exists x, nth_error l i = Some x /\ P x y.
Proof. intros F. induction F as [|x y l m H F IH]; intros [|i] z E; cbn in *; try discriminate; [|now apply IH]. injection E as <-. now exists x. Qed.
Lemma program_interior : exists int float d lines solids, deck_written int float d lines /\ Forall plain_line lines /\ labelled_in_order d /\ means d solids /\
  Forall (Forall (fun s => 0 < volume6 s)) solids /\
  forall flip, exists name fs, inp_to_stl int float "a.inp" "a.stl" flip lines = Ok [(name, fs)] /\
    exists i j f g, i <> j /\ nth_error fs i = Some f /\ nth_error fs j = Some g /\ same_corners (snd f) (snd g).
Proof.
  exists digit, digit_r, two_deck, (two_nodes ++ two_tets)%list, [[unit_solid; second_solid]]. split; [apply two_written|]. split; [apply two_plain|].
  split; [constructor; [reflexivity|constructor]|]. split; [constructor; [|constructor]; constructor; [cbn; intuition|]; constructor; [cbn; intuition|constructor]|].
  split; [repeat constructor; cbn; lra|]. intros flip. destruct (two_program flip) as (name & fs & E & F). exists name, fs. split; [exact E|].
  destruct (F2_at _ _ _ F 2%nat _ eq_refl) as (f & X & T). destruct (F2_at _ _ _ F 4%nat _ eq_refl) as (g & Y & U). clear F E.
  exists 2%nat, 4%nat, f, g. split; [discriminate|]. split; [exact X|]. split; [exact Y|]. clear X Y.
  destruct f as (nf & [[f1 f2] f3]), g as (ng & [[g1 g2] g3]). cbn [snd fst] in *.
  destruct flip; cbn [reversed turned_to] in T, U; destruct T as [T|[T|T]]; injection T as -> -> ->; destruct U as [U|[U|U]]; injection U as -> -> ->.
  all: right; cbn [turned_to reversed]; first [left; reflexivity|right; left; reflexivity|right; right; reflexivity].
Qed.

(** ** A set without name shifts the names of the others *)
Definition shift_deck : deck :=
  [[Nodes [(1%Z, (0, 0, 0)); (2%Z, (1, 0, 0)); (3%Z, (0, 1, 0)); (4%Z, (0, 0, 1)); (5%Z, (1, 1, 1))]; Tets None [(1, 2, 3, 4)%Z]; Tets (Some "B") [(2, 3, 4, 5)%Z]]].
Definition shift_tets : list string := map line ["*Element, type=C3D4, Elset=B"; "2,2,3,4,5"].
Definition shift_lines : list string := (two_nodes ++ map line ["*Element, type=C3D4"; "1,1,2,3,4"] ++ shift_tets)%list.
Lemma two_nodes_written : item_written digit digit_r (Nodes [(1%Z, (0, 0, 0)); (2%Z, (1, 0, 0)); (3%Z, (0, 1, 0)); (4%Z, (0, 0, 1)); (5%Z, (1, 1, 1))]) two_nodes.
Proof.
  exists (line "*Node"), (map line ["1,0,0,0"; "2,1,0,0"; "3,0,1,0"; "4,0,0,1"; "5,1,1,1"]). split; [reflexivity|]. split; [apply nodes_head_here; [apply command_here; discriminate|reflexivity]|].
  cbn [map]. apply rows_row; [row_node "1" "0" "0" (line "0")|]. apply rows_row; [row_node "2" "1" "0" (line "0")|].
  apply rows_row; [row_node "3" "0" "1" (line "0")|]. apply rows_row; [row_node "4" "0" "0" (line "1")|]. apply rows_row; [row_node "5" "1" "1" (line "1")|]. apply rows_nil.
Qed.
Lemma shift_written : deck_written digit digit_r shift_deck shift_lines.
Proof.
  exists [], shift_lines, []. split; [now rewrite app_nil_r|]. split; [constructor|]. split; [|constructor]. exists [two_nodes; map line ["*Element, type=C3D4"; "1,1,2,3,4"]; shift_tets].
  split; [reflexivity|]. constructor; [apply two_nodes_written|]. constructor; [apply unit_tets_written|]. constructor; [|constructor].
  exists (line "*Element, type=C3D4, Elset=B"), [line "2,2,3,4,5"]. split; [reflexivity|]. split; [|apply rows_row; [row_tet "2" "2" "3" "4" (line "5")|apply rows_nil]].
  split; [apply command_here; discriminate|]. split; [|split].
  - exists (", TYPE=C3D4, ELSET=B" ++ newline). split; [reflexivity|]. right. right. eexists. reflexivity.
  - exists "*ELEMENT", " ", (", ELSET=B" ++ newline). split; [reflexivity|]. split; [now exists 1%nat|]. right. right. eexists. reflexivity.
  - exists "*ELEMENT, TYPE=C3D4", " ", newline. split; [reflexivity|]. split; [now exists 1%nat|]. right. now left.
Qed.
Lemma shift_plain : Forall plain_line shift_lines.
Proof.
  unfold shift_lines, shift_tets, two_nodes. cbn [map app]. repeat (apply Forall_cons; [first [plain newline|plain (", ELSET=B" ++ newline)]|]). apply Forall_nil.
Qed.
Lemma program_file_names int float input output flip lines files : inp_to_stl int float input output flip lines = Ok files -> length (filter tets_line lines) <> 1%nat ->
  map fst files = map (file_name output (flat_map (fun l => material_of (upper l)) (filter tets_line lines))) (seq 0 (length (filter tets_line lines))).
Proof.
  unfold inp_to_stl. intros E N. destruct (read_inp int float input lines flip) as [[[vs ms] mats]|] eqn:R; cbn [bind] in E; [|discriminate].
  assert (RD : mats = flat_map (fun l => material_of (upper l)) (filter tets_line lines) /\ length ms = length (filter tets_line lines)).
  { unfold read_inp in R. destruct (guard _ _); cbn [bind] in R; [|discriminate]. destruct (foldM _ lines start) as [s|] eqn:S; [|discriminate]. cbn [bind] in R.
    destruct (read_lines_names _ _ _ _ _ S) as (E1 & E2). cbn [start materials meshes app length Nat.add] in E1, E2.
    destruct flip; [destruct (mapM _ (meshes s)) as [m|] eqn:Q; [|discriminate]; apply mapM_length in Q|]; injection R as <- <- <-; (split; [exact E1|congruence]). }
  destruct RD as (-> & LM). destruct (get_bbox vs ms) as [box|]; cbn [bind] in E; [|discriminate]. destruct (guard _ _); cbn [bind] in E; [|discriminate].
  rewrite <- LM in N |- *. apply (written_names output _ vs). destruct ms as [|m1 [|m2 ms]]; [exact E|now cbn in N|exact E].
Qed.
Lemma program_shifted : exists int float d lines solids, deck_written int float d lines /\ Forall plain_line lines /\ labelled_in_order d /\ means d solids /\
  map (fun b => snd (fst b)) (tet_blocks d) = [None; Some "B"] /\
  forall flip, exists files, inp_to_stl int float "a.inp" "a.stl" flip lines = Ok files /\ map fst files = ["a-B-1.stl"; "a-2.stl"].
Proof.
  exists digit, digit_r, shift_deck, shift_lines, [[unit_solid]; [second_solid]].
  assert (M : means shift_deck [[unit_solid]; [second_solid]]).
  { constructor; [constructor; [cbn; intuition|constructor]|]. constructor; [constructor; [cbn; intuition|constructor]|constructor]. }
  assert (L : labelled_in_order shift_deck) by (constructor; [reflexivity|constructor]).
  split; [apply shift_written|]. split; [apply shift_plain|]. split; [exact L|]. split; [exact M|]. split; [reflexivity|]. intros flip.
  destruct (program_facets digit digit_r shift_deck shift_lines "a.inp" "a.stl" flip [[unit_solid]; [second_solid]]) as (files & E & F); try assumption; try reflexivity.
  - apply shift_written.
  - apply shift_plain.
  - discriminate.
  - constructor; [|constructor; [|constructor]]; (split; [discriminate|]); (constructor; [|constructor]); [rewrite unit_positive; lra|cbn; lra].
  - exists files. split; [exact E|]. clear F. apply program_file_names in E; vm_compute in E |- *; [exact E|discriminate].
Qed.

(** ** Two sets with names *)
Definition named_deck : deck :=
  [[Nodes [(1%Z, (0, 0, 0)); (2%Z, (1, 0, 0)); (3%Z, (0, 1, 0)); (4%Z, (0, 0, 1)); (5%Z, (1, 1, 1))]; Tets (Some "A") [(1, 2, 3, 4)%Z]; Tets (Some "B") [(2, 3, 4, 5)%Z]]].
Definition named_tets : list string := map line ["*Element, type=C3D4, Elset=A"; "1,1,2,3,4"].
Definition named_lines : list string := (two_nodes ++ named_tets ++ shift_tets)%list.
Lemma named_written : deck_written digit digit_r named_deck named_lines.
Proof.
  exists [], named_lines, []. split; [now rewrite app_nil_r|]. split; [constructor|]. split; [|constructor]. exists [two_nodes; named_tets; shift_tets].
  split; [reflexivity|]. constructor; [apply two_nodes_written|]. constructor; [|constructor; [|constructor]].
  - exists (line "*Element, type=C3D4, Elset=A"), [line "1,1,2,3,4"]. split; [reflexivity|]. split; [|apply rows_row; [row_tet "1" "1" "2" "3" (line "4")|apply rows_nil]].
    split; [apply command_here; discriminate|]. split; [|split].
    + exists (", TYPE=C3D4, ELSET=A" ++ newline). split; [reflexivity|]. right. right. eexists. reflexivity.
    + exists "*ELEMENT", " ", (", ELSET=A" ++ newline). split; [reflexivity|]. split; [now exists 1%nat|]. right. right. eexists. reflexivity.
    + exists "*ELEMENT, TYPE=C3D4", " ", newline. split; [reflexivity|]. split; [now exists 1%nat|]. right. now left.
  - exists (line "*Element, type=C3D4, Elset=B"), [line "2,2,3,4,5"]. split; [reflexivity|]. split; [|apply rows_row; [row_tet "2" "2" "3" "4" (line "5")|apply rows_nil]].
    split; [apply command_here; discriminate|]. split; [|split].
    + exists (", TYPE=C3D4, ELSET=B" ++ newline). split; [reflexivity|]. right. right. eexists. reflexivity.
    + exists "*ELEMENT", " ", (", ELSET=B" ++ newline). split; [reflexivity|]. split; [now exists 1%nat|]. right. right. eexists. reflexivity.
    + exists "*ELEMENT, TYPE=C3D4", " ", newline. split; [reflexivity|]. split; [now exists 1%nat|]. right. now left.
Qed.
Lemma named_plain : Forall plain_line named_lines.
Proof.
  unfold named_lines, named_tets, shift_tets, two_nodes. cbn [map app].
  repeat (apply Forall_cons; [first [plain newline|plain (", ELSET=A" ++ newline)|plain (", ELSET=B" ++ newline)]|]). apply Forall_nil.
Qed.
Lemma named_run flip : exists files, inp_to_stl digit digit_r "a.inp" "a.stl" flip named_lines = Ok files /\ map fst files = ["a-A-1.stl"; "a-B-2.stl"].
Proof.
  assert (M : means named_deck [[unit_solid]; [second_solid]]).
  { constructor; [constructor; [cbn; intuition|constructor]|]. constructor; [constructor; [cbn; intuition|constructor]|constructor]. }
  assert (L : labelled_in_order named_deck) by (constructor; [reflexivity|constructor]).
  destruct (program_facets digit digit_r named_deck named_lines "a.inp" "a.stl" flip [[unit_solid]; [second_solid]]) as (files & E & F); try assumption; try reflexivity.
  - apply named_written.
  - apply named_plain.
  - discriminate.
  - constructor; [|constructor; [|constructor]]; (split; [discriminate|]); (constructor; [|constructor]); [rewrite unit_positive; lra|cbn; lra].
  - exists files. split; [exact E|]. clear F. apply program_file_names in E; vm_compute in E |- *; [exact E|discriminate].
Qed.
Lemma no_pt n : occurs "PT_" n = false -> forall a b, n <> a ++ "PT_" ++ b.
Proof. intros H a b. apply occurs_false; [exact H|discriminate]. Qed.
