(** * Proofs about [InpModel.v]: names, surfaces, files that are read otherwise than meant *)
From Coq Require Import Reals ZArith List String Ascii Lia Lra Permutation Decimal DecimalString.
From Verif Require Import Base BaseFacts FrameModel FrameSpec FrameProofs InpModel InpSpec InpProofs InpProofs2 InpProofs3.
Import ListNotations.
Local Open Scope R_scope.
Local Open Scope string_scope.

(** ** Names of sets *)
Lemma F2_length {A B} (P : A -> B -> Prop) l m : Forall2 P l m -> length l = length m.
Proof. induction 1; cbn; congruence. Qed.
Definition tets_line (line : string) : bool := prefix "*ELEMENT, TYPE=C3D4" (upper line).
Lemma upper_star c : upper_char c = "*"%char -> c = "*"%char.
Proof. destruct c as [[] [] [] [] [] [] [] []]; cbn; intros H; try discriminate; reflexivity. Qed.
Lemma upper_e c : upper_char c = "E"%char -> c <> "*"%char.
Proof. intros H ->. discriminate. Qed.
Lemma tets_command line : tets_line line = true -> command line.
Proof.
  unfold tets_line. intros H. apply prefix_true in H. destruct H as (r & H). destruct line as [|c line]; [discriminate|]. destruct line as [|d line]; [discriminate|].
  unfold upper in H. cbn [map_string append] in H. injection H as H1 H2 _. apply upper_star in H1. subst. exists d, line. split; [reflexivity|]. now apply upper_e.
Qed.
Lemma read_line_names int float s line s' : read_line int float s line = Ok s' ->
  materials s' = (materials s ++ if tets_line line then material_of (upper line) else [])%list /\
  length (meshes s') = (length (meshes s) + if tets_line line then 1 else 0)%nat.
Proof.
  intros H. destruct (tets_line line) eqn:T.
  - rewrite (read_command _ _ _ _ (tets_command _ T)) in H. cbv zeta in H. unfold tets_line in T. rewrite T in H. destruct (prefix_tets _ T) as (_ & _ & P). rewrite P in H.
    injection H as <-. cbn [materials meshes]. rewrite app_length. now split.
  - unfold tets_line in T. rewrite app_nil_r, Nat.add_0_r.
    assert (L : forall {A} (m : list (list A)) x m', append_last m x = Ok m' -> length m' = length m).
    { clear. intros A. induction m as [|a m IH]; intros x m' H; [discriminate|]. destruct m as [|b m]; [injection H as <-; reflexivity|].
      change ((do r' <- append_last (b :: m) x; Ok (a :: r')) = Ok m') in H. destruct (append_last (b :: m) x) as [r|] eqn:E; [|discriminate]. injection H as <-.
      cbn [length]. f_equal. now apply (IH x). }
    destruct line as [|c line]; [discriminate|]. unfold read_line in H. destruct (Ascii.eqb c "*").
    + destruct line as [|d line]; [discriminate|]. destruct (Ascii.eqb d "*"); [injection H as <-; now split|]. cbv zeta in H.
      destruct (prefix "*PART" _); [injection H as <-; now split|]. rewrite T in H. injection H as <-. now split.
    + destruct (record s) as [rt|]; [|discriminate]. destruct (prefix "*HEADING" rt); [injection H as <-; now split|]. destruct (_ && _)%bool.
      * unfold read_node in H. destruct (split_commas _) as [|f0 [|f1 [|f2 [|f3 [|f4 fs]]]]]; try discriminate. unfold number_in in H.
        destruct (float f1); [|discriminate]. destruct (float f2); [|discriminate]. destruct (float f3); [|discriminate]. injection H as <-. now split.
      * destruct (prefix "*ELEMENT, TYPE=C3D4" rt); [|injection H as <-; now split].
        unfold read_tet in H. destruct (split_commas _) as [|f0 [|f1 [|f2 [|f3 [|f4 [|f5 fs]]]]]]; try discriminate. unfold number_in in H.
        destruct (int f1); [|discriminate]. destruct (int f2); [|discriminate]. destruct (int f3); [|discriminate]. destruct (int f4); [|discriminate]. cbn [bind] in H.
        destruct (append_last _ _) as [m|] eqn:E; [|discriminate]. injection H as <-. cbn [materials meshes]. split; [reflexivity|]. now apply L in E.
Qed.
Lemma read_lines_names int float lines : forall s s', foldM (read_line int float) lines s = Ok s' ->
  materials s' = (materials s ++ flat_map (fun l => material_of (upper l)) (filter tets_line lines))%list /\
  length (meshes s') = (length (meshes s) + length (filter tets_line lines))%nat.
Proof.
  induction lines as [|l lines IH]; intros s s' H; cbn [foldM] in H.
  - injection H as <-. cbn. rewrite app_nil_r, Nat.add_0_r. now split.
  - destruct (read_line int float s l) as [s1|] eqn:E; [|discriminate]. cbn [bind] in H. destruct (read_line_names _ _ _ _ _ E) as (E1 & E2). destruct (IH _ _ H) as (H1 & H2).
    rewrite H1, H2, E1, E2. cbn [filter]. destruct (tets_line l); cbn [flat_map length]; rewrite <- ?app_assoc; split; try reflexivity; lia.
Qed.
(** the text of a set name *)
Definition named_head (h n : string) : Prop := exists m, upper h = "*ELEMENT, TYPE=C3D4, ELSET=" ++ m ++ newline /\ marks_left_out m n.
Lemma leave_none n : unmarked n -> leave_out 0 n = n.
Proof.
  induction n as [|c n IH]; intros H; [reflexivity|]. cbn [leave_out]. destruct (prefix "PT_" (String c n)) eqn:P.
  - apply prefix_true in P. destruct P as (r & P). exfalso. apply (H "" r). exact P.
  - rewrite IH; [reflexivity|]. intros a b E. apply (H (String c a) b). cbn. now rewrite E.
Qed.
Lemma leave_mark n b : unmarked n -> leave_out 0 (n ++ "PT_" ++ b) = n ++ leave_out 0 b.
Proof.
  induction n as [|c n IH]; intros H.
  - cbn [append leave_out]. assert (P : prefix "PT_" (String "P" (String "T" (String "_" b))) = true) by (cbn; destruct b; reflexivity). now rewrite P.
  - cbn [append leave_out]. destruct (prefix "PT_" (String c (n ++ "PT_" ++ b))) eqn:P.
    + exfalso. apply prefix_true in P. destruct P as (r & P). cbn [append] in P. injection P as -> P. destruct n as [|c n]; [discriminate P|]. cbn [append] in P. injection P as -> P.
      destruct n as [|c n]; [discriminate P|]. cbn [append] in P. injection P as -> P. apply (H "" n). reflexivity.
    + change (String "P" (String "T" (String "_" b))) with ("PT_" ++ b). rewrite P, IH; [reflexivity|]. intros a d E. apply (H (String c a) d). cbn. now rewrite E.
Qed.
Lemma leave_marks m n : marks_left_out m n -> without_pt m = n.
Proof.
  intros (parts & N & F & -> & ->). unfold without_pt. induction F as [|p parts Hp F IH]; [congruence|]. destruct parts as [|q parts].
  - cbn [String.concat]. now apply leave_none.
  - change (String.concat "PT_" (p :: q :: parts)) with (p ++ "PT_" ++ String.concat "PT_" (q :: parts)). change (String.concat "" (p :: q :: parts)) with (p ++ "" ++ String.concat "" (q :: parts)).
    rewrite leave_mark by assumption. rewrite IH by discriminate. reflexivity.
Qed.
Lemma substring_all a b : substring 0 (String.length a) (a ++ b) = a.
Proof. induction a as [|c a IH]; [destruct b; reflexivity|]. cbn. now rewrite IH. Qed.
Lemma material_named h n : named_head h n -> material_of (upper h) = [n].
Proof.
  intros (m & -> & N). unfold material_of.
  assert (I : index 0 "ELSET=" ("*ELEMENT, TYPE=C3D4, ELSET=" ++ m ++ newline) = Some 21%nat) by (cbn; destruct (m ++ newline); reflexivity).
  rewrite I. cbv zeta. rewrite !length_append. cbn [String.length newline].
  replace (27 + (String.length m + 1) - 1 - (21 + 6))%nat with (String.length m) by lia.
  change (21 + 6)%nat with (String.length "*ELEMENT, TYPE=C3D4, ELSET="). now rewrite substring_behind, substring_all, (leave_marks m n).
Qed.
Lemma lower_is c d : lower_char c = d -> c = d \/ In (c, d) [("S", "s"); ("T", "t"); ("L", "l")]%char \/ ~ In d [".";"s";"t";"l"]%char.
Proof. intros <-. destruct c as [[] [] [] [] [] [] [] []]; vm_compute; try (left; reflexivity); right; try (left; tauto); right; intros H; repeat (destruct H as [H|H]; [discriminate H|]); destruct H. Qed.
Lemma lower_stl e : lower e = ".stl" -> stl_extension e.
Proof.
  unfold lower. intros H. destruct e as [|c0 [|c1 [|c2 [|c3 [|c4 e]]]]]; try discriminate H. cbn [map_string] in H. injection H as H0 H1 H2 H3.
  destruct (lower_is _ _ H0) as [->|[I|I]]; [|exfalso; cbn in I; repeat (destruct I as [I|I]; [discriminate I|]); destruct I|exfalso; apply I; cbn; tauto].
  assert (Q : forall c x y, lower_char c = y -> In y [".";"s";"t";"l"]%char -> (forall z, In (z, y) [("S", "s"); ("T", "t"); ("L", "l")]%char -> z = x) -> c = y \/ c = x).
  { intros c x y E Iy U. destruct (lower_is _ _ E) as [->|[I|I]]; [now left|right; now apply U|tauto]. }
  assert (A1 : c1 = "s"%char \/ c1 = "S"%char) by (apply (Q c1 "S"%char "s"%char H1); [cbn; tauto|intros z [I|[I|[I|[]]]]; congruence]).
  assert (A2 : c2 = "t"%char \/ c2 = "T"%char) by (apply (Q c2 "T"%char "t"%char H2); [cbn; tauto|intros z [I|[I|[I|[]]]]; congruence]).
  assert (A3 : c3 = "l"%char \/ c3 = "L"%char) by (apply (Q c3 "L"%char "l"%char H3); [cbn; tauto|intros z [I|[I|[I|[]]]]; congruence]).
  unfold stl_extension. destruct A1 as [->| ->], A2 as [->| ->], A3 as [->| ->]; cbn; tauto.
Qed.
Lemma find_letter s c : (exists k, String.get k s = Some c) \/ forall k, String.get k s <> Some c.
Proof.
  induction s as [|d s IH]; [right; intros k; destruct k; discriminate|]. destruct (Ascii.eqb_spec d c) as [->|N]; [left; now exists 0%nat|].
  destruct IH as [(k & IH)|IH]; [left; now exists (S k)|right; intros [|k]; cbn; [congruence|apply IH]].
Qed.
Lemma upper_letter c : letter_for small_letters big_letters c (upper_char c).
Proof.
  destruct (find_letter small_letters c) as [(k & H)|H].
  - left. exists k. split; [exact H|]. do 26 (destruct k as [|k]; [injection H as <-; reflexivity|]). destruct k; discriminate H.
  - right. split; [exact H|]. unfold upper_char. destruct (Nat.leb_spec 97 (nat_of_ascii c)) as [L|L]; [|reflexivity]. destruct (Nat.leb_spec (nat_of_ascii c) 122) as [M|M]; [|reflexivity]. exfalso.
    apply (H (nat_of_ascii c - 97)%nat). rewrite <- (ascii_nat_embedding c) at 2. remember (nat_of_ascii c - 97)%nat as d eqn:D. replace (nat_of_ascii c) with (d + 97)%nat by lia. assert (d < 26)%nat by lia. clear D L M H c.
    do 26 (destruct d as [|d]; [reflexivity|]). lia.
Qed.
Lemma lower_letter c : letter_for big_letters small_letters c (lower_char c).
Proof.
  destruct (find_letter big_letters c) as [(k & H)|H].
  - left. exists k. split; [exact H|]. do 26 (destruct k as [|k]; [injection H as <-; reflexivity|]). destruct k; discriminate H.
  - right. split; [exact H|]. unfold lower_char. destruct (Nat.leb_spec 65 (nat_of_ascii c)) as [L|L]; [|reflexivity]. destruct (Nat.leb_spec (nat_of_ascii c) 90) as [M|M]; [|reflexivity]. exfalso.
    apply (H (nat_of_ascii c - 65)%nat). rewrite <- (ascii_nat_embedding c) at 2. remember (nat_of_ascii c - 65)%nat as d eqn:D. replace (nat_of_ascii c) with (d + 65)%nat by lia. assert (d < 26)%nat by lia. clear D L M H c.
    do 26 (destruct d as [|d]; [reflexivity|]). lia.
Qed.
Lemma letters_exchanged : forall s, with_letters small_letters big_letters s (upper s) /\ with_letters big_letters small_letters s (lower s).
Proof.
  unfold with_letters, upper, lower. induction s as [|c s (IH1 & IH2)]; [split; constructor|]. cbn [map_string list_ascii_of_string]. split; constructor; try assumption; [apply upper_letter|apply lower_letter].
Qed.
Lemma materials_named hs ns : Forall2 named_head hs ns -> flat_map (fun l => material_of (upper l)) hs = ns.
Proof. induction 1 as [|h n hs ns H F IH]; [reflexivity|]. cbn [flat_map]. now rewrite (material_named _ _ H), IH. Qed.
Lemma program_set_names int float input output flip lines files ns :
  inp_to_stl int float input output flip lines = Ok files -> length files <> 1%nat ->
  Forall2 (fun h n => exists m, upper h = "*ELEMENT, TYPE=C3D4, ELSET=" ++ m ++ newline /\ marks_left_out m n)
          (filter (fun l => prefix "*ELEMENT, TYPE=C3D4" (upper l)) lines) ns ->
  length ns = length files /\
  forall i n file, nth_error ns i = Some n -> nth_error files i = Some file ->
    exists stem, fst file = stem ++ "-" ++ n ++ "-" ++ NilZero.string_of_uint (Nat.to_uint (i + 1)) ++ ".stl" /\ (output = stem \/ exists e, output = stem ++ e /\ stl_extension e).
Proof.
  intros H L F. unfold inp_to_stl in H. destruct (read_inp int float input lines flip) as [[[vs ms] mats]|] eqn:R; cbn [bind] in H; [|discriminate].
  assert (RD : mats = ns /\ length ms = length ns).
  { unfold read_inp in R. destruct (guard _ _); cbn [bind] in R; [|discriminate]. destruct (foldM _ lines start) as [s|] eqn:E; [|discriminate]. cbn [bind] in R.
    destruct (read_lines_names _ _ _ _ _ E) as (E1 & E2). cbn [start materials meshes app length Nat.add] in E1, E2. unfold tets_line in E1, E2. rewrite (materials_named _ ns) in E1 by exact F.
    apply F2_length in F. destruct flip; [destruct (mapM _ (meshes s)) as [m|] eqn:M; [|discriminate]; apply mapM_length in M|]; injection R as <- <- <-; split; congruence. }
  destruct RD as (-> & LM). destruct (get_bbox vs ms) as [box|]; cbn [bind] in H; [|discriminate]. destruct (guard _ _); cbn [bind] in H; [|discriminate].
  assert (G : mapM (fun im => write_stl (file_name output ns (fst im)) vs (snd im)) (enum ms) = Ok files).
  { destruct ms as [|m [|m' ms]]; [exact H| |exact H]. destruct (write_stl output vs m); [|discriminate]. injection H as <-. now cbn in L. }
  apply written_names in G. assert (LF : length files = length ms). { apply (f_equal (@length _)) in G. now rewrite !map_length, seq_length in G. }
  split; [congruence|]. intros i n file Ni Fi.
  assert (Z : fst file = file_name output ns i).
  { apply (map_nth_error fst) in Fi. rewrite G in Fi. assert (Li : (i < length ms)%nat) by (rewrite LM; now apply nth_error_Some_lt in Ni).
    rewrite (map_nth_error (file_name output ns) i (seq 0 (length ms)) (d := i)) in Fi; [congruence|].
    rewrite nth_error_nth' with (d := 0%nat) by (now rewrite seq_length). now rewrite seq_nth. }
  rewrite Z. unfold file_name. rewrite Ni. unfold str_nat. destruct (has_extension ".stl" output) eqn:X; [|exists output; split; [reflexivity|now left]].
  exists (substring 0 (String.length output - 4) output). split; [reflexivity|]. right. exists (substring (String.length output - 4) 4 output). split.
  - clear - X. assert (S : forall k s, (k <= String.length s)%nat -> s = substring 0 k s ++ substring k (String.length s - k) s).
    { clear. induction k as [|k IH]; intros s Hk.
      - rewrite Nat.sub_0_r. replace (substring 0 0 s) with "" by (destruct s; reflexivity). cbn [append]. pose proof (substring_all s "") as H. rewrite append_nil_r in H. now rewrite H.
      - destruct s as [|c s]; [cbn in Hk; lia|]. cbn [substring append String.length Nat.sub]. f_equal. apply IH. cbn in Hk. lia. }
    assert (L4 : (4 <= String.length output)%nat).
    { unfold has_extension in X. apply String.eqb_eq in X. destruct output as [|c0 [|c1 [|c2 [|c3 o]]]]; try (cbn in X; discriminate X). cbn. lia. }
    rewrite (S (String.length output - 4)%nat output) at 1 by lia. now replace (String.length output - (String.length output - 4))%nat with 4%nat by lia.
  - apply lower_stl. unfold has_extension in X. now apply String.eqb_eq in X.
Qed.

(** ** Surfaces *)
Definition swapped (e : Z * Z) : Z * Z := (snd e, fst e).
Definition closed (m : list (list Z)) : Prop := Permutation (flat_map directed_edges m) (map swapped (flat_map directed_edges m)).
Definition good_mesh (m : list (list Z)) : Prop := Forall (fun t => length t = 3%nat) m /\ closed m.
Ltac split_at x r k := match r with x :: ?t => k (@nil (Z * Z)) t | ?y :: ?t => split_at x t ltac:(fun a b => k (y :: a) b) end.
Ltac perm_solve := match goal with
  | |- Permutation [] [] => constructor
  | |- Permutation (?x :: ?l) ?r => split_at x r ltac:(fun a b => apply (Permutation_cons_app a b x)); cbn [app]; perm_solve
  end.
Lemma closed_four n1 n2 n3 n4 : closed [[n1; n2; n3]; [n1; n4; n2]; [n4; n3; n2]; [n4; n1; n3]].
Proof. unfold closed, swapped. cbn [flat_map directed_edges app map fst snd]. perm_solve. Qed.
Lemma closed_app a b : closed a -> closed b -> closed (a ++ b)%list.
Proof. unfold closed. intros A B. rewrite flat_map_app, map_app. now apply Permutation_app. Qed.
Lemma good_app a b : good_mesh a -> good_mesh b -> good_mesh (a ++ b)%list.
Proof. intros (A1 & A2) (B1 & B2). split; [apply Forall_app; now split|now apply closed_app]. Qed.
Lemma append_last_good (m : list (list (list Z))) x m' : append_last m x = Ok m' -> Forall good_mesh m -> good_mesh x -> Forall good_mesh m'.
Proof.
  revert m'. induction m as [|a m IH]; intros m' H F G; [discriminate|]. inversion F as [|y l F1 F2]; subst. destruct m as [|b m].
  - injection H as <-. constructor; [now apply good_app|constructor].
  - change ((do r' <- append_last (b :: m) x; Ok (a :: r')) = Ok m') in H. destruct (append_last (b :: m) x) as [r|] eqn:E; [|discriminate]. injection H as <-.
    constructor; [exact F1|]. now apply IH.
Qed.
Lemma read_line_good int float s line s' : read_line int float s line = Ok s' -> Forall good_mesh (meshes s) -> Forall good_mesh (meshes s').
Proof.
  intros H F. destruct line as [|c line]; [discriminate|]. unfold read_line in H. destruct (Ascii.eqb c "*").
  - destruct line as [|d line]; [discriminate|]. destruct (Ascii.eqb d "*"); [injection H as <-; exact F|]. cbv zeta in H.
    destruct (prefix "*PART" _); [injection H as <-; exact F|]. destruct (prefix "*ELEMENT, TYPE=C3D4" _); injection H as <-; [|exact F].
    cbn [meshes]. apply Forall_app. split; [exact F|]. constructor; [|constructor]. split; constructor.
  - destruct (record s) as [rt|]; [|discriminate]. destruct (prefix "*HEADING" rt); [injection H as <-; exact F|]. destruct (_ && _)%bool.
    + unfold read_node in H. destruct (split_commas _) as [|f0 [|f1 [|f2 [|f3 [|f4 fs]]]]]; try discriminate. unfold number_in in H.
      destruct (float f1); [|discriminate]. destruct (float f2); [|discriminate]. destruct (float f3); [|discriminate]. injection H as <-. exact F.
    + destruct (prefix "*ELEMENT, TYPE=C3D4" rt); [|injection H as <-; exact F].
      unfold read_tet in H. destruct (split_commas _) as [|f0 [|f1 [|f2 [|f3 [|f4 [|f5 fs]]]]]]; try discriminate. unfold number_in in H.
      destruct (int f1); [|discriminate]. destruct (int f2); [|discriminate]. destruct (int f3); [|discriminate]. destruct (int f4); [|discriminate]. cbn [bind] in H.
      destruct (append_last _ _) as [m|] eqn:E; [|discriminate]. injection H as <-. cbn [meshes]. apply (append_last_good _ _ _ E F).
      split; [repeat constructor|apply closed_four].
Qed.
Lemma flip_edges t t' : length t = 3%nat -> flip_triangle t = Ok t' -> length t' = 3%nat /\ Permutation (directed_edges t') (map swapped (directed_edges t)).
Proof.
  intros L H. destruct t as [|a [|b [|c [|d t]]]]; try discriminate. injection H as <-. split; [reflexivity|]. unfold swapped. cbn [directed_edges map fst snd]. perm_solve.
Qed.
Lemma flip_good m m' : mapM flip_triangle m = Ok m' -> good_mesh m -> good_mesh m'.
Proof.
  intros H (L & C).
  assert (G : Forall (fun t => length t = 3%nat) m' /\ Permutation (flat_map directed_edges m') (map swapped (flat_map directed_edges m))).
  { clear C. revert m' H. induction L as [|t m T L IH]; intros m' H; cbn [mapM] in H.
    - injection H as <-. split; constructor.
    - destruct (flip_triangle t) as [t'|] eqn:E; [|discriminate]. cbn [bind] in H. destruct (mapM flip_triangle m) as [r|]; [|discriminate]. injection H as <-.
      destruct (flip_edges _ _ T E) as (T' & P). destruct (IH _ eq_refl) as (L' & P'). split; [now constructor|]. cbn [flat_map]. rewrite map_app. now apply Permutation_app. }
  destruct G as (L' & P). split; [exact L'|]. unfold closed in *.
  assert (S : map swapped (map swapped (flat_map directed_edges m)) = flat_map directed_edges m).
  { rewrite map_map. rewrite <- map_id. apply map_ext. intros [x y]. reflexivity. }
  rewrite P, S. now symmetry.
Qed.
Lemma read_closed int float name lines flip vs ms names : read_inp int float name lines flip = Ok (vs, ms, names) ->
  Forall (fun m => Permutation (flat_map directed_edges m) (map (fun e => (snd e, fst e)) (flat_map directed_edges m))) ms.
Proof.
  intros H. apply (Forall_impl (P := good_mesh)); [intros m (_ & C); exact C|]. unfold read_inp in H. destruct (guard _ _); [|discriminate]. cbn [bind] in H.
  destruct (foldM _ lines start) as [s|] eqn:E; [|discriminate]. cbn [bind] in H.
  assert (F : Forall good_mesh (meshes s)).
  { assert (G : forall lines s s', foldM (read_line int float) lines s = Ok s' -> Forall good_mesh (meshes s) -> Forall good_mesh (meshes s')).
    { clear. induction lines as [|l lines IH]; intros s s' H F; cbn [foldM] in H; [now injection H as <-|]. destruct (read_line int float s l) as [s1|] eqn:E; [|discriminate].
      cbn [bind] in H. apply (IH _ _ H). now apply (read_line_good _ _ _ _ _ E). }
    apply (G _ _ _ E). constructor. }
  destruct flip; [|injection H as <- <- <-; exact F]. destruct (mapM (mapM flip_triangle) (meshes s)) as [m|] eqn:M; [|discriminate]. injection H as <- <- <-.
  clear - F M. revert m M. induction F as [|x l X F IH]; intros m M; cbn [mapM] in M; [injection M as <-; constructor|].
  destruct (mapM flip_triangle x) as [x'|] eqn:E; [|discriminate]. cbn [bind] in M. destruct (mapM (mapM flip_triangle) l) as [r|]; [|discriminate]. injection M as <-.
  constructor; [now apply (flip_good x)|now apply IH].
Qed.
Lemma flat_facet name vs ts us : has_extension ".stl" name = true -> Forall2 (triangle_at vs) ts us -> Exists (fun u => ~ proper u) us ->
  write_stl name vs ts = Err ZeroDivisionError.
Proof.
  intros X F E. unfold write_stl. rewrite X. cbn [guard bind].
  assert (G : mapM (write_facet vs) ts = Err ZeroDivisionError); [|now rewrite G]. clear X.
  induction F as [|t u ts us T F IH]; [inversion E|]. cbn [mapM]. rewrite (write_facet_at _ _ _ T). destruct u as [[a b] c].
  destruct (compute_normal a b c) as [n|e] eqn:N; cbn [bind].
  - inversion E as [x l P|x l P]; subst; [|now rewrite IH]. rewrite (compute_normal_flat _ _ _ P) in N. discriminate.
  - inversion E as [x l P|x l P]; subst; [rewrite (compute_normal_flat _ _ _ P) in N; congruence|]. specialize (IH P).
    assert (Z : e = ZeroDivisionError). { clear - N. unfold compute_normal in N. destruct (vminus b a) as [[? ?] ?], (vminus c a) as [[? ?] ?]. cbv zeta in N. destruct (Req_EM_T _ 0); congruence. }
    now rewrite Z.
Qed.
(** a block without tetrahedra *)
Lemma program_empty int float d lines input output flip solids : deck_written int float d lines -> Forall plain_line lines -> labelled_in_order d -> means d solids ->
  Exists (fun ss => ss = []) solids -> forall files, inp_to_stl int float input output flip lines <> Ok files.
Proof.
  intros W P L M X files H. unfold inp_to_stl in H. destruct (has_extension ".inp" input) eqn:Ex; [|unfold read_inp in H; rewrite Ex in H; discriminate].
  destruct (read_inp_means int float d lines input flip solids Ex W P L M) as (vs & ms & mats & E & _ & F). rewrite E in H. cbn [bind] in H.
  assert (Y : Exists (fun m => m = []) ms).
  { clear -F X. induction F as [|m ss ms sss H F IH]; [inversion X|]. inversion X as [? ? ->|? ? X']; subst; [left; inversion H; reflexivity|right; now apply IH]. }
  destruct ms as [|m [|m' ms]]; [inversion Y| |].
  - inversion Y as [? ? ->|? ? Y']; subst; [|inversion Y']. cbn in H. discriminate.
  - destruct (get_bbox vs (m :: m' :: ms)) as [b|] eqn:B; [|discriminate]. apply (get_bbox_empty vs (m :: m' :: ms)) in B; [exact B|cbn; lia|exact Y].
Qed.
