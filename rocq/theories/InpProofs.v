(** * Proofs about [InpModel.v]: reading *)
From Coq Require Import Reals ZArith List String Ascii Lia Lra.
From Verif Require Import Base BaseFacts InpModel InpSpec.
Import ListNotations.
Local Open Scope R_scope.
Local Open Scope string_scope.

(** ** Strings *)
Lemma append_nil_r s : s ++ "" = s.
Proof. induction s as [|c s IH]; cbn; [reflexivity|]. now rewrite IH. Qed.
Lemma append_assoc_s a b c : (a ++ b) ++ c = a ++ b ++ c.
Proof. induction a as [|x a IH]; cbn; [reflexivity|]. now rewrite IH. Qed.
Lemma prefix_app k r : prefix k (k ++ r) = true.
Proof. induction k as [|c k IH]; [destruct r; reflexivity|]. cbn [prefix append]. destruct (ascii_dec c c) as [_|n]; [exact IH|now destruct n]. Qed.
Lemma prefix_true k s : prefix k s = true -> exists r, s = k ++ r.
Proof.
  revert s. induction k as [|c k IH]; intros s H; [now exists s|]. destruct s as [|d s]; [discriminate|]. cbn in H.
  destruct (ascii_dec c d) as [->|]; [|discriminate]. destruct (IH _ H) as (r & ->). now exists r.
Qed.
Lemma list_of_append a b : list_ascii_of_string (a ++ b) = (list_ascii_of_string a ++ list_ascii_of_string b)%list.
Proof. induction a as [|c a IH]; cbn; [reflexivity|]. now rewrite IH. Qed.
Lemma split_nonempty s : split_commas s <> [].
Proof. induction s as [|c s IH]; cbn; [discriminate|]. destruct (Ascii.eqb c ","); [discriminate|]. destruct (split_commas s); [easy|discriminate]. Qed.
Lemma split_plain s : no_comma s -> split_commas s = [s].
Proof.
  unfold no_comma. induction s as [|c s IH]; intros H; cbn; [reflexivity|]. cbn in H. destruct (Ascii.eqb_spec c ",") as [->|N]; [tauto|].
  rewrite IH; [reflexivity|tauto].
Qed.
Lemma split_comma a t : no_comma a -> split_commas (a ++ "," ++ t) = a :: split_commas t.
Proof.
  unfold no_comma. induction a as [|c a IH]; intros H; [reflexivity|]. cbn in H.
  change (String c a ++ "," ++ t) with (String c (a ++ "," ++ t)). cbn [split_commas].
  destruct (Ascii.eqb_spec c ",") as [->|N]; [tauto|]. rewrite IH by tauto. reflexivity.
Qed.
Lemma split_commas_of fs line : commas fs line -> fs <> [] -> split_commas line = fs.
Proof.
  intros (F & ->) N. induction F as [|a fs H F IH]; [easy|]. destruct fs as [|b fs].
  - cbn. now apply split_plain.
  - change (String.concat "," (a :: b :: fs)) with (a ++ "," ++ String.concat "," (b :: fs)). rewrite split_comma by assumption.
    now rewrite IH by discriminate.
Qed.

(** ** One line *)
Section Lines.
Context (int : string -> option Z) (float : string -> option R).
Notation rl := (read_line int float).

Lemma read_comment s c : comment c -> rl s c = Ok s.
Proof. intros (t & ->). reflexivity. Qed.
Lemma read_comments s l : Forall comment l -> foldM rl l s = Ok s.
Proof. induction 1 as [|c l H F IH]; [reflexivity|]. cbn [foldM]. rewrite read_comment by assumption. exact IH. Qed.
Lemma read_command s line : command line ->
  rl s line = let rt := upper line in
    if prefix "*PART" rt then Ok (Reading (Some rt) (vertices s) (meshes s) (materials s) (length (vertices s)))
    else if prefix "*ELEMENT, TYPE=C3D4" rt then
      Ok (Reading (Some rt) (vertices s) (meshes s ++ [[]])%list (materials s ++ material_of rt)%list (offset s))
    else Ok (Reading (Some rt) (vertices s) (meshes s) (materials s) (offset s)).
Proof.
  intros (c & t & -> & N). unfold read_line at 1. cbn [append]. change (Ascii.eqb "*" "*") with true. cbv iota.
  destruct (Ascii.eqb_spec c "*") as [->|]; [easy|reflexivity].
Qed.
Lemma read_data s line rt : data_line line -> record s = Some rt ->
  rl s line = if prefix "*HEADING" rt then Ok s
              else if (prefix "*NODE" rt && negb (prefix "*NODE OUTPUT" rt))%bool then read_node float line s
              else if prefix "*ELEMENT, TYPE=C3D4" rt then read_tet int line s
              else Ok s.
Proof.
  intros (c & t & -> & N) E. unfold read_line. destruct (Ascii.eqb_spec c "*") as [->|]; [easy|]. now rewrite E.
Qed.

(** record types *)
Lemma keyword_nodes line : keyword "*NODE" line ->
  prefix "*NODE" (upper line) = true /\ prefix "*NODE OUTPUT" (upper line) = false /\ prefix "*HEADING" (upper line) = false /\
  prefix "*PART" (upper line) = false /\ prefix "*ELEMENT, TYPE=C3D4" (upper line) = false.
Proof.
  intros (rest & -> & E). split; [apply prefix_app|].
  destruct E as [->|[->|(t & ->)]]; repeat split; reflexivity.
Qed.
Lemma keyword_part line : keyword "*PART" line -> prefix "*PART" (upper line) = true.
Proof. intros (rest & -> & E). apply prefix_app. Qed.
Lemma prefix_tets s : prefix "*ELEMENT, TYPE=C3D4" s = true ->
  prefix "*NODE" s = false /\ prefix "*HEADING" s = false /\ prefix "*PART" s = false.
Proof. intros H. destruct (prefix_true _ _ H) as (r & ->). repeat split; reflexivity. Qed.
Lemma prefix_output s : prefix "*NODE OUTPUT" s = true -> prefix "*PART" s = false /\ prefix "*ELEMENT, TYPE=C3D4" s = false.
Proof. intros H. destruct (prefix_true _ _ H) as (r & ->). repeat split; reflexivity. Qed.

(** ** Blocks *)
Lemma read_nodes_rows l lines : rows_written (node_line int float) l lines -> forall s rt, record s = Some rt ->
  prefix "*NODE" rt = true -> prefix "*NODE OUTPUT" rt = false -> prefix "*HEADING" rt = false ->
  foldM rl lines s = Ok (Reading (Some rt) (vertices s ++ map snd l)%list (meshes s) (materials s) (offset s)).
Proof.
  induction 1 as [|l lines c C H IH|x l line lines X H IH]; intros s rt E P1 P2 P3.
  - cbn. rewrite app_nil_r, <- E. now destruct s.
  - cbn [foldM]. rewrite read_comment by assumption. now apply IH.
  - cbn [foldM]. destruct x as (lab & [[x y] z]). destruct X as (D & t & a & b & c & CC & _ & A & B & C).
    rewrite (read_data _ _ _ D E), P3, P1, P2. cbn [andb negb]. unfold read_node.
    rewrite (split_commas_of _ _ CC) by discriminate. unfold number_in. rewrite A, B, C. cbn [bind].
    rewrite (IH _ rt) by assumption. cbn [vertices meshes materials offset]. rewrite <- app_assoc. reflexivity.
Qed.
(** the triangles of a tetrahedron, by positions *)
Definition tri4 (o : nat) (e : Z * Z * Z * Z) : list (list Z) :=
  let '(i, j, k, l) := e in let f x := (x - 1 + Z.of_nat o)%Z in
  [[f i; f j; f k]; [f i; f l; f j]; [f l; f k; f j]; [f l; f i; f k]].
Lemma append_last_snoc {A} (m : list (list A)) t x : append_last (m ++ [t])%list x = Ok (m ++ [t ++ x])%list.
Proof.
  induction m as [|a m IH]; [reflexivity|]. cbn [app append_last]. destruct (m ++ [t])%list as [|b r] eqn:E; [now destruct m|].
  rewrite <- E in *. rewrite IH. reflexivity.
Qed.
Lemma read_tets_rows l lines : rows_written (tet_line int) l lines -> forall s rt m t, record s = Some rt ->
  meshes s = (m ++ [t])%list -> prefix "*ELEMENT, TYPE=C3D4" rt = true ->
  foldM rl lines s = Ok (Reading (Some rt) (vertices s) (m ++ [t ++ flat_map (tri4 (offset s)) l])%list (materials s) (offset s)).
Proof.
  induction 1 as [|l lines c C H IH|x l line lines X H IH]; intros s rt m t E M P.
  - cbn. rewrite app_nil_r, <- E, <- M. now destruct s.
  - cbn [foldM]. rewrite read_comment by assumption. now apply IH.
  - cbn [foldM]. destruct x as [[[i j] k] q]. destruct X as (D & f & a & b & c & d & CC & A & B & C & Q).
    destruct (prefix_tets _ P) as (P1 & P2 & P3).
    rewrite (read_data _ _ _ D E), P2, P1, P. cbn [andb]. unfold read_tet.
    rewrite (split_commas_of _ _ CC) by discriminate. unfold number_in. rewrite A, B, C, Q. cbn [bind].
    rewrite M, append_last_snoc. cbn [bind].
    match goal with |- foldM _ _ (Reading _ _ (m ++ [?t'])%list _ _) = _ => rewrite (IH _ rt m t') by (assumption || reflexivity) end.
    cbn [vertices meshes materials offset flat_map]. rewrite <- app_assoc. reflexivity.
Qed.
Lemma read_other_rows lines : Forall (fun x => data_line x \/ comment x) lines -> forall s rt, record s = Some rt ->
  (prefix "*NODE" rt && negb (prefix "*NODE OUTPUT" rt))%bool = false -> prefix "*ELEMENT, TYPE=C3D4" rt = false -> foldM rl lines s = Ok s.
Proof.
  induction 1 as [|x l [D|C] F IH]; intros s rt E P1 P2; [reflexivity| |]; cbn [foldM].
  - rewrite (read_data _ _ _ D E), P1, P2. destruct (prefix "*HEADING" rt); cbn [bind]; now apply (IH s rt).
  - rewrite read_comment by assumption. now apply (IH s rt).
Qed.

(** the meshes and the names of a block *)
Definition item_meshes (o : nat) (i : item) : list (list (list Z)) := match i with Tets _ l => [flat_map (tri4 o) l] | _ => [] end.
Definition item_names (i : item) (lines : list string) : list string :=
  match i, lines with Tets _ _, h :: _ => material_of (upper h) | _, _ => [] end.
Definition plain_lines (lines : list string) : Prop := Forall plain_line lines.
Lemma read_item i lines s : item_written int float i lines -> plain_lines lines ->
  exists rt, foldM rl lines s = Ok (Reading rt (vertices s ++ map snd (item_nodes i))%list (meshes s ++ item_meshes (offset s) i)%list
                                            (materials s ++ item_names i lines)%list (offset s)).
Proof.
  intros W P. destruct i as [l|n l|]; destruct W as (h & r & -> & H & R); cbn [item_nodes item_meshes item_names foldM]; exists (Some (upper h)).
  - destruct H as (C & K). rewrite (read_command _ _ C). destruct (keyword_nodes _ K) as (K1 & K2 & K3 & K4 & K5). cbv zeta. rewrite K4, K5. cbn [bind].
    rewrite (read_nodes_rows _ _ R _ (upper h)) by (assumption || reflexivity). cbn [vertices meshes materials offset]. now rewrite !app_nil_r.
  - destruct H as (C & K & T & _). apply Forall_inv in P. destruct P as (P & _). specialize (P C K T). rewrite (read_command _ _ C). cbv zeta.
    destruct (prefix_tets _ P) as (P1 & P2 & P3). rewrite P3, P. cbn [bind].
    rewrite (read_tets_rows _ _ R _ (upper h) (meshes s) []) by (assumption || reflexivity). cbn [vertices meshes materials offset map]. now rewrite !app_nil_r.
  - apply Forall_inv in P. destruct P as (_ & P). specialize (P H). destruct H as (C & _). rewrite (read_command _ _ C). cbv zeta.
    assert (Q : prefix "*PART" (upper h) = false /\ prefix "*ELEMENT, TYPE=C3D4" (upper h) = false /\
                (prefix "*NODE" (upper h) && negb (prefix "*NODE OUTPUT" (upper h)))%bool = false).
    { destruct P as [P|(P1 & P2 & P3)]; [|now rewrite P1, P2, P3]. rewrite P. destruct (prefix_output _ P) as (-> & ->). now rewrite andb_false_r. }
    destruct Q as (-> & Q2 & Q3). rewrite Q2. cbn [bind]. rewrite (read_other_rows _ R _ (upper h)) by (assumption || reflexivity).
    cbn [vertices meshes materials offset map]. now rewrite !app_nil_r.
Qed.

Lemma foldM_app {A S} (f : S -> A -> res S) a b s : foldM f (a ++ b)%list s = bind (foldM f a s) (foldM f b).
Proof. revert s. induction a as [|x a IH]; intros s; [reflexivity|]. cbn. destruct (f s x) as [s'|e]; cbn; [apply IH|reflexivity]. Qed.

Definition items_names (p : list item) (ls : list (list string)) : list string := flat_map (fun il => item_names (fst il) (snd il)) (combine p ls).
Lemma read_items p ls : Forall2 (item_written int float) p ls -> forall s, plain_lines (List.concat ls) ->
  exists rt, foldM rl (List.concat ls) s = Ok (Reading rt (vertices s ++ map snd (part_nodes p))%list (meshes s ++ flat_map (item_meshes (offset s)) p)%list
                                                       (materials s ++ items_names p ls)%list (offset s)).
Proof.
  induction 1 as [|i l p ls W F IH]; intros s P.
  - exists (record s). cbn. rewrite !app_nil_r. now destruct s.
  - cbn [List.concat] in *. apply Forall_app in P. destruct P as (P1 & P2). destruct (read_item i l s W P1) as (rt & E). rewrite foldM_app, E. cbn [bind].
    destruct (IH (Reading rt (vertices s ++ map snd (item_nodes i))%list (meshes s ++ item_meshes (offset s) i)%list (materials s ++ item_names i l)%list (offset s)) P2)
      as (rt' & ->). exists rt'. cbn [vertices meshes materials offset]. unfold items_names. cbn [combine flat_map fst snd].
    change (part_nodes (i :: p)) with (item_nodes i ++ part_nodes p)%list. rewrite map_app, !app_assoc. reflexivity.
Qed.

(** ** Decks *)
(** the names found in the lines of a file *)
Definition line_names (line : string) : list string :=
  match line with
  | String "*" (String c t) => if Ascii.eqb c "*" then [] else if prefix "*ELEMENT, TYPE=C3D4" (upper line) then material_of (upper line) else []
  | _ => []
  end.
Fixpoint parts_meshes (o : nat) (d : deck) : list (list (list Z)) :=
  match d with [] => [] | p :: ps => (flat_map (item_meshes o) p ++ parts_meshes (o + length (part_nodes p)) ps)%list end.
Definition deck_nodes (d : deck) : list vec := flat_map (fun p => map snd (part_nodes p)) d.
Lemma read_parts ps ls : Forall2 (part_written int float) ps ls -> forall s, plain_lines (List.concat ls) ->
  exists rt ms o, foldM rl (List.concat ls) s = Ok (Reading rt (vertices s ++ deck_nodes ps)%list (meshes s ++ parts_meshes (length (vertices s)) ps)%list ms o).
Proof.
  induction 1 as [|p l ps ls W F IH]; intros s P.
  - exists (record s), (materials s), (offset s). cbn. rewrite !app_nil_r. now destruct s.
  - cbn [List.concat] in *. apply Forall_app in P. destruct P as (P1 & P2). destruct W as (h & c & r & -> & (C & K) & FC & (is & -> & W)).
    rewrite foldM_app. cbn [foldM]. rewrite (read_command _ _ C). cbv zeta. rewrite (keyword_part _ K). cbn [bind]. rewrite foldM_app, read_comments by assumption. cbn [bind].
    apply Forall_inv_tail in P1. apply Forall_app in P1. destruct P1 as (_ & P1).
    destruct (read_items _ _ W (Reading (Some (upper h)) (vertices s) (meshes s) (materials s) (length (vertices s))) P1) as (rt & ->). cbn [bind].
    cbn [vertices meshes materials offset].
    edestruct IH as (rt' & ms' & o' & ->); [exact P2|]. exists rt', ms', o'. cbn [vertices meshes parts_meshes deck_nodes flat_map]. rewrite !app_assoc.
    rewrite app_length, map_length. reflexivity.
Qed.
Lemma read_deck d lines : deck_written int float d lines -> plain_lines lines ->
  exists rt ms o, foldM rl lines start = Ok (Reading rt (deck_nodes d) (parts_meshes 0 d) ms o).
Proof.
  intros W P. destruct d as [|p ps].
  - cbn in W. rewrite read_comments by assumption. eexists _, _, _. reflexivity.
  - destruct W as (c & r & ls & -> & FC & (is & -> & W) & F). apply Forall_app in P. destruct P as (_ & P). apply Forall_app in P. destruct P as (P1 & P2).
    rewrite foldM_app, read_comments by assumption. cbn [bind]. rewrite foldM_app. destruct (read_items _ _ W start P1) as (rt & ->). cbn [bind].
    edestruct (read_parts _ _ F) as (rt' & ms' & o' & ->); [exact P2|]. exists rt', ms', o'. cbn [vertices meshes offset start app parts_meshes deck_nodes flat_map].
    now rewrite map_length.
Qed.
End Lines.

(** ** What is read *)
Lemma nth_error_deck (l : list (Z * vec)) a A : map fst l = map Z.of_nat (seq 1 (length l)) -> In (a, A) l ->
  exists k : nat, (a - 1)%Z = Z.of_nat k /\ nth_error (map snd l) k = Some A.
Proof.
  intros E I. apply In_nth_error in I. destruct I as (k & I). exists k. split; [|now apply map_nth_error with (f := snd) in I].
  apply (map_nth_error fst) in I. rewrite E in I. cbn [fst] in I.
  assert (L : (k < length l)%nat). { apply nth_error_Some_lt in I. now rewrite map_length, seq_length in I. }
  rewrite (map_nth_error Z.of_nat k (seq 1 (length l)) (d := (1 + k)%nat)) in I.
  - injection I as <-. lia.
  - rewrite nth_error_nth' with (d := 0%nat) by (now rewrite seq_length). now rewrite seq_nth.
Qed.
Definition part_at (vs : list vec) (o : nat) (p : list item) : Prop :=
  exists pre post, vs = (pre ++ map snd (part_nodes p) ++ post)%list /\ length pre = o.
Lemma corner_at vs o p a A : part_at vs o p -> map fst (part_nodes p) = map Z.of_nat (seq 1 (length (part_nodes p))) ->
  In (a, A) (part_nodes p) -> exists k : nat, (a - 1 + Z.of_nat o)%Z = Z.of_nat k /\ nth_error vs k = Some A.
Proof.
  intros (pre & post & -> & <-) E I. destruct (nth_error_deck _ _ _ E I) as (k & K & N). exists (k + length pre)%nat. split; [lia|].
  rewrite nth_error_app2 by lia. rewrite nth_error_app1; [now replace (k + length pre - length pre)%nat with k by lia|].
  replace (k + length pre - length pre)%nat with k by lia. now apply nth_error_Some_lt in N.
Qed.
Lemma tri4_faces vs o p e s : part_at vs o p -> map fst (part_nodes p) = map Z.of_nat (seq 1 (length (part_nodes p))) ->
  corners_of p e s -> Forall2 (fun t u => exists v, triangle_at vs t v /\ turned_to u v) (tri4 o e) (faces_of s).
Proof.
  intros P E C. destruct e as [[[a b] c] d], s as [[[A B] C'] D]. destruct C as (IA & IB & IC & ID).
  destruct (corner_at _ _ _ _ _ P E IA) as (ka & Ka & Na). destruct (corner_at _ _ _ _ _ P E IB) as (kb & Kb & Nb).
  destruct (corner_at _ _ _ _ _ P E IC) as (kc & Kc & Nc). destruct (corner_at _ _ _ _ _ P E ID) as (kd & Kd & Nd).
  unfold tri4, faces_of. rewrite Ka, Kb, Kc, Kd. constructor; [|constructor; [|constructor; [|constructor; [|constructor]]]].
  - exists (A, B, C'). split; [exists ka, kb, kc; auto|]. cbn. auto.
  - exists (A, D, B). split; [exists ka, kd, kb; auto|]. cbn. auto.
  - exists (D, C', B). split; [exists kd, kc, kb; auto|]. cbn. auto.
  - exists (D, A, C'). split; [exists kd, ka, kc; auto|]. cbn. auto.
Qed.
Lemma tris_faces vs o p l ss : part_at vs o p -> map fst (part_nodes p) = map Z.of_nat (seq 1 (length (part_nodes p))) ->
  Forall2 (corners_of p) l ss -> mesh_of false vs (flat_map (tri4 o) l) ss.
Proof.
  intros P E F. unfold mesh_of. induction F as [|e s l ss C F IH]; [constructor|]. cbn [flat_map]. apply Forall2_app; [|exact IH].
  now apply (tri4_faces vs o p).
Qed.
Lemma item_faces vs o p q ss : part_at vs o p -> map fst (part_nodes p) = map Z.of_nat (seq 1 (length (part_nodes p))) ->
  Forall2 (fun b ss => Forall2 (corners_of (fst (fst b))) (snd b) ss) (flat_map (item_tets p) q) ss ->
  Forall2 (mesh_of false vs) (flat_map (item_meshes o) q) ss.
Proof.
  intros P E. revert ss. induction q as [|i q IH]; intros ss F; [inversion F; constructor|].
  destruct i as [l|n l|]; cbn [flat_map item_tets item_meshes app] in *; [now apply IH| |now apply IH].
  inversion F as [|x s y ss' F1 F2]; subst. constructor; [|now apply IH]. cbn in F1. now apply (tris_faces vs o p).
Qed.
Lemma parts_faces vs ps : forall o ss pre, vs = (pre ++ deck_nodes ps)%list -> length pre = o -> labelled_in_order ps -> means ps ss ->
  Forall2 (mesh_of false vs) (parts_meshes o ps) ss.
Proof.
  induction ps as [|p ps IH]; intros o ss pre E L Q M; [inversion M; constructor|]. unfold means, tet_blocks in M. cbn [flat_map] in M.
  apply Forall2_app_inv_l in M. destruct M as (s1 & s2 & M1 & M2 & ->). cbn [parts_meshes]. apply Forall2_app.
  - apply (item_faces vs o p); [|now apply Forall_inv in Q|exact M1]. exists pre, (deck_nodes ps). now split.
  - apply (IH _ _ (pre ++ map snd (part_nodes p))%list); [now rewrite <- app_assoc| |now apply Forall_inv_tail in Q|exact M2].
    rewrite app_length, map_length. lia.
Qed.
Lemma flip_triangle_at vs t u : triangle_at vs t u -> exists t', flip_triangle t = Ok t' /\ triangle_at vs t' (reversed u).
Proof. destruct u as [[a b] c]. intros (i & j & k & -> & A & B & C). cbn. eexists. split; [reflexivity|]. exists i, k, j. auto. Qed.
Lemma turned_reversed t u : turned_to t u -> turned_to (reversed t) (reversed u).
Proof. destruct t as [[a b] c]. cbn. intros [->|[->| ->]]; cbn; auto. Qed.
Lemma flip_mesh vs ts ss : mesh_of false vs ts ss -> exists ts', mapM flip_triangle ts = Ok ts' /\ mesh_of true vs ts' ss.
Proof.
  unfold mesh_of. intros F. induction F as [|t u ts us (v & T & R) F IH]; [exists []; split; [reflexivity|constructor]|].
  destruct (flip_triangle_at _ _ _ T) as (t' & E & T'). destruct IH as (ts' & E' & F'). exists (t' :: ts'). cbn. rewrite E. cbn. rewrite E'. split; [reflexivity|].
  constructor; [|exact F']. exists (reversed v). split; [exact T'|]. cbn in R. now apply turned_reversed.
Qed.
Lemma flip_meshes vs ms sss : Forall2 (mesh_of false vs) ms sss -> exists ms', mapM (mapM flip_triangle) ms = Ok ms' /\ Forall2 (mesh_of true vs) ms' sss.
Proof.
  intros F. induction F as [|m ss ms sss H F IH]; [exists []; split; [reflexivity|constructor]|].
  destruct (flip_mesh _ _ _ H) as (m' & E & H'). destruct IH as (ms' & E' & F'). exists (m' :: ms'). cbn. rewrite E. cbn. rewrite E'. split; [reflexivity|]. now constructor.
Qed.
Lemma read_inp_means int float d lines name flip solids :
  has_extension ".inp" name = true -> deck_written int float d lines -> Forall plain_line lines -> labelled_in_order d -> means d solids ->
  exists vs ms names, read_inp int float name lines flip = Ok (vs, ms, names) /\ vs = flat_map (fun p => map snd (part_nodes p)) d /\
    Forall2 (mesh_of flip vs) ms solids.
Proof.
  intros X W P L M. unfold read_inp. rewrite X. cbn [guard bind]. destruct (read_deck _ _ _ _ W P) as (rt & mt & o & ->). cbn [bind meshes vertices materials].
  assert (F : Forall2 (mesh_of false (deck_nodes d)) (parts_meshes 0 d) solids).
  { now apply (parts_faces (deck_nodes d) d 0 solids []). }
  destruct flip.
  - destruct (flip_meshes _ _ _ F) as (ms' & -> & F'). cbn [bind]. exists (deck_nodes d), ms', mt. split; [reflexivity|]. now split.
  - cbn [bind]. exists (deck_nodes d), (parts_meshes 0 d), mt. split; [reflexivity|]. now split.
Qed.
