(** * Proofs about standard forms, part 4: special cases and failures *)
From Coq Require Import Reals Lra Lia ZArith List String.
From Verif Require Import Base BaseFacts TopoSpec TopoProofs4 NodalProofs4 FrameProofs MeshModel MeshSpec MeshProofs MeshProofs2 MeshProofs3.
Import ListNotations.
Local Open Scope nat_scope.

Lemma place_standard g q : (g = standard \/ g = Plain (axes standard)) -> place g q = q.
Proof. intros H. replace (place g q) with (vplus vzero (direction meye q)) by (destruct H as [-> | ->]; reflexivity). now rewrite vplus_0_l, direction_eye. Qed.
Lemma place_standard_list g qs qs' : (g = standard \/ g = Plain (axes standard)) -> Forall2 (placed_at g) qs qs' -> qs' = qs.
Proof. intros Hg. induction 1 as [|q q' qs qs' H _ IH]; [reflexivity|]. apply placed_iff in H. rewrite place_standard in H by assumption. now subst. Qed.
Lemma standardize_standard dp dc m ps : bframe m = None \/ bframe m = Some standard \/ bframe m = Some (Plain (axes standard)) ->
  mesh_at m ps -> arrays m <> [] -> cell_arrays m <> [] -> Forall (fun p => length (px p) <> 1) (arrays m) -> joinable (map pfields (arrays m)) ->
  exists m', to_standard_form dp dc m = Ok m' /\ standard_form dp dc m m' /\ mesh_at m' ps /\ forall qs, points_at m qs -> points_at m' qs.
Proof.
  intros Hf Hps Hne Hce Hone Hj.
  assert (Hg : root_frame m = standard \/ root_frame m = Plain (axes standard)) by (unfold root_frame; destruct Hf as [-> | [-> | ->]]; auto).
  assert (Hrec : receives (root_frame m) m).
  { split.
    - destruct Hg as [-> | ->]; exact orthonormal_eye.
    - left. exists (axes standard). destruct Hg as [-> | ->]; [right|left]; reflexivity. }
  destruct (standardize dp dc m ps Hrec Hps Hne Hce Hone Hj) as (m' & ps' & E & H1 & H2 & H3 & H4). exists m'. split; [assumption|]. split; [assumption|].
  assert (ps' = ps) as ->.
  { clear -H3 Hg. induction H3 as [|q q' qs qs' H _ IH]; [reflexivity|]. apply place_standard_list in H; [|assumption]. now subst. }
  split; [assumption|]. intros qs Hqs. destruct (H4 qs Hqs) as (qs' & Hq' & Hp). apply place_standard_list in Hp; [|assumption]. now subst.
Qed.

(** places are determined by the mesh *)
Lemma node_at_fun src n q q' : node_at src n q -> node_at src n q' -> q = q'.
Proof.
  destruct src as [[f xs]|]; [|intros []]. intros (x & E & H) (x' & E' & H'). rewrite E in E'. injection E' as <-. apply placed_iff in H. apply placed_iff in H'. congruence.
Qed.
Lemma Forall2_functional {A B} (R : A -> B -> Prop) l : (forall x y y', R x y -> R x y' -> y = y') -> forall m m', Forall2 R l m -> Forall2 R l m' -> m = m'.
Proof. intros HR. induction l as [|x l IH]; intros m m' H H'; inversion H; inversion H'; subst; [reflexivity|]. f_equal; eauto. Qed.
Lemma mesh_at_fun m ps ps' : mesh_at m ps -> mesh_at m ps' -> ps = ps'.
Proof. apply Forall2_functional. intros c qs qs'. apply Forall2_functional. intros n. apply node_at_fun. Qed.

(** a frame that is not at the origin: the mesh moves *)
Definition two_points (f : option frame) : points := Points [(0, 0, 0); (1, 0, 0)]%R f [0; 1] [false; true] [].
Definition one_line : cells := Cells [[0; 1]] [0] [].
Definition line_in (f : frame) : block := Block (Some f) (Some (two_points (Some f))) (Some one_line) [].
Lemma line_in_at a o : mesh_at (line_in (Cartesian a o)) [[place (Cartesian a o) (0, 0, 0)%R; place (Cartesian a o) (1, 0, 0)%R]].
Proof.
  unfold mesh_at. cbn. constructor; [|constructor]. cbn [fst snd]. constructor; [|constructor; [|constructor]]; cbn [node_at].
  - exists (0, 0, 0)%R. split; [reflexivity|]. now apply placed_iff.
  - exists (1, 0, 0)%R. split; [reflexivity|]. now apply placed_iff.
Qed.
Lemma standard_moves : exists m o p k ps m', m = Block (Some (Cartesian meye o)) (Some p) (Some k) [] /\ pframe p = Some (Cartesian meye o) /\ length (px p) = 2 /\ mesh_at m ps /\ to_standard_form (fun _ => None) (fun _ => None) m = Ok m' /\ ~ mesh_at m' ps.
Proof.
  set (F := Cartesian meye (1, 0, 0)%R). exists (line_in F), (1, 0, 0)%R, (two_points (Some F)), one_line, [[place F (0, 0, 0)%R; place F (1, 0, 0)%R]].
  assert (Hrec : receives (root_frame (line_in F)) (line_in F)).
  { split; [exact orthonormal_eye|]. right. cbn. constructor; [|constructor]. exists meye, (1, 0, 0)%R. reflexivity. }
  destruct (standardize (fun _ => None) (fun _ => None) (line_in F) _ Hrec (line_in_at meye (1, 0, 0)%R)) as (m' & ps' & E & _ & H2 & H3 & _).
  - discriminate.
  - discriminate.
  - cbn. constructor; [cbn; lia|constructor].
  - intros s. exists None. cbn. constructor; [reflexivity|constructor].
  - exists m'. split; [reflexivity|]. split; [reflexivity|]. split; [reflexivity|]. split; [exact (line_in_at meye (1, 0, 0)%R)|]. split; [exact E|]. intros H. pose proof (mesh_at_fun _ _ _ H H2) as <-. clear -H3.
    inversion H3 as [|? ? ? ? H _]; subst. inversion H as [|? ? ? ? H0 _]; subst. cbn in H0. injection H0. intros. lra.
Qed.
(** blocks with one point *)
Lemma thread_err {A B} (step : nat -> A -> res (nat * B)) e l : (forall n, Forall (fun a => (exists m b, step n a = Ok (m, b)) \/ step n a = Err e) l) ->
  (exists a, In a l /\ forall n, step n a = Err e) -> forall n, thread step n l = Err e.
Proof.
  induction l as [|a l IH]; intros H (x & Hx & Ex) n; [destruct Hx|]. cbn [thread]. pose proof (H n) as Hn. inversion Hn as [|? ? Ha Hl]; subst.
  destruct Ha as [(m & b & Ea)|Ea]; rewrite Ea; [|reflexivity]. cbn [bind fst snd]. rewrite IH; [reflexivity| |].
  - intros k. specialize (H k). now inversion H.
  - destruct Hx as [->|Hx]; [|eauto]. rewrite Ex in Ea. discriminate.
Qed.
Lemma number_err t b : Exists (fun p => length (px p) = 1) (arrays b) -> forall up n, number t up n b = Err AssertionError.
Proof.
  induction b as [f pd cd subs IH] using block_induction. intros Hs up n. cbn [number]. set (u := block_frame up (Block f pd cd subs)).
  cbn [arrays] in Hs. apply Exists_app in Hs.
  assert (Hd : Exists (fun p => length (px p) = 1) (flat_map arrays subs) -> forall n, thread (number t u) n subs = Err AssertionError).
  { intros He n'. apply thread_err.
    - intros k. rewrite Forall_forall in IH. apply Forall_forall. intros b Hb.
      destruct (Exists_dec (fun p => length (px p) = 1) (arrays b)) as [H|H]; [intros p; apply Nat.eq_dec|right; now apply IH|left].
      eexists _, _. apply number_ok. apply Forall_Exists_neg in H. exact H.
    - apply Exists_exists in He as (p & Hp & E). apply in_flat_map in Hp as (b & Hb & Hp). exists b. split; [assumption|]. intros k. rewrite Forall_forall in IH. apply IH; [assumption|].
      apply Exists_exists. eauto. }
  destruct pd as [p|].
  - unfold new_point_ids. destruct (Nat.eqb_spec (length (px p)) 1) as [E|N]; [reflexivity|]. cbn [bind fst snd]. rewrite Hd; [reflexivity|].
    destruct Hs as [H|H]; [|assumption]. inversion H as [? ? H1|? ? H1]; subst; [contradiction|]. inversion H1.
  - cbn [bind fst snd]. destruct Hs as [H|H]; [inversion H|]. now rewrite Hd.
Qed.
Lemma standard_single dp dc m : Exists (fun p => length (px p) = 1) (arrays m) -> to_standard_form dp dc m = Err AssertionError.
Proof. intros H. unfold to_standard_form. now rewrite number_err. Qed.
(** meshes without cells *)
Lemma standard_no_cells dp dc m : arrays m <> [] -> Forall (fun p => length (px p) <> 1) (arrays m) -> joinable (map pfields (arrays m)) ->
  cell_arrays m = [] -> to_standard_form dp dc m = Err ValueError.
Proof.
  intros Hne Hone Hj Hc. unfold to_standard_form. rewrite (number_ok _ _ Hone). cbn [bind fst snd]. rewrite walk_arrays, arrays_renumber.
  set (l := renum_points (bframe m) 0 (framed None m)).
  assert (Hl : l <> []). { unfold l. rewrite <- (framed_arrays m None) in Hne. destruct (framed None m) as [|[? ?] ?]; [now elim Hne|discriminate]. }
  assert (Hjl : joinable (map pfields l)). { unfold l. rewrite renum_fields. rewrite <- (framed_arrays m None), map_map in Hj. exact Hj. }
  destruct (merge_fields_ok dp l Hl Hjl) as (fs & E & _). clearbody l. destruct l as [|p l]; [congruence|]. cbn [guard bind]. rewrite E. cbn [bind].
  rewrite walk_cells.
  assert (Hc' : cell_arrays (renumber (bframe m) None 0 m) = []) by (rewrite cell_arrays_renumber; exact Hc).
  destruct (renumber (bframe m) None 0 m) as [f' pd' cd' subs']. cbn [bframe bcd bsub]. cbn [cell_arrays] in *. rewrite Hc'. reflexivity.
Qed.
(** a field with rows that is missing in one block; points that are not active *)
Definition with_field (fs : fields) : points := Points [(0, 0, 0); (1, 0, 0)]%R None [0; 1] [true; true] fs.
Definition row_field : field := Field (Some 2) [[Some 1%R; Some 2%R]; [Some 3%R; Some 4%R]].
Definition column_field : field := Field None [[Some 1%R]; [Some 3%R]].
Definition two_blocks (f : field) : block :=
  Block None None None [Block None (Some (with_field [("u"%string, f)])) (Some one_line) []; Block None (Some (with_field [])) (Some one_line) []].
Lemma standard_missing_row : exists m p q k r ps, m = Block None None None [Block None (Some p) (Some k) []; Block None (Some q) (Some k) []] /\
  pfields p = [("u"%string, Field (Some 2) r)] /\ pfields q = [] /\ length r = 2 /\ Forall (fun p => length (px p) = 2 /\ pframe p = None) [p; q] /\ cfields k = [] /\
  mesh_at m ps /\ to_standard_form (fun _ => None) (fun _ => None) m = Err ValueError.
Proof.
  exists (two_blocks row_field), (with_field [("u"%string, row_field)]), (with_field []), one_line, (rows row_field), [[(0, 0, 0); (1, 0, 0)]; [(0, 0, 0); (1, 0, 0)]]%R.
  do 4 (split; [reflexivity|]). split; [repeat constructor|]. split; [reflexivity|]. split.
  - unfold mesh_at. cbn. repeat constructor; cbn [node_at fst snd]; eexists; (split; [reflexivity|]); apply placed_iff; rewrite place_standard by auto; reflexivity.
  - reflexivity.
Qed.
Lemma wire_pd dc names src k b n b' : wire dc names src k b = Ok (n, b') -> bpd b' = bpd b.
Proof.
  destruct b as [f pd cd subs]. cbn [wire]. match goal with |- (do x <- ?e; _) = _ -> _ => destruct e as [r|]; [|discriminate] end. cbn [bind].
  destruct (thread _ _ _) as [s|]; [|discriminate]. cbn [bind]. intros E. injection E as _ <-. reflexivity.
Qed.
Lemma standard_activity dp dc m m' pd : to_standard_form dp dc m = Ok m' -> bpd m' = Some pd -> Forall (fun a => a = true) (pact pd).
Proof.
  unfold to_standard_form. destruct (number _ _ _ _) as [r|]; [|discriminate]. cbn [bind]. destruct (guard _ _) as [|]; [|discriminate]. cbn [bind].
  destruct (merge_fields _ _) as [fs|]; [|discriminate]. cbn [bind]. destruct (guard _ _) as [|]; [|discriminate]. cbn [bind].
  destruct (wire _ _ _ _ _) as [[k b]|] eqn:Ew; [|discriminate]. cbn [bind snd]. apply wire_pd in Ew. destruct b as [f' pd' cd' subs']. cbn [bpd] in Ew. subst pd'.
  intros E. injection E as <-. cbn [bpd]. intros E. injection E as <-. cbn [new_points pact].
  apply Forall_forall. intros x Hx. apply in_map_iff in Hx as (? & <- & _). reflexivity.
Qed.
Lemma standard_activity_lost : exists m m' p pd, to_standard_form (fun _ => None) (fun _ => None) m = Ok m' /\ arrays m = [p] /\ bpd m' = Some pd /\
  length (px p) = length (px pd) /\ pact p = [false; true] /\ pact pd = [true; true].
Proof.
  eexists (line_in standard), _, _, _. split; [lazy -[Rplus Rmult Ropp Rminus IZR]; reflexivity|]. split; [reflexivity|]. split; [reflexivity|]. split; [reflexivity|]. split; reflexivity.
Qed.
(** the copy: default values are not used *)
Lemma standard_copy_defaults : exists m m' pd, let d := fun _ : string => Some 0%R in
  standard_copy d d m = Ok m' /\ bpd m' = Some pd /\ find_field "u"%string (pfields pd) = Some (Field None [[Some 1%R]; [Some 3%R]; [None]; [None]]) /\
  exists m'' pd', to_standard_form d d m = Ok m'' /\ bpd m'' = Some pd' /\ find_field "u"%string (pfields pd') = Some (Field None [[Some 1%R]; [Some 3%R]; [Some 0%R]; [Some 0%R]]).
Proof.
  exists (Block (Some standard) None None (bsub (two_blocks column_field))). eexists _, _. cbn zeta. split; [lazy -[Rplus Rmult Ropp Rminus IZR]; reflexivity|]. split; [reflexivity|]. split; [reflexivity|].
  eexists _, _. split; [lazy -[Rplus Rmult Ropp Rminus IZR]; reflexivity|]. split; reflexivity.
Qed.
