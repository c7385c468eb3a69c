(** * Lemmas about [KindModel.v] *)
From Coq Require Import Reals String List Lia Bool Arith Lra.
From Verif Require Import Base TrModel GridProofs7 FrameProofs FieldSpec FieldProofs NodalProofs5 FieldProofs2 KindSpec.
Import ListNotations.
Local Open Scope string_scope.

Lemma width_ncols n (topo : list (list nat)) : of_width n topo -> ncols topo = n.
Proof. intros [H1 H2]. destruct topo as [|c topo]; [contradiction|]. now apply Forall_inv in H2. Qed.

(** ** Tables from any positions *)

Lemma point_array_length x f newaxis x' : point_array x f newaxis = Ok x' -> clen x' = clen x.
Proof.
  destruct x; cbn [point_array]; try discriminate.
  - destruct (Nat.ltb newaxis 3); cbn [guard bind]; [|discriminate]. intros H. injection H as <-. destruct f; [|reflexivity].
    cbn [clen]. rewrite show_length. apply map_length.
  - intros H. injection H as <-. cbn [clen]. apply show_length.
Qed.
Lemma points_any x x' f newaxis pf : point_array x f newaxis = Ok x' -> of_length (clen x) (given_columns pf) ->
  exists fr, PointData_init x true f newaxis None (Some (store (given_columns pf) "_id" (Ids (seq 0 (clen x))))) [("stateful", Other)] =
    let t := store (store (store (given_columns pf) "_id" (Ids (seq 0 (clen x)))) "_x" x') "_activity" (Flags (repeat true (clen x))) in
    (Ok (Some t, fr), Some t).
Proof.
  intros E Hf. unfold PointData_init. rewrite E. cbv zeta. cbn [add_arrays fold_left fst snd].
  rewrite (wrapper_ok (clen x)).
  - cbn [bind]. eexists. reflexivity.
  - apply store_not_nil.
  - apply store_length; [apply store_length; [apply store_length; [exact Hf|apply seq_length]|now apply point_array_length in E]|apply repeat_length].
  - intros k c [H|[]]. discriminate H.
Qed.
Lemma mesh_any x x' topo f newaxis frames pf cf :
  point_array x f newaxis = Ok x' -> of_length (clen x) (given_columns pf) -> of_length (length topo) (given_columns cf) ->
  (forall l, frames = Some (AMatrices l) -> length l = length topo) ->
  fst (PolyData_init x topo true f newaxis frames pf cf) =
    Ok (Some (store (store (store (given_columns pf) "_id" (Ids (seq 0 (clen x)))) "_x" x') "_activity" (Flags (repeat true (clen x)))),
        Some (store (mapped (store (match mesh_frames frames f (length topo) with Some l => store (given_columns cf) "frames" (Matrices l) | None => given_columns cf end) "_id"
          (Ids (seq 0 (length topo))))) "_nodes" (Nodes topo))).
Proof.
  intros E Hp Hcf Hfr. unfold PolyData_init. fold (given_columns pf). fold (given_columns cf).
  destruct (points_any x x' f newaxis pf E Hp) as (fr & ->). cbv zeta. cbn [orb].
  set (cf1 := match frames with Some (AFrame g) => _ | Some (AMatrix m) => _ | Some (AMatrices l) => _ | Some AOther => _ | None => _ end).
  assert (C1 : cf1 = match mesh_frames frames f (length topo) with Some l => store (given_columns cf) "frames" (Matrices l) | None => given_columns cf end).
  { unfold cf1, mesh_frames. destruct frames as [[g|m|l|]|]; try reflexivity. destruct f; reflexivity. }
  assert (H1 : of_length (length topo) (store cf1 "_id" (Ids (seq 0 (length topo))))).
  { apply store_length; [|apply seq_length]. rewrite C1. destruct (mesh_frames frames f (length topo)) as [l|] eqn:El; [|exact Hcf].
    apply store_length; [exact Hcf|]. cbn [clen]. unfold mesh_frames in El.
    destruct frames as [[g|m|l'|]|]; try (injection El as <-; apply repeat_length); try discriminate El.
    - injection El as <-. now apply Hfr.
    - destruct f; [injection El as <-; apply repeat_length|discriminate El]. }
  destruct (cells_made topo (Some (store cf1 "_id" (Ids (seq 0 (length topo))))) [] None) as (tc & E4 & E5).
  { exact H1. }
  { intros k c []. }
  { intros c H. discriminate H. }
  rewrite E4. cbn [bind fst]. rewrite E5, C1. reflexivity.
Qed.

(** ** Classes *)

Lemma picked m celltype topo k : pick_class m celltype topo = Ok k -> celltype = Some k \/ (celltype = None /\ cell_classes m (ncols topo) = Some k).
Proof.
  unfold pick_class. destruct celltype as [k'|]; [intros H; injection H as <-; now left|].
  destruct (cell_classes m (ncols topo)); [|discriminate]. intros H. injection H as <-. right. now split.
Qed.
Lemma class_nodes m w k : cell_classes m w = Some k -> nodes_of k = w.
Proof.
  destruct m; do 28 (destruct w as [|w]; [cbn; try discriminate; intros H; injection H as <-; reflexivity|]); cbn; discriminate.
Qed.
Lemma mesh_init_some m x topo celltype f newaxis frames pf cf t k :
  mesh_init m x topo celltype f newaxis frames pf cf = Ok (t, k) -> pick_class m celltype topo = Ok k /\ fst (PolyData_init x topo true f newaxis frames pf cf) = Ok t.
Proof.
  unfold mesh_init. destruct (pick_class m celltype topo) as [k'|e].
  - destruct (fst (PolyData_init x topo true f newaxis frames pf cf)) as [t'|]; cbn [bind]; [|discriminate]. intros H. injection H as <- <-. now split.
  - match goal with |- bind ?a _ = _ -> _ => destruct a; cbn [bind]; discriminate end.
Qed.
Lemma mesh_init_ok m x x' topo celltype f newaxis frames pf cf k :
  pick_class m celltype topo = Ok k -> point_array x f newaxis = Ok x' -> of_length (clen x) (given_columns pf) -> of_length (length topo) (given_columns cf) ->
  (forall l, frames = Some (AMatrices l) -> length l = length topo) ->
  exists tp tc, mesh_init m x topo celltype f newaxis frames pf cf = Ok (Some tp, Some tc, k) /\ fst (PolyData_init x topo true f newaxis frames pf cf) = Ok (Some tp, Some tc) /\
    lookup tp "_x" = Some x' /\ lookup tc "_nodes" = Some (Nodes topo) /\ tc <> [] /\ of_length (length topo) tc.
Proof.
  intros Hk E Hp Hcf Hfr. unfold mesh_init. rewrite Hk, (mesh_any x x') by assumption. cbn [bind]. do 2 eexists. split; [reflexivity|]. split; [reflexivity|].
  split; [rewrite lookup_store_other by discriminate; apply lookup_store_same|]. split; [apply lookup_store_same|]. split; [apply store_not_nil|].
  apply store_length; [|reflexivity]. apply mapped_length, store_length; [|apply seq_length].
  destruct (mesh_frames frames f (length topo)) as [l|] eqn:El; [|exact Hcf]. apply store_length; [exact Hcf|]. cbn [clen]. unfold mesh_frames in El.
  destruct frames as [[g|mm|l'|]|]; try (injection El as <-; apply repeat_length); try discriminate El.
  - injection El as <-. now apply Hfr.
  - destruct f; [injection El as <-; apply repeat_length|discriminate El].
Qed.

Lemma default_class_nodes : forall m x topo w f newaxis frames pf cf t k,
  of_width w topo -> mesh_init m x topo None f newaxis frames pf cf = Ok (t, k) -> nodes_of k = w.
Proof.
  intros m x topo w f newaxis frames pf cf t k Hw H. apply mesh_init_some in H. destruct H as [H _]. apply picked in H.
  destruct H as [H|[_ H]]; [discriminate H|]. rewrite (width_ncols w topo Hw) in H. now apply class_nodes in H.
Qed.
Lemma poly_as_before : forall x topo celltype f newaxis frames pf cf,
  match mesh_init MPoly x topo celltype f newaxis frames pf cf with Ok (t, _) => Ok t | Err e => Err e end =
  fst (PolyData_init x topo (match celltype with Some _ => true | None => false end) f newaxis frames pf cf).
Proof.
  intros. unfold mesh_init, pick_class. destruct celltype as [k|].
  - destruct (fst (PolyData_init x topo true f newaxis frames pf cf)); reflexivity.
  - assert (K : known_width (ncols topo) = match cell_classes MPoly (ncols topo) with Some _ => true | None => false end).
    { generalize (ncols topo). intros w. do 28 (destruct w as [|w]; [reflexivity|]). reflexivity. }
    unfold PolyData_init. rewrite K. destruct (cell_classes MPoly (ncols topo)) as [k|].
    + cbn [orb].
      match goal with |- match bind ?a _ with _ => _ end = fst ?b => change a with (fst b); destruct (fst b); reflexivity end.
    + fold (given_columns pf). destruct (PointData_init _ _ _ _ _ _ _) as [[[pd fr]|e] s]; reflexivity.
Qed.
Lemma class_of_cells : forall k x topo f newaxis frames pf cf t k',
  of_width (nodes_of k) topo -> ~ In k [KL3; KT6; KTET4] -> mesh_init MPoly x topo None f newaxis frames pf cf = Ok (t, k') -> k' = k.
Proof.
  intros k x topo f newaxis frames pf cf t k' Hw Hn H. apply mesh_init_some in H. destruct H as [H _]. apply picked in H.
  destruct H as [H|[_ H]]; [discriminate H|]. rewrite (width_ncols _ topo Hw) in H.
  destruct k; cbn in H; try (injection H as <-; reflexivity); exfalso; apply Hn; cbn; tauto.
Qed.
Lemma class_of_cells_ok : forall k x topo f newaxis frames pf cf,
  of_width (nodes_of k) topo -> of_length (length x) (given_columns pf) -> of_length (length topo) (given_columns cf) ->
  (forall l, frames = Some (AMatrices l) -> length l = length topo) ->
  exists t k', mesh_init MPoly (Space x) topo None f newaxis frames pf cf = Ok (t, k') /\ nodes_of k' = nodes_of k /\
    (In k [KL3; KT6; KTET4] -> dim_of k' <> dim_of k).
Proof.
  intros k x topo f newaxis frames pf cf Hw Hp Hcf Hfr.
  assert (E : exists k', pick_class MPoly None topo = Ok k' /\ nodes_of k' = nodes_of k /\ (In k [KL3; KT6; KTET4] -> dim_of k' <> dim_of k)).
  { unfold pick_class. rewrite (width_ncols _ topo Hw).
    destruct k; cbn [nodes_of element_of e_nodes cell_classes]; eexists; (split; [reflexivity|]); (split; [reflexivity|]); intros [H|[H|[H|[]]]]; try discriminate H; cbn; lia. }
  destruct E as (k' & E & Hk). destruct (mesh_init_ok MPoly (Space x) _ topo None f newaxis frames pf cf k' E eq_refl Hp Hcf Hfr) as (tp & tc & H & _).
  exists (Some tp, Some tc), k'. split; [exact H|exact Hk].
Qed.
Lemma class_unchecked : forall m k x topo f newaxis frames pf cf,
  of_length (length x) (given_columns pf) -> of_length (length topo) (given_columns cf) -> (forall l, frames = Some (AMatrices l) -> length l = length topo) ->
  exists t, mesh_init m (Space x) topo (Some k) f newaxis frames pf cf = Ok (t, k).
Proof.
  intros m k x topo f newaxis frames pf cf Hp Hcf Hfr.
  destruct (mesh_init_ok m (Space x) _ topo (Some k) f newaxis frames pf cf k eq_refl eq_refl Hp Hcf Hfr) as (tp & tc & H & _). eexists. exact H.
Qed.

(** ** Line meshes *)

Lemma line_class : forall x topo f newaxis frames pf cf areas w, of_width w topo -> w <> 2%nat -> w <> 3%nat -> of_length (length x) (given_columns pf) ->
  LineData_init (Space x) topo None f newaxis frames pf cf areas = Err TypeError.
Proof.
  intros x topo f newaxis frames pf cf areas w Hw H2 H3 Hp. unfold LineData_init, mesh_init, pick_class. rewrite (width_ncols _ _ Hw).
  replace (cell_classes MLine w) with (@None kind) by (destruct w as [|[|[|[|w]]]]; try reflexivity; contradiction).
  fold (given_columns pf).
  destruct (points_any (Space x) (Space (show (new_cloud x f None) None)) f newaxis pf eq_refl Hp) as (fr & ->). reflexivity.
Qed.
Lemma line_areas : forall x topo w f newaxis frames pf cf areas,
  of_width w topo -> w = 2%nat \/ w = 3%nat -> of_length (length x) (given_columns pf) -> of_length (length topo) (given_columns cf) ->
  (forall l, frames = Some (AMatrices l) -> length l = length topo) -> (forall l, areas = Some l -> length l = length topo) ->
  exists tp tc tc', fst (PolyData_init (Space x) topo true f newaxis frames pf cf) = Ok (Some tp, Some tc) /\
    LineData_init (Space x) topo None f newaxis frames pf cf (match areas with Some l => Some (Areas1 l) | None => None end) =
      Ok (Some tp, Some tc', if Nat.eqb w 2 then KL2 else KL3) /\
    lookup tc' "_areas" = Some (Numbers (match areas with Some l => l | None => repeat 1%R (length topo) end)) /\
    forall k, k <> "_areas" -> lookup tc' k = lookup tc k.
Proof.
  intros x topo w f newaxis frames pf cf areas Hw H23 Hp Hcf Hfr Ha.
  assert (E : pick_class MLine None topo = Ok (if Nat.eqb w 2 then KL2 else KL3)).
  { unfold pick_class. rewrite (width_ncols _ _ Hw). destruct H23 as [-> | ->]; reflexivity. }
  destruct (mesh_init_ok MLine (Space x) _ topo None f newaxis frames pf cf _ E eq_refl Hp Hcf Hfr) as (tp & tc & H & HP & Hx & Hn & Hne & Hl).
  set (l := match areas with Some l => l | None => repeat 1%R (length topo) end).
  exists tp, tc, (store tc "_areas" (Numbers l)). split; [exact HP|]. split; [|split; [apply lookup_store_same|intros k Hk; apply lookup_store_other; congruence]].
  unfold LineData_init. rewrite H. cbn [bind].
  assert (L : length l = length topo) by (unfold l; destruct areas as [l0|]; [now apply Ha|apply repeat_length]).
  destruct areas as [l0|]; cbn [bind]; [|rewrite (rows_length (length topo)) by assumption]; rewrite (set_column_ok (length topo)) by (try assumption; exact L); reflexivity.
Qed.
Lemma line_areas_invalid : forall x topo w f newaxis frames pf cf,
  of_width w topo -> w = 2%nat \/ w = 3%nat -> of_length (length x) (given_columns pf) -> of_length (length topo) (given_columns cf) ->
  (forall l, frames = Some (AMatrices l) -> length l = length topo) ->
  LineData_init (Space x) topo None f newaxis frames pf cf (Some AreasN) = Err AssertionError /\
  (forall l, length l <> length topo -> LineData_init (Space x) topo None f newaxis frames pf cf (Some (Areas1 l)) = Err ValueError).
Proof.
  intros x topo w f newaxis frames pf cf Hw H23 Hp Hcf Hfr.
  assert (E : pick_class MLine None topo = Ok (if Nat.eqb w 2 then KL2 else KL3)).
  { unfold pick_class. rewrite (width_ncols _ _ Hw). destruct H23 as [-> | ->]; reflexivity. }
  destruct (mesh_init_ok MLine (Space x) _ topo None f newaxis frames pf cf _ E eq_refl Hp Hcf Hfr) as (tp & tc & H & HP & Hx & Hn & Hne & Hl).
  split; [unfold LineData_init; rewrite H; reflexivity|]. intros l El. unfold LineData_init. rewrite H. cbn [bind].
  destruct tc as [|[k c] tc]; [contradiction|]. cbn [set_column clen]. replace (clen c) with (length topo) by (symmetry; apply (Hl k); now left).
  apply Nat.eqb_neq in El. rewrite El. reflexivity.
Qed.
Lemma line_area_number : forall x topo w f newaxis frames pf cf a,
  of_width w topo -> w = 2%nat \/ w = 3%nat -> of_length (length x) (given_columns pf) -> of_length (length topo) (given_columns cf) ->
  (forall l, frames = Some (AMatrices l) -> length l = length topo) ->
  LineData_init (Space x) topo None f newaxis frames pf cf (Some AreasOther) = Err AttributeError /\
  exists t, fst (CellData_init (Some topo) cf None None (Some (Each a)) None []) = Ok (Some t) /\ lookup t "_areas" = Some (Numbers (repeat a (length topo))).
Proof.
  intros x topo w f newaxis frames pf cf a Hw H23 Hp Hcf Hfr.
  assert (E : pick_class MLine None topo = Ok (if Nat.eqb w 2 then KL2 else KL3)).
  { unfold pick_class. rewrite (width_ncols _ _ Hw). destruct H23 as [-> | ->]; reflexivity. }
  destruct (mesh_init_ok MLine (Space x) _ topo None f newaxis frames pf cf _ E eq_refl Hp Hcf Hfr) as (tp & tc & H & HP & Hx & Hn & Hne & Hl).
  split; [unfold LineData_init; rewrite H; reflexivity|]. clear - Hcf. unfold CellData_init. fold (given_columns cf).
  replace (match given_columns cf with [] => [] | _ => mapped (given_columns cf) end) with (mapped (given_columns cf)) by (destruct (given_columns cf); reflexivity).
  cbn [add_arrays fold_left].
  assert (Hd : of_length (length topo) (store (mapped (given_columns cf)) "_nodes" (Nodes topo))).
  { apply store_length; [|reflexivity]. now apply mapped_length. }
  assert (Hnn : store (mapped (given_columns cf)) "_nodes" (Nodes topo) <> []) by apply store_not_nil.
  rewrite (wrapper_ok (length topo)); [|assumption|assumption|intros k c []]. cbn [bind add_arrays fold_left set_amount].
  rewrite (rows_length (length topo)) by assumption. rewrite (set_column_ok (length topo)); [|assumption|assumption|apply repeat_length].
  cbn [bind fst]. eexists. split; [reflexivity|]. apply lookup_store_same.
Qed.
Lemma line_areas_lost : forall x topo w f newaxis key l,
  of_width w topo -> w = 2%nat \/ w = 3%nat -> key = "areas" \/ key = "_areas" -> length l = length topo ->
  exists tp tc tc' k, fst (PolyData_init (Space x) topo true f newaxis None None (Some [(key, Numbers l)])) = Ok (Some tp, Some tc) /\
    lookup tc "_areas" = Some (Numbers l) /\
    LineData_init (Space x) topo None f newaxis None None (Some [(key, Numbers l)]) None = Ok (Some tp, Some tc', k) /\
    lookup tc' "_areas" = Some (Numbers (repeat 1%R (length topo))).
Proof.
  intros x topo w f newaxis key l Hw H23 Hk Hl.
  assert (Hcf : of_length (length topo) [(key, Numbers l)]) by (intros k v [H|[]]; injection H as <- <-; exact Hl).
  destruct (line_areas x topo w f newaxis None None (Some [(key, Numbers l)]) None Hw H23) as (tp & tc & tc' & HP & HL & Ha & _).
  - intros k v [].
  - exact Hcf.
  - intros l0 H. discriminate H.
  - intros l0 H. discriminate H.
  - exists tp, tc, tc', (if Nat.eqb w 2 then KL2 else KL3). split; [exact HP|]. split; [|split; [exact HL|exact Ha]].
    destruct (mesh_fields x topo true f newaxis None None (Some [(key, Numbers l)])) as (tp2 & tc2 & HP2 & _ & _ & _ & _ & _ & _ & _ & Hg & _).
    + now left.
    + intros k v [].
    + exact Hcf.
    + unfold separate. cbn. constructor; [intros []|constructor].
    + intros l0 H. discriminate H.
    + rewrite HP in HP2. injection HP2 as <- <-. specialize (Hg key (Numbers l) (or_introl eq_refl)).
      destruct Hk as [-> | ->]; apply Hg; cbn; try discriminate; intros [H|H]; discriminate H.
Qed.
