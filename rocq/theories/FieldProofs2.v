(** * Lemmas about [FieldModel.v]: constructors *)
From Coq Require Import Reals String List Lia Bool Arith.
From Verif Require Import Base TrModel FrameProofs FieldSpec FieldProofs NodalProofs5.
Import ListNotations.
Local Open Scope string_scope.

Lemma show_length c t : length (show c t) = length (array c).
Proof. rewrite show_map. apply map_length. Qed.

(** ** Points *)

Lemma points_made : forall x as_coords f newaxis act fields kw,
  of_length (length x) (given_columns fields) -> arrays_of_length (length x) kw -> (forall a, act = Some a -> length a = length x) ->
  exists t fr, fst (PointData_init (Space x) as_coords f newaxis act fields kw) = Ok (Some t, fr) /\
    snd (PointData_init (Space x) as_coords f newaxis act fields kw) = match fields with Some _ => Some t | None => None end /\
    t = add_arrays (fun _ => true) kw (add_arrays (Nat.eqb (length x)) kw (store (store (given_columns fields) "_x" (Space (show (new_cloud x f None) None))) "_activity"
          (Flags (match act with Some a => a | None => repeat true (length x) end)))).
Proof.
  intros x as_coords f newaxis act fields kw Hf Hk Ha. unfold PointData_init, point_array. cbn [clen]. fold (given_columns fields).
  set (d := store (store _ _ _) _ _).
  assert (Hd : of_length (length x) d).
  { apply store_length; [apply store_length; [exact Hf|]|].
    - cbn [clen]. rewrite show_length. reflexivity.
    - cbn [clen]. destruct act as [a|]; [now apply Ha|apply repeat_length]. }
  rewrite (wrapper_ok (length x)).
  - cbn [bind fst snd]. do 2 eexists. split; [reflexivity|]. split; reflexivity.
  - apply add_arrays_not_nil, store_not_nil.
  - now apply add_arrays_length.
  - exact Hk.
Qed.
Lemma places_shown x f : same_places (frame_or_standard f) x standard (show (new_cloud x f None) None).
Proof. pose proof (show_ambient (new_cloud x f None)) as H. destruct f; exact H. Qed.

(** ** Cells *)

Lemma cells_made : forall topo fields kw act,
  of_length (length topo) (given_columns fields) -> arrays_of_length (length topo) kw ->
  (forall c, act = Some (Arr c) -> clen c = length topo) ->
  exists t, CellData_init (Some topo) fields act None None None kw = (Ok (Some t), match fields with Some [] => Some t | _ => fields end) /\
    t = add_arrays (fun _ => true) kw (add_arrays (Nat.eqb (length topo)) kw
          (store (match act with Some (Arr a) => store (mapped (given_columns fields)) "_activity" a | _ => mapped (given_columns fields) end) "_nodes" (Nodes topo))).
Proof.
  intros topo fields kw act Hf Hk Ha. unfold CellData_init. fold (given_columns fields).
  replace (match given_columns fields with [] => [] | _ => mapped (given_columns fields) end) with (mapped (given_columns fields)) by (destruct (given_columns fields); reflexivity).
  set (d := add_arrays (Nat.eqb _) _ _).
  assert (Hd : of_length (length topo) d).
  { apply add_arrays_length; [|exact Hk]. apply store_length; [|reflexivity]. destruct act as [[c|]|]; try now apply mapped_length.
    apply store_length; [now apply mapped_length|now apply Ha]. }
  rewrite (wrapper_ok (length topo)).
  - cbn [bind]. eexists. split; reflexivity.
  - apply add_arrays_not_nil, store_not_nil.
  - exact Hd.
  - exact Hk.
Qed.

(** ** Meshes *)

Lemma mesh_made : forall x topo celltype f newaxis frames pf cf,
  celltype = true \/ class_width (ncols topo) -> of_length (length x) (given_columns pf) -> of_length (length topo) (given_columns cf) ->
  (forall l, frames = Some (AMatrices l) -> length l = length topo) ->
  exists tp tc, PolyData_init (Space x) topo celltype f newaxis frames pf cf =
    (Ok (Some tp, Some tc), (match pf with Some _ => Some tp | None => None end,
      match cf with
      | Some d => Some (store (match mesh_frames frames f (length topo) with Some l => store d "frames" (Matrices l) | None => d end) "_id" (Ids (seq 0 (length topo))))
      | None => None end)) /\
    tp = store (store (store (given_columns pf) "_id" (Ids (seq 0 (length x)))) "_x" (Space (show (new_cloud x f None) None))) "_activity" (Flags (repeat true (length x))) /\
    tc = store (mapped (store (match mesh_frames frames f (length topo) with Some l => store (given_columns cf) "frames" (Matrices l) | None => given_columns cf end) "_id"
      (Ids (seq 0 (length topo))))) "_nodes" (Nodes topo).
Proof.
  intros x topo celltype f newaxis frames pf cf Hc Hp Hcf Hfr. unfold PolyData_init. fold (given_columns pf). fold (given_columns cf). cbn [clen].
  destruct (points_made x true f newaxis None (Some (store (given_columns pf) "_id" (Ids (seq 0 (length x))))) [("stateful", Other)]) as (tp & fr & E1 & E2 & E3).
  { cbn [given_columns]. apply store_length; [exact Hp|apply seq_length]. }
  { intros k c [H|[]]. discriminate H. }
  { intros a H. discriminate H. }
  destruct (PointData_init _ _ _ _ _ _ _) as [r s]. cbn [fst snd] in E1, E2. subst r s.
  replace (celltype || known_width (ncols topo))%bool with true by (symmetry; apply orb_true_iff; rewrite known_class; tauto).
  set (cf1 := match frames with Some (AFrame g) => _ | Some (AMatrix m) => _ | Some (AMatrices l) => _ | Some AOther => _ | None => _ end).
  assert (C1 : cf1 = match mesh_frames frames f (length topo) with Some l => store (given_columns cf) "frames" (Matrices l) | None => given_columns cf end).
  { unfold cf1, mesh_frames. destruct frames as [[g|m|l|]|]; try reflexivity. destruct f; reflexivity. }
  assert (H1 : of_length (length topo) (store cf1 "_id" (Ids (seq 0 (length topo))))).
  { apply store_length; [|apply seq_length]. rewrite C1. destruct (mesh_frames frames f (length topo)) as [l|] eqn:E; [|exact Hcf].
    apply store_length; [exact Hcf|]. cbn [clen]. unfold mesh_frames in E.
    destruct frames as [[g|m|l'|]|]; try (injection E as <-; apply repeat_length); try discriminate E.
    - injection E as <-. now apply Hfr.
    - destruct f; [injection E as <-; apply repeat_length|discriminate E]. }
  destruct (cells_made topo (Some (store cf1 "_id" (Ids (seq 0 (length topo))))) [] None) as (tc & E4 & E5).
  { exact H1. }
  { intros k c []. }
  { intros c H. discriminate H. }
  rewrite E4. cbn [bind]. rewrite C1 in *. cbn [given_columns] in *. exists tp, tc. split; [|split].
  - destruct cf as [d|]; [|reflexivity]. cbn [given_columns]. match goal with |- (_, (_, match ?s with [] => _ | _ :: _ => _ end)) = _ => destruct s eqn:E; [now apply store_not_nil in E|reflexivity] end.
  - exact E3.
  - exact E5.
Qed.
Lemma mesh_fields_key : forall x topo celltype f newaxis frames pf cf,
  celltype = true \/ class_width (ncols topo) -> of_length (length x) (given_columns pf) -> of_length (length topo) (given_columns cf) -> separate (given_columns cf) ->
  (forall l, frames = Some (AMatrices l) -> length l = length topo) ->
  exists tp tc, fst (PolyData_init (Space x) topo celltype f newaxis frames pf cf) = Ok (Some tp, Some tc) /\
    (exists y, lookup tp "_x" = Some (Space y) /\ same_places (frame_or_standard f) x standard y) /\
    lookup tp "_id" = Some (Ids (seq 0 (length x))) /\ lookup tp "_activity" = Some (Flags (repeat true (length x))) /\
    (forall k, ~ own_point_key k -> lookup tp k = lookup (given_columns pf) k) /\
    lookup tc "_nodes" = Some (Nodes topo) /\ lookup tc "_id" = Some (Ids (seq 0 (length topo))) /\
    (forall l, mesh_frames frames f (length topo) = Some l -> lookup tc "_frames" = Some (Matrices l)) /\
    (forall k v, In (k, v) (given_columns cf) -> ~ own_cell_key (cell_key k) -> (cell_key k = "_frames" -> mesh_frames frames f (length topo) = None) ->
       lookup tc (cell_key k) = Some v) /\
    (forall key, lookup tc key <> None -> own_cell_key key \/ (key = "_frames" /\ mesh_frames frames f (length topo) <> None) \/
       exists k v, In (k, v) (given_columns cf) /\ key = cell_key k).
Proof.
  intros x topo celltype f newaxis frames pf cf Hc Hp Hcf Hs Hfr.
  destruct (mesh_made x topo celltype f newaxis frames pf cf Hc Hp Hcf Hfr) as (tp & tc & E & Ep & Ec). exists tp, tc. rewrite E.
  split; [reflexivity|]. subst tp tc. set (mf := mesh_frames frames f (length topo)).
  split; [|split; [|split; [|split; [|split; [|split; [|split; [|split]]]]]]].
  - exists (show (new_cloud x f None) None). split; [reflexivity || (rewrite lookup_store_other by discriminate; apply lookup_store_same)|apply places_shown].
  - rewrite !lookup_store_other by discriminate. apply lookup_store_same.
  - apply lookup_store_same.
  - intros k Hk. rewrite !lookup_store_other; [reflexivity|intros <-; apply Hk; unfold own_point_key; auto ..].
  - apply lookup_store_same.
  - rewrite lookup_store_other by discriminate. rewrite lookup_mapped. change "_id" with (cell_key "_id") at 2. apply last_store_after.
    + destruct mf; [apply store_nodup|]; now apply separate_names.
    + assert (G : forall a, In a (map fst (match mf with Some l => store (given_columns cf) "frames" (Matrices l) | None => given_columns cf end)) -> cell_key a = "_id" -> In a (map fst (given_columns cf))).
      { intros a Ha Ea. destruct mf; [|exact Ha]. apply store_keys in Ha. destruct Ha as [->|Ha]; [discriminate Ea|exact Ha]. }
      destruct (in_dec string_dec "_id" (map fst (given_columns cf))) as [Hi|Hi].
      * right. intros a Ha Ea. apply G in Ha; [|exact Ea]. apply in_map_iff in Ha. destruct Ha as ([a' va] & Ea' & Ha). cbn [fst] in Ea'. subst a'.
        apply in_map_iff in Hi. destruct Hi as ([b vb] & Eb & Hb). cbn [fst] in Eb. subst b. exact (separate_same _ _ _ _ _ Hs Ha Hb Ea).
      * left. intros Ha. apply Hi. now apply G.
  - intros l El. fold mf in El. rewrite El. rewrite lookup_store_other by discriminate. rewrite lookup_mapped.
    rewrite last_store_other by discriminate. change "_frames" with (cell_key "frames"). now apply last_store.
  - intros k v Hi Hk Hfk. fold mf in Hfk. rewrite lookup_store_other by (intros G; apply Hk; left; now symmetry). rewrite lookup_mapped.
    rewrite last_store_other by (intros G; apply Hk; right; now symmetry). destruct mf as [l|].
    + rewrite last_store_other; [now apply last_of_in|]. intros G. cbn in G. symmetry in G. apply Hfk in G. discriminate G.
    + now apply last_of_in.
  - intros key Hn. destruct (string_dec key "_nodes") as [->|H1]; [left; now left|]. destruct (string_dec key "_id") as [->|H2]; [left; now right|].
    rewrite lookup_store_other in Hn by congruence. rewrite lookup_mapped in Hn. rewrite last_store_other in Hn by (cbn; congruence).
    destruct mf as [l|] eqn:El.
    + destruct (string_dec key "_frames") as [->|H3]; [right; left; split; [reflexivity|discriminate]|]. rewrite last_store_other in Hn by (cbn; congruence).
      right; right. destruct (in_dec string_dec key (map (fun kv => cell_key (fst kv)) (given_columns cf))) as [Hi|Hi].
      * apply in_map_iff in Hi. destruct Hi as ([k v] & Ek & Hi). exists k, v. split; [exact Hi|now symmetry].
      * apply last_in in Hi. contradiction.
    + right; right. destruct (in_dec string_dec key (map (fun kv => cell_key (fst kv)) (given_columns cf))) as [Hi|Hi].
      * apply in_map_iff in Hi. destruct Hi as ([k v] & Ek & Hi). exists k, v. split; [exact Hi|now symmetry].
      * apply last_in in Hi. contradiction.
Qed.
Lemma mesh_fields : forall x topo celltype f newaxis frames pf cf,
  celltype = true \/ class_width (ncols topo) -> of_length (length x) (given_columns pf) -> of_length (length topo) (given_columns cf) -> separate (given_columns cf) ->
  (forall l, frames = Some (AMatrices l) -> length l = length topo) ->
  exists tp tc, fst (PolyData_init (Space x) topo celltype f newaxis frames pf cf) = Ok (Some tp, Some tc) /\
    (exists y, lookup tp "_x" = Some (Space y) /\ same_places (frame_or_standard f) x standard y) /\
    lookup tp "_id" = Some (Ids (seq 0 (length x))) /\ lookup tp "_activity" = Some (Flags (repeat true (length x))) /\
    (forall k, ~ own_point_key k -> lookup tp k = lookup (given_columns pf) k) /\
    lookup tc "_nodes" = Some (Nodes topo) /\ lookup tc "_id" = Some (Ids (seq 0 (length topo))) /\
    (forall l, mesh_frames frames f (length topo) = Some l -> lookup tc "_frames" = Some (Matrices l)) /\
    (forall k v, In (k, v) (given_columns cf) -> ~ own_cell_key (column_name k) -> (column_name k = "_frames" -> mesh_frames frames f (length topo) = None) ->
       lookup tc (column_name k) = Some v) /\
    (forall key, lookup tc key <> None -> own_cell_key key \/ (key = "_frames" /\ mesh_frames frames f (length topo) <> None) \/
       exists k v, In (k, v) (given_columns cf) /\ key = column_name k).
Proof.
  intros x topo celltype f newaxis frames pf cf H1 H2 H3 H4 H5. destruct (mesh_fields_key x topo celltype f newaxis frames pf cf H1 H2 H3 H4 H5) as (tp & tc & E & A1 & A2 & A3 & A4 & A5 & A6 & A7 & A8 & A9).
  exists tp, tc. repeat (split; [assumption|]). split.
  - intros k v. rewrite column_key. apply A8.
  - intros key Hk. destruct (A9 key Hk) as [G|[G|(k & v & G1 & G2)]]; [now left|right; now left|]. right; right. exists k, v. rewrite column_key. now split.
Qed.

(** ** Values that are lost *)

Lemma activity_lost : forall x topo celltype f newaxis key l pt,
  celltype = true \/ class_width (ncols topo) -> key = "activity" \/ key = "_activity" -> length l = length x -> In false l ->
  fst (PolyData_init (Space x) topo celltype f newaxis None (Some [(key, Flags l)]) None) = Ok pt ->
  exists tp tc, pt = (Some tp, tc) /\ exists l', lookup tp "_activity" = Some (Flags l') /\ l' <> l /\ Forall (eq true) l'.
Proof.
  intros x topo celltype f newaxis key l pt Hc Hk Hl Hf H.
  destruct (mesh_made x topo celltype f newaxis None (Some [(key, Flags l)]) None Hc) as (tp & tc & E & Ep & Ec).
  { intros k v [G|[]]. injection G as <- <-. exact Hl. }
  { intros k v []. }
  { discriminate. }
  rewrite E in H. cbn [fst] in H. injection H as <-. exists tp, (Some tc). split; [reflexivity|]. exists (repeat true (length x)). subst tp.
  split; [apply lookup_store_same|]. assert (G : Forall (eq true) (repeat true (length x))).
  { apply Forall_forall. intros b Hb. symmetry. now apply repeat_spec in Hb. }
  split; [|exact G]. intros <-. rewrite Forall_forall in G. specialize (G _ Hf). discriminate G.
Qed.
Lemma frames_replaced : forall x topo celltype g newaxis key l,
  celltype = true \/ class_width (ncols topo) -> key = "frames" \/ key = "_frames" -> length l = length topo ->
  exists tp tc, fst (PolyData_init (Space x) topo celltype (Some g) newaxis None None (Some [(key, Matrices l)])) = Ok (Some tp, Some tc) /\
    lookup tc "_frames" = Some (Matrices (repeat (axes g) (length topo))).
Proof.
  intros x topo celltype g newaxis key l Hc Hk Hl.
  destruct (mesh_fields x topo celltype (Some g) newaxis None None (Some [(key, Matrices l)]) Hc) as (tp & tc & E & _ & _ & _ & _ & _ & _ & F & _).
  { intros k v []. }
  { intros k v [G|[]]. injection G as <- <-. exact Hl. }
  { unfold separate. cbn. constructor; [intros []|constructor]. }
  { discriminate. }
  exists tp, tc. split; [exact E|]. now apply F.
Qed.
Lemma other_frames_ignored : forall x topo celltype f newaxis fields areas t kw,
  celltype = true \/ class_width (ncols topo) -> of_length (length topo) (given_columns fields) -> arrays_of_length (length topo) kw ->
  (forall l, areas = Some (PerCell l) -> length l = length topo) ->
  (exists tp tc, fst (PolyData_init (Space x) topo celltype f newaxis (Some AOther) None None) = Ok (Some tp, Some tc) /\ lookup tc "_frames" = None) /\
  fst (CellData_init (Some topo) fields None (Some AOther) areas t kw) = Err TypeError.
Proof.
  intros x topo celltype f newaxis fields areas t kw Hc Hf Hk Ha. split.
  - destruct (mesh_made x topo celltype f newaxis (Some AOther) None None Hc) as (tp & tc & E & Ep & Ec).
    { intros k v []. }
    { intros k v []. }
    { discriminate. }
    exists tp, tc. rewrite E. split; [reflexivity|]. subst tc. reflexivity.
  - unfold CellData_init. fold (given_columns fields).
    replace (match given_columns fields with [] => [] | _ => mapped (given_columns fields) end) with (mapped (given_columns fields)) by (destruct (given_columns fields); reflexivity).
    set (d := match areas with Some (Each _) => _ | Some (PerCell l) => _ | None => _ end).
    assert (G : of_length (length topo) (add_arrays (Nat.eqb (length topo)) kw (store (mapped (given_columns fields)) "_nodes" (Nodes topo)))).
    { apply add_arrays_length; [|exact Hk]. apply store_length; [now apply mapped_length|reflexivity]. }
    assert (N : add_arrays (Nat.eqb (length topo)) kw (store (mapped (given_columns fields)) "_nodes" (Nodes topo)) <> []) by apply add_arrays_not_nil, store_not_nil.
    rewrite (wrapper_ok (length topo)).
    + reflexivity.
    + unfold d. destruct areas as [[a|l]|]; try exact N. apply store_not_nil.
    + unfold d. destruct areas as [[a|l]|]; try exact G. apply store_length; [exact G|]. cbn [clen]. now apply Ha.
    + exact Hk.
Qed.
Lemma unknown_width : forall x topo f newaxis frames pf cf, ~ class_width (ncols topo) -> of_length (length x) (given_columns pf) ->
  fst (PolyData_init (Space x) topo false f newaxis frames pf cf) = Err TypeError.
Proof.
  intros x topo f newaxis frames pf cf H Hp. unfold PolyData_init. fold (given_columns pf). cbn [clen].
  destruct (points_made x true f newaxis None (Some (store (given_columns pf) "_id" (Ids (seq 0 (length x))))) [("stateful", Other)]) as (tp & fr & E1 & E2 & E3).
  { cbn [given_columns]. apply store_length; [exact Hp|apply seq_length]. }
  { intros k c [G|[]]. discriminate G. }
  { intros a G. discriminate G. }
  destruct (PointData_init _ _ _ _ _ _ _) as [r s]. cbn [fst snd] in E1, E2. subst r s. rewrite <- known_class in H. apply Bool.not_true_is_false in H. rewrite H. reflexivity.
Qed.

(** ** Dictionaries *)

Lemma cells_keep : forall topo d act frames areas t kw, d <> [] -> snd (CellData_init topo (Some d) act frames areas t kw) = Some d.
Proof. intros topo d act frames areas t kw H. unfold CellData_init. destruct (wrapper_init _ _). destruct d; [contradiction|reflexivity]. Qed.
Lemma cells_fill : forall topo, snd (CellData_init (Some topo) (Some []) None None None None []) = Some [("_nodes", Nodes topo)].
Proof. reflexivity. Qed.
Lemma mesh_fills : forall x topo celltype f newaxis frames pf cf,
  celltype = true \/ class_width (ncols topo) -> of_length (length x) pf -> of_length (length topo) cf ->
  (forall l, frames = Some (AMatrices l) -> length l = length topo) ->
  exists dp dc, snd (PolyData_init (Space x) topo celltype f newaxis frames (Some pf) (Some cf)) = (Some dp, Some dc) /\
    (exists y, lookup dp "_x" = Some (Space y)) /\ lookup dp "_id" = Some (Ids (seq 0 (length x))) /\ lookup dp "_activity" = Some (Flags (repeat true (length x))) /\
    (forall k, ~ own_point_key k -> lookup dp k = lookup pf k) /\
    lookup dc "_id" = Some (Ids (seq 0 (length topo))) /\ (forall l, mesh_frames frames f (length topo) = Some l -> lookup dc "frames" = Some (Matrices l)) /\
    (forall k, k <> "_id" -> (k = "frames" -> mesh_frames frames f (length topo) = None) -> lookup dc k = lookup cf k).
Proof.
  intros x topo celltype f newaxis frames pf cf Hc Hp Hcf Hfr.
  destruct (mesh_made x topo celltype f newaxis frames (Some pf) (Some cf) Hc Hp Hcf Hfr) as (tp & tc & E & Ep & _). rewrite E. cbn [snd].
  do 2 eexists. split; [reflexivity|]. subst tp. set (mf := mesh_frames frames f (length topo)).
  split; [|split; [|split; [|split; [|split; [|split]]]]].
  - eexists. rewrite lookup_store_other by discriminate. apply lookup_store_same.
  - rewrite !lookup_store_other by discriminate. apply lookup_store_same.
  - apply lookup_store_same.
  - intros k Hk. rewrite !lookup_store_other; [reflexivity|intros <-; apply Hk; unfold own_point_key; auto ..].
  - apply lookup_store_same.
  - intros l El. fold mf in El. rewrite El. rewrite lookup_store_other by discriminate. apply lookup_store_same.
  - intros k Hk Hf. fold mf in Hf. rewrite lookup_store_other by congruence. destruct mf; [|reflexivity]. apply lookup_store_other.
    intros <-. specialize (Hf eq_refl). discriminate Hf.
Qed.
Lemma mesh_again : forall x x' topo topo' g newaxis newaxis' celltype celltype',
  celltype = true \/ class_width (ncols topo) -> celltype' = true \/ class_width (ncols topo') ->
  exists dc, snd (snd (PolyData_init (Space x) topo celltype (Some g) newaxis None None (Some []))) = Some dc /\
    (length topo' = length topo -> exists tp tc, fst (PolyData_init (Space x') topo' celltype' None newaxis' None None (Some dc)) = Ok (Some tp, Some tc) /\
       lookup tc "_frames" = Some (Matrices (repeat (axes g) (length topo')))) /\
    (length topo' <> length topo -> fst (PolyData_init (Space x') topo' celltype' None newaxis' None None (Some dc)) = Err ValueError).
Proof.
  intros x x' topo topo' g newaxis newaxis' celltype celltype' Hc Hc'.
  destruct (mesh_made x topo celltype (Some g) newaxis None None (Some []) Hc) as (tp & tc & E & _ & _).
  { intros k v []. }
  { intros k v []. }
  { discriminate. }
  rewrite E. cbn [snd]. eexists. split; [reflexivity|]. cbn [mesh_frames store String.eqb Ascii.eqb Bool.eqb]. split; intros Hn.
  - destruct (mesh_fields x' topo' celltype' None newaxis' None None (Some [("frames", Matrices (repeat (axes g) (length topo))); ("_id", Ids (seq 0 (length topo)))]) Hc')
      as (tp' & tc' & E' & _ & _ & _ & _ & _ & _ & _ & F & _).
    { intros k v []. }
    { intros k v [G|[G|[]]]; injection G as <- <-; cbn [clen]; rewrite Hn; [apply repeat_length|apply seq_length]. }
    { unfold separate. cbn. constructor; [intros [G|[]]; discriminate G|constructor; [intros []|constructor]]. }
    { discriminate. }
    exists tp', tc'. split; [exact E'|]. rewrite Hn. apply (F "frames").
    + now left.
    + intros [G|G]; discriminate G.
    + reflexivity.
  - unfold PolyData_init. cbn [clen].
    destruct (points_made x' true None newaxis' None (Some (store [] "_id" (Ids (seq 0 (length x'))))) [("stateful", Other)]) as (tp' & fr & E1 & E2 & E3).
    { cbn [given_columns]. apply store_length; [intros k v []|apply seq_length]. }
    { intros k c [G|[]]. discriminate G. }
    { intros a G. discriminate G. }
    destruct (PointData_init _ _ _ _ _ _ _) as [r s]. cbn [fst snd] in E1, E2. subst r s.
    replace (celltype' || known_width (ncols topo'))%bool with true by (symmetry; apply orb_true_iff; rewrite known_class; tauto).
    cbn [store String.eqb Ascii.eqb Bool.eqb]. unfold CellData_init, wrapper_init. cbn [mapped fold_left fst snd cell_key String.eqb Ascii.eqb Bool.eqb store add_arrays].
    rewrite (zip_fails _ "_frames" (Matrices (repeat (axes g) (length topo))) "_nodes" (Nodes topo')).
    + reflexivity.
    + now left.
    + right. right. now left.
    + cbn [clen]. rewrite repeat_length. congruence.
Qed.
