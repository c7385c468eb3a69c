(** * Lemmas about [FieldModel.v]: data of cells and points *)
From Coq Require Import Reals String List Lia Bool Arith.
From Verif Require Import Base TrModel FrameProofs FieldSpec FieldProofs FieldProofs2 NodalSpec NodalProofs5.
Import ListNotations.
Local Open Scope string_scope.

(** ** Cells *)

Lemma set_amount_ok n d k a : d <> [] -> of_length n d -> (forall l, a = PerCell l -> length l = n) ->
  exists l, amounts a n l /\ set_amount d k a = Ok (store d k (Numbers l)) /\ length l = n.
Proof.
  intros H Hd Ha. destruct a as [x|l]; unfold set_amount.
  - exists (repeat x n). split; [reflexivity|]. rewrite (rows_length n) by assumption. split; [|apply repeat_length].
    apply (set_column_ok n); try assumption. apply repeat_length.
  - exists l. split; [reflexivity|]. split; [|now apply Ha]. apply (set_column_ok n); try assumption. now apply Ha.
Qed.
Lemma set_frames_ok n d a : d <> [] -> of_length n d -> (exists l, given_frames a n l) ->
  exists l, given_frames a n l /\ set_cell_frames d a = Ok (store d "_frames" (Matrices l)) /\ length l = n.
Proof.
  intros H Hd (l & Hl).
  assert (G : forall m, set_column d "_frames" (Matrices (repeat m (table_rows d))) = Ok (store d "_frames" (Matrices (repeat m n)))).
  { intros m. rewrite (rows_length n) by assumption. apply (set_column_ok n); try assumption. apply repeat_length. }
  exists l. split; [exact Hl|]. destruct a as [g|m|[|m [|m' l']]|]; cbn [given_frames] in Hl; cbn [set_cell_frames].
  - subst l. split; [apply G|apply repeat_length].
  - subst l. split; [apply G|apply repeat_length].
  - destruct Hl as [-> Hl]. rewrite (rows_length n) by assumption. cbn [length] in *. subst n. split; [|reflexivity]. rewrite Nat.eqb_refl. cbn [guard bind].
    now apply (set_column_ok 0).
  - subst l. split; [apply G|apply repeat_length].
  - destruct Hl as [-> Hl]. rewrite (rows_length n) by assumption. rewrite Hl, Nat.eqb_refl. cbn [guard bind]. split; [|reflexivity].
    apply (set_column_ok n); assumption.
  - destruct Hl.
Qed.
Lemma keyword_data : forall topo frames areas t kw,
  NoDup (map fst kw) -> arrays_of_length (length topo) kw -> (forall k, In k (map fst kw) -> ~ In k ["_nodes"; "_frames"; "_areas"; "_t"]) ->
  (forall a, frames = Some a -> exists l, given_frames a (length topo) l) -> (forall l, areas = Some (PerCell l) -> length l = length topo) ->
  (forall l, t = Some (PerCell l) -> length l = length topo) ->
  exists tb, fst (CellData_init (Some topo) None None frames areas t kw) = Ok (Some tb) /\
    lookup tb "_nodes" = Some (Nodes topo) /\ (forall k c, In (k, Arr c) kw -> lookup tb k = Some c) /\
    (forall a, frames = Some a -> exists l, given_frames a (length topo) l /\ lookup tb "_frames" = Some (Matrices l)) /\
    (forall a, areas = Some a -> exists l, amounts a (length topo) l /\ lookup tb "_areas" = Some (Numbers l)) /\
    (forall a, t = Some a -> exists l, amounts a (length topo) l /\ lookup tb "_t" = Some (Numbers l)).
Proof.
  intros topo frames areas t kw Hnd Hk Hown Hf Ha Ht. set (n := length topo) in *. unfold CellData_init. fold n.
  set (d := match areas with Some (Each _) => _ | Some (PerCell l) => _ | None => _ end).
  assert (D : d <> [] /\ of_length n d).
  { unfold d. assert (N : add_arrays (Nat.eqb n) kw (store [] "_nodes" (Nodes topo)) <> []) by apply add_arrays_not_nil, store_not_nil.
    assert (G : of_length n (add_arrays (Nat.eqb n) kw (store [] "_nodes" (Nodes topo)))).
    { apply add_arrays_length; [|exact Hk]. apply store_length; [intros k v []|reflexivity]. }
    destruct areas as [[a|l]|]; try (split; assumption). split; [apply store_not_nil|]. apply store_length; [assumption|]. cbn [clen]. now apply Ha. }
  assert (Lk : forall k, In k (map fst kw) -> k <> "_nodes" /\ k <> "_frames" /\ k <> "_areas" /\ k <> "_t").
  { intros k Hi. specialize (Hown k Hi). cbn in Hown. repeat split; intros ->; apply Hown; auto 6. }
  assert (Ldn : lookup (add_arrays (fun _ => true) kw d) "_nodes" = Some (Nodes topo)).
  { rewrite add_arrays_other by (intros G; apply Lk in G; tauto). unfold d. destruct areas as [[a|l]|]; try rewrite lookup_store_other by discriminate;
    rewrite add_arrays_other by (intros G; apply Lk in G; tauto); reflexivity. }
  assert (Ldk : forall k c, In (k, Arr c) kw -> lookup (add_arrays (fun _ => true) kw d) k = Some c) by (intros k c Hi; now apply add_arrays_same).
  rewrite (wrapper_ok n) by tauto. cbn [bind fst snd].
  set (d1 := add_arrays (fun _ => true) kw d) in *.
  assert (D1 : d1 <> [] /\ of_length n d1) by (split; [now apply add_arrays_not_nil|now apply add_arrays_length]).
  assert (S1 : exists d2, match frames with Some f => set_cell_frames d1 f | None => Ok d1 end = Ok d2 /\ d2 <> [] /\ of_length n d2 /\
    (forall k, k <> "_frames" -> lookup d2 k = lookup d1 k) /\ (forall a, frames = Some a -> exists l, given_frames a n l /\ lookup d2 "_frames" = Some (Matrices l))).
  { destruct frames as [a|].
    - destruct (set_frames_ok n d1 a) as (l & G1 & G2 & G3); [tauto|tauto|now apply Hf|]. exists (store d1 "_frames" (Matrices l)). split; [exact G2|].
      split; [apply store_not_nil|]. split; [now apply store_length|]. split; [intros k Hk'; apply lookup_store_other; congruence|].
      intros a' E. injection E as <-. exists l. split; [exact G1|apply lookup_store_same].
    - exists d1. repeat split; try tauto. discriminate. }
  destruct S1 as (d2 & E2 & D2 & L2 & O2 & F2). rewrite E2. cbn [bind].
  assert (S2 : exists d3, match t with Some a => set_amount d2 "_t" a | None => Ok d2 end = Ok d3 /\ d3 <> [] /\ of_length n d3 /\
    (forall k, k <> "_t" -> lookup d3 k = lookup d2 k) /\ (forall a, t = Some a -> exists l, amounts a n l /\ lookup d3 "_t" = Some (Numbers l))).
  { destruct t as [a|].
    - destruct (set_amount_ok n d2 "_t" a) as (l & G1 & G2 & G3); [tauto|tauto|intros l ->; now apply Ht|]. exists (store d2 "_t" (Numbers l)). split; [exact G2|].
      split; [apply store_not_nil|]. split; [now apply store_length|]. split; [intros k Hk'; apply lookup_store_other; congruence|].
      intros a' E. injection E as <-. exists l. split; [exact G1|apply lookup_store_same].
    - exists d2. repeat split; try tauto. discriminate. }
  destruct S2 as (d3 & E3 & D3 & L3 & O3 & F3). rewrite E3. cbn [bind].
  assert (S3 : exists d4, match areas with Some a => set_amount d3 "_areas" a | None => Ok d3 end = Ok d4 /\
    (forall k, k <> "_areas" -> lookup d4 k = lookup d3 k) /\ (forall a, areas = Some a -> exists l, amounts a n l /\ lookup d4 "_areas" = Some (Numbers l))).
  { clearbody d. destruct areas as [a|].
    - destruct (set_amount_ok n d3 "_areas" a) as (l & G1 & G2 & G3); [tauto|tauto|intros l ->; now apply Ha|]. exists (store d3 "_areas" (Numbers l)). split; [exact G2|].
      split; [intros k Hk'; apply lookup_store_other; congruence|].
      intros a' E. injection E as <-. exists l. split; [exact G1|apply lookup_store_same].
    - exists d3. repeat split; try tauto. discriminate. }
  destruct S3 as (d4 & E4 & O4 & F4). rewrite E4. cbn [bind]. exists d4. split; [reflexivity|].
  split; [rewrite O4, O3, O2 by discriminate; exact Ldn|]. split; [|split; [|split]].
  - intros k c Hi. pose proof (Ldk k c Hi) as L. apply (in_map fst) in Hi. cbn [fst] in Hi. apply Lk in Hi. rewrite O4, O3, O2 by tauto. exact L.
  - intros a E. destruct (F2 a E) as (l & G1 & G2). exists l. split; [exact G1|]. rewrite O4, O3 by discriminate. exact G2.
  - exact F4.
  - intros a E. destruct (F3 a E) as (l & G1 & G2). exists l. split; [exact G1|]. rewrite O4 by discriminate. exact G2.
Qed.
Lemma keyword_names : forall topo l key, In key ["id"; "ndf"; "nodes"] -> length l = length topo ->
  exists tb, fst (CellData_init (Some topo) None None None None None [(key, Arr (Ids l))]) = Ok (Some tb) /\ lookup tb key = Some (Ids l) /\
    lookup tb (column_name key) <> Some (Ids l).
Proof.
  intros topo l key Hk Hl. destruct (cells_made topo None [(key, Arr (Ids l))] None) as (tb & E & Et).
  { intros k v []. }
  { intros k c [G|[]]. injection G as <- <-. exact Hl. }
  { discriminate. }
  exists tb. rewrite E. split; [reflexivity|]. subst tb. cbn [given_columns add_arrays fold_left snd fst clen]. rewrite Hl, Nat.eqb_refl.
  split; [apply lookup_store_same|]. destruct Hk as [<-|[<-|[<-|[]]]]; cbn; discriminate.
Qed.
Lemma other_length : forall topo frames areas t key c, key <> "_nodes" -> key <> "_areas" -> clen c <> length topo -> clen c <> 1%nat -> length topo <> 1%nat ->
  fst (CellData_init (Some topo) None None frames areas t [(key, Arr c)]) = Err ValueError.
Proof.
  intros topo frames areas t key c H1 H2 Hn _ _. unfold CellData_init, wrapper_init. cbn [add_arrays fold_left snd fst store].
  replace (Nat.eqb (length topo) (clen c)) with false by (symmetry; apply Nat.eqb_neq; congruence).
  set (d := match areas with Some (Each _) => _ | Some (PerCell l) => _ | None => _ end).
  assert (G : In ("_nodes", Nodes topo) (store d key c)).
  { apply lookup_in. rewrite lookup_store_other by congruence. unfold d. destruct areas as [[a|l]|]; reflexivity. }
  assert (G' : In (key, c) (store d key c)) by (apply lookup_in, lookup_store_same).
  destruct (store d key c) eqn:E; [destruct G|]. rewrite (zip_fails _ _ _ _ _ G' G Hn). reflexivity.
Qed.
Lemma activity_ignored : forall topo, exists tb, fst (CellData_init (Some topo) None (Some Other) None None None []) = Ok (Some tb) /\ lookup tb "_activity" = None.
Proof.
  intros topo. destruct (cells_made topo None [] (Some Other)) as (tb & E & Et); [intros k v []|intros k v []|discriminate|].
  exists tb. rewrite E. split; [reflexivity|]. subst tb. reflexivity.
Qed.

(** ** Data of points asked of cells *)

Lemma point_data_of_cells : forall topo points k data rows,
  (exists l, lookup points k = Some (Space l) /\ data = map components l) \/ (exists l, lookup points k = Some (Plane l) /\ data = map components_2 l) ->
  data <> [] -> Forall (fun nodes => nodes <> []) topo -> mesh_at data topo rows ->
  exists r, cell_attribute topo points k = Ok r /\ Forall2 (mean_row (ncols data)) rows r.
Proof.
  intros topo points k data rows [(l & E & ->)|(l' & E & ->)] Hd Ht Hm; unfold cell_attribute; rewrite E.
  - destruct (avg_correct 3 (map components l) topo rows) as (r & Er & Hr); try assumption.
    { unfold rect. apply Forall_map, Forall_forall. intros v _. reflexivity. }
    match goal with |- context[avg_cell_data ?q topo] => change q with (Rank2 (map components l)) end. rewrite Er. exists r. split; [reflexivity|]. destruct l; [contradiction|exact Hr].
  - destruct (avg_correct 2 (map components_2 l') topo rows) as (r & Er & Hr); try assumption.
    { unfold rect. apply Forall_map, Forall_forall. intros v _. reflexivity. }
    match goal with |- context[avg_cell_data ?q topo] => change q with (Rank2 (map components_2 l')) end. rewrite Er. exists r. split; [reflexivity|]. destruct l'; [contradiction|exact Hr].
Qed.
Lemma numbers_of_cells : forall topo points k l, lookup points k = Some (Numbers l) \/ (exists b, lookup points k = Some (Flags b)) ->
  cell_attribute topo points k = Err AttributeError.
Proof. intros topo points k l [E|(b & E)]; unfold cell_attribute; rewrite E; reflexivity. Qed.

(** ** Positions *)

Lemma plane_in_frame : forall l g newaxis as_coords, (newaxis < 3)%nat ->
  exists t y z, fst (PointData_init (Plane l) as_coords (Some g) newaxis None None []) = Ok (Some t, Some g) /\ lookup t "_x" = Some (Space y) /\
    Forall2 (embedded newaxis) l z /\ same_places g z standard y.
Proof.
  intros l g newaxis as_coords H. unfold PointData_init, point_array. apply Nat.ltb_lt in H. rewrite H. cbn [guard bind clen].
  set (z := map (insert_axis newaxis) l). set (y := show (new_cloud z (Some g) None) None).
  rewrite (wrapper_ok (length l)).
  - cbn [bind fst]. do 3 eexists. split; [reflexivity|]. split; [reflexivity|]. split; [|apply (places_shown z (Some g))].
    unfold z. apply Nat.ltb_lt in H. clear -H. induction l as [|p l IH]; cbn [map]; constructor; [|exact IH].
    destruct newaxis as [|[|[|newaxis]]]; try reflexivity. lia.
  - apply store_not_nil.
  - apply store_length; [apply store_length; [intros k v []|]|apply repeat_length]. cbn [clen]. unfold y. rewrite show_length. apply map_length.
  - intros k c [].
Qed.
Lemma plane_alone : forall l newaxis as_coords, (newaxis < 3)%nat ->
  exists t fr, fst (PointData_init (Plane l) as_coords None newaxis None None []) = Ok (Some t, fr) /\ lookup t "_x" = Some (Plane l).
Proof.
  intros l newaxis as_coords H. unfold PointData_init, point_array. apply Nat.ltb_lt in H. rewrite H. cbn [guard bind clen].
  rewrite (wrapper_ok (length l)).
  - cbn [bind fst]. do 2 eexists. split; reflexivity.
  - apply store_not_nil.
  - apply store_length; [apply store_length; [intros k v []|reflexivity]|apply repeat_length].
  - intros k c [].
Qed.
Lemma new_axis_range : forall l f newaxis as_coords act fields kw, (3 <= newaxis)%nat ->
  fst (PointData_init (Plane l) as_coords f newaxis act fields kw) = Err IndexError.
Proof. intros l f newaxis as_coords act fields kw H. unfold PointData_init, point_array. apply Nat.ltb_ge in H. rewrite H. reflexivity. Qed.
Lemma space_points : forall x f newaxis as_coords act fields kw,
  of_length (length x) (given_columns fields) -> arrays_of_length (length x) kw -> (forall a, act = Some a -> length a = length x) -> NoDup (map fst kw) ->
  (forall k, In k (map fst kw) -> ~ own_point_key k) ->
  exists t fr y, fst (PointData_init (Space x) as_coords f newaxis act fields kw) = Ok (Some t, fr) /\
    lookup t "_x" = Some (Space y) /\ same_places (frame_or_standard f) x standard y /\
    lookup t "_activity" = Some (Flags (match act with Some a => a | None => repeat true (length x) end)) /\
    (forall k c, In (k, Arr c) kw -> lookup t k = Some c) /\
    (forall k, k <> "_x" -> k <> "_activity" -> ~ In k (map fst kw) -> lookup t k = lookup (given_columns fields) k).
Proof.
  intros x f newaxis as_coords act fields kw Hf Hk Ha Hnd Hown.
  destruct (points_made x as_coords f newaxis act fields kw Hf Hk Ha) as (t & fr & E1 & _ & Et). exists t, fr, (show (new_cloud x f None) None).
  split; [exact E1|]. assert (X : ~ In "_x" (map fst kw)) by (intros G; apply Hown in G; apply G; now left).
  assert (A : ~ In "_activity" (map fst kw)) by (intros G; apply Hown in G; apply G; right; now left).
  subst t. split; [|split; [apply places_shown|split; [|split]]].
  - rewrite !add_arrays_other by assumption. rewrite lookup_store_other by discriminate. apply lookup_store_same.
  - rewrite !add_arrays_other by assumption. apply lookup_store_same.
  - intros k c Hi. now apply add_arrays_same.
  - intros k H1 H2 H3. rewrite !add_arrays_other by assumption. now rewrite !lookup_store_other by congruence.
Qed.
