(** * Proofs about [QueryModel.v], part 2: queries of meshes *)
From Coq Require Import Reals ZArith List Lia Lra.
From Verif Require SpaceModel SpaceProofs6 EvalModel LocSpec.
From Verif Require Import BaseFacts TopoProofs4 FrameProofs MeshProofs MeshProofs2 MeshProofs3 MeshProofs4 MeshProofs5 MeshProofs7 MeshProofs8.
From Verif Require Import QuerySpec QueryProofs.
Import ListNotations.

(** ** Parts of a mesh whose points are in one array *)
Lemma part_source m path sp u s b u' s' sb p g : under None None m path = Some (u, s, b) -> closest m path sp ->
  under None None m sp = Some (u', s', sb) -> arrays sb = [p] -> frame_in u' sb = Some g ->
  bpd sb = Some p /\ source_path m path = Some sp /\ cells_in u s b = map (fun r => (Some (g, px p), r)) (rows_in b).
Proof.
  intros Hu Hc Hsb Ha Hg. pose proof (closest_source m path sp _ Hu Hc) as Hs. destruct Hc as (t & -> & (u2 & s2 & b2 & p2 & Hu2 & Hp2) & _). rewrite Hsb in Hu2. injection Hu2 as <- <- <-.
  destruct sb as [f pd cd subs]. cbn [bpd] in Hp2. subst pd. cbn [arrays app] in Ha. injection Ha as -> Hsubs. split; [reflexivity|]. split; [assumption|].
  rewrite under_app, Hsb in Hu. destruct t as [|i t]; cbn [under] in Hu.
  - injection Hu as <- <- <-. now apply cells_in_own.
  - cbn [bsub] in Hu. destruct (nth_error subs i) as [x|] eqn:Ex; [|discriminate]. assert (Hx : arrays x = []) by (apply nth_error_In in Ex; now apply (flat_map_nil_in arrays subs)).
    destruct (under_bare _ _ _ _ _ _ _ Hx Hu) as [-> Hb]. unfold source_in. cbn [bpd]. rewrite Hg. now apply cells_in_bare.
Qed.
Lemma rows_fetched g xs rs : forall ps, Forall2 (fun c qs => Forall2 (node_at (fst c)) (snd c) qs) (map (fun r => (Some (g, xs), r)) rs) ps -> mapM (mapM (get (map (place g) xs))) rs = Ok ps.
Proof.
  induction rs as [|r rs IH]; intros ps H; inversion H as [|? qs ? ps' Hq Hps]; subst; [reflexivity|]. cbn [mapM fst snd] in *.
  assert (E : mapM (get (map (place g) xs)) r = Ok qs).
  { clear -Hq. induction Hq as [|i q r qs (x & Ex & Hq) _ IHr]; [reflexivity|]. cbn [mapM]. apply placed_iff in Hq. subst q.
    rewrite (proj2 (get_Ok (map (place g) xs) i (place g x))) by now apply map_nth_error. cbn [bind]. now rewrite IHr. }
  rewrite E. cbn [bind]. now rewrite (IH ps' Hps).
Qed.
Lemma coords_at_source m sp u' s' sb p g : under None None m sp = Some (u', s', sb) -> bpd sb = Some p -> arrays sb = [p] -> frame_in u' sb = Some g -> orthonormal (axes g) ->
  exists c, block_at top m sp = Ok (c, sb) /\ coords_of c sb None = Ok (map (place g) (px p)).
Proof.
  intros Hsb Hp Ha Hg Ho. destruct (block_at_under sp top m _ _ _ Hsb) as (c & E & Ec & _). exists c. split; [exact E|]. destruct sb as [f pd cd subs]. cbn [bpd] in Hp. subst pd.
  pose proof (subs_bare _ _ _ _ Ha) as Hb. unfold coords_of. rewrite (own_points c f p cd subs g) by (auto; now rewrite Ec). cbn [bind]. f_equal. rewrite show_map. cbn [array cframe]. apply map_ext. intros x. apply shown_ambient.
Qed.
Lemma some_cells c b : cell_arrays b <> [] -> guard (match cellblocks (walk c b) with [] => false | _ => true end) ValueError = Ok tt.
Proof. intros H. pose proof (walk_cells b c) as Hw. destruct (cellblocks (walk c b)); [|reflexivity]. exfalso. apply H. now rewrite <- Hw. Qed.
Lemma rows_some b l : rows_in b = l -> l <> [] -> cell_arrays b <> [].
Proof. unfold rows_in. intros <- H E. apply H. now rewrite E. Qed.
Lemma F2_nil {A B} (R : A -> B -> Prop) l l' : Forall2 R l l' -> l' <> [] -> l <> [].
Proof. intros H Hn ->. inversion H. congruence. Qed.

Lemma cells_coords_places m path p g ps : single_source m path p g -> part_at m path ps -> ps <> [] -> mesh_cells_coords m path = Ok ps.
Proof.
  intros (sp & u' & s' & sb & Hc & Hsb & Ha & Hg & Ho) (u & s & b & Hu & Hps) Hne. destruct (part_source m path sp u s b u' s' sb p g Hu Hc Hsb Ha Hg) as (Hp & Hs & Hci).
  destruct (block_at_under path top m u s b Hu) as (c & E & _ & _). destruct (coords_at_source m sp u' s' sb p g Hsb Hp Ha Hg Ho) as (c' & E' & Ex). rewrite Hci in Hps.
  assert (Hk : cell_arrays b <> []). { apply (rows_some b _ eq_refl). intros Er. rewrite Er in Hps. inversion Hps. congruence. }
  unfold mesh_cells_coords, topology_at. rewrite E. cbn [bind fst snd]. rewrite (some_cells c b Hk). cbn [bind]. unfold the_source. rewrite Hs. cbn [bind]. rewrite E'. cbn [bind fst snd]. rewrite Ex. cbn [bind].
  rewrite topology_rows. now apply rows_fetched.
Qed.
Lemma centers_source m path p g ps : single_source m path p g -> part_at m path ps -> ps <> [] -> Forall (fun qs => qs <> []) ps ->
  exists cs, mesh_centers m path None = Ok cs /\ Forall2 centroid ps cs.
Proof.
  intros (sp & u' & s' & sb & Hc & Hsb & Ha & Hg & Ho) (u & s & b & Hu & Hps) Hne Hcell. destruct (part_source m path sp u s b u' s' sb p g Hu Hc Hsb Ha Hg) as (Hp & Hs & Hci).
  destruct (block_at_under path top m u s b Hu) as (c & E & _ & _). destruct (coords_at_source m sp u' s' sb p g Hsb Hp Ha Hg Ho) as (c' & E' & Ex). rewrite Hci in Hps.
  assert (Hk : cell_arrays b <> []). { apply (rows_some b _ eq_refl). intros Er. rewrite Er in Hps. inversion Hps. congruence. }
  unfold mesh_centers. rewrite E. cbn [bind fst snd]. unfold the_source. rewrite Hs. cbn [bind]. rewrite E'. cbn [bind fst snd]. rewrite Ex. cbn [bind]. rewrite (some_cells c b Hk). cbn [bind]. rewrite topology_rows.
  pose proof (rows_fetched g (px p) (rows_in b) ps Hps) as Ef.
  cut (exists cs, mapM (fun row => do q <- mapM (get (map (place g) (px p))) row; row_mean q) (rows_in b) = Ok cs /\ Forall2 centroid ps cs). { intros (cs & -> & HF). exists cs. auto. }
  clear -Ef Hcell. revert ps Ef Hcell. induction (rows_in b) as [|r rs IH]; intros ps Ef Hcell; cbn [mapM] in *.
  - injection Ef as <-. exists []. split; [reflexivity|constructor].
  - destruct (mapM (get (map (place g) (px p))) r) as [qs|]; [|discriminate]. cbn [bind] in *. destruct (mapM (mapM (get (map (place g) (px p)))) rs) as [ps'|] eqn:E'; [|discriminate]. cbn [bind] in Ef. injection Ef as <-.
    inversion Hcell as [|? ? H1 H2]; subst. destruct (row_mean_value qs H1) as (x & Em & Hm). destruct (IH ps' eq_refl H2) as (cs & Ecs & HF).
    rewrite Em. cbn [bind]. rewrite Ecs. eexists. split; [reflexivity|]. now constructor.
Qed.
Lemma number_of_points_source m path p g : single_source m path p g -> (exists x, under None None m path = Some x) -> number_of_points m path = Ok (length (px p)).
Proof.
  intros (sp & u' & s' & sb & Hc & Hsb & Ha & Hg & Ho) ([[u s] b] & Hu). destruct (part_source m path sp u s b u' s' sb p g Hu Hc Hsb Ha Hg) as (Hp & Hs & _).
  unfold number_of_points, the_source. rewrite Hs. cbn [bind]. destruct (block_at_under sp top m _ _ _ Hsb) as (c & E & _). rewrite E. cbn [bind snd]. now rewrite Hp.
Qed.

(** ** The closest and the furthest points and cells of a mesh *)
Lemma as_list_row w : as_list w = row w.
Proof. destruct w as [[x y] z]. reflexivity. Qed.
Lemma mesh_points_found query m T qs w : frame_in None m = Some T -> orthonormal (axes T) -> qs <> [] ->
  Forall (fun fp => exists f, fst fp = Some f /\ origin_of f = origin_of T) (framed None m) -> points_at m qs ->
  (exists i, mesh_closest_point query m [] (SpaceModel.Target1 (as_list w)) = Ok (SpaceModel.Index1 i) /\ first_that (nearest_at qs w) i) /\
  (exists i, mesh_furthest_point m [] (SpaceModel.Target1 (as_list w)) = Ok (SpaceModel.Index1 i) /\ first_that (farthest_at qs w) i).
Proof.
  intros HT Ho Hne Hf Hq. rewrite as_list_row. assert (Ha : arrays m <> []). { intros E. unfold points_at in Hq. pose proof (framed_arrays m None) as Ef. rewrite E in Ef. apply map_eq_nil in Ef. rewrite Ef in Hq. inversion Hq. congruence. }
  destruct (coords_places m T qs HT Ho Ha Hf Hq) as [E _]. unfold mesh_closest_point, mesh_furthest_point. cbn [block_at bind fst snd]. rewrite E. cbn [bind]. split.
  - destruct (SpaceProofs6.closest_one query 3 (map row qs) (row w)) as (i & Ei & Hi); [now apply rows_nonempty|apply rect_rows|apply row_length|]. exists i. split; [exact Ei|now apply first_nearest].
  - destruct (SpaceProofs6.furthest_one EvalModel.Floating 3 (map row qs) (row w)) as (i & Ei & Hi); [now apply rows_nonempty|apply rect_rows|apply row_length|]. exists i. split; [exact Ei|now apply first_farthest].
Qed.
Lemma mesh_cells_found query m path p g ps w : single_source m path p g -> part_at m path ps -> ps <> [] -> Forall (fun qs => qs <> []) ps ->
  exists cs, Forall2 centroid ps cs /\
  (exists i, mesh_closest_cell query m path (SpaceModel.Target1 (as_list w)) = Ok (SpaceModel.Index1 i) /\ first_that (nearest_at cs w) i) /\
  (exists i, mesh_furthest_cell m path (SpaceModel.Target1 (as_list w)) = Ok (SpaceModel.Index1 i) /\ first_that (farthest_at cs w) i).
Proof.
  intros Hs Hp Hne Hc. rewrite as_list_row. destruct (centers_source m path p g ps Hs Hp Hne Hc) as (cs & E & HF). exists cs. split; [assumption|]. assert (Hcs : cs <> []) by (intros ->; inversion HF; congruence).
  unfold mesh_closest_cell, mesh_furthest_cell. rewrite E. cbn [bind]. split.
  - destruct (SpaceProofs6.closest_one query 3 (map row cs) (row w)) as (i & Ei & Hi); [now apply rows_nonempty|apply rect_rows|apply row_length|]. exists i. split; [exact Ei|now apply first_nearest].
  - destruct (SpaceProofs6.furthest_one EvalModel.Floating 3 (map row cs) (row w)) as (i & Ei & Hi); [now apply rows_nonempty|apply rect_rows|apply row_length|]. exists i. split; [exact Ei|now apply first_farthest].
Qed.

Lemma rows_of ws : map as_list ws = map row ws.
Proof. apply map_ext. exact as_list_row. Qed.
Lemma several_found query qs ws : LocSpec.nearest_query query -> qs <> [] ->
  (exists l, SpaceModel.index_of_closest_point query (map row qs) (SpaceModel.Targets (map row ws)) = Ok (SpaceModel.Indices l) /\ Forall2 (nearest_at qs) ws l) /\
  (exists l, SpaceModel.index_of_furthest_point EvalModel.Floating (map row qs) (SpaceModel.Targets (map row ws)) = Ok (SpaceModel.Indices l) /\ Forall2 (fun w => first_that (farthest_at qs w)) ws l).
Proof.
  intros HQ Hne. split.
  - destruct (SpaceProofs6.closest_many query (map row qs) (map row ws) HQ) as (l & E & Hi); [now apply rows_nonempty|]. exists l. split; [exact E|].
    clear -Hi. revert l Hi. induction ws as [|w ws IH]; intros l Hi; inversion Hi as [|? i ? l' H1 H2]; subst; constructor; auto. apply least_nearest. exact H1.
  - destruct (SpaceProofs6.furthest_many 3 (map row qs) (map row ws)) as (l & E & Hi); [now apply rows_nonempty|apply rect_rows|apply rect_rows|]. exists l. split; [exact E|].
    clear -Hi. revert l Hi. induction ws as [|w ws IH]; intros l Hi; inversion Hi as [|? i ? l' H1 H2]; subst; constructor; auto. now apply first_farthest.
Qed.
Lemma mesh_points_several query m T qs ws : LocSpec.nearest_query query -> frame_in None m = Some T -> orthonormal (axes T) -> qs <> [] ->
  Forall (fun fp => exists f, fst fp = Some f /\ origin_of f = origin_of T) (framed None m) -> points_at m qs ->
  (exists l, mesh_closest_point query m [] (SpaceModel.Targets (map as_list ws)) = Ok (SpaceModel.Indices l) /\ Forall2 (nearest_at qs) ws l) /\
  (exists l, mesh_furthest_point m [] (SpaceModel.Targets (map as_list ws)) = Ok (SpaceModel.Indices l) /\ Forall2 (fun w => first_that (farthest_at qs w)) ws l).
Proof.
  intros HQ HT Ho Hne Hf Hq. rewrite rows_of. assert (Ha : arrays m <> []). { intros E. unfold points_at in Hq. pose proof (framed_arrays m None) as Ef. rewrite E in Ef. apply map_eq_nil in Ef. rewrite Ef in Hq. inversion Hq. congruence. }
  destruct (coords_places m T qs HT Ho Ha Hf Hq) as [E _]. unfold mesh_closest_point, mesh_furthest_point. cbn [block_at bind fst snd]. rewrite E. cbn [bind]. now apply several_found.
Qed.
Lemma mesh_cells_several query m path p g ps ws : LocSpec.nearest_query query -> single_source m path p g -> part_at m path ps -> ps <> [] -> Forall (fun qs => qs <> []) ps ->
  exists cs, Forall2 centroid ps cs /\
  (exists l, mesh_closest_cell query m path (SpaceModel.Targets (map as_list ws)) = Ok (SpaceModel.Indices l) /\ Forall2 (nearest_at cs) ws l) /\
  (exists l, mesh_furthest_cell m path (SpaceModel.Targets (map as_list ws)) = Ok (SpaceModel.Indices l) /\ Forall2 (fun w => first_that (farthest_at cs w)) ws l).
Proof.
  intros HQ Hs Hp Hne Hc. rewrite rows_of. destruct (centers_source m path p g ps Hs Hp Hne Hc) as (cs & E & HF). exists cs. split; [assumption|]. assert (Hcs : cs <> []) by (intros ->; inversion HF; congruence).
  unfold mesh_closest_cell, mesh_furthest_cell. rewrite E. cbn [bind]. now apply several_found.
Qed.

(** ** The blocks of cells *)
Lemma NoDup_dset {A} (d : dict A) k v : NoDup (dkeys d) -> NoDup (dkeys (dset d k v)).
Proof.
  induction d as [|[k' v'] d IH]; cbn [dset dkeys map fst]; intros H; [constructor; [intros []|constructor]|]. inversion H as [|? ? H1 H2]; subst. destruct (Nat.eqb_spec k k'); cbn [map fst].
  - subst. now constructor.
  - constructor; [|now apply IH]. intros Hin. apply H1. clear -n Hin. induction d as [|[k2 v2] d IH]; cbn [dset map fst] in *; [destruct Hin as [E|[]]; congruence|].
    destruct (Nat.eqb_spec k k2); cbn [map fst] in *; [subst; assumption|]. destruct Hin as [E|Hin]; [now left|right; now apply IH].
Qed.
Lemma dict_fold {A} (g : nat -> A) l : forall d, Forall (fun kv => snd kv = g (fst kv)) l -> NoDup (dkeys d) -> (forall k v, dget d k = Ok v -> v = g k) ->
  let d' := fold_left (fun d kv => dset d (fst kv) (snd kv)) l d in NoDup (dkeys d') /\ forall k v, dget d' k = Ok v <-> v = g k /\ (In k (map fst l) \/ In k (dkeys d)).
Proof.
  induction l as [|[k0 v0] l IH]; intros d Hl Hd Hg; cbn [fold_left map fst].
  - split; [assumption|]. intros k v. split; [intros E; split; [now apply Hg|right; apply dget_ok_iff; eauto]|]. intros [-> [[]|H]]. apply dget_ok_iff in H as [v E]. now rewrite E, (Hg k v E).
  - inversion Hl as [|? ? H1 H2]; subst. cbn [fst snd] in *. subst v0. destruct (IH (dset d k0 (g k0)) H2) as [N E].
    + now apply NoDup_dset.
    + intros k v H. rewrite dget_dset in H. destruct (Nat.eqb_spec k k0); [congruence|now apply Hg].
    + split; [exact N|]. intros k v. rewrite E. rewrite <- !(dget_ok_iff _ k). split; intros [-> H]; (split; [reflexivity|]).
      * destruct H as [H|[v H]]; [left; now right|]. rewrite dget_dset in H. destruct (Nat.eqb_spec k k0); [left; left; congruence|right; eauto].
      * destruct H as [[-> |H]|[v H]]; [right|now left|right]; rewrite dget_dset; [rewrite Nat.eqb_refl; eauto|]. destruct (Nat.eqb_spec k k0); eauto.
Qed.
Lemma combine_blocks ks : forall i, Forall (fun k => length (cid k) = length (nodes k)) ks ->
  combine (concat (map cid ks)) (concat (map (fun ik => repeat (fst ik) (length (nodes (snd ik)))) (enum_from i ks))) = concat (map (fun ik => map (fun c => (c, fst ik)) (cid (snd ik))) (enum_from i ks)).
Proof.
  induction ks as [|k ks IH]; intros i H; [reflexivity|]. inversion H as [|? ? H1 H2]; subst. cbn [map concat enum_from fst snd]. rewrite <- H1. clear H1. induction (cid k) as [|c l IHl]; [now apply IH|].
  cbn [app length repeat combine map]. f_equal. exact IHl.
Qed.
Lemma enum_from_In {A} (l : list A) : forall i n x, In (n, x) (enum_from i l) <-> exists j, n = i + j /\ nth_error l j = Some x.
Proof.
  induction l as [|y l IH]; intros i n x; cbn [enum_from In].
  - split; [intros []|]. intros (j & _ & H). destruct j; discriminate.
  - rewrite IH. split.
    + intros [E|(j & -> & H)]; [injection E as -> ->; exists 0; split; [lia|reflexivity]|]. exists (S j). split; [lia|exact H].
    + intros ([|j] & -> & H); [left; cbn in H; injection H as ->; f_equal; lia|]. right. exists j. split; [lia|exact H].
Qed.
Definition owners (m : block) : list (nat * nat) := concat (map (fun ik => map (fun c => (c, fst ik)) (cid (snd ik))) (enum (cell_arrays m))).
Lemma owners_In m c n : In (c, n) (owners m) <-> cell_in_block m c n.
Proof.
  unfold owners, cell_in_block. rewrite in_concat. split.
  - intros (l & Hl & H). apply in_map_iff in Hl as ([i k] & <- & Hk). cbn [fst snd] in H. apply in_map_iff in H as (c' & E & Hc). injection E as -> ->. apply enum_from_In in Hk as (j & -> & Hj). eauto.
  - intros (k & Hk & Hc). exists (map (fun c => (c, n)) (cid k)). split; [|now apply (in_map (fun c => (c, n)))]. apply in_map_iff. exists (n, k). split; [reflexivity|]. apply enum_from_In. exists n. auto.
Qed.
Lemma owners_keys m : map fst (owners m) = concat (map cid (cell_arrays m)).
Proof.
  unfold owners, enum. generalize 0. induction (cell_arrays m) as [|k ks IH]; intros i; [reflexivity|]. cbn [enum_from map concat fst snd]. rewrite map_app, map_map, IH. f_equal. rewrite <- (map_id (cid k)) at 2. now apply map_ext.
Qed.
Lemma create_value m : cells_numbered m -> cell_arrays m <> [] -> create_mappers m = Ok (owners m).
Proof.
  intros [Hl Hd] Hne. unfold create_mappers. rewrite walk_cells. destruct (cell_arrays m) as [|k ks] eqn:Ek; [congruence|]. cbn [guard bind]. rewrite <- Ek in *. unfold enum. rewrite combine_blocks by assumption. fold (enum (cell_arrays m)). fold (owners m).
  f_equal. unfold dict_of. rewrite (fold_dset_fresh fst snd) by (cbn [dkeys map app]; rewrite owners_keys; assumption). cbn [app]. rewrite <- (map_id (owners m)) at 2. apply map_ext. now intros [a b].
Qed.
Lemma owners_get m c n : cells_numbered m -> (dget (owners m) c = Ok n <-> cell_in_block m c n).
Proof.
  intros [_ Hd]. rewrite <- owners_In. split; [apply dget_In|]. apply In_dget. unfold dkeys. now rewrite owners_keys.
Qed.
Lemma mapM_gets {A} (d : dict A) ks : (forall k, In k ks -> exists v, dget d k = Ok v) -> exists vs, mapM (dget d) ks = Ok vs /\ Forall2 (fun k v => dget d k = Ok v) ks vs.
Proof.
  induction ks as [|k ks IH]; intros H; [exists []; split; [reflexivity|constructor]|]. destruct (H k (or_introl eq_refl)) as [v E]. destruct (IH (fun k Hk => H k (or_intror Hk))) as (vs & Es & HF).
  exists (v :: vs). cbn [mapM]. rewrite E. cbn [bind]. rewrite Es. split; [reflexivity|now constructor].
Qed.
Lemma mapM_missing {A} (d : dict A) ks k : In k ks -> ~ In k (dkeys d) -> mapM (dget d) ks = Err KeyError.
Proof.
  assert (K : forall k v, dget d k = Err v -> v = KeyError). { clear. induction d as [|[k' v'] d IH]; cbn [dget]; intros k v H; [congruence|]. destruct (Nat.eqb k k'); [discriminate|eauto]. }
  induction ks as [|k0 ks IH]; intros Hin Hn; [destruct Hin|]. cbn [mapM]. destruct (dget d k0) as [v|e] eqn:E; cbn [bind]; [|now rewrite (K _ _ E)].
  destruct Hin as [->|Hin]; [exfalso; apply Hn, dget_ok_iff; eauto|]. now rewrite (IH Hin Hn).
Qed.
Lemma blocks_of_cells_ok m cache : cells_numbered m -> cell_arrays m <> [] -> cache = None \/ (exists create, lock m create None = Ok cache) ->
  (exists d, blocks_of_cells m cache None = Ok d /\ entries_are d (cell_in_block m)) /\
  forall cids, (Forall (fun c => exists n, cell_in_block m c n) cids -> exists d, blocks_of_cells m cache (Some cids) = Ok d /\ entries_are d (fun c n => In c cids /\ cell_in_block m c n)) /\
    (forall c, In c cids -> (forall n, ~ cell_in_block m c n) -> blocks_of_cells m cache (Some cids) = Err KeyError).
Proof.
  intros Hm Hne Hc. pose proof (create_value m Hm Hne) as Ec.
  assert (Ed : (match cache with Some d => Ok d | None => create_mappers m end) = Ok (owners m)).
  { destruct cache as [d|]; [|assumption]. destruct Hc as [?|[cr E]]; [discriminate|]. unfold lock in E. destruct cr; [|discriminate]. rewrite Ec in E. cbn [bind] in E. injection E as <-. reflexivity. }
  unfold blocks_of_cells. rewrite Ed. cbn [bind]. split.
  - exists (owners m). split; [reflexivity|]. split; [unfold dkeys; rewrite owners_keys; apply Hm|]. intros c n. now apply owners_get.
  - intros cids. split.
    + intros Hall. rewrite Forall_forall in Hall. destruct (mapM_gets (owners m) cids) as (bids & E & HF). { intros c Hin. destruct (Hall c Hin) as [n Hn]. exists n. now apply owners_get. }
      rewrite E. cbn [bind]. eexists. split; [reflexivity|]. set (g := fun c => match dget (owners m) c with Ok n => n | _ => 0 end).
      assert (Hg : Forall (fun kv => snd kv = g (fst kv)) (combine cids bids) /\ map fst (combine cids bids) = cids).
      { clear -HF. induction HF as [|c n cs ns H _ [IH1 IH2]]; cbn [combine map fst]; [split; [constructor|reflexivity]|]. split; [constructor; [cbn [fst snd]; unfold g; now rewrite H|assumption]|now rewrite IH2]. }
      destruct Hg as [Hg Hk]. destruct (dict_fold g (combine cids bids) [] Hg) as [N Eg]; [constructor|intros k v H; discriminate|]. split; [exact N|]. intros c n. unfold dict_of. rewrite Eg, Hk. split.
      * intros [-> [Hin|[]]]. split; [assumption|]. destruct (Hall c Hin) as [n Hn]. unfold g. apply owners_get in Hn as En; [|assumption]. now rewrite En.
      * intros [Hin Hn]. split; [|now left]. apply owners_get in Hn; [|assumption]. unfold g. now rewrite Hn.
    + intros c Hin Hno. rewrite (mapM_missing (owners m) cids c Hin); [reflexivity|]. intros H. apply dget_ok_iff in H as [n E]. apply owners_get in E; [|assumption]. now apply (Hno n).
Qed.
Lemma blocks_of_nothing m i : cell_arrays m = [] -> blocks_of_cells m None i = Err ValueError.
Proof. intros H. unfold blocks_of_cells, create_mappers. now rewrite walk_cells, H. Qed.
Lemma cell_indices_ok m path u s b : under None None m path = Some (u, s, b) -> cell_arrays b <> [] -> cell_indices m path = Ok (concat (map cid (cell_arrays b))).
Proof.
  intros Hu Hne. destruct (block_at_under path top m u s b Hu) as (c & E & _). unfold cell_indices. rewrite E. cbn [bind fst snd]. rewrite walk_cells. destruct (cell_arrays b); [congruence|]. reflexivity.
Qed.
Lemma number_of_cells_ok m path u s b : under None None m path = Some (u, s, b) -> number_of_cells m path = Ok (length (cells_in u s b)).
Proof.
  intros Hu. destruct (block_at_under path top m u s b Hu) as (c & E & _). unfold number_of_cells. rewrite E. cbn [bind fst snd]. f_equal.
  rewrite <- (map_map snd (fun k => length (nodes k))), walk_cells. clear. revert u s. induction b as [f pd cd subs IH] using block_induction. intros u s. cbn [cells_in cell_arrays]. rewrite map_app, list_sum_app, app_length. f_equal.
  - destruct cd; cbn; [rewrite map_length; lia|reflexivity].
  - induction IH as [|x l Hx _ IHl]; [reflexivity|]. cbn [flat_map]. rewrite map_app, list_sum_app, app_length. f_equal; [apply Hx|apply IHl].
Qed.
