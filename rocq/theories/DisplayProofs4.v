(** * Proofs about what is shown: witnesses, parameters of plots, names of fields, neighbours of cells *)
From Coq Require Import Reals String List Lia Lra Arith Bool Permutation Sorted.
From Verif Require Import Base BaseFacts TopoSpec TopoProofs3 TopoProofs5 MeshSpec FrameProofs MeshProofs MeshProofs2 MeshProofs4 MeshProofs5 IncidenceProofs DisplaySpec DisplayProofs DisplayProofs2 DisplayProofs3.
From Verif Require TileProofs3 LocSpec LocProofs7 LocProofs8 NodalProofs7 TriSpec.
Import ListNotations.
Local Open Scope nat_scope.

(** ** Witnesses *)
Definition corner_points (fs : fields) : points := Points [(0, 0, 0); (1, 0, 0); (0, 1, 0)]%R None [0; 1; 2] [true; true; true] fs.
Definition a_block (pd : option points) (t : list (list nat)) (fs : fields) (subs : list block) : block := Block None pd (Some (Cells t (seq 0 (length t)) fs)) subs.
(** a line, and below it another one *)
Definition nested (fs : fields) : block := a_block (Some (corner_points [])) [[0; 1]] fs [a_block None [[1; 2]] [] []].
(** a line, and below it a triangle *)
Definition nested_widths : block := a_block (Some (corner_points [])) [[0; 1]] [] [a_block None [[0; 1; 2]] [] []].
Ltac plain_at b := rewrite (plain_coords top b) by (try reflexivity; try discriminate; repeat constructor).
Lemma nested_twice : exists m p k l r, m = Block None (Some p) (Some k) [Block None None (Some l) []] /\ rooted m p standard /\ even_blocks m /\ to_vtk (fun _ => 3) false [] top m = Ok r /\ length (mesh_rows m) = 2 /\ cells_shown r = 3.
Proof.
  assert (E : coords_of top (nested []) None = Ok [(0, 0, 0); (1, 0, 0); (0, 1, 0)]%R) by (plain_at (nested []); reflexivity).
  eexists (nested []), (corner_points []), _, _. eexists. split; [reflexivity|]. split; [repeat split|]. split; [repeat constructor; try discriminate; intros r s [<-|[]] [<-|[]]; reflexivity|]. split; [|split; [reflexivity|]].
  - unfold to_vtk, detach_block_data. change (cell_families [] top (nested [])) with [[(top, nested [])]; [(enter top (nested []), a_block None [[1; 2]] [] []); (top, nested [])]]. cbn [mapM]. unfold detach_block.
    change (source None [(top, nested [])]) with (Some (top, nested [])). change (source None [(enter top (nested []), a_block None [[1; 2]] [] []); (top, nested [])]) with (Some (top, nested [])). cbn [bind fst snd]. rewrite E. cbn [bind].
    change (topology false top (nested [])) with (@Ok (bool * list (list nat)) (false, [[0; 1]; [1; 2]])). change (topology false (enter top (nested [])) (a_block None [[1; 2]] [] [])) with (@Ok (bool * list (list nat)) (false, [[1; 2]])). cbn [bind].
    change (bpd (nested [])) with (Some (corner_points [])). cbn [bind guard fst snd negb].
    change (detach_mesh_bulk [(0, 0, 0)%R; (1, 0, 0)%R; (0, 1, 0)%R] [[0; 1]; [1; 2]]) with (@Ok (list vec * list (list nat)) ([(0, 0, 0); (1, 0, 0); (0, 1, 0)]%R, [[0; 1]; [1; 2]])).
    change (detach_mesh_bulk [(0, 0, 0)%R; (1, 0, 0)%R; (0, 1, 0)%R] [[1; 2]]) with (@Ok (list vec * list (list nat)) ([(1, 0, 0); (0, 1, 0)]%R, [[0; 1]])). cbn [bind]. reflexivity.
  - reflexivity.
Qed.
Lemma nested_fails : exists m p i j fs gs, m = Block None (Some p) (Some (Cells [[0; 1]] i fs)) [Block None None (Some (Cells [[0; 1; 2]] j gs)) []] /\ rooted m p standard /\ length (px p) = 3 /\ forall multi, to_vtk (fun _ => 3) multi [] top m = Err TypeError.
Proof.
  assert (E : coords_of top nested_widths None = Ok [(0, 0, 0); (1, 0, 0); (0, 1, 0)]%R) by (plain_at nested_widths; reflexivity).
  eexists nested_widths, (corner_points []), _, _, _, _. split; [reflexivity|]. split; [repeat split|]. split; [reflexivity|]. intros multi.
  unfold to_vtk, detach_block_data. change (cell_families [] top nested_widths) with [[(top, nested_widths)]; [(enter top nested_widths, a_block None [[0; 1; 2]] [] []); (top, nested_widths)]]. cbn [mapM]. unfold detach_block at 1.
  change (source None [(top, nested_widths)]) with (Some (top, nested_widths)). cbn [bind fst snd]. rewrite E. cbn [bind]. change (topology false top nested_widths) with (@Ok (bool * list (list nat)) (true, [[0; 1]; [0; 1; 2]])). cbn [bind].
  change (bpd nested_widths) with (Some (corner_points [])). reflexivity.
Qed.
(** cells with data, below them other cells: the data is rejected *)
Definition one_value : field := Field None [[Some 7%R]].
Lemma nested_data : exists m p k a, m = Block None (Some p) (Some k) [Block None None (Some (Cells [[1; 2]] [0] [])) []] /\ rooted m p standard /\ pfields p = [] /\ find_field "T" (cfields k) = Some a /\ length (rows a) = length (nodes k) /\ to_pv (fun _ => 3) false (SName "T") [] top m = Err ValueError.
Proof.
  set (m := nested [("T"%string, one_value)]). assert (E : coords_of top m None = Ok [(0, 0, 0); (1, 0, 0); (0, 1, 0)]%R) by (plain_at m; reflexivity).
  exists m, (corner_points []), (Cells [[0; 1]] [0] [("T"%string, one_value)]), one_value. split; [reflexivity|]. split; [repeat split|]. split; [reflexivity|]. split; [reflexivity|]. split; [reflexivity|].
  unfold to_pv, detach_block_data. change (cell_families [] top m) with [[(top, m)]; [(enter top m, a_block None [[1; 2]] [] []); (top, m)]]. cbn [mapM]. unfold detach_block.
  change (source None [(top, m)]) with (Some (top, m)). change (source None [(enter top m, a_block None [[1; 2]] [] []); (top, m)]) with (Some (top, m)). cbn [bind fst snd]. rewrite E. cbn [bind].
  change (topology false top m) with (@Ok (bool * list (list nat)) (false, [[0; 1]; [1; 2]])). change (topology false (enter top m) (a_block None [[1; 2]] [] [])) with (@Ok (bool * list (list nat)) (false, [[1; 2]])). cbn [bind].
  change (bpd m) with (Some (corner_points [])). cbn [bind]. change (find_field "T" (pfields (corner_points []))) with (@None field). cbn [bind guard fst snd negb].
  change (detach_mesh_bulk [(0, 0, 0)%R; (1, 0, 0)%R; (0, 1, 0)%R] [[0; 1]; [1; 2]]) with (@Ok (list vec * list (list nat)) ([(0, 0, 0); (1, 0, 0); (0, 1, 0)]%R, [[0; 1]; [1; 2]])).
  change (detach_mesh_bulk [(0, 0, 0)%R; (1, 0, 0)%R; (0, 1, 0)%R] [[1; 2]]) with (@Ok (list vec * list (list nat)) ([(1, 0, 0); (0, 1, 0)]%R, [[0; 1]])). cbn [bind]. reflexivity.
Qed.
(** the sides of a triangle: as many cells as points; the data of the cells is taken for that of the points *)
Definition three_values : field := Field None [[Some 5%R]; [Some 6%R]; [Some 7%R]].
Definition ring (fs cfs : fields) : block := a_block (Some (corner_points fs)) [[0; 1]; [1; 2]; [2; 0]] cfs [].
Lemma ring_run fs cfs : @detach_mesh_bulk vec [(0, 0, 0)%R; (1, 0, 0)%R; (0, 1, 0)%R] [[0; 1]; [1; 2]; [2; 0]] = Ok ([(0, 0, 0); (1, 0, 0); (0, 1, 0)]%R, [[0; 1]; [1; 2]; [2; 0]]) /\
  coords_of top (ring fs cfs) None = Ok [(0, 0, 0); (1, 0, 0); (0, 1, 0)]%R /\ topology false top (ring fs cfs) = Ok (false, [[0; 1]; [1; 2]; [2; 0]]).
Proof. split; [reflexivity|]. split; [|reflexivity]. plain_at (ring fs cfs). reflexivity. Qed.
Lemma ring_data : exists m k g, cell_arrays m = [k] /\ find_field "T" (cfields k) = Some three_values /\ length (rows three_values) = length (nodes k) /\
  to_pv (fun _ => 3) false (SName "T") [] top m = Ok [(g, OfPoints "T" three_values)].
Proof.
  set (m := ring [] [("T"%string, three_values)]). destruct (ring_run [] [("T"%string, three_values)]) as (E1 & E2 & E3). fold m in E2, E3.
  exists m, (Cells [[0; 1]; [1; 2]; [2; 0]] [0; 1; 2] [("T"%string, three_values)]). eexists. split; [reflexivity|]. split; [reflexivity|]. split; [reflexivity|].
  unfold to_pv, detach_block_data. change (cell_families [] top m) with [[(top, m)]]. cbn [mapM]. unfold detach_block. change (source None [(top, m)]) with (Some (top, m)). cbn [bind fst snd]. rewrite E2. cbn [bind]. rewrite E3. cbn [bind].
  change (bpd m) with (Some (corner_points [])). cbn [bind]. change (find_field "T" (pfields (corner_points []))) with (@None field). cbn [bind guard fst snd negb]. rewrite E1. cbn [bind]. reflexivity.
Qed.
Lemma multi_lost : exists m g, to_pv (fun _ => 3) false (SName "T") [] top m = Ok [(g, OfPoints "T" three_values)] /\ to_pv (fun _ => 3) true (SName "T") [] top m = Ok [(g, NoData)].
Proof.
  set (m := ring [("T"%string, three_values)] []). destruct (ring_run [("T"%string, three_values)] []) as (E1 & E2 & E3). fold m in E2, E3.
  assert (E : detach_block_data (SName "T") [] top m = Ok [Piece [(0, 0, 0); (1, 0, 0); (0, 1, 0)]%R [[0; 1]; [1; 2]; [2; 0]] (Some three_values)]).
  { unfold detach_block_data. change (cell_families [] top m) with [[(top, m)]]. cbn [mapM]. unfold detach_block. change (source None [(top, m)]) with (Some (top, m)). cbn [bind fst snd]. rewrite E2. cbn [bind]. rewrite E3. cbn [bind].
    change (bpd m) with (Some (corner_points [("T"%string, three_values)])). cbn [bind]. change (find_field "T" (pfields (corner_points [("T"%string, three_values)]))) with (Some three_values). cbn [bind guard fst snd negb].
    change (detach_mesh_data_bulk [(0, 0, 0)%R; (1, 0, 0)%R; (0, 1, 0)%R] [[0; 1]; [1; 2]; [2; 0]] (rows three_values)) with (@Ok (list vec * list (list value) * list (list nat)) ([(0, 0, 0); (1, 0, 0); (0, 1, 0)]%R, rows three_values, [[0; 1]; [1; 2]; [2; 0]])). reflexivity. }
  exists m. eexists. unfold to_pv. rewrite E. cbn [bind]. split; reflexivity.
Qed.
(** the points of the mesh have the field, those of the block do not *)
Definition other_points : points := Points [(5, 0, 0); (6, 0, 0); (5, 1, 0)]%R None [0; 1; 2] [true; true; true] [].
Definition two_sources : block := Block None (Some (corner_points [("T"%string, three_values)])) None [a_block (Some other_points) [[0; 1]] [] []].
Lemma promised : exists m f c t, cell_families [] top m = [f] /\ has_plot_scalars (SName "T") f = Ok true /\ detach_block (SName "T") f = Ok (Piece c t None).
Proof.
  set (m := two_sources). set (b := a_block (Some other_points) [[0; 1]] [] []). exists m, [(enter top m, b); (top, m)]. do 2 eexists. split; [reflexivity|]. split; [reflexivity|].
  assert (E : coords_of (enter top m) b None = Ok (px other_points)) by (rewrite (plain_coords (enter top m) b) by (try reflexivity; try discriminate; repeat constructor); reflexivity).
  unfold detach_block. change (source None [(enter top m, b); (top, m)]) with (Some (enter top m, b)). cbn [bind fst snd]. rewrite E. cbn [bind]. change (topology false (enter top m) b) with (@Ok (bool * list (list nat)) (false, [[0; 1]])). cbn [bind].
  change (bpd b) with (Some other_points). cbn [bind]. change (find_field "T" (pfields other_points)) with (@None field). cbn [bind guard fst snd negb].
  change (detach_mesh_bulk (px other_points) [[0; 1]]) with (@Ok (list vec * list (list nat)) ([(5, 0, 0); (6, 0, 0)]%R, [[0; 1]])). cbn [bind]. reflexivity.
Qed.
(** what is announced is shown, if all points are in one block *)
Lemma announced f k p X s : proper_block f k p X -> data_fits s k p X -> Forall (fun cb => bpd (snd cb) = None \/ bpd (snd cb) = Some p) f ->
  exists (b : bool) pc, has_plot_scalars (SName s) f = Ok b /\ detach_block (SName s) f = Ok pc /\ (b = true <-> gdata pc <> None).
Proof.
  intros H HD HP. pose proof H as ((c & b0 & anc & Ef & Hk & _) & (near & src & far & Efam & Hn & Hs & _) & _). assert (Ho : own_cells f = Some k) by (rewrite Ef; exact Hk). unfold has_plot_scalars. rewrite Ho. unfold data_fits in HD. destruct (find_field s (pfields p)) as [a|] eqn:Ep.
  - destruct (data_points f k p X s a H Ep HD) as (c' & t & d & E & _). exists true, (Piece c' t (Some (Field (width a) d))).
    assert (Es : exists z, source (Some s) f = Some z). { unfold source. rewrite Efam. destruct (find _ (near ++ src :: far)) as [z|] eqn:Ez; [eauto|]. exfalso. pose proof (find_none _ _ Ez src) as N. cbv beta in N. unfold is_source in N. rewrite Hs in N. assert (I : has s (map fst (pfields p)) = true) by (apply has_In; destruct (in_dec String.string_dec s (map fst (pfields p))) as [I|I]; [exact I|apply find_field_None in I; congruence]). rewrite I in N. discriminate N. apply in_or_app. right. now left. }
    destruct Es as (z & Es). rewrite Es. split; [reflexivity|]. split; [exact E|]. split; [discriminate|reflexivity].
  - assert (Es : source (Some s) f = None). { unfold source. destruct (find _ f) as [z|] eqn:Ez; [|reflexivity]. exfalso. apply find_some in Ez as [Iz Ez]. rewrite Forall_forall in HP. unfold is_source in Ez. destruct (HP z Iz) as [D|D]; rewrite D in Ez; [discriminate|]. apply has_In in Ez. apply find_field_None in Ep. contradiction. }
    rewrite Es. destruct (find_field s (cfields k)) as [a|] eqn:Ec.
    + assert (I : has s (map fst (cfields k)) = true) by (apply has_In; destruct (in_dec String.string_dec s (map fst (cfields k))) as [I|I]; [exact I|apply find_field_None in I; congruence]). rewrite I. destruct (width a) as [w|] eqn:Ew.
      * destruct (data_nodes f k p X s a w H Ep Ec Ew HD) as (c' & t & d & E & _). do 2 eexists. split; [reflexivity|]. split; [exact E|]. split; [discriminate|reflexivity].
      * destruct (data_cells f k p X s a H Ep Ec Ew) as (c' & t & E & _). do 2 eexists. split; [reflexivity|]. split; [exact E|]. split; [discriminate|reflexivity].
    + assert (I : has s (map fst (cfields k)) = false) by (destruct (has s (map fst (cfields k))) eqn:I; [apply has_In in I; apply find_field_None in Ec; contradiction|reflexivity]). rewrite I.
      destruct (data_missing f k p X s H Ep Ec) as (c' & t & E & _). do 2 eexists. split; [reflexivity|]. split; [exact E|]. split; [discriminate|intros N; now contradiction N].
Qed.
(** k3d: the cells of a block with points of its own are shown with the points of the mesh *)
Lemma k3d_wrong : exists m, mesh_at m [[(5, 0, 0); (6, 0, 0)]]%R /\ to_k3d (fun _ => 1) (fun _ => Err TypeError) None [] top m = Ok [([(0, 0, 0); (1, 0, 0)]%R, [[0; 1]], None)].
Proof.
  set (m := two_sources). exists m. split.
  - unfold mesh_at. cbn. constructor; [|constructor]. cbn [fst snd]. constructor; [|constructor; [|constructor]]; (eexists; split; [reflexivity|]; apply placed_iff; symmetry; apply place_standard; now left).
  - assert (E : coords_of top m None = Ok [(0, 0, 0); (1, 0, 0); (0, 1, 0); (5, 0, 0); (6, 0, 0); (5, 1, 0)]%R) by (plain_at m; reflexivity).
    unfold to_k3d. change (source None [(top, m)]) with (Some (top, m)). cbn [bind fst snd]. rewrite E. cbn [bind]. reflexivity.
Qed.

(** ** Parameters of plots *)
Lemma nearest_owner cs f p : nearest_config cs f p <-> exists i, config_owner cs f = Some i /\ dget cs i = Ok p.
Proof.
  split.
  - intros (near & i & far & -> & Hi & Hn). exists i. split; [|exact Hi]. unfold config_owner. apply split_find; [|now rewrite Hi]. apply Forall_forall. intros j Hj. destruct (dget cs j) as [q|] eqn:E; [exfalso; exact (Hn j Hj q E)|reflexivity].
  - intros (i & Ho & Hi). destruct (find_split _ _ _ Ho) as (near & far & -> & Hn & _). exists near, i, far. split; [reflexivity|]. split; [exact Hi|]. intros j Hj q E. rewrite Forall_forall in Hn. specialize (Hn j Hj). rewrite E in Hn. discriminate.
Qed.
Lemma none_owner cs f : no_config cs f <-> config_owner cs f = None.
Proof.
  unfold config_owner. split.
  - intros H. destruct (find _ f) as [i|] eqn:E; [|reflexivity]. apply find_some in E as [Hi E]. destruct (dget cs i) as [q|] eqn:Eq; [exfalso; exact (H i Hi q Eq)|discriminate].
  - intros H j Hj q E. pose proof (find_none _ _ H j Hj) as N. cbv beta in N. rewrite E in N. discriminate.
Qed.
Lemma pop_has p : ~ has_color (pop_color p).
Proof. intros (v & H). apply filter_In in H as [_ H]. discriminate. Qed.
Lemma pop_but p : but_color p (pop_color p).
Proof. unfold but_color, pop_color. induction p as [|[s v] p IH]; [reflexivity|]. cbn [filter fst]. destruct (negb (String.eqb s "color")) eqn:E; [|exact IH]. cbn [filter fst]. rewrite E. now rewrite IH at 1. Qed.
Definition alike (cs cs' : configs) : Prop := forall i, (forall p, dget cs i = Ok p -> exists q, dget cs' i = Ok q /\ but_color p q) /\ (forall q, dget cs' i = Ok q -> exists p, dget cs i = Ok p).
Lemma alike_refl cs : alike cs cs.
Proof. intros i. split; [intros p H; exists p; split; [exact H|reflexivity]|eauto]. Qed.
Lemma alike_owner cs cs' f : alike cs cs' -> config_owner cs' f = config_owner cs f.
Proof.
  intros H. unfold config_owner. induction f as [|i f IH]; [reflexivity|]. cbn [find]. rewrite IH. destruct (H i) as [H1 H2]. destruct (dget cs i) as [p|] eqn:E; destruct (dget cs' i) as [q|] eqn:E'; try reflexivity.
  - destruct (H1 p eq_refl) as (q & D & _). discriminate.
  - destruct (H2 q eq_refl) as (p & D). discriminate.
Qed.
Lemma plot_step cs0 cs f d : alike cs0 cs -> alike cs0 (fst (plot_block cs f d)) /\ (no_config cs0 f -> snd (plot_block cs f d) = []) /\
  (forall p, nearest_config cs0 f p -> but_color p (snd (plot_block cs f d)) /\ (d = true -> ~ has_color (snd (plot_block cs f d)))).
Proof.
  intros HA. unfold plot_block. rewrite (alike_owner cs0 cs f HA). destruct (config_owner cs0 f) as [i|] eqn:Eo.
  - assert (Hp : exists p0, dget cs0 i = Ok p0). { unfold config_owner in Eo. apply find_some in Eo as [_ E]. destruct (dget cs0 i) as [p0|]; [eauto|discriminate]. }
    destruct Hp as (p0 & Hp0). destruct (proj1 (HA i) p0 Hp0) as (q & Hq & Hb). rewrite Hq. assert (Hno : no_config cs0 f -> False) by (intros H; apply none_owner in H; congruence).
    assert (Hne : forall p, nearest_config cs0 f p -> p = p0). { intros p H. apply nearest_owner in H as (j & Ej & Hj). rewrite Eo in Ej. injection Ej as <-. congruence. }
    destruct d; cbn [fst snd].
    + split; [|split; [intros H; contradiction (Hno H)|]].
      * intros j. rewrite dget_dset. destruct (Nat.eqb_spec i j) as [<-|Hij]; cbv beta iota.
        { split; [|intros; exists p0; exact Hp0]. intros p H. rewrite Hp0 in H. injection H as <-. exists (pop_color q). split; [now rewrite ?Nat.eqb_refl|]. unfold but_color in *. rewrite Hb. apply pop_but. }
        { rewrite (proj2 (Nat.eqb_neq j i)) by congruence. apply HA. }
      * intros p H. rewrite (Hne p H). split; [|intros _; apply pop_has]. unfold but_color in *. rewrite Hb. apply pop_but.
    + split; [exact HA|]. split; [intros H; contradiction (Hno H)|]. intros p H. rewrite (Hne p H). split; [exact Hb|discriminate].
  - split; [exact HA|]. split; [reflexivity|]. intros p H. apply nearest_owner in H as (j & Ej & _). congruence.
Qed.
Lemma plot_value cs bs : alike cs (fst (pvplot cs bs)) /\ Forall2 (fun fd q => (no_config cs (fst fd) -> q = []) /\ forall p, nearest_config cs (fst fd) p -> but_color p q /\ (snd fd = true -> ~ has_color q)) bs (snd (pvplot cs bs)).
Proof.
  assert (G : forall cs', alike cs cs' -> alike cs (fst (pvplot cs' bs)) /\ Forall2 (fun fd q => (no_config cs (fst fd) -> q = []) /\ forall p, nearest_config cs (fst fd) p -> but_color p q /\ (snd fd = true -> ~ has_color q)) bs (snd (pvplot cs' bs))); [|apply G, alike_refl].
  induction bs as [|[f d] bs IH]; intros cs' HA; [split; [exact HA|constructor]|]. cbn [pvplot fst snd]. destruct (plot_step cs cs' f d HA) as (H1 & H2 & H3). destruct (IH _ H1) as [I1 I2]. split; [exact I1|]. constructor; [cbn [fst snd]; split; [exact H2|exact H3]|exact I2].
Qed.
Lemma plot_plain cs bs : Forall (fun fd => snd fd = false) bs -> fst (pvplot cs bs) = cs /\ Forall2 (fun fd q => (no_config cs (fst fd) -> q = []) /\ forall p, nearest_config cs (fst fd) p -> q = p) bs (snd (pvplot cs bs)).
Proof.
  induction 1 as [|[f d] bs Hd _ [I1 I2]]; [split; [reflexivity|constructor]|]. cbn [snd] in Hd. subst d. cbn [pvplot fst snd].
  assert (E : fst (plot_block cs f false) = cs) by (unfold plot_block; destruct (config_owner cs f); [destruct (dget cs n)|]; reflexivity). rewrite E. split; [exact I1|]. constructor; [|exact I2]. cbn [fst snd]. split.
  - intros H. apply none_owner in H. unfold plot_block. rewrite H. reflexivity.
  - intros p H. apply nearest_owner in H as (i & E1 & E2). unfold plot_block. rewrite E1, E2. reflexivity.
Qed.
Lemma plot_pops cs f p : nearest_config cs f p -> nearest_config (fst (pvplot cs [(f, true)])) f (pop_color p) /\ snd (pvplot (fst (pvplot cs [(f, true)])) [(f, false)]) = [pop_color p].
Proof.
  intros H. pose proof H as H0. apply nearest_owner in H as (i & E1 & E2). assert (N : nearest_config (fst (pvplot cs [(f, true)])) f (pop_color p)).
  { apply nearest_owner. exists i. rewrite (alike_owner cs _ f (proj1 (plot_value cs [(f, true)]))). split; [exact E1|]. cbn [pvplot fst snd]. unfold plot_block. rewrite E1, E2. cbn [fst]. rewrite dget_dset, Nat.eqb_refl. reflexivity. }
  split; [exact N|]. destruct (plot_plain (fst (pvplot cs [(f, true)])) [(f, false)]) as [_ HF]; [repeat constructor|]. destruct (snd (pvplot (fst (pvplot cs [(f, true)])) [(f, false)])) as [|q l]; inversion HF as [|? ? ? ? [_ Hq] Hl]; subst. inversion Hl; subst. cbn [fst] in Hq. now rewrite (Hq _ N).
Qed.
Lemma color_lost : exists cs f p, nearest_config cs f p /\ has_color p /\ exists q, snd (pvplot (fst (pvplot cs [(f, true)])) [(f, false)]) = [q] /\ ~ has_color q.
Proof.
  exists [(0, [("color"%string, 1)])], [0], [("color"%string, 1)]. assert (N : nearest_config [(0, [("color"%string, 1)])] [0] [("color"%string, 1)]) by (exists [], 0, []; split; [reflexivity|split; [reflexivity|intros j []]]).
  split; [exact N|]. split; [exists 1; now left|]. destruct (plot_pops _ _ _ N) as [_ E]. eexists. split; [exact E|]. apply pop_has.
Qed.
Lemma color_stolen : exists cs f g p, nearest_config cs g p /\ has_color p /\ exists q q', snd (pvplot cs [(f, true); (g, false)]) = [q; q'] /\ ~ has_color q'.
Proof.
  exists [(0, [("color"%string, 1)])], [1; 0], [2; 0], [("color"%string, 1)]. split; [exists [2], 0, []; split; [reflexivity|split; [reflexivity|intros j [<-|[]] q H; discriminate H]]|].
  split; [exists 1; now left|]. do 2 eexists. split; [reflexivity|]. intros (v & []).
Qed.

(** ** Names of fields *)
Lemma once_NoDup l : NoDup (once l).
Proof. induction l as [|s l IH]; cbn [once]; [constructor|]. destruct (has s l) eqn:E; [exact IH|]. constructor; [|exact IH]. rewrite once_In, <- has_In. now rewrite E. Qed.
Lemma unique_names_ok names : (forall a b, In a names -> In b names -> length a = length b) -> exists l, unique_names names = Ok l /\ names_are l (fun s => exists a, In a names /\ In s a).
Proof.
  intros H. unfold unique_names. destruct names as [|a t]; [exists []; split; [reflexivity|]; split; [constructor|]; intros s; split; [intros []|intros (x & [] & _)]|].
  assert (E : forallb (fun m => Nat.eqb (length m) (length a)) t = true) by (apply forallb_forall; intros m Hm; apply Nat.eqb_eq, H; [now right|now left]). rewrite E. eexists. split; [reflexivity|]. split; [apply once_NoDup|].
  intros s. rewrite once_In, in_concat. reflexivity.
Qed.
Lemma below_points c b : map snd (pointblocks (below c b)) = flat_map arrays (bsub b).
Proof. unfold below. induction (bsub b) as [|x l IH]; [reflexivity|]. cbn [map concat flat_map]. now rewrite pointblocks_app, map_app, walk_arrays, IH. Qed.
Lemma below_cells c b : map snd (cellblocks (below c b)) = flat_map cell_arrays (bsub b).
Proof. unfold below. induction (bsub b) as [|x l IH]; [reflexivity|]. cbn [map concat flat_map]. now rewrite cellblocks_app, map_app, walk_cells, IH. Qed.
Lemma point_fields_ok always c b : (forall p q, In p (flat_map arrays (bsub b)) -> In q (flat_map arrays (bsub b)) -> length (pfields p) = length (pfields q)) ->
  exists l, point_fields always c b = Ok l /\ names_are l (fun s => exists p, In p (flat_map arrays (bsub b)) /\ (In s always \/ In s (map fst (pfields p)))).
Proof.
  intros H. unfold point_fields. replace (map (fun cp => point_names always (snd cp)) (pointblocks (below c b))) with (map (point_names always) (flat_map arrays (bsub b))) by (rewrite <- (below_points c b), map_map; reflexivity).
  destruct (unique_names_ok (map (point_names always) (flat_map arrays (bsub b)))) as (l & E & N1 & N2).
  { intros a d Ha Hd. apply in_map_iff in Ha as (p & <- & Hp). apply in_map_iff in Hd as (q & <- & Hq). unfold point_names. rewrite !app_length, !map_length. now rewrite (H p q Hp Hq). }
  exists l. split; [exact E|]. split; [exact N1|]. intros s. rewrite N2. split.
  - intros (a & Ha & Hs). apply in_map_iff in Ha as (p & <- & Hp). exists p. split; [exact Hp|]. apply in_app_iff in Hs. exact Hs.
  - intros (p & Hp & Hs). exists (point_names always p). split; [now apply in_map|]. apply in_app_iff. exact Hs.
Qed.
Lemma cell_fields_ok always c b : (forall p q, In p (flat_map cell_arrays (bsub b)) -> In q (flat_map cell_arrays (bsub b)) -> length (cfields p) = length (cfields q)) ->
  exists l, cell_fields always c b = Ok l /\ names_are l (fun s => exists p, In p (flat_map cell_arrays (bsub b)) /\ (In s always \/ In s (map fst (cfields p)))).
Proof.
  intros H. unfold cell_fields. replace (map (fun ck => cell_names always (snd ck)) (cellblocks (below c b))) with (map (cell_names always) (flat_map cell_arrays (bsub b))) by (rewrite <- (below_cells c b), map_map; reflexivity).
  destruct (unique_names_ok (map (cell_names always) (flat_map cell_arrays (bsub b)))) as (l & E & N1 & N2).
  { intros a d Ha Hd. apply in_map_iff in Ha as (p & <- & Hp). apply in_map_iff in Hd as (q & <- & Hq). unfold cell_names. rewrite !app_length, !map_length. now rewrite (H p q Hp Hq). }
  exists l. split; [exact E|]. split; [exact N1|]. intros s. rewrite N2. split.
  - intros (a & Ha & Hs). apply in_map_iff in Ha as (p & <- & Hp). exists p. split; [exact Hp|]. apply in_app_iff in Hs. exact Hs.
  - intros (p & Hp & Hs). exists (cell_names always p). split; [now apply in_map|]. apply in_app_iff. exact Hs.
Qed.
Lemma own_fields_missing : exists m p, rooted m p standard /\ In "T"%string (map fst (pfields p)) /\ forall always, point_fields always top m = Ok [] /\ cell_fields always top m = Ok [].
Proof. exists (ring [("T"%string, three_values)] []), (corner_points [("T"%string, three_values)]). split; [repeat split|]. split; [now left|]. intros always. split; reflexivity. Qed.
Lemma uneven_fields : exists m k l, m = Block None None None [Block None None (Some k) []; Block None None (Some l) []] /\ length (cfields k) <> length (cfields l) /\ forall always, cell_fields always top m = Err ValueError.
Proof.
  eexists (Block None None None [a_block None [[0; 1]] [] []; a_block None [[0; 1]] [("T"%string, one_value)] []]), _, _. split; [reflexivity|]. split; [discriminate|]. intros always. unfold cell_fields. set (names := map _ _). assert (E : names = [always ++ []; always ++ ["T"%string]]) by reflexivity. rewrite E. unfold unique_names. cbn [forallb].
  rewrite !app_length. cbn [length]. rewrite (proj2 (Nat.eqb_neq (length always + 1) (length always + 0))) by lia. reflexivity.
Qed.

(** ** Neighbours of cells *)
Lemma row_of_len p : length (row_of p) = 3.
Proof. destruct p as [[x y] z]. reflexivity. Qed.
Lemma dist2_self y : TriSpec.dist2 y y = 0%R.
Proof. unfold TriSpec.dist2. induction y as [|a y IH]; [reflexivity|]. cbn [combine map fold_right fst snd]. rewrite IH. ring. Qed.
Lemma dist2_row_pos p q : (TriSpec.dist2 (row_of p) (row_of q) <= 0)%R -> p = q.
Proof.
  destruct p as [[x y] z], q as [[x' y'] z']. unfold TriSpec.dist2. cbn [row_of combine map fold_right fst snd]. intros H.
  assert (Hx := Rle_0_sqr (x - x')). assert (Hy := Rle_0_sqr (y - y')). assert (Hz := Rle_0_sqr (z - z')). unfold Rsqr in *.
  assert (Ex : ((x - x') * (x - x') = 0)%R) by lra. assert (Ey : ((y - y') * (y - y') = 0)%R) by lra. assert (Ez : ((z - z') * (z - z') = 0)%R) by lra.
  apply Rmult_integral in Ex. apply Rmult_integral in Ey. apply Rmult_integral in Ez. repeat f_equal; lra.
Qed.
Lemma cells_nearest query m path p T ps k d : LocSpec.nearest_query query -> rooted m p T -> orthonormal (axes T) -> part_at m path ps -> ps <> [] -> Forall (fun qs => qs <> []) ps -> k <= length ps -> k <> 1 ->
  exists cs rows, Forall2 centroid ps cs /\ k_nearest_cell_neighbours query m path k d None = Ok (LocModel.Inds2 rows) /\ length rows = length ps /\
    (forall i c row, nth_error cs i = Some c -> nth_error rows i = Some row -> LocSpec.nearest (map row_of cs) (row_of c) k row /\ (0 < k -> NoDup cs -> In i row)).
Proof.
  intros Hq Hm Ho Hp Hne Hcell Hk Hk1. destruct (centers_places m path p T ps Hm Ho Hp Hne Hcell) as (cs & E & HF). pose proof (TileProofs3.Forall2_len _ _ _ HF) as HL.
  destruct (LocProofs8.knn_nearest query (map row_of cs) (map row_of cs) k Hq) as (rows & Er & HR); [rewrite map_length; lia|exact Hk1|]. exists cs, rows. split; [exact HF|]. split.
  - unfold k_nearest_cell_neighbours. rewrite E. cbn [bind]. rewrite LocProofs7.knn_bound_ignored, Er. reflexivity.
  - pose proof (TileProofs3.Forall2_len _ _ _ HR) as HL2. rewrite map_length in HL2. split; [lia|]. intros i c row Hc Hr.
    assert (HN : LocSpec.nearest (map row_of cs) (row_of c) k row). { destruct (Forall2_nth_error _ _ _ _ _ HR (map_nth_error row_of _ _ Hc)) as (row' & Hr' & HN). congruence. }
    split; [exact HN|]. intros Hk0 Hnd. destruct (in_dec Nat.eq_dec i row) as [I|NI]; [exact I|exfalso]. destruct HN as (L & _ & HB & HO). destruct row as [|j row]; [cbn in L; lia|]. inversion HB as [|? ? Hj _]; subst. rewrite map_length in Hj.
    assert (Hi : i < length (map row_of cs)) by (rewrite map_length; apply nth_error_Some; congruence). specialize (HO j i (or_introl eq_refl) Hi NI). rewrite (nth_error_nth _ _ _ (map_nth_error row_of _ _ Hc)), dist2_self in HO.
    destruct (nth_error cs j) as [c'|] eqn:Ej; [|apply nth_error_None in Ej; lia]. rewrite (nth_error_nth _ _ _ (map_nth_error row_of _ _ Ej)) in HO. apply dist2_row_pos in HO. subst c'. apply NI. left. rewrite NoDup_nth_error in Hnd. symmetry. apply Hnd; [now rewrite map_length in Hi|congruence].
Qed.
Lemma cells_nearest_one query m path p T ps d : LocSpec.nearest_query query -> rooted m p T -> orthonormal (axes T) -> part_at m path ps -> ps <> [] -> Forall (fun qs => qs <> []) ps ->
  exists cs l, Forall2 centroid ps cs /\ k_nearest_cell_neighbours query m path 1 d None = Ok (LocModel.Inds1 l) /\ (NoDup cs -> l = seq 0 (length ps)).
Proof.
  intros Hq Hm Ho Hp Hne Hcell. destruct (centers_places m path p T ps Hm Ho Hp Hne Hcell) as (cs & E & HF). pose proof (TileProofs3.Forall2_len _ _ _ HF) as HL.
  destruct (LocProofs8.knn_one query (map row_of cs) (map row_of cs) Hq) as (l & Er & HR); [destruct cs, ps; [now contradiction Hne|discriminate|discriminate|discriminate]|]. exists cs, l. split; [exact HF|]. split.
  - unfold k_nearest_cell_neighbours. rewrite E. cbn [bind]. rewrite LocProofs7.knn_bound_ignored, Er. reflexivity.
  - intros Hnd. pose proof (TileProofs3.Forall2_len _ _ _ HR) as HL2. rewrite map_length in HL2. apply nth_error_ext. intros i. destruct (Nat.lt_ge_cases i (length cs)) as [Hi|Hi].
    + destruct (nth_error cs i) as [c|] eqn:Hc; [|apply nth_error_None in Hc; lia]. destruct (Forall2_nth_error _ _ _ _ _ HR (map_nth_error row_of _ _ Hc)) as (j & Hj & Hjl & HO). rewrite Hj. rewrite (nth_error_nth' (seq 0 (length ps)) 0) by (rewrite seq_length; lia). rewrite seq_nth by lia. cbn [plus]. f_equal.
      rewrite map_length in *. specialize (HO i Hi). rewrite (nth_error_nth _ _ _ (map_nth_error row_of _ _ Hc)), dist2_self in HO. destruct (nth_error cs j) as [c'|] eqn:Ej; [|apply nth_error_None in Ej; lia].
      rewrite (nth_error_nth _ _ _ (map_nth_error row_of _ _ Ej)) in HO. apply dist2_row_pos in HO. subst c'. rewrite NoDup_nth_error in Hnd. apply Hnd; [exact Hjl|congruence].
    + rewrite (proj2 (nth_error_None l i)) by lia. rewrite (proj2 (nth_error_None (seq 0 (length ps)) i)) by (rewrite seq_length; lia). reflexivity.
Qed.
Lemma cells_around_rows m path p T ps r : rooted m p T -> orthonormal (axes T) -> part_at m path ps -> ps <> [] -> Forall (fun qs => qs <> []) ps ->
  exists cs rows, Forall2 centroid ps cs /\ NodalSpec.padded (map row_of cs) r 10 rows /\ cells_around_cells m path r NodalModel.FmtDict = Ok (NodalModel.NbDict (enum rows)) /\
    cells_around_cells m path r NodalModel.FmtJagged = Ok (NodalModel.NbJagged rows) /\ cells_around_cells m path r NodalModel.FmtOther = Err RuntimeError.
Proof.
  intros Hm Ho Hp Hne Hcell. destruct (centers_places m path p T ps Hm Ho Hp Hne Hcell) as (cs & E & HF).
  destruct (NodalProofs7.around_value 3 (map row_of cs) r 10) as (rows & H1 & H2 & H3 & _ & H4 & _); [apply Forall_forall; intros x Hx; apply in_map_iff in Hx as (q & <- & _); apply row_of_len|].
  exists cs, rows. split; [exact HF|]. split; [exact H1|]. unfold cells_around_cells. rewrite E. cbn [bind]. auto.
Qed.
Lemma always_cell_0 m path p T ps r : rooted m p T -> orthonormal (axes T) -> part_at m path ps -> ps <> [] -> Forall (fun qs => qs <> []) ps -> length ps < 10 ->
  exists rows, cells_around_cells m path r NodalModel.FmtJagged = Ok (NodalModel.NbJagged rows) /\ length rows = length ps /\ Forall (In 0) rows.
Proof.
  intros Hm Ho Hp Hne Hcell HL. destruct (cells_around_rows m path p T ps r Hm Ho Hp Hne Hcell) as (cs & rows & HF & HP & _ & E & _). exists rows. split; [exact E|]. pose proof (TileProofs3.Forall2_len _ _ _ HF) as L1. pose proof (TileProofs3.Forall2_len _ _ _ HP) as L2. rewrite map_length in L2. split; [lia|].
  apply Forall_forall. intros row Hrow. apply In_nth_error in Hrow as (i & Hi). destruct (nth_error (map row_of cs) i) as [c|] eqn:Ec; [|apply nth_error_None in Ec; rewrite map_length in Ec; assert (i < length rows) by (apply nth_error_Some; congruence); lia].
  destruct (Forall2_nth_error _ _ _ _ _ HP Ec) as (row' & Hi' & close & (Hs & Hc) & ->). rewrite Hi in Hi'. injection Hi' as ->. apply in_app_iff. right.
  assert (Lc : length close <= length cs). { rewrite <- (seq_length (length cs) 0). apply NoDup_incl_length.
    - clear -Hs. induction Hs as [|a x Hx IH Hf]; constructor; [|exact IH]. intros I. rewrite Forall_forall in Hf. specialize (Hf a I). lia.
    - intros j Hj. apply Hc in Hj as (q & Hq & _). apply in_seq. assert (j < length (map row_of cs)) by (apply nth_error_Some; congruence). rewrite map_length in *. lia. }
  change (In 0 (repeat 0 (10 - length close))). destruct (10 - length close) as [|n] eqn:En; [lia|]. now left.
Qed.
Lemma announced_array a f pc : detach_block (SArray a) f = Ok pc -> has_plot_scalars (SArray a) f = Ok true /\ gdata pc <> None.
Proof.
  intros H. split; [reflexivity|]. destruct f as [|[c b] f]; [discriminate|]. unfold detach_block in H. destruct (source None _) as [src|]; [|discriminate]. cbn [bind] in H.
  destruct (coords_of _ _ None) as [x|]; [|discriminate]. cbn [bind] in H. destruct (topology false c b) as [tp|]; [|discriminate]. cbn [bind] in H.
  destruct (bpd (snd src)) as [pd|]; [|discriminate]. cbn [bind] in H. destruct (guard (Nat.eqb _ _) ValueError) as [|]; [|discriminate]. cbn [bind] in H. destruct (guard (negb _) TypeError) as [|]; [|discriminate]. cbn [bind] in H.
  destruct (detach_mesh_data_bulk _ _ _) as [[[c1 d] t]|]; [|discriminate]. cbn [bind] in H. injection H as <-. discriminate.
Qed.
Lemma announced_none f pc : detach_block SNone f = Ok pc -> has_plot_scalars SNone f = Ok false /\ gdata pc = None.
Proof.
  intros H. split; [reflexivity|]. destruct f as [|[c b] f]; [discriminate|]. unfold detach_block in H. destruct (source None _) as [src|]; [|discriminate]. cbn [bind] in H.
  destruct (coords_of _ _ None) as [x|]; [|discriminate]. cbn [bind] in H. destruct (topology false c b) as [tp|]; [|discriminate]. cbn [bind] in H.
  destruct (bpd (snd src)) as [pd|]; [|discriminate]. cbn [bind] in H. destruct (guard (negb _) TypeError) as [|]; [|discriminate]. cbn [bind] in H.
  destruct (detach_mesh_bulk _ _) as [ct|]; [|discriminate]. cbn [bind] in H. injection H as <-. reflexivity.
Qed.
