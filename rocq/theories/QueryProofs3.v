(** * Proofs about [QueryModel.v], part 3: the points of cells; queries that go wrong *)
From Coq Require Import Reals ZArith List Lia Lra.
From Verif Require SpaceModel SpaceProofs6 EvalModel LocSpec.
From Verif Require Import BaseFacts TopoProofs4 FrameProofs MeshProofs MeshProofs2 MeshProofs3 MeshProofs4 MeshProofs5 MeshProofs7 MeshProofs8.
From Verif Require Import QuerySpec QueryProofs QueryProofs2.
Import ListNotations.

Lemma points_from_cells_ok m path p T u s b ps ns : rooted m p T -> orthonormal (axes T) -> pid p = seq 0 (length (px p)) ->
  under None None m path = Some (u, s, b) -> frame_in u b = Some T -> part_at m path ps -> ps <> [] -> nodes_used b ns ->
  exists c, points_from_cells m path = Ok c /\ cloud_of_nodes p T ns c.
Proof.
  intros Hr Ho Hid Hu Hf (u2 & s2 & b2 & Hu2 & Hps) Hne Hns. rewrite Hu in Hu2. injection Hu2 as <- <- <-. destruct (rooted_source m p T path u s b Hr Hu) as [_ Hci].
  pose proof (used_below b u s T (px p) ps Hci Hps) as Hin. rewrite <- (used_nodes_eq b ns Hns). rewrite Hci in Hps.
  assert (Hk : cell_arrays b <> []). { apply (rows_some b _ eq_refl). intros Er. rewrite Er in Hps. inversion Hps. congruence. }
  destruct (block_at_under path top m u s b Hu) as (c & E & Ec & _). unfold points_from_cells, topology_at. rewrite E. cbn [bind fst snd]. unfold the_frame at 1. rewrite enter_frame, Ec, Hf. cbn [bind].
  rewrite (some_cells c b Hk). cbn [bind]. rewrite topology_rows. fold (used_nodes b).
  destruct Hr as (Hp & Ha & HT). destruct m as [fm pd cd subs]. cbn [bpd] in Hp. subst pd. pose proof (subs_bare _ _ _ _ Ha) as Hb.
  rewrite (own_points top fm p cd subs T) by auto. cbn [bind inds]. rewrite map_map. rewrite (map_ext _ (fun n => n)) by (intros; apply Nat2Z.id). rewrite map_id. rewrite Hid.
  rewrite (remap_topo_1d_ok (used_nodes b) _ (fun n => n)).
  2:{ intros n Hn. cbn [mlookup]. apply invmap_get; [apply seq_NoDup|]. rewrite Forall_forall in Hin. now apply nth_error_seq, Hin. }
  cbn [bind]. rewrite map_id. rewrite <- Hid. destruct (pick_points (px p) T (map Z.of_nat (pid p)) (used_nodes b)) as (i' & ys & Eg & Ey); [rewrite map_length, Hid; apply seq_length|assumption|].
  rewrite Eg. cbn [bind array]. eexists. split; [reflexivity|]. unfold cloud_of_nodes, new_cloud, rows_taken. cbn [cframe inds array]. split; [reflexivity|]. split; [reflexivity|].
  apply mapM_Ok in Ey. clear -Ey. induction Ey as [|n y l l' H _ IH]; constructor; [now apply get_Ok|assumption].
Qed.

(** ** What goes wrong *)
(** positions in a frame that is not at the origin *)
Definition pair_cloud (i : option (list Z)) : cloud := Cloud [(0, 0, 0); (1, 0, 0)]%R standard i.
Lemma pair_places i : same_places (cframe (pair_cloud i)) (array (pair_cloud i)) standard [(0, 0, 0); (1, 0, 0)]%R.
Proof. apply same_places_iff. reflexivity. Qed.
Lemma near_first i : nearest_at [(0, 0, 0); (1, 0, 0)]%R (0, 0, 0)%R i -> i = 0.
Proof. intros (q & E & H). destruct i as [|[|i]]; [reflexivity| |destruct i; discriminate]. cbn in E. injection E as <-. inversion H as [|? ? H1 _]; subst. cbn in H1. lra. Qed.
Lemma far_first i : farthest_at [(0, 0, 0); (1, 0, 0)]%R (0, 0, 0)%R i -> i = 1.
Proof. intros (q & E & H). destruct i as [|[|i]]; [|reflexivity|destruct i; discriminate]. cbn in E. injection E as <-. inversion H as [|? ? _ H1]; subst. inversion H1 as [|? ? H2 _]; subst. cbn in H2. lra. Qed.
Lemma shifted_given : given_at (Array (0, 0, 0)%R) (Some (Cartesian meye (1, 0, 0)%R)) (1, 0, 0)%R.
Proof. cbn [given_at in_frame]. apply placed_iff. cbn. apply triple_eq; lra. Qed.
Lemma closest_shifted query : exists c p o qs w i, array c <> [] /\ cframe c = standard /\ inds c = None /\ same_places standard (array c) standard qs /\ given_at (Array p) (Some (Cartesian meye o)) w /\
  index_of_closest query c (One (Array p)) (Some (Cartesian meye o)) = Ok (SpaceModel.Index1 i) /\ ~ nearest_at qs w i.
Proof.
  destruct (closest_single query (pair_cloud None) (Array (0, 0, 0)%R) None [(0, 0, 0); (1, 0, 0)]%R (0, 0, 0)%R) as (i & r & E & _ & [Hi _] & _).
  { discriminate. } { exact I. } { apply pair_places. } { exact I. } { cbn [given_at in_frame]. apply placed_iff. now rewrite place_standard by auto. }
  apply near_first in Hi. subst i. exists (pair_cloud None), (0, 0, 0)%R, (1, 0, 0)%R, [(0, 0, 0); (1, 0, 0)]%R, (1, 0, 0)%R, 0.
  split; [discriminate|]. split; [reflexivity|]. split; [reflexivity|]. split; [apply pair_places|]. split; [apply shifted_given|]. split; [exact E|].
  intros (q & Eq & H). cbn in Eq. injection Eq as <-. inversion H as [|? ? _ H1]; subst. inversion H1 as [|? ? H2 _]; subst. cbn in H2. lra.
Qed.
Lemma furthest_shifted : exists c p o qs w i, array c <> [] /\ cframe c = standard /\ inds c = None /\ same_places standard (array c) standard qs /\ given_at (Array p) (Some (Cartesian meye o)) w /\
  index_of_furthest c (One (Array p)) (Some (Cartesian meye o)) = Ok (SpaceModel.Index1 i) /\ ~ farthest_at qs w i.
Proof.
  destruct (furthest_single (pair_cloud None) (Array (0, 0, 0)%R) None [(0, 0, 0); (1, 0, 0)]%R (0, 0, 0)%R) as (i & r & E & _ & [Hi _] & _).
  { discriminate. } { exact I. } { apply pair_places. } { exact I. } { cbn [given_at in_frame]. apply placed_iff. now rewrite place_standard by auto. }
  apply far_first in Hi. subst i. exists (pair_cloud None), (0, 0, 0)%R, (1, 0, 0)%R, [(0, 0, 0); (1, 0, 0)]%R, (1, 0, 0)%R, 1.
  split; [discriminate|]. split; [reflexivity|]. split; [reflexivity|]. split; [apply pair_places|]. split; [apply shifted_given|]. split; [exact E|].
  intros (q & Eq & H). cbn in Eq. injection Eq as <-. inversion H as [|? ? H1 _]; subst. cbn in H1. lra.
Qed.
(** the indices of several points are positions in the cloud *)
Lemma wrong_indices c' l : Forall2 (fun i q => nth_error (array (pair_cloud (Some [10; 11]%Z))) i = Some q) l (array c') -> array c' <> [] -> inds c' = Some (map Z.of_nat l) ->
  forall l', ~ points_of_cloud (pair_cloud (Some [10; 11]%Z)) l' c'.
Proof.
  intros H Hne Hi l' (H1 & _ & k & Ek & Hk). rewrite Hi in Ek. injection Ek as <-. inversion H as [E1 E2|i q ? ? Hq ? E1 E2]; subst; [congruence|]. cbn [map] in Hk. inversion Hk as [|j z ? ? Hz _]; subst.
  cbn [index_at pair_cloud inds] in Hz. assert (i < 2) by (apply (nth_error_Some (array (pair_cloud (Some [10; 11]%Z)))); congruence).
  destruct j as [|[|j]]; [| |destruct j; discriminate]; cbn in Hz; injection Hz as Hz; lia.
Qed.
Lemma closest_indices query : LocSpec.nearest_query query -> exists c p f c', array c <> [] /\ indexed c /\ given_centred p f /\ closest_points query c p f = Ok (FoundMany c') /\
  array c' <> [] /\ forall l, ~ points_of_cloud c l c'.
Proof.
  intros HQ. destruct (closest_several query (pair_cloud (Some [10; 11]%Z)) (Several [(0, 0, 0)%R] None) None [(0, 0, 0); (1, 0, 0)]%R [(0, 0, 0)%R] HQ) as (l & c' & E1 & E2 & H1 & H2 & _).
  { discriminate. } { reflexivity. } { apply pair_places. } { discriminate. } { exact I. } { constructor; [|constructor]. apply placed_iff. now rewrite place_standard by auto. }
  exists (pair_cloud (Some [10; 11]%Z)), (Several [(0, 0, 0)%R] None), None, c'. split; [discriminate|]. split; [reflexivity|]. split; [exact I|]. split; [assumption|].
  assert (Hne : array c' <> []). { intros E. rewrite E in H2. inversion H2; subst. inversion H1. }
  split; [assumption|]. apply wrong_indices with (l := l); auto. unfold closest_points in E2. rewrite E1 in E2. cbn [bind found_at] in E2. destruct (mapM (get (array (pair_cloud (Some [10; 11]%Z)))) l); [|discriminate]. cbn [bind] in E2.
  cbn [pair_cloud inds] in E2. destruct (mapM (get [10; 11]%Z) l); [|discriminate]. cbn [bind] in E2. injection E2 as <-. reflexivity.
Qed.
Lemma furthest_indices : exists c p f c', array c <> [] /\ indexed c /\ given_centred p f /\ furthest_points c p f = Ok (FoundMany c') /\
  array c' <> [] /\ forall l, ~ points_of_cloud c l c'.
Proof.
  destruct (furthest_several (pair_cloud (Some [10; 11]%Z)) (Several [(0, 0, 0)%R] None) None [(0, 0, 0); (1, 0, 0)]%R [(0, 0, 0)%R]) as (l & c' & E1 & E2 & H1 & H2 & _).
  { discriminate. } { reflexivity. } { apply pair_places. } { discriminate. } { exact I. } { constructor; [|constructor]. apply placed_iff. now rewrite place_standard by auto. }
  exists (pair_cloud (Some [10; 11]%Z)), (Several [(0, 0, 0)%R] None), None, c'. split; [discriminate|]. split; [reflexivity|]. split; [exact I|]. split; [assumption|].
  assert (Hne : array c' <> []). { intros E. rewrite E in H2. inversion H2; subst. inversion H1. }
  split; [assumption|]. apply wrong_indices with (l := l); auto. unfold furthest_points in E2. rewrite E1 in E2. cbn [bind found_at] in E2. destruct (mapM (get (array (pair_cloud (Some [10; 11]%Z)))) l); [|discriminate]. cbn [bind] in E2.
  cbn [pair_cloud inds] in E2. destruct (mapM (get [10; 11]%Z) l); [|discriminate]. cbn [bind] in E2. injection E2 as <-. reflexivity.
Qed.
(** bounds of a mesh with blocks elsewhere *)
Lemma bounds_origins : exists m o p k qs b, m = Block (Some standard) None None [Block (Some (Cartesian meye o)) (Some p) (Some k) []] /\ pframe p = None /\ points_at m qs /\ mesh_bounds m [] None = Ok b /\ ~ tight_box qs b.
Proof.
  assert (Hc : coords_of top two_origins None = Ok [(0, 0, 0); (1, 0, 0)]%R).
  { unfold coords_of. rewrite (points_of_value top two_origins standard); [|reflexivity|discriminate]. cbn [bind]. f_equal. rewrite show_map. cbn [array cframe]. cbn. f_equal; [|f_equal]; apply triple_eq; lra. }
  destruct (bounds_box [(0, 0, 0); (1, 0, 0)]%R) as (b & E & H3 & Hb); [discriminate|].
  eexists two_origins, _, _, _, [(1, 0, 0); (2, 0, 0)]%R, b. split; [reflexivity|]. split; [reflexivity|]. split; [|split].
  - unfold points_at. cbn. constructor; [|constructor; [|constructor]]; cbn [fst snd]; apply placed_iff; cbn; apply triple_eq; lra.
  - unfold mesh_bounds. cbn [block_at bind fst snd]. rewrite Hc. exact E.
  - intros [_ H]. destruct b as [|[lo hi] b]; [discriminate|]. destruct (H 0 lo hi eq_refl) as (H1 & _). destruct (Hb 0 lo hi eq_refl) as (_ & _ & H2).
    inversion H1 as [|? ? _ H4]; subst. inversion H4 as [|? ? H5 _]; subst. cbn in H5. inversion H2 as [? ? H6|? ? H6]; subst; [cbn in H5; lra|]. inversion H6 as [? ? H7|? ? H7]; subst; [cbn in H5; lra|inversion H7].
Qed.
(** two blocks with points and cells *)
Definition own_line (x : R) (i c : nat) : block := Block None (Some (Points [(x, 0, 0); (x + 1, 0, 0)]%R None [i; S i] [true; true] [])) (Some (Cells [[0; 1]] [c] [])) [].
Definition two_blocks : block := Block (Some standard) None None [own_line 0 0 0; own_line 5 2 1].
Lemma node_standard (xs : list vec) n q : nth_error xs n = Some q -> node_at (Some (standard, xs)) n q.
Proof. intros H. exists q. split; [assumption|]. apply placed_iff. now rewrite place_standard by auto. Qed.
Lemma from_cells_nested : exists m p q k l ps c, m = Block (Some standard) None None [Block None (Some p) (Some k) []; Block None (Some q) (Some l) []] /\ pframe p = None /\ pframe q = None /\
  part_at m [1] ps /\ points_from_cells m [1] = Ok c /\ ~ Forall (fun q => exists x, In x (array c) /\ placed_at (cframe c) x q) (concat ps).
Proof.
  assert (E : exists c, points_from_cells two_blocks [1] = Ok c /\ array c = [(0, 0, 0); (0 + 1, 0, 0)]%R /\ cframe c = standard).
  { lazy -[Rplus Rmult Ropp Rminus IZR]. eexists. split; [reflexivity|]. cbn [array cframe]. split; [|reflexivity]. f_equal; [|f_equal]; apply triple_eq; lra. }
  destruct E as (c & E & Ea & Ef). eexists two_blocks, _, _, _, _, [[(5, 0, 0); (5 + 1, 0, 0)]]%R, c. do 3 (split; [reflexivity|]). split; [|split; [assumption|]].
  - exists (Some standard), None, (own_line 5 2 1). split; [reflexivity|]. cbn. constructor; [|constructor]. cbn [fst snd]. constructor; [|constructor; [|constructor]]; now apply node_standard.
  - intros H. cbn [concat app] in H. inversion H as [|? ? (x & Hx & Hp) _]; subst. rewrite Ea in Hx. rewrite Ef in Hp. apply placed_iff in Hp. rewrite place_standard in Hp by auto. subst x. destruct Hx as [Hx|[Hx|[]]]; injection Hx; intros; lra.
Qed.
(** coordinates of cells, numbers of points *)
Definition nested_blocks : block := Block (Some standard) (Some (Points [(0, 0, 0); (1, 0, 0)]%R None [0; 1] [true; true] [])) (Some (Cells [[0; 1]] [0] [])) [own_line 5 2 1].
Lemma nested_at : mesh_at nested_blocks [[(0, 0, 0); (1, 0, 0)]; [(5, 0, 0); (5 + 1, 0, 0)]]%R.
Proof. unfold mesh_at. cbn. constructor; [|constructor; [|constructor]]; cbn [fst snd]; (constructor; [|constructor; [|constructor]]); now apply node_standard. Qed.
Lemma cells_coords_nested : exists m p q k l ps qs, m = Block (Some standard) (Some p) (Some k) [Block None (Some q) (Some l) []] /\ pframe p = None /\ pframe q = None /\ mesh_at m ps /\ mesh_cells_coords m [] = Ok qs /\ qs <> ps.
Proof.
  eexists nested_blocks, _, _, _, _, [[(0, 0, 0); (1, 0, 0)]; [(5, 0, 0); (5 + 1, 0, 0)]]%R, [[(0, 0, 0); (1, 0, 0)]; [(0, 0, 0); (1, 0, 0)]]%R. do 3 (split; [reflexivity|]). split; [exact nested_at|]. split.
  - lazy -[Rplus Rmult Ropp Rminus IZR]. f_equal. f_equal; [|f_equal]; (f_equal; [|f_equal]); apply triple_eq; lra.
  - intros E. injection E. intros. lra.
Qed.
Lemma number_of_points_nested : exists m p q k l ps, m = Block (Some standard) (Some p) (Some k) [Block None (Some q) (Some l) []] /\ px q <> [] /\ mesh_at m ps /\ number_of_points m [] = Ok (length (px p)).
Proof. eexists nested_blocks, _, _, _, _, [[(0, 0, 0); (1, 0, 0)]; [(5, 0, 0); (5 + 1, 0, 0)]]%R. split; [reflexivity|]. split; [discriminate|]. split; [exact nested_at|reflexivity]. Qed.
Lemma number_of_points_none m : bpd m = None -> number_of_points m [] = Err AttributeError.
Proof. intros H. unfold number_of_points, the_source. cbn [source_path]. now rewrite H. Qed.
(** the same number twice; numbers that have changed *)
Lemma blocks_clash : exists m m' d, cells_numbered m /\ copy_mesh m = Ok m' /\ blocks_of_cells m' None None = Ok d /\ cell_in_block m' 0 0 /\ dget d 0 = Ok 1.
Proof.
  eexists (Block (Some standard) (Some (two_points None)) (Some one_line) [Block None None (Some (Cells [[0; 1]] [1] [])) []]), _, _. split; [|split; [|split; [|split]]].
  - split; [cbn; repeat constructor|]. cbn. repeat constructor; cbn; intuition lia.
  - lazy -[Rplus Rmult Ropp Rminus IZR]. reflexivity.
  - lazy -[Rplus Rmult Ropp Rminus IZR]. reflexivity.
  - eexists. split; [reflexivity|]. now left.
  - reflexivity.
Qed.
Lemma blocks_stale : exists m m' cache c n, cells_numbered m /\ lock m true None = Ok cache /\ to_standard_form (fun _ => None) (fun _ => None) m = Ok m' /\ cells_numbered m' /\
  cell_in_block m' c n /\ blocks_of_cells m' cache (Some [c]) = Err KeyError /\ exists d, blocks_of_cells m' (unlock cache) (Some [c]) = Ok d /\ dget d c = Ok n.
Proof.
  eexists (Block (Some standard) (Some (two_points None)) (Some (Cells [[0; 1]] [7] [])) []), _, _, 0, 0. split; [|split; [|split; [|split; [|split; [|split]]]]].
  - split; [cbn; repeat constructor|]. cbn. repeat constructor; cbn; intuition lia.
  - lazy -[Rplus Rmult Ropp Rminus IZR]. reflexivity.
  - lazy -[Rplus Rmult Ropp Rminus IZR]. reflexivity.
  - split; [cbn; repeat constructor|]. cbn. repeat constructor; cbn; intuition lia.
  - eexists. split; [reflexivity|]. now left.
  - reflexivity.
  - eexists. split; reflexivity.
Qed.
(** a mesh in standard form has good numbers *)
Lemma remap_length t imap t' : remap_topo t imap = Ok t' -> length t' = length t.
Proof.
  unfold remap_topo, remap_topo_in. destruct (mapM _ _) as [ws|]; [|discriminate]. cbn [bind]. intros E. apply run_writes2_shape in E. apply (f_equal (@length nat)) in E. unfold shape2 in E. rewrite !map_length in E. exact E.
Qed.
Lemma wire_numbers dc names b : forall src k n b', wire dc names src k b = Ok (n, b') ->
  k <= n /\ Forall (fun c => length (cid c) = length (nodes c)) (cell_arrays b') /\ concat (map cid (cell_arrays b')) = seq k (n - k) /\ length (cell_arrays b') = length (cell_arrays b).
Proof.
  induction b as [f pd cd subs IH] using block_induction. intros src k n b' H. cbn [wire] in H. set (src' := match pd with Some p => Some (pid p) | None => src end) in *.
  match type of H with (do r <- ?X; _) = _ => destruct X as [[k1 cd1]|] eqn:E1 end; [|discriminate]. cbn [bind fst snd] in H.
  destruct (thread (wire dc names src') k1 subs) as [[k2 l]|] eqn:E2; [|discriminate]. cbn [bind fst snd] in H. injection H as <- <-. cbn [cell_arrays].
  assert (H1 : k <= k1 /\ (let ks := match cd1 with Some c => [c] | None => [] end in Forall (fun c => length (cid c) = length (nodes c)) ks /\ concat (map cid ks) = seq k (k1 - k) /\ length ks = length (match cd with Some c => [c] | None => [] end))).
  { destruct cd as [c|]; [|injection E1 as <- <-; rewrite Nat.sub_diag; cbn; auto]. destruct src' as [ids|]; [|discriminate]. cbn [bind] in E1. destruct (remap_topo (nodes c) (MArr ids)) as [t|] eqn:Et; [|discriminate].
    cbn [bind] in E1. injection E1 as <- <-. cbn zeta. split; [lia|]. cbn [map concat cid length]. rewrite app_nil_r. apply remap_length in Et. split; [constructor; [|constructor]; cbn [cid nodes]; rewrite seq_length; lia|]. split; [f_equal; lia|reflexivity]. }
  assert (H2 : k1 <= k2 /\ Forall (fun c => length (cid c) = length (nodes c)) (flat_map cell_arrays l) /\ concat (map cid (flat_map cell_arrays l)) = seq k1 (k2 - k1) /\ length (flat_map cell_arrays l) = length (flat_map cell_arrays subs)).
  { clear E1 H1. revert k1 k2 l E2. induction IH as [|x subs Hx _ IHl]; intros k1 k2 l E2; cbn [thread] in E2; [injection E2 as <- <-; rewrite Nat.sub_diag; cbn; auto|].
    destruct (wire dc names src' k1 x) as [[k3 x']|] eqn:E3; [|discriminate]. cbn [bind fst snd] in E2. destruct (thread (wire dc names src') k3 subs) as [[k4 l']|] eqn:E4; [|discriminate]. cbn [bind fst snd] in E2. injection E2 as <- <-.
    destruct (Hx src' k1 k3 x' E3) as (A1 & A2 & A3 & A4). destruct (IHl k3 k4 l' E4) as (B1 & B2 & B3 & B4). cbn [flat_map]. rewrite map_app, concat_app, A3, B3, !app_length, A4, B4. split; [lia|]. split; [now apply Forall_app|]. split; [|reflexivity].
    replace (k4 - k1) with ((k3 - k1) + (k4 - k3)) by lia. rewrite seq_app. f_equal. f_equal; lia. }
  destruct H1 as (A1 & A2 & A3 & A4). destruct H2 as (B1 & B2 & B3 & B4). rewrite map_app, concat_app, A3, B3, !app_length, A4, B4. split; [lia|]. split; [now apply Forall_app|]. split; [|reflexivity].
  replace (k2 - k) with ((k1 - k) + (k2 - k1)) by lia. rewrite seq_app. f_equal. f_equal; lia.
Qed.
Lemma standard_numbered dp dc m m' : to_standard_form dp dc m = Ok m' -> cells_numbered m' /\ cell_arrays m' <> [].
Proof.
  unfold to_standard_form. destruct (number (bframe m) None 0 m) as [[n b1]|]; [|discriminate]. cbn [bind snd]. destruct (guard _ _); [|discriminate]. cbn [bind]. destruct (merge_fields dp _) as [fs|]; [|discriminate]. cbn [bind].
  match goal with |- context [cellblocks (walk top ?B)] => set (B2 := B) end. rewrite walk_cells. destruct (cell_arrays B2) as [|k0 ks] eqn:Ek; [discriminate|]. cbn [guard bind]. rewrite <- Ek.
  destruct (wire dc _ None 0 B2) as [[n2 b2]|] eqn:Ew; [|discriminate]. cbn [bind snd]. destruct (wire_numbers _ _ _ _ _ _ _ Ew) as (_ & H1 & H2 & H3). destruct b2 as [f pd cd subs]. intros E. injection E as <-.
  unfold cells_numbered. cbn [cell_arrays] in *. rewrite drop_cells_l. rewrite H2. split; [split; [assumption|apply seq_NoDup]|]. intros E. rewrite E, Ek in H3. discriminate.
Qed.
