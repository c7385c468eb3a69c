(** * Proofs about [SurfaceModel.v]: where the surface is wrong *)
From Coq Require Import Reals ZArith List Lia Lra Permutation Bool.
From Verif Require SpaceModel LocSpec.
From Verif Require Import BaseFacts FrameProofs MeshProofs MeshProofs2 MeshProofs3 MeshProofs4 MeshProofs5 MeshProofs7 QueryProofs QueryProofs2 QueryProofs3 SurfaceSpec SurfaceProofs SurfaceProofs2.
Import ListNotations.

(** ** The frame is applied again *)
Lemma surface_run query tool attached m p T tss : rooted m p T -> orthonormal (axes T) -> cell_arrays m <> [] ->
  mapM (fun pk => block_surface query tool attached m (fst pk) (snd pk)) (cell_paths m) = Ok tss ->
  exists s k', mesh_surface query tool attached m = Ok s /\ coords_of top s None = Ok (map (place T) (map (place T) (map (place T) (px p)))) /\ cell_arrays s = [k'] /\ forall t, In t (nodes k') <-> In t (concat tss).
Proof.
  intros Hr Ho Hk Es. pose proof (rooted_coords m p T Hr Ho) as Ec. pose proof (mapM_length _ _ _ Es) as Hl. unfold mesh_surface, the_source. destruct Hr as (Hp & Ha & HfT). cbn [source_path]. rewrite Hp. cbn [bind block_at fst snd]. rewrite Ec. cbn [bind]. unfold the_frame. rewrite enter_frame. cbn [frame_here top]. rewrite HfT. cbn [bind].
  rewrite Es. cbn [bind]. assert (Ht : tss <> []). { intros ->. apply Hk. rewrite <- cell_paths_arrays. destruct (cell_paths m); [reflexivity|discriminate Hl]. }
  replace (guard (match tss with [] => false | _ => true end) ValueError) with (@Ok unit tt) by (destruct tss; [congruence|reflexivity]). cbn [bind].
  eexists. eexists. split; [reflexivity|]. split; [|split; [reflexivity|]].
  - unfold coords_of. rewrite (points_of_value top _ T); [|reflexivity|discriminate]. cbn [bind frame_here top]. f_equal. rewrite show_map. cbn [array cframe framed flat_map frame_in app]. unfold converted. cbn [flat_map fst snd dframe]. rewrite app_nil_r, new_points_px, map_map.
    cbn [dframe]. apply map_ext. intros q. now rewrite shown_ambient, vshow_same.
  - intros t. cbn [nodes]. destruct (Nat.ltb 1 _); [apply (unique_in lex_cmp lex_cmp_eq)|reflexivity].
Qed.
Lemma surface_frames query tool m p T : LocSpec.nearest_query query -> finds_surface tool -> rooted m p T -> orthonormal (axes T) -> px p <> [] -> cell_arrays m <> [] ->
  exists s, mesh_surface query tool false m = Ok s /\ coords_of top s None = Ok (map (place T) (map (place T) (map (place T) (px p)))).
Proof.
  intros HQ HT Hr Ho Hne Hk. pose proof (rooted_coords m p T Hr Ho) as Ec.
  assert (Hb : forall path k, In (path, k) (cell_paths m) -> exists ts, block_surface query tool false m path k = Ok ts).
  { intros path k Hin. destruct (cell_paths_under m path k Hin) as (u & s & b & Hu & Hbk). destruct (rooted_source m p T path u s b Hr Hu) as [Hs _].
    unfold block_surface, the_source. rewrite Hs. cbn [bind block_at fst snd]. rewrite Ec. cbn [bind]. destruct (HT (map (place T) (px p)) (nodes k)) as (orig & Hso & _).
    destruct (extract_places query tool None (map (place T) (px p)) (nodes k) orig HQ) as (ts & E & _); [intros E; apply map_eq_nil in E; contradiction|now left|assumption|]. rewrite E. cbn [bind]. eauto. }
  assert (G : exists tss, mapM (fun pk => block_surface query tool false m (fst pk) (snd pk)) (cell_paths m) = Ok tss).
  { clear -Hb. induction (cell_paths m) as [|[path k] l IH]; [now exists []|]. destruct (Hb path k (or_introl eq_refl)) as (ts & E). destruct (IH (fun a b H => Hb a b (or_intror H))) as (tss & Es). exists (ts :: tss). cbn [mapM fst snd]. rewrite E. cbn [bind]. now rewrite Es. }
  destruct G as (tss & Es). destruct (surface_run query tool false m p T tss Hr Ho Hk Es) as (s & k' & E & H & _). eauto.
Qed.

(** ** Witnesses *)
Definition corners : list vec := [(0, 0, 0); (1, 0, 0); (0, 1, 0); (0, 0, 1)]%R.
Definition tet_points (x : list vec) : points := Points x None (seq 0 (length x)) (repeat true (length x)) [].
Definition tet_block (T : frame) : block := Block (Some T) (Some (tet_points corners)) (Some (Cells [[0; 1; 2; 3]] [0] [])) [].
Definition moved : frame := Cartesian (axes standard) (1, 0, 0)%R.
Lemma moved_place q : place moved q = vplus (1, 0, 0)%R q.
Proof. destruct q as [[x y] z]. unfold moved, place. cbn. apply triple_eq; ring. Qed.
Lemma tet_rooted T : rooted (tet_block T) (tet_points corners) T. Proof. repeat split. Qed.
Lemma tet_tets : tetrahedra 4 [[0; 1; 2; 3]].
Proof. constructor; [|constructor]. split; [reflexivity|]. split; [|repeat constructor]. repeat constructor; cbn [In]; lia. Qed.
Lemma distinct_vecs (a b : vec) : (xof a <> xof b \/ yof a <> yof b \/ zof a <> zof b) -> a <> b. Proof. intros H E. subst. tauto. Qed.
Lemma corners_nodup : NoDup corners.
Proof. repeat constructor; cbn [In]; intros H; repeat (destruct H as [H|H]; [injection H; intros; lra|]); exact H. Qed.
Lemma surface_frame_wrong query tool : LocSpec.nearest_query query -> finds_surface tool ->
  exists m x s, coords_of top m None = Ok x /\ mesh_surface query tool false m = Ok s /\ forall y, coords_of top s None = Ok y -> y <> x.
Proof.
  intros HQ HT. assert (Ho : orthonormal (axes moved)) by exact orthonormal_eye. destruct (surface_frames query tool (tet_block moved) (tet_points corners) moved HQ HT (tet_rooted moved) Ho) as (s & E & Ec); [discriminate|discriminate|].
  exists (tet_block moved), (map (place moved) corners), s. split; [exact (rooted_coords _ _ _ (tet_rooted moved) Ho)|]. split; [exact E|]. intros y Ey. rewrite Ec in Ey. injection Ey as <-. cbn [corners map px tet_points]. rewrite !moved_place. cbn [vplus]. intros H. injection H. intros. lra.
Qed.

Lemma interior_face : exists m p, rooted m p standard /\ NoDup (px p) /\ Forall (fun k => tetrahedra (length (px p)) (nodes k)) (cell_arrays m) /\
  forall query tool attached, LocSpec.nearest_query query -> finds_surface tool -> exists s k', mesh_surface query tool attached m = Ok s /\ cell_arrays s = [k'] /\ ~ covers_boundary (concat (map nodes (cell_arrays m))) (nodes k').
Proof.
  set (x := (corners ++ [(1, 1, 1)%R])). set (p := tet_points x). set (m := Block (Some standard) (Some p) None [Block None None (Some (Cells [[0; 1; 2; 3]] [0] [])) []; Block None None (Some (Cells [[1; 2; 3; 4]] [1] [])) []]).
  assert (Hr : rooted m p standard) by (repeat split). assert (Hd : NoDup (px p)).
  { repeat constructor; cbn [In]; intros H; repeat (destruct H as [H|H]; [injection H; intros; lra|]); exact H. }
  assert (Ht : Forall (fun k => tetrahedra (length (px p)) (nodes k)) (cell_arrays m)).
  { cbn. constructor; [|constructor; [|constructor]]; (constructor; [|constructor]); (split; [reflexivity|]; split; [|repeat constructor]); repeat constructor; cbn [In]; lia. }
  exists m, p. split; [exact Hr|]. split; [exact Hd|]. split; [exact Ht|]. intros query tool attached HQ HT.
  destruct (surface_blocks query tool attached m p standard HQ HT Hr (or_introl eq_refl)) as (s & k' & E & _ & Ek & H); [discriminate|exact Hd|discriminate|exact Ht|].
  exists s, k'. split; [exact E|]. split; [exact Ek|]. intros Hc. assert (HF : forall r, incl [1; 2; 3] r -> face_of [1; 2; 3] r) by (intros r Hr'; split; [reflexivity|split; [repeat constructor; cbn [In]; lia|exact Hr']]).
  assert (In1 : on_boundary (concat (map nodes (cell_arrays m))) [1; 2; 3]).
  { apply Hc, H. exists (Cells [[0; 1; 2; 3]] [0] []). split; [now left|]. exists 0, [0; 1; 2; 3]. split; [reflexivity|]. split; [apply HF; intros a Ha; cbn [In] in *; lia|]. intros [|[|j]] r' Ej; [reflexivity|discriminate Ej|discriminate Ej]. }
  destruct In1 as (i & r & _ & _ & Hu). assert (E0 := Hu 0 [0; 1; 2; 3] eq_refl (HF [0; 1; 2; 3] ltac:(intros a Ha; cbn [In] in *; lia))). assert (E1 := Hu 1 [1; 2; 3; 4] eq_refl (HF [1; 2; 3; 4] ltac:(intros a Ha; cbn [In] in *; lia))). congruence.
Qed.

(** node [n] of the only cell is not in a triangle *)
Lemma node_missing (topo ts : list (list nat)) t n : on_boundary topo t -> In n t -> Forall (fun t' => ~ In n t') ts -> ~ covers_boundary topo ts.
Proof.
  intros Ht Hn Hts Hc. apply Hc in Ht as (t' & Hin & Hp). rewrite Forall_forall in Hts. apply (Hts t' Hin). now apply (Permutation_in _ (Permutation_sym Hp)).
Qed.
Lemma images_miss n (f : nat -> nat) ts : (forall t i, In t ts -> In i t -> f i <> n) -> Forall (fun t' => ~ In n t') (map (map f) ts).
Proof.
  intros H. apply Forall_forall. intros t' Ht'. apply in_map_iff in Ht' as (t & <- & Ht). intros Hn. apply in_map_iff in Hn as (i & E & Hi). exact (H t i Ht Hi E).
Qed.
Lemma nearest_not x q i j a b : nth_error x i = Some a -> nth_error x j = Some b -> (apart q b < apart q a)%R -> ~ nearest_at x q i.
Proof.
  intros Ha Hb Hlt (r & Er & H). rewrite Ha in Er. injection Er as <-. rewrite Forall_forall in H. specialize (H b (nth_error_In _ _ Hb)). lra.
Qed.
Lemma single_run query tool (attached : bool) T x c ts : orthonormal (axes T) ->
  extract_surface query tool (if attached then Some x else None) (map (place T) x) c false = Ok ts ->
  exists s k', mesh_surface query tool attached (Block (Some T) (Some (tet_points x)) (Some (Cells c (seq 0 (length c)) [])) []) = Ok s /\ cell_arrays s = [k'] /\ forall t, In t (nodes k') <-> In t (snd ts).
Proof.
  intros Ho E. set (m := Block (Some T) (Some (tet_points x)) (Some (Cells c (seq 0 (length c)) [])) (@nil block)). assert (Hr : rooted m (tet_points x) T) by (repeat split). pose proof (rooted_coords m _ T Hr Ho) as Ec. cbn [px tet_points] in Ec.
  destruct (surface_run query tool attached m (tet_points x) T [snd ts] Hr Ho) as (s & k' & Es & _ & Ek & H); [discriminate| |].
  - change (cell_paths m) with [(@nil nat, Cells c (seq 0 (length c)) [])]. cbn [mapM fst snd]. unfold block_surface. change (the_source m []) with (@Ok (list nat) []). cbn [bind block_at fst snd]. rewrite Ec. cbn [bind nodes]. change (option_map px (bpd m)) with (Some x). rewrite E. reflexivity.
  - exists s, k'. split; [exact Es|]. split; [exact Ek|]. intros t. rewrite H. cbn [concat]. now rewrite app_nil_r.
Qed.
Lemma attached_wrong query tool : LocSpec.nearest_query query -> finds_surface tool ->
  exists s k', mesh_surface query tool true (tet_block moved) = Ok s /\ cell_arrays s = [k'] /\ ~ covers_boundary [[0; 1; 2; 3]] (nodes k').
Proof.
  intros HQ HT. set (c := [[0; 1; 2; 3]]). destruct (HT (map (place moved) corners) c) as (orig & [Hs Hb] & _). destruct (extract_value query tool (Some corners) (map (place moved) corners) c HQ) as (h & E & Hh); [discriminate|exact Hb|]. cbn [source_coords] in *.
  destruct (single_run query tool true moved corners c _ orthonormal_eye E) as (s & k' & Es & Ek & H). exists s, k'. split; [exact Es|]. split; [exact Ek|]. apply node_missing with (t := [0; 1; 2]) (n := 0); [|now left|].
  - exists 0, [0; 1; 2; 3]. split; [reflexivity|]. split; [split; [reflexivity|split; [repeat constructor; cbn [In]; lia|intros a Ha; cbn [In] in *; lia]]|]. intros [|[|j]] r' Ej; [reflexivity|discriminate Ej|discriminate Ej].
  - apply Forall_forall. intros t Ht. apply H in Ht. cbn [snd] in Ht. revert t Ht. rewrite <- Forall_forall. apply images_miss. intros t i Ht Hi E0. rewrite Forall_forall in Hb. specialize (Hb t Ht). rewrite Forall_forall in Hb. specialize (Hb i Hi).
    destruct (nth_error (fst (tool (map (place moved) corners) c)) i) as [q|] eqn:Eq; [|apply nth_error_None in Eq; lia]. rewrite (nth_error_nth _ i 0 (map_nth_error h i _ Eq)) in E0.
    destruct (F2_first _ _ _ Hs i q Eq) as (k & _ & Hk). specialize (Hh q). rewrite E0 in Hh. revert Hh.
    destruct k as [|[|[|[|k]]]]; cbn [map corners nth_error] in Hk; try (destruct k; discriminate Hk); injection Hk as <-; rewrite moved_place; apply (nearest_not corners _ 0 1 (0, 0, 0)%R (1, 0, 0)%R eq_refl eq_refl); cbn [apart vplus]; lra.
Qed.
Lemma coincident_wrong query tool attached : LocSpec.nearest_query query -> finds_surface tool ->
  exists m k s k', rooted m (tet_points (corners ++ corners)) standard /\ cell_arrays m = [k] /\ tetrahedra 8 (nodes k) /\ mesh_surface query tool attached m = Ok s /\ cell_arrays s = [k'] /\ ~ covers_boundary (nodes k) (nodes k').
Proof.
  intros HQ HT. set (c := [[0; 1; 2; 3]; [4; 5; 6; 7]]). set (x := corners ++ corners). destruct (HT x c) as (orig & [Hs Hb] & _).
  assert (Epl : map (place standard) x = x) by (apply plain_places; now left).
  destruct (extract_value query tool (if attached then Some x else None) x c HQ) as (h & E & Hh); [destruct attached; discriminate|exact Hb|]. assert (Esc : source_coords (if attached then Some x else None) x = x) by (destruct attached; reflexivity). rewrite Esc in *.
  destruct (single_run query tool attached standard x c (x, map (map (fun i => nth i (map h (fst (tool x c))) 0)) (snd (tool x c))) orthonormal_eye) as (s & k' & Es & Ek & H); [rewrite Epl; exact E|]. exists (Block (Some standard) (Some (tet_points x)) (Some (Cells c (seq 0 (length c)) [])) []), (Cells c (seq 0 (length c)) []), s, k'.
  split; [repeat split|]. split; [reflexivity|]. split; [cbn [nodes]; constructor; [|constructor; [|constructor]]; (split; [reflexivity|]; split; [|repeat constructor]); repeat constructor; cbn [In]; lia|]. split; [exact Es|]. split; [exact Ek|]. cbn [nodes].
  assert (Hmiss : forall n, h (0, 0, 0)%R <> n -> nth_error x n = Some (0, 0, 0)%R -> Forall (fun t' => ~ In n t') (nodes k')).
  { intros n Hn Hx. apply Forall_forall. intros t Ht. apply H in Ht. cbn [snd] in Ht. revert t Ht. rewrite <- Forall_forall. apply images_miss. intros t i Ht Hi E0. rewrite Forall_forall in Hb. specialize (Hb t Ht). rewrite Forall_forall in Hb. specialize (Hb i Hi).
    destruct (nth_error (fst (tool x c)) i) as [q|] eqn:Eq; [|apply nth_error_None in Eq; lia]. rewrite (nth_error_nth _ i 0 (map_nth_error h i _ Eq)) in E0. destruct (F2_first _ _ _ Hs i q Eq) as (k & _ & Hk). pose proof (nearest_same x q (h q) k Hk (Hh q)) as Hq. rewrite E0, Hx in Hq. injection Hq as <-. contradiction. }
  assert (HFa : forall a b d r, NoDup [a; b; d] -> incl [a; b; d] r -> face_of [a; b; d] r) by (intros a b d r H1 H2; split; [reflexivity|split; assumption]).
  destruct (Nat.eq_dec (h (0, 0, 0)%R) 0) as [E0|E0].
  - apply node_missing with (t := [4; 5; 6]) (n := 4); [|now left|apply Hmiss; [lia|reflexivity]]. exists 1, [4; 5; 6; 7]. split; [reflexivity|]. split; [apply HFa; [repeat constructor; cbn [In]; lia|intros a Ha; cbn [In] in *; lia]|].
    intros [|[|j]] r' Ej (_ & _ & Hi); [|reflexivity|destruct j; discriminate Ej]. injection Ej as <-. specialize (Hi 4 (or_introl eq_refl)). cbn [In] in Hi. lia.
  - apply node_missing with (t := [0; 1; 2]) (n := 0); [|now left|apply Hmiss; [lia|reflexivity]]. exists 0, [0; 1; 2; 3]. split; [reflexivity|]. split; [apply HFa; [repeat constructor; cbn [In]; lia|intros a Ha; cbn [In] in *; lia]|].
    intros [|[|j]] r' Ej (_ & _ & Hi); [reflexivity| |destruct j; discriminate Ej]. injection Ej as <-. specialize (Hi 0 (or_introl eq_refl)). cbn [In] in Hi. lia.
Qed.

(** ** Numbers of the points and triangles *)
Lemma surface_numbers query tool attached m s : mesh_surface query tool attached m = Ok s ->
  bsub s = [] /\ exists p k, bpd s = Some p /\ bcd s = Some k /\ pid p = seq 0 (length (px p)) /\ cid k = seq 0 (length (nodes k)) /\ pact p = map (fun _ => true) (px p) /\ pfields p = [] /\ cfields k = [].
Proof.
  unfold mesh_surface. intros H.
  destruct (the_source m []) as [sp|] eqn:E1; cbn [bind] in H; [|discriminate]. destruct (block_at top m sp) as [sb|] eqn:E2; cbn [bind] in H; [|discriminate].
  destruct (coords_of (fst sb) (snd sb) None) as [coords|] eqn:E3; cbn [bind] in H; [|discriminate]. destruct (the_frame (enter (fst sb) (snd sb))) as [f|] eqn:E4; cbn [bind] in H; [|discriminate].
  destruct (mapM _ (cell_paths m)) as [ts|] eqn:E5; cbn [bind] in H; [|discriminate]. destruct (guard _ _) as [u|] eqn:E6; cbn [bind] in H; [|discriminate].
  injection H as <-. split; [reflexivity|]. eexists. eexists. split; [reflexivity|]. split; [reflexivity|]. cbn [pid px pact pfields cid nodes cfields new_points].
  assert (C : forall l l' : list vec, length l = length l' -> map (fun _ => true) l = map (fun _ => true) l').
  { induction l as [|x l IH]; intros [|y l'] HL; try discriminate; [reflexivity|]. injection HL as HL. cbn [map]. f_equal. now apply IH. }
  assert (L : length (show (new_cloud coords (Some f) None) None) = length coords).
  { unfold show. destruct (cframe _); unfold rows_plus, dcoords; rewrite ?map_length, ?combine_length, ?map_length, ?Nat.min_id; reflexivity. }
  rewrite L. split; [reflexivity|]. split; [reflexivity|]. split; [|split; reflexivity]. apply C. now rewrite L.
Qed.
