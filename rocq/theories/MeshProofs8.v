(** * Proofs about merging the numbers of nodes and about detaching *)
From Coq Require Import Reals Lra Lia ZArith List String Sorted.
From Verif Require Import Base BaseFacts TopoSpec TopoProofs4 TopoProofs5 NodalProofs4 TrSpec FrameProofs FrameProofs2 MeshModel MeshSpec MeshProofs MeshProofs2 MeshProofs3 MeshProofs4 MeshProofs5 MeshProofs6 MeshProofs7.
Import ListNotations.
Local Open Scope nat_scope.

(** ** New names for the nodes *)
Fixpoint renode (h : nat -> nat) (b : block) : block :=
  let 'Block f pd cd subs := b in Block f pd (option_map (fun k => Cells (map (map h) (nodes k)) (cid k) (cfields k)) cd) (map (renode h) subs).
Lemma rows_of_list l : rows_l l = flat_map rows_in l.
Proof. induction l as [|b l IH]; [reflexivity|]. cbn [flat_map]. now rewrite rows_l_cons, IH. Qed.
Lemma renode_rows h b : rows_in (renode h b) = map (map h) (rows_in b).
Proof.
  induction b as [f pd cd subs IH] using block_induction. cbn [renode]. rewrite !rows_in_block, map_app. f_equal; [destruct cd; reflexivity|]. rewrite !rows_of_list.
  induction IH as [|b l Hb _ IHl]; [reflexivity|]. cbn [map flat_map]. now rewrite map_app, Hb, IHl.
Qed.
Lemma renode_rows_l h l : rows_l (map (renode h) l) = map (map h) (rows_l l).
Proof. rewrite !rows_of_list. induction l as [|b l IH]; [reflexivity|]. cbn [map flat_map]. now rewrite map_app, renode_rows, IH. Qed.
Lemma renode_arrays h b : arrays (renode h b) = arrays b.
Proof.
  induction b as [f pd cd subs IH] using block_induction. cbn [renode arrays]. f_equal. induction IH as [|b l Hb _ IHl]; [reflexivity|]. cbn [map flat_map]. now rewrite Hb, IHl.
Qed.
Lemma renode_arrays_l h l : flat_map arrays (map (renode h) l) = flat_map arrays l.
Proof. induction l as [|b l IH]; [reflexivity|]. cbn [map flat_map]. now rewrite renode_arrays, IH. Qed.
Lemma renode_empty h b : cell_arrays b = [] -> renode h b = b.
Proof.
  induction b as [f pd cd subs IH] using block_induction. cbn [renode cell_arrays]. intros H. apply app_eq_nil in H as [H1 H2]. destruct cd; [discriminate|]. cbn [option_map]. f_equal.
  induction IH as [|b l Hb _ IHl]; [reflexivity|]. cbn [flat_map map] in *. apply app_eq_nil in H2 as [H2 H3]. now rewrite Hb, IHl.
Qed.
Lemma rewire_empty imap b : cell_arrays b = [] -> forall d, rewire_deep imap d b = Ok b.
Proof.
  induction b as [f pd cd subs IH] using block_induction. cbn [rewire_deep cell_arrays]. intros H d. apply app_eq_nil in H as [H1 H2]. destruct cd; [discriminate|]. cbn [bind].
  replace (each (rewire_deep imap d) subs) with (@Ok (list block) subs); [reflexivity|].
  induction IH as [|b l Hb _ IHl]; [reflexivity|]. cbn [flat_map each] in *. apply app_eq_nil in H2 as [H2 H3]. rewrite Hb by assumption. cbn [bind]. now rewrite <- IHl.
Qed.
Lemma rewire_empty_l imap l : flat_map cell_arrays l = [] -> forall d, each (rewire_deep imap d) l = Ok l.
Proof. induction l as [|b l IH]; intros H d; [reflexivity|]. cbn [flat_map each] in *. apply app_eq_nil in H as [H1 H2]. rewrite rewire_empty by assumption. cbn [bind]. now rewrite IH. Qed.
Lemma rewire_apart imap h b : cells_apart b -> (forall n, In n (concat (rows_in b)) -> mlookup imap n = Ok (h n)) -> rewire_deep imap 0 b = Ok (renode h b).
Proof.
  induction b as [f pd cd subs IH] using block_induction. cbn [cells_apart rewire_deep renode]. intros Ha Hn. rewrite rows_in_block, concat_app in Hn. destruct cd as [k|].
  - cbn [rewire_times]. rewrite (remap_topo_ok (nodes k) imap h). 2:{ intros n Hu. apply Hn, in_or_app. left. now apply entry_in_concat in Hu. }
    cbn [bind]. rewrite rewire_empty_l by assumption. cbn [bind option_map]. do 2 f_equal. symmetry.
    clear -Ha. induction subs as [|b l IH]; [reflexivity|]. cbn [flat_map map] in *. apply app_eq_nil in Ha as [H1 H2]. now rewrite renode_empty, IH.
  - cbn [bind option_map app concat] in *. replace (each (rewire_deep imap 0) subs) with (@Ok (list block) (map (renode h) subs)); [reflexivity|].
    induction IH as [|b l Hb _ IHl]; [reflexivity|]. cbn [fold_right each map] in *. destruct Ha as [Ha1 Ha2]. rewrite rows_l_cons, concat_app in Hn.
    rewrite Hb by (auto using in_or_app). cbn [bind]. rewrite <- IHl by (auto using in_or_app). reflexivity.
Qed.
Lemma taken_ok {A} (l : list A) ns : Forall (fun n => n < length l) ns -> exists l', mapM (get l) ns = Ok l' /\ rows_taken ns l l'.
Proof.
  induction 1 as [|n ns Hn _ (l' & E & H)]; [exists []; split; [reflexivity|constructor]|]. destruct (get_lt l n Hn) as [x Ex]. exists (x :: l'). cbn [mapM]. rewrite Ex. cbn [bind]. rewrite E. split; [reflexivity|].
  constructor; [now apply get_Ok|exact H].
Qed.
Lemma taken_length {A} ns (l l' : list A) : rows_taken ns l l' -> length l' = length ns.
Proof. intros H. apply Forall2_len in H. now symmetry. Qed.
Lemma taken_nth {A} ns (l l' : list A) i n : rows_taken ns l l' -> nth_error ns i = Some n -> nth_error l' i = nth_error l n /\ n < length l.
Proof.
  intros H. revert i. induction H as [|m x ns l' Hx _ IH]; intros [|i] E; cbn [nth_error] in *; try discriminate; [|auto]. injection E as <-. rewrite Hx. split; [reflexivity|]. apply nth_error_Some. congruence.
Qed.
Lemma take_points_ok p ns : complete p -> pid p = seq 0 (length (px p)) -> Forall (fun n => n < length (px p)) ns ->
  exists p', take_points p ns = Ok p' /\ points_taken ns p p' /\ pid p' = ns /\ pframe p' = None.
Proof.
  intros [Ha Hf] Hid Hn. unfold take_points. destruct (taken_ok (px p) ns Hn) as (x & Ex & Hx). destruct (taken_ok (pid p) ns) as (i & Ei & Hi); [now rewrite Hid, seq_length|].
  destruct (taken_ok (pact p) ns) as (a & Ea & Hact); [now rewrite Ha|].
  assert (F : exists fs, mapM (fun sf => do r <- mapM (get (rows (snd sf))) ns; Ok (fst sf, Field (width (snd sf)) r)) (pfields p) = Ok fs /\
     Forall2 (fun sf sf' => fst sf' = fst sf /\ width (snd sf') = width (snd sf) /\ rows_taken ns (rows (snd sf)) (rows (snd sf'))) (pfields p) fs).
  { clear -Hf Hn. induction Hf as [|[s f] fs Hl _ (fs' & E & H)]; [exists []; split; [reflexivity|constructor]|]. cbn [fst snd] in *. destruct (taken_ok (rows f) ns) as (r & Er & Hr); [now rewrite Hl|].
    eexists. cbn [mapM fst snd]. rewrite Er. cbn [bind]. rewrite E. split; [reflexivity|]. constructor; [repeat split; assumption|exact H]. }
  destruct F as (fs & Efs & Hfs). rewrite Ex. cbn [bind]. rewrite Ei. cbn [bind]. rewrite Ea. cbn [bind]. rewrite Efs. cbn [bind]. eexists. split; [reflexivity|]. split; [repeat split; assumption|].
  split; [|reflexivity]. cbn [pid]. clear -Hi Hid Hn. rewrite Hid in Hi. revert Hn. induction Hi as [|n y ns i Hy _ IH]; intros Hn; [reflexivity|]. inversion Hn; subst. rewrite nth_error_seq in Hy by assumption. injection Hy as <-. f_equal. now apply IH.
Qed.
Lemma in_seq_used h ns t : (forall i n, nth_error ns i = Some n -> h n = i) -> used_list t ns -> used_list (map (map h) t) (seq 0 (length ns)).
Proof.
  intros Hh [Hs Hu]. split.
  - generalize 0. induction (length ns) as [|k IH]; intros a; [constructor|]. cbn [seq]. constructor; [apply IH|]. apply Forall_forall. intros x Hx. apply in_seq in Hx. lia.
  - intros i. rewrite in_seq. split.
    + intros [_ Hi]. cbn in Hi. destruct (nth_error ns i) as [n|] eqn:E; [|apply nth_error_None in E; lia]. assert (Hn : In n ns) by (eapply nth_error_In; eassumption). apply Hu in Hn as (a & b & r & Hr & Hb).
      exists a, b, (map h r). split; [now apply map_nth_error|]. rewrite (map_nth_error _ _ _ Hb). f_equal. now apply Hh.
    + intros (a & b & r & Hr & Hb). rewrite nth_error_map in Hr. destruct (nth_error t a) as [r0|] eqn:Er; [|discriminate]. injection Hr as <-. rewrite nth_error_map in Hb. destruct (nth_error r0 b) as [n|] eqn:En; [|discriminate].
      injection Hb as <-. assert (Hn : In n ns) by (apply Hu; exists a, b, r0; auto). apply In_nth_error in Hn as [j Hj]. rewrite (Hh j n Hj). split; [lia|]. cbn. apply nth_error_Some. congruence.
Qed.
Definition position (ns : list nat) (n : nat) : nat := match dget (inds_to_invmap_as_dict ns) n with Ok i => i | _ => 0 end.
Lemma position_ok ns i n : NoDup ns -> nth_error ns i = Some n -> dget (inds_to_invmap_as_dict ns) n = Ok i /\ position ns n = i.
Proof. intros Hd H. pose proof (invmap_get ns n i Hd H) as E. split; [exact E|]. unfold position. now rewrite E. Qed.
Lemma nummrg_ok m p ps : bpd m = Some p -> arrays m = [p] -> pid p = seq 0 (length (px p)) -> complete p -> cells_apart m ->
  bframe m <> None \/ pframe p = None \/ pframe p = Some standard -> mesh_at m ps ->
  exists m' p' ns, nummrg m = Ok m' /\ mesh_at m' ps /\ bpd m' = Some p' /\ arrays m' = [p'] /\ pid p' = seq 0 (length (px p')) /\
    nodes_used m ns /\ points_taken ns p p' /\ nodes_used m' (seq 0 (length (px p'))).
Proof.
  intros Hp Ha Hid Hc Hap Hfr Hm. destruct m as [f pd cd subs]. cbn [bpd] in Hp. subst pd. pose proof (subs_bare _ _ _ _ Ha) as Hb.
  destruct (frame_in_some None f p cd subs) as [g Eg]. unfold mesh_at in Hm. pose proof (cells_in_own None None f p cd subs g Eg Hb) as Hci.
  pose proof (used_below _ None None g (px p) ps Hci Hm) as Hin. set (m := Block f (Some p) cd subs) in *. set (ns := used_nodes m) in *.
  destruct (take_points_ok p ns Hc Hid Hin) as (p' & Ep & Ht & Hpid & Hpf). 
  unfold nummrg, m. fold m. rewrite topology_rows. fold (used_nodes m). fold ns. rewrite Ep. cbn [bind]. rewrite Hpid.
  pose proof (np_unique_NoDup (concat (rows_in m)) : NoDup ns) as Hd. set (h := position ns).
  assert (Hh : forall i n, nth_error ns i = Some n -> h n = i) by (intros i n E; now apply position_ok).
  rewrite (rewire_apart _ h m Hap).
  2:{ intros n Hn. cbn [mlookup]. assert (Hn' : In n ns) by (unfold ns, used_nodes; now rewrite np_unique_in). apply In_nth_error in Hn' as [i Hi]. destruct (position_ok ns i n Hd Hi) as [E1 E2]. unfold h. now rewrite E1, E2. }
  cbn [bind]. set (p2 := Points (px p') (pframe p') (seq 0 (length (px p'))) (pact p') (pfields p')).
  assert (Hx : rows_taken ns (px p) (px p')) by apply Ht.
  eexists. exists p2, ns. split; [reflexivity|]. cbn [m renode bcd bsub].
  assert (Eg' : exists g', frame_in None (Block f (Some p2) (option_map (fun k => Cells (map (map h) (nodes k)) (cid k) (cfields k)) cd) (map (renode h) subs)) = Some g' /\ forall x, place g' x = place g x).
  { destruct f as [f|]; [cbn in Eg |- *; eauto|]. cbn in Eg. cbn [frame_in p2 pframe]. rewrite Hpf. destruct Hfr as [H|[H|H]]; [exfalso; apply H; reflexivity|..]; rewrite H in Eg; injection Eg as <-; eauto. }
  destruct Eg' as (g' & Eg' & Hpl). split; [|split; [reflexivity|split; [|split; [reflexivity|split; [|split]]]]].
  - unfold mesh_at. rewrite (cells_in_own _ _ _ _ _ _ g' Eg') by now rewrite renode_arrays_l.
    assert (Er : rows_in (Block f (Some p2) (option_map (fun k => Cells (map (map h) (nodes k)) (cid k) (cfields k)) cd) (map (renode h) subs)) = map (map h) (rows_in m)).
    { rewrite <- (renode_rows h m). unfold m. cbn [renode]. now rewrite !rows_in_block. }
    rewrite Er. rewrite Hci in Hm. cbn [p2 px].
    assert (Hall : forall n, In n (concat (rows_in m)) -> exists i, nth_error ns i = Some n) by (intros n Hn; apply In_nth_error; unfold ns, used_nodes; now rewrite np_unique_in).
    clear -Hx Hh Hpl Hm Hall. revert ps Hm. induction (rows_in m) as [|r rs IH]; intros ps Hm; inversion Hm as [|? qs ? ps' Hq Hps]; subst; cbn [map concat] in *; constructor; [|apply IH; auto using in_or_app].
    cbn [fst snd] in *. assert (Hr : forall n, In n r -> exists i, nth_error ns i = Some n) by auto using in_or_app. clear -Hx Hh Hpl Hq Hr. induction Hq as [|n q r qs (x & Ex & Hp) _ IH]; cbn [map]; constructor; [|apply IH; intros; apply Hr; now right].
    destruct (Hr n) as [i Hi]; [now left|]. exists x. rewrite (Hh i n Hi). destruct (taken_nth ns (px p) (px p') i n Hx Hi) as [-> _]. split; [assumption|]. apply placed_iff in Hp. apply placed_iff. now rewrite Hpl.
  - cbn [arrays app]. now rewrite renode_arrays_l, Hb.
  - apply used_nodes_ok.
  - exact Ht.
  - cbn [p2 px]. rewrite (taken_length ns _ _ Hx). unfold nodes_used. 
    pose proof (in_seq_used h ns (rows_in m) Hh (used_nodes_ok m)) as Hus. rewrite <- (renode_rows h m) in Hus. unfold rows_in at 1, m in Hus. cbn [renode] in Hus. exact Hus.
Qed.

(** cells in a block below a block with cells are renamed twice *)
Definition four_points : points := Points [(0, 0, 0); (1, 0, 0); (2, 0, 0); (3, 0, 0)]%R None [0; 1; 2; 3] [true; true; true; true] [].
Definition nested_cells : block := Block (Some standard) (Some four_points) (Some (Cells [[1; 2]] [0] [])) [Block None None (Some (Cells [[2; 3]] [1] [])) []].
Ltac at_standard := eexists; split; [reflexivity|]; apply placed_iff; rewrite place_standard by auto; reflexivity.
Lemma nested_cells_at : mesh_at nested_cells [[(1, 0, 0); (2, 0, 0)]; [(2, 0, 0); (3, 0, 0)]]%R.
Proof. unfold mesh_at. cbn. repeat (constructor; cbn [fst snd node_at]; try at_standard). Qed.
Lemma nummrg_nested : exists m p k l ps m', m = Block (Some standard) (Some p) (Some k) [Block None None (Some l) []] /\ pframe p = None /\ pid p = seq 0 (length (px p)) /\ mesh_at m ps /\ nummrg m = Ok m' /\ ~ mesh_at m' ps.
Proof.
  eexists nested_cells, _, _, _, _, _. split; [reflexivity|]. split; [reflexivity|]. split; [reflexivity|]. split; [exact nested_cells_at|]. split; [lazy -[Rplus Rmult Ropp Rminus IZR]; reflexivity|].
  intros H. unfold mesh_at in H. cbn in H. inversion H as [|? ? ? ? _ H1]; subst. inversion H1 as [|? ? ? ? H2 _]; subst. cbn [fst snd] in H2. inversion H2 as [|? ? ? ? H3 _]; subst.
  destruct H3 as (x & E & Hp). injection E as <-. apply placed_iff in Hp. cbn in Hp. injection Hp. intros. lra.
Qed.
(** a frame that only the points know is lost *)
Definition frame_of_points : block := Block None (Some (two_points (Some turned))) (Some one_line) [].
Lemma frame_of_points_at : mesh_at frame_of_points [[place turned (0, 0, 0)%R; place turned (1, 0, 0)%R]].
Proof.
  unfold mesh_at. cbn. constructor; [|constructor]. cbn [fst snd]. constructor; [|constructor; [|constructor]]; cbn [node_at].
  - exists (0, 0, 0)%R. split; [reflexivity|]. now apply placed_iff.
  - exists (1, 0, 0)%R. split; [reflexivity|]. now apply placed_iff.
Qed.
Lemma nummrg_frame_lost : exists m p k F ps m', m = Block None (Some p) (Some k) [] /\ pframe p = Some F /\ orthonormal (axes F) /\ pid p = seq 0 (length (px p)) /\ mesh_at m ps /\ nummrg m = Ok m' /\ ~ mesh_at m' ps.
Proof.
  eexists frame_of_points, _, _, _, _, _. split; [reflexivity|]. split; [reflexivity|]. split; [exact orthonormal_turned|]. split; [reflexivity|]. split; [exact frame_of_points_at|]. split; [lazy -[Rplus Rmult Ropp Rminus IZR]; reflexivity|].
  intros H. unfold mesh_at in H. cbn in H. inversion H as [|? ? ? ? H2 _]; subst. cbn [fst snd] in H2. inversion H2 as [|? ? ? ? _ H3]; subst. inversion H3 as [|? ? ? ? H4 _]; subst.
  destruct H4 as (x & E & Hp). injection E as <-. apply placed_iff in Hp. cbn in Hp. injection Hp. intros. lra.
Qed.
(** indices that are not positions *)
Lemma nummrg_ids : exists m p k ps, m = Block None (Some p) (Some k) [] /\ pframe p = None /\ complete p /\ length (pid p) = length (px p) /\ pid p <> seq 0 (length (px p)) /\ mesh_at m ps /\ nummrg m = Err KeyError.
Proof.
  eexists high_ids, _, _, [[(0, 0, 0); (1, 0, 0)]]%R. split; [reflexivity|]. split; [reflexivity|]. split; [split; [reflexivity|constructor]|]. split; [reflexivity|]. split; [discriminate|]. split; [|reflexivity].
  unfold mesh_at. cbn. repeat (constructor; cbn [fst snd node_at]; try at_standard).
Qed.
Lemma nummrg_no_points m : bpd m = None -> nummrg m = Err TypeError.
Proof. destruct m as [f pd cd subs]. cbn [bpd]. now intros ->. Qed.

(** ** Detaching *)
Lemma bare_copy_cells b : flat_map cell_arrays (bare_copy b) = cell_arrays b.
Proof.
  induction b as [f pd cd subs IH] using block_induction. cbn [bare_copy cell_arrays].
  assert (E : flat_map cell_arrays (flat_map bare_copy subs) = flat_map cell_arrays subs).
  { induction IH as [|b l Hb _ IHl]; [reflexivity|]. cbn [flat_map]. now rewrite flat_map_app, Hb, IHl. }
  destruct cd as [k|]; [cbn [flat_map cell_arrays]; now rewrite app_nil_r, E|]. destruct (flat_map bare_copy subs) as [|c l] eqn:El; [exact E|]. cbn [flat_map cell_arrays app] in *. now rewrite app_nil_r.
Qed.
Lemma bare_copy_cells_l l : flat_map cell_arrays (flat_map bare_copy l) = flat_map cell_arrays l.
Proof. induction l as [|b l IH]; [reflexivity|]. cbn [flat_map]. now rewrite flat_map_app, bare_copy_cells, IH. Qed.
Lemma bare_copy_arrays b : flat_map arrays (bare_copy b) = [].
Proof.
  induction b as [f pd cd subs IH] using block_induction. cbn [bare_copy].
  assert (E : flat_map arrays (flat_map bare_copy subs) = []).
  { induction IH as [|b l Hb _ IHl]; [reflexivity|]. cbn [flat_map]. now rewrite flat_map_app, Hb, IHl. }
  destruct cd as [k|]; [cbn [flat_map arrays app]; now rewrite app_nil_r|]. destruct (flat_map bare_copy subs) as [|c l] eqn:El; [reflexivity|]. cbn [flat_map arrays app] in *. now rewrite app_nil_r.
Qed.
Lemma bare_copy_arrays_l l : flat_map arrays (flat_map bare_copy l) = [].
Proof. induction l as [|b l IH]; [reflexivity|]. cbn [flat_map]. now rewrite flat_map_app, bare_copy_arrays, IH. Qed.
Lemma detach_ok m path u s b sp ps : under None None m path = Some (u, s, b) -> flat_map arrays (bsub b) = [] -> closest m path sp -> part_at m path ps ->
  exists m' d, detach m path = Ok (m', d) /\ mesh_at d ps /\ (exists p, arrays d = [p] /\ pid p = seq 0 (length (px p))) /\ forall qs, mesh_at m qs -> mesh_at m' qs.
Proof.
  intros Hu Hb Hs0 (u2 & s2 & b2 & Hu2 & Hps). rewrite Hu in Hu2. injection Hu2 as <- <- <-. pose proof (closest_source m path sp _ Hu Hs0) as Hs. pose proof (source_under path None None m u s b Hu) as H. rewrite Hs in H. destruct H as (u' & s' & sb & p & g & H1 & H2 & H3 & H4).
  destruct (block_at_under path top m u _ _ Hu) as (c & E & Ec & _). destruct (block_at_under sp top m _ _ _ H1) as (c' & E' & Ec' & _).
  unfold detach. rewrite E. cbn [bind fst snd]. unfold the_source. rewrite Hs. cbn [bind]. rewrite E'. cbn [bind fst snd]. unfold the_frame. rewrite enter_frame, Ec', H3. cbn [bind].
  destruct sb as [fb pd cd subs]. cbn [bpd] in H2. subst pd.
  destruct (update_cells sp None None m u' s' _ renew_block (Block fb (Some (renew_ids p)) cd subs) H1 eq_refl) as (m' & A & B & E1 & _ & C1 & C2). rewrite E1. cbn [bind bpd option_map].
  eexists. eexists. split; [reflexivity|]. split; [|split].
  - unfold mesh_at. rewrite (cells_in_own None None (Some g) (renew_ids p) (bcd b) (flat_map bare_copy (bsub b)) g eq_refl (bare_copy_arrays_l _)).
    assert (Er : rows_in (Block (Some g) (Some (renew_ids p)) (bcd b) (flat_map bare_copy (bsub b))) = rows_in b).
    { destruct b as [f pd k l]. cbn [bcd bsub]. rewrite !rows_in_block. f_equal. unfold rows_l. now rewrite bare_copy_cells_l. }
    rewrite Er. replace (cells_in u s b) with (map (fun r => (Some (g, px p), r)) (rows_in b)) in Hps; [exact Hps|].
    destruct b as [f pd k l]. cbn [bsub] in Hb. cbn [cells_in]. unfold source_in in H4. cbn [bpd] in H4. set (fr := frame_in u (Block f pd k l)) in *.
    assert (Es : match pd, fr with Some q, Some h => Some (h, px q) | _, _ => s end = Some (g, px p)) by exact H4. rewrite Es, cells_in_bare_l by assumption. rewrite rows_in_block, map_app. destruct k; reflexivity.
  - exists (renew_ids p). split; [|reflexivity]. cbn [arrays app]. now rewrite bare_copy_arrays_l.
  - intros qs Hq. unfold mesh_at in *. rewrite C2. rewrite C1 in Hq. replace (cells_in u' s' (Block fb (Some (renew_ids p)) cd subs)) with (cells_in u' s' (Block fb (Some p) cd subs)); [exact Hq|].
    cbn [cells_in]. replace (frame_in u' (Block fb (Some (renew_ids p)) cd subs)) with (frame_in u' (Block fb (Some p) cd subs)) by (destruct fb; reflexivity). reflexivity.
Qed.
(** cells of blocks with points of their own get the points of the block that is detached *)
Definition lone_point (x : R) : points := Points [(x, 0, 0)]%R None [0] [true] [].
Definition two_owners : block := Block (Some standard) (Some (lone_point 1)) (Some (Cells [[0]] [0] [])) [Block None (Some (lone_point 2)) (Some (Cells [[0]] [0] [])) []].
Lemma two_owners_at : mesh_at two_owners [[(1, 0, 0)]; [(2, 0, 0)]]%R.
Proof. unfold mesh_at. cbn. repeat (constructor; cbn [fst snd node_at]; try at_standard). Qed.
Lemma detach_nested : exists m p q k l ps m' d, m = Block (Some standard) (Some p) (Some k) [Block None (Some q) (Some l) []] /\ pframe p = None /\ pframe q = None /\ mesh_at m ps /\ part_at m [] ps /\ detach m [] = Ok (m', d) /\ ~ mesh_at d ps.
Proof.
  eexists two_owners, _, _, _, _, _, _, _. do 3 (split; [reflexivity|]). split; [exact two_owners_at|]. split; [exists None, None, two_owners; split; [reflexivity|exact two_owners_at]|]. split; [lazy -[Rplus Rmult Ropp Rminus IZR]; reflexivity|].
  intros H. unfold mesh_at in H. cbn in H. inversion H as [|? ? ? ? _ H1]; subst. inversion H1 as [|? ? ? ? H2 _]; subst. cbn [fst snd] in H2. inversion H2 as [|? ? ? ? H3 _]; subst.
  destruct H3 as (x & E & Hp). injection E as <-. apply placed_iff in Hp. cbn in Hp. injection Hp. intros. lra.
Qed.
(** the points of the mesh get other indices *)
Lemma detach_ids : exists m p m' d p', bpd m = Some p /\ detach m [] = Ok (m', d) /\ bpd m' = Some p' /\ px p' = px p /\ pid p' <> pid p.
Proof. eexists high_ids, _, _, _, _. split; [reflexivity|]. split; [lazy -[Rplus Rmult Ropp Rminus IZR]; reflexivity|]. split; [reflexivity|]. split; [reflexivity|]. discriminate. Qed.
Lemma no_source path : forall up src m x, under up src m path = Some x -> (forall i u s b, i <= length path -> under up src m (firstn i path) = Some (u, s, b) -> bpd b = None) -> source_path m path = None.
Proof.
  induction path as [|j t IH]; intros up src m x Hx H; cbn [source_path under] in *.
  - rewrite (H 0 up src m) by (cbn; auto). reflexivity.
  - destruct (nth_error (bsub m) j) as [c|] eqn:E; [|reflexivity]. rewrite (IH _ _ c x Hx).
    + rewrite (H 0 up src m) by (cbn; auto with arith). reflexivity.
    + intros i u s b Hi Hu. apply (H (S i) u s b); [cbn [length]; lia|]. cbn [firstn under]. now rewrite E.
Qed.
Lemma detach_no_source m path x : under None None m path = Some x -> (forall i, i <= length path -> ~ points_on m (firstn i path)) -> detach m path = Err AttributeError.
Proof.
  intros Hu Hn. destruct x as [[u s] b]. destruct (block_at_under path top m u _ _ Hu) as (c & E & _). unfold detach, the_source. rewrite E.
  rewrite (no_source path None None m _ Hu); [reflexivity|]. intros i u' s' b' Hi Hu'. destruct (bpd b') as [p|] eqn:Ep; [|reflexivity]. exfalso. apply (Hn i Hi). exists u', s', b', p. auto.
Qed.

(** ** The frames of the points of copies *)
Lemma thread_nth {A B} (step : nat -> A -> res (nat * B)) l : forall n n' l' i a, thread step n l = Ok (n', l') -> nth_error l i = Some a ->
  exists k k' a', step k a = Ok (k', a') /\ nth_error l' i = Some a'.
Proof.
  induction l as [|x l IH]; intros n n' l' i a H E; [destruct i; discriminate|]. cbn [thread] in H. destruct (step n x) as [[k y]|] eqn:Es; [|discriminate]. cbn [bind fst snd] in H.
  destruct (thread step k l) as [[k2 l2]|] eqn:Et; [|discriminate]. cbn [bind fst snd] in H. injection H as <- <-. destruct i as [|i]; cbn [nth_error] in *.
  - injection E as <-. eauto.
  - now apply (IH k k2 l2).
Qed.
Lemma child_frames path : forall up n b n' b' u s u1 s1 b1 p, copy_child up n b = Ok (n', b') -> under u s b path = Some (u1, s1, b1) -> bpd b1 = Some p ->
  forall u' s', exists u2 s2 b2 p' g, under u' s' b' path = Some (u2, s2, b2) /\ bpd b2 = Some p' /\ pframe p' = Some g /\ origin_of g = vzero /\ axes g = axes (own_frame b1 p).
Proof.
  induction path as [|i path IH]; intros up n [f pd cd subs] n' b' u s u1 s1 b1 p H Hb Hp u' s'; cbn [copy_child] in H;
    match type of H with bind ?r _ = _ => destruct r as [[m k]|]; [|discriminate] end; cbn [bind fst snd] in H;
    match type of H with bind ?r _ = _ => destruct r as [[m' l]|] eqn:Et; [|discriminate] end; cbn [bind fst snd] in H; injection H as <- <-.
  - cbn [under] in Hb. injection Hb as <- <- <-. cbn [bpd] in Hp. subst pd. cbn [under]. eexists _, _, _, _, _. split; [reflexivity|]. cbn [bpd pframe]. split; [reflexivity|]. split; [reflexivity|].
    unfold own_frame, points_frame. cbn [bframe]. destruct (pframe p) as [[]|], f as [[]|]; split; reflexivity.
  - cbn [under bsub] in Hb |- *. destruct (nth_error subs i) as [b|] eqn:Es; [|discriminate].
    destruct (thread_nth _ _ _ _ _ _ _ Et Es) as (k1 & k2 & a' & Ha & En). rewrite En. eapply IH; eassumption.
Qed.
Lemma copy_frames m m' path u s b p : copy_mesh m = Ok m' -> under None None m path = Some (u, s, b) -> bpd b = Some p ->
  exists u' s' b' p' g, under None None m' path = Some (u', s', b') /\ bpd b' = Some p' /\ pframe p' = Some g /\ origin_of g = vzero /\ axes g = axes (own_frame b p).
Proof.
  unfold copy_mesh. intros H Hb Hp. destruct (the_frame (enter top m)) as [f|]; [|discriminate]. cbn [bind] in H. destruct (thread _ 0 (bsub m)) as [[n l]|] eqn:Et; [|discriminate]. cbn [bind snd] in H. injection H as <-.
  destruct path as [|i path]; cbn [under] in *.
  - injection Hb as <- <- <-. eexists _, _, _, _, _. split; [reflexivity|]. cbn [bpd]. rewrite Hp. cbn [option_map]. split; [reflexivity|]. split; [reflexivity|].
    unfold own_frame, points_frame. destruct (pframe p) as [[]|], (bframe m) as [[]|]; split; reflexivity.
  - destruct (nth_error (bsub m) i) as [b1|] eqn:Es; [|discriminate].
    destruct (thread_nth _ _ _ _ _ _ _ Et Es) as (k1 & k2 & a' & Ha & En). cbn [bsub]. rewrite En. eapply child_frames; eassumption.
Qed.
Lemma child_indices path : forall up n b n' b' u s u1 s1 b1 p, copy_child up n b = Ok (n', b') -> under u s b path = Some (u1, s1, b1) -> bpd b1 = Some p ->
  forall u' s', exists u2 s2 b2 p', under u' s' b' path = Some (u2, s2, b2) /\ bpd b2 = Some p' /\ pid p' = seq 0 (length (px p)).
Proof.
  induction path as [|i path IH]; intros up n [f pd cd subs] n' b' u s u1 s1 b1 p H Hb Hp u' s'; cbn [copy_child] in H;
    match type of H with bind ?r _ = _ => destruct r as [[m k]|]; [|discriminate] end; cbn [bind fst snd] in H;
    match type of H with bind ?r _ = _ => destruct r as [[m' l]|] eqn:Et; [|discriminate] end; cbn [bind fst snd] in H; injection H as <- <-.
  - cbn [under] in Hb. injection Hb as <- <- <-. cbn [bpd] in Hp. subst pd. cbn [under]. eexists _, _, _, _. split; [reflexivity|]. cbn [bpd pid]. split; reflexivity.
  - cbn [under bsub] in Hb |- *. destruct (nth_error subs i) as [b|] eqn:Es; [|discriminate].
    destruct (thread_nth _ _ _ _ _ _ _ Et Es) as (k1 & k2 & a' & Ha & En). rewrite En. eapply IH; eassumption.
Qed.
Lemma copy_indices m m' : copy_mesh m = Ok m' ->
  option_map pid (bpd m') = option_map pid (bpd m) /\
  forall i path u s b p, under None None m (i :: path) = Some (u, s, b) -> bpd b = Some p ->
    exists u' s' b' p', under None None m' (i :: path) = Some (u', s', b') /\ bpd b' = Some p' /\ pid p' = seq 0 (length (px p)).
Proof.
  unfold copy_mesh. intros H. destruct (the_frame (enter top m)) as [f|]; [|discriminate]. cbn [bind] in H. destruct (thread _ 0 (bsub m)) as [[n l]|] eqn:Et; [|discriminate]. cbn [bind snd] in H. injection H as <-.
  split; [cbn [bpd]; destruct (bpd m); reflexivity|]. intros i path u s b p Hb Hp. cbn [under] in *.
  destruct (nth_error (bsub m) i) as [b1|] eqn:Es; [|discriminate].
  destruct (thread_nth _ _ _ _ _ _ _ Et Es) as (k1 & k2 & a' & Ha & En). cbn [bsub]. rewrite En. eapply child_indices; eassumption.
Qed.
