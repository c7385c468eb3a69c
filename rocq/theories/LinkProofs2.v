(** * Proofs about [LinkModel.v]: copies that move, renumbering, standard form, detached blocks *)
From Coq Require Import Reals Lra Lia List Sorted.
From Verif Require Import Base BaseFacts TopoSpec TopoProofs3 TopoProofs4 TopoProofs5 MeshProofs6 MeshProofs8 LinkModel LinkSpec LinkProofs.
Import ListNotations.
Local Open Scope nat_scope.

Lemma move_other h t d h' r : move h t d = Ok h' -> tpd t <> Some r -> nth_error h' r = nth_error h r.
Proof.
  unfold move. destruct (tpd t) as [q|]; [|discriminate]. intros H Hn. destruct (get h q) as [x|] eqn:E; [|discriminate]. cbn [bind] in H.
  assert (q <> r) by congruence. clear E Hn. revert q r h' H H0. induction h as [|a l IH]; intros [|q] [|r] h' H Hn; cbn [set] in H; try discriminate; try congruence.
  - injection H as <-. reflexivity.
  - destruct (set l q _) as [l'|] eqn:E; [|discriminate]. cbn [bind] in H. injection H as <-. reflexivity.
  - destruct (set l q _) as [l'|] eqn:E; [|discriminate]. cbn [bind] in H. injection H as <-. cbn [nth_error]. eapply IH; [exact E|congruence].
Qed.
Lemma points_mentioned t r : tpd t = Some r -> In r (mentions t).
Proof. destruct t as [pd cd subs]. cbn. intros ->. now left. Qed.

(** ** copies *)
Lemma deep_copy : forall h t, sound t -> present h t ->
  exists h' t', copy_mesh true h t = Ok (h', t') /\ (exists e, h' = h ++ e) /\ same_mesh h h' t t' /\ sound t' /\ present h' t' /\ (forall r, In r (mentions t') -> ~ In r (mentions t)).
Proof.
  intros h t Hs Hp. destruct (copy_root_ok true h t Hs Hp) as (h' & t' & E & He & Hm & Hl & Hf); [now left|]. exists h', t'. split; [assumption|]. split; [assumption|]. split; [assumption|]. split; [assumption|]. split.
  - intros r Hr. now destruct (Hf r Hr).
  - intros r Hr Hr'. destruct (Hf r Hr) as [H1 _]. specialize (Hp r Hr'). lia.
Qed.
Lemma shallow_copy : forall h t, sound t -> present h t -> tcd t = None \/ (exists c, tcd t = Some c /\ clink c = None) ->
  exists h' t', copy_mesh false h t = Ok (h', t') /\ (exists e, h' = h ++ e) /\ same_mesh h h' t t' /\ sound t' /\ present h' t' /\ (forall r, In r (mentions t') -> ~ In r (mentions t)).
Proof.
  intros h t Hs Hp Hc. destruct (copy_root_ok false h t Hs Hp) as (h' & t' & E & He & Hm & Hl & Hf); [now right|]. exists h', t'. split; [assumption|]. split; [assumption|]. split; [assumption|]. split; [assumption|]. split.
  - intros r Hr. now destruct (Hf r Hr).
  - intros r Hr Hr'. destruct (Hf r Hr) as [H1 _]. specialize (Hp r Hr'). lia.
Qed.
(** moving one of two meshes without common objects does not change the points of the other *)
Lemma move_separate : forall h t t' d h', (forall r, In r (mentions t') -> ~ In r (mentions t)) -> move h t' d = Ok h' -> forall r, In r (mentions t) -> nth_error h' r = nth_error h r.
Proof. intros h t t' d h' Hs Hm r Hr. apply (move_other _ _ _ _ _ Hm). intros E. apply points_mentioned in E. exact (Hs r E Hr). Qed.
Lemma shallow_stale : forall h x rows d, exists h2 t2 c h3,
  copy_mesh false (fst (new_mesh h x rows)) (snd (new_mesh h x rows)) = Ok (h2, t2) /\ ~ sound t2 /\ tcd t2 = Some c /\
  move h2 t2 d = Ok h3 /\ coords h3 t2 = Ok (map (fun p => vplus p d) x) /\ source_coords h3 (Some t2) c = Ok x.
Proof.
  intros h x rows d. cbn [new_mesh fst snd copy_mesh copy_pd copy_object]. cbn [bind].
  assert (G : forall (l : heap) y, get (l ++ [y]) (length l) = Ok y) by (intros l y; apply get_Ok; now rewrite nth_error_app2, Nat.sub_diag by lia).
  assert (G2 : forall (l : heap) y z, get ((l ++ [y]) ++ [z]) (length l) = Ok y) by (intros l y z; apply get_Ok; rewrite nth_error_app1 by (rewrite app_length; cbn; lia); now apply get_Ok).
  cbn [fst snd]. rewrite G. cbn [bind fst snd copy_cell clink copy_object]. rewrite G2. cbn [bind fst snd thread_copies].
  set (h1 := h ++ [x]). do 4 eexists. split; [reflexivity|]. split.
  { intros H. apply sound_linked in H. cbn in H. destruct H as ((r & Er & [Hl|Hl]) & _); [discriminate|]. injection Er as <-. injection Hl as Hl. rewrite app_length in Hl. cbn in Hl. lia. }
  split; [reflexivity|]. split; [unfold move; cbn [tpd]; rewrite G2; cbn [bind]; rewrite <- app_assoc; cbn [app]; apply set_mid|]. split.
  - unfold coords. cbn [refs flat_map app mapM]. cbn [app]. rewrite (proj2 (get_Ok _ _ (map (fun p => vplus p d) x))); [cbn [bind concat]; now rewrite app_nil_r|]. rewrite nth_error_app2, Nat.sub_diag by lia. reflexivity.
  - cbn [source_coords clink crows]. apply get_Ok. rewrite nth_error_app2 by (rewrite app_length; cbn; lia). rewrite app_length. cbn [length]. replace (length h1 + 1 - length h1) with 1 by lia. reflexivity.
Qed.

(** ** renumbering *)
Lemma corners_map x y (f : nat -> nat) rows ps : (forall n p, In n (concat rows) -> nth_error x n = Some p -> nth_error y (f n) = Some p) -> corners x rows ps -> corners y (map (map f) rows) ps.
Proof.
  intros H Hc. unfold corners in *. induction Hc as [|row p rows ps Hr _ IH]; cbn [map]; constructor.
  - assert (G : forall n q, In n row -> nth_error x n = Some q -> nth_error y (f n) = Some q) by (intros n q Hn; apply H; cbn [concat]; apply in_or_app; now left). clear -Hr G. induction Hr; cbn [map]; constructor; [apply G; [now left|assumption]|]. apply IHHr. intros. apply G; [now right|assumption].
  - apply IH. intros n q Hn. apply H. cbn [concat]. apply in_or_app. now right.
Qed.
Lemma sorted_nodup l : StronglySorted lt l -> NoDup l.
Proof. induction 1 as [|a l Hs IH Hf]; constructor; [|assumption]. intros Hin. rewrite Forall_forall in Hf. specialize (Hf a Hin). lia. Qed.
Lemma nummrg_ok h r c x : nth_error h r = Some x -> Forall (Forall (fun n => n < length x)) (crows c) ->
  exists y c', nummrg h r c = Ok (h ++ [y], Tree (Some (length h)) (Some c') []) /\ clink c' = clink c /\ mapM (get x) (np_unique (concat (crows c))) = Ok y /\ forall ps, corners x (crows c) ps -> corners y (crows c') ps.
Proof.
  intros Hx Hr. unfold nummrg. set (inds := np_unique (concat (crows c))). rewrite (proj2 (get_Ok h r x) Hx). cbn [bind].
  destruct (mapM_total (get x) inds) as [y Hy].
  { intros n Hn. apply get_lt. apply (proj1 (np_unique_in _ _)) in Hn. apply in_concat in Hn as (row & H1 & H2). rewrite Forall_forall in Hr. specialize (Hr row H1). rewrite Forall_forall in Hr. auto. }
  rewrite Hy. cbn [bind]. assert (Hd : NoDup inds) by (apply sorted_nodup, np_unique_sorted).
  assert (Hpos : forall n, In n (concat (crows c)) -> dget (inds_to_invmap_as_dict inds) n = Ok (position inds n) /\ nth_error inds (position inds n) = Some n).
  { intros n Hn. apply (proj2 (np_unique_in _ _)) in Hn. apply In_nth_error in Hn as [i Hi]. destruct (position_ok inds i n Hd Hi) as [E1 E2]. now rewrite E1, E2. }
  rewrite (remap_topo_ok (crows c) _ (position inds)); [|intros n Hn; apply entry_in_concat in Hn; now apply Hpos]. cbn [bind]. do 2 eexists. split; [reflexivity|]. cbn [clink crows]. split; [reflexivity|]. split; [reflexivity|].
  intros ps. apply corners_map. intros n p Hn Hp. destruct (Hpos n Hn) as [_ Hi]. destruct (mapM_nth_error _ _ _ _ _ Hy Hi) as (q & Hq & Eq). apply get_Ok in Eq. congruence.
Qed.
Lemma used_points (x : list vec) (c : cell) (y : list vec) : mapM (get x) (np_unique (concat (crows c))) = Ok y ->
  StronglySorted lt (np_unique (concat (crows c))) /\ (forall n, In n (np_unique (concat (crows c))) <-> In n (concat (crows c))) /\ Forall2 (fun n p => nth_error x n = Some p) (np_unique (concat (crows c))) y.
Proof. intros H. split; [apply np_unique_sorted|]. split; [intros n; apply np_unique_in|]. apply mapM_Ok in H. induction H; constructor; [now apply get_Ok|assumption]. Qed.
Lemma last_nth (h : heap) y : nth_error (h ++ [y]) (length h) = Some y.
Proof. now rewrite nth_error_app2, Nat.sub_diag by lia. Qed.
Lemma nummrg_unlinked : forall h r c x, nth_error h r = Some x -> Forall (Forall (fun n => n < length x)) (crows c) -> clink c = None ->
  exists h' t' c', nummrg h r c = Ok (h', t') /\ tcd t' = Some c' /\ sound t' /\ (forall ps, corners x (crows c) ps -> seen h' (Some t') c' ps) /\
    exists inds y, StronglySorted lt inds /\ (forall n, In n inds <-> In n (concat (crows c))) /\ Forall2 (fun n p => nth_error x n = Some p) inds y /\ tpd t' = Some (length h) /\ h' = h ++ [y].
Proof.
  intros h r c x Hx Hr Hl. destruct (nummrg_ok h r c x Hx Hr) as (y & c' & E & El & Hy & Hc). do 3 eexists. split; [exact E|]. split; [reflexivity|]. split; [|split].
  - apply sound_linked. cbn. split; [|exact I]. exists (length h). split; [reflexivity|]. left. congruence.
  - intros ps Hps. exists y. split; [|now apply Hc]. unfold source_coords. rewrite El, Hl. unfold coords. cbn [refs flat_map app mapM]. rewrite (proj2 (get_Ok _ _ y) (last_nth h y)). cbn [bind concat]. now rewrite app_nil_r.
  - apply used_points in Hy as (H1 & H2 & H3). exists (np_unique (concat (crows c))), y. auto 6.
Qed.
Lemma nummrg_stale : forall h r c x, nth_error h r = Some x -> Forall (Forall (fun n => n < length x)) (crows c) -> clink c = Some (Pts r) ->
  exists h' t' c', nummrg h r c = Ok (h', t') /\ tcd t' = Some c' /\ ~ sound t' /\ source_coords h' (Some t') c' = Ok x /\
    (forall ps y r', tpd t' = Some r' -> nth_error h' r' = Some y -> corners x (crows c) ps -> corners y (crows c') ps) /\
    exists inds y, StronglySorted lt inds /\ (forall n, In n inds <-> In n (concat (crows c))) /\ Forall2 (fun n p => nth_error x n = Some p) inds y /\ tpd t' = Some (length h) /\ h' = h ++ [y].
Proof.
  intros h r c x Hx Hr Hl. destruct (nummrg_ok h r c x Hx Hr) as (y & c' & E & El & Hy & Hc). assert (Hlt : r < length h) by (apply nth_error_Some; congruence). do 3 eexists. split; [exact E|]. split; [reflexivity|]. split; [|split; [|split]].
  - intros H. apply sound_linked in H. cbn in H. destruct H as ((q & Eq & Hq) & _). injection Eq as <-. rewrite El, Hl in Hq. destruct Hq as [Hq|Hq]; [discriminate|]. injection Hq as Hq. lia.
  - unfold source_coords. rewrite El, Hl. apply get_Ok. now rewrite nth_error_app1.
  - intros ps y' r' Er Ey. cbn [tpd] in Er. injection Er as <-. rewrite last_nth in Ey. injection Ey as <-. apply Hc.
  - apply used_points in Hy as (H1 & H2 & H3). exists (np_unique (concat (crows c))), y. auto 6.
Qed.
(** three points, one line between the last two *)
Lemma nummrg_wrong : exists h x c h' t' c' ps, nth_error h 0 = Some x /\ Forall (Forall (fun n => n < length x)) (crows c) /\ sound (Tree (Some 0) (Some c) []) /\
  nummrg h 0 c = Ok (h', t') /\ tcd t' = Some c' /\ seen h (Some (Tree (Some 0) (Some c) [])) c ps /\ ~ seen h' (Some t') c' ps.
Proof.
  set (a := (0, 0, 0)%R). set (b := (1, 0, 0)%R). set (e := (2, 0, 0)%R).
  exists [[a; b; e]], [a; b; e], (Cell [[1; 2]] (Some (Pts 0))). do 3 eexists. exists [[b; e]]. split; [reflexivity|]. split; [repeat constructor|]. split; [apply sound_linked; cbn; eauto 10|]. split; [reflexivity|]. split; [reflexivity|]. split.
  - exists [a; b; e]. split; [reflexivity|]. repeat constructor.
  - intros (x & Hx & Hc). cbn in Hx. injection Hx as <-. cbn [crows] in Hc. inversion Hc as [|? ? ? ? H1 _]; subst. inversion H1 as [|? ? ? ? H2 _]; subst. cbn in H2. injection H2 as H2. unfold a, b in *. lra.
Qed.
Lemma nummrg_all_used : forall h r c x, nth_error h r = Some x -> Forall (Forall (fun n => n < length x)) (crows c) -> clink c = Some (Pts r) -> (forall n, n < length x -> In n (concat (crows c))) ->
  exists h' t' c', nummrg h r c = Ok (h', t') /\ tcd t' = Some c' /\ crows c' = crows c /\ forall ps, corners x (crows c) ps -> seen h' (Some t') c' ps.
Proof.
  intros h r c x Hx Hr Hl Ha. assert (Hlt : r < length h) by (apply nth_error_Some; congruence). unfold nummrg.
  assert (Eu : np_unique (concat (crows c)) = seq 0 (length x)).
  { apply np_unique_ext.
    - assert (G : forall n s, StronglySorted lt (seq s n)). { induction n as [|n IH]; intros s; cbn [seq]; constructor; [apply IH|]. apply Forall_forall. intros k Hk. apply in_seq in Hk. lia. } apply G.
    - intros n. rewrite in_seq. split; [intros [_ H]; apply Ha; lia|]. intros Hn. apply in_concat in Hn as (row & H1 & H2). rewrite Forall_forall in Hr. specialize (Hr row H1). rewrite Forall_forall in Hr. specialize (Hr n H2). lia. }
  rewrite Eu, (proj2 (get_Ok h r x) Hx). cbn [bind]. destruct (mapM_total (get x) (seq 0 (length x))) as [y Hy]; [intros n Hn; apply get_lt; apply in_seq in Hn; lia|]. rewrite Hy. cbn [bind]. rewrite (ids_remap (crows c) (length x) Hr). cbn [bind].
  do 3 eexists. split; [reflexivity|]. split; [reflexivity|]. split; [reflexivity|]. intros ps Hps. exists x. split; [|exact Hps]. unfold source_coords. cbn [clink]. rewrite Hl. apply get_Ok. now rewrite nth_error_app1.
Qed.

(** ** the standard form *)
Definition slice (X x : list vec) (off : nat) : Prop := exists pre post, X = pre ++ x ++ post /\ length pre = off.
Lemma slice_nth X x off n p : slice X x off -> nth_error x n = Some p -> nth_error X (off + n) = Some p.
Proof. intros (pre & post & -> & <-) H. rewrite nth_error_app2 by lia. replace (length pre + n - length pre) with n by lia. rewrite nth_error_app1; [assumption|]. apply nth_error_Some. congruence. Qed.
Definition renumbered (h : heap) (X : list vec) (T : option tree) (a b : option tree * cell) : Prop :=
  fst b = T /\ clink (snd b) = None /\ exists s r x, fst a = Some s /\ tpd s = Some r /\ nth_error h r = Some x /\ forall ps, corners x (crows (snd a)) ps -> corners X (crows (snd b)) ps.
Definition ranged (h : heap) (a : option tree * cell) : Prop := forall s r x, fst a = Some s -> tpd s = Some r -> nth_error h r = Some x -> Forall (Forall (fun n => n < length x)) (crows (snd a)).
Definition source_at (h : heap) (X : list vec) (up : option tree) (src : option (nat * nat)) : Prop :=
  match up, src with
  | Some s, Some (off, n) => exists r x, tpd s = Some r /\ nth_error h r = Some x /\ length x = n /\ slice X x off
  | None, None => True
  | _, _ => False
  end.
Lemma standard_ok h X t : forall up src next xs, source_at h X up src -> mapM (get h) (refs t) = Ok xs -> slice X (concat xs) next ->
  Forall (fun x => length x <> 1) xs -> Forall (ranged h) (holders up t) -> (forall c, In (None, c) (holders up t) -> False) ->
  exists t', standard h src next t = Ok (next + length (concat xs), t') /\ refs t' = [] /\ tpd t' = None /\ forall T, Forall2 (renumbered h X T) (holders up t) (holders T t').
Proof.
  induction t as [pd cd subs IH] using tree_induction. intros up src next xs Hsrc Hxs Hsl Hone Hrng Hsome. cbn [standard].
  set (here := match pd with Some _ => Some (Tree pd cd subs) | None => up end). cbn [refs] in Hxs. rewrite mapM_app in Hxs.
  assert (Hn : exists n1 src1 x1 ys, number_points h next src pd = Ok (n1, src1) /\ source_at h X here src1 /\ mapM (get h) (flat_map refs subs) = Ok ys /\ concat xs = x1 ++ concat ys /\ n1 = next + length x1 /\ Forall (fun x => length x <> 1) ys).
  { unfold here. destruct pd as [r|]; cbn [number_points mapM] in *.
    - destruct (get h r) as [x|] eqn:Ex; [|discriminate]. cbn [bind] in *. destruct (mapM (get h) (flat_map refs subs)) as [ys|] eqn:Ey; [|discriminate]. cbn [bind] in Hxs. injection Hxs as <-. inversion Hone; subst.
      destruct (Nat.eqb_spec (length x) 1) as [E|_]; [contradiction|]. cbn [negb guard bind]. do 2 eexists. exists x, ys. split; [reflexivity|]. split; [|cbn [app concat]; auto 6].
      cbn. exists r, x. split; [reflexivity|]. split; [now apply get_Ok|]. split; [reflexivity|]. destruct Hsl as (pre & post & -> & E). cbn [app concat]. exists pre, (concat ys ++ post). split; [now rewrite <- app_assoc|assumption].
    - cbn [bind] in Hxs. destruct (mapM (get h) (flat_map refs subs)) as [ys|] eqn:Ey; [|discriminate]. cbn [bind app] in Hxs. injection Hxs as <-. exists next, src, [], ys. cbn [length app]. rewrite Nat.add_0_r. auto 6. }
  destruct Hn as (n1 & src1 & x1 & ys & -> & Hs1 & Hys & Ecat & -> & Hone1). cbn [bind fst snd].
  cbn [holders] in Hrng, Hsome |- *. fold here in Hrng, Hsome |- *. apply Forall_app in Hrng as [Hr1 Hr2].
  assert (Hcd : exists cd', renumber src1 cd = Ok cd' /\ forall T, Forall2 (renumbered h X T) (match cd with Some c => [(here, c)] | None => [] end) (match cd' with Some c => [(T, c)] | None => [] end)).
  { destruct cd as [c|]; cbn [renumber]; [|exists None; auto]. unfold source_at in Hs1. destruct here as [s|] eqn:Eh; [|exfalso; apply (Hsome c); now left]. destruct src1 as [[off n]|]; [|contradiction]. destruct Hs1 as (r & x & Hr & Hx & <- & Hslx).
    inversion Hr1 as [|? ? Hrc _]; subst. specialize (Hrc s r x eq_refl Hr Hx). cbn [snd] in Hrc.
    rewrite (remap_topo_ok (crows c) _ (fun n => off + n)).
    2:{ intros n Hn. cbn [mlookup]. apply get_Ok. apply entry_in_concat in Hn. apply in_concat in Hn as (row & H1 & H2). rewrite Forall_forall in Hrc. specialize (Hrc row H1). rewrite Forall_forall in Hrc. specialize (Hrc n H2). rewrite (nth_error_nth' _ 0) by now rewrite seq_length. now rewrite seq_nth. }
    cbn [bind]. eexists. split; [reflexivity|]. intros T. constructor; [|constructor]. split; [reflexivity|]. split; [reflexivity|]. exists s, r, x. split; [reflexivity|]. split; [assumption|]. split; [assumption|]. cbn [snd crows]. intros ps. apply corners_map. intros n p _. now apply slice_nth. }
  destruct Hcd as (cd' & -> & Hcd). cbn [bind].
  assert (Hsub : slice X (concat ys) (next + length x1)). { destruct Hsl as (pre & post & -> & <-). rewrite Ecat. exists (pre ++ x1), post. rewrite app_length. split; [now rewrite <- !app_assoc|reflexivity]. }
  assert (Hth : forall l ys next, Forall (fun t => forall up src next xs, source_at h X up src -> mapM (get h) (refs t) = Ok xs -> slice X (concat xs) next ->
     Forall (fun x => length x <> 1) xs -> Forall (ranged h) (holders up t) -> (forall c, In (None, c) (holders up t) -> False) ->
     exists t', standard h src next t = Ok (next + length (concat xs), t') /\ refs t' = [] /\ tpd t' = None /\ forall T, Forall2 (renumbered h X T) (holders up t) (holders T t')) l ->
     mapM (get h) (flat_map refs l) = Ok ys -> slice X (concat ys) next -> Forall (fun x => length x <> 1) ys -> Forall (ranged h) (flat_map (holders here) l) -> (forall c, In (None, c) (flat_map (holders here) l) -> False) ->
     exists l', thread_numbers (standard h src1) next l = Ok (next + length (concat ys), l') /\ flat_map refs l' = [] /\ forall T, Forall2 (renumbered h X T) (flat_map (holders here) l) (flat_map (holders T) l')).
  { clear -Hs1. induction l as [|s l IHl]; intros ys next H1 Hys Hsl Hone Hr Hso; cbn [thread_numbers flat_map] in *.
    - cbn in Hys. injection Hys as <-. cbn. rewrite Nat.add_0_r. eexists. split; [reflexivity|]. split; [reflexivity|]. intros T. constructor.
    - inversion H1 as [|? ? H1a H1b]; subst. rewrite mapM_app in Hys. destruct (mapM (get h) (refs s)) as [y1|] eqn:E1; [|discriminate]. cbn [bind] in Hys. destruct (mapM (get h) (flat_map refs l)) as [y2|] eqn:E2; [|discriminate]. cbn [bind] in Hys. injection Hys as <-.
      rewrite concat_app in *. apply Forall_app in Hone as [Ho1 Ho2]. apply Forall_app in Hr as [Hr1 Hr2]. destruct Hsl as (pre & post & EX & <-).
      destruct (H1a here src1 (length pre) y1 Hs1 eq_refl) as (s' & -> & Hrf & _ & Hrel); [exists pre, (concat y2 ++ post); split; [rewrite EX; now rewrite <- app_assoc|reflexivity]|assumption|assumption|intros c Hc; apply (Hso c); apply in_or_app; now left|]. cbn [bind fst snd].
      destruct (IHl y2 (length pre + length (concat y1)) H1b eq_refl) as (l' & -> & Hrf2 & Hrel2); [exists (pre ++ concat y1), post; rewrite app_length; split; [rewrite EX; now rewrite <- !app_assoc|reflexivity]|assumption|assumption|intros c Hc; apply (Hso c); apply in_or_app; now right|]. cbn [bind fst snd].
      eexists. split; [rewrite app_length, Nat.add_assoc; reflexivity|]. cbn [flat_map]. split; [now rewrite Hrf, Hrf2|]. intros T. apply Forall2_app; auto. }
  destruct (Hth subs ys (next + length x1) IH Hys Hsub Hone1 Hr2) as (l' & -> & Hrf & Hrel); [intros c Hc; apply (Hsome c); apply in_or_app; now right|]. cbn [bind fst snd].
  eexists. split; [rewrite Ecat, app_length, Nat.add_assoc; reflexivity|]. cbn [refs app tpd]. split; [assumption|]. split; [reflexivity|]. intros T. cbn [holders]. apply Forall2_app; auto.
Qed.
Lemma standard_form : forall h t, sound t -> present h t -> refs t <> [] ->
  (forall r x, In r (refs t) -> nth_error h r = Some x -> length x <> 1) ->
  (forall s c r x, In (Some s, c) (holders None t) -> tpd s = Some r -> nth_error h r = Some x -> Forall (Forall (fun n => n < length x)) (crows c)) ->
  exists h' t', to_standard_form h t = Ok (h', t') /\ sound t' /\ present h' t' /\ refs t' = [length h] /\ (exists X, coords h t = Ok X /\ h' = h ++ [X]) /\
    Forall2 (fun a b => forall ps, seen h (fst a) (snd a) ps -> seen h' (fst b) (snd b) ps) (holders None t) (holders None t').
Proof.
  intros h t Hs Hp Hne Hone Hr. pose proof (proj1 (linked_holders t None None eq_refl) (proj1 (sound_linked t) Hs)) as Hl. unfold to_standard_form.
  replace (match refs t with [] => false | _ => true end) with true by (destruct (refs t); congruence). cbn [guard bind].
  assert (Hm : forall r, In r (refs t) -> In r (mentions t)). { intros r Hr'. clear -Hr'. revert Hr'. induction t as [pd cd subs IH] using tree_induction. cbn [refs mentions]. intros Hr. apply in_app_or in Hr as [Hr|Hr]; [apply in_or_app; now left|]. apply in_or_app. right. apply in_or_app. right. apply in_flat_map in Hr as (s & H1 & H2). apply in_flat_map. exists s. rewrite Forall_forall in IH. auto. }
  destruct (mapM_total (get h) (refs t)) as [xs Hxs]; [intros r Hr'; apply get_lt; auto|]. unfold coords. rewrite Hxs. cbn [bind].
  destruct (standard_ok h (concat xs) t None None 0 xs) as (t' & E & Hrf & Htp & Hrel).
  - exact I.
  - exact Hxs.
  - exists [], []. now rewrite app_nil_r.
  - apply Forall_forall. intros x Hx. apply In_nth_error in Hx as [i Hi]. destruct (mapM_nth_error_r _ _ _ _ _ Hxs Hi) as (r & Hr1 & Hr2). apply (Hone r); [eapply nth_error_In; eassumption|now apply get_Ok].
  - apply Forall_forall. intros [src c] Hin s r x Es. cbn [fst snd] in *. subst src. now apply Hr.
  - intros c Hc. destruct (Hl None c Hc) as (s & r & H & _). discriminate.
  - rewrite E. cbn [bind snd]. destruct t' as [pd' cd' subs']. cbn [tpd] in Htp. subst pd'. do 2 eexists. split; [reflexivity|]. cbn [refs app] in Hrf. set (T := Tree (Some (length h)) cd' subs').
    assert (ET : refs T = [length h]) by (unfold T; cbn [refs app]; now rewrite Hrf). specialize (Hrel (Some T)). change (holders (Some T) (Tree None cd' subs')) with (holders None T) in Hrel.
    assert (HT : sound T). { apply sound_linked. apply (linked_holders T None None eq_refl). intros src c Hin. apply In_nth_error in Hin as [i Hi]. destruct (Forall2_nth_error_r _ _ _ _ _ Hrel Hi) as (a & _ & E1 & E2 & _). cbn [fst snd] in *. exists T, (length h). auto. }
    assert (Hc : coords (h ++ [concat xs]) T = Ok (concat xs)) by (unfold coords; rewrite ET; cbn [mapM]; rewrite (proj2 (get_Ok _ _ (concat xs)) (last_nth h _)); cbn [bind concat]; now rewrite app_nil_r).
    split; [exact HT|]. split; [|split; [exact ET|split; [eauto|]]].
    + assert (Hcl : forall src c, In (src, c) (holders None T) -> clink c = None). { intros src c Hin. apply In_nth_error in Hin as [i Hi]. destruct (Forall2_nth_error_r _ _ _ _ _ Hrel Hi) as (a & _ & _ & E2 & _). exact E2. }
      assert (G : forall t up, (forall src c, In (src, c) (holders up t) -> clink c = None) -> mentions t = refs t).
      { induction t0 as [pd cd subs IH] using tree_induction. intros up H. cbn [mentions refs holders] in *. f_equal. destruct cd as [[rows [l|]]|]; cbn [app].
        - specialize (H _ (Cell rows (Some l)) ltac:(apply in_or_app; left; now left)). discriminate.
        - assert (H' : forall s, In s subs -> mentions s = refs s). { intros s Hs'. rewrite Forall_forall in IH. eapply IH; [assumption|]. intros src c Hin. eapply H. apply in_or_app. right. apply in_flat_map. eauto. } clear -H'. induction subs; cbn [flat_map]; [reflexivity|]. rewrite (H' a) by now left. f_equal. apply IHsubs. intros. apply H'. now right.
        - assert (H' : forall s, In s subs -> mentions s = refs s). { intros s Hs'. rewrite Forall_forall in IH. eapply IH; [assumption|]. intros src c Hin. eapply H. apply in_or_app. right. apply in_flat_map. eauto. } clear -H'. induction subs; cbn [flat_map]; [reflexivity|]. rewrite (H' a) by now left. f_equal. apply IHsubs. intros. apply H'. now right. }
      intros r Hr'. rewrite (G T None Hcl), ET in Hr'. destruct Hr' as [<-|[]]. rewrite app_length. cbn. lia.
    + assert (G : forall a b, In a (holders None t) -> renumbered h (concat xs) (Some T) a b -> forall ps, seen h (fst a) (snd a) ps -> seen (h ++ [concat xs]) (fst b) (snd b) ps).
      { intros [src c] [src' c'] Ha (E1 & E2 & s & r & x & E3 & E4 & E5 & E6) ps (z & Hz & Hps). cbn [fst snd] in *. subst src src'. exists (concat xs). split; [unfold source_coords; now rewrite E2|]. apply E6.
        destruct (Hs h Hp (Some s) c Ha) as (s0 & r0 & x0 & y & Es0 & Hr0 & Hx0 & Hz0). injection Es0 as <-. rewrite E4 in Hr0. injection Hr0 as <-. rewrite E5 in Hx0. injection Hx0 as <-. rewrite Hz in Hz0. injection Hz0 as ->.
        specialize (Hr s c r x Ha E4 E5). clear -Hr Hps. unfold corners in *. revert Hr. induction Hps as [|row p rows ps H _ IH]; constructor; inversion Hr as [|? ? Hr1 Hr2]; subst; [|auto]. clear -H Hr1. induction H; constructor; inversion Hr1; subst; auto. now rewrite nth_error_app1 in H. }
      clear -Hrel G. revert G. induction Hrel as [|a b l l' H _ IH]; constructor; [apply G; [now left|assumption]|]. apply IH. intros. apply (G a0); [now right|assumption|assumption].
Qed.

(** ** detached blocks *)
Lemma detach_sound : forall r t, tcd t = None -> sound (detach r t) /\ forall q, In q (mentions (detach r t)) -> q = r.
Proof.
  intros r [pd cd subs] Hc. cbn [tcd] in Hc. subst cd. unfold detach. cbn [tcd tsub option_map].
  assert (G : forall t, linked (Some r) (detach_child r t) /\ forall q, In q (mentions (detach_child r t)) -> q = r).
  { induction t as [p cd l IH] using tree_induction. cbn [detach_child]. split.
    - apply linked_tree. cbn [points_here]. split; [destruct cd; cbn; eauto|]. apply Forall_map. eapply Forall_impl; [|exact IH]. now intros s [H _].
    - cbn [mentions]. intros q Hq. cbn [app] in Hq. apply in_app_or in Hq as [Hq|Hq]; [destruct cd; cbn in Hq; [destruct Hq as [Hq|[]]; congruence|destruct Hq]|]. apply in_flat_map in Hq as (s & H1 & H2). apply in_map_iff in H1 as (s0 & <- & H1). rewrite Forall_forall in IH. now apply (IH s0 H1). }
  split.
  - apply sound_linked. apply linked_tree. split; [exact I|]. cbn [points_here]. apply Forall_map. apply Forall_forall. intros s _. apply G.
  - cbn [mentions app]. intros q [Hq|Hq]; [congruence|]. apply in_flat_map in Hq as (s & H1 & H2). apply in_map_iff in H1 as (s0 & <- & H1). now apply (G s0).
Qed.
Lemma detach_lost : forall r t c, tcd t = Some c -> exists c', tcd (detach r t) = Some c' /\ crows c' = crows c /\ (forall h src, source_coords h src c' = Err AttributeError) /\ ~ sound (detach r t).
Proof.
  intros r [pd cd subs] c Hc. cbn [tcd] in Hc. subst cd. eexists. split; [reflexivity|]. split; [reflexivity|]. split; [reflexivity|]. intros H. apply sound_linked in H. apply linked_tree in H as [(q & _ & [H|H]) _]; discriminate.
Qed.
Lemma detach_shared : forall h t r x d, tpd t = Some r -> nth_error h r = Some x ->
  exists h', move h (detach r t) d = Ok h' /\ nth_error h' r = Some (map (fun p => vplus p d) x).
Proof.
  intros h t r x d Ht Hx. unfold move, detach. cbn [tpd]. rewrite (proj2 (get_Ok _ _ _) Hx). cbn [bind]. destruct (nth_error_split h r Hx) as (l & k & -> & <-). rewrite set_mid. eexists. split; [reflexivity|]. now rewrite nth_error_app2, Nat.sub_diag by lia.
Qed.
