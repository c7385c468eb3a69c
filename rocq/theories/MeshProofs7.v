(** * Proofs about moving and centring meshes *)
From Coq Require Import Reals Lra Lia ZArith List String Sorted.
From Verif Require Import Base BaseFacts TopoSpec TopoProofs4 TopoProofs5 NodalProofs4 TrSpec FrameProofs FrameProofs2 MeshModel MeshSpec MeshProofs MeshProofs2 MeshProofs3 MeshProofs4 MeshProofs5 MeshProofs6.
Import ListNotations.
Local Open Scope nat_scope.

(** ** Changing a block of a mesh *)
Lemma set_split {A} (l : list A) i x y : nth_error l i = Some x -> exists l1 l2, l = l1 ++ x :: l2 /\ length l1 = i /\ set l i y = Ok (l1 ++ y :: l2).
Proof.
  revert i. induction l as [|a l IH]; intros [|i] H; cbn [nth_error] in H; try discriminate.
  - injection H as ->. exists [], l. auto.
  - destruct (IH i H) as (l1 & l2 & -> & <- & E). exists (a :: l1), l2. cbn [set]. rewrite E. auto.
Qed.
Lemma nth_error_mid {A} (l1 l2 : list A) x : nth_error (l1 ++ x :: l2) (length l1) = Some x.
Proof. rewrite nth_error_app2 by lia. now rewrite Nat.sub_diag. Qed.
Lemma update_cells path : forall up src m u s b (F : block -> res block) b', under up src m path = Some (u, s, b) -> F b = Ok b' ->
  exists m' A B, update_at m path F = Ok m' /\ under up src m' path = Some (u, s, b') /\
    cells_in up src m = A ++ cells_in u s b ++ B /\ cells_in up src m' = A ++ cells_in u s b' ++ B.
Proof.
  induction path as [|i t IH]; intros up src m u s b F b' H HF; cbn [under update_at] in *.
  - injection H as -> -> ->. exists b', [], []. rewrite !app_nil_r. auto.
  - destruct m as [f pd cd subs]. cbn [bsub] in H. destruct (nth_error subs i) as [c|] eqn:E; [|discriminate].
    destruct (IH _ _ _ _ _ _ F b' H HF) as (c' & A & B & E1 & H1 & H2 & H3). pose proof (proj2 (get_Ok subs i c) E) as Eg. rewrite Eg. cbn [bind]. rewrite E1. cbn [bind].
    destruct (set_split subs i c c' E) as (l1 & l2 & -> & <- & ->). cbn [bind]. eexists. 
    assert (Hfr : forall l, frame_in up (Block f pd cd l) = frame_in up (Block f pd cd (l1 ++ c :: l2))) by (destruct f, pd; reflexivity).
    assert (Hsr : forall l, source_in up src (Block f pd cd l) = source_in up src (Block f pd cd (l1 ++ c :: l2))) by (intros l; unfold source_in; cbn [bpd]; now rewrite Hfr).
    set (fr := frame_in up (Block f pd cd (l1 ++ c :: l2))) in *. set (sr := source_in up src (Block f pd cd (l1 ++ c :: l2))) in *.
    assert (Hc : forall l, cells_in up src (Block f pd cd l) = (match cd with Some k => map (fun r => (sr, r)) (nodes k) | None => [] end) ++ flat_map (cells_in fr sr) l).
    { intros l. cbn [cells_in]. rewrite (Hfr l). fold fr. unfold sr, source_in. cbn [bpd]. fold fr. reflexivity. }
    exists ((match cd with Some k => map (fun r => (sr, r)) (nodes k) | None => [] end) ++ flat_map (cells_in fr sr) l1 ++ A), (B ++ flat_map (cells_in fr sr) l2).
    split; [reflexivity|]. split; [|split].
    + cbn [under bsub]. rewrite nth_error_mid, Hfr, Hsr. exact H1.
    + rewrite Hc, flat_map_app. cbn [flat_map]. rewrite H2. now rewrite <- !app_assoc.
    + rewrite Hc, flat_map_app. cbn [flat_map]. rewrite H3. now rewrite <- !app_assoc.
Qed.
Lemma cells_in_own up src f p cd subs g : frame_in up (Block f (Some p) cd subs) = Some g -> flat_map arrays subs = [] ->
  cells_in up src (Block f (Some p) cd subs) = map (fun r => (Some (g, px p), r)) (rows_in (Block f (Some p) cd subs)).
Proof. intros E Ha. cbn [cells_in]. rewrite E, cells_in_bare_l by assumption. rewrite rows_in_block, map_app. destruct cd; reflexivity. Qed.
Lemma moved_rows g d xs xs' rs ps : (forall n x, nth_error xs n = Some x -> exists x', nth_error xs' n = Some x' /\ place g x' = vplus (place g x) d) ->
  Forall2 (fun c qs => Forall2 (node_at (fst c)) (snd c) qs) (map (fun r => (Some (g, xs), r)) rs) ps ->
  Forall2 (fun c qs => Forall2 (node_at (fst c)) (snd c) qs) (map (fun r => (Some (g, xs'), r)) rs) (map (map (fun q => vplus q d)) ps).
Proof.
  intros Hx. revert ps. induction rs as [|r rs IH]; intros ps H; inversion H as [|? qs ? ps' Hq Hps]; subst; cbn [map]; constructor; [|now apply IH].
  cbn [fst snd] in *. clear -Hx Hq. induction Hq as [|n q r qs (x & E & Hp) _ IHr]; cbn [map]; constructor; [|assumption].
  destruct (Hx n x E) as (x' & E' & Hp'). exists x'. split; [assumption|]. apply placed_iff in Hp. apply placed_iff. now rewrite Hp', Hp.
Qed.
Lemma set_x_same x f p cd subs : length x = length (px p) ->
  set_x x (Block f (Some p) cd subs) = Ok (Block f (Some (Points x (pframe p) (pid p) (pact p) (pfields p))) cd subs).
Proof.
  intros H. unfold set_x. replace (match x with [y] => repeat y (length (px p)) | _ => x end) with x; [|destruct x as [|y [|z x]]; auto; cbn in H; now rewrite <- H].
  rewrite H, Nat.eqb_refl. reflexivity.
Qed.
Lemma set_x_fails x f p cd subs : length x <> length (px p) -> length x <> 1 -> set_x x (Block f (Some p) cd subs) = Err ValueError.
Proof.
  intros H H1. unfold set_x. replace (match x with [y] => repeat y (length (px p)) | _ => x end) with x; [|destruct x as [|y [|z x]]; auto; now destruct H1].
  apply Nat.eqb_neq in H. now rewrite H.
Qed.
Lemma update_fails path (F : block -> res block) e : forall up src m u s b, under up src m path = Some (u, s, b) -> F b = Err e -> update_at m path F = Err e.
Proof.
  induction path as [|i t IH]; intros up src m u s b H HF; cbn [under update_at] in *.
  - now injection H as -> -> ->.
  - destruct m as [fm pd cd subs]. cbn [bsub] in H. destruct (nth_error subs i) as [c|] eqn:E; [|discriminate]. apply get_Ok in E. rewrite E. cbn [bind]. rewrite (IH _ _ _ _ _ _ H HF). reflexivity.
Qed.
Lemma own_points c f p cd subs g : frame_in (frame_here c) (Block f (Some p) cd subs) = Some g -> flat_map arrays subs = [] -> orthonormal (axes g) ->
  points_of c (Block f (Some p) cd subs) = Ok (Cloud (px p) g (Some (map Z.of_nat (pid p)))).
Proof.
  intros E Ha Ho. rewrite (points_of_value c _ g E) by discriminate. cbn [arrays framed app]. rewrite E, Ha, framed_bare_l by assumption. unfold converted. cbn [flat_map map concat fst snd dframe]. rewrite !app_nil_r.
  do 2 f_equal. rewrite <- (map_id (px p)) at 2. apply map_ext. intros x. now apply vshow_same.
Qed.
Lemma subs_bare f p cd subs : arrays (Block f (Some p) cd subs) = [p] -> flat_map arrays subs = [].
Proof. cbn [arrays app]. intros H. now injection H. Qed.
Lemma displaced_map d (ps : list (list vec)) : Forall2 (Forall2 (displaced d)) ps (map (map (fun x => vplus x d)) ps).
Proof. apply Forall2_map_self. intros qs. apply Forall2_map_self. intros q. now apply displaced_iff. Qed.
Lemma motion_place g f w x : orthonormal (axes g) -> place g (vplus x (match f with Some _ => vshow f w (Some g) | None => w end)) = vplus (place g x) (motion g f w).
Proof.
  intros Ho. rewrite place_plus. unfold motion. destruct f as [h|]; [|reflexivity]. rewrite vshow_value. cbn [axes_opt direction_in]. now rewrite direction_mvec.
Qed.
Lemma move_own m path u s b p g w f : under None None m path = Some (u, s, b) -> bpd b = Some p -> arrays b = [p] -> frame_in u b = Some g -> orthonormal (axes g) ->
  exists m', mesh_move m path (Array w) f = Ok m' /\ part_moved m path (motion g f w) m'.
Proof.
  intros Hu Hp Ha Hg Ho. destruct b as [fb pd cd subs]. cbn [bpd] in Hp. subst pd. pose proof (subs_bare _ _ _ _ Ha) as Hb.
  destruct (block_at_under path top m u s _ Hu) as (c & E & Ec & _). unfold mesh_move. rewrite E. cbn [bind fst snd bpd].
  rewrite (own_points c fb p cd subs g) by (auto; now rewrite Ec). cbn [bind]. rewrite move_value. cbn [array cframe].
  set (mv := match f with Some _ => vshow f w (Some g) | None => w end).
  set (x' := map (fun x => vplus x mv) (px p)).
  destruct (update_cells path None None m u s _ (set_x x') _ Hu (set_x_same x' fb p cd subs ltac:(unfold x'; now rewrite map_length))) as (m' & A & B & E1 & H1 & H2 & H3).
  exists m'. split; [exact E1|]. intros ps Hm. unfold mesh_at in *. rewrite H2 in Hm. apply Forall2_app_inv_l in Hm as (a & r & Ha' & Hr & ->). apply Forall2_app_inv_l in Hr as (q & z & Hq & Hz & ->).
  exists a, q. eexists. exists z. split; [reflexivity|]. split; [exists u, s, (Block fb (Some p) cd subs); auto|]. split; [apply displaced_map|]. rewrite H3. apply Forall2_app; [exact Ha'|]. apply Forall2_app; [|exact Hz].
  assert (Hg' : frame_in u (Block fb (Some (Points x' (pframe p) (pid p) (pact p) (pfields p))) cd subs) = Some g) by (rewrite <- Hg; destruct fb; reflexivity).
  rewrite (cells_in_own _ _ _ _ _ _ g Hg Hb) in Hq. rewrite (cells_in_own _ _ _ _ _ _ g Hg' Hb). cbn [px]. rewrite rows_in_block in *. revert Hq. apply moved_rows.
  intros n x En. exists (vplus x mv). split; [exact (map_nth_error (fun x => vplus x mv) _ _ En)|]. now apply (motion_place g f w x).
Qed.
(** points in blocks below: the number of rows does not fit *)
Lemma move_nested m path u s b p w f : under None None m path = Some (u, s, b) -> bpd b = Some p ->
  (let n := list_sum (map (fun p => length (px p)) (arrays b)) in n <> length (px p) /\ n <> 1) -> mesh_move m path (Array w) f = Err ValueError.
Proof.
  intros Hu Hp [Hn H1]. destruct (block_at_under path top m u s _ Hu) as (c & E & Ec & _). unfold mesh_move. rewrite E. cbn [bind fst snd]. rewrite Hp.
  destruct (source_in_own u s b p Hp) as (g & Eg & _).
  rewrite (points_of_value c b g); [|now rewrite Ec|destruct b as [fb [q|] cd subs]; [discriminate|discriminate Hp]]. cbn [bind]. rewrite move_value. cbn [array].
  set (x := map _ (converted _ _)).
  assert (Hx : length x = list_sum (map (fun p => length (px p)) (arrays b))).
  { unfold x. rewrite map_length. unfold converted. rewrite flat_map_concat_map, concat_length, map_map. rewrite <- (framed_arrays b (frame_here c)), map_map. f_equal. apply map_ext. intros fp. apply map_length. }
  apply (update_fails path _ _ None None m u s b Hu). destruct b as [fb pd cd subs]. cbn [bpd] in Hp. subst pd. apply set_x_fails; rewrite Hx; assumption.
Qed.

(** ** Blocks without points *)
Lemma np_get_nat {A} (l : list A) i : np_get l (Z.of_nat i) = get l i.
Proof. unfold np_get. destruct (Z.leb_spec 0 (Z.of_nat i)); [|lia]. now rewrite Nat2Z.id. Qed.
Lemma pick_points x g ids ns : length ids = length x -> Forall (fun i => i < length x) ns ->
  exists ids' ys, getitem (Cloud x g (Some ids)) (KList (map Z.of_nat ns)) = Ok (Cloud ys g (Some ids')) /\ mapM (get x) ns = Ok ys.
Proof.
  intros Hl Hi. unfold getitem. cbn [key_inds bind inds array np_getitem cframe]. 
  assert (T : forall {A} (l : list A), length l = length x -> exists y, mapM (np_get l) (map Z.of_nat ns) = Ok y /\ mapM (get l) ns = Ok y).
  { intros A l El. clear Hl. induction Hi as [|i ns Hi _ IH]; [exists []; auto|]. destruct IH as (y & E1 & E2). destruct (get_lt l i ltac:(lia)) as [v Ev]. exists (v :: y). cbn [map mapM]. rewrite np_get_nat, Ev, E1, E2. auto. }
  destruct (T Z ids Hl) as (i' & -> & _). destruct (T _ x eq_refl) as (ys & -> & E). cbn [bind]. eauto.
Qed.
(** the closest points above a block, in a block without other points below it *)
Lemma source_block m path u s b sp : under None None m path = Some (u, s, b) -> bpd b = None -> source_path m path = Some sp ->
  exists u' s' fb p cd subs g, under None None m sp = Some (u', s', Block fb (Some p) cd subs) /\ frame_in u' (Block fb (Some p) cd subs) = Some g /\ s = Some (g, px p).
Proof.
  intros Hu Hb Hs. pose proof (source_under path None None m u s b Hu) as H. rewrite Hs in H. destruct H as (u' & s' & sb & p & g & H1 & H2 & H3 & H4).
  unfold source_in in H4. rewrite Hb in H4. destruct sb as [fb pd cd subs]. cbn [bpd] in H2. subst pd. exists u', s', fb, p, cd, subs, g. auto.
Qed.
(** the distinct nodes of a block *)
Definition used_nodes (b : block) : list nat := np_unique (concat (rows_in b)).
Lemma used_below b up src g xs ps : cells_in up src b = map (fun r => (Some (g, xs), r)) (rows_in b) ->
  Forall2 (fun c qs => Forall2 (node_at (fst c)) (snd c) qs) (cells_in up src b) ps -> Forall (fun i => i < length xs) (used_nodes b).
Proof.
  intros -> H. apply Forall_forall. intros i Hi. unfold used_nodes in Hi. rewrite np_unique_in in Hi. revert ps H Hi. induction (rows_in b) as [|r rs IH]; intros ps H Hi; [destruct Hi|].
  inversion H as [|? qs ? ps' Hq Hps]; subst. cbn [concat] in Hi. apply in_app_or in Hi as [Hi|Hi]; [|now apply (IH ps')]. cbn [fst snd] in Hq. clear -Hq Hi.
  induction Hq as [|n q r qs (x & E & _) _ IHq]; [destruct Hi|]. destruct Hi as [->|Hi]; [|auto]. apply nth_error_Some. congruence.
Qed.
Lemma under_app p1 : forall up src m p2, under up src m (p1 ++ p2) = match under up src m p1 with Some (u, s, b) => under u s b p2 | None => None end.
Proof.
  induction p1 as [|i t IH]; intros up src m p2; [reflexivity|]. cbn [app under]. destruct (nth_error (bsub m) i); [apply IH|reflexivity].
Qed.
Lemma source_path_first sp : forall up src m t u s b p x, under up src m sp = Some (u, s, b) -> bpd b = Some p -> under u s b t = Some x ->
  (forall i u' s' b', 0 < i <= length t -> under u s b (firstn i t) = Some (u', s', b') -> bpd b' = None) -> source_path m (sp ++ t) = Some sp.
Proof.
  assert (N : forall t u s b x, under u s b t = Some x -> (forall i u' s' b', i <= length t -> under u s b (firstn i t) = Some (u', s', b') -> bpd b' = None) -> source_path b t = None).
  { induction t as [|j t IH]; intros u s b x Hx H; cbn [source_path under] in *.
    - rewrite (H 0 u s b) by (cbn; auto). reflexivity.
    - destruct (nth_error (bsub b) j) as [c|] eqn:E; [|reflexivity]. rewrite (IH _ _ c x Hx).
      + rewrite (H 0 u s b) by (cbn; auto with arith). reflexivity.
      + intros i u' s' b' Hi Hu. apply (H (S i) u' s' b'); [cbn [length]; lia|]. cbn [firstn under]. now rewrite E. }
  induction sp as [|j sp IH]; intros up src m t u s b p x H Hp Hx Hn; cbn [app source_path under] in *.
  - injection H as -> -> ->. destruct t as [|j t]; cbn [source_path under] in *; [now rewrite Hp|]. destruct (nth_error (bsub b) j) as [c|] eqn:E; [|discriminate].
    rewrite (N t _ _ c x Hx); [now rewrite Hp|]. intros i u' s' b' Hi Hu. apply (Hn (S i) u' s' b'); [cbn [length]; lia|]. cbn [firstn under]. now rewrite E.
  - destruct (nth_error (bsub m) j) as [c|]; [|discriminate]. now rewrite (IH _ _ c t u s b p x H Hp Hx Hn).
Qed.
Lemma closest_source m path sp x : under None None m path = Some x -> closest m path sp -> source_path m path = Some sp.
Proof.
  intros Hx (t & -> & (u & s & b & p & Hu & Hp) & Hn). rewrite under_app, Hu in Hx. apply (source_path_first sp None None m t u s b p x Hu Hp Hx).
  intros i u' s' b' Hi Hu'. destruct (bpd b') as [p'|] eqn:Ep; [|reflexivity]. exfalso. apply (Hn i Hi). exists u', s', b', p'. rewrite under_app, Hu. auto.
Qed.
Lemma used_nodes_eq b ns : nodes_used b ns -> used_nodes b = ns.
Proof. intros [H1 H2]. unfold used_nodes. apply np_unique_ext; [exact H1|]. intros x. rewrite H2. apply entry_in_concat. Qed.
Lemma used_nodes_ok b : nodes_used b (used_nodes b).
Proof. apply np_unique_used. Qed.
Lemma move_part m path u s b sp w f ps ns : under None None m path = Some (u, s, b) -> arrays b = [] -> closest m path sp ->
  (exists u' s' sb p g, under None None m sp = Some (u', s', sb) /\ arrays sb = [p] /\ length (pid p) = length (px p) /\ frame_in u' sb = Some g /\ orthonormal (axes g) /\ length ns <> length (px p)) ->
  nodes_used b ns -> length ns <> 1 -> part_at m path ps -> mesh_move m path (Array w) f = Err ValueError.
Proof.
  intros Hu Ha Hs0 (u' & s' & sb & p & g & Hsb & Hap & Hid & Hg & Ho & Hlen) Hns H1 (u2 & s2 & b2 & Hu2 & Hps). rewrite Hu in Hu2. injection Hu2 as <- <- <-. pose proof (closest_source m path sp _ Hu Hs0) as Hs. rewrite <- (used_nodes_eq b ns Hns) in *.
  assert (Hb : bpd b = None) by (destruct b as [fb [q|] cd subs]; [discriminate|reflexivity]).
  destruct (source_block m path u s b sp Hu Hb Hs) as (u3 & s3 & fb & p3 & cd & subs & g3 & Hsb3 & Hg3 & ->). rewrite Hsb in Hsb3. injection Hsb3 as <- <- ->.
  cbn [arrays app] in Hap. injection Hap as -> Hsubs. rewrite Hg in Hg3. injection Hg3 as <-.
  destruct (block_at_under path top m u _ _ Hu) as (c & E & Ec & _). destruct (block_at_under sp top m _ _ _ Hsb) as (c' & E' & Ec' & _).
  unfold mesh_move. rewrite E. cbn [bind fst snd]. rewrite Hb. unfold the_source. rewrite Hs. cbn [bind]. rewrite E'. cbn [bind fst snd].
  rewrite (own_points c' fb p cd subs g) by (auto; now rewrite Ec'). cbn [bind]. rewrite topology_rows. fold (used_nodes b).
  pose proof (used_below b u _ g (px p) ps (cells_in_bare b Ha u _) Hps) as Hin.
  destruct (pick_points (px p) g (map Z.of_nat (pid p)) (used_nodes b)) as (i' & ys & Eg & Ey); [now rewrite map_length|assumption|]. rewrite Eg. cbn [bind]. rewrite move_value. cbn [array cframe].
  apply mapM_length in Ey. set (x := map _ ys). assert (Hx : length x = length (used_nodes b)) by (unfold x; now rewrite map_length).
  apply (update_fails sp _ _ None None m _ _ _ Hsb). apply set_x_fails; rewrite Hx; assumption.
Qed.

(** ** Centres *)
Lemma center_cloud x g ids : x <> [] -> exists c, FrameModel.center (Cloud x g ids) None = Ok c /\ centroid (map (place g) x) c.
Proof.
  intros H. destruct (center_value (Cloud x g ids) None H) as (c & E & Hc). exists c. split; [assumption|]. rewrite show_map in Hc. cbn [array cframe] in Hc.
  replace (map (place g) x) with (map (shown g None) x); [assumption|]. apply map_ext. intros y. apply shown_ambient.
Qed.
Lemma center_own m path u s b p g qs : under None None m path = Some (u, s, b) -> bpd b = Some p -> arrays b = [p] -> frame_in u b = Some g -> orthonormal (axes g) ->
  px p <> [] -> Forall2 (placed_at g) (px p) qs -> exists c, mesh_center m path None = Ok c /\ centroid qs c.
Proof.
  intros Hu Hp Ha Hg Ho Hne Hq. destruct b as [fb pd cd subs]. cbn [bpd] in Hp. subst pd. pose proof (subs_bare _ _ _ _ Ha) as Hb.
  destruct (block_at_under path top m u s _ Hu) as (c & E & Ec & _). unfold mesh_center. rewrite E. cbn [bind fst snd bpd].
  rewrite (own_points c fb p cd subs g) by (auto; now rewrite Ec). cbn [bind]. destruct (center_cloud (px p) g (Some (map Z.of_nat (pid p))) Hne) as (x & Ex & Hx). exists x. split; [exact Ex|].
  replace qs with (map (place g) (px p)); [exact Hx|]. clear -Hq. induction Hq as [|y q l qs H _ IH]; [reflexivity|]. apply placed_iff in H. cbn [map]. now rewrite IH, H.
Qed.
Lemma center_part m path u s b sp ps ns : under None None m path = Some (u, s, b) -> arrays b = [] -> closest m path sp ->
  (exists u' s' sb p g, under None None m sp = Some (u', s', sb) /\ arrays sb = [p] /\ length (pid p) = length (px p) /\ frame_in u' sb = Some g /\ orthonormal (axes g)) ->
  nodes_used b ns -> ns <> [] -> part_at m path ps -> exists qs c, Forall2 (node_at s) ns qs /\ mesh_center m path None = Ok c /\ centroid qs c.
Proof.
  intros Hu Ha Hs0 (u' & s' & sb & p & g & Hsb & Hap & Hid & Hg & Ho) Hns H1 (u2 & s2 & b2 & Hu2 & Hps). rewrite Hu in Hu2. injection Hu2 as <- <- <-. pose proof (closest_source m path sp _ Hu Hs0) as Hs. rewrite <- (used_nodes_eq b ns Hns) in *.
  assert (Hb : bpd b = None) by (destruct b as [fb [q|] cd subs]; [discriminate|reflexivity]).
  destruct (source_block m path u s b sp Hu Hb Hs) as (u3 & s3 & fb & p3 & cd & subs & g3 & Hsb3 & Hg3 & ->). rewrite Hsb in Hsb3. injection Hsb3 as <- <- ->.
  cbn [arrays app] in Hap. injection Hap as -> Hsubs. rewrite Hg in Hg3. injection Hg3 as <-.
  destruct (block_at_under path top m u _ _ Hu) as (c & E & Ec & _). destruct (block_at_under sp top m _ _ _ Hsb) as (c' & E' & Ec' & _).
  unfold mesh_center. rewrite E. cbn [bind fst snd]. rewrite Hb. unfold the_source. rewrite Hs. cbn [bind]. rewrite E'. cbn [bind fst snd].
  rewrite (own_points c' fb p cd subs g) by (auto; now rewrite Ec'). cbn [bind]. rewrite topology_rows. fold (used_nodes b).
  pose proof (used_below b u _ g (px p) ps (cells_in_bare b Ha u _) Hps) as Hin.
  destruct (pick_points (px p) g (map Z.of_nat (pid p)) (used_nodes b)) as (i' & ys & Eg & Ey); [now rewrite map_length|assumption|]. rewrite Eg. cbn [bind].
  assert (Hy : ys <> []). { apply mapM_length in Ey. destruct ys; [|discriminate]. destruct (used_nodes b); [congruence|discriminate]. }
  destruct (center_cloud ys g (Some i') Hy) as (x & Ex & Hx). exists (map (place g) ys), x. split; [|auto].
  apply mapM_Ok in Ey. clear -Ey. induction Ey as [|n y ns ys H _ IH]; cbn [map]; constructor; [|assumption]. apply get_Ok in H. exists y. split; [assumption|]. now apply placed_iff.
Qed.

(** ** Centring *)
Lemma source_path_own path : forall up src m u s b p, under up src m path = Some (u, s, b) -> bpd b = Some p -> source_path m path = Some path.
Proof.
  induction path as [|i t IH]; intros up src m u s b p H Hp; cbn [under source_path] in *.
  - injection H as -> -> ->. now rewrite Hp.
  - destruct (nth_error (bsub m) i) as [c|]; [|discriminate]. now rewrite (IH _ _ _ _ _ _ _ H Hp).
Qed.
Lemma shift_bare v b : arrays b = [] -> shift_points v b = b.
Proof.
  induction b as [f pd cd subs IH] using block_induction. cbn [arrays shift_points]. intros H. apply app_eq_nil in H as [H1 H2]. destruct pd; [discriminate|]. cbn [option_map]. f_equal.
  induction IH as [|b l Hb _ IHl]; [reflexivity|]. cbn [flat_map map] in *. apply app_eq_nil in H2 as [H2 H3]. now rewrite Hb, IHl.
Qed.
Lemma shift_bare_l v l : flat_map arrays l = [] -> map (shift_points v) l = l.
Proof. induction l as [|b l IH]; [reflexivity|]. cbn [flat_map map]. intros H. apply app_eq_nil in H as [H1 H2]. now rewrite shift_bare, IH. Qed.
Lemma vminus_plus x v : vminus x v = vplus x (vneg v).
Proof. comps. cbn. apply triple_eq; ring. Qed.
Lemma vplus_neg v : vplus v (vneg v) = (0, 0, 0)%R.
Proof. comps. cbn. apply triple_eq; ring. Qed.
Lemma show_same x g ids : orthonormal (axes g) -> show (Cloud x g ids) (Some g) = x.
Proof.
  intros Ho. destruct g as [a|a o]; [|apply (show_own (Cloud x (Cartesian a o) ids)); [assumption|cbn; eauto]].
  rewrite show_map. cbn [array cframe]. rewrite <- (map_id x) at 2. apply map_ext. intros y. cbn [shown]. now apply vshow_same.
Qed.
Lemma centralize_own m path u s b p g ax : under None None m path = Some (u, s, b) -> bpd b = Some p -> arrays b = [p] -> frame_in u b = Some g -> orthonormal (axes g) ->
  px p <> [] -> exists m' b' p' d, mesh_centralize m path None ax = Ok m' /\ under None None m' path = Some (u, s, b') /\ bpd b' = Some p' /\ frame_in u b' = Some g /\
    centroid (px p') (0, 0, 0)%R /\
    part_moved m path d m'.
Proof.
  intros Hu Hp Ha Hg Ho Hne. destruct b as [fb pd cd subs]. cbn [bpd] in Hp. subst pd. pose proof (subs_bare _ _ _ _ Ha) as Hb.
  destruct (block_at_under path top m u s _ Hu) as (c & E & Ec & _). unfold mesh_centralize, the_source. rewrite (source_path_own path None None m u s _ p Hu eq_refl). cbn [bind]. rewrite E. cbn [bind fst snd].
  unfold the_frame. rewrite enter_frame, Ec, Hg. cbn [bind]. unfold mesh_center. rewrite E. cbn [bind fst snd bpd]. rewrite (own_points c fb p cd subs g) by (auto; now rewrite Ec). cbn [bind].
  destruct (center_value (Cloud (px p) g (Some (map Z.of_nat (pid p)))) (Some g) Hne) as (ctr & Ectr & Hc). rewrite Ectr. cbn [bind]. rewrite show_same in Hc by assumption.
  set (x' := map (fun x => vminus x ctr) (px p)).
  assert (HF : (fun b => Ok (shift_points ctr b)) (Block fb (Some p) cd subs) = Ok (Block fb (Some (Points x' (pframe p) (pid p) (pact p) (pfields p))) cd subs)) by (cbn [shift_points option_map]; now rewrite shift_bare_l).
  destruct (update_cells path None None m u s _ (fun b => Ok (shift_points ctr b)) _ Hu HF) as (m' & A & B & E1 & H1 & H2 & H3).
  assert (Hg' : frame_in u (Block fb (Some (Points x' (pframe p) (pid p) (pact p) (pfields p))) cd subs) = Some g) by (rewrite <- Hg; destruct fb; reflexivity).
  exists m'. eexists. eexists. exists (direction (axes g) (vneg ctr)). split; [exact E1|]. split; [exact H1|]. split; [reflexivity|]. split; [exact Hg'|]. split.
  - cbn [px]. unfold x'. rewrite <- (vplus_neg ctr). erewrite map_ext; [apply centroid_shift; exact Hc|]. intros x. apply vminus_plus.
  - intros ps Hm. unfold mesh_at in *. rewrite H2 in Hm. apply Forall2_app_inv_l in Hm as (a & r & Ha' & Hr & ->). apply Forall2_app_inv_l in Hr as (q & z & Hq & Hz & ->).
    exists a, q. eexists. exists z. split; [reflexivity|]. split; [exists u, s, (Block fb (Some p) cd subs); auto|]. split; [apply displaced_map|]. rewrite H3. apply Forall2_app; [exact Ha'|]. apply Forall2_app; [|exact Hz].
    rewrite (cells_in_own _ _ _ _ _ _ g Hg Hb) in Hq. rewrite (cells_in_own _ _ _ _ _ _ g Hg' Hb). cbn [px]. rewrite rows_in_block in *. revert Hq. apply moved_rows.
    intros n x En. exists (vminus x ctr). split; [exact (map_nth_error (fun x => vminus x ctr) _ _ En)|]. now rewrite vminus_plus, place_plus.
Qed.
(** the argument [axes] does nothing *)
Lemma centralize_axes m path t ax ax' : mesh_centralize m path t ax = mesh_centralize m path t ax'.
Proof. reflexivity. Qed.
Definition one_point (subs : list block) : block := Block (Some standard) (Some (Points [(1, 1, 0)]%R None [0] [true] [])) None subs.
Lemma centroid_one x : centroid [x] x.
Proof. destruct x as [[x y] z]. split; [discriminate|]. cbn. apply triple_eq; unfold xof, yof, zof; cbn; field. Qed.
Lemma centroid_fun ps c c' : centroid ps c -> centroid ps c' -> c = c'.
Proof. intros [_ ->] [_ ->]. reflexivity. Qed.
Lemma centralize_one t ax subs : flat_map arrays subs = [] -> mesh_centralize (one_point subs) [] (Some t) ax =
  Ok (shift_points (shown standard (Some t) (1, 1, 0)%R) (one_point subs)).
Proof.
  intros Hs. unfold one_point, mesh_centralize, the_source, mesh_center. cbn [source_path bpd bind block_at fst snd]. rewrite (own_points top _ _ _ _ standard) by (auto using orthonormal_eye; exact orthonormal_eye).
  cbn [bind the_frame enter frame_here top block_frame bframe px pid map].
  destruct (center_value (Cloud [(1, 1, 0)]%R standard (Some [Z.of_nat 0])) (Some t) ltac:(discriminate)) as (c & E & Hc). cbn [px pid map] in *. rewrite E. cbn [bind update_at].
  rewrite show_map in Hc. cbn [array cframe map] in Hc. now rewrite (centroid_fun _ _ _ Hc (centroid_one _)).
Qed.
(** a target that is turned: the centre is elsewhere *)
Lemma centralize_turned : exists m m' p' t, orthonormal (axes t) /\ frame_in None m = Some standard /\ mesh_centralize m [] (Some t) None = Ok m' /\ bpd m' = Some p' /\
  exists qs c, same_places standard (px p') t qs /\ centroid qs c /\ c <> (0, 0, 0)%R.
Proof.
  exists (one_point []). eexists. eexists. exists turned. split; [exact orthonormal_turned|]. split; [reflexivity|]. split; [now apply centralize_one|]. split; [reflexivity|].
  exists [(2, 0, 0)%R], (2, 0, 0)%R. split; [|split; [apply centroid_one|intros E; injection E; intros; lra]].
  apply same_places_iff. cbn. f_equal. apply triple_eq; lra.
Qed.
(** only the first axis is asked for, but the second component changes too *)
Lemma centralize_all_axes : exists m m' p p' c c', frame_in None m = Some standard /\ bpd m = Some p /\ mesh_centralize m [] (Some standard) (Some [0]) = Ok m' /\ bpd m' = Some p' /\
  centroid (px p) c /\ centroid (px p') c' /\ component 1 c' <> component 1 c.
Proof.
  exists (one_point []). eexists. eexists. eexists. exists (1, 1, 0)%R. eexists. split; [reflexivity|]. split; [reflexivity|]. split; [now apply centralize_one|]. split; [reflexivity|].
  split; [apply centroid_one|]. split; [apply centroid_one|]. cbn. unfold yof. cbn. intros E. lra.
Qed.
(** points of a block below, in another frame, move in another direction *)
Definition below : block := Block (Some turned) (Some (Points [(1, 0, 0)]%R None [0] [true] [])) (Some (Cells [[0]] [0] [])) [].
Definition two_frames : block := Block (Some standard) (Some (Points [(1, 0, 0)]%R None [0] [true] [])) (Some (Cells [[0]] [0] [])) [below].
Lemma two_frames_at : mesh_at two_frames [[(1, 0, 0)]; [(0, 1, 0)]]%R.
Proof.
  unfold mesh_at. cbn. constructor; [|constructor; [|constructor]]; cbn [fst snd]; (constructor; [|constructor]); cbn [node_at]; (exists (1, 0, 0)%R; split; [reflexivity|]); apply placed_iff; cbn; apply triple_eq; lra.
Qed.
Lemma two_frames_shifted c ps : mesh_at (shift_points c two_frames) ps -> 
  ps = [[place standard (vminus (1, 0, 0)%R c)]; [place turned (vminus (1, 0, 0)%R c)]].
Proof.
  intros H. apply (mesh_at_fun _ _ _ H). unfold mesh_at. cbn [two_frames below shift_points option_map map px pframe pid pact pfields cells_in frame_in nodes flat_map app].
  constructor; [|constructor; [|constructor]]; cbn [fst snd]; (constructor; [|constructor]); cbn [node_at]; (eexists; split; [reflexivity|]); now apply placed_iff.
Qed.
Lemma centralize_bends : exists m m' F p k q l a b a' b', m = Block (Some standard) (Some p) (Some k) [Block (Some (Cartesian F vzero)) (Some q) (Some l) []] /\ orthonormal F /\ pframe p = None /\ pframe q = None /\ mesh_at m [[a]; [b]] /\ mesh_centralize m [] None None = Ok m' /\ mesh_at m' [[a']; [b']] /\ forall d, ~ (displaced d a a' /\ displaced d b b').
Proof.
  exists two_frames. destruct (mesh_centralize two_frames [] None None) as [m'|] eqn:E.
  2:{ exfalso. revert E. unfold two_frames at 1, mesh_centralize, the_source, mesh_center. cbn [source_path bpd bind block_at fst snd].
      rewrite (points_of_value top _ standard) by (auto; discriminate). cbn [bind the_frame enter frame_here top block_frame bframe].
      match goal with |- context[FrameModel.center ?c ?t] => destruct (center_value c t ltac:(discriminate)) as (x & -> & _) end. discriminate. }
  assert (G : exists c, m' = shift_points c two_frames /\ c = (1 / 2, 1 / 2, 0)%R).
  { revert E. unfold two_frames at 1, mesh_centralize, the_source, mesh_center. cbn [source_path bpd bind block_at fst snd].
    rewrite (points_of_value top _ standard) by (auto; discriminate). cbn [bind the_frame enter frame_here top block_frame bframe].
    match goal with |- context[FrameModel.center ?c ?t] => destruct (center_value c t ltac:(discriminate)) as (x & -> & Hx) end. cbn [bind update_at]. intros E. injection E as <-. exists x. split; [reflexivity|].
    rewrite show_map in Hx. cbn [array cframe] in Hx. apply (centroid_fun _ _ _ Hx). split; [discriminate|]. cbn. unfold xof, yof, zof. cbn. apply triple_eq; field. }
  destruct G as (c & -> & ->). eexists (shift_points (1 / 2, 1 / 2, 0)%R two_frames), _, _, _, _, _, (1, 0, 0)%R, (0, 1, 0)%R, (place standard (vminus (1, 0, 0) (1 / 2, 1 / 2, 0))%R), (place turned (vminus (1, 0, 0) (1 / 2, 1 / 2, 0))%R). split; [reflexivity|]. split; [exact orthonormal_turned|]. do 2 (split; [reflexivity|]). split; [exact two_frames_at|]. split; [reflexivity|]. split.
  - unfold mesh_at. cbn [two_frames below shift_points option_map map px pframe pid pact pfields cells_in frame_in nodes flat_map app].
    constructor; [|constructor; [|constructor]]; cbn [fst snd]; (constructor; [|constructor]); cbn [node_at]; (eexists; split; [reflexivity|]); now apply placed_iff.
  - intros [[d0 d1] d2] [H1 H2]. cbn in H1, H2. injection H1 as A1 A2 A3. injection H2 as B1 B2 B3. lra.
Qed.
