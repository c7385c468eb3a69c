(** * Proofs about [LinkModel.v] *)
From Coq Require Import Reals Lra Lia List.
From Verif Require Import Base BaseFacts TopoSpec TopoProofs3 TopoProofs4 TopoProofs5 LinkModel LinkSpec.
Import ListNotations.
Local Open Scope nat_scope.

Lemma tree_induction (P : tree -> Prop) : (forall pd cd subs, Forall P subs -> P (Tree pd cd subs)) -> forall t, P t.
Proof. intros H. fix IH 1. intros [pd cd subs]. apply H. induction subs as [|b t IHt]; constructor; [apply IH|exact IHt]. Qed.

(** ** cells that refer to the points of their source *)
Definition points_here (up : option nat) (pd : option nat) : option nat := match pd with Some r => Some r | None => up end.
Definition fits (src : option nat) (cd : option cell) : Prop :=
  match cd with None => True | Some c => exists r, src = Some r /\ (clink c = None \/ clink c = Some (Pts r)) end.
Fixpoint linked (up : option nat) (t : tree) : Prop :=
  match t with Tree pd cd subs => fits (points_here up pd) cd /\ fold_right (fun s P => linked (points_here up pd) s /\ P) True subs end.
Lemma linked_tree up pd cd subs : linked up (Tree pd cd subs) <-> fits (points_here up pd) cd /\ Forall (linked (points_here up pd)) subs.
Proof.
  cbn [linked]. split; intros [H1 H2]; (split; [assumption|]); induction subs as [|s l IH]; cbn [fold_right] in *; auto.
  - destruct H2 as [H2 H3]. constructor; auto.
  - inversion H2; subst. split; auto.
Qed.
Lemma linked_holders t : forall up (src : option tree), (match src with Some s => tpd s | None => None end) = up ->
  linked up t <-> forall src' c, In (src', c) (holders src t) -> exists s r, src' = Some s /\ tpd s = Some r /\ (clink c = None \/ clink c = Some (Pts r)).
Proof.
  induction t as [pd cd subs IH] using tree_induction. intros up src E. rewrite linked_tree. cbn [holders].
  set (here := match pd with Some _ => Some (Tree pd cd subs) | None => src end).
  assert (Eh : match here with Some s => tpd s | None => None end = points_here up pd) by (unfold here; destruct pd; [reflexivity|exact E]).
  split.
  - intros [Hf Hs] src' c Hin. apply in_app_or in Hin as [Hin|Hin].
    + destruct cd as [k|]; [|destruct Hin]. destruct Hin as [Hin|[]]. injection Hin as <- <-. destruct Hf as (r & Hr & Hl). rewrite <- Eh in Hr. destruct here as [s|]; [|discriminate]. exists s, r. auto.
    + apply in_flat_map in Hin as (s & Hs1 & Hs2). rewrite Forall_forall in IH, Hs. exact (proj1 (IH s Hs1 _ here Eh) (Hs s Hs1) src' c Hs2).
  - intros H. split.
    + destruct cd as [k|]; [|exact I]. destruct (H here k) as (s & r & E1 & E2 & E3); [apply in_or_app; left; now left|]. exists r. split; [|assumption]. now rewrite <- Eh, E1.
    + rewrite Forall_forall in *. intros s Hs. apply (IH s Hs _ here Eh). intros src' c Hc. apply H. apply in_or_app. right. apply in_flat_map. eauto.
Qed.
Lemma holders_refs t : forall up s c, In (Some s, c) (holders up t) -> up = Some s \/ incl (refs s) (mentions t).
Proof.
  assert (Hm : forall t, incl (refs t) (mentions t)).
  { induction t0 as [pd cd subs IH] using tree_induction. intros r Hr. cbn [refs mentions] in *. apply in_app_or in Hr as [Hr|Hr]; [apply in_or_app; now left|]. apply in_or_app. right. apply in_or_app. right.
    apply in_flat_map in Hr as (s & H1 & H2). rewrite Forall_forall in IH. apply in_flat_map. exists s. split; [assumption|]. now apply (IH s H1). }
  induction t as [pd cd subs IH] using tree_induction. intros up s c Hin. cbn [holders] in Hin.
  assert (H : match pd with Some _ => Some (Tree pd cd subs) | None => up end = Some s \/ exists b, In b subs /\ In (Some s, c) (holders (match pd with Some _ => Some (Tree pd cd subs) | None => up end) b)).
  { apply in_app_or in Hin as [Hin|Hin]; [|right; now apply in_flat_map]. destruct cd as [k|]; [|destruct Hin]. destruct Hin as [Hin|[]]. injection Hin as H _. now left. }
  assert (G : match pd with Some _ => Some (Tree pd cd subs) | None => up end = Some s -> up = Some s \/ incl (refs s) (mentions (Tree pd cd subs))).
  { destruct pd as [r|]; [|auto]. intros E. injection E as <-. right. apply Hm. }
  destruct H as [H|(b & Hb & H)]; [now apply G|]. rewrite Forall_forall in IH. destruct (IH b Hb _ s c H) as [H1|H1]; [now apply G|]. right. intros r Hr. cbn [mentions]. apply in_or_app. right. apply in_or_app. right. apply in_flat_map. exists b. auto.
Qed.
Lemma coords_ok h s r x : tpd s = Some r -> nth_error h r = Some x -> (forall q, In q (refs s) -> q < length h) -> exists y, coords h s = Ok (x ++ y).
Proof.
  intros Hr Hx Hl. destruct s as [pd cd subs]. cbn [tpd] in Hr. subst pd. unfold coords. cbn [refs] in *. cbn [mapM app]. rewrite (proj2 (get_Ok h r x) Hx). cbn [bind].
  destruct (mapM_total (get h) (flat_map refs subs)) as [ys E]; [intros q Hq; apply get_lt; apply Hl; now right|]. rewrite E. cbn [bind concat]. eauto.
Qed.
Lemma held_mention t : forall up src c r, In (src, c) (holders up t) -> clink c = Some (Pts r) -> In r (mentions t).
Proof.
  induction t as [pd cd subs IH] using tree_induction. intros up src c r Hin Hl. cbn [holders mentions] in *. apply in_or_app. right. apply in_or_app. apply in_app_or in Hin as [Hin|Hin].
  - left. destruct cd as [k|]; [|destruct Hin]. destruct Hin as [Hin|[]]. injection Hin as _ <-. destruct k as [rows l]. cbn [clink] in Hl. subst l. now left.
  - right. apply in_flat_map in Hin as (s & H1 & H2). apply in_flat_map. exists s. split; [assumption|]. rewrite Forall_forall in IH. exact (IH s H1 _ _ _ _ H2 Hl).
Qed.
(** a heap in which all objects differ *)
Definition labels (n : nat) : heap := map (fun i => [(INR i, 0, 0)%R]) (seq 0 n).
Lemma labels_nth n r x : nth_error (labels n) r = Some x -> x = [(INR r, 0, 0)%R].
Proof. unfold labels. rewrite nth_error_map. destruct (nth_error (seq 0 n) r) as [i|] eqn:E; [|discriminate]. intros H. injection H as <-. assert (Hl : r < length (seq 0 n)) by (apply nth_error_Some; congruence). rewrite seq_length in Hl. rewrite (nth_error_nth' _ 0) in E by now rewrite seq_length. injection E as <-. now rewrite seq_nth. Qed.
Lemma sound_linked t : sound t <-> linked None t.
Proof.
  rewrite (linked_holders t None None eq_refl). split.
  - intros H src c Hin.
    set (n := S (list_max (mentions t))). assert (Hp : present (labels n) t). { intros r Hr. unfold labels. rewrite map_length, seq_length. unfold n. apply Nat.lt_succ_r. pose proof (proj1 (list_max_le (mentions t) (list_max (mentions t))) (le_n _)) as Hm. rewrite Forall_forall in Hm. auto. }
    destruct (H _ Hp src c Hin) as (s & r & x & y & -> & Hr & Hx & Hc). exists s, r. split; [reflexivity|]. split; [assumption|].
    unfold source_coords in Hc. destruct (clink c) as [[q|]|] eqn:El; [right|discriminate|now left]. apply get_Ok in Hc. apply labels_nth in Hx, Hc. subst x. cbn [app] in Hc. injection Hc as Hc _. apply INR_eq in Hc. now subst.
  - intros H h Hp src c Hin. destruct (H src c Hin) as (s & r & -> & Hr & Hl).
    assert (Hrefs : forall q, In q (refs s) -> q < length h). { intros q Hq. apply Hp. destruct (holders_refs t None s c Hin) as [E|Hi]; [discriminate|auto]. }
    assert (Hlt : r < length h) by (apply Hrefs; destruct s as [pd cd subs]; cbn [tpd] in Hr; subst pd; cbn [refs]; now left).
    destruct (get_lt h r Hlt) as [x Ex]. apply get_Ok in Ex. exists s, r, x. destruct (coords_ok h s r x Hr Ex Hrefs) as [y Ey]. unfold source_coords. destruct Hl as [->| ->]; [exists y|exists []; rewrite app_nil_r; rewrite (proj2 (get_Ok h r x) Ex)]; auto.
Qed.

(** ** new meshes and joining blocks *)
Lemma new_mesh_sound : forall h x rows, sound (snd (new_mesh h x rows)) /\ sound (snd (new_points h x)) /\ present (fst (new_mesh h x rows)) (snd (new_mesh h x rows)).
Proof.
  intros h x rows. split; [|split].
  - apply sound_linked. cbn [new_mesh snd]. apply linked_tree. split; [|constructor]. cbn. eauto.
  - apply sound_linked. cbn [new_points snd]. apply linked_tree. split; [exact I|constructor].
  - intros r Hr. cbn in Hr |- *. rewrite app_length. cbn [length]. lia.
Qed.
Lemma new_block_sound : forall r cd, sound (new_block (Some r) cd).
Proof. intros r cd. apply sound_linked. apply linked_tree. split; [|constructor]. destruct cd; cbn; eauto. Qed.
Lemma ready_linked b r : ready b -> linked (Some r) (match b with Tree pd cd subs => Tree pd (match cd with Some (Cell rows None) => Some (Cell rows (option_map Pts (points_here (Some r) pd))) | _ => cd end) subs end).
Proof.
  assert (G : forall t src, (forall src' c, In (src', c) (holders src t) -> match src' with Some s => exists q, tpd s = Some q /\ (clink c = None \/ clink c = Some (Pts q)) | None => clink c = None end) ->
                       linked (match src with Some s => tpd s | None => Some r end) t).
  { induction t as [pd cd subs IH] using tree_induction. intros src H. rewrite linked_tree. cbn [holders] in H. set (here := match pd with Some _ => Some (Tree pd cd subs) | None => src end) in *.
    assert (E : points_here (match src with Some s => tpd s | None => Some r end) pd = match here with Some s => tpd s | None => Some r end) by (unfold here; destruct pd; reflexivity). rewrite E. split.
    - destruct cd as [c|]; [|exact I]. specialize (H here c ltac:(apply in_or_app; left; now left)). destruct here as [s|]; [destruct H as (q & Hq & Hl); exists q; auto|]. exists r. auto.
    - rewrite Forall_forall in *. intros s Hs. apply (IH s Hs). intros src' c Hc. apply H. apply in_or_app. right. apply in_flat_map. eauto. }
  intros H. specialize (G b None H). cbn [tpd] in G. destruct b as [pd cd subs]. rewrite linked_tree in *. destruct G as [G1 G2]. split; [|exact G2]. destruct cd as [[rows [l|]]|]; [exact G1| |exact I]. destruct G1 as (q & Hq & _). rewrite Hq. exists q. cbn. auto.
Qed.
Lemma joined_ready r b : ready b -> exists b', joined (Some r) b = Ok b' /\ linked (Some r) b' /\ unlinked b' = unlinked b.
Proof.
  intros H. pose proof (ready_linked b r H) as Hl. destruct b as [pd [[rows [l|]]|] subs]; cbn [joined].
  - eexists. split; [reflexivity|]. auto.
  - unfold source. cbn [tpd]. destruct pd as [q|]; cbn [points_here option_map] in Hl; (eexists; split; [reflexivity|]; split; [exact Hl|reflexivity]).
  - eexists. split; [reflexivity|]. auto.
Qed.
Lemma set_mid {A} (l r : list A) a b : set (l ++ a :: r) (length l) b = Ok (l ++ b :: r).
Proof. induction l as [|c l IH]; [reflexivity|]. cbn [app length set]. now rewrite IH. Qed.
Lemma join_ready path : forall up t b, linked up t -> ready b -> points_here up (tpd t) <> None -> below t path <> None ->
  exists b' t', join up t path b = Ok t' /\ grown t path b' t' /\ unlinked b' = unlinked b /\ linked up t'.
Proof.
  induction path as [|i p IH]; intros up [pd cd subs] b Hl Hb Hs Ht; cbn [join tpd] in *; unfold source; cbn [tpd]; fold (points_here up pd).
  - destruct (points_here up pd) as [r|] eqn:Er; [|congruence]. destruct (joined_ready r b Hb) as (b' & E & Hl' & Hu). rewrite E. cbn [bind]. exists b'. eexists. split; [reflexivity|]. split; [constructor|]. split; [assumption|].
    rewrite linked_tree in *. rewrite Er in *. destruct Hl as [H1 H2]. split; [assumption|]. apply Forall_app. auto.
  - cbn [below tsub] in Ht. destruct (nth_error subs i) as [s|] eqn:Es; [|congruence]. destruct (nth_error_split subs i Es) as (l & r & -> & <-). rewrite linked_tree in Hl. destruct Hl as [H1 H2]. apply Forall_app in H2 as [H2 H3]. inversion H3 as [|? ? H4 H5]; subst.
    destruct (IH (points_here up pd) s b H4 Hb) as (b' & s' & E & Hg & Hu & Hl'); [destruct (points_here up pd), (tpd s); cbn; congruence|assumption|].
    rewrite (proj2 (get_Ok _ _ _) Es). cbn [bind]. rewrite E. cbn [bind]. rewrite set_mid. cbn [bind]. exists b'. eexists. split; [reflexivity|]. split; [now constructor|]. split; [assumption|]. rewrite linked_tree. split; [assumption|]. apply Forall_app. auto.
Qed.
Lemma join_sound : forall t path b, sound t -> ready b -> tpd t <> None -> below t path <> None ->
  exists b' t', join None t path b = Ok t' /\ grown t path b' t' /\ unlinked b' = unlinked b /\ sound t'.
Proof.
  intros t path b Ht Hb Hp Hs. apply sound_linked in Ht. destruct (join_ready path None t b Ht Hb) as (b' & t' & E & Hg & Hu & Hl); [destruct (tpd t); [discriminate|congruence]|assumption|].
  exists b', t'. split; [assumption|]. split; [assumption|]. split; [assumption|]. now apply sound_linked.
Qed.
Lemma new_ready : forall rows b, sound b -> ready (new_block None (Some rows)) /\ ready b.
Proof.
  intros rows b Hb. split.
  - intros src c [H|[]]. injection H as <- <-. reflexivity.
  - intros src c Hin. apply sound_linked in Hb. destruct (proj1 (linked_holders b None None eq_refl) Hb src c Hin) as (s & r & -> & Hr & Hl). eauto.
Qed.
Lemma join_no_points : forall t rows, tpd t = None -> join None t [] (new_block None (Some rows)) = Err AttributeError.
Proof. intros [pd cd subs] rows H. cbn [tpd] in H. subst pd. reflexivity. Qed.
Lemma leave_sound : forall t i t' b, leave t i = Ok (t', b) ->
  (exists l r, tsub t = l ++ b :: r /\ length l = i /\ t' = Tree (tpd t) (tcd t) (l ++ r)) /\ (sound t -> sound t').
Proof.
  intros [pd cd subs] i t' b H. unfold leave in H. cbn [tsub tpd tcd] in *. destruct (get subs i) as [s|] eqn:E; [|discriminate]. cbn [bind] in H. assert (Eb : s = b) by congruence. assert (Et : t' = Tree pd cd (firstn i subs ++ skipn (S i) subs)) by congruence. clear H. subst b t'. apply get_Ok in E. destruct (nth_error_split subs i E) as (l & r & -> & <-).
  assert (E1 : firstn (length l) (l ++ s :: r) = l) by (rewrite firstn_app, Nat.sub_diag, firstn_all; cbn [firstn]; apply app_nil_r).
  assert (E2 : skipn (S (length l)) (l ++ s :: r) = r) by (clear; induction l; [reflexivity|assumption]).
  rewrite E1, E2. split; [exists l, r; auto|]. rewrite !sound_linked, !linked_tree. intros [H1 H2]. split; [assumption|]. apply Forall_app in H2 as [H2 H3]. inversion H3; subst. apply Forall_app. auto.
Qed.
(** a block that goes to another mesh *)
Definition with_child (r : nat) : tree := Tree (Some r) None [Tree None (Some (Cell [[0]] (Some (Pts r)))) []].
Definition bare (r : nat) : tree := Tree (Some r) None [].
Lemma leave_wrong : exists i j c t2', i <> j /\ sound (Tree (Some i) None [Tree None (Some c) []]) /\
  leave (Tree (Some i) None [Tree None (Some c) []]) 0 = Ok (Tree (Some i) None [], Tree None (Some c) []) /\
  sound (Tree (Some j) None []) /\ join None (Tree (Some j) None []) [] (Tree None (Some c) []) = Ok t2' /\ ~ sound t2'.
Proof.
  exists 0, 1, (Cell [[0]] (Some (Pts 0))). eexists. split; [discriminate|]. split; [|split; [reflexivity|split; [|split; [reflexivity|]]]].
  - apply sound_linked. cbn. eauto 10.
  - apply sound_linked. cbn. auto.
  - intros H. apply sound_linked in H. cbn in H. destruct H as (_ & ((r & E & [Hl|Hl]) & _) & _); [discriminate|]. injection E as <-. discriminate.
Qed.

(** ** copies *)
Definition inv (h0 : heap) (st : state) : Prop :=
  (exists e, fst st = h0 ++ e) /\
  forall a b, lookup a (snd st) = Some b -> length h0 <= b < length (fst st) /\ exists x, nth_error h0 a = Some x /\ nth_error (fst st) b = Some x.
Definition later (st st' : state) : Prop := (exists e, fst st' = fst st ++ e) /\ forall a b, lookup a (snd st) = Some b -> lookup a (snd st') = Some b.
Lemma later_refl st : later st st.
Proof. split; [exists []; now rewrite app_nil_r|auto]. Qed.
Lemma later_trans a b c : later a b -> later b c -> later a c.
Proof. intros [(e1 & E1) H1] [(e2 & E2) H2]. split; [|auto]. exists (e1 ++ e2). now rewrite E2, E1, app_assoc. Qed.
Lemma later_nth st st' r x : later st st' -> nth_error (fst st) r = Some x -> nth_error (fst st') r = Some x.
Proof. intros [(e & ->) _] H. rewrite nth_error_app1; [assumption|]. apply nth_error_Some. congruence. Qed.
Lemma later_len st st' : later st st' -> length (fst st) <= length (fst st').
Proof. intros [(e & ->) _]. rewrite app_length. lia. Qed.
Definition fresh (h0 : heap) (h : heap) (r : nat) : Prop := length h0 <= r < length h.
Lemma copy_object_ok h0 deep st r : inv h0 st -> r < length h0 ->
  exists st' r', copy_object deep st r = Ok (st', r') /\ inv h0 st' /\ (deep = true -> later st st' /\ lookup r (snd st') = Some r') /\ (exists e, fst st' = fst st ++ e) /\ fresh h0 (fst st') r' /\ (exists x, nth_error h0 r = Some x /\ nth_error (fst st') r' = Some x).
Proof.
  intros [(e & He) Hm] Hr. unfold copy_object. destruct (if deep then lookup r (snd st) else None) as [r'|] eqn:E.
  - destruct deep; [|discriminate]. destruct (Hm _ _ E) as (H1 & x & H2 & H3). exists st, r'. split; [reflexivity|]. split; [split; eauto|]. split; [intros _; split; [apply later_refl|assumption]|]. split; [exists []; now rewrite app_nil_r|]. split; [exact H1|]. eauto.
  - destruct (get_lt h0 r Hr) as [x Ex]. apply get_Ok in Ex. assert (Ex' : nth_error (fst st) r = Some x) by (rewrite He, nth_error_app1; assumption).
    rewrite (proj2 (get_Ok _ _ _) Ex'). cbn [bind]. do 2 eexists. split; [reflexivity|]. cbn [fst snd].
    assert (Hlast : nth_error (fst st ++ [x]) (length (fst st)) = Some x) by (rewrite nth_error_app2, Nat.sub_diag by lia; reflexivity).
    assert (Hlen : length h0 <= length (fst st)) by (rewrite He, app_length; lia).
    split; [|split; [|split; [eauto|split; [unfold fresh; rewrite app_length; cbn [length]; lia|eauto]]]].
    + split; [exists (e ++ [x]); cbn [fst]; now rewrite He, app_assoc|]. cbn [fst snd lookup]. intros a b Hb. destruct (Nat.eqb_spec r a) as [->|Hn].
      * injection Hb as <-. rewrite app_length. cbn [length]. split; [lia|]. eauto.
      * destruct (Hm a b Hb) as (H1 & y & H2 & H3). rewrite app_length. cbn [length]. split; [lia|]. exists y. split; [assumption|]. rewrite nth_error_app1; [assumption|lia].
    + intros ->. split; [|cbn [lookup]; now rewrite Nat.eqb_refl]. split; [cbn [fst]; eauto|]. cbn [snd lookup]. intros a b Hb. destruct (Nat.eqb_spec r a) as [->|Hn]; [|assumption]. rewrite E in Hb. discriminate.
Qed.
(** the heap only grows *)
Definition grows (st st' : state) : Prop := exists e, fst st' = fst st ++ e.
Lemma grows_refl st : grows st st.
Proof. exists []. now rewrite app_nil_r. Qed.
Lemma grows_trans a b c : grows a b -> grows b c -> grows a c.
Proof. intros (e1 & E1) (e2 & E2). exists (e1 ++ e2). now rewrite E2, E1, app_assoc. Qed.
Lemma grows_len a b : grows a b -> length (fst a) <= length (fst b).
Proof. intros (e & ->). rewrite app_length. lia. Qed.
Lemma grows_fresh h0 a b r : grows a b -> fresh h0 (fst a) r -> fresh h0 (fst b) r.
Proof. intros H [H1 H2]. apply grows_len in H. unfold fresh. lia. Qed.
Lemma grows_nth a b r x : grows a b -> nth_error (fst a) r = Some x -> nth_error (fst b) r = Some x.
Proof. intros (e & ->) H. rewrite nth_error_app1; [assumption|]. apply nth_error_Some. congruence. Qed.
Lemma copy_pd_ok h0 deep st pd : inv h0 st -> (forall r, pd = Some r -> r < length h0) ->
  exists st' pd', copy_pd deep st pd = Ok (st', pd') /\ inv h0 st' /\ grows st st' /\ same_points h0 pd (fst st') pd' /\ (forall r, pd' = Some r -> fresh h0 (fst st') r) /\
    (deep = true -> forall r r', pd = Some r -> pd' = Some r' -> lookup r (snd st') = Some r').
Proof.
  intros Hi Hr. destruct pd as [r|]; cbn [copy_pd].
  - destruct (copy_object_ok h0 deep st r Hi (Hr r eq_refl)) as (st' & r' & -> & H1 & H2 & H3 & H4 & x & H5 & H6). cbn [bind fst snd]. do 2 eexists. split; [reflexivity|]. split; [assumption|]. split; [exact H3|]. split; [exists x; auto|]. split; [intros q Hq; injection Hq as <-; exact H4|].
    intros Hd q q' Eq Eq'. injection Eq as <-. injection Eq' as <-. now apply H2.
  - do 2 eexists. split; [reflexivity|]. split; [assumption|]. split; [apply grows_refl|]. split; [exact I|]. split; [discriminate|]. discriminate.
Qed.
Lemma copy_cell_ok h0 deep st cd : inv h0 st -> (forall r, (exists c, cd = Some c /\ clink c = Some (Pts r)) -> r < length h0) ->
  exists st' cd', copy_cell deep st cd = Ok (st', cd') /\ inv h0 st' /\ grows st st' /\ option_map crows cd = option_map crows cd' /\
    (forall c', cd' = Some c' -> exists c, cd = Some c /\ match clink c with Some (Pts r) => exists r', clink c' = Some (Pts r') /\ fresh h0 (fst st') r' /\ (deep = true -> forall q, lookup r (snd st) = Some q -> r' = q) | l => clink c' = l end).
Proof.
  intros Hi Hr. destruct cd as [[rows l]|]; cbn [copy_cell clink crows].
  - destruct l as [[r|]|].
    + destruct (copy_object_ok h0 deep st r Hi) as (st' & r' & E & H1 & H2 & H3 & H4 & _); [apply Hr; eexists; split; [reflexivity|reflexivity]|]. rewrite E. cbn [bind fst snd]. do 2 eexists. split; [reflexivity|]. split; [assumption|]. split; [exact H3|]. split; [reflexivity|].
      intros c' Hc. injection Hc as <-. eexists. split; [reflexivity|]. cbn [clink]. exists r'. split; [reflexivity|]. split; [assumption|]. intros -> q Hq. unfold copy_object in E. rewrite Hq in E. now injection E.
    + do 2 eexists. split; [reflexivity|]. split; [assumption|]. split; [apply grows_refl|]. split; [reflexivity|]. intros c' Hc. injection Hc as <-. eexists. split; [reflexivity|reflexivity].
    + do 2 eexists. split; [reflexivity|]. split; [assumption|]. split; [apply grows_refl|]. split; [reflexivity|]. intros c' Hc. injection Hc as <-. eexists. split; [reflexivity|reflexivity].
  - do 2 eexists. split; [reflexivity|]. split; [assumption|]. split; [apply grows_refl|]. split; [reflexivity|]. discriminate.
Qed.
Lemma present_tree h pd cd subs : present h (Tree pd cd subs) <-> (forall r, pd = Some r -> r < length h) /\ (forall r, (exists c, cd = Some c /\ clink c = Some (Pts r)) -> r < length h) /\ Forall (present h) subs.
Proof.
  unfold present. cbn [mentions]. split.
  - intros H. split; [|split].
    + intros r ->. apply H. now left.
    + intros r ([rows l] & -> & Hl). cbn [clink] in Hl. subst l. apply H. apply in_or_app. right. now left.
    + apply Forall_forall. intros s Hs r Hr. apply H. apply in_or_app. right. apply in_or_app. right. apply in_flat_map. eauto.
  - intros (H1 & H2 & H3) r Hr. apply in_app_or in Hr as [Hr|Hr]; [destruct pd; [|destruct Hr]; destruct Hr as [<-|[]]; auto|]. apply in_app_or in Hr as [Hr|Hr].
    + destruct cd as [[rows [[q|]|]]|]; try destruct Hr as [].
      * subst q. apply H2. eexists. split; reflexivity.
      * contradiction.
    + apply in_flat_map in Hr as (s & Hs & Hr). rewrite Forall_forall in H3. exact (H3 s Hs r Hr).
Qed.
Definition all_fresh (h0 h : heap) (t : tree) : Prop := forall r, In r (mentions t) -> fresh h0 h r.
Lemma all_fresh_tree h0 h pd cd subs : all_fresh h0 h (Tree pd cd subs) <-> (forall r, pd = Some r -> fresh h0 h r) /\ (forall r, (exists c, cd = Some c /\ clink c = Some (Pts r)) -> fresh h0 h r) /\ Forall (all_fresh h0 h) subs.
Proof.
  unfold all_fresh. cbn [mentions]. split.
  - intros H. split; [|split].
    + intros r ->. apply H. now left.
    + intros r ([rows l] & -> & Hl). cbn [clink] in Hl. subst l. apply H. apply in_or_app. right. now left.
    + apply Forall_forall. intros s Hs r Hr. apply H. apply in_or_app. right. apply in_or_app. right. apply in_flat_map. eauto.
  - intros (H1 & H2 & H3) r Hr. apply in_app_or in Hr as [Hr|Hr]; [destruct pd; [|destruct Hr]; destruct Hr as [<-|[]]; auto|]. apply in_app_or in Hr as [Hr|Hr].
    + destruct cd as [[rows [[q|]|]]|]; try destruct Hr as [].
      * subst q. apply H2. eexists. split; reflexivity.
      * contradiction.
    + apply in_flat_map in Hr as (s & Hs & Hr). rewrite Forall_forall in H3. exact (H3 s Hs r Hr).
Qed.
Lemma fresh_mono h0 a b t : grows a b -> all_fresh h0 (fst a) t -> all_fresh h0 (fst b) t.
Proof. intros H Ha r Hr. exact (grows_fresh h0 a b r H (Ha r Hr)). Qed.
Lemma same_mono h0 a b t t' : grows a b -> same_mesh h0 (fst a) t t' -> same_mesh h0 (fst b) t t'.
Proof.
  intros H. revert t'. induction t as [pd cd subs IH] using tree_induction. intros t' Hs. inversion Hs as [? pd' ? cd' ? subs' H1 H2 H3]; subst. constructor; [|assumption|].
  - unfold same_points in *. destruct pd, pd'; auto. destruct H1 as (x & E1 & E2). exists x. split; [assumption|]. exact (grows_nth _ _ _ _ H E2).
  - clear -H3 IH. induction H3 as [|s s' l l' Hs _ IHl]; constructor; inversion IH; subst; auto.
Qed.
Lemma copy_child_ok h0 deep t : forall up up0 st, inv h0 st -> present h0 t -> linked up0 t -> (up0 = None \/ up <> None) -> (forall r, up = Some r -> fresh h0 (fst st) r) ->
  exists st' t', copy_child deep up st t = Ok (st', t') /\ inv h0 st' /\ grows st st' /\ same_mesh h0 (fst st') t t' /\ linked up t' /\ all_fresh h0 (fst st') t'.
Proof.
  induction t as [pd cd subs IH] using tree_induction. intros up up0 st Hi Hp Hl Hu Hf. cbn [copy_child]. apply present_tree in Hp as (Hp1 & Hp2 & Hp3). apply linked_tree in Hl as [Hl1 Hl2].
  destruct (copy_pd_ok h0 deep st pd Hi Hp1) as (st1 & pd' & -> & Hi1 & Hg1 & Hs1 & Hf1 & _). cbn [bind fst snd].
  destruct (copy_cell_ok h0 deep st1 cd Hi1 Hp2) as (st2 & cd' & -> & Hi2 & Hg2 & Hs2 & Hc2). cbn [bind fst snd].
  fold (points_here up pd'). set (src := points_here up pd').
  assert (Hsrc : points_here up0 pd = None \/ src <> None). { unfold src. unfold same_points in Hs1. destruct pd, pd'; cbn [points_here]; try contradiction; auto. right. discriminate. }
  assert (Hsf : forall r, src = Some r -> fresh h0 (fst st2) r). { unfold src. intros r Hr. apply (grows_fresh h0 st1 st2 r Hg2). destruct pd' as [q|]; cbn [points_here] in Hr; [apply Hf1; congruence|]. apply (grows_fresh h0 st st1 r Hg1). auto. }
  assert (Hcd : exists cd2, match cd' with None => Ok None | Some k => match src with Some r => Ok (Some (Cell (crows k) (Some (Pts r)))) | None => Err AttributeError end end = Ok cd2 /\ option_map crows cd = option_map crows cd2 /\ fits src cd2 /\
     forall r, (exists c, cd2 = Some c /\ clink c = Some (Pts r)) -> fresh h0 (fst st2) r).
  { destruct cd' as [k|].
    - destruct (Hc2 k eq_refl) as (c & -> & _). destruct Hl1 as (r0 & Er & _). destruct src as [r|] eqn:Es; [|destruct Hsrc; congruence]. eexists. split; [reflexivity|]. split; [exact Hs2|]. split; [exists r; auto|]. intros q (c' & Ec & Eq). injection Ec as <-. injection Eq as <-. now apply Hsf.
    - eexists. split; [reflexivity|]. split; [exact Hs2|]. split; [exact I|]. intros q (c' & Ec & _). discriminate. }
  destruct Hcd as (cd2 & -> & Hr2 & Hfit & Hfr). cbn [bind].
  assert (Hth : forall l st3, Forall (fun t => forall up up0 st, inv h0 st -> present h0 t -> linked up0 t -> (up0 = None \/ up <> None) -> (forall r, up = Some r -> fresh h0 (fst st) r) ->
     exists st' t', copy_child deep up st t = Ok (st', t') /\ inv h0 st' /\ grows st st' /\ same_mesh h0 (fst st') t t' /\ linked up t' /\ all_fresh h0 (fst st') t') l -> Forall (present h0) l -> Forall (linked (points_here up0 pd)) l -> inv h0 st3 -> grows st2 st3 ->
     exists st4 l', thread_copies (copy_child deep src) st3 l = Ok (st4, l') /\ inv h0 st4 /\ grows st3 st4 /\ Forall2 (same_mesh h0 (fst st4)) l l' /\ Forall (linked src) l' /\ Forall (all_fresh h0 (fst st4)) l').
  { induction l as [|s l IHl]; intros st3 H1 H2 H3 Hi3 Hg3; cbn [thread_copies].
    - do 2 eexists. split; [reflexivity|]. split; [assumption|]. split; [apply grows_refl|]. auto.
    - inversion H1 as [|? ? H1a H1b]; subst. inversion H2 as [|? ? H2a H2b]; subst. inversion H3 as [|? ? H3a H3b]; subst.
      destruct (H1a src (points_here up0 pd) st3 Hi3 H2a H3a Hsrc) as (st4 & s' & -> & Hi4 & Hg4 & Hs4 & Hl4 & Hf4); [intros r Hr; apply (grows_fresh h0 st2 st3 r Hg3); auto|]. cbn [bind fst snd].
      destruct (IHl st4 H1b H2b H3b Hi4 (grows_trans _ _ _ Hg3 Hg4)) as (st5 & l' & -> & Hi5 & Hg5 & Hs5 & Hl5 & Hf5). cbn [bind fst snd]. do 2 eexists. split; [reflexivity|]. split; [assumption|]. split; [exact (grows_trans _ _ _ Hg4 Hg5)|].
      split; [constructor; [exact (same_mono h0 st4 st5 _ _ Hg5 Hs4)|assumption]|]. split; [constructor; assumption|]. constructor; [exact (fresh_mono h0 st4 st5 _ Hg5 Hf4)|assumption]. }
  destruct (Hth subs st2 IH Hp3 Hl2 Hi2 (grows_refl _)) as (st4 & l' & -> & Hi4 & Hg4 & Hs4 & Hl4 & Hf4). cbn [bind fst snd].
  assert (Hg14 : grows st1 st4) by exact (grows_trans _ _ _ Hg2 Hg4).
  do 2 eexists. split; [reflexivity|]. split; [assumption|]. split; [exact (grows_trans _ _ _ Hg1 Hg14)|]. split; [constructor; [|assumption|assumption]|].
  - unfold same_points in *. destruct pd, pd'; auto. destruct Hs1 as (x & E1 & E2). exists x. split; [assumption|]. exact (grows_nth _ _ _ _ Hg14 E2).
  - split; [apply linked_tree; auto|]. apply all_fresh_tree. split; [intros r Hr; exact (grows_fresh h0 st1 st4 r Hg14 (Hf1 r Hr))|]. split; [|assumption]. intros r Hr. exact (grows_fresh h0 st2 st4 r Hg4 (Hfr r Hr)).
Qed.
Lemma copy_root_ok deep h t : sound t -> present h t -> (deep = true \/ tcd t = None \/ exists c, tcd t = Some c /\ clink c = None) ->
  exists h' t', copy_mesh deep h t = Ok (h', t') /\ (exists e, h' = h ++ e) /\ same_mesh h h' t t' /\ sound t' /\ all_fresh h h' t'.
Proof.
  intros Hs Hp Hc. apply sound_linked in Hs. destruct t as [pd cd subs]. cbn [copy_mesh tcd] in *. apply present_tree in Hp as (Hp1 & Hp2 & Hp3). apply linked_tree in Hs as [Hl1 Hl2]. cbn [points_here] in *.
  assert (Hi : inv h (h, [])) by (split; [exists []; now rewrite app_nil_r|discriminate]).
  destruct (copy_pd_ok h deep (h, []) pd Hi Hp1) as (st1 & pd' & -> & Hi1 & Hg1 & Hs1 & Hf1 & Hm1). cbn [bind fst snd].
  destruct (copy_cell_ok h deep st1 cd Hi1 Hp2) as (st2 & cd' & -> & Hi2 & Hg2 & Hs2 & Hc2). cbn [bind fst snd].
  assert (Hsrc : points_here None pd = None \/ pd' <> None). { unfold same_points in Hs1. destruct pd, pd'; cbn; try contradiction; auto. right. discriminate. }
  assert (Hsf : forall st r, grows st2 st -> pd' = Some r -> fresh h (fst st) r). { intros st r Hg Hr. apply (grows_fresh h st1 st r (grows_trans _ _ _ Hg2 Hg)). auto. }
  assert (Hth : forall l st3, Forall (present h) l -> Forall (linked (points_here None pd)) l -> inv h st3 -> grows st2 st3 ->
     exists st4 l', thread_copies (copy_child deep pd') st3 l = Ok (st4, l') /\ inv h st4 /\ grows st3 st4 /\ Forall2 (same_mesh h (fst st4)) l l' /\ Forall (linked pd') l' /\ Forall (all_fresh h (fst st4)) l').
  { induction l as [|s l IHl]; intros st3 H2 H3 Hi3 Hg3; cbn [thread_copies].
    - do 2 eexists. split; [reflexivity|]. split; [assumption|]. split; [apply grows_refl|]. auto.
    - inversion H2 as [|? ? H2a H2b]; subst. inversion H3 as [|? ? H3a H3b]; subst.
      destruct (copy_child_ok h deep s pd' (points_here None pd) st3 Hi3 H2a H3a Hsrc) as (st4 & s' & -> & Hi4 & Hg4 & Hs4 & Hl4 & Hf4); [intros r Hr; now apply Hsf|]. cbn [bind fst snd].
      destruct (IHl st4 H2b H3b Hi4 (grows_trans _ _ _ Hg3 Hg4)) as (st5 & l' & -> & Hi5 & Hg5 & Hs5 & Hl5 & Hf5). cbn [bind fst snd]. do 2 eexists. split; [reflexivity|]. split; [assumption|]. split; [exact (grows_trans _ _ _ Hg4 Hg5)|].
      split; [constructor; [exact (same_mono h st4 st5 _ _ Hg5 Hs4)|assumption]|]. split; [constructor; assumption|]. constructor; [exact (fresh_mono h st4 st5 _ Hg5 Hf4)|assumption]. }
  assert (Epd : points_here None pd = pd) by (destruct pd; reflexivity).
  destruct (Hth subs st2 Hp3 Hl2 Hi2 (grows_refl _)) as (st4 & l' & -> & Hi4 & Hg4 & Hs4 & Hl4 & Hf4). cbn [bind fst snd].
  assert (Hg14 : grows st1 st4) by exact (grows_trans _ _ _ Hg2 Hg4).
  do 2 eexists. split; [reflexivity|]. split; [exact (proj1 Hi4)|]. split; [constructor; [|assumption|assumption]|].
  { unfold same_points in *. destruct pd, pd'; auto. destruct Hs1 as (x & E1 & E2). exists x. split; [assumption|]. exact (grows_nth _ _ _ _ Hg14 E2). }
  split.
  - apply sound_linked. apply linked_tree. assert (E' : points_here None pd' = pd') by (destruct pd'; reflexivity). rewrite E'. split; [|exact Hl4].
    destruct cd' as [c'|]; [|exact I]. destruct (Hc2 c' eq_refl) as (c & -> & Hm). destruct Hl1 as (r & Er & Hl). rewrite Epd in Er. subst pd. destruct pd' as [r'|]; [|destruct Hs1]. exists r'. split; [reflexivity|].
    destruct (clink c) as [[q|]|] eqn:El; [|destruct Hl; discriminate|left; exact Hm]. destruct Hl as [Hl|Hl]; [discriminate|]. injection Hl as ->. destruct Hm as (q' & Hq' & _ & Hd).
    destruct Hc as [Hc|[Hc|(c0 & Hc & Hn)]]; [|discriminate|injection Hc as <-; congruence]. right. rewrite Hq'. do 2 f_equal. apply (Hd Hc). exact (Hm1 Hc r r' eq_refl eq_refl).
  - apply all_fresh_tree. split; [intros r Hr; exact (grows_fresh h st1 st4 r Hg14 (Hf1 r Hr))|]. split; [|assumption]. intros r (c' & -> & Hr). destruct (Hc2 c' eq_refl) as (c & _ & Hm). apply (grows_fresh h st2 st4 r Hg4).
    destruct (clink c) as [[q|]|]; [destruct Hm as (q' & Hq' & Hfq & _); rewrite Hr in Hq'; injection Hq' as <-; exact Hfq|congruence|congruence].
Qed.
