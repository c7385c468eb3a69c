(** * Proofs about [TrModel.v], part 3: order elevation *)
From Coq Require Import Reals Lra.
From Verif Require Export TrProofs2.

Lemma map2_Ok {A B C} (f : A -> B -> C) a b : length a = length b ->
  exists r, map2 f a b = Ok r /\ length r = length a /\
    forall d x y, nth_error a d = Some x -> nth_error b d = Some y -> nth_error r d = Some (f x y).
Proof.
  revert b; induction a as [|x a IH]; intros [|y b] H; simpl in H; try discriminate.
  - exists []. repeat split; auto. intros [|d] x y Hx; discriminate.
  - destruct (IH b) as [r [H1 [H2 H3]]]; [lia|]. exists (f x y :: r). simpl. rewrite H1. simpl.
    repeat split; auto. intros [|d] x' y'; simpl; [intros [= ->] [= ->]; auto|apply H3].
Qed.

Lemma vadd_R dim (a b : list R) : length a = dim -> length b = dim ->
  exists r, vadd a b = Ok r /\ length r = dim /\ forall d, nth d r 0%R = (nth d a 0 + nth d b 0)%R.
Proof.
  intros Ha Hb. destruct (map2_Ok kadd a b) as [r [H1 [H2 H3]]]; [lia|].
  exists r. split; auto. split; [lia|]. intros d.
  destruct (le_lt_dec dim d) as [Hd|Hd].
  - rewrite !nth_overflow by lia. lra.
  - destruct (nth_error_lt a d) as [x Hx]; [lia|]. destruct (nth_error_lt b d) as [y Hy]; [lia|].
    rewrite (nth_error_nth _ _ _ (H3 _ _ _ Hx Hy)), (nth_error_nth _ _ _ Hx), (nth_error_nth _ _ _ Hy). auto.
Qed.

Lemma vsum_R dim rs r0 : length r0 = dim -> rect dim rs ->
  exists s, foldM vadd rs r0 = Ok s /\ length s = dim /\
    forall d, nth d s 0%R = (nth d r0 0 + rsum (map (fun r => nth d r 0%R) rs))%R.
Proof.
  revert r0; induction rs as [|r rs IH]; intros r0 H0 Hr.
  - exists r0. repeat split; auto. intros d; unfold rsum; simpl; lra.
  - inversion Hr as [|? ? Hl Hr']; subst. destruct (vadd_R (length r0) r0 r) as [s [H1 [H2 H3]]]; auto.
    destruct (IH s H2 Hr') as [t [H4 [H5 H6]]]. exists t. cbn [foldM]. rewrite H1. cbn [bind].
    repeat split; auto. intros d. rewrite H6, H3. unfold rsum; simpl. lra.
Qed.

Lemma vmean_R dim (rows : list (list R)) : rows <> [] -> rect dim rows ->
  exists P, vmean rows = Ok P /\ length P = dim /\
    forall d, d < dim -> nth d P 0%R = (rsum (map (fun r => nth d r 0%R) rows) / INR (length rows))%R.
Proof.
  intros Hne Hr. destruct rows as [|r0 rs]; [congruence|]. inversion Hr; subst.
  destruct (vsum_R (length r0) rs r0) as [s [H1 [H2' H4]]]; auto.
  unfold vmean, vsum. rewrite H1. cbn [bind]. eexists. split; [reflexivity|].
  split; [rewrite map_length; auto|]. intros d Hd.
  assert (Hn : forall l (g : R -> R), d < length l -> nth d (map g l) 0%R = g (nth d l 0%R)).
  { clear. intros l g. revert d; induction l as [|x l IH]; intros [|d] H; simpl in *; auto; try lia. apply IH; lia. }
  rewrite Hn by lia. rewrite H4. unfold rsum; simpl map; simpl fold_right.
  cbn [kdiv NumR kofZ]. rewrite <- INR_IZR_INZ. reflexivity.
Qed.

Lemma rsum_perm l l' : Permutation l l' -> rsum l = rsum l'.
Proof. intros H; induction H; unfold rsum in *; simpl; try lra. Qed.

Lemma mean_of_perm dim coords ns ns' P : Permutation ns ns' -> mean_of dim coords ns P -> mean_of dim coords ns' P.
Proof.
  intros Hp [Hl H]. split; auto. intros d Hd. rewrite (H d Hd).
  rewrite (rsum_perm _ _ (Permutation_map _ Hp)), (Permutation_length Hp). auto.
Qed.

Lemma take_coords_ok (coords : list (list R)) ns : (forall n, In n ns -> n < length coords) ->
  take coords ns = Ok (map (fun n => nth n coords []) ns).
Proof.
  intros H. apply mapM_map. intros n Hn. apply get_Ok. apply nth_error_nth'. auto.
Qed.

Lemma mean_total dim coords ns : rect dim coords -> ns <> [] -> (forall n, In n ns -> n < length coords) ->
  exists P, (do ps <- take coords ns; vmean ps) = Ok P /\ mean_of dim coords ns P.
Proof.
  intros Hr Hne Hin. rewrite take_coords_ok by auto. cbn [bind].
  destruct (vmean_R dim (map (fun n => nth n coords []) ns)) as [P [H1 [H2 H3]]].
  - destruct ns; [congruence|discriminate].
  - unfold rect. rewrite Forall_forall. intros r Hr'. apply in_map_iff in Hr'. destruct Hr' as [n [<- Hn]].
    unfold rect in Hr. rewrite Forall_forall in Hr. apply Hr, nth_In, Hin; auto.
  - exists P. split; auto. split; auto. intros d Hd. rewrite (H3 d Hd), map_map, map_length. reflexivity.
Qed.

Lemma mean_of_unique dim coords ns P P' : mean_of dim coords ns P -> mean_of dim coords ns P' -> P = P'.
Proof.
  intros [H1 H2] [H3 H4]. apply nth_ext with (d := 0%R) (d' := 0%R); [lia|].
  intros d Hd. rewrite H2, H4 by lia. auto.
Qed.

(** ** Local tables *)

Definition local (locals : list (list nat)) (topo : list (list nat)) : res (list (list (list nat))) :=
  mapM (fun cell => mapM (take cell) locals) topo.

Lemma mapM_ext_in {A B} (f g : A -> res B) l : (forall x, In x l -> f x = g x) -> mapM f l = mapM g l.
Proof.
  induction l as [|x l IH]; intros H; simpl; auto. rewrite H by (left; auto).
  rewrite IH; auto. intros y Hy; apply H; right; auto.
Qed.

Ltac local_table :=
  intros Hr; apply mapM_ext_in; intros cell Hc; unfold rect in Hr; rewrite Forall_forall in Hr;
  specialize (Hr _ Hc); clear Hc;
  repeat match type of Hr with
  | length ?c = S _ => destruct c; simpl in Hr; [discriminate|injection Hr as Hr]
  | length ?c = 0 => destruct c; [|discriminate]; clear Hr
  end; reflexivity.

Definition faceIds_H8 := [[0;4;7;3];[1;2;6;5];[0;1;5;4];[2;3;7;6];[0;3;2;1];[4;5;6;7]].
Definition edgeIds_Q4 := [[0;1];[1;2];[2;3];[3;0]].
Definition edgeIds_W6 := [[0;1];[1;2];[2;0];[3;4];[4;5];[5;3];[0;3];[1;4];[2;5]].
Definition faceIds_W6 := [[4;3;0;1];[5;4;1;2];[3;5;2;0]].
Lemma edges_tri_local topo : rect 3 topo -> edges_tri topo = local edgeIds_T3 topo.
Proof. local_table. Qed.
Lemma edges_Q4_local topo : rect 4 topo -> edges_Q4 topo = local edgeIds_Q4 topo.
Proof. local_table. Qed.
Lemma edges_TET4_local topo : rect 4 topo -> edges_TET4 topo = local edgeIds_TET4 topo.
Proof. local_table. Qed.
Lemma edges_H8_local topo : rect 8 topo -> edges_H8 topo = local edgeIds_H8 topo.
Proof. local_table. Qed.
Lemma faces_H8_local topo : rect 8 topo -> faces_H8 topo = local faceIds_H8 topo.
Proof. local_table. Qed.
Lemma edges_W6_local topo : rect 6 topo -> edges_W6 topo = local edgeIds_W6 topo.
Proof. local_table. Qed.
Lemma faces_W6_quad_local topo : rect 6 topo -> faces_W6_quad topo = local faceIds_W6 topo.
Proof. local_table. Qed.

Definition locals_ok (w : nat) (locals : list (list nat)) : Prop :=
  forall ls, In ls locals -> ls <> [] /\ forall l, In l ls -> l < w.

Lemma local_total w locals topo : rect w topo -> locals_ok w locals -> exists t3, local locals topo = Ok t3.
Proof.
  intros Hr Hl. apply mapM_total. intros cell Hc. apply mapM_total. intros ls Hls. apply take_ok.
  intros l Hin. unfold rect in Hr. rewrite Forall_forall in Hr. rewrite (Hr _ Hc). eapply Hl; eauto.
Qed.

Lemma local_entity locals topo t3 i j e : local locals topo = Ok t3 ->
  (entity t3 i j e <-> exists cell ls, nth_error topo i = Some cell /\ nth_error locals j = Some ls /\ take cell ls = Ok e).
Proof.
  intros H. split.
  - intros [c [H1 H2]]. destruct (mapM_nth_error_r _ _ _ _ _ H H1) as [cell [H3 H4]].
    destruct (mapM_nth_error_r _ _ _ _ _ H4 H2) as [ls [H5 H6]]. eauto.
  - intros [cell [ls [H1 [H2 H3]]]]. destruct (mapM_nth_error _ _ _ _ _ H H1) as [c [H4 H5]].
    destruct (mapM_nth_error _ _ _ _ _ H5 H2) as [e' [H6 H7]]. rewrite H3 in H7. injection H7 as <-.
    exists c; auto.
Qed.

Lemma sorted_perm_nat x x' : StronglySorted le x -> StronglySorted le x' -> Permutation x x' -> x = x'.
Proof.
  intros H H' Hp. apply np_sort_id_iff in H, H'. rewrite <- H, <- H'. apply np_sort_eq_perm; auto.
Qed.

Lemma shape_map_add nP ids i j n :
  entry (map (map (fun i => i + nP)) ids) i j n <-> exists k, n = k + nP /\ entry ids i j k.
Proof.
  unfold entry. rewrite nth_error_map. destruct (nth_error ids i) as [r|]; simpl.
  - split.
    + intros [r' [[= <-] H]]. rewrite nth_error_map in H. destruct (nth_error r j) as [k|] eqn:E; [|discriminate].
      simpl in H. injection H as <-. eauto.
    + intros [k [-> [r' [[= <-] H]]]]. eexists; split; [reflexivity|]. rewrite nth_error_map, H; auto.
  - split; [intros [r [H _]]; discriminate|]. intros [k [_ [r [H _]]]]; discriminate.
Qed.

Lemma new_nodes_local w dim (coords : list (list R)) topo locals nP t3 :
  is_mesh w dim coords topo -> locals_ok w locals -> local locals topo = Ok t3 ->
  exists new ids, new_nodes coords nP t3 = Ok (new, ids) /\ rect dim new /\
    length ids = length topo /\ rect (length locals) ids /\
    (forall i j cell ls ns, nth_error topo i = Some cell -> nth_error locals j = Some ls -> take cell ls = Ok ns ->
       exists k P, entry ids i j (k + nP) /\ nth_error new k = Some P /\ mean_of dim coords ns P) /\
    (forall i j cell ls ns n i' j' cell' ls' ns' n',
       nth_error topo i = Some cell -> nth_error locals j = Some ls -> take cell ls = Ok ns ->
       nth_error topo i' = Some cell' -> nth_error locals j' = Some ls' -> take cell' ls' = Ok ns' ->
       entry ids i j n -> entry ids i' j' n' -> (n = n' <-> Permutation ns ns')) /\
    (forall k, k < length new -> exists i j, entry ids i j (k + nP)).
Proof.
  intros [Hc [Hw Hin]] Hl Ht3.
  destruct (unique_topo_data_ok t3) as [us [ids [Hu [Hs [Hsort [Hsh [Hall Hback]]]]]]].
  unfold new_nodes. rewrite Hu. cbn [bind fst snd].
  assert (Hent : forall i j e, entity t3 i j e -> e <> [] /\ forall n, In n e -> n < length coords).
  { intros i j e He. apply (local_entity _ _ _ _ _ _ Ht3) in He. destruct He as [cell [ls [H1 [H2 H3]]]].
    apply nth_error_In in H1. split.
    - apply nth_error_In in H2. apply mapM_length in H3. intros ->. destruct ls; [|discriminate].
      apply Hl in H2. tauto.
    - intros n Hn. apply (proj1 (mapM_In _ _ _ _ H3)) in Hn. destruct Hn as [l [_ Hg]]. apply get_Ok in Hg.
      apply nth_error_In in Hg. eauto. }
  assert (Hmean : forall x, In x us -> exists P, (do ps <- take coords x; vmean ps) = Ok P /\ mean_of dim coords x P).
  { intros x Hx. destruct (Hback _ Hx) as [i [j [e [He Hp]]]]. destruct (Hent _ _ _ He) as [H1 H2].
    apply mean_total; auto.
    - intros ->. apply Permutation_sym, Permutation_nil in Hp. auto.
    - intros n Hn. apply H2. eapply Permutation_in; [apply Permutation_sym|]; eauto. }
  destruct (mapM_total (fun nodes => do ps <- take coords nodes; vmean ps) us) as [new Hnew].
  { intros x Hx. destruct (Hmean x Hx) as [P [H _]]. eauto. }
  rewrite Hnew. cbn [bind]. do 2 eexists. split; [reflexivity|]. split.
  { unfold rect. rewrite Forall_forall. intros P HP. apply (proj1 (mapM_In _ _ _ _ Hnew)) in HP.
    destruct HP as [x [Hx HP]]. destruct (Hmean x Hx) as [P' [H1 [H2 _]]]. congruence. }
  split.
  { rewrite map_length. apply (f_equal (@length nat)) in Hsh. rewrite !map_length in Hsh.
    rewrite Hsh. eapply mapM_length; eauto. }
  split.
  { unfold rect. rewrite Forall_forall. intros r Hr. apply in_map_iff in Hr. destruct Hr as [r0 [<- Hr]].
    rewrite map_length. apply In_nth_error in Hr. destruct Hr as [i Hi].
    assert (Hlen : nth_error (map (@length nat) ids) i = Some (length r0)) by (rewrite nth_error_map, Hi; auto).
    rewrite Hsh, nth_error_map in Hlen. destruct (nth_error t3 i) as [c|] eqn:E; [|discriminate].
    simpl in Hlen. injection Hlen as <-. destruct (mapM_nth_error_r _ _ _ _ _ Ht3 E) as [cell [_ H]].
    eapply mapM_length; eauto. }
  split; [|split].
  - intros i j cell ls ns H1 H2 H3.
    destruct (Hall i j ns) as [k [x [H4 [H5 H6]]]]; [apply (local_entity _ _ _ _ _ _ Ht3); eauto|].
    destruct (mapM_nth_error _ _ _ _ _ Hnew H5) as [P [H7 H8]].
    exists k, P. split; [apply shape_map_add; eauto|]. split; auto.
    destruct (Hmean x (nth_error_In _ _ H5)) as [P' [H9 H10]]. rewrite H8 in H9. injection H9 as <-.
    eapply mean_of_perm; [apply Permutation_sym; eauto|auto].
  - intros i j cell ls ns n i' j' cell' ls' ns' n' H1 H2 H3 H1' H2' H3' He He'.
    apply shape_map_add in He, He'. destruct He as [k [-> He]], He' as [k' [-> He']].
    rewrite <- (unique_topo_data_ids t3 us ids i j ns i' j' ns' k k' Hu); auto; [lia| |];
      apply (local_entity _ _ _ _ _ _ Ht3); eauto.
  - intros k Hk. assert (Hku : k < length us) by (apply mapM_length in Hnew; lia).
    destruct (nth_error_lt _ _ Hku) as [x Hx].
    destruct (Hback x (nth_error_In _ _ Hx)) as [i [j [e [He Hp]]]].
    destruct (Hall _ _ _ He) as [k' [x' [H1 [H2 H3]]]].
    assert (x = x').
    { apply sorted_perm_nat; [apply Hsort; eapply nth_error_In; eauto..|].
      transitivity e; auto. apply Permutation_sym; auto. }
    subst x'. assert (k = k').
    { apply (proj1 (NoDup_nth_error us)); [|auto|congruence].
      apply (sorted_NoDup lex_cmp lex_cmp_eq). exact Hs. }
    subst k'. exists i, j. apply shape_map_add. eauto.
Qed.

(** ** Building an elevated mesh in steps *)

Lemma hstack_Ok {A} (a b : list (list A)) : length a = length b ->
  exists r, hstack a b = Ok r /\ length r = length a /\
    forall i x y, nth_error a i = Some x -> nth_error b i = Some y -> nth_error r i = Some (x ++ y).
Proof. intros H. destruct (map2_Ok (@app A) a b H) as [r [H1 [H2 H3]]]. exists r; auto. Qed.

Definition corners (w : nat) : list node_kind := map Corner (seq 0 w).

Lemma elevated_base w dim coords topo :
  is_mesh w dim coords topo -> elevated dim (corners w) coords topo coords topo.
Proof.
  intros [Hc [Hw Hin]]. unfold corners.
  assert (Hk : forall k kind, nth_error (map Corner (seq 0 w)) k = Some kind -> kind = Corner k /\ k < w).
  { intros k kind H. rewrite nth_error_map, nth_error_seq' in H. destruct (k <? w) eqn:E; [|discriminate].
    simpl in H. injection H as <-. apply Nat.ltb_lt in E. auto. }
  constructor; auto.
  - exists []. rewrite app_nil_r; auto.
  - intros i cell Hi. exists cell. split; auto. pose proof (rect_nth _ _ _ _ Hw Hi) as Hl.
    split; [rewrite map_length, seq_length; auto|]. intros k kind Hkind. apply Hk in Hkind. destruct Hkind as [-> Hlt].
    destruct (nth_error_lt cell k) as [n Hn]; [lia|]. exists n; auto.
  - intros i i' k k' cell cell' ls ls' ns ns' n n' _ _ Hp. apply Hk in Hp. destruct Hp as [? _]. discriminate.
  - intros i i' k k' n Hp. apply Hk in Hp. destruct Hp as [? _]. discriminate.
  - intros i k n [r [H1 H2]]. eapply Hin; eapply nth_error_In; eauto.
  - intros n Hn. lia.
Qed.

Lemma placed_app dim coords coords' new cell kind n :
  placed dim coords coords' cell kind n -> placed dim coords (coords' ++ new) cell kind n.
Proof.
  destruct kind as [c|ls|]; simpl; auto.
  - intros [H1 [ns [P [H2 [H3 H4]]]]]. split; auto. exists ns, P. split; auto. split; auto.
    rewrite nth_error_app1; [auto|eapply nth_error_Some_lt; eauto].
  - intros [H1 [P [H3 H4]]]. split; auto. exists P. split; auto.
    rewrite nth_error_app1; [auto|eapply nth_error_Some_lt; eauto].
Qed.

Lemma rect_app {A} n (a b : list (list A)) : rect n a -> rect n b -> rect n (a ++ b).
Proof. unfold rect. intros; apply Forall_app; auto. Qed.

Lemma entry_hstack (topo a b t : list (list nat)) i k n : length a = length b -> hstack a b = Ok t -> length topo = length a ->
  (forall i x y, nth_error a i = Some x -> nth_error b i = Some y -> nth_error t i = Some (x ++ y)) ->
  (entry t i k n <-> exists x y, nth_error a i = Some x /\ nth_error b i = Some y /\ 
     (nth_error x k = Some n \/ length x <= k /\ nth_error y (k - length x) = Some n)).
Proof.
  intros Hl Ht _ H. split.
  - intros [r [H1 H2]].
    assert (Hi : i < length a).
    { apply nth_error_Some_lt in H1. destruct (map2_Ok (@app nat) a b Hl) as [r' [E1 [E2 _]]]. unfold hstack in Ht.
      rewrite Ht in E1. injection E1 as <-. lia. }
    destruct (nth_error_lt a i Hi) as [x Hx]. destruct (nth_error_lt b i) as [y Hy]; [lia|].
    rewrite (H _ _ _ Hx Hy) in H1. injection H1 as <-. exists x, y. split; auto. split; auto.
    destruct (le_lt_dec (length x) k).
    + right. rewrite nth_error_app2 in H2 by auto. auto.
    + left. rewrite nth_error_app1 in H2 by auto. auto.
  - intros [x [y [H1 [H2 H3]]]]. exists (x ++ y). split; [auto|].
    destruct H3 as [H3|[H3 H4]].
    + rewrite nth_error_app1; [auto|eapply nth_error_Some_lt; eauto].
    + rewrite nth_error_app2; auto.
Qed.

(** a block of edges or faces; all earlier shared nodes have a different number of corners *)
Lemma elevated_shared w dim plan coords topo coords' topo' locals t3 :
  is_mesh w dim coords topo -> elevated dim plan coords topo coords' topo' ->
  locals_ok w locals -> local locals topo = Ok t3 ->
  (forall ls ls', In (Shared ls) plan -> In ls' locals -> length ls <> length ls') ->
  exists new ids t,
    new_nodes coords (length coords') t3 = Ok (new, ids) /\ hstack topo' ids = Ok t /\
    elevated dim (plan ++ map Shared locals) coords topo (coords' ++ new) t.
Proof.
  intros Hm El Hl Ht3 Hdiff.
  destruct (new_nodes_local w dim coords topo locals (length coords') t3 Hm Hl Ht3)
    as [new [ids [Hn [Hrn [Hli [Hri [Hpl [Hsh Hus]]]]]]]].
  destruct El as [Ep Er Ec En Es Eo Erg Eu].
  assert (Hlt : length topo' = length ids) by congruence.
  destruct (hstack_Ok topo' ids Hlt) as [t [Ht [Htl Htn]]].
  exists new, ids, t. split; auto. split; auto.
  assert (Hrow : forall i x, nth_error topo' i = Some x -> length x = length plan).
  { intros i x Hx. destruct (nth_error_lt topo i) as [cell Hcell]; [rewrite <- Ec; eapply nth_error_Some_lt; eauto|].
    destruct (En _ _ Hcell) as [cell' [H1 [H2 _]]]. congruence. }
  assert (Hent : forall i k n, entry t i k n <->
     (k < length plan /\ entry topo' i k n) \/ (length plan <= k /\ entry ids i (k - length plan) n)).
  { intros i k n. rewrite (entry_hstack topo topo' ids t i k n Hlt Ht (eq_sym Ec) Htn). split.
    - intros [x [y [H1 [H2 [H3|[H3 H4]]]]]].
      + left. split; [rewrite <- (Hrow _ _ H1); eapply nth_error_Some_lt; eauto|]. exists x; auto.
      + rewrite (Hrow _ _ H1) in H3, H4. right. split; auto. exists y; auto.
    - intros [[H1 [x [H2 H3]]]|[H1 [y [H2 H3]]]].
      + destruct (nth_error_lt ids i) as [y Hy]; [rewrite <- Hlt; eapply nth_error_Some_lt; eauto|]. eauto 8.
      + destruct (nth_error_lt topo' i) as [x Hx]; [rewrite Hlt; eapply nth_error_Some_lt; eauto|].
        exists x, y. rewrite (Hrow _ _ Hx). auto 8. }
  assert (Hidlow : forall i k n, entry ids i k n -> length coords' <= n < length (coords' ++ new)).
  { intros i k n He. destruct He as [y [H1 H2]].
    destruct (nth_error_lt topo i) as [cell Hcell]; [rewrite <- Hli; eapply nth_error_Some_lt; eauto|].
    assert (Hk : k < length locals) by (rewrite <- (rect_nth _ _ _ _ Hri H1); eapply nth_error_Some_lt; eauto).
    destruct (nth_error_lt _ _ Hk) as [ls Hls].
    destruct (take_ok cell ls) as [ns Hns].
    { intros l Hin. destruct Hm as [_ [Hw _]]. rewrite (rect_nth _ _ _ _ Hw Hcell).
      apply (Hl ls); [eapply nth_error_In; eauto|auto]. }
    destruct (Hpl _ _ _ _ _ Hcell Hls Hns) as [q [P [He [Hq _]]]].
    destruct He as [y' [H1' H2']]. assert (n = q + length coords') by congruence. subst n.
    rewrite app_length. apply nth_error_Some_lt in Hq. lia. }
  assert (Hcl : length coords <= length coords').
  { destruct Ep as [nw ->]. rewrite app_length; lia. }
  constructor.
  - destruct Ep as [nw ->]. exists (nw ++ new). rewrite app_assoc; auto.
  - apply rect_app; auto.
  - congruence.
  - intros i cell Hi. destruct (En _ _ Hi) as [x [H1 [H2 H3]]].
    destruct (nth_error_lt ids i) as [y Hy]; [rewrite <- Hlt; eapply nth_error_Some_lt; eauto|].
    exists (x ++ y). split; [auto|]. split.
    { rewrite !app_length, map_length, H2, (rect_nth _ _ _ _ Hri Hy); auto. }
    intros k kind Hk. destruct (le_lt_dec (length plan) k) as [Hge|Hlt'].
    + rewrite nth_error_app2 in Hk by auto. rewrite nth_error_map in Hk.
      destruct (nth_error locals (k - length plan)) as [ls|] eqn:E; [|discriminate].
      simpl in Hk. injection Hk as <-.
      destruct (take_ok cell ls) as [ns Hns].
      { intros l Hin. destruct Hm as [_ [Hw _]]. rewrite (rect_nth _ _ _ _ Hw Hi).
        apply (Hl ls); [eapply nth_error_In; eauto|auto]. }
      destruct (Hpl _ _ _ _ _ Hi E Hns) as [q [P [He [Hq HP]]]].
      exists (q + length coords'). split.
      * rewrite nth_error_app2 by lia. rewrite H2. destruct He as [y' [H4 H5]]. congruence.
      * simpl. split; [lia|]. exists ns, P. split; auto. split; auto.
        rewrite nth_error_app2 by lia. rewrite Nat.add_sub. auto.
    + rewrite nth_error_app1 in Hk by auto. destruct (H3 _ _ Hk) as [n [H4 H5]].
      exists n. split; [rewrite nth_error_app1 by lia; auto|]. apply placed_app; auto.
  - assert (Hcross : forall i i' k k' cell cell' ls ls' ns ns' n n',
      nth_error topo i = Some cell -> nth_error topo i' = Some cell' ->
      nth_error plan k = Some (Shared ls) -> nth_error locals k' = Some ls' ->
      take cell ls = Ok ns -> take cell' ls' = Ok ns' ->
      entry topo' i k n -> entry ids i' k' n' -> ~ Permutation ns ns' /\ n <> n').
    { intros i i' k k' cell cell' ls ls' ns ns' n n' Hi Hi' Hk Hk' Hns Hns' He He'. split.
      - intros Hp. apply Permutation_length in Hp. apply mapM_length in Hns, Hns'.
        apply (Hdiff ls ls'); [eapply nth_error_In; eauto|eapply nth_error_In; eauto|congruence].
      - apply Hidlow in He'. apply Erg in He. lia. }
    intros i i' k k' cell cell' ls ls' ns ns' n n' Hi Hi' Hk Hk' Hns Hns' He He'.
    apply Hent in He, He'.
    destruct He as [[Hlk He]|[Hlk He]], He' as [[Hlk' He']|[Hlk' He']].
    + rewrite nth_error_app1 in Hk by auto. rewrite nth_error_app1 in Hk' by auto. exact (Es _ _ _ _ _ _ _ _ _ _ _ _ Hi Hi' Hk Hk' Hns Hns' He He').
    + rewrite nth_error_app1 in Hk by auto. rewrite nth_error_app2, nth_error_map in Hk' by auto.
      destruct (nth_error locals (k' - length plan)) as [ls2|] eqn:E; [|discriminate].
      simpl in Hk'. injection Hk' as <-.
      destruct (Hcross i i' k _ _ _ _ _ _ _ _ _ Hi Hi' Hk E Hns Hns' He He'). tauto.
    + rewrite nth_error_app1 in Hk' by auto. rewrite nth_error_app2, nth_error_map in Hk by auto.
      destruct (nth_error locals (k - length plan)) as [ls2|] eqn:E; [|discriminate].
      simpl in Hk. injection Hk as <-.
      destruct (Hcross i' i k' _ _ _ _ _ _ _ _ _ Hi' Hi Hk' E Hns' Hns He' He) as [Ha Hb].
      split; [intros ->; congruence|]. intros Hp. apply Permutation_sym in Hp. tauto.
    + rewrite nth_error_app2, nth_error_map in Hk by auto. rewrite nth_error_app2, nth_error_map in Hk' by auto.
      destruct (nth_error locals (k - length plan)) as [ls2|] eqn:E; [|discriminate].
      simpl in Hk. injection Hk as <-.
      destruct (nth_error locals (k' - length plan)) as [ls3|] eqn:E'; [|discriminate].
      simpl in Hk'. injection Hk' as <-.
      eapply Hsh; [exact Hi|exact E|exact Hns|exact Hi'|exact E'|exact Hns'|exact He|exact He'].
  - intros i i' k k' n Hk He He'.
    assert (Hkp : k < length plan).
    { destruct (le_lt_dec (length plan) k) as [Hge|]; auto. rewrite nth_error_app2, nth_error_map in Hk by auto.
      destruct (nth_error locals (k - length plan)); discriminate. }
    rewrite nth_error_app1 in Hk by auto.
    apply Hent in He, He'. destruct He as [[_ He]|[Hx _]]; [|lia].
    destruct He' as [[Hlk' He']|[_ He']]; [eapply Eo; eauto|].
    apply Hidlow in He'. apply Erg in He. lia.
  - intros i k n He. apply Hent in He. destruct He as [[_ He]|[_ He]].
    + rewrite app_length. apply Erg in He. lia.
    + apply Hidlow in He. lia.
  - intros n Hn'. destruct (le_lt_dec (length coords') n) as [Hge|Hlt'].
    + rewrite app_length in Hn'. destruct (Hus (n - length coords')) as [i [j He]]; [lia|].
      replace (n - length coords' + length coords') with n in He by lia.
      exists i, (length plan + j). apply Hent. right. split; [lia|].
      replace (length plan + j - length plan) with j by lia. auto.
    + destruct (Eu n) as [i [k He]]; [lia|]. exists i, k. apply Hent. left. split; auto.
      destruct He as [x [H1 H2]]. rewrite <- (Hrow _ _ H1). eapply nth_error_Some_lt; eauto.
Qed.
