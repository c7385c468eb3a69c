(** * Proofs about [TrModel.v], part 4: the elevation functions *)
From Coq Require Import Reals Lra.
From Verif Require Export ElevProofs.

Lemma elevated_center w dim plan coords topo coords' topo' :
  is_mesh w dim coords topo -> 0 < w -> elevated dim plan coords topo coords' topo' -> ~ In Own plan ->
  exists cs t,
    centers coords topo = Ok cs /\ hstack topo' (center_column (length topo) (length coords')) = Ok t /\
    elevated dim (plan ++ [Own]) coords topo (coords' ++ cs) t.
Proof.
  intros Hm Hw0 [Ep Er Ec En Es Eo Erg Eu] Hno.
  destruct Hm as [Hc [Hw Hin]].
  assert (Hmean : forall cell, In cell topo -> exists P, (do ps <- take coords cell; vmean ps) = Ok P /\ mean_of dim coords cell P).
  { intros cell Hcell. apply mean_total; auto.
    - intros ->. unfold rect in Hw. rewrite Forall_forall in Hw. specialize (Hw _ Hcell). simpl in Hw; lia.
    - intros n Hn. eauto. }
  destruct (mapM_total (fun cell => do ps <- take coords cell; vmean ps) topo) as [cs Hcs].
  { intros x Hx. destruct (Hmean x Hx) as [P [H _]]. eauto. }
  set (ids := center_column (length topo) (length coords')).
  assert (Hli : length ids = length topo) by (unfold ids, center_column; rewrite map_length, seq_length; auto).
  assert (Hids : forall i y, nth_error ids i = Some y -> y = [i + length coords'] /\ i < length topo).
  { intros i y Hy. unfold ids, center_column in Hy. rewrite nth_error_map, nth_error_seq' in Hy.
    destruct (i <? length topo) eqn:E; [|discriminate]. simpl in Hy. injection Hy as <-. apply Nat.ltb_lt in E. auto. }
  assert (Hlt : length topo' = length ids) by congruence.
  destruct (hstack_Ok topo' ids Hlt) as [t [Ht [Htl Htn]]].
  exists cs, t. split; auto. split; auto.
  assert (Hlc : length cs = length topo) by (eapply mapM_length; eauto).
  assert (Hrow : forall i x, nth_error topo' i = Some x -> length x = length plan).
  { intros i x Hx. destruct (nth_error_lt topo i) as [cell Hcell]; [rewrite <- Ec; eapply nth_error_Some_lt; eauto|].
    destruct (En _ _ Hcell) as [cell' [H1 [H2 _]]]. congruence. }
  assert (Hent : forall i k n, entry t i k n <->
     (k < length plan /\ entry topo' i k n) \/ (k = length plan /\ i < length topo /\ n = i + length coords')).
  { intros i k n. rewrite (entry_hstack topo topo' ids t i k n Hlt Ht (eq_sym Ec) Htn). split.
    - intros [x [y [H1 [H2 [H3|[H3 H4]]]]]].
      + left. split; [rewrite <- (Hrow _ _ H1); eapply nth_error_Some_lt; eauto|]. exists x; auto.
      + rewrite (Hrow _ _ H1) in H3, H4. apply Hids in H2. destruct H2 as [-> H2]. right.
        destruct (k - length plan) as [|q] eqn:E; [|destruct q; discriminate]. simpl in H4. injection H4 as <-.
        repeat split; auto; lia.
    - intros [[H1 [x [H2 H3]]]|[-> [H1 ->]]].
      + destruct (nth_error_lt ids i) as [y Hy]; [rewrite <- Hlt; eapply nth_error_Some_lt; eauto|]. eauto 8.
      + destruct (nth_error_lt topo' i) as [x Hx]; [lia|].
        destruct (nth_error_lt ids i) as [y Hy]; [lia|].
        exists x, y. rewrite (Hrow _ _ Hx). repeat split; auto. right. split; auto.
        apply Hids in Hy. destruct Hy as [-> _]. rewrite Nat.sub_diag. auto. }
  assert (Hcl : length coords <= length coords').
  { destruct Ep as [nw ->]. rewrite app_length; lia. }
  assert (Hpl : forall k kind, nth_error (plan ++ [Own]) k = Some kind ->
     (k < length plan /\ nth_error plan k = Some kind) \/ (k = length plan /\ kind = Own)).
  { intros k kind Hk. destruct (le_lt_dec (length plan) k) as [Hge|Hl].
    - rewrite nth_error_app2 in Hk by auto. right.
      destruct (k - length plan) as [|q] eqn:E; [|destruct q; discriminate]. simpl in Hk. injection Hk as <-. split; auto; lia.
    - rewrite nth_error_app1 in Hk by auto. auto. }
  constructor.
  - destruct Ep as [nw ->]. exists (nw ++ cs). rewrite app_assoc; auto.
  - apply rect_app; auto. unfold rect. rewrite Forall_forall. intros P HP. apply (proj1 (mapM_In _ _ _ _ Hcs)) in HP.
    destruct HP as [x [Hx HP]]. destruct (Hmean x Hx) as [P' [H1 [H2 _]]]. congruence.
  - congruence.
  - intros i cell Hi. destruct (En _ _ Hi) as [x [H1 [H2 H3]]].
    destruct (nth_error_lt ids i) as [y Hy]; [rewrite <- Hlt; eapply nth_error_Some_lt; eauto|].
    exists (x ++ y). split; [auto|]. destruct (Hids _ _ Hy) as [-> Hil]. split.
    { rewrite !app_length, H2; auto. }
    intros k kind Hk. apply Hpl in Hk. destruct Hk as [[Hk1 Hk]|[-> ->]].
    + destruct (H3 _ _ Hk) as [n [H4 H5]].
      exists n. split; [rewrite nth_error_app1 by lia; auto|]. apply placed_app; auto.
    + exists (i + length coords'). split.
      * rewrite nth_error_app2 by lia. rewrite H2, Nat.sub_diag. auto.
      * simpl. split; [lia|]. destruct (mapM_nth_error _ _ _ _ _ Hcs Hi) as [P [HP1 HP2]].
        exists P. split; [rewrite nth_error_app2 by lia; rewrite Nat.add_sub; auto|].
        destruct (Hmean cell (nth_error_In _ _ Hi)) as [P' [H4 H5]]. congruence.
  - intros i i' k k' cell cell' ls ls' ns ns' n n' Hi Hi' Hk Hk' Hns Hns' He He'.
    apply Hpl in Hk, Hk'. destruct Hk as [[Hk1 Hk]|[_ ?]]; [|discriminate].
    destruct Hk' as [[Hk1' Hk']|[_ ?]]; [|discriminate].
    apply Hent in He, He'. destruct He as [[_ He]|[? _]]; [|lia]. destruct He' as [[_ He']|[? _]]; [|lia].
    exact (Es _ _ _ _ _ _ _ _ _ _ _ _ Hi Hi' Hk Hk' Hns Hns' He He').
  - intros i i' k k' n Hk He He'. apply Hpl in Hk. destruct Hk as [[_ Hk]|[-> _]].
    { exfalso. apply Hno. eapply nth_error_In; eauto. }
    apply Hent in He, He'. destruct He as [[? _]|[_ [Hi ->]]]; [lia|].
    destruct He' as [[_ He']|[-> [_ He']]].
    + apply Erg in He'. lia.
    + split; auto; lia.
  - intros i k n He. rewrite app_length, Hlc. apply Hent in He. destruct He as [[_ He]|[_ [He ->]]].
    + apply Erg in He. lia.
    + lia.
  - intros n Hn. rewrite app_length, Hlc in Hn. destruct (le_lt_dec (length coords') n) as [Hge|Hlt'].
    + exists (n - length coords'), (length plan). apply Hent. right. repeat split; lia.
    + destruct (Eu n) as [i [k He]]; [lia|]. exists i, k. apply Hent. left. split; auto.
      destruct He as [x [H1 H2]]. rewrite <- (Hrow _ _ H1). eapply nth_error_Some_lt; eauto.
Qed.

Ltac check_locals :=
  let ls := fresh "ls" in let H := fresh "H" in intros ls H; simpl in H;
  repeat (destruct H as [<-|H]; [split; [discriminate|simpl; intros; lia]|]); contradiction.
Ltac no_shared :=
  let ls := fresh in let ls' := fresh in let H := fresh "H" in let H' := fresh "H" in
  intros ls ls' H H'; simpl in H, H';
  repeat (destruct H as [H|H]; [try discriminate H|]); try contradiction;
  injection H as <-;
  repeat (destruct H' as [<-|H']; [simpl; lia|]); contradiction.

Definition xplan_T6 := corners 3 ++ map Shared edgeIds_T3.
Definition xplan_Q8 := corners 4 ++ map Shared edgeIds_Q4.
Definition xplan_TET10 := corners 4 ++ map Shared edgeIds_TET4.
Definition xplan_Q9 := (corners 4 ++ map Shared edgeIds_Q4) ++ [Own].
Definition xplan_H27 := ((corners 8 ++ map Shared edgeIds_H8) ++ map Shared faceIds_H8) ++ [Own].
Definition xplan_W18 := (corners 6 ++ map Shared edgeIds_W6) ++ map Shared faceIds_W6.

Lemma corners_no_shared w (locals : list (list nat)) ls ls' : In (Shared ls) (corners w) -> In ls' locals -> length ls <> length ls'.
Proof. intros H. apply in_map_iff in H. destruct H as [x [H _]]; discriminate. Qed.

Lemma add_edge_nodes_ok w dim edges locals coords topo :
  is_mesh w dim coords topo -> locals_ok w locals -> edges topo = local locals topo ->
  exists coords' topo', add_edge_nodes edges coords topo = Ok (coords', topo') /\
    elevated dim (corners w ++ map Shared locals) coords topo coords' topo'.
Proof.
  intros Hm Hl He. destruct (local_total w locals topo) as [t3 Ht3]; [apply Hm|auto|].
  destruct (elevated_shared w dim (corners w) coords topo coords topo locals t3) as [new [ids [t [H1 [H2 H3]]]]]; auto.
  { apply elevated_base; auto. }
  { intros ls ls'; apply corners_no_shared. }
  exists (coords ++ new), t. split; auto. unfold add_edge_nodes. rewrite He, Ht3. cbn [bind]. rewrite H1. cbn [bind fst snd].
  rewrite H2. auto.
Qed.

Lemma T3_to_T6_ok dim coords topo : is_mesh 3 dim coords topo ->
  exists coords' topo', T3_to_T6 coords topo = Ok (coords', topo') /\ elevated dim xplan_T6 coords topo coords' topo'.
Proof. intros H. apply add_edge_nodes_ok; auto; [check_locals|apply edges_tri_local; apply H]. Qed.
Lemma Q4_to_Q8_ok dim coords topo : is_mesh 4 dim coords topo ->
  exists coords' topo', Q4_to_Q8 coords topo = Ok (coords', topo') /\ elevated dim xplan_Q8 coords topo coords' topo'.
Proof. intros H. apply add_edge_nodes_ok; auto; [check_locals|apply edges_Q4_local; apply H]. Qed.
Lemma TET4_to_TET10_ok dim coords topo : is_mesh 4 dim coords topo ->
  exists coords' topo', TET4_to_TET10 coords topo = Ok (coords', topo') /\ elevated dim xplan_TET10 coords topo coords' topo'.
Proof. intros H. apply add_edge_nodes_ok; auto; [check_locals|apply edges_TET4_local; apply H]. Qed.

Lemma Q4_to_Q9_ok dim coords topo : is_mesh 4 dim coords topo ->
  exists coords' topo', Q4_to_Q9 coords topo = Ok (coords', topo') /\ elevated dim xplan_Q9 coords topo coords' topo'.
Proof.
  intros Hm. destruct (local_total 4 edgeIds_Q4 topo) as [t3 Ht3]; [apply Hm|check_locals|].
  destruct (elevated_shared 4 dim (corners 4) coords topo coords topo edgeIds_Q4 t3) as [new [ids [t [H1 [H2 H3]]]]]; auto.
  { apply elevated_base; auto. }
  { check_locals. }
  { intros ls ls'; apply corners_no_shared. }
  destruct (fun A B => elevated_center 4 dim _ coords topo (coords ++ new) t Hm A H3 B) as [cs [t' [H4 [H5 H6]]]]; [lia| |].
  { simpl. intuition discriminate. }
  exists ((coords ++ new) ++ cs), t'. split; auto.
  unfold Q4_to_Q9. rewrite edges_Q4_local by apply Hm. rewrite Ht3. cbn [bind]. rewrite H1. cbn [bind fst snd].
  rewrite H4. cbn [bind]. rewrite H2. cbn [bind]. rewrite app_length in H5. rewrite H5. cbn [bind].
  rewrite app_assoc; auto.
Qed.

Lemma H8_to_H27_ok dim coords topo : is_mesh 8 dim coords topo ->
  exists coords' topo', H8_to_H27 coords topo = Ok (coords', topo') /\ elevated dim xplan_H27 coords topo coords' topo'.
Proof.
  intros Hm. destruct (local_total 8 edgeIds_H8 topo) as [te Hte]; [apply Hm|check_locals|].
  destruct (local_total 8 faceIds_H8 topo) as [tf Htf]; [apply Hm|check_locals|].
  destruct (elevated_shared 8 dim (corners 8) coords topo coords topo edgeIds_H8 te) as [new [ids [t [H1 [H2 H3]]]]]; auto.
  { apply elevated_base; auto. }
  { check_locals. }
  { intros ls ls'; apply corners_no_shared. }
  destruct (elevated_shared 8 dim _ coords topo (coords ++ new) t faceIds_H8 tf Hm H3) as [new' [ids' [t' [H1' [H2' H3']]]]]; auto.
  { check_locals. }
  { no_shared. }
  destruct (fun A B => elevated_center 8 dim _ coords topo ((coords ++ new) ++ new') t' Hm A H3' B) as [cs [t'' [H4 [H5 H6]]]]; [lia| |].
  { simpl. intuition discriminate. }
  exists (((coords ++ new) ++ new') ++ cs), t''. split; auto.
  unfold H8_to_H27. rewrite edges_H8_local by apply Hm. rewrite Hte. cbn [bind]. rewrite H1. cbn [bind fst snd].
  rewrite faces_H8_local by apply Hm. rewrite Htf. cbn [bind]. rewrite app_length in H1'. rewrite H1'. cbn [bind fst snd].
  rewrite H4. cbn [bind]. rewrite H2. cbn [bind]. rewrite H2'. cbn [bind].
  rewrite !app_length in H5. rewrite H5. cbn [bind]. rewrite !app_assoc; auto.
Qed.

Lemma W6_to_W18_with_ok dim coords topo : is_mesh 6 dim coords topo ->
  exists faces coords' topo', faces_W6_quad topo = Ok faces /\
    W6_to_W18_with faces coords topo = Ok (coords', topo') /\ elevated dim xplan_W18 coords topo coords' topo'.
Proof.
  intros Hm. destruct (local_total 6 edgeIds_W6 topo) as [te Hte]; [apply Hm|check_locals|].
  destruct (local_total 6 faceIds_W6 topo) as [tf Htf]; [apply Hm|check_locals|].
  destruct (elevated_shared 6 dim (corners 6) coords topo coords topo edgeIds_W6 te) as [new [ids [t [H1 [H2 H3]]]]]; auto.
  { apply elevated_base; auto. }
  { check_locals. }
  { intros ls ls'; apply corners_no_shared. }
  destruct (elevated_shared 6 dim _ coords topo (coords ++ new) t faceIds_W6 tf Hm H3) as [new' [ids' [t' [H1' [H2' H3']]]]]; auto.
  { check_locals. }
  { no_shared. }
  exists tf, ((coords ++ new) ++ new'), t'. split; [rewrite faces_W6_quad_local by apply Hm; auto|]. split; auto.
  unfold W6_to_W18_with. rewrite edges_W6_local by apply Hm. rewrite Hte. cbn [bind]. rewrite H1. cbn [bind fst snd].
  rewrite app_length in H1'. rewrite H1'. cbn [bind fst snd].
  rewrite H2. cbn [bind]. rewrite H2'. cbn [bind]. rewrite !app_assoc; auto.
Qed.

(** the triangles of faces_W6 always address a column that does not exist *)
Lemma W6_to_W18_fails (coords : list (list R)) topo : rect 6 topo -> topo <> [] ->
  W6_to_W18 coords topo = Err IndexError.
Proof.
  intros Hr Hne. destruct topo as [|c topo]; [congruence|]. inversion Hr as [|? ? Hl _]; subst.
  unfold W6_to_W18, faces_W6, faces_W6_tri, assign_columns.
  do 6 (destruct c as [|? c]; [discriminate|]). destruct c; [|discriminate]. reflexivity.
Qed.

(** ** L2_to_L3 *)
Definition xplan_L3 := [Corner 0; Shared [0;1]; Corner 1].

Lemma L2_to_L3_ok dim coords topo : is_mesh 2 dim coords topo ->
  exists coords' topo', L2_to_L3 coords topo = Ok (coords', topo') /\ elevated dim xplan_L3 coords topo coords' topo'.
Proof.
  intros Hm.
  assert (Hloc : local [[0;1]] topo = Ok (map (fun r => [r]) topo)).
  { apply mapM_map. intros cell Hc. destruct Hm as [_ [Hw _]]. unfold rect in Hw. rewrite Forall_forall in Hw.
    specialize (Hw _ Hc). do 2 (destruct cell as [|? cell]; [discriminate|]). destruct cell; [|discriminate]. reflexivity. }
  destruct (elevated_shared 2 dim (corners 2) coords topo coords topo [[0;1]] (map (fun r => [r]) topo)) as [new [ids [t [H1 [H2 H3]]]]]; auto.
  { apply elevated_base; auto. }
  { check_locals. }
  { intros ls ls'; apply corners_no_shared. }
  destruct H3 as [Ep Er Ec En Es Eo Erg Eu].
  assert (Hsw : forall i x, nth_error t i = Some x -> exists a b c, x = [a; b; c] /\ swap12 x = Ok [a; c; b]).
  { intros i x Hx. destruct (nth_error_lt topo i) as [cell Hcell]; [rewrite <- Ec; eapply nth_error_Some_lt; eauto|].
    destruct (En _ _ Hcell) as [x' [H4 [H5 _]]]. rewrite Hx in H4. injection H4 as <-.
    do 3 (destruct x as [|? x]; [discriminate|]). destruct x; [|discriminate]. do 3 eexists. split; reflexivity. }
  destruct (mapM_total swap12 t) as [t' Ht'].
  { intros x Hx. apply In_nth_error in Hx. destruct Hx as [i Hi]. destruct (Hsw _ _ Hi) as [a [b [c [_ H]]]]. eauto. }
  exists (coords ++ new), t'. split.
  { unfold L2_to_L3. rewrite H1. cbn [bind fst snd]. rewrite H2. cbn [bind]. rewrite Ht'. auto. }
  set (sg := fun k => match k with 1 => 2 | 2 => 1 | k => k end).
  assert (Hsg : forall k, sg (sg k) = k) by (intros [|[|[|k]]]; auto).
  assert (Hplan : forall k, nth_error xplan_L3 k = nth_error (corners 2 ++ map Shared [[0;1]]) (sg k)).
  { intros [|[|[|k]]]; auto. }
  assert (Hrow : forall i x', nth_error t' i = Some x' -> exists x, nth_error t i = Some x /\ length x' = 3 /\
      forall k, nth_error x' k = nth_error x (sg k)).
  { intros i x' Hx'. destruct (mapM_nth_error_r _ _ _ _ _ Ht' Hx') as [x [H4 H5]]. exists x. split; auto.
    destruct (Hsw _ _ H4) as [a [b [c [-> H]]]]. rewrite H in H5. injection H5 as <-. split; auto.
    intros [|[|[|k]]]; auto. }
  assert (Hent : forall i k n, entry t' i k n <-> entry t i (sg k) n).
  { intros i k n. split.
    - intros [x' [H4 H5]]. destruct (Hrow _ _ H4) as [x [H6 [_ H7]]]. exists x. rewrite <- H7; auto.
    - intros [x [H4 H5]]. destruct (mapM_nth_error _ _ _ _ _ Ht' H4) as [x' [H6 H7]]. exists x'. split; auto.
      destruct (Hrow _ _ H6) as [x2 [H8 [_ H9]]]. rewrite H4 in H8. injection H8 as <-. rewrite H9. auto. }
  constructor; auto.
  - apply mapM_length in Ht'. congruence.
  - intros i cell Hi. destruct (En _ _ Hi) as [x [H4 [H5 H6]]].
    destruct (mapM_nth_error _ _ _ _ _ Ht' H4) as [x' [H7 H8]]. exists x'. split; auto.
    destruct (Hrow _ _ H7) as [x2 [H9 [H10 H11]]]. rewrite H4 in H9. injection H9 as <-. split; auto.
    intros k kind Hk. rewrite Hplan in Hk. destruct (H6 _ _ Hk) as [n [H12 H13]]. exists n. rewrite H11. auto.
  - intros i i' k k' cell cell' ls ls' ns ns' n n' Hi Hi' Hk Hk' Hns Hns' He He'.
    rewrite Hplan in Hk, Hk'. apply Hent in He, He'.
    exact (Es _ _ _ _ _ _ _ _ _ _ _ _ Hi Hi' Hk Hk' Hns Hns' He He').
  - intros i i' k k' n Hk He He'. rewrite Hplan in Hk. apply Hent in He, He'.
    destruct (Eo _ _ _ _ _ Hk He He') as [-> H]. split; auto. rewrite <- (Hsg k), <- (Hsg k'), H; auto.
  - intros i k n He. apply Hent in He. eauto.
  - intros n Hn. destruct (Eu n Hn) as [i [k He]]. exists i, (sg k). apply Hent. rewrite Hsg; auto.
Qed.
