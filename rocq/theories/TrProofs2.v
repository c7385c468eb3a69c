(** * Proofs about [TrModel.v], part 2: compose_trmap, transformed data *)
From Verif Require Export TrProofs.

Lemma flat_map_prod {A B} (l1 : list A) (l2 : list B) :
  flat_map (fun i => map (fun j => (i, j)) l2) l1 = list_prod l1 l2.
Proof. induction l1; simpl; auto. rewrite IHl1; auto. Qed.

Definition cw (m1 m2 : list (list nat)) (c i j : nat) : nat -> res (nat * nat * nat) :=
  fun k => do p <- get2 m2 j k; do v <- get2 m1 i p; Ok (c, k, v).

Lemma compose_inner m1 m2 c i j ks r ws :
  mapM (cw m1 m2 c i j) ks = Ok ws ->
  foldM (fun r k => do p <- get2 m2 j k; do v <- get2 m1 i p; set2 r c k v) ks r = run_writes2 ws r.
Proof.
  revert r ws. induction ks as [|k ks IH]; intros r ws H; cbn [mapM] in H; inv_ok; [auto|].
  unfold cw in Hok at 1. inv_ok. cbn [foldM]. rewrite Hok1. cbn [bind]. rewrite Hok2. cbn [bind]. unfold run_writes2. cbn [foldM fst snd].
  destruct (set2 r c k a2) as [r'|e]; cbn [bind]; auto. apply IH; auto.
Qed.

Lemma compose_outer m1 m2 n l c r wss :
  mapM (fun ci => mapM (cw m1 m2 (fst ci) (fst (snd ci)) (snd (snd ci))) (seq 0 n))
       (combine (seq c (length l)) l) = Ok wss ->
  foldM (fun cr ij => let '(c, r) := cr in let '(i, j) := ij in
      do r' <- foldM (fun r k => do p <- get2 m2 j k; do v <- get2 m1 i p; set2 r c k v) (seq 0 n) r;
      Ok (S c, r')) l (c, r)
  = (do r' <- run_writes2 (concat wss) r; Ok (c + length l, r')).
Proof.
  revert c r wss. induction l as [|[i j] l IH]; intros c r wss H.
  - simpl in H. inv_ok. simpl. do 2 f_equal; lia.
  - cbn [length seq combine mapM] in H. inv_ok. cbn [fst snd] in Hok.
    cbn [foldM]. rewrite (compose_inner _ _ _ _ _ _ _ _ Hok). simpl concat.
    replace (run_writes2 (a ++ concat a0) r) with (do r1 <- run_writes2 a r; run_writes2 (concat a0) r1)
      by (unfold run_writes2; rewrite foldM_app; auto).
    destruct (run_writes2 a r) as [r'|e] eqn:E; cbn [bind]; auto.
    rewrite (IH _ _ _ Hok0).
    destruct (run_writes2 (concat a0) r') as [r''|e]; cbn [bind]; auto. do 2 f_equal. simpl; lia.
Qed.

Lemma nth_error_combine {A B} (l : list A) (m : list B) k x y :
  nth_error (combine l m) k = Some (x, y) <-> nth_error l k = Some x /\ nth_error m k = Some y.
Proof.
  revert m k; induction l as [|a l IH]; intros m k; simpl.
  - split; [destruct k; discriminate|]. intros [H _]; destruct k; discriminate.
  - destruct m as [|b m]; simpl.
    + split; [destruct k; discriminate|]. intros [_ H]; destruct k; discriminate.
    + destruct k as [|k]; simpl; [|apply IH]. split; [intros [= -> ->]; auto|intros [[= ->] [= ->]]; auto].
Qed.

Lemma nth_error_seq' s n k : nth_error (seq s n) k = if k <? n then Some (s + k) else None.
Proof.
  revert s k; induction n; intros s k; destruct k; simpl; auto.
  rewrite IHn. change (S k <? S n) with (k <? n). destruct (k <? n); auto. f_equal; lia.
Qed.

Lemma compose_value w m1 m2 :
  rect w m1 -> valid_path w m2 -> exists r, tr_value m1 m2 = Ok r /\ compose_trmap m1 m2 = Ok r.
Proof.
  intros Hw Hv. destruct (tr_value_total w m1 m2 Hw Hv) as [r Hr]. exists r. split; auto.
  destruct Hv as [[n Hn] Hv]. unfold compose_trmap. rewrite flat_map_prod.
  set (l := list_prod (seq 0 (length m1)) (seq 0 (length m2))).
  assert (Hnc : forall k, k < length m2 -> ncols m2 = n).
  { intros k Hk. destruct (ncols_cases n m2 Hn) as [ | -> ]; auto. simpl in Hk; lia. }
  assert (Hl : forall c i j, In (c, (i, j)) (combine (seq 0 (length l)) l) <-> c = i * length m2 + j /\ i < length m1 /\ j < length m2).
  { intros c i j. split.
    - intros Hin. apply In_nth_error in Hin. destruct Hin as [q Hq].
      apply nth_error_combine in Hq. destruct Hq as [H1 H2]. rewrite nth_error_seq' in H1.
      destruct (q <? length l); [|discriminate]. simpl in H1. injection H1 as ->.
      apply nth_error_list_prod_inv in H2. destruct H2 as [i' [j' [-> [H1 H2]]]].
      rewrite seq_length. rewrite nth_error_seq' in H1, H2.
      destruct (i' <? length m1) eqn:E1; [|discriminate]. destruct (j' <? length m2) eqn:E2; [|discriminate].
      apply Nat.ltb_lt in E1, E2. simpl in H1, H2. injection H1 as ->. injection H2 as ->. auto.
    - intros [-> [Hi Hj]].
      assert (H0 : nth_error l (i * length m2 + j) = Some (i, j)).
      { unfold l. rewrite <- (seq_length (length m2) 0) at 2. apply nth_error_list_prod.
        - rewrite nth_error_seq'. apply Nat.ltb_lt in Hi. rewrite Hi; auto.
        - rewrite nth_error_seq'. apply Nat.ltb_lt in Hj. rewrite Hj; auto. }
      apply (nth_error_In _ (i * length m2 + j)). apply nth_error_combine. split; auto.
      rewrite nth_error_seq'. apply nth_error_Some_lt in H0. apply Nat.ltb_lt in H0. rewrite H0; auto. }
  assert (Hread : forall i j k, i < length m1 -> j < length m2 -> k < ncols m2 ->
     exists v, cw m1 m2 (i * length m2 + j) i j k = Ok (i * length m2 + j, k, v) /\ get2o r (i * length m2 + j) k = Some v).
  { intros i j k Hi Hj Hk. rewrite (Hnc j Hj) in Hk.
    destruct (tr_read m1 m2 r i k j n Hr Hn Hi Hk Hj) as [p [v [H1 [H2 H3]]]].
    exists v. unfold cw. rewrite H1. cbn [bind]. rewrite H2. auto. }
  destruct (mapM_total (fun ci => mapM (cw m1 m2 (fst ci) (fst (snd ci)) (snd (snd ci))) (seq 0 (ncols m2)))
      (combine (seq 0 (length l)) l)) as [wss Hwss].
  { intros [c [i j]] Hin. apply Hl in Hin. destruct Hin as [-> [Hi Hj]]. cbn [fst snd].
    apply mapM_total. intros k Hk. apply in_seq in Hk. destruct (Hread i j k) as [v [Hv1 _]]; auto; try lia. eauto. }
  rewrite (compose_outer _ _ _ _ _ _ _ Hwss).
  replace (length m1 * length m2) with (length m2 * length m1) by lia.
  rewrite (tr_fill 0 m1 m2 r n (concat wss)); auto.
  { apply ncols_cases; auto. }
  intros a b x. rewrite in_concat. split.
  - intros [ws [Hws Hx]]. apply (proj1 (mapM_In _ _ _ _ Hwss)) in Hws.
    destruct Hws as [[c [i j]] [Hin Hm]]. apply Hl in Hin. destruct Hin as [-> [Hi Hj]]. cbn [fst snd] in Hm.
    apply (proj1 (mapM_In _ _ _ _ Hm)) in Hx. destruct Hx as [k [Hk Hx]]. apply in_seq in Hk.
    destruct (Hread i j k) as [v [Hv1 Hv2]]; auto; try lia. rewrite Hv1 in Hx. injection Hx as <- <- <-.
    exists i, k, j. repeat split; auto; lia.
  - intros [i [k [j [-> [-> [Hi [Hk [Hj Hx]]]]]]]].
    destruct (Hread i j k) as [v [Hv1 Hv2]]; auto.
    destruct (mapM_total (cw m1 m2 (i * length m2 + j) i j) (seq 0 (ncols m2))) as [ws Hws].
    { intros k' Hk'. apply in_seq in Hk'. destruct (Hread i j k') as [v' [Hv' _]]; auto; try lia. eauto. }
    exists ws. split.
    + apply (mapM_In _ _ _ _ Hwss). exists (i * length m2 + j, (i, j)). split; [apply Hl; auto|]. exact Hws.
    + apply (mapM_In _ _ _ _ Hws). exists k. split; [apply in_seq; lia|]. rewrite Hv1. congruence.
Qed.

Lemma tr_compose {A} w n1 (topo t1 t2 : list (list A)) p1 p2 p12 :
  rect w topo -> valid_path w p1 -> rect n1 p1 -> valid_path n1 p2 ->
  tr_value topo p1 = Ok t1 -> tr_value t1 p2 = Ok t2 -> tr_value p1 p2 = Ok p12 ->
  tr_value topo p12 = Ok t2.
Proof.
  intros Hw Hv1 Hn1 Hv2 H1 H2 H12.
  assert (Hv12 : valid_path w p12).
  { split.
    - destruct Hv2 as [[n Hn] _]. exists n. eapply tr_value_rect; eauto.
    - intros row q Hrow Hq. apply (proj1 (mapM_In _ _ _ _ H12)) in Hrow. destruct Hrow as [[c p] [Hin Ht]].
      apply in_prod_iff in Hin. simpl in Ht. apply (proj1 (mapM_In _ _ _ _ Ht)) in Hq. destruct Hq as [k [Hk Hq]].
      apply get_Ok in Hq. apply nth_error_In in Hq. eapply Hv1; [apply Hin|exact Hq]. }
  destruct (tr_value_total w topo p12 Hw Hv12) as [r Hr]. rewrite Hr. f_equal.
  pose proof (tr_value_split _ _ _ Hr) as Sr. pose proof (tr_value_split _ _ _ H1) as S1.
  pose proof (tr_value_split _ _ _ H2) as S2. pose proof (tr_value_split _ _ _ H12) as S12.
  destruct Hv12 as [[n Hn] Hv12].
  apply (split_along_unique n topo p12); auto.
  2: { intros p q Hp Hq c Hc. unfold rect in Hw. rewrite Forall_forall in Hw. rewrite (Hw _ Hc). eauto. }
  clear r Hr Sr. destruct S1 as [L1 S1], S2 as [L2 S2], S12 as [L12 S12].
  split; [rewrite L2, L1, L12; lia|].
  intros i k cell p Hi Hk.
  assert (Hkl : k < length p1 * length p2) by (rewrite <- L12; eapply nth_error_Some_lt; eauto).
  assert (Hpn : 0 < length p2) by (destruct (length p2); lia).
  set (a := k / length p2). set (b := k mod length p2).
  assert (Hkab : k = a * length p2 + b) by (unfold a, b; rewrite (Nat.div_mod k (length p2)) at 1; lia).
  assert (Ha : a < length p1) by (apply Nat.div_lt_upper_bound; lia).
  assert (Hb : b < length p2) by (apply Nat.mod_upper_bound; lia).
  destruct (nth_error_lt _ _ Ha) as [r1 Hr1], (nth_error_lt _ _ Hb) as [r2 Hr2].
  destruct (S12 _ _ _ _ Hr1 Hr2) as [row12 [E1 [E2 E3]]].
  rewrite <- Hkab, Hk in E1. injection E1 as <-.
  destruct (S1 _ _ _ _ Hi Hr1) as [row1 [F1 [F2 F3]]].
  destruct (S2 _ _ _ _ F1 Hr2) as [row2 [G1 [G2 G3]]].
  exists row2. split.
  { replace (i * length p12 + k) with ((i * length p1 + a) * length p2 + b) by (rewrite L12, Hkab; lia). auto. }
  split; [congruence|]. intros j q Hq.
  destruct (nth_error_lt r2 j) as [q2 Hq2]; [rewrite <- E2; eapply nth_error_Some_lt; eauto|].
  rewrite (G3 _ _ Hq2). rewrite (E3 _ _ Hq2) in Hq. apply F3; auto.
Qed.

Lemma compose_correct w n1 topo p1 p2 :
  rect w topo -> valid_path w p1 -> rect n1 p1 -> valid_path n1 p2 ->
  exists t1 t2 p12,
    transform_topology_ 0 topo p1 = Ok t1 /\ transform_topology_ 0 t1 p2 = Ok t2 /\
    compose_trmap p1 p2 = Ok p12 /\ transform_topology_ 0 topo p12 = Ok t2.
Proof.
  intros Hw Hv1 Hn1 Hv2.
  destruct (transform_value 0 w topo p1 Hw Hv1) as [t1 [V1 T1]].
  destruct (transform_value 0 n1 t1 p2 (tr_value_rect _ _ _ _ V1 Hn1) Hv2) as [t2 [V2 T2]].
  destruct (compose_value n1 p1 p2 Hn1 Hv2) as [p12 [V12 T12]].
  exists t1, t2, p12. repeat split; auto.
  apply transform_any_order; [destruct Hv2 as [[n Hn] _]; exists n; eapply tr_value_rect; eauto| |apply Permutation_refl].
  eapply tr_compose; eauto.
Qed.

(** ** Data *)

Lemma repeated_rows {A} (d : list A) n : forall i k x,
  nth_error d i = Some x -> k < n -> nth_error (flat_map (fun x => repeat x n) d) (i * n + k) = Some x.
Proof.
  induction d as [|y d IH]; intros i k x Hi Hk; [destruct i; discriminate|]. simpl.
  destruct i as [|i].
  - injection Hi as ->. simpl. rewrite nth_error_app1 by (rewrite repeat_length; auto).
    apply nth_error_repeat; auto.
  - simpl. rewrite nth_error_app2 by (rewrite repeat_length; lia). rewrite repeat_length.
    replace (n + i * n + k - n) with (i * n + k) by lia. auto.
Qed.
Lemma repeated_length {A} (d : list A) n : length (flat_map (fun x => repeat x n) d) = length d * n.
Proof. induction d; simpl; auto. rewrite app_length, repeat_length, IHd; auto. Qed.
