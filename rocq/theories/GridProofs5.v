(** * Proofs about [GridModel.v], part 5: tiling, conformity, distinct points *)
From Coq Require Import Reals Lra.
From Verif Require Export GridProofs4.
Local Open Scope R_scope.
#[local] Arguments coord : simpl never.

Lemma hd_nth0 {A} (l : list A) x d : nth_error l 0 = Some x -> hd d l = x.
Proof. destruct l; simpl; congruence. Qed.
Lemma last_nth {A} (l : list A) x d : nth_error l (length l - 1) = Some x -> last l d = x.
Proof.
  induction l as [|a l IH]; [discriminate|]. intros H. destruct l as [|b l]; [simpl in *; congruence|].
  change (last (a :: b :: l) d) with (last (b :: l) d). apply IH. rewrite <- H. simpl. rewrite Nat.sub_0_r. reflexivity.
Qed.
Lemma rsum_scal {A} (f : A -> R) a l : rsum (map (fun x => a * f x) l) = a * rsum (map f l).
Proof. unfold rsum. induction l as [|x l IH]; cbn [map fold_right]; [lra|]. rewrite IH. lra. Qed.
Lemma rsum_prod {A B} (f : A -> R) (g : B -> R) l l' :
  rsum (map (fun ab => f (fst ab) * g (snd ab)) (list_prod l l')) = rsum (map f l) * rsum (map g l').
Proof.
  induction l as [|x l IH]; [unfold rsum; cbn; lra|]. cbn [list_prod]. rewrite map_app, rsum_app2, IH, map_map. cbn [fst snd].
  rewrite rsum_scal. unfold rsum. cbn [map fold_right]. lra.
Qed.

(** *** two dimensions *)
Section Geo2.
  Context (nx ny wx wy start : nat) (X Y : nat -> nat -> R) (coords : list (list R)) (topo : list (list nat)).
  Hypothesis HL : lattice2 nx ny wx wy start X Y coords topo.

  Lemma node2_at i j k m : (i < nx)%nat -> (j < ny)%nat -> (k <= wx)%nat -> (m <= wy)%nat ->
    nth_error coords (pos2 ny wx wy i j k m) = Some [X i k; Y j m].
  Proof. destruct HL as (_ & _ & H). intros Hi Hj Hk Hm. destruct (H i j Hi Hj) as (cell & _ & _ & Hkm). apply Hkm; auto. Qed.
  Lemma node2_nth i j k m : (i < nx)%nat -> (j < ny)%nat -> (k <= wx)%nat -> (m <= wy)%nat ->
    nth (start + pos2 ny wx wy i j k m - start) coords [] = [X i k; Y j m].
  Proof.
    intros. replace (start + pos2 ny wx wy i j k m - start)%nat with (pos2 ny wx wy i j k m) by lia.
    apply nth_error_nth. apply node2_at; auto.
  Qed.
  Lemma cell2_corners c cell : nth_error topo c = Some cell -> exists i j, (i < nx)%nat /\ (j < ny)%nat /\ c = (i * ny + j)%nat /\
    (forall d, lo_corner start coords cell d = nth d [X i 0%nat; Y j 0%nat] 0) /\
    (forall d, hi_corner start coords cell d = nth d [X i wx; Y j wy] 0) /\
    (forall n, In n cell <-> exists k m, (k <= wx)%nat /\ (m <= wy)%nat /\ n = (start + pos2 ny wx wy i j k m)%nat).
  Proof.
    intros Hc. destruct (lattice2_inv _ _ _ _ _ _ _ _ _ _ _ HL Hc) as (i & j & Hi & Hj & E & Hl & Hat & Hinv).
    exists i, j. split; auto. split; auto. split; auto.
    assert (H0 : hd 0%nat cell = (start + pos2 ny wx wy i j 0 0)%nat) by (apply hd_nth0; apply (Hat 0 0)%nat; lia).
    assert (H1 : last cell 0%nat = (start + pos2 ny wx wy i j wx wy)%nat).
    { apply last_nth. rewrite Hl. replace ((wx + 1) * (wy + 1) - 1)%nat with (wx * (wy + 1) + wy)%nat by lia. apply Hat; lia. }
    split; [|split].
    - intros d. unfold lo_corner, coord. rewrite H0, node2_nth by lia. reflexivity.
    - intros d. unfold hi_corner, coord. rewrite H1, node2_nth by lia. reflexivity.
    - intros n. split.
      + intros Hn. apply In_nth_error in Hn. destruct Hn as [e He]. destruct (Hinv _ _ He) as (k & m & Hk & Hm & _ & ->). eauto.
      + intros (k & m & Hk & Hm & ->). eapply nth_error_In. apply (Hat k m); auto.
  Qed.
  Lemma cell2_exists i j : (i < nx)%nat -> (j < ny)%nat -> exists cell, nth_error topo (i * ny + j) = Some cell.
  Proof. destruct HL as (_ & _ & H). intros Hi Hj. destruct (H i j Hi Hj) as (cell & Hc & _). eauto. Qed.

  Hypothesis (Hnx : (1 <= nx)%nat) (Hny : (1 <= ny)%nat) (Hwx : (1 <= wx)%nat) (Hwy : (1 <= wy)%nat).
  Hypothesis (HX : joined X wx nx) (HY : joined Y wy ny).

  Lemma lattice2_tiles : axis_le X wx nx -> axis_le Y wy ny ->
    tiles_box 2 start coords topo [X 0%nat 0%nat; Y 0%nat 0%nat]
      [X (nx - 1)%nat wx - X 0%nat 0%nat; Y (ny - 1)%nat wy - Y 0%nat 0%nat].
  Proof.
    intros HXl HYl. split; [|split; [|split]].
    - intros cell n Hin Hn. apply In_nth_error in Hin. destruct Hin as [c Hc].
      destruct (cell2_corners _ _ Hc) as (i & j & Hi & Hj & _ & Hlo & Hhi & Hm). apply Hm in Hn.
      destruct Hn as (k & m & Hk & Hmm & ->). intros d Hd. rewrite Hlo, Hhi, node2_nth by auto.
      destruct d as [|[|d]]; [| |lia]; cbn [nth]; [apply HXl|apply HYl]; auto.
    - intros p Hp. pose proof (Hp 0%nat ltac:(lia)) as Hx. pose proof (Hp 1%nat ltac:(lia)) as Hy. cbn [nth] in Hx, Hy.
      destruct (axis_found X wx nx (nth 0 p 0)) as (i & Hi & Hxi); auto; [lra|].
      destruct (axis_found Y wy ny (nth 1 p 0)) as (j & Hj & Hyj); auto; [lra|].
      destruct (cell2_exists i j Hi Hj) as [cell Hc]. exists cell. split; [eapply nth_error_In; eauto|].
      destruct (cell2_corners _ _ Hc) as (i' & j' & Hi' & Hj' & E & Hlo & Hhi & _).
      apply pos_inj in E; auto. destruct E as [<- <-]. intros d Hd. rewrite Hlo, Hhi.
      destruct d as [|[|d]]; [| |lia]; cbn [nth]; auto.
    - intros c c' cell cell' p Hc Hc' Hp Hp'.
      destruct (cell2_corners _ _ Hc) as (i & j & Hi & Hj & -> & Hlo & Hhi & _).
      destruct (cell2_corners _ _ Hc') as (i' & j' & Hi' & Hj' & -> & Hlo' & Hhi' & _).
      pose proof (Hp 0%nat ltac:(lia)) as H0. pose proof (Hp 1%nat ltac:(lia)) as H1.
      pose proof (Hp' 0%nat ltac:(lia)) as H0'. pose proof (Hp' 1%nat ltac:(lia)) as H1'.
      rewrite Hlo, Hhi in H0, H1. rewrite Hlo', Hhi' in H0', H1'. cbn [nth] in *.
      rewrite (axis_unique X wx nx i i' (nth 0 p 0)), (axis_unique Y wy ny j j' (nth 1 p 0)); auto.
    - replace (map (box_measure 2 start coords) topo) with
        (map (fun ab => (X (fst ab) wx - X (fst ab) 0%nat) * (Y (snd ab) wy - Y (snd ab) 0%nat)) (list_prod (seq 0 nx) (seq 0 ny))).
      + rewrite (rsum_prod (fun i => X i wx - X i 0%nat) (fun j => Y j wy - Y j 0%nat)), !axis_total by auto. cbn. lra.
      + apply nth_error_ext. intros c. destruct HL as (_ & Hlt & _).
        destruct (Nat.lt_ge_cases c (nx * ny)) as [Hlt'|Hge].
        * rewrite nth_error_map. rewrite nth_error_map. destruct (nth_error topo c) as [cell|] eqn:Hc; [|apply nth_error_None in Hc; lia].
          destruct (cell2_corners _ _ Hc) as (i & j & Hi & Hj & -> & Hlo & Hhi & _).
          pose proof (nth_error_list_prod (seq 0 nx) (seq 0 ny) i j _ _ (nth_error_seq 0 nx i Hi) (nth_error_seq 0 ny j Hj)) as H1.
          rewrite seq_length in H1. rewrite H1. cbn [option_map fst snd Nat.add]. f_equal. unfold box_measure.
          cbn [seq map fold_right]. rewrite !Hlo, !Hhi. cbn [nth]. lra.
        * rewrite !(proj2 (nth_error_None _ _)); auto; rewrite map_length; [lia|rewrite prod_length, !seq_length; lia].
  Qed.
  Lemma lattice2_points_differ : axis_lt X wx nx -> axis_lt Y wy ny -> points_differ coords.
  Proof.
    intros HXl HYl p q r Hp Hq.
    assert (Hinv : forall p, (p < length coords)%nat -> exists i j k m, (i < nx)%nat /\ (j < ny)%nat /\ (k <= wx)%nat /\ (m <= wy)%nat /\ p = pos2 ny wx wy i j k m).
    { intros p0 Hp0. destruct HL as (Hlc & _ & _). rewrite Hlc in Hp0.
      destruct (pos_split (ny * wy + 1) p0) as [E Hb]; [lia|].
      assert (Ha : (p0 / (ny * wy + 1) < nx * wx + 1)%nat) by (apply Nat.div_lt_upper_bound; lia).
      destruct (axis_cover _ _ _ Hwx Hnx Ha) as (i & k & Hi & Hk & Ea). destruct (axis_cover _ _ _ Hwy Hny Hb) as (j & m & Hj & Hm & Eb).
      exists i, j, k, m. do 4 (split; auto). unfold pos2. rewrite E, Ea, Eb at 1. reflexivity. }
    destruct (Hinv p) as (i & j & k & m & Hi & Hj & Hk & Hm & ->); [eapply nth_error_Some_lt; eauto|].
    destruct (Hinv q) as (i' & j' & k' & m' & Hi' & Hj' & Hk' & Hm' & ->); [eapply nth_error_Some_lt; eauto|].
    rewrite node2_at in Hp, Hq by auto. rewrite <- Hq in Hp. injection Hp as Ex Ey. unfold pos2.
    rewrite (axis_at_inj X wx nx i k i' k'), (axis_at_inj Y wy ny j m j' m') by auto. reflexivity.
  Qed.
  Lemma lattice2_shares : axis_lt X wx nx -> axis_lt Y wy ny -> shares_faces 2 start coords topo.
  Proof.
    intros HXl HYl cell cell' n Hin Hin' Hn.
    apply In_nth_error in Hin. destruct Hin as [c Hc]. apply In_nth_error in Hin'. destruct Hin' as [c' Hc'].
    destruct (cell2_corners _ _ Hc) as (i & j & Hi & Hj & _ & _ & _ & Hm). apply Hm in Hn. destruct Hn as (k & m & Hk & Hmm & ->).
    destruct (cell2_corners _ _ Hc') as (i' & j' & Hi' & Hj' & _ & Hlo' & Hhi' & Hm'). split.
    - intros Hn'. apply Hm' in Hn'. destruct Hn' as (k' & m' & Hk' & Hmm' & E). rewrite E.
      intros d Hd. rewrite Hlo', Hhi', node2_nth by auto. apply axis_lt_le in HXl. apply axis_lt_le in HYl.
      destruct d as [|[|d]]; [| |lia]; cbn [nth]; [apply HXl|apply HYl]; auto.
    - intros Hb. rewrite node2_nth in Hb by auto. pose proof (Hb 0%nat ltac:(lia)) as H0. pose proof (Hb 1%nat ltac:(lia)) as H1.
      rewrite Hlo', Hhi' in H0, H1. cbn [nth] in H0, H1. apply Hm'.
      destruct (axis_inside X wx nx i k i') as (k' & Hk' & E); auto. destruct (axis_inside Y wy ny j m j') as (m' & Hmm' & E'); auto.
      exists k', m'. split; auto. split; auto. unfold pos2. rewrite E, E'. reflexivity.
  Qed.
End Geo2.

(** *** three dimensions *)
Section Geo3.
  Context (nx ny nz wx wy wz start : nat) (X Y Z : nat -> nat -> R) (coords : list (list R)) (topo : list (list nat)).
  Hypothesis HL : lattice3 nx ny nz wx wy wz start X Y Z coords topo.

  Lemma node3_at i j l k m r : (i < nx)%nat -> (j < ny)%nat -> (l < nz)%nat -> (k <= wx)%nat -> (m <= wy)%nat -> (r <= wz)%nat ->
    nth_error coords (pos3 ny nz wx wy wz i j l k m r) = Some [X i k; Y j m; Z l r].
  Proof. destruct HL as (_ & _ & H). intros Hi Hj Hl Hk Hm Hr. destruct (H i j l Hi Hj Hl) as (cell & _ & _ & Hkm). apply Hkm; auto. Qed.
  Lemma node3_nth i j l k m r : (i < nx)%nat -> (j < ny)%nat -> (l < nz)%nat -> (k <= wx)%nat -> (m <= wy)%nat -> (r <= wz)%nat ->
    nth (start + pos3 ny nz wx wy wz i j l k m r - start) coords [] = [X i k; Y j m; Z l r].
  Proof.
    intros. replace (start + pos3 ny nz wx wy wz i j l k m r - start)%nat with (pos3 ny nz wx wy wz i j l k m r) by lia.
    apply nth_error_nth. apply node3_at; auto.
  Qed.
  Lemma cell3_corners c cell : nth_error topo c = Some cell -> exists i j l, (i < nx)%nat /\ (j < ny)%nat /\ (l < nz)%nat /\
    c = ((i * ny + j) * nz + l)%nat /\
    (forall d, lo_corner start coords cell d = nth d [X i 0%nat; Y j 0%nat; Z l 0%nat] 0) /\
    (forall d, hi_corner start coords cell d = nth d [X i wx; Y j wy; Z l wz] 0) /\
    (forall n, In n cell <-> exists k m r, (k <= wx)%nat /\ (m <= wy)%nat /\ (r <= wz)%nat /\ n = (start + pos3 ny nz wx wy wz i j l k m r)%nat).
  Proof.
    intros Hc. destruct (lattice3_inv _ _ _ _ _ _ _ _ _ _ _ _ _ _ HL Hc) as (i & j & l & Hi & Hj & Hl0 & E & Hl & Hat & Hinv).
    exists i, j, l. do 4 (split; auto).
    assert (H0 : hd 0%nat cell = (start + pos3 ny nz wx wy wz i j l 0 0 0)%nat) by (apply hd_nth0; apply (Hat 0 0 0)%nat; lia).
    assert (H1 : last cell 0%nat = (start + pos3 ny nz wx wy wz i j l wx wy wz)%nat).
    { apply last_nth. rewrite Hl. replace ((wx + 1) * (wy + 1) * (wz + 1) - 1)%nat with ((wx * (wy + 1) + wy) * (wz + 1) + wz)%nat.
      - apply Hat; lia.
      - replace (wx * (wy + 1) + wy)%nat with ((wx + 1) * (wy + 1) - 1)%nat by lia.
        generalize (eq_refl ((wx + 1) * (wy + 1))%nat). generalize ((wx + 1) * (wy + 1))%nat at 2 3 4. intros u Hu.
        destruct u; [lia|]. replace (S u - 1)%nat with u by lia. lia. }
    split; [|split].
    - intros d. unfold lo_corner, coord. rewrite H0, node3_nth by lia. reflexivity.
    - intros d. unfold hi_corner, coord. rewrite H1, node3_nth by lia. reflexivity.
    - intros n. split.
      + intros Hn. apply In_nth_error in Hn. destruct Hn as [e He].
        destruct (Hinv _ _ He) as (k & m & r & Hk & Hm & Hr & _ & ->). exists k, m, r. auto.
      + intros (k & m & r & Hk & Hm & Hr & ->). eapply nth_error_In. apply (Hat k m r); auto.
  Qed.
  Lemma cell3_exists i j l : (i < nx)%nat -> (j < ny)%nat -> (l < nz)%nat -> exists cell, nth_error topo ((i * ny + j) * nz + l) = Some cell.
  Proof. destruct HL as (_ & _ & H). intros Hi Hj Hl. destruct (H i j l Hi Hj Hl) as (cell & Hc & _). eauto. Qed.

  Hypothesis (Hnx : (1 <= nx)%nat) (Hny : (1 <= ny)%nat) (Hnz : (1 <= nz)%nat) (Hwx : (1 <= wx)%nat) (Hwy : (1 <= wy)%nat) (Hwz : (1 <= wz)%nat).
  Hypothesis (HX : joined X wx nx) (HY : joined Y wy ny) (HZ : joined Z wz nz).

  Lemma lattice3_tiles : axis_le X wx nx -> axis_le Y wy ny -> axis_le Z wz nz ->
    tiles_box 3 start coords topo [X 0%nat 0%nat; Y 0%nat 0%nat; Z 0%nat 0%nat]
      [X (nx - 1)%nat wx - X 0%nat 0%nat; Y (ny - 1)%nat wy - Y 0%nat 0%nat; Z (nz - 1)%nat wz - Z 0%nat 0%nat].
  Proof.
    intros HXl HYl HZl. split; [|split; [|split]].
    - intros cell n Hin Hn. apply In_nth_error in Hin. destruct Hin as [c Hc].
      destruct (cell3_corners _ _ Hc) as (i & j & l & Hi & Hj & Hl & _ & Hlo & Hhi & Hm). apply Hm in Hn.
      destruct Hn as (k & m & r & Hk & Hmm & Hr & ->). intros d Hd. rewrite Hlo, Hhi, node3_nth by auto.
      destruct d as [|[|[|d]]]; [| | |lia]; cbn [nth]; [apply HXl|apply HYl|apply HZl]; auto.
    - intros p Hp. pose proof (Hp 0%nat ltac:(lia)) as Hx. pose proof (Hp 1%nat ltac:(lia)) as Hy. pose proof (Hp 2%nat ltac:(lia)) as Hz.
      cbn [nth] in Hx, Hy, Hz.
      destruct (axis_found X wx nx (nth 0 p 0)) as (i & Hi & Hxi); auto; [lra|].
      destruct (axis_found Y wy ny (nth 1 p 0)) as (j & Hj & Hyj); auto; [lra|].
      destruct (axis_found Z wz nz (nth 2 p 0)) as (l & Hl & Hzl); auto; [lra|].
      destruct (cell3_exists i j l Hi Hj Hl) as [cell Hc]. exists cell. split; [eapply nth_error_In; eauto|].
      destruct (cell3_corners _ _ Hc) as (i' & j' & l' & Hi' & Hj' & Hl' & E & Hlo & Hhi & _).
      apply pos_inj in E; auto. destruct E as [E <-]. apply pos_inj in E; auto. destruct E as [<- <-]. intros d Hd. rewrite Hlo, Hhi.
      destruct d as [|[|[|d]]]; [| | |lia]; cbn [nth]; auto.
    - intros c c' cell cell' p Hc Hc' Hp Hp'.
      destruct (cell3_corners _ _ Hc) as (i & j & l & Hi & Hj & Hl & -> & Hlo & Hhi & _).
      destruct (cell3_corners _ _ Hc') as (i' & j' & l' & Hi' & Hj' & Hl' & -> & Hlo' & Hhi' & _).
      pose proof (Hp 0%nat ltac:(lia)) as H0. pose proof (Hp 1%nat ltac:(lia)) as H1. pose proof (Hp 2%nat ltac:(lia)) as H2.
      pose proof (Hp' 0%nat ltac:(lia)) as H0'. pose proof (Hp' 1%nat ltac:(lia)) as H1'. pose proof (Hp' 2%nat ltac:(lia)) as H2'.
      rewrite Hlo, Hhi in H0, H1, H2. rewrite Hlo', Hhi' in H0', H1', H2'. cbn [nth] in *.
      rewrite (axis_unique X wx nx i i' (nth 0 p 0)), (axis_unique Y wy ny j j' (nth 1 p 0)), (axis_unique Z wz nz l l' (nth 2 p 0)); auto.
    - replace (map (box_measure 3 start coords) topo) with
        (map (fun abc => ((fun ab : nat * nat => (X (fst ab) wx - X (fst ab) 0%nat) * (Y (snd ab) wy - Y (snd ab) 0%nat)) (fst abc))
                         * (Z (snd abc) wz - Z (snd abc) 0%nat)) (list_prod (list_prod (seq 0 nx) (seq 0 ny)) (seq 0 nz))).
      + rewrite (rsum_prod (fun ab : nat * nat => (X (fst ab) wx - X (fst ab) 0%nat) * (Y (snd ab) wy - Y (snd ab) 0%nat))
                   (fun l => Z l wz - Z l 0%nat)).
        rewrite (rsum_prod (fun i => X i wx - X i 0%nat) (fun j => Y j wy - Y j 0%nat)), !axis_total by auto. cbn. lra.
      + apply nth_error_ext. intros c. destruct HL as (_ & Hlt & _).
        destruct (Nat.lt_ge_cases c (nx * ny * nz)) as [Hlt'|Hge].
        * rewrite nth_error_map. rewrite nth_error_map. destruct (nth_error topo c) as [cell|] eqn:Hc; [|apply nth_error_None in Hc; lia].
          destruct (cell3_corners _ _ Hc) as (i & j & l & Hi & Hj & Hl & -> & Hlo & Hhi & _).
          pose proof (nth_error_list_prod (seq 0 nx) (seq 0 ny) i j _ _ (nth_error_seq 0 nx i Hi) (nth_error_seq 0 ny j Hj)) as H1.
          rewrite seq_length in H1.
          pose proof (nth_error_list_prod (list_prod (seq 0 nx) (seq 0 ny)) (seq 0 nz) _ l _ _ H1 (nth_error_seq 0 nz l Hl)) as H2.
          rewrite seq_length in H2. rewrite H2. cbn [option_map fst snd]. f_equal. unfold box_measure.
          cbn [seq map fold_right]. rewrite !Hlo, !Hhi. cbn [nth Nat.add]. lra.
        * rewrite !(proj2 (nth_error_None _ _)); auto; rewrite map_length; [lia|rewrite !prod_length, !seq_length; lia].
  Qed.
  Lemma lattice3_points_differ : axis_lt X wx nx -> axis_lt Y wy ny -> axis_lt Z wz nz -> points_differ coords.
  Proof.
    intros HXl HYl HZl p q row Hp Hq.
    assert (Hinv : forall p, (p < length coords)%nat -> exists i j l k m r, (i < nx)%nat /\ (j < ny)%nat /\ (l < nz)%nat /\
       (k <= wx)%nat /\ (m <= wy)%nat /\ (r <= wz)%nat /\ p = pos3 ny nz wx wy wz i j l k m r).
    { intros p0 Hp0. destruct HL as (Hlc & _ & _). rewrite Hlc in Hp0.
      destruct (pos_split (nz * wz + 1) p0) as [E Hc]; [lia|].
      destruct (pos_split (ny * wy + 1) (p0 / (nz * wz + 1))) as [E2 Hb]; [lia|].
      assert (Hab : (p0 / (nz * wz + 1) < (nx * wx + 1) * (ny * wy + 1))%nat) by (apply Nat.div_lt_upper_bound; lia).
      assert (Ha : (p0 / (nz * wz + 1) / (ny * wy + 1) < nx * wx + 1)%nat) by (apply Nat.div_lt_upper_bound; lia).
      destruct (axis_cover _ _ _ Hwx Hnx Ha) as (i & k & Hi & Hk & Ea). destruct (axis_cover _ _ _ Hwy Hny Hb) as (j & m & Hj & Hm & Eb).
      destruct (axis_cover _ _ _ Hwz Hnz Hc) as (l & r & Hl & Hr & Ec).
      exists i, j, l, k, m, r. do 6 (split; auto). unfold pos3. rewrite E at 1. rewrite E2 at 1. rewrite Ea, Eb, Ec. reflexivity. }
    destruct (Hinv p) as (i & j & l & k & m & r & Hi & Hj & Hl & Hk & Hm & Hr & ->); [eapply nth_error_Some_lt; eauto|].
    destruct (Hinv q) as (i' & j' & l' & k' & m' & r' & Hi' & Hj' & Hl' & Hk' & Hm' & Hr' & ->); [eapply nth_error_Some_lt; eauto|].
    rewrite node3_at in Hp, Hq by auto. rewrite <- Hq in Hp. injection Hp as Ex Ey Ez. unfold pos3.
    rewrite (axis_at_inj X wx nx i k i' k'), (axis_at_inj Y wy ny j m j' m'), (axis_at_inj Z wz nz l r l' r') by auto. reflexivity.
  Qed.
  Lemma lattice3_shares : axis_lt X wx nx -> axis_lt Y wy ny -> axis_lt Z wz nz -> shares_faces 3 start coords topo.
  Proof.
    intros HXl HYl HZl cell cell' n Hin Hin' Hn.
    apply In_nth_error in Hin. destruct Hin as [c Hc]. apply In_nth_error in Hin'. destruct Hin' as [c' Hc'].
    destruct (cell3_corners _ _ Hc) as (i & j & l & Hi & Hj & Hl & _ & _ & _ & Hm). apply Hm in Hn.
    destruct Hn as (k & m & r & Hk & Hmm & Hr & ->).
    destruct (cell3_corners _ _ Hc') as (i' & j' & l' & Hi' & Hj' & Hl' & _ & Hlo' & Hhi' & Hm'). split.
    - intros Hn'. apply Hm' in Hn'. destruct Hn' as (k' & m' & r' & Hk' & Hmm' & Hr' & E). rewrite E.
      intros d Hd. rewrite Hlo', Hhi', node3_nth by auto. apply axis_lt_le in HXl. apply axis_lt_le in HYl. apply axis_lt_le in HZl.
      destruct d as [|[|[|d]]]; [| | |lia]; cbn [nth]; [apply HXl|apply HYl|apply HZl]; auto.
    - intros Hb. rewrite node3_nth in Hb by auto. pose proof (Hb 0%nat ltac:(lia)) as H0. pose proof (Hb 1%nat ltac:(lia)) as H1.
      pose proof (Hb 2%nat ltac:(lia)) as H2.
      rewrite Hlo', Hhi' in H0, H1, H2. cbn [nth] in H0, H1, H2. apply Hm'.
      destruct (axis_inside X wx nx i k i') as (k' & Hk' & E); auto. destruct (axis_inside Y wy ny j m j') as (m' & Hmm' & E'); auto.
      destruct (axis_inside Z wz nz l r l') as (r' & Hr' & E''); auto.
      exists k', m', r'. do 3 (split; auto). unfold pos3. rewrite E, E', E''. reflexivity.
  Qed.
End Geo3.
