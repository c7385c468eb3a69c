(** * Proofs about [GridModel.v], part 4: consequences of the lattice description *)
From Coq Require Import Reals Lra.
From Verif Require Export GridProofs3.
Local Open Scope R_scope.
#[local] Arguments coord : simpl never.

Lemma lattice2_inv nx ny wx wy start X Y coords topo c cell : lattice2 nx ny wx wy start X Y coords topo ->
  nth_error topo c = Some cell -> exists i j, (i < nx)%nat /\ (j < ny)%nat /\ c = (i * ny + j)%nat /\
    length cell = ((wx + 1) * (wy + 1))%nat /\
    (forall k m, (k <= wx)%nat -> (m <= wy)%nat -> nth_error cell (k * (wy + 1) + m) = Some (start + pos2 ny wx wy i j k m)%nat) /\
    (forall e n, nth_error cell e = Some n -> exists k m, (k <= wx)%nat /\ (m <= wy)%nat /\ e = (k * (wy + 1) + m)%nat /\
       n = (start + pos2 ny wx wy i j k m)%nat).
Proof.
  intros (Hlc & Hlt & H) Hc. pose proof (nth_error_Some_lt _ _ _ Hc) as Hb. rewrite Hlt in Hb.
  assert (Hny : (1 <= ny)%nat) by (destruct ny; lia).
  destruct (pos_split ny c Hny) as [E Hj].
  assert (Hi : (c / ny < nx)%nat) by (apply Nat.div_lt_upper_bound; lia).
  destruct (H _ _ Hi Hj) as (cell' & Hn & Hl & Hk). rewrite <- E, Hc in Hn. injection Hn as <-.
  exists (c / ny)%nat, (c mod ny)%nat. split; auto. split; auto. split; auto. split; auto.
  split; [intros; apply Hk; auto|].
  intros e n He. pose proof (nth_error_Some_lt _ _ _ He) as Hle. rewrite Hl in Hle.
  destruct (pos_split (wy + 1) e) as [Ee Hm]; [lia|].
  assert (Hkk : (e / (wy + 1) < wx + 1)%nat) by (apply Nat.div_lt_upper_bound; lia).
  exists (e / (wy + 1))%nat, (e mod (wy + 1))%nat. split; [lia|]. split; [lia|]. split; auto.
  rewrite Ee in He. destruct (Hk (e / (wy + 1)) (e mod (wy + 1)))%nat as [H1 _]; [lia|lia|].
  rewrite H1 in He. injection He as <-. reflexivity.
Qed.
Lemma lattice3_inv nx ny nz wx wy wz start X Y Z coords topo c cell : lattice3 nx ny nz wx wy wz start X Y Z coords topo ->
  nth_error topo c = Some cell -> exists i j l, (i < nx)%nat /\ (j < ny)%nat /\ (l < nz)%nat /\ c = ((i * ny + j) * nz + l)%nat /\
    length cell = ((wx + 1) * (wy + 1) * (wz + 1))%nat /\
    (forall k m r, (k <= wx)%nat -> (m <= wy)%nat -> (r <= wz)%nat ->
       nth_error cell ((k * (wy + 1) + m) * (wz + 1) + r) = Some (start + pos3 ny nz wx wy wz i j l k m r)%nat) /\
    (forall e n, nth_error cell e = Some n -> exists k m r, (k <= wx)%nat /\ (m <= wy)%nat /\ (r <= wz)%nat /\
       e = ((k * (wy + 1) + m) * (wz + 1) + r)%nat /\ n = (start + pos3 ny nz wx wy wz i j l k m r)%nat).
Proof.
  intros (Hlc & Hlt & H) Hc. pose proof (nth_error_Some_lt _ _ _ Hc) as Hb. rewrite Hlt in Hb.
  assert (Hnz : (1 <= nz)%nat) by (destruct nz; lia). assert (Hny : (1 <= ny)%nat) by (destruct ny; lia).
  destruct (pos_split nz c Hnz) as [E Hl]. destruct (pos_split ny (c / nz) Hny) as [E2 Hj].
  assert (Hij : (c / nz < nx * ny)%nat) by (apply Nat.div_lt_upper_bound; lia).
  assert (Hi : (c / nz / ny < nx)%nat) by (apply Nat.div_lt_upper_bound; lia).
  destruct (H _ _ _ Hi Hj Hl) as (cell' & Hn & Hlen & Hk). rewrite <- E2, <- E, Hc in Hn. injection Hn as <-.
  exists (c / nz / ny)%nat, ((c / nz) mod ny)%nat, (c mod nz)%nat. do 3 (split; auto). split; [rewrite <- E2, <- E; auto|]. split; auto.
  split; [intros; apply Hk; auto|].
  intros e n He. pose proof (nth_error_Some_lt _ _ _ He) as Hle. rewrite Hlen in Hle.
  destruct (pos_split (wz + 1) e) as [Ee Hr]; [lia|]. destruct (pos_split (wy + 1) (e / (wz + 1))) as [Ee2 Hm]; [lia|].
  assert (Hkm : (e / (wz + 1) < (wx + 1) * (wy + 1))%nat) by (apply Nat.div_lt_upper_bound; lia).
  assert (Hkk : (e / (wz + 1) / (wy + 1) < wx + 1)%nat) by (apply Nat.div_lt_upper_bound; lia).
  exists (e / (wz + 1) / (wy + 1))%nat, ((e / (wz + 1)) mod (wy + 1))%nat, (e mod (wz + 1))%nat.
  split; [lia|]. split; [lia|]. split; [lia|]. split; [rewrite <- Ee2; exact Ee|].
  rewrite Ee, Ee2 in He.
  destruct (Hk (e / (wz + 1) / (wy + 1)) ((e / (wz + 1)) mod (wy + 1)) (e mod (wz + 1)))%nat as [H1 _]; [lia|lia|lia|].
  rewrite H1 in He. injection He as <-. reflexivity.
Qed.

Lemma pos2_bound nx ny wx wy i j k m : (i < nx)%nat -> (j < ny)%nat -> (k <= wx)%nat -> (m <= wy)%nat ->
  (pos2 ny wx wy i j k m < (nx * wx + 1) * (ny * wy + 1))%nat.
Proof. intros. apply pos_bound; apply axis_bound; auto. Qed.
Lemma pos3_bound nx ny nz wx wy wz i j l k m r : (i < nx)%nat -> (j < ny)%nat -> (l < nz)%nat -> (k <= wx)%nat -> (m <= wy)%nat ->
  (r <= wz)%nat -> (pos3 ny nz wx wy wz i j l k m r < (nx * wx + 1) * (ny * wy + 1) * (nz * wz + 1))%nat.
Proof. intros. apply pos_bound; [apply pos_bound|]; apply axis_bound; auto. Qed.
Lemma pos2_inj ny wx wy i j k m i' j' k' m' : (j < ny)%nat -> (m <= wy)%nat -> (j' < ny)%nat -> (m' <= wy)%nat ->
  pos2 ny wx wy i j k m = pos2 ny wx wy i' j' k' m' -> (i * wx + k = i' * wx + k' /\ j * wy + m = j' * wy + m')%nat.
Proof. intros. apply (pos_inj (ny * wy + 1)); auto; apply axis_bound; auto. Qed.
Lemma pos3_inj ny nz wx wy wz i j l k m r i' j' l' k' m' r' : (j < ny)%nat -> (m <= wy)%nat -> (j' < ny)%nat -> (m' <= wy)%nat ->
  (l < nz)%nat -> (r <= wz)%nat -> (l' < nz)%nat -> (r' <= wz)%nat ->
  pos3 ny nz wx wy wz i j l k m r = pos3 ny nz wx wy wz i' j' l' k' m' r' ->
  (i * wx + k = i' * wx + k' /\ j * wy + m = j' * wy + m' /\ l * wz + r = l' * wz + r')%nat.
Proof.
  intros ? ? ? ? ? ? ? ? H. unfold pos3 in H. apply pos_inj in H; try (apply axis_bound; auto). destruct H as [H ->].
  apply pos_inj in H; try (apply axis_bound; auto). destruct H as [-> ->]. auto.
Qed.

Lemma lattice2_numbering nx ny wx wy start X Y coords topo : (1 <= nx)%nat -> (1 <= ny)%nat -> (1 <= wx)%nat -> (1 <= wy)%nat ->
  lattice2 nx ny wx wy start X Y coords topo -> numbering_ok start (length coords) topo.
Proof.
  intros Hnx Hny Hwx Hwy HL. split.
  - intros cell Hin. apply In_nth_error in Hin. destruct Hin as [c Hc].
    destruct (lattice2_inv _ _ _ _ _ _ _ _ _ _ _ HL Hc) as (i & j & Hi & Hj & -> & Hl & Hat & Hinv). split.
    + apply NoDup_nth_error. intros e e' He Hee. destruct (nth_error cell e) as [n|] eqn:E; [|apply nth_error_None in E; lia].
      symmetry in Hee. destruct (Hinv _ _ E) as (k & m & Hk & Hm & -> & ->).
      destruct (Hinv _ _ Hee) as (k' & m' & Hk' & Hm' & -> & Heq).
      assert (Hp : pos2 ny wx wy i j k m = pos2 ny wx wy i j k' m') by lia.
      apply pos2_inj in Hp; auto. replace k' with k by lia. replace m' with m by lia. reflexivity.
    + intros n Hn. apply In_nth_error in Hn. destruct Hn as [e He]. destruct (Hinv _ _ He) as (k & m & Hk & Hm & -> & ->).
      destruct HL as [-> _]. pose proof (pos2_bound nx ny wx wy i j k m Hi Hj Hk Hm). lia.
  - intros p Hp. destruct HL as (Hlc & Hlt & H). rewrite Hlc in Hp.
    destruct (pos_split (ny * wy + 1) p) as [E Hb]; [lia|].
    assert (Ha : (p / (ny * wy + 1) < nx * wx + 1)%nat) by (apply Nat.div_lt_upper_bound; lia).
    destruct (axis_cover _ _ _ Hwx Hnx Ha) as (i & k & Hi & Hk & Ea). destruct (axis_cover _ _ _ Hwy Hny Hb) as (j & m & Hj & Hm & Eb).
    destruct (H i j Hi Hj) as (cell & Hc & _ & Hkm). destruct (Hkm k m Hk Hm) as [H1 _]. exists cell.
    split; [eapply nth_error_In; eauto|]. rewrite E, Ea, Eb. eapply nth_error_In; eauto.
Qed.
Lemma lattice3_numbering nx ny nz wx wy wz start X Y Z coords topo :
  (1 <= nx)%nat -> (1 <= ny)%nat -> (1 <= nz)%nat -> (1 <= wx)%nat -> (1 <= wy)%nat -> (1 <= wz)%nat ->
  lattice3 nx ny nz wx wy wz start X Y Z coords topo -> numbering_ok start (length coords) topo.
Proof.
  intros Hnx Hny Hnz Hwx Hwy Hwz HL. split.
  - intros cell Hin. apply In_nth_error in Hin. destruct Hin as [c Hc].
    destruct (lattice3_inv _ _ _ _ _ _ _ _ _ _ _ _ _ _ HL Hc) as (i & j & l & Hi & Hj & Hl0 & -> & Hl & Hat & Hinv). split.
    + apply NoDup_nth_error. intros e e' He Hee. destruct (nth_error cell e) as [n|] eqn:E; [|apply nth_error_None in E; lia].
      symmetry in Hee. destruct (Hinv _ _ E) as (k & m & r & Hk & Hm & Hr & -> & ->).
      destruct (Hinv _ _ Hee) as (k' & m' & r' & Hk' & Hm' & Hr' & -> & Heq).
      assert (Hp : pos3 ny nz wx wy wz i j l k m r = pos3 ny nz wx wy wz i j l k' m' r') by lia.
      apply pos3_inj in Hp; auto. replace k' with k by lia. replace m' with m by lia. replace r' with r by lia. reflexivity.
    + intros n Hn. apply In_nth_error in Hn. destruct Hn as [e He]. destruct (Hinv _ _ He) as (k & m & r & Hk & Hm & Hr & -> & ->).
      destruct HL as [-> _]. pose proof (pos3_bound nx ny nz wx wy wz i j l k m r Hi Hj Hl0 Hk Hm Hr). lia.
  - intros p Hp. destruct HL as (Hlc & Hlt & H). rewrite Hlc in Hp.
    destruct (pos_split (nz * wz + 1) p) as [E Hc]; [lia|].
    destruct (pos_split (ny * wy + 1) (p / (nz * wz + 1))) as [E2 Hb]; [lia|].
    assert (Hab : (p / (nz * wz + 1) < (nx * wx + 1) * (ny * wy + 1))%nat) by (apply Nat.div_lt_upper_bound; lia).
    assert (Ha : (p / (nz * wz + 1) / (ny * wy + 1) < nx * wx + 1)%nat) by (apply Nat.div_lt_upper_bound; lia).
    destruct (axis_cover _ _ _ Hwx Hnx Ha) as (i & k & Hi & Hk & Ea). destruct (axis_cover _ _ _ Hwy Hny Hb) as (j & m & Hj & Hm & Eb).
    destruct (axis_cover _ _ _ Hwz Hnz Hc) as (l & r & Hl & Hr & Ec).
    destruct (H i j l Hi Hj Hl) as (cell & Hcell & _ & Hkm). destruct (Hkm k m r Hk Hm Hr) as [H1 _]. exists cell.
    split; [eapply nth_error_In; eauto|]. rewrite E, E2, Ea, Eb, Ec. eapply nth_error_In; eauto.
Qed.

(** ** One direction: order *)
Lemma rsum_app2 a b : rsum (a ++ b) = rsum a + rsum b.
Proof. unfold rsum. induction a as [|x a IH]; cbn [app fold_right]; [lra|]. rewrite IH. lra. Qed.
Definition axis_le (V : nat -> nat -> R) (w n : nat) : Prop := forall i k, (i < n)%nat -> (k <= w)%nat -> V i 0%nat <= V i k <= V i w.
Definition axis_lt (V : nat -> nat -> R) (w n : nat) : Prop := forall i k, (i < n)%nat -> (k < w)%nat -> V i k < V i (S k).

Lemma axis_lt_le V w n : axis_lt V w n -> axis_le V w n.
Proof.
  intros H i k Hi Hk. split.
  - clear -H Hi Hk. induction k; [lra|]. specialize (IHk ltac:(lia)). specialize (H i k Hi ltac:(lia)). lra.
  - assert (G : forall d, (d <= w)%nat -> V i (w - d)%nat <= V i w).
    { induction d; intros; [rewrite Nat.sub_0_r; lra|]. specialize (IHd ltac:(lia)).
      specialize (H i (w - S d)%nat Hi ltac:(lia)). replace (S (w - S d)) with (w - d)%nat in H by lia. lra. }
    specialize (G (w - k)%nat ltac:(lia)). replace (w - (w - k))%nat with k in G by lia. exact G.
Qed.
Lemma axis_chain V w n i i' : joined V w n -> axis_le V w n -> (i < i')%nat -> (i' < n)%nat -> V i w <= V i' 0%nat.
Proof.
  intros HJ HL Hlt Hn. induction i' as [|i' IH]; [lia|].
  destruct (Nat.eq_dec i i') as [->|].
  - rewrite HJ by lia. lra.
  - specialize (IH ltac:(lia) ltac:(lia)). rewrite <- HJ by lia. specialize (HL i' w ltac:(lia) ltac:(lia)). lra.
Qed.
Lemma axis_found V w n x : joined V w n -> (1 <= n)%nat -> V 0%nat 0%nat <= x <= V (n - 1)%nat w ->
  exists i, (i < n)%nat /\ V i 0%nat <= x <= V i w.
Proof.
  intros HJ Hn. induction n as [|n IH]; [lia|]. intros [H0 H1]. replace (S n - 1)%nat with n in H1 by lia.
  destruct n as [|n]; [exists 0%nat; auto|].
  destruct (Rle_dec x (V n w)) as [Hle|Hgt].
  - destruct IH as (i & Hi & Hx); [intros ? ?; apply HJ; lia|lia|replace (S n - 1)%nat with n by lia; auto|].
    exists i. auto.
  - exists (S n). split; [lia|]. rewrite HJ in Hgt by lia. lra.
Qed.
Lemma axis_unique V w n i i' x : joined V w n -> axis_le V w n -> (i < n)%nat -> (i' < n)%nat ->
  V i 0%nat < x < V i w -> V i' 0%nat < x < V i' w -> i = i'.
Proof.
  intros HJ HL Hi Hi' H H'. destruct (Nat.lt_trichotomy i i') as [Hlt|[->|Hlt]]; auto.
  - pose proof (axis_chain V w n i i' HJ HL Hlt Hi'). lra.
  - pose proof (axis_chain V w n i' i HJ HL Hlt Hi). lra.
Qed.
Lemma axis_total V w n : joined V w n -> (1 <= n)%nat ->
  rsum (map (fun i => V i w - V i 0%nat) (seq 0 n)) = V (n - 1)%nat w - V 0%nat 0%nat.
Proof.
  intros HJ Hn. induction n as [|n IH]; [lia|]. rewrite seq_S, map_app, rsum_app2. cbn [map].
  replace (S n - 1)%nat with n by lia. destruct n as [|n]; [cbn; lra|].
  rewrite IH; [|intros ? ?; apply HJ; lia|lia]. replace (S n - 1)%nat with n by lia.
  replace (0 + S n)%nat with (S n) by lia. rewrite HJ by lia. cbn. lra.
Qed.
Lemma line_lt V w n a b : joined V w n -> axis_lt V w n -> (1 <= w)%nat -> (a < b)%nat -> (b < n * w + 1)%nat ->
  line V w n a < line V w n b.
Proof.
  intros HJ HL Hw. induction b as [|b IH]; [lia|]. intros Hlt Hb.
  assert (Hstep : line V w n b < line V w n (S b)).
  { destruct (pos_split w b Hw) as [E Hk]. assert (Hi : (b / w < n)%nat) by (apply Nat.div_lt_upper_bound; lia).
    rewrite E at 1. replace (S b) with (b / w * w + S (b mod w))%nat at 1 by lia. rewrite !line_at by (auto; lia).
    apply HL; auto. }
  destruct (Nat.eq_dec a b) as [->|]; auto. specialize (IH ltac:(lia) ltac:(lia)). lra.
Qed.
Lemma line_inj V w n a b : joined V w n -> axis_lt V w n -> (1 <= w)%nat -> (a < n * w + 1)%nat -> (b < n * w + 1)%nat ->
  line V w n a = line V w n b -> a = b.
Proof.
  intros HJ HL Hw Ha Hb E. destruct (Nat.lt_trichotomy a b) as [H|[H|H]]; auto; exfalso.
  - pose proof (line_lt V w n a b HJ HL Hw H Hb). lra.
  - pose proof (line_lt V w n b a HJ HL Hw H Ha). lra.
Qed.
Lemma axis_at_inj V w n i k i' k' : joined V w n -> axis_lt V w n -> (1 <= w)%nat -> (i < n)%nat -> (i' < n)%nat ->
  (k <= w)%nat -> (k' <= w)%nat -> V i k = V i' k' -> (i * w + k = i' * w + k')%nat.
Proof.
  intros HJ HL Hw Hi Hi' Hk Hk' E. apply (line_inj V w n); auto; try (apply axis_bound; auto). rewrite !line_at by auto. auto.
Qed.
(** a lattice position inside an interval *)
Lemma axis_inside V w n i k i' : joined V w n -> axis_lt V w n -> (1 <= w)%nat -> (i < n)%nat -> (i' < n)%nat -> (k <= w)%nat ->
  V i' 0%nat <= V i k <= V i' w -> exists k', (k' <= w)%nat /\ (i * w + k = i' * w + k')%nat.
Proof.
  intros HJ HL Hw Hi Hi' Hk [H0 H1]. exists (i * w + k - i' * w)%nat.
  assert (Hb : (i * w + k < n * w + 1)%nat) by (apply axis_bound; auto).
  assert (Hb0 : (i' * w + 0 < n * w + 1)%nat) by (apply axis_bound; auto; lia).
  assert (Hb1 : (i' * w + w < n * w + 1)%nat) by (apply axis_bound; auto; lia).
  destruct (Nat.lt_ge_cases (i * w + k) (i' * w)) as [Hlt|Hge].
  - exfalso. pose proof (line_lt V w n (i * w + k) (i' * w + 0) HJ HL Hw ltac:(lia) Hb0) as H. rewrite !line_at in H by (auto; lia). lra.
  - destruct (Nat.lt_ge_cases (i' * w + w) (i * w + k)) as [Hlt|Hge'].
    + exfalso. pose proof (line_lt V w n (i' * w + w) (i * w + k) HJ HL Hw Hlt Hb) as H. rewrite !line_at in H by (auto; lia). lra.
    + lia.
Qed.

Lemma uniform_le s l n w : (1 <= w)%nat -> (1 <= n)%nat -> 0 <= l -> axis_le (uniform s l n w) w n.
Proof.
  intros Hw Hn Hl i k Hi Hk. unfold uniform. pose proof (INR_pos w Hw). pose proof (INR_pos n Hn).
  assert (0 <= l / INR n / INR w) by (unfold Rdiv; apply Rmult_le_pos; [apply Rmult_le_pos; auto|]; left; apply Rinv_0_lt_compat; auto).
  pose proof (pos_INR k). assert (INR k <= INR w) by (apply le_INR; lia). simpl (INR 0).
  split; [nra|]. assert (l / INR n / INR w * INR k <= l / INR n / INR w * INR w) by (apply Rmult_le_compat_l; auto). lra.
Qed.
Lemma uniform_lt s l n w : (1 <= w)%nat -> (1 <= n)%nat -> 0 < l -> axis_lt (uniform s l n w) w n.
Proof.
  intros Hw Hn Hl i k Hi Hk. unfold uniform. pose proof (INR_pos w Hw). pose proof (INR_pos n Hn).
  assert (0 < l / INR n / INR w) by (unfold Rdiv; apply Rmult_lt_0_compat; [apply Rmult_lt_0_compat; auto|]; apply Rinv_0_lt_compat; auto).
  rewrite S_INR. lra.
Qed.
Lemma binned_lt s b w : (1 <= w)%nat -> increasing b -> axis_lt (binned s b w) w (length b - 1).
Proof.
  intros Hw Hb i k Hi Hk. unfold binned. pose proof (INR_pos w Hw). specialize (Hb i ltac:(lia)).
  assert (0 < (nth (i + 1) b 0 - nth i b 0) / INR w) by (apply Rmult_lt_0_compat; [lra|apply Rinv_0_lt_compat; auto]).
  rewrite S_INR. lra.
Qed.
Lemma uniform_first s l n w : uniform s l n w 0 0 = s.
Proof. unfold uniform. simpl. lra. Qed.
Lemma uniform_last s l n w : (1 <= w)%nat -> (1 <= n)%nat -> uniform s l n w (n - 1) w = s + l.
Proof.
  intros Hw Hn. unfold uniform. pose proof (INR_pos w Hw). pose proof (INR_pos n Hn). rewrite minus_INR by lia. simpl (INR 1). field. lra.
Qed.
Lemma binned_first s b w : binned s b w 0 0 = s + nth 0 b 0.
Proof. unfold binned. simpl. lra. Qed.
Lemma binned_last s b w : (1 <= w)%nat -> (2 <= length b)%nat -> binned s b w (length b - 1 - 1) w = s + nth (length b - 1) b 0.
Proof.
  intros Hw Hn. unfold binned. pose proof (INR_pos w Hw). replace (length b - 1 - 1 + 1)%nat with (length b - 1)%nat by lia. field. lra.
Qed.
