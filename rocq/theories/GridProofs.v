(** * Proofs about [GridModel.v], part 1: filling the arrays *)
From Coq Require Import Reals Lra.
From Verif Require Export GridSpec FillFacts.
Local Open Scope nat_scope.

(** ** One direction *)

(** value at lattice position [a] *)
Definition line {A} (V : nat -> nat -> A) (w n a : nat) : A :=
  let i := Nat.min (a / w) (n - 1) in V i (a - i * w).
Definition joined {A} (V : nat -> nat -> A) (w n : nat) : Prop := forall i, S i < n -> V i w = V (S i) 0.

Lemma div_at w i k : k < w -> (i * w + k) / w = i.
Proof. intros. rewrite Nat.add_comm, Nat.div_add, Nat.div_small by lia. lia. Qed.
Lemma line_at {A} (V : nat -> nat -> A) w n i k : joined V w n -> 1 <= w -> i < n -> k <= w -> line V w n (i * w + k) = V i k.
Proof.
  intros HV Hw Hi Hk. unfold line. destruct (Nat.eq_dec k w) as [->|Hn].
  - replace (i * w + w) with (S i * w + 0) by lia. rewrite div_at by lia.
    destruct (Nat.eq_dec (S i) n) as [<-|].
    + rewrite Nat.min_r by lia. replace (S i - 1) with i by lia. f_equal. lia.
    + rewrite Nat.min_l by lia. rewrite HV by lia. f_equal. lia.
  - rewrite div_at by lia. rewrite Nat.min_l by lia. f_equal. lia.
Qed.
Lemma axis_cover w n a : 1 <= w -> 1 <= n -> a < n * w + 1 -> exists i k, i < n /\ k <= w /\ a = i * w + k.
Proof.
  intros Hw Hn Ha. destruct (Nat.eq_dec a (n * w)) as [->|Hne].
  - exists (n - 1), w. destruct n; [lia|]. replace (S n - 1) with n by lia. lia.
  - exists (a / w), (a mod w). split; [apply Nat.div_lt_upper_bound; lia|].
    split; [pose proof (Nat.mod_upper_bound a w); lia|]. rewrite Nat.mul_comm. apply Nat.div_mod. lia.
Qed.
Lemma axis_bound w n i k : i < n -> k <= w -> i * w + k < n * w + 1.
Proof. intros. destruct n; [lia|]. assert (i * w <= n * w) by (apply Nat.mul_le_mono_r; lia). simpl. lia. Qed.
Lemma pos_bound a b NX NY : a < NX -> b < NY -> a * NY + b < NX * NY.
Proof. intros. destruct NX; [lia|]. assert (a * NY <= NX * NY) by (apply Nat.mul_le_mono_r; lia). simpl. lia. Qed.
Lemma pos_inj NY a b a' b' : b < NY -> b' < NY -> a * NY + b = a' * NY + b' -> a = a' /\ b = b'.
Proof.
  intros. assert (a = a') as ->; [|lia].
  rewrite <- (div_at NY a b), <- (div_at NY a' b') by lia. congruence.
Qed.

(** ** Arrays given by a table over two directions *)

Lemma nth_error_seq s n k : k < n -> nth_error (seq s n) k = Some (s + k).
Proof. intros. rewrite (nth_error_nth' _ 0) by (rewrite seq_length; auto). f_equal. apply seq_nth. auto. Qed.
Definition table2 {A} (f : nat -> nat -> A) (n m : nat) : list A :=
  map (fun ab => f (fst ab) (snd ab)) (list_prod (seq 0 n) (seq 0 m)).
Lemma table2_length {A} (f : nat -> nat -> A) n m : length (table2 f n m) = n * m.
Proof. unfold table2. rewrite map_length, prod_length, !seq_length. reflexivity. Qed.
Lemma table2_nth {A} (f : nat -> nat -> A) n m a b : a < n -> b < m -> nth_error (table2 f n m) (a * m + b) = Some (f a b).
Proof.
  intros Ha Hb. unfold table2. rewrite nth_error_map.
  pose proof (nth_error_list_prod (seq 0 n) (seq 0 m) a b _ _ (nth_error_seq 0 n a Ha) (nth_error_seq 0 m b Hb)) as H.
  rewrite seq_length in H. rewrite H. reflexivity.
Qed.
Lemma table2_inv {A} (f : nat -> nat -> A) n m p x : nth_error (table2 f n m) p = Some x ->
  exists a b, a < n /\ b < m /\ p = a * m + b /\ x = f a b.
Proof.
  intros H. assert (Hp : p < n * m) by (rewrite <- (table2_length f n m); eapply nth_error_Some_lt; eauto).
  destruct m; [lia|].
  exists (p / S m), (p mod S m).
  assert (Ha : p / S m < n) by (apply Nat.div_lt_upper_bound; lia).
  assert (Hb : p mod S m < S m) by (apply Nat.mod_upper_bound; lia).
  assert (E : p = p / S m * S m + p mod S m) by (rewrite Nat.mul_comm; apply Nat.div_mod; lia).
  repeat split; auto. rewrite E in H. rewrite table2_nth in H by auto. congruence.
Qed.
Lemma table2_rect {A} (f : nat -> nat -> list A) w n m : (forall a b, length (f a b) = w) -> rect w (table2 f n m).
Proof. intros H. unfold rect, table2. rewrite Forall_map, Forall_forall. intros; apply H. Qed.

Lemma fill_table {A} (z : A) (ws : list (nat * nat * A)) (r0 : list (list A)) n w :
  length r0 = n -> rect w r0 ->
  (forall i j x, In (i, j, x) ws -> get2o r0 i j = Some x) ->
  (forall i j x, get2o r0 i j = Some x -> exists x', In (i, j, x') ws) ->
  forall ws', Permutation ws ws' -> run_writes2 ws' (zeros2 z n w) = Ok r0.
Proof.
  intros Hl Hr H1 H2 ws' Hp. apply run_writes2_fill.
  - rewrite shape2_zeros2, (shape2_rect w), Hl; auto.
  - intros i j x Hin. apply H1. eapply Permutation_in; [apply Permutation_sym|]; eauto.
  - intros i j x Hg. destruct (H2 i j x Hg) as [x' Hx']. exists x'. eapply Permutation_in; eauto.
Qed.

(** *** two dimensions *)
Section Fill2.
  Context {A : Type} (nx ny wx wy : nat) (X Y : nat -> nat -> A).
  Hypothesis (Hnx : 1 <= nx) (Hny : 1 <= ny) (Hwx : 1 <= wx) (Hwy : 1 <= wy).
  Hypothesis (HX : joined X wx nx) (HY : joined Y wy ny).
  Let NX := nx * wx + 1.
  Let NY := ny * wy + 1.
  Definition pos2 i j k m := (i * wx + k) * (ny * wy + 1) + (j * wy + m).
  Definition coords2 := table2 (fun a b => [line X wx nx a; line Y wy ny b]) (nx * wx + 1) (ny * wy + 1).
  Lemma coords2_at i j k m : i < nx -> j < ny -> k <= wx -> m <= wy -> nth_error coords2 (pos2 i j k m) = Some [X i k; Y j m].
  Proof.
    intros. unfold coords2, pos2. rewrite table2_nth by (apply axis_bound; auto). rewrite !line_at; auto.
  Qed.
  Lemma fill_coords2 (z : A) ws :
    (forall n d v, In (n, d, v) ws <-> exists i j k m, i < nx /\ j < ny /\ k <= wx /\ m <= wy /\ n = pos2 i j k m /\
       (d = 0 /\ v = X i k \/ d = 1 /\ v = Y j m)) ->
    forall ws', Permutation ws ws' -> run_writes2 ws' (zeros2 z (NX * NY) 2) = Ok coords2.
  Proof.
    intros Hws. apply fill_table.
    - unfold coords2. rewrite table2_length. reflexivity.
    - apply table2_rect. reflexivity.
    - intros n d v Hin. apply Hws in Hin. destruct Hin as (i & j & k & m & Hi & Hj & Hk & Hm & -> & H).
      unfold get2o. rewrite coords2_at by auto. destruct H as [[-> ->]|[-> ->]]; reflexivity.
    - intros n d v Hg. unfold get2o in Hg. destruct (nth_error coords2 n) as [r|] eqn:E; [|discriminate].
      apply table2_inv in E. destruct E as (a & b & Ha & Hb & -> & ->).
      destruct (axis_cover wx nx a Hwx Hnx Ha) as (i & k & Hi & Hk & ->).
      destruct (axis_cover wy ny b Hwy Hny Hb) as (j & m & Hj & Hm & ->).
      destruct d as [|[|d]]; [| |destruct d; discriminate].
      + exists (X i k). apply Hws. exists i, j, k, m. repeat (split; auto).
      + exists (Y j m). apply Hws. exists i, j, k, m. repeat (split; auto).
  Qed.
  Definition topo2 (off : nat) := table2 (fun i j => table2 (fun k m => pos2 i j k m + off) (wx + 1) (wy + 1)) nx ny.
  Lemma topo2_rect off : rect ((wx + 1) * (wy + 1)) (topo2 off).
  Proof. apply table2_rect. intros. apply table2_length. Qed.
  Lemma topo2_map off f : (forall i j k m, f (pos2 i j k m + off) = pos2 i j k m + 0) ->
     map (map f) (topo2 off) = topo2 0.
  Proof.
    intros H. unfold topo2, table2. rewrite map_map. apply map_ext. intros. rewrite map_map. apply map_ext. intros. apply H.
  Qed.
  Lemma fill_topo2 off ws :
    (forall c e v, In (c, e, v) ws <-> exists i j k m, i < nx /\ j < ny /\ k <= wx /\ m <= wy /\
       c = i * ny + j /\ e = k * (wy + 1) + m /\ v = pos2 i j k m + off) ->
    forall ws', Permutation ws ws' -> run_writes2 ws' (zeros2 0 (nx * ny) ((wx + 1) * (wy + 1))) = Ok (topo2 off).
  Proof.
    intros Hws. apply fill_table.
    - unfold topo2. apply table2_length.
    - apply topo2_rect.
    - intros c e v Hin. apply Hws in Hin. destruct Hin as (i & j & k & m & Hi & Hj & Hk & Hm & -> & -> & ->).
      unfold get2o, topo2. rewrite table2_nth by auto. rewrite table2_nth by lia. reflexivity.
    - intros c e v Hg. unfold get2o in Hg. destruct (nth_error (topo2 off) c) as [r|] eqn:E; [|discriminate].
      apply table2_inv in E. destruct E as (i & j & Hi & Hj & -> & ->).
      apply table2_inv in Hg. destruct Hg as (k & m & Hk & Hm & -> & ->).
      eexists. apply Hws. exists i, j, k, m. repeat (split; [first [lia|auto]|]). reflexivity.
  Qed.
End Fill2.

Lemma lattice2_ok nx ny wx wy start X Y : 1 <= wx -> 1 <= wy -> joined X wx nx -> joined Y wy ny ->
  lattice2 nx ny wx wy start X Y (coords2 nx ny wx wy X Y) (topo2 nx ny wx wy start).
Proof.
  intros Hwx Hwy HX HY. split; [apply table2_length|]. split; [apply table2_length|].
  intros i j Hi Hj. eexists. split; [unfold topo2; apply table2_nth; auto|].
  split; [apply table2_length|]. intros k m Hk Hm. split.
  - rewrite table2_nth by lia. unfold pos2. f_equal. lia.
  - apply coords2_at; auto.
Qed.

(** *** three dimensions *)
Lemma mod_at n a b : b < n -> (a * n + b) mod n = b.
Proof. intros. rewrite Nat.add_comm, Nat.mod_add by lia. apply Nat.mod_small. auto. Qed.
Lemma pos_split n p : 1 <= n -> p = p / n * n + p mod n /\ p mod n < n.
Proof. intros. split; [rewrite Nat.mul_comm; apply Nat.div_mod; lia|apply Nat.mod_upper_bound; lia]. Qed.
Section Fill3.
  Context {A : Type} (nx ny nz wx wy wz : nat) (X Y Z : nat -> nat -> A).
  Hypothesis (Hnx : 1 <= nx) (Hny : 1 <= ny) (Hnz : 1 <= nz) (Hwx : 1 <= wx) (Hwy : 1 <= wy) (Hwz : 1 <= wz).
  Hypothesis (HX : joined X wx nx) (HY : joined Y wy ny) (HZ : joined Z wz nz).
  Let NX := nx * wx + 1.
  Let NY := ny * wy + 1.
  Let NZ := nz * wz + 1.
  Definition pos3 i j l k m r := ((i * wx + k) * (ny * wy + 1) + (j * wy + m)) * (nz * wz + 1) + (l * wz + r).
  (** tables over a pair of directions and a third one *)
  Definition coords3 := table2 (fun ab c => [line X wx nx (ab / (ny * wy + 1)); line Y wy ny (ab mod (ny * wy + 1)); line Z wz nz c])
    ((nx * wx + 1) * (ny * wy + 1)) (nz * wz + 1).
  Lemma coords3_at i j l k m r : i < nx -> j < ny -> l < nz -> k <= wx -> m <= wy -> r <= wz ->
    nth_error coords3 (pos3 i j l k m r) = Some [X i k; Y j m; Z l r].
  Proof.
    intros. unfold coords3, pos3. rewrite table2_nth by (try apply pos_bound; apply axis_bound; auto).
    rewrite div_at, mod_at by (apply axis_bound; auto). rewrite !line_at; auto.
  Qed.
  Lemma fill_coords3 (z : A) ws :
    (forall n d v, In (n, d, v) ws <-> exists i j l k m r, i < nx /\ j < ny /\ l < nz /\ k <= wx /\ m <= wy /\ r <= wz /\
       n = pos3 i j l k m r /\ (d = 0 /\ v = X i k \/ d = 1 /\ v = Y j m \/ d = 2 /\ v = Z l r)) ->
    forall ws', Permutation ws ws' -> run_writes2 ws' (zeros2 z (NX * NY * NZ) 3) = Ok coords3.
  Proof.
    intros Hws. apply fill_table.
    - unfold coords3. rewrite table2_length. reflexivity.
    - apply table2_rect. reflexivity.
    - intros n d v Hin. apply Hws in Hin. destruct Hin as (i & j & l & k & m & r & Hi & Hj & Hl & Hk & Hm & Hr & -> & H).
      unfold get2o. rewrite coords3_at by auto. destruct H as [[-> ->]|[[-> ->]|[-> ->]]]; reflexivity.
    - intros n d v Hg. unfold get2o in Hg. destruct (nth_error coords3 n) as [row|] eqn:E; [|discriminate].
      apply table2_inv in E. destruct E as (ab & c & Hab & Hc & -> & ->).
      destruct (pos_split (ny * wy + 1) ab) as [Eab Hb]; [lia|].
      assert (Ha : ab / (ny * wy + 1) < nx * wx + 1) by (apply Nat.div_lt_upper_bound; lia).
      destruct (axis_cover wx nx _ Hwx Hnx Ha) as (i & k & Hi & Hk & Ea).
      destruct (axis_cover wy ny _ Hwy Hny Hb) as (j & m & Hj & Hm & Em).
      destruct (axis_cover wz nz c Hwz Hnz Hc) as (l & r & Hl & Hr & ->).
      assert (Ep : ab * (nz * wz + 1) + (l * wz + r) = pos3 i j l k m r).
      { unfold pos3. rewrite Eab at 1. rewrite Ea, Em. reflexivity. }
      destruct d as [|[|[|d]]]; [| | |destruct d; discriminate]; rewrite Ep.
      + exists (X i k). apply Hws. exists i, j, l, k, m, r. repeat (split; auto).
      + exists (Y j m). apply Hws. exists i, j, l, k, m, r. repeat (split; auto).
      + exists (Z l r). apply Hws. exists i, j, l, k, m, r. repeat (split; auto).
  Qed.
  Definition cell3 (off i j l : nat) : list nat :=
    table2 (fun km r => pos3 i j l (km / (wy + 1)) (km mod (wy + 1)) r + off) ((wx + 1) * (wy + 1)) (wz + 1).
  Definition topo3 (off : nat) := table2 (fun ij l => cell3 off (ij / ny) (ij mod ny) l) (nx * ny) nz.
  Lemma cell3_length off i j l : length (cell3 off i j l) = (wx + 1) * (wy + 1) * (wz + 1).
  Proof. apply table2_length. Qed.
  Lemma cell3_at off i j l k m r : k <= wx -> m <= wy -> r <= wz ->
    nth_error (cell3 off i j l) ((k * (wy + 1) + m) * (wz + 1) + r) = Some (pos3 i j l k m r + off).
  Proof.
    clear Hnx Hny Hnz Hwx Hwy Hwz HX HY HZ. intros. unfold cell3. rewrite table2_nth by (try apply pos_bound; lia). rewrite div_at, mod_at by lia. reflexivity.
  Qed.
  Lemma topo3_at off i j l : i < nx -> j < ny -> l < nz -> nth_error (topo3 off) ((i * ny + j) * nz + l) = Some (cell3 off i j l).
  Proof. clear Hnx Hny Hnz Hwx Hwy Hwz HX HY HZ. intros. unfold topo3. rewrite table2_nth by (try apply pos_bound; lia). rewrite div_at, mod_at by lia. reflexivity. Qed.
  Lemma topo3_rect off : rect ((wx + 1) * (wy + 1) * (wz + 1)) (topo3 off).
  Proof. apply table2_rect. intros. apply cell3_length. Qed.
  Lemma topo3_length off : length (topo3 off) = nx * ny * nz.
  Proof. apply table2_length. Qed.
  Lemma topo3_map off f off' : (forall i j l k m r, f (pos3 i j l k m r + off) = pos3 i j l k m r + off') ->
     map (map f) (topo3 off) = topo3 off'.
  Proof.
    intros H. unfold topo3, table2. rewrite map_map. apply map_ext. intros. unfold cell3, table2.
    rewrite map_map. apply map_ext. intros. apply H.
  Qed.
  Lemma fill_topo3 off ws :
    (forall c e v, In (c, e, v) ws <-> exists i j l k m r, i < nx /\ j < ny /\ l < nz /\ k <= wx /\ m <= wy /\ r <= wz /\
       c = (i * ny + j) * nz + l /\ e = (k * (wy + 1) + m) * (wz + 1) + r /\ v = pos3 i j l k m r + off) ->
    forall ws', Permutation ws ws' -> run_writes2 ws' (zeros2 0 (nx * ny * nz) ((wx + 1) * (wy + 1) * (wz + 1))) = Ok (topo3 off).
  Proof.
    intros Hws. apply fill_table.
    - apply topo3_length.
    - apply topo3_rect.
    - intros c e v Hin. apply Hws in Hin. destruct Hin as (i & j & l & k & m & r & Hi & Hj & Hl & Hk & Hm & Hr & -> & -> & ->).
      unfold get2o. rewrite topo3_at, cell3_at by auto. reflexivity.
    - intros c e v Hg. unfold get2o in Hg. destruct (nth_error (topo3 off) c) as [row|] eqn:E; [|discriminate].
      apply table2_inv in E. destruct E as (ij & l & Hij & Hl & -> & ->).
      apply table2_inv in Hg. destruct Hg as (km & r & Hkm & Hr & -> & ->).
      destruct (pos_split ny ij) as [Eij Hj]; [lia|]. destruct (pos_split (wy + 1) km) as [Ekm Hm]; [lia|].
      eexists. apply Hws. exists (ij / ny), (ij mod ny), l, (km / (wy + 1)), (km mod (wy + 1)), r.
      assert (ij / ny < nx) by (apply Nat.div_lt_upper_bound; lia).
      assert (km / (wy + 1) < wx + 1) by (apply Nat.div_lt_upper_bound; lia).
      repeat (split; [first [lia|auto]|]). reflexivity.
  Qed.
End Fill3.

Lemma lattice3_ok nx ny nz wx wy wz start X Y Z : 1 <= wx -> 1 <= wy -> 1 <= wz ->
  joined X wx nx -> joined Y wy ny -> joined Z wz nz ->
  lattice3 nx ny nz wx wy wz start X Y Z (coords3 nx ny nz wx wy wz X Y Z) (topo3 nx ny nz wx wy wz start).
Proof.
  intros Hwx Hwy Hwz HX HY HZ. split; [apply table2_length|]. split; [apply topo3_length|].
  intros i j l Hi Hj Hl. eexists. split; [apply topo3_at; lia|].
  split; [apply cell3_length|]. intros k m r Hk Hm Hr. split.
  - rewrite (cell3_at nx) by lia. f_equal. unfold pos3. lia.
  - apply coords3_at; auto; lia.
Qed.
