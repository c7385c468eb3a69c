(** * Proofs about [GridModel.v], part 2: the arrays made by rgridMT and from bins *)
From Coq Require Import Reals Lra.
From Verif Require Export GridProofs.
Local Open Scope R_scope.

Lemma kn_INR n : kn (K := R) n = INR n.
Proof. unfold kn. cbn [kofZ NumR]. symmetry. apply INR_IZR_INZ. Qed.
Lemma divn_ok (a : R) n : (1 <= n)%nat -> divn a n = Ok (a / INR n).
Proof. intros H. unfold divn. destruct (Nat.eqb_spec n 0); [lia|]. rewrite kn_INR. reflexivity. Qed.
Lemma INR_pos n : (1 <= n)%nat -> 0 < INR n.
Proof. intros. apply lt_0_INR. lia. Qed.

Lemma uniform_joined s l n w : (1 <= w)%nat -> (1 <= n)%nat -> joined (uniform s l n w) w n.
Proof.
  intros Hw Hn i _. unfold uniform. rewrite S_INR. pose proof (INR_pos w Hw). pose proof (INR_pos n Hn). simpl INR. field. lra.
Qed.
Lemma binned_joined s b w n : (1 <= w)%nat -> joined (binned s b w) w n.
Proof.
  intros Hw i _. unfold binned. replace (S i) with (i + 1)%nat by lia. pose proof (INR_pos w Hw). simpl (INR 0). field. lra.
Qed.

Lemma in_nest4 a b c d i j k m : In (i, j, k, m) (nest4 a b c d) <-> In i a /\ In j b /\ In k c /\ In m d.
Proof.
  unfold nest4. rewrite in_flat_map. split.
  - intros [i' [Hi H]]. apply in_flat_map in H. destruct H as [j' [Hj H]]. apply in_flat_map in H.
    destruct H as [k' [Hk H]]. apply in_map_iff in H. destruct H as [m' [E Hm]]. injection E as <- <- <- <-. auto.
  - intros (Hi & Hj & Hk & Hm). exists i. split; auto. apply in_flat_map. exists j. split; auto.
    apply in_flat_map. exists k. split; auto. apply in_map_iff. exists m. auto.
Qed.
Lemma in_nest6 a b c d e f i j k m q p : In (i, j, k, (m, q, p)) (nest6 a b c d e f) <->
  In i a /\ In j b /\ In k c /\ In m d /\ In q e /\ In p f.
Proof.
  unfold nest6. rewrite in_flat_map. split.
  - intros [i' [Hi H]]. apply in_flat_map in H. destruct H as [j' [Hj H]]. apply in_flat_map in H.
    destruct H as [k' [Hk H]]. apply in_flat_map in H. destruct H as [m' [Hm H]]. apply in_flat_map in H.
    destruct H as [q' [Hq H]]. apply in_map_iff in H. destruct H as [p' [E Hp]]. injection E as <- <- <- <- <- <-. tauto.
  - intros (Hi & Hj & Hk & Hm & Hq & Hp). exists i. split; auto. apply in_flat_map. exists j. split; auto.
    apply in_flat_map. exists k. split; auto. apply in_flat_map. exists m. split; auto.
    apply in_flat_map. exists q. split; auto. apply in_map_iff. exists p. auto.
Qed.

(** the node number used by the loops, with indices counted from zero *)
Lemma node2_S ex ey ny i j k m :
  rgrid_node2 ex ey (ny * (ey - 1) + 1) (S i) (S j) (S k) (S m) = S (pos2 ny (ex - 1) (ey - 1) i j k m).
Proof.
  unfold rgrid_node2, pos2. simpl (S _ - 1)%nat. rewrite !Nat.sub_0_r.
  generalize (ex - 1)%nat (ey - 1)%nat. intros wx wy.
  replace (wx * i + S k - 1)%nat with (i * wx + k)%nat by lia. lia.
Qed.
Lemma node3_S ex ey ez ny nz i j l k m r :
  rgrid_node3 ex ey ez (ny * (ey - 1) + 1) (nz * (ez - 1) + 1) (S i) (S j) (S l) (S k) (S m) (S r) =
  S (pos3 ny nz (ex - 1) (ey - 1) (ez - 1) i j l k m r).
Proof.
  unfold rgrid_node3, pos3. simpl (S _ - 1)%nat. rewrite !Nat.sub_0_r.
  generalize (ex - 1)%nat (ey - 1)%nat (ez - 1)%nat. intros wx wy wz.
  replace (wx * i + S k - 1)%nat with (i * wx + k)%nat by lia.
  replace ((i * wx + k) * (ny * wy + 1) + wy * j + S m - 1)%nat with
    ((i * wx + k) * (ny * wy + 1) + (j * wy + m))%nat by lia. lia.
Qed.
Ltac to_S x := let x' := fresh "x" in destruct x as [|x']; [lia|].

(** ** rgridMT, two dimensions *)
Lemma rgrid2_filled (lX lY : R) nx ny ex ey sx sy :
  (1 <= nx)%nat -> (1 <= ny)%nat -> (2 <= ex)%nat -> (2 <= ey)%nat ->
  exists cw tw,
    rgrid_writes2 lX lY nx ny ex ey sx sy =
      Ok (((nx * (ex - 1) + 1) * (ny * (ey - 1) + 1), cw), (nx * ny, ex * ey, tw))%nat /\
    (forall cw', Permutation cw cw' -> run_writes2 cw' (zeros2 0 ((nx * (ex - 1) + 1) * (ny * (ey - 1) + 1)) 2) =
       Ok (coords2 nx ny (ex - 1) (ey - 1) (uniform sx lX nx (ex - 1)) (uniform sy lY ny (ey - 1)))) /\
    (forall tw', Permutation tw tw' -> run_writes2 tw' (zeros2 0%nat (nx * ny) (ex * ey)) =
       Ok (topo2 nx ny (ex - 1) (ey - 1) 1)).
Proof.
  intros Hnx Hny Hex Hey. unfold rgrid_writes2. rewrite !divn_ok by lia. cbn [bind]. rewrite !divn_ok by lia. cbn [bind].
  do 2 eexists. split; [reflexivity|]. split.
  - apply fill_coords2; try lia; [apply uniform_joined; lia..|].
    intros n d v. rewrite in_flat_map. split.
    + intros [[[[i j] k] m] [Hit Hin]]. apply in_nest4 in Hit. rewrite !in_seq in Hit.
      to_S i. to_S j. to_S k. to_S m. exists x, x0, x1, x2. do 4 (split; [lia|]).
      unfold rgrid_coord_writes2 in Hin. rewrite node2_S, !kn_INR in Hin. simpl (S _ - 1)%nat in Hin. rewrite !Nat.sub_0_r in Hin.
      destruct Hin as [E|[E|[]]]; injection E as <- <- <-; (split; [reflexivity|]); [left|right]; split; reflexivity.
    + intros (i & j & k & m & Hi & Hj & Hk & Hm & -> & H).
      exists (S i, S j, S k, S m). split; [apply in_nest4; rewrite !in_seq; lia|].
      unfold rgrid_coord_writes2. rewrite node2_S, !kn_INR. simpl (S _ - 1)%nat. rewrite !Nat.sub_0_r.
      destruct H as [[-> ->]|[-> ->]]; [left|right; left]; reflexivity.
  - replace (ex * ey)%nat with ((ex - 1 + 1) * (ey - 1 + 1))%nat by (f_equal; lia).
    apply fill_topo2; try lia.
    intros c e v. rewrite in_map_iff. split.
    + intros [[[[i j] k] m] [E Hit]]. apply in_nest4 in Hit. rewrite !in_seq in Hit.
      to_S i. to_S j. to_S k. to_S m. exists x, x0, x1, x2. do 4 (split; [lia|]).
      unfold rgrid_topo_write2 in E. rewrite node2_S in E. simpl (S _ - 1)%nat in E. rewrite !Nat.sub_0_r in E.
      injection E as <- <- <-. replace (ey - 1 + 1)%nat with ey by lia. repeat split; lia.
    + intros (i & j & k & m & Hi & Hj & Hk & Hm & -> & -> & ->).
      exists (S i, S j, S k, S m). split; [|apply in_nest4; rewrite !in_seq; lia].
      unfold rgrid_topo_write2. rewrite node2_S. simpl (S _ - 1)%nat. rewrite !Nat.sub_0_r.
      replace (ey - 1 + 1)%nat with ey by lia. f_equal; [f_equal|]; lia.
Qed.
Lemma topo2_shift nx ny wx wy off f off' : (forall n, f (n + off)%nat = (n + off')%nat) ->
   map (map f) (topo2 nx ny wx wy off) = topo2 nx ny wx wy off'.
Proof.
  intros H. unfold topo2, table2. rewrite map_map. apply map_ext. intros. rewrite map_map. apply map_ext. intros. apply H.
Qed.
Lemma topo3_shift nx ny nz wx wy wz off f off' : (forall n, f (n + off)%nat = (n + off')%nat) ->
   map (map f) (topo3 nx ny nz wx wy wz off) = topo3 nx ny nz wx wy wz off'.
Proof.
  intros H. unfold topo3, cell3, table2. rewrite map_map. apply map_ext. intros. rewrite map_map. apply map_ext. intros. apply H.
Qed.
Lemma rgridMT2_value (lX lY : R) nx ny ex ey sx sy rest start :
  (1 <= nx)%nat -> (1 <= ny)%nat -> (2 <= ex)%nat -> (2 <= ey)%nat ->
  rgridMT [lX; lY] [nx; ny] [ex; ey] (sx :: sy :: rest) start =
  Ok (coords2 nx ny (ex - 1) (ey - 1) (uniform sx lX nx (ex - 1)) (uniform sy lY ny (ey - 1)),
      topo2 nx ny (ex - 1) (ey - 1) start).
Proof.
  intros Hnx Hny Hex Hey. destruct (rgrid2_filled lX lY nx ny ex ey sx sy Hnx Hny Hex Hey) as (cw & tw & E & Hc & Ht).
  unfold rgridMT. cbn [get nth_error bind]. rewrite E. cbn [bind kofZ NumR]. rewrite (Hc cw (Permutation_refl _)). cbn [bind].
  rewrite (Ht tw (Permutation_refl _)). cbn [bind]. unfold add_start1. rewrite (topo2_shift _ _ _ _ 1 _ start) by (intros; lia).
  reflexivity.
Qed.

(** ** rgridMT, three dimensions *)
Lemma rgrid3_filled (lX lY lZ : R) nx ny nz ex ey ez sx sy sz :
  (1 <= nx)%nat -> (1 <= ny)%nat -> (1 <= nz)%nat -> (2 <= ex)%nat -> (2 <= ey)%nat -> (2 <= ez)%nat ->
  exists cw tw,
    rgrid_writes3 lX lY lZ nx ny nz ex ey ez sx sy sz =
      Ok (((nx * (ex - 1) + 1) * (ny * (ey - 1) + 1) * (nz * (ez - 1) + 1), cw), (ny * nx * nz, ex * ey * ez, tw))%nat /\
    (forall cw', Permutation cw cw' ->
       run_writes2 cw' (zeros2 0 ((nx * (ex - 1) + 1) * (ny * (ey - 1) + 1) * (nz * (ez - 1) + 1)) 3) =
       Ok (coords3 nx ny nz (ex - 1) (ey - 1) (ez - 1) (uniform sx lX nx (ex - 1)) (uniform sy lY ny (ey - 1)) (uniform sz lZ nz (ez - 1)))) /\
    (forall tw', Permutation tw tw' -> run_writes2 tw' (zeros2 0%nat (ny * nx * nz) (ex * ey * ez)) =
       Ok (topo3 nx ny nz (ex - 1) (ey - 1) (ez - 1) 1)).
Proof.
  intros Hnx Hny Hnz Hex Hey Hez. unfold rgrid_writes3. rewrite !divn_ok by lia. cbn [bind]. rewrite !divn_ok by lia. cbn [bind].
  do 2 eexists. split; [reflexivity|]. split.
  - apply fill_coords3; try lia; [apply uniform_joined; lia..|].
    intros n d v. rewrite in_flat_map. split.
    + intros [[[[i j] l] [[k m] r]] [Hit Hin]]. apply in_nest6 in Hit. rewrite !in_seq in Hit.
      to_S i. to_S j. to_S l. to_S k. to_S m. to_S r. exists x, x0, x1, x2, x3, x4. do 6 (split; [lia|]).
      unfold rgrid_coord_writes3 in Hin. rewrite node3_S, !kn_INR in Hin. simpl (S _ - 1)%nat in Hin. rewrite !Nat.sub_0_r in Hin.
      destruct Hin as [E|[E|[E|[]]]]; injection E as <- <- <-; (split; [reflexivity|]); auto.
    + intros (i & j & l & k & m & r & Hi & Hj & Hl & Hk & Hm & Hr & -> & H).
      exists (S i, S j, S l, (S k, S m, S r)). split; [apply in_nest6; rewrite !in_seq; lia|].
      unfold rgrid_coord_writes3. rewrite node3_S, !kn_INR. simpl (S _ - 1)%nat. rewrite !Nat.sub_0_r.
      destruct H as [[-> ->]|[[-> ->]|[-> ->]]]; [left|right; left|right; right; left]; reflexivity.
  - replace (ex * ey * ez)%nat with ((ex - 1 + 1) * (ey - 1 + 1) * (ez - 1 + 1))%nat by (f_equal; [f_equal|]; lia).
    replace (ny * nx * nz)%nat with (nx * ny * nz)%nat by lia.
    apply fill_topo3; try lia.
    intros c e v. rewrite in_map_iff. split.
    + intros [[[[i j] l] [[k m] r]] [E Hit]]. apply in_nest6 in Hit. rewrite !in_seq in Hit.
      to_S i. to_S j. to_S l. to_S k. to_S m. to_S r. exists x, x0, x1, x2, x3, x4. do 6 (split; [lia|]).
      unfold rgrid_topo_write3 in E. rewrite node3_S in E. simpl (S _ - 1)%nat in E. rewrite !Nat.sub_0_r in E.
      injection E as <- <- <-. replace (ey - 1 + 1)%nat with ey by lia. replace (ez - 1 + 1)%nat with ez by lia.
      repeat split; lia.
    + intros (i & j & l & k & m & r & Hi & Hj & Hl & Hk & Hm & Hr & -> & -> & ->).
      exists (S i, S j, S l, (S k, S m, S r)). split; [|apply in_nest6; rewrite !in_seq; lia].
      unfold rgrid_topo_write3. rewrite node3_S. simpl (S _ - 1)%nat. rewrite !Nat.sub_0_r.
      replace (ey - 1 + 1)%nat with ey by lia. replace (ez - 1 + 1)%nat with ez by lia. f_equal; [f_equal|]; lia.
Qed.
Lemma rgridMT3_value (lX lY lZ : R) nx ny nz ex ey ez sx sy sz rest start :
  (1 <= nx)%nat -> (1 <= ny)%nat -> (1 <= nz)%nat -> (2 <= ex)%nat -> (2 <= ey)%nat -> (2 <= ez)%nat ->
  rgridMT [lX; lY; lZ] [nx; ny; nz] [ex; ey; ez] (sx :: sy :: sz :: rest) start =
  Ok (coords3 nx ny nz (ex - 1) (ey - 1) (ez - 1) (uniform sx lX nx (ex - 1)) (uniform sy lY ny (ey - 1)) (uniform sz lZ nz (ez - 1)),
      topo3 nx ny nz (ex - 1) (ey - 1) (ez - 1) start).
Proof.
  intros Hnx Hny Hnz Hex Hey Hez.
  destruct (rgrid3_filled lX lY lZ nx ny nz ex ey ez sx sy sz Hnx Hny Hnz Hex Hey Hez) as (cw & tw & E & Hc & Ht).
  unfold rgridMT. cbn [get nth_error bind]. rewrite E. cbn [bind kofZ NumR]. rewrite (Hc cw (Permutation_refl _)). cbn [bind].
  rewrite (Ht tw (Permutation_refl _)). cbn [bind]. unfold add_start1. rewrite (topo3_shift _ _ _ _ _ _ 1 _ start) by (intros; lia).
  reflexivity.
Qed.
