(** * Proofs about [GridModel.v], part 3: grids from bins and the sequential version *)
From Coq Require Import Reals Lra.
From Verif Require Export GridProofs2.
Local Open Scope R_scope.

(** ** Bins *)
Lemma get_nth (l : list R) i : (i < length l)%nat -> get l i = Ok (nth i l 0).
Proof. intros H. unfold get. rewrite (nth_error_nth' l 0 H). reflexivity. Qed.

Lemma bins2_filled (xb yb : list R) ex ey sx sy :
  (2 <= length xb)%nat -> (2 <= length yb)%nat -> (2 <= ex)%nat -> (2 <= ey)%nat ->
  let nx := (length xb - 1)%nat in let ny := (length yb - 1)%nat in
  exists cw tw,
    bins_writes2 xb yb ex ey sx sy =
      Ok (((nx * (ex - 1) + 1) * (ny * (ey - 1) + 1), cw), (nx * ny, ex * ey, tw))%nat /\
    (forall cw', Permutation cw cw' -> run_writes2 cw' (zeros2 0 ((nx * (ex - 1) + 1) * (ny * (ey - 1) + 1)) 2) =
       Ok (coords2 nx ny (ex - 1) (ey - 1) (binned sx xb (ex - 1)) (binned sy yb (ey - 1)))) /\
    (forall tw', Permutation tw tw' -> run_writes2 tw' (zeros2 0%nat (nx * ny) (ex * ey)) =
       Ok (topo2 nx ny (ex - 1) (ey - 1) 0)).
Proof.
  intros Hx Hy Hex Hey nx ny. unfold bins_writes2.
  destruct (Nat.eqb_spec (length xb) 0); [lia|]. destruct (Nat.eqb_spec (length yb) 0); [lia|]. cbn [orb negb guard bind].
  fold nx ny.
  set (g := fun it : nat * nat * nat * nat => let '(i, j, p, q) := it in
      [(pos2 ny (ex - 1) (ey - 1) i j p q, 0%nat, binned sx xb (ex - 1) i p);
       (pos2 ny (ex - 1) (ey - 1) i j p q, 1%nat, binned sy yb (ey - 1) j q)]).
  assert (En : forall wx wy i j k m, bins_node2 wx wy (ny * wy + 1) i j k m = pos2 ny wx wy i j k m).
  { intros. unfold bins_node2, pos2. replace (wx * i + k)%nat with (i * wx + k)%nat by lia. lia. }
  rewrite (mapM_map _ g).
  2:{ intros [[[i j] p] q] Hit. apply in_nest4 in Hit. rewrite !in_seq in Hit. unfold bins_coord_writes2.
      rewrite !get_nth by lia. cbn [bind]. rewrite !divn_ok by lia. cbn [bind]. rewrite !kn_INR, En. reflexivity. }
  cbn [bind]. do 2 eexists. split; [reflexivity|]. split.
  - apply fill_coords2; try lia; [apply binned_joined; lia..|].
    intros nn d v. rewrite <- flat_map_concat_map, in_flat_map. split.
    + intros [[[[i j] k] m] [Hit Hin]]. apply in_nest4 in Hit. rewrite !in_seq in Hit.
      exists i, j, k, m. do 4 (split; [lia|]). unfold g in Hin.
      destruct Hin as [E|[E|[]]]; injection E as <- <- <-; (split; [reflexivity|]); [left|right]; split; reflexivity.
    + intros (i & j & k & m & Hi & Hj & Hk & Hm & -> & H).
      exists (i, j, k, m). split; [apply in_nest4; rewrite !in_seq; lia|]. unfold g.
      destruct H as [[-> ->]|[-> ->]]; [left|right; left]; reflexivity.
  - replace (ex * ey)%nat with ((ex - 1 + 1) * (ey - 1 + 1))%nat by (f_equal; lia).
    apply fill_topo2; try lia.
    intros c e v. rewrite in_map_iff. split.
    + intros [[[[i j] k] m] [E Hit]]. apply in_nest4 in Hit. rewrite !in_seq in Hit.
      exists i, j, k, m. do 4 (split; [lia|]).
      unfold bins_topo_write2 in E. rewrite En in E. injection E as <- <- <-. replace (ey - 1 + 1)%nat with ey by lia.
      repeat split; lia.
    + intros (i & j & k & m & Hi & Hj & Hk & Hm & -> & -> & ->).
      exists (i, j, k, m). split; [|apply in_nest4; rewrite !in_seq; lia].
      unfold bins_topo_write2. rewrite En. replace (ey - 1 + 1)%nat with ey by lia. f_equal; lia.
Qed.
Lemma grid_2d_bins_value (xb yb : list R) ex ey sx sy rest start :
  (2 <= length xb)%nat -> (2 <= length yb)%nat -> (2 <= ex)%nat -> (2 <= ey)%nat ->
  let nx := (length xb - 1)%nat in let ny := (length yb - 1)%nat in
  grid_2d_bins xb yb [ex; ey] (sx :: sy :: rest) start =
  Ok (coords2 nx ny (ex - 1) (ey - 1) (binned sx xb (ex - 1)) (binned sy yb (ey - 1)), topo2 nx ny (ex - 1) (ey - 1) start).
Proof.
  intros Hx Hy Hex Hey nx ny. destruct (bins2_filled xb yb ex ey sx sy Hx Hy Hex Hey) as (cw & tw & E & Hc & Ht).
  unfold grid_2d_bins. cbn [get nth_error bind]. rewrite E. cbn [bind kofZ NumR]. rewrite (Hc cw (Permutation_refl _)). cbn [bind].
  rewrite (Ht tw (Permutation_refl _)). cbn [bind]. rewrite (topo2_shift _ _ _ _ 0 _ start) by (intros; lia).
  reflexivity.
Qed.

Lemma bins3_filled (cast : R -> R) (xb yb zb : list R) ex ey ez sx sy sz :
  (2 <= length xb)%nat -> (2 <= length yb)%nat -> (2 <= length zb)%nat -> (2 <= ex)%nat -> (2 <= ey)%nat -> (2 <= ez)%nat ->
  let nx := (length xb - 1)%nat in let ny := (length yb - 1)%nat in let nz := (length zb - 1)%nat in
  exists cw tw,
    bins_writes3 cast xb yb zb ex ey ez sx sy sz =
      Ok (((nx * (ex - 1) + 1) * (ny * (ey - 1) + 1) * (nz * (ez - 1) + 1), cw), (nx * ny * nz, ex * ey * ez, tw))%nat /\
    (forall cw', Permutation cw cw' ->
       run_writes2 cw' (zeros2 0 ((nx * (ex - 1) + 1) * (ny * (ey - 1) + 1) * (nz * (ez - 1) + 1)) 3) =
       Ok (coords3 nx ny nz (ex - 1) (ey - 1) (ez - 1) (fun i k => cast (binned sx xb (ex - 1) i k))
             (fun i k => cast (binned sy yb (ey - 1) i k)) (fun i k => cast (binned sz zb (ez - 1) i k)))) /\
    (forall tw', Permutation tw tw' -> run_writes2 tw' (zeros2 0%nat (nx * ny * nz) (ex * ey * ez)) =
       Ok (topo3 nx ny nz (ex - 1) (ey - 1) (ez - 1) 0)).
Proof.
  intros Hx Hy Hz Hex Hey Hez nx ny nz. unfold bins_writes3.
  destruct (Nat.eqb_spec (length xb) 0); [lia|]. destruct (Nat.eqb_spec (length yb) 0); [lia|].
  destruct (Nat.eqb_spec (length zb) 0); [lia|]. cbn [orb negb guard bind].
  fold nx ny nz.
  set (g := fun it : nat * nat * nat * (nat * nat * nat) => let '(i, j, l, (k, m, r)) := it in
      [(pos3 ny nz (ex - 1) (ey - 1) (ez - 1) i j l k m r, 0%nat, cast (binned sx xb (ex - 1) i k));
       (pos3 ny nz (ex - 1) (ey - 1) (ez - 1) i j l k m r, 1%nat, cast (binned sy yb (ey - 1) j m));
       (pos3 ny nz (ex - 1) (ey - 1) (ez - 1) i j l k m r, 2%nat, cast (binned sz zb (ez - 1) l r))]).
  assert (En : forall wx wy wz i j l k m r, bins_node3 wx wy wz (ny * wy + 1) (nz * wz + 1) i j l k m r = pos3 ny nz wx wy wz i j l k m r).
  { intros. unfold bins_node3, pos3. replace (wx * i + k)%nat with (i * wx + k)%nat by lia.
    replace ((i * wx + k) * (ny * wy + 1) + wy * j + m)%nat with ((i * wx + k) * (ny * wy + 1) + (j * wy + m))%nat by lia. lia. }
  rewrite (mapM_map _ g).
  2:{ intros [[[i j] l] [[k m] r]] Hit. apply in_nest6 in Hit. rewrite !in_seq in Hit. unfold bins_coord_writes3.
      rewrite !get_nth by lia. cbn [bind]. rewrite !divn_ok by lia. cbn [bind]. rewrite !kn_INR, En. reflexivity. }
  cbn [bind]. do 2 eexists. split; [reflexivity|]. split.
  - apply fill_coords3; try lia; [intros i Hi; f_equal; apply (binned_joined _ _ _ (S (S i))); lia..|].
    intros nn d v. rewrite <- flat_map_concat_map, in_flat_map. split.
    + intros [[[[i j] l] [[k m] r]] [Hit Hin]]. apply in_nest6 in Hit. rewrite !in_seq in Hit.
      exists i, j, l, k, m, r. do 6 (split; [lia|]). unfold g in Hin.
      destruct Hin as [E|[E|[E|[]]]]; injection E as <- <- <-; (split; [reflexivity|]); auto.
    + intros (i & j & l & k & m & r & Hi & Hj & Hl & Hk & Hm & Hr & -> & H).
      exists (i, j, l, (k, m, r)). split; [apply in_nest6; rewrite !in_seq; lia|]. unfold g.
      destruct H as [[-> ->]|[[-> ->]|[-> ->]]]; [left|right; left|right; right; left]; reflexivity.
  - replace (ex * ey * ez)%nat with ((ex - 1 + 1) * (ey - 1 + 1) * (ez - 1 + 1))%nat by (f_equal; [f_equal|]; lia).
    apply fill_topo3; try lia.
    intros c e v. rewrite in_map_iff. split.
    + intros [[[[i j] l] [[k m] r]] [E Hit]]. apply in_nest6 in Hit. rewrite !in_seq in Hit.
      exists i, j, l, k, m, r. do 6 (split; [lia|]).
      unfold bins_topo_write3 in E. rewrite En in E. injection E as <- <- <-.
      replace (ey - 1 + 1)%nat with ey by lia. replace (ez - 1 + 1)%nat with ez by lia. repeat split; lia.
    + intros (i & j & l & k & m & r & Hi & Hj & Hl & Hk & Hm & Hr & -> & -> & ->).
      exists (i, j, l, (k, m, r)). split; [|apply in_nest6; rewrite !in_seq; lia].
      unfold bins_topo_write3. rewrite En.
      replace (ey - 1 + 1)%nat with ey by lia. replace (ez - 1 + 1)%nat with ez by lia. f_equal; [f_equal|]; lia.
Qed.
Lemma grid_3d_bins_value (cast : R -> R) (xb yb zb : list R) ex ey ez sx sy sz rest start :
  (2 <= length xb)%nat -> (2 <= length yb)%nat -> (2 <= length zb)%nat -> (2 <= ex)%nat -> (2 <= ey)%nat -> (2 <= ez)%nat ->
  let nx := (length xb - 1)%nat in let ny := (length yb - 1)%nat in let nz := (length zb - 1)%nat in
  grid_3d_bins cast xb yb zb [ex; ey; ez] (sx :: sy :: sz :: rest) start =
  Ok (coords3 nx ny nz (ex - 1) (ey - 1) (ez - 1) (fun i k => cast (binned sx xb (ex - 1) i k))
        (fun i k => cast (binned sy yb (ey - 1) i k)) (fun i k => cast (binned sz zb (ez - 1) i k)),
      topo3 nx ny nz (ex - 1) (ey - 1) (ez - 1) start).
Proof.
  intros Hx Hy Hz Hex Hey Hez nx ny nz.
  destruct (bins3_filled cast xb yb zb ex ey ez sx sy sz Hx Hy Hz Hex Hey Hez) as (cw & tw & E & Hc & Ht).
  unfold grid_3d_bins. cbn [get nth_error bind]. rewrite E. cbn [bind kofZ NumR]. rewrite (Hc cw (Permutation_refl _)). cbn [bind].
  rewrite (Ht tw (Permutation_refl _)). cbn [bind]. rewrite (topo3_shift _ _ _ _ _ _ 0 _ start) by (intros; lia).
  reflexivity.
Qed.

(** ** The sequential version with counters *)
Lemma run_writes2_app {A} (a b : list (nat * nat * A)) z : run_writes2 (a ++ b) z = (do z' <- run_writes2 a z; run_writes2 b z').
Proof. unfold run_writes2. apply foldM_app. Qed.
Lemma flat_map_flat_map {A B C} (f : B -> list C) (g : A -> list B) l :
  flat_map f (flat_map g l) = flat_map (fun x => flat_map f (g x)) l.
Proof. induction l as [|x l IH]; simpl; auto. rewrite flat_map_app, IH. reflexivity. Qed.
Lemma flat_map_map {A B C} (f : B -> list C) (g : A -> B) l : flat_map f (map g l) = flat_map (fun x => f (g x)) l.
Proof. induction l as [|x l IH]; simpl; auto. rewrite IH. reflexivity. Qed.
Lemma map_flat_map1 {A B} (f : A -> B) l : map f l = flat_map (fun x => [f x]) l.
Proof. induction l as [|x l IH]; simpl; [reflexivity|]. f_equal. Qed.
Lemma flat_map_nest4 {B} (f : _ -> list B) a b c d : flat_map f (nest4 a b c d) =
  flat_map (fun i => flat_map (fun j => flat_map (fun k => flat_map (fun m => f (i, j, k, m)) d) c) b) a.
Proof.
  unfold nest4. rewrite flat_map_flat_map. apply flat_map_ext. intros i.
  rewrite flat_map_flat_map. apply flat_map_ext. intros j.
  rewrite flat_map_flat_map. apply flat_map_ext. intros k. apply flat_map_map.
Qed.
Lemma flat_map_nest6 {B} (f : _ -> list B) a b c d e g : flat_map f (nest6 a b c d e g) =
  flat_map (fun i => flat_map (fun j => flat_map (fun k => flat_map (fun m => flat_map (fun q => flat_map (fun p => f (i, j, k, (m, q, p)))
    g) e) d) c) b) a.
Proof.
  unfold nest6. rewrite flat_map_flat_map. apply flat_map_ext. intros i.
  rewrite flat_map_flat_map. apply flat_map_ext. intros j.
  rewrite flat_map_flat_map. apply flat_map_ext. intros k.
  rewrite flat_map_flat_map. apply flat_map_ext. intros m.
  rewrite flat_map_flat_map. apply flat_map_ext. intros q. apply flat_map_map.
Qed.

(** a loop over 1, ..., n which performs the writes [cw i], [tw i] in step [i] and keeps the counters as
    described by [P] *)
Lemma loop_sim (step : st_state (K := R) -> nat -> res (st_state (K := R)))
    (cw : nat -> list (nat * nat * R)) (tw : nat -> list (nat * nat * nat)) (P : nat -> nat -> nat -> Prop) n :
  (forall p e ne c t c' t', (p < n)%nat -> P p e ne -> run_writes2 (cw (S p)) c = Ok c' -> run_writes2 (tw (S p)) t = Ok t' ->
     exists e' ne', step (e, ne, c, t) (S p) = Ok (e', ne', c', t') /\ P (S p) e' ne') ->
  forall e ne c t c' t', P 0%nat e ne -> run_writes2 (flat_map cw (seq 1 n)) c = Ok c' ->
    run_writes2 (flat_map tw (seq 1 n)) t = Ok t' ->
    exists e' ne', foldM step (seq 1 n) (e, ne, c, t) = Ok (e', ne', c', t') /\ P n e' ne'.
Proof.
  intros Hstep.
  assert (G : forall q p e ne c t c' t', (p + q = n)%nat -> P p e ne ->
     run_writes2 (flat_map cw (seq (S p) q)) c = Ok c' -> run_writes2 (flat_map tw (seq (S p) q)) t = Ok t' ->
     exists e' ne', foldM step (seq (S p) q) (e, ne, c, t) = Ok (e', ne', c', t') /\ P n e' ne').
  { induction q as [|q IH]; intros p e ne c t c' t' Hpq HP Hc Ht.
    - cbn in Hc, Ht. injection Hc as <-. injection Ht as <-. exists e, ne. split; [reflexivity|].
      replace n with p by lia. auto.
    - cbn [seq flat_map] in Hc, Ht. rewrite run_writes2_app in Hc. rewrite run_writes2_app in Ht.
      apply bind_Ok in Hc. destruct Hc as [c1 [Hc1 Hc2]]. apply bind_Ok in Ht. destruct Ht as [t1 [Ht1 Ht2]].
      destruct (Hstep p e ne c t c1 t1) as (e1 & ne1 & E & HP1); auto; [lia|].
      destruct (IH (S p) e1 ne1 c1 t1 c' t') as (e2 & ne2 & E2 & HP2); auto; [lia|].
      exists e2, ne2. split; auto. cbn [seq foldM]. rewrite E. cbn [bind]. exact E2. }
  intros. apply (G n 0%nat); auto.
Qed.

Lemma run2_two {A} (w1 w2 : nat * nat * A) c c' : run_writes2 [w1; w2] c = Ok c' ->
  exists c1, set2 c (fst (fst w1)) (snd (fst w1)) (snd w1) = Ok c1 /\ set2 c1 (fst (fst w2)) (snd (fst w2)) (snd w2) = Ok c'.
Proof.
  destruct w1 as [[i j] v], w2 as [[i2 j2] v2]. unfold run_writes2. cbn. intros H. apply bind_Ok in H.
  destruct H as [c1 [H1 H2]]. exists c1. split; auto. destruct (set2 c1 i2 j2 v2); cbn in *; auto.
Qed.
Lemma run2_one {A} (w1 : nat * nat * A) c c' : run_writes2 [w1] c = Ok c' ->
  set2 c (fst (fst w1)) (snd (fst w1)) (snd w1) = Ok c'.
Proof.
  destruct w1 as [[i j] v]. unfold run_writes2. cbn. intros H. destruct (set2 c i j v); cbn in *; auto.
Qed.
Lemma run2_three {A} (w1 w2 w3 : nat * nat * A) c c' : run_writes2 [w1; w2; w3] c = Ok c' ->
  exists c1 c2, set2 c (fst (fst w1)) (snd (fst w1)) (snd w1) = Ok c1 /\ set2 c1 (fst (fst w2)) (snd (fst w2)) (snd w2) = Ok c2 /\
     set2 c2 (fst (fst w3)) (snd (fst w3)) (snd w3) = Ok c'.
Proof.
  intros H. change [w1; w2; w3] with ([w1] ++ [w2; w3]) in H. rewrite run_writes2_app in H. apply bind_Ok in H.
  destruct H as [c1 [H1 H2]]. apply run2_one in H1. apply run2_two in H2. destruct H2 as [c2 H2]. exists c1, c2. auto.
Qed.

Lemma rgridST2_writes (lX lY : R) nx ny ex ey sx sy start rest :
  (1 <= nx)%nat -> (1 <= ny)%nat -> (2 <= ex)%nat -> (2 <= ey)%nat ->
  rgridST2 lX lY nx ny ex ey sx sy start = rgridMT [lX; lY] [nx; ny] [ex; ey] (sx :: sy :: rest) start.
Proof.
  intros Hnx Hny Hex Hey. rewrite rgridMT2_value by auto.
  destruct (rgrid2_filled lX lY nx ny ex ey sx sy Hnx Hny Hex Hey) as (cw & tw & E & Hc & Ht).
  specialize (Hc cw (Permutation_refl _)). specialize (Ht tw (Permutation_refl _)).
  unfold rgrid_writes2 in E. unfold rgridST2. rewrite !divn_ok in * by lia. cbn [bind] in *. rewrite !divn_ok in * by lia. cbn [bind kofZ NumR] in *.
  injection E as Ecw Etw. rewrite <- Ecw, flat_map_nest4 in Hc. rewrite <- Etw, map_flat_map1, flat_map_nest4 in Ht.
  match goal with |- (do _ <- ?f; _) = _ => assert (G : exists e ne, f =
     Ok (e, ne, coords2 nx ny (ex - 1) (ey - 1) (uniform sx lX nx (ex - 1)) (uniform sy lY ny (ey - 1)), topo2 nx ny (ex - 1) (ey - 1) 1)) end.
  { edestruct (loop_sim) with (P := fun p e ne : nat => e = (p * ny)%nat) as (e' & ne' & E & _);
      [| |exact Hc|exact Ht|]; [|reflexivity|exists e', ne'; exact E].
    intros p e ne c t c' t' Hp -> Hc1 Ht1.
    edestruct (loop_sim) with (P := fun q e ne : nat => e = (p * ny + q)%nat) as (e2 & ne2 & E2 & HP2);
      [| |exact Hc1|exact Ht1|exists e2, ne2; split; [exact E2|lia]]; [|lia].
    clear Hc1 Ht1 c t c' t'; try clear ne. intros q e ne c t c' t' Hq -> Hc1 Ht1.
    edestruct (loop_sim) with (P := fun k e ne : nat => e = (p * ny + q + 1)%nat /\ ne = (k * ey)%nat) as (e2 & ne2 & E2 & HP2);
      [| |exact Hc1|exact Ht1|exists e2, ne2; split; [exact E2|lia]]; [|lia].
    clear Hc1 Ht1 c t c' t'; try clear ne. intros k e ne c t c' t' Hk [-> ->] Hc1 Ht1.
    edestruct (loop_sim) with (P := fun m e ne : nat => e = (p * ny + q + 1)%nat /\ ne = (k * ey + m)%nat) as (e2 & ne2 & E2 & HP2);
      [| |exact Hc1|exact Ht1|exists e2, ne2; split; [exact E2|lia]]; [|lia].
    clear Hc1 Ht1 c t c' t'; try clear ne. intros m e ne c t c' t' Hm [-> ->] Hc1 Ht1.
    unfold rgrid_coord_writes2 in Hc1. apply run2_two in Hc1. destruct Hc1 as [c1 [Hc1 Hc2]]. cbn [fst snd] in Hc1, Hc2.
    apply run2_one in Ht1. unfold rgrid_topo_write2 in Ht1. cbn [fst snd] in Ht1.
    unfold rgridST_body2. cbn [kadd kmul NumR] in *. rewrite Hc1. cbn [bind]. rewrite Hc2. cbn [bind].
    replace ((S p - 1) * ny + S q - 1)%nat with (p * ny + q + 1 - 1)%nat in Ht1 by (replace (S p - 1)%nat with p by lia; lia).
    replace ((S k - 1) * ey + S m - 1)%nat with (k * ey + m)%nat in Ht1 by (replace (S k - 1)%nat with k by lia; lia).
    rewrite Ht1. cbn [bind]. do 2 eexists. split; [reflexivity|]. lia. }
  destruct G as (e & ne & ->). cbn [bind]. unfold add_start1. rewrite (topo2_shift _ _ _ _ 1 _ start) by (intros; lia). reflexivity.
Qed.
Lemma rgridST3_writes (lX lY lZ : R) nx ny nz ex ey ez sx sy sz start rest :
  (1 <= nx)%nat -> (1 <= ny)%nat -> (1 <= nz)%nat -> (2 <= ex)%nat -> (2 <= ey)%nat -> (2 <= ez)%nat ->
  rgridST3 lX lY lZ nx ny nz ex ey ez sx sy sz start = rgridMT [lX; lY; lZ] [nx; ny; nz] [ex; ey; ez] (sx :: sy :: sz :: rest) start.
Proof.
  intros Hnx Hny Hnz Hex Hey Hez. rewrite rgridMT3_value by auto.
  destruct (rgrid3_filled lX lY lZ nx ny nz ex ey ez sx sy sz Hnx Hny Hnz Hex Hey Hez) as (cw & tw & E & Hc & Ht).
  specialize (Hc cw (Permutation_refl _)). specialize (Ht tw (Permutation_refl _)).
  unfold rgrid_writes3 in E. unfold rgridST3. rewrite !divn_ok in * by lia. cbn [bind] in *. rewrite !divn_ok in * by lia. cbn [bind kofZ NumR] in *.
  injection E as Ecw Etw. rewrite <- Ecw, flat_map_nest6 in Hc. rewrite <- Etw, map_flat_map1, flat_map_nest6 in Ht.
  match goal with |- (do _ <- ?f; _) = _ => assert (G : exists e ne, f =
     Ok (e, ne, coords3 nx ny nz (ex - 1) (ey - 1) (ez - 1) (uniform sx lX nx (ex - 1)) (uniform sy lY ny (ey - 1)) (uniform sz lZ nz (ez - 1)),
         topo3 nx ny nz (ex - 1) (ey - 1) (ez - 1) 1)) end.
  { edestruct (loop_sim) with (P := fun p e ne : nat => e = (p * (ny * nz))%nat) as (e' & ne' & E & _);
      [| |exact Hc|exact Ht|]; [|reflexivity|exists e', ne'; exact E].
    intros p e ne c t c' t' Hp -> Hc1 Ht1.
    edestruct (loop_sim) with (P := fun q e ne : nat => e = (p * (ny * nz) + q * nz)%nat) as (e2 & ne2 & E2 & HP2);
      [| |exact Hc1|exact Ht1|exists e2, ne2; split; [exact E2|lia]]; [|lia].
    clear Hc1 Ht1 c t c' t'; try clear ne. intros q e ne c t c' t' Hq -> Hc1 Ht1.
    edestruct (loop_sim) with (P := fun l e ne : nat => e = (p * (ny * nz) + q * nz + l)%nat) as (e2 & ne2 & E2 & HP2);
      [| |exact Hc1|exact Ht1|exists e2, ne2; split; [exact E2|lia]]; [|lia].
    clear Hc1 Ht1 c t c' t'; try clear ne. intros l e ne c t c' t' Hl -> Hc1 Ht1.
    set (cell := (p * (ny * nz) + q * nz + l)%nat) in *.
    edestruct (loop_sim) with (P := fun k e ne : nat => e = (cell + 1)%nat /\ ne = (k * (ey * ez))%nat) as (e2 & ne2 & E2 & HP2);
      [| |exact Hc1|exact Ht1|exists e2, ne2; split; [exact E2|lia]]; [|lia].
    clear Hc1 Ht1 c t c' t'; try clear ne. intros k e ne c t c' t' Hk [-> ->] Hc1 Ht1.
    edestruct (loop_sim) with (P := fun m e ne : nat => e = (cell + 1)%nat /\ ne = (k * (ey * ez) + m * ez)%nat) as (e2 & ne2 & E2 & HP2);
      [| |exact Hc1|exact Ht1|exists e2, ne2; split; [exact E2|lia]]; [|lia].
    clear Hc1 Ht1 c t c' t'; try clear ne. intros m e ne c t c' t' Hm [-> ->] Hc1 Ht1.
    edestruct (loop_sim) with (P := fun r e ne : nat => e = (cell + 1)%nat /\ ne = (k * (ey * ez) + m * ez + r)%nat) as (e2 & ne2 & E2 & HP2);
      [| |exact Hc1|exact Ht1|exists e2, ne2; split; [exact E2|lia]]; [|lia].
    clear Hc1 Ht1 c t c' t'; try clear ne. intros r e ne c t c' t' Hr [-> ->] Hc1 Ht1.
    unfold rgrid_coord_writes3 in Hc1. apply run2_three in Hc1. destruct Hc1 as [c1 [c2 [Hc1 [Hc2 Hc3]]]]. cbn [fst snd] in Hc1, Hc2, Hc3.
    apply run2_one in Ht1. unfold rgrid_topo_write3 in Ht1. cbn [fst snd] in Ht1.
    unfold rgridST_body3. cbn [kadd kmul NumR] in *. rewrite Hc1. cbn [bind]. rewrite Hc2. cbn [bind]. rewrite Hc3. cbn [bind].
    replace ((S p - 1) * ny * nz + (S q - 1) * nz + S l - 1)%nat with (cell + 1 - 1)%nat in Ht1
      by (replace (S p - 1)%nat with p by lia; replace (S q - 1)%nat with q by lia; unfold cell; lia).
    replace ((S k - 1) * ey * ez + (S m - 1) * ez + S r - 1)%nat with (k * (ey * ez) + m * ez + r)%nat in Ht1
      by (replace (S k - 1)%nat with k by lia; replace (S m - 1)%nat with m by lia; lia).
    rewrite Ht1. cbn [bind]. do 2 eexists. split; [reflexivity|].
    lia. }
  destruct G as (e & ne & ->). cbn [bind]. unfold add_start1. rewrite (topo3_shift _ _ _ _ _ _ 1 _ start) by (intros; lia). reflexivity.
Qed.
