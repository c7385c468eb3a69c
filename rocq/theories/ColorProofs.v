(** * Proofs about [ColorModel.v] *)
From Coq Require Import Ascii Lia List Arith Bool.
From Verif Require Import BaseFacts ColorModel ColorSpec.
Import ListNotations.

Lemma digit_char d : d < 16 -> nth_error digits d = Some (hex_char d) /\ hex_value (hex_char d) = Ok d /\ hex_char d <> "#"%char.
Proof. intros H. do 16 (destruct d as [|d]; [split; [reflexivity|split; [reflexivity|discriminate]]|]). lia. Qed.

Lemma byte n : n < 256 -> format_02x n = [hex_char (n / 16); hex_char (n mod 16)].
Proof.
  intros H. assert (L : n / 16 < 16) by (apply Nat.div_lt_upper_bound; lia). unfold format_02x. cbn [hex_digits]. destruct (Nat.ltb_spec n 16) as [HS|HS].
  - rewrite (Nat.div_small n 16 HS), (Nat.mod_small n 16 HS). reflexivity.
  - destruct n as [|n]; [lia|]. cbn [hex_digits]. replace (Nat.ltb (S n / 16) 16) with true by (symmetry; now apply Nat.ltb_lt). reflexivity.
Qed.

Lemma int16_two d e : d < 16 -> e < 16 -> int16 [hex_char d; hex_char e] = Ok (16 * d + e).
Proof.
  intros Hd He. destruct (digit_char d Hd) as (_ & Ed & _). destruct (digit_char e He) as (_ & Ee & _). unfold int16. cbn [foldM]. rewrite Ed. cbn [bind]. rewrite Ee. reflexivity.
Qed.

Lemma six c0 c1 c2 c3 c4 c5 : Ascii.eqb c0 "#" = false ->
  hex_to_rgb [c0; c1; c2; c3; c4; c5] = mapM int16 [[c0; c1]; [c2; c3]; [c4; c5]] /\ hex_to_rgb ("#"%char :: [c0; c1; c2; c3; c4; c5]) = mapM int16 [[c0; c1]; [c2; c3]; [c4; c5]].
Proof. intros H. unfold hex_to_rgb. cbn [lstrip Ascii.eqb eqb]. rewrite H. cbn [length Nat.div Nat.divmod fst Nat.mul Nat.add range_step]. split; reflexivity. Qed.

Lemma split16 n : n < 256 -> n / 16 < 16 /\ n mod 16 < 16 /\ 16 * (n / 16) + n mod 16 = n.
Proof. intros H. split; [apply Nat.div_lt_upper_bound; lia|]. split; [apply Nat.mod_upper_bound; lia|]. symmetry. apply Nat.div_mod. lia. Qed.

Lemma color_round : forall r g b, r < 256 -> g < 256 -> b < 256 ->
  exists s, rgb_to_hex [r; g; b] = Ok s /\ length s = 6 /\ (forall c, In c s -> In c digits) /\ hex_to_rgb s = Ok [r; g; b] /\ hex_to_rgb ("#"%char :: s) = Ok [r; g; b].
Proof.
  intros r g b Hr Hg Hb. destruct (split16 r Hr) as (r1 & r2 & r3). destruct (split16 g Hg) as (g1 & g2 & g3). destruct (split16 b Hb) as (b1 & b2 & b3).
  exists [hex_char (r / 16); hex_char (r mod 16); hex_char (g / 16); hex_char (g mod 16); hex_char (b / 16); hex_char (b mod 16)].
  split; [unfold rgb_to_hex; now rewrite !byte by assumption|]. split; [reflexivity|]. split.
  - assert (Q : forall d, d < 16 -> In (hex_char d) digits) by (intros d Hd; destruct (digit_char d Hd) as (E & _); exact (nth_error_In _ _ E)).
    intros c [<-|[<-|[<-|[<-|[<-|[<-|[]]]]]]]; apply Q; assumption.
  - destruct (digit_char _ r1) as (_ & _ & NE). apply Ascii.eqb_neq in NE.
    destruct (six (hex_char (r / 16)) (hex_char (r mod 16)) (hex_char (g / 16)) (hex_char (g mod 16)) (hex_char (b / 16)) (hex_char (b mod 16)) NE) as [E1 E2]. rewrite E1, E2.
    cbn [mapM]. rewrite !int16_two by assumption. cbn [bind]. rewrite r3, g3, b3. split; reflexivity.
Qed.

Lemma color_injective : forall r g b r' g' b' s, r < 256 -> g < 256 -> b < 256 -> r' < 256 -> g' < 256 -> b' < 256 ->
  rgb_to_hex [r; g; b] = Ok s -> rgb_to_hex [r'; g'; b'] = Ok s -> r = r' /\ g = g' /\ b = b'.
Proof.
  intros r g b r' g' b' s Hr Hg Hb Hr' Hg' Hb' E E'. destruct (color_round r g b Hr Hg Hb) as (t & Et & _ & _ & D & _). destruct (color_round r' g' b' Hr' Hg' Hb') as (t' & Et' & _ & _ & D' & _).
  rewrite E in Et. injection Et as <-. rewrite E' in Et'. injection Et' as <-. rewrite D in D'. injection D' as -> -> ->. auto.
Qed.

Lemma char_digit c : In c digits -> exists d, d < 16 /\ c = hex_char d.
Proof. intros H. apply In_nth_error in H. destruct H as (d & H). assert (L : d < 16) by (apply nth_error_Some_lt in H; exact H). exists d. split; [exact L|]. destruct (digit_char d L) as (E & _). congruence. Qed.

Lemma color_back : forall s, length s = 6 -> (forall c, In c s -> In c digits) ->
  exists r g b, hex_to_rgb s = Ok [r; g; b] /\ r < 256 /\ g < 256 /\ b < 256 /\ rgb_to_hex [r; g; b] = Ok s.
Proof.
  intros s HL HD. destruct s as [|c0 [|c1 [|c2 [|c3 [|c4 [|c5 [|c6 s]]]]]]]; try discriminate. clear HL.
  destruct (char_digit c0) as (d0 & L0 & ->); [apply HD; cbn; auto|]. destruct (char_digit c1) as (d1 & L1 & ->); [apply HD; cbn; auto|]. destruct (char_digit c2) as (d2 & L2 & ->); [apply HD; cbn; auto|].
  destruct (char_digit c3) as (d3 & L3 & ->); [apply HD; cbn; auto|]. destruct (char_digit c4) as (d4 & L4 & ->); [apply HD; cbn; auto 7|]. destruct (char_digit c5) as (d5 & L5 & ->); [apply HD; cbn; auto 8|].
  exists (16 * d0 + d1), (16 * d2 + d3), (16 * d4 + d5). destruct (digit_char _ L0) as (_ & _ & NE). apply Ascii.eqb_neq in NE.
  destruct (six (hex_char d0) (hex_char d1) (hex_char d2) (hex_char d3) (hex_char d4) (hex_char d5) NE) as [E1 _]. split; [rewrite E1; cbn [mapM]; rewrite !int16_two by assumption; reflexivity|]. split; [lia|]. split; [lia|]. split; [lia|].
  assert (Q : forall d e, d < 16 -> e < 16 -> (16 * d + e) / 16 = d /\ (16 * d + e) mod 16 = e).
  { intros d e Hd He. split; [|symmetry; now apply (Nat.mod_unique _ 16 d)]. symmetry. now apply (Nat.div_unique _ 16 d e). }
  unfold rgb_to_hex. rewrite !byte by lia. destruct (Q d0 d1 L0 L1) as [-> ->]. destruct (Q d2 d3 L2 L3) as [-> ->]. destruct (Q d4 d5 L4 L5) as [-> ->]. reflexivity.
Qed.

(** numbers above 255 *)
Lemma mapM_length {A B} (f : A -> res B) : forall l r, mapM f l = Ok r -> length r = length l.
Proof. induction l as [|x l IH]; intros r H; cbn in H; [injection H as <-; reflexivity|]. destruct (f x); [|discriminate]. cbn in H. destruct (mapM f l); [|discriminate]. cbn in H. injection H as <-. cbn. f_equal. now apply IH. Qed.
Lemma color_above : forall r g b s rgb, 256 <= r < 4096 -> g < 256 -> b < 256 -> rgb_to_hex [r; g; b] = Ok s -> hex_to_rgb s = Ok rgb -> length rgb = 4.
Proof.
  intros r g b s rgb Hr Hg Hb E D. assert (L : r / 16 < 256) by (apply Nat.div_lt_upper_bound; lia). assert (G : 16 <= r / 16) by (apply Nat.div_le_lower_bound; lia). assert (L2 : r / 16 / 16 < 16) by (apply Nat.div_lt_upper_bound; lia).
  assert (F : format_02x r = [hex_char (r / 16 / 16); hex_char ((r / 16) mod 16); hex_char (r mod 16)]).
  { unfold format_02x. cbn [hex_digits]. destruct (Nat.ltb_spec r 16); [lia|]. destruct r as [|r]; [lia|]. cbn [hex_digits]. destruct (Nat.ltb_spec (S r / 16) 16); [lia|]. destruct r as [|r]; [lia|]. cbn [hex_digits]. replace (Nat.ltb (S (S r) / 16 / 16) 16) with true by (symmetry; now apply Nat.ltb_lt). reflexivity. }
  unfold rgb_to_hex in E. rewrite F, !byte in E by assumption. assert (Es : s = [hex_char (r / 16 / 16); hex_char ((r / 16) mod 16); hex_char (r mod 16); hex_char (g / 16); hex_char (g mod 16); hex_char (b / 16); hex_char (b mod 16)]) by (cbn [app] in E; congruence). rewrite Es in D. clear E Es F. unfold hex_to_rgb in D. cbn [lstrip] in D. destruct (digit_char _ L2) as (_ & _ & NE). apply Ascii.eqb_neq in NE. rewrite NE in D. cbn [length Nat.div Nat.divmod fst range_step] in D. change (range_step 7 2) with (Ok [0; 2; 4; 6]) in D. cbn [bind] in D.
  exact (mapM_length _ _ _ D).
Qed.

(** ** Strings of other lengths *)
Lemma digit_of_char d : d < 16 -> digit_of d = hex_char d.
Proof. intros H. unfold digit_of. destruct (digit_char d H) as (E & _). now apply nth_error_nth. Qed.
Lemma fold_digits ds : Forall (fun d => d < 16) ds -> forall v, foldM (fun v c => do d <- hex_value c; Ok (16 * v + d)) (map digit_of ds) v = Ok (v * 16 ^ length ds + denoted ds).
Proof.
  induction 1 as [|d ds Hd HF IH]; intros v.
  - cbn. f_equal. lia.
  - cbn [map foldM]. rewrite (digit_of_char d Hd). destruct (digit_char d Hd) as (_ & E & _). rewrite E. cbn [bind]. rewrite IH. f_equal. cbn [length denoted Nat.pow]. nia.
Qed.
Lemma int16_digits ds : Forall (fun d => d < 16) ds -> ds <> [] -> int16 (map digit_of ds) = Ok (denoted ds).
Proof. intros HF N. unfold int16. destruct ds as [|d ds]; [congruence|]. cbn [map]. change (digit_of d :: map digit_of ds) with (map digit_of (d :: ds)). rewrite fold_digits by assumption. f_equal. Qed.
Lemma no_multiple k n : forall a j, n + a <= k -> 0 < a -> filter (fun i => Nat.eqb (i mod k) 0) (seq (j * k + a) n) = [].
Proof.
  induction n as [|n IH]; intros a j H Ha; [reflexivity|]. cbn [seq filter].
  replace ((j * k + a) mod k) with a. 2:{ rewrite Nat.add_comm, Nat.mod_add by lia. symmetry. apply Nat.mod_small. lia. }
  replace (a =? 0) with false by (symmetry; apply Nat.eqb_neq; lia). rewrite <- (Nat.add_succ_r (j * k) a). apply IH; lia.
Qed.
Lemma one_multiple k j : 0 < k -> filter (fun i => Nat.eqb (i mod k) 0) (seq (j * k) k) = [j * k].
Proof.
  intros H. destruct k as [|k]; [lia|]. cbn [seq filter]. rewrite Nat.mod_mul by lia. cbn [Nat.eqb]. f_equal. rewrite <- (Nat.add_1_r (j * S k)). apply no_multiple; lia.
Qed.
Lemma thirds k : 0 < k -> range_step (k + (k + k)) k = Ok [0; k; k + k].
Proof.
  intros H. unfold range_step. replace (k =? 0) with false by (symmetry; apply Nat.eqb_neq; lia). rewrite !seq_app, !filter_app. f_equal.
  pose proof (one_multiple k 0 H) as E0. pose proof (one_multiple k 1 H) as E1. pose proof (one_multiple k 2 H) as E2.
  cbn [Nat.mul] in E0, E1, E2. rewrite !Nat.add_0_r in *. rewrite E0. cbn [Nat.add]. rewrite E1, E2. reflexivity.
Qed.
Lemma lstrip_digits ds : Forall (fun d => d < 16) ds -> lstrip (map digit_of ds) = map digit_of ds.
Proof. intros [|d r Hd HF]; [reflexivity|]. cbn [map lstrip]. rewrite (digit_of_char d Hd). destruct (digit_char d Hd) as (_ & _ & N). apply Ascii.eqb_neq in N. now rewrite N. Qed.
Lemma lstrip_hashes n s : lstrip (repeat "#"%char n ++ s) = lstrip s.
Proof. induction n as [|n IH]; [reflexivity|]. exact IH. Qed.

Lemma color_thirds : forall n k A B C, length A = k -> length B = k -> length C = k -> 0 < k -> Forall (fun d => d < 16) (A ++ B ++ C) ->
  hex_to_rgb (repeat "#"%char n ++ map digit_of (A ++ B ++ C)) = Ok [denoted A; denoted B; denoted C].
Proof.
  intros n k A B C HA HB HC Hk HF. unfold hex_to_rgb. rewrite lstrip_hashes, lstrip_digits by assumption. rewrite map_length, !app_length, HA, HB, HC.
  replace ((k + (k + k)) / 3) with k. 2:{ replace (k + (k + k)) with (k * 3) by lia. now rewrite Nat.div_mul. }
  rewrite thirds by assumption. cbn [bind mapM]. rewrite !map_app. apply Forall_app in HF. destruct HF as (FA & HF). apply Forall_app in HF. destruct HF as (FB & FC).
  assert (LA : length (map digit_of A) = k) by now rewrite map_length. assert (LB : length (map digit_of B) = k) by now rewrite map_length. assert (LC : length (map digit_of C) = k) by now rewrite map_length.
  assert (E0 : firstn k (skipn 0 (map digit_of A ++ map digit_of B ++ map digit_of C)) = map digit_of A). { cbn [skipn]. rewrite <- LA. rewrite firstn_app, firstn_all, Nat.sub_diag. cbn. apply app_nil_r. }
  assert (E1 : firstn k (skipn k (map digit_of A ++ map digit_of B ++ map digit_of C)) = map digit_of B).
  { rewrite skipn_app, LA, Nat.sub_diag. rewrite <- LA at 2. rewrite skipn_all. cbn [skipn app]. rewrite <- LB. rewrite firstn_app, firstn_all, Nat.sub_diag. cbn. apply app_nil_r. }
  assert (E2 : firstn k (skipn (k + k) (map digit_of A ++ map digit_of B ++ map digit_of C)) = map digit_of C).
  { rewrite app_assoc, skipn_app, app_length, LA, LB, Nat.sub_diag. rewrite skipn_all2 by (rewrite app_length; lia). cbn [skipn app]. rewrite <- LC. apply firstn_all. }
  rewrite E0, E1, E2. rewrite !int16_digits; try assumption; [reflexivity|intros ->; cbn in *; lia..].
Qed.
Lemma color_short : forall n s, length s < 3 -> hd_error s <> Some "#"%char -> hex_to_rgb (repeat "#"%char n ++ s) = Err ValueError.
Proof.
  intros n s H Hh. unfold hex_to_rgb. rewrite lstrip_hashes. assert (E : lstrip s = s). { destruct s as [|c s]; [reflexivity|]. cbn [lstrip hd_error] in *. destruct (Ascii.eqb_spec c "#"); [congruence|reflexivity]. }
  rewrite E. rewrite Nat.div_small by assumption. reflexivity.
Qed.
Lemma color_count : forall rgb, length rgb <> 3 -> rgb_to_hex rgb = Err TypeError.
Proof. intros [|r [|g [|b [|x l]]]] H; try reflexivity. now cbn in H. Qed.

(** ** Big letters *)
Lemma stands_value c d : stands_for c d -> hex_value c = Ok d /\ hex_value (digit_of d) = Ok d /\ c <> "#"%char /\ digit_of d <> "#"%char /\ d < 16.
Proof.
  intros [H|H]; do 16 (destruct d as [|d]; [cbn in H; injection H as <-; repeat split; try reflexivity; try discriminate; lia|]); destruct d; discriminate H.
Qed.
Lemma stands_int16 s ds : Forall2 stands_for s ds -> int16 s = int16 (map digit_of ds).
Proof.
  assert (G : forall s ds, Forall2 stands_for s ds -> forall v, foldM (fun v c => do d <- hex_value c; Ok (16 * v + d)) s v = foldM (fun v c => do d <- hex_value c; Ok (16 * v + d)) (map digit_of ds) v).
  { clear. induction 1 as [|c d s ds H0 H IH]; intros v; [reflexivity|]. cbn [map foldM]. destruct (stands_value _ _ H0) as (-> & -> & _). cbn [bind]. apply IH. }
  intros H. pose proof (G _ _ H 0) as E. unfold int16. destruct H as [|c d s ds H0 H]; [reflexivity|]. exact E.
Qed.
Lemma stands_skip s ds n : Forall2 stands_for s ds -> Forall2 stands_for (skipn n s) (skipn n ds).
Proof. intros H. revert n. induction H; intros [|n]; cbn [skipn]; try constructor; auto. Qed.
Lemma stands_first s ds n : Forall2 stands_for s ds -> Forall2 stands_for (firstn n s) (firstn n ds).
Proof. intros H. revert n. induction H; intros [|n]; cbn [firstn]; constructor; auto. Qed.
Lemma stands_strip s ds : Forall2 stands_for s ds -> lstrip s = s /\ lstrip (map digit_of ds) = map digit_of ds.
Proof.
  intros [|c d s' ds' H0 H]; [split; reflexivity|]. destruct (stands_value _ _ H0) as (_ & _ & N & N' & _). cbn [map lstrip]. apply Ascii.eqb_neq in N. apply Ascii.eqb_neq in N'. now rewrite N, N'.
Qed.
Lemma color_any_case : forall n k A B C s, length A = k -> length B = k -> length C = k -> 0 < k -> Forall2 stands_for s (A ++ B ++ C) ->
  hex_to_rgb (repeat "#"%char n ++ s) = Ok [denoted A; denoted B; denoted C].
Proof.
  intros n k A B C s HA HB HC Hk H. assert (HF : Forall (fun d => d < 16) (A ++ B ++ C)).
  { clear -H. induction H as [|c d s ds H0 H IH]; constructor; [|exact IH]. now destruct (stands_value _ _ H0) as (_ & _ & _ & _ & ?). }
  rewrite <- (color_thirds n k A B C HA HB HC Hk HF). unfold hex_to_rgb. rewrite !lstrip_hashes. destruct (stands_strip _ _ H) as [-> ->].
  assert (L : length s = length (map digit_of (A ++ B ++ C))) by (rewrite map_length; clear -H; induction H; cbn; congruence). rewrite <- L.
  destruct (range_step (length s) (length s / 3)) as [starts|]; [|reflexivity]. cbn [bind]. apply BaseFacts.mapM_ext. intros i _. rewrite skipn_map, firstn_map. apply stands_int16. apply stands_first, stands_skip, H.
Qed.
