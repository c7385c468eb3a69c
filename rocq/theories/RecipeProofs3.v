(** * Proofs about [RecipeModel.v], part 3: bins *)
From Coq Require Import Reals Lra Lia Sorted R_Ifp.
From Verif Require Export RecipeProofs2.
From Verif Require Import BaseFacts ShapeProofs2 GridProofs2.
Import ListNotations.
Local Open Scope R_scope.

(** ** Rounding up *)
Lemma ceil_bounds x : IZR (ceil x) - 1 < x <= IZR (ceil x).
Proof. unfold ceil. rewrite opp_IZR. destruct (base_Int_part (- x)) as [H1 H2]. lra. Qed.

(** ** Consecutive entries *)
Lemma Sorted_nth (P : R -> R -> Prop) l : Sorted P l -> forall i, (i + 1 < length l)%nat -> P (nth i l 0) (nth (i + 1) l 0).
Proof.
  induction 1 as [|x l HS IH HD]; intros i Hi; [cbn in Hi; lia|]. destruct i as [|i]; [|cbn [Nat.add nth]; apply IH; cbn [length] in Hi; lia].
  destruct l as [|y l]; [cbn in Hi; lia|]. inversion HD; subst. exact H0.
Qed.
Lemma Sorted_weak (P Q : R -> R -> Prop) l : (forall x y, P x y -> Q x y) -> Sorted P l -> Sorted Q l.
Proof. intros H. induction 1 as [|x l HS IH HD]; constructor; [exact IH|]. destruct HD; constructor; auto. Qed.
Lemma increasing_tail x l : increasing (x :: l) -> increasing l.
Proof. intros H i Hi. apply (H (S i)). cbn [length]. lia. Qed.

(** ** Sorting *)
Lemma insert_unique_in x l y : In y (insert_unique x l) <-> y = x \/ In y l.
Proof.
  induction l as [|z l IH]; cbn; [intuition|]. destruct (Rlt_dec x z); [cbn; intuition congruence|]. destruct (Req_EM_T x z) as [->|]; cbn; [intuition congruence|]. rewrite IH. intuition congruence.
Qed.
Lemma insert_unique_sorted x l : Sorted Rlt l -> Sorted Rlt (insert_unique x l).
Proof.
  induction 1 as [|z l HS IH HD]; cbn; [repeat constructor|]. destruct (Rlt_dec x z) as [H|H]; [repeat constructor; auto|]. destruct (Req_EM_T x z) as [->|N]; [constructor; auto|].
  constructor; [exact IH|]. destruct l as [|w l]; cbn; [constructor; lra|]. inversion HD; subst. destruct (Rlt_dec x w); [constructor; lra|]. destruct (Req_EM_T x w); constructor; lra.
Qed.
Lemma sort_unique_in l y : In y (sort_unique l) <-> In y l.
Proof. unfold sort_unique. induction l as [|x l IH]; cbn; [reflexivity|]. rewrite insert_unique_in, IH. intuition congruence. Qed.
Lemma sort_unique_sorted l : Sorted Rlt (sort_unique l).
Proof. unfold sort_unique. induction l as [|x l IH]; cbn; [constructor|]. now apply insert_unique_sorted. Qed.

(** ** Division of an interval *)
Definition spaced (a b : R) (n : nat) : list R := map (fun j => a + INR j * ((b - a) / INR n)) (seq 0 n).
Lemma divide_ok lmax a b : 0 < lmax -> a < b -> exists n, (1 <= n)%nat /\ divide_interval lmax a b = Ok (spaced a b n) /\ (b - a) / INR n <= lmax.
Proof.
  intros Hl Hab. unfold divide_interval. destruct (Rlt_dec lmax (b - a)) as [H|H].
  - destruct (Req_EM_T lmax 0) as [E|_]; [lra|]. cbn [bind]. set (x := (b - a) / lmax). pose proof (ceil_bounds x) as [B1 B2].
    assert (X : 1 < x) by (unfold x; apply (Rmult_lt_reg_r lmax); [lra|]; unfold Rdiv; rewrite Rmult_assoc, Rinv_l by lra; lra).
    assert (C : (2 <= ceil x)%Z) by (assert (1 < ceil x)%Z by (apply lt_IZR; lra); lia).
    exists (Z.to_nat (ceil x)). assert (EZ : INR (Z.to_nat (ceil x)) = IZR (ceil x)) by (rewrite INR_IZR_INZ, Z2Nat.id by lia; reflexivity).
    split; [lia|]. split; [unfold spaced; now rewrite EZ|]. rewrite EZ. apply (Rmult_le_reg_r (IZR (ceil x))); [lra|]. unfold Rdiv. rewrite Rmult_assoc, Rinv_l, Rmult_1_r by lra.
    replace (b - a) with (x * lmax) by (unfold x; field; lra). rewrite (Rmult_comm lmax). apply Rmult_le_compat_r; lra.
  - exists 1%nat. split; [lia|]. cbn [bind]. split; [reflexivity|]. simpl INR. lra.
Qed.
Lemma spaced_in a b n x : a < b -> In x (spaced a b n) -> a <= x <= b.
Proof.
  intros Hab H. unfold spaced in H. apply in_map_iff in H. destruct H as (j & <- & Hj). apply in_seq in Hj. assert (0 <= INR j) by apply pos_INR. assert (INR j < INR n) by (apply lt_INR; lia).
  assert (P : 0 < (b - a) / INR n) by (apply Rmult_lt_0_compat; [lra|apply Rinv_0_lt_compat; lra]). assert (E : INR n * ((b - a) / INR n) = b - a) by (field; lra). split; [nra|]. nra.
Qed.
Lemma spaced_sorted (P : R -> R -> Prop) a b n l : (1 <= n)%nat -> a < b -> (forall x y, y = x + (b - a) / INR n -> P x y) -> Sorted P (b :: l) -> Sorted P (spaced a b n ++ b :: l).
Proof.
  intros Hn Hab HP HS. pose proof (INR_pos n Hn) as Pn. unfold spaced. set (f := fun j => a + INR j * ((b - a) / INR n)). assert (Fn : f n = b) by (unfold f; field; lra).
  assert (FS : forall j, P (f j) (f (S j))) by (intros j; apply HP; unfold f; rewrite S_INR; lra).
  assert (G : forall k, (k <= n)%nat -> Sorted P (map f (seq (n - k) k) ++ b :: l) /\ exists r, map f (seq (n - k) k) ++ b :: l = f (n - k)%nat :: r).
  { induction k as [|k IH]; intros Hk; [cbn [seq map app]; rewrite Nat.sub_0_r, Fn; split; [exact HS|eauto]|].
    destruct (IH ltac:(lia)) as [I1 (r & I2)]. cbn [seq map app]. replace (S (n - S k)) with (n - k)%nat by lia. split; [|eauto]. constructor; [exact I1|]. rewrite I2. constructor. replace (n - k)%nat with (S (n - S k)) by lia. apply FS. }
  destruct (G n ltac:(lia)) as [G1 _]. rewrite Nat.sub_diag in G1. exact G1.
Qed.
Lemma spaced_first a b n : (1 <= n)%nat -> exists r, spaced a b n = a :: r.
Proof. intros H. unfold spaced. destruct n; [lia|]. cbn [seq map]. eexists. f_equal. simpl INR. lra. Qed.

Lemma subdivide_cons a b l lmax : subdivide (a :: b :: l) lmax = (do p <- divide_interval lmax a b; do r <- subdivide (b :: l) lmax; Ok (p ++ r)).
Proof.
  unfold subdivide. cbn [length Nat.sub seq]. rewrite <- (seq_shift (length l) 0). cbn [mapM]. cbn [get nth_error Nat.add bind]. rewrite (mapM_map_compose _ S). cbn [Nat.add]. destruct (divide_interval lmax a b) as [p|]; [|reflexivity]. cbn [bind].
  rewrite Nat.sub_0_r. change (fun x : nat => do a0 <- get (a :: b :: l) (S x); do b0 <- get (a :: b :: l) (S (x + 1)); divide_interval lmax a0 b0) with (fun x : nat => do a0 <- get (b :: l) x; do b0 <- get (b :: l) (x + 1); divide_interval lmax a0 b0).
  destruct (mapM _ (seq 0 (length l))) as [ps|]; [|reflexivity]. cbn [bind]. change (get (a :: b :: l) (S (length l))) with (get (b :: l) (length l)). destruct (get (b :: l) (length l)) as [z|]; [|reflexivity]. cbn [bind concat]. now rewrite app_assoc.
Qed.
(** [r] refines [bins] *)
Lemma subdivide_ok lmax : 0 < lmax -> forall bins, bins <> [] -> increasing bins -> exists r, subdivide bins lmax = Ok r /\ refines bins r /\
  (forall i, (i + 1 < length r)%nat -> nth (i + 1) r 0 - nth i r 0 <= lmax) /\ hd 0 r = hd 0 bins /\ last r 0 = last bins 0.
Proof.
  intros Hl.
  assert (G : forall l a, increasing (a :: l) -> exists r, subdivide (a :: l) lmax = Ok (a :: r) /\ Sorted (fun x y => x < y <= x + lmax) (a :: r) /\ incl (a :: l) (a :: r) /\ (length l <= length r)%nat /\
    (forall x, In x (a :: r) -> exists u v, In u (a :: l) /\ In v (a :: l) /\ u <= x <= v) /\ last (a :: r) 0 = last (a :: l) 0).
  { induction l as [|b l IH]; intros a HI.
    - exists []. split; [reflexivity|]. split; [repeat constructor|]. split; [intros x; auto|]. split; [auto|]. split; [|reflexivity]. intros x [<-|[]]. exists a, a. cbn. repeat split; auto; lra.
    - destruct (IH b (increasing_tail _ _ HI)) as (r & E & HS & HC & HL & HB & HE). assert (Hab : a < b) by (apply (HI 0%nat); cbn; lia). destruct (divide_ok lmax a b Hl Hab) as (n & Hn & ED & Hd).
      destruct (spaced_first a b n Hn) as (s & Es). exists (s ++ b :: r). rewrite subdivide_cons, ED, E. cbn [bind]. assert (EA : a :: s ++ b :: r = spaced a b n ++ b :: r) by now rewrite Es. rewrite EA. split; [reflexivity|].
      assert (P : 0 < (b - a) / INR n) by (apply Rmult_lt_0_compat; [lra|apply Rinv_0_lt_compat; now apply INR_pos]).
      split; [apply spaced_sorted; auto; intros x y ->; lra|]. split; [|split; [|split]].
      + intros x [<-|H]; [rewrite Es; now left|]. apply in_or_app. right. apply HC. exact H.
      + rewrite app_length. cbn [length]. lia.
      + intros x H. apply in_app_or in H. destruct H as [H|H]; [exists a, b; split; [now left|]; split; [right; now left|]; now apply (spaced_in a b n)|]. destruct (HB x H) as (u & v & U & V & B). exists u, v. split; [now right|]. split; [now right|exact B].
      + rewrite app_comm_cons || idtac. transitivity (last (b :: r) 0); [|exact HE]. clear. induction (spaced a b n) as [|y q IH]; [reflexivity|]. cbn [app]. rewrite <- IH. destruct (q ++ b :: r) eqn:E; [destruct q; discriminate|]. reflexivity. }
  intros [|a l] HN HI; [congruence|]. destruct (G l a HI) as (r & E & HS & HC & HL & HB & HE). exists (a :: r). split; [exact E|]. pose proof (Sorted_nth _ _ HS) as N. split.
  - split; [intros i Hi; destruct (N i Hi); lra|]. split; [exact HC|]. split; [cbn [length]; lia|exact HB].
  - split; [intros i Hi; destruct (N i Hi); lra|]. split; [reflexivity|exact HE].
Qed.
(** the argument lmax makes sense *)
Definition lmax_ok (lmax : lmax_arg) : Prop := match lmax with LFloat l => 0 < l | _ => True end.
Lemma refine_ok lmax bins : lmax_ok lmax -> bins <> [] -> increasing bins -> exists r, refine lmax bins = Ok r /\ refines bins r /\
  match lmax with LFloat l => forall i, (i + 1 < length r)%nat -> nth (i + 1) r 0 - nth i r 0 <= l | _ => r = bins end.
Proof.
  intros HL HN HI. assert (Q : refines bins bins) by (split; [exact HI|]; split; [intros x; auto|]; split; [auto|]; intros x Hx; exists x, x; repeat split; auto; lra).
  destruct lmax as [|l|z]; cbn [refine]; [exists bins; auto| |exists bins; auto]. destruct (subdivide_ok l HL bins HN HI) as (r & E & H1 & H2 & _). eauto.
Qed.

(** ** Positions in increasing lists *)
Lemma increasing_lt b : increasing b -> forall i j, (i < j)%nat -> (j < length b)%nat -> nth i b 0 < nth j b 0.
Proof. intros H i j Hij Hj. apply (mono (length b - 1) (fun i => nth i b 0)); auto; try lia. intros k Hk. apply H. lia. Qed.
Lemma increasing_le b : increasing b -> forall i j, (i <= j)%nat -> (j < length b)%nat -> nth i b 0 <= nth j b 0.
Proof. intros H i j Hij Hj. destruct (Nat.eq_dec i j) as [->|]; [lra|]. left. apply increasing_lt; auto. lia. Qed.
Lemma increasing_index b : increasing b -> forall i j, (i < length b)%nat -> (j < length b)%nat -> nth i b 0 < nth j b 0 -> (i < j)%nat.
Proof. intros H i j Hi Hj L. destruct (Nat.lt_ge_cases i j) as [|G]; [auto|]. pose proof (increasing_le b H j i G Hi). lra. Qed.
(** no interval contains a bin *)
Lemma not_between b : increasing b -> forall m i, In m b -> (i + 1 < length b)%nat -> m <= nth i b 0 \/ nth (i + 1) b 0 <= m.
Proof.
  intros H m i Hm Hi. apply (In_nth _ _ 0) in Hm. destruct Hm as (k & Hk & <-). destruct (Nat.le_gt_cases k i) as [L|L]; [left; apply increasing_le; auto; lia|right; apply increasing_le; auto; lia].
Qed.
(** every position between two bins is in an interval between them *)
Lemma between_bins b : increasing b -> forall lo hi p, In lo b -> In hi b -> lo < hi -> lo <= p <= hi -> exists i, (i + 1 < length b)%nat /\ lo <= nth i b 0 /\ nth i b 0 <= p <= nth (i + 1) b 0 /\ nth (i + 1) b 0 <= hi.
Proof.
  intros H lo hi p Hlo Hhi HL Hp. apply (In_nth _ _ 0) in Hlo. destruct Hlo as (u & Hu & <-). apply (In_nth _ _ 0) in Hhi. destruct Hhi as (v & Hv & <-). pose proof (increasing_index b H u v Hu Hv HL) as L.
  assert (G : forall k, (u + k <= v)%nat -> p <= nth (u + k) b 0 -> (1 <= k)%nat -> exists i, (u <= i < u + k)%nat /\ nth i b 0 <= p <= nth (i + 1) b 0).
  { induction k as [|k IH]; intros Hk HP H1; [lia|]. destruct (Rle_lt_dec (nth (u + k) b 0) p) as [Q|Q].
    - exists (u + k)%nat. split; [lia|]. replace (u + k + 1)%nat with (u + S k)%nat by lia. lra.
    - destruct k as [|k]; [rewrite Nat.add_0_r in Q; lra|]. destruct (IH ltac:(lia) ltac:(lra) ltac:(lia)) as (i & I1 & I2). exists i. split; [lia|exact I2]. }
  destruct (G (v - u)%nat ltac:(lia)) as (i & I1 & I2); [replace (u + (v - u))%nat with v by lia; lra|lia|]. exists i. split; [lia|]. split; [apply increasing_le; auto; lia|]. split; [exact I2|apply increasing_le; auto; lia].
Qed.
