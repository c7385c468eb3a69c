(** * Proofs about [TileModel.v] *)
From Coq Require Import Reals Lra Lia List Permutation Sorted.
From Verif Require Import BaseFacts FillFacts TrModel TrProofs TopoProofs3 TopoProofs4 TopoProofs5 TileModel TileSpec ExtrudeProofs.
Import ListNotations.
Local Open Scope R_scope.

(** ** the last write to a cell *)
Definition last_write {A} (ws : list (nat * A)) (c : nat) : option A := fold_left (fun acc w => if Nat.eqb (fst w) c then Some (snd w) else acc) ws None.
Lemma last_write_acc {A} (ws : list (nat * A)) c : forall acc, fold_left (fun acc w => if Nat.eqb (fst w) c then Some (snd w) else acc) ws acc = match last_write ws c with Some v => Some v | None => acc end.
Proof.
  unfold last_write. induction ws as [|w ws IH]; intros acc; cbn; [reflexivity|]. rewrite IH. rewrite (IH (if Nat.eqb (fst w) c then Some (snd w) else None)).
  destruct (fold_left _ ws None); [reflexivity|]. destruct (Nat.eqb (fst w) c); reflexivity.
Qed.
Lemma last_write_app {A} (ws ws' : list (nat * A)) c : last_write (ws ++ ws') c = match last_write ws' c with Some v => Some v | None => last_write ws c end.
Proof. unfold last_write at 1. rewrite fold_left_app. apply last_write_acc. Qed.
Lemma last_write_none {A} (ws : list (nat * A)) c : (forall v, ~ In (c, v) ws) -> last_write ws c = None.
Proof.
  induction ws as [|[k v] ws IH]; intros H; [reflexivity|]. change ((k, v) :: ws) with ([(k, v)] ++ ws). rewrite last_write_app, IH by (intros w Hw; apply (H w); now right).
  cbn. destruct (Nat.eqb_spec k c) as [->|]; [|reflexivity]. exfalso. apply (H v). now left.
Qed.
Lemma last_write_once {A} (ws : list (nat * A)) c v : In (c, v) ws -> (forall w, In (c, w) ws -> w = v) -> last_write ws c = Some v.
Proof.
  induction ws as [|[k x] ws IH]; intros HI HU; [contradiction|]. change ((k, x) :: ws) with ([(k, x)] ++ ws). rewrite last_write_app.
  destruct (run_writes_consistent_in ws c) as [[w Hw]|Hn].
  - assert (w = v) by (apply HU; now right). subst w. rewrite IH; auto. intros w Hw'. apply HU. now right.
  - rewrite (last_write_none ws c Hn). destruct HI as [HI|HI]; [|destruct (Hn _ HI)]. injection HI as -> ->. cbn. now rewrite Nat.eqb_refl.
Qed.
Lemma run_writes_last {A} (ws : list (nat * A)) : forall a a', run_writes ws a = Ok a' -> forall c, nth_error a' c = match last_write ws c with Some v => Some v | None => nth_error a c end.
Proof.
  induction ws as [|[k v] ws IH]; intros a a' H c; unfold run_writes in *; cbn in H; [injection H as <-; reflexivity|].
  destruct (set a k v) as [a1|] eqn:E; [|discriminate]. cbn in H. rewrite (IH _ _ H c). change ((k, v) :: ws) with ([(k, v)] ++ ws). rewrite last_write_app.
  destruct (last_write ws c); [reflexivity|]. rewrite (set_nth_error _ _ _ _ _ E). cbn. rewrite (Nat.eqb_sym k c). destruct (Nat.eqb_spec c k) as [->|]; [|reflexivity]. reflexivity.
Qed.
(** one iteration writes to its own cells *)
Lemma last_write_iter {A I} (f : I -> list (nat * A)) (its : list I) c i0 : NoDup its -> (forall i v, In i its -> In (c, v) (f i) -> i = i0) -> In i0 its ->
  last_write (flat_map f its) c = last_write (f i0) c.
Proof.
  induction its as [|i its IH]; intros ND HO HI; [contradiction|]. inversion ND; subst. cbn [flat_map]. rewrite last_write_app. destruct HI as [->|HI].
  - rewrite last_write_none; [reflexivity|]. intros v Hv. apply in_flat_map in Hv. destruct Hv as (j & Hj & Hv). assert (j = i0) by (apply (HO j v); [now right|exact Hv]). subst. contradiction.
  - rewrite IH; auto; [|intros; eapply HO; eauto; now right]. rewrite (last_write_none (f i)); [now destruct (last_write (f i0) c)|]. intros v Hv. assert (i = i0) by (apply (HO i v); [now left|exact Hv]). subst. contradiction.
Qed.

(** ** bounds and sides *)
Lemma fold_min_le : forall l x, fold_left Rmin l x <= x /\ forall y, In y l -> fold_left Rmin l x <= y.
Proof.
  induction l as [|z l IH]; intros x; cbn; [split; [lra|contradiction]|]. destruct (IH (Rmin x z)) as [H1 H2]. pose proof (Rmin_l x z). pose proof (Rmin_r x z). split; [lra|]. intros y [<-|Hy]; [lra|auto].
Qed.
Lemma fold_min_in : forall l x, fold_left Rmin l x = x \/ In (fold_left Rmin l x) l.
Proof.
  induction l as [|z l IH]; intros x; cbn; [now left|]. destruct (IH (Rmin x z)) as [E|E]; [|auto]. rewrite E. unfold Rmin. destruct (Rle_dec x z); auto.
Qed.
Lemma fold_max_le : forall l x, x <= fold_left Rmax l x /\ forall y, In y l -> y <= fold_left Rmax l x.
Proof.
  induction l as [|z l IH]; intros x; cbn; [split; [lra|contradiction]|]. destruct (IH (Rmax x z)) as [H1 H2]. pose proof (Rmax_l x z). pose proof (Rmax_r x z). split; [lra|]. intros y [<-|Hy]; [lra|auto].
Qed.
Lemma fold_max_in : forall l x, fold_left Rmax l x = x \/ In (fold_left Rmax l x) l.
Proof.
  induction l as [|z l IH]; intros x; cbn; [now left|]. destruct (IH (Rmax x z)) as [E|E]; [|auto]. rewrite E. unfold Rmax. destruct (Rle_dec x z); auto.
Qed.

Definition column (coords : list (list R)) (d : nat) : list R := map (fun p => nth d p 0) coords.
Lemma column_ok coords d : rect 3 coords -> (d < 3)%nat -> mapM (fun p => get p d) coords = Ok (column coords d).
Proof.
  intros HR Hd. unfold column. apply mapM_map. intros p Hp. apply get_Ok. pose proof (proj1 (Forall_forall _ _) HR p Hp) as L. cbn in L. apply nth_error_nth'. lia.
Qed.
Lemma column_nth coords d n : (n < length coords)%nat -> nth_error (column coords d) n = Some (coord coords n d).
Proof. intros H. unfold column. destruct (nth_error_lt coords n H) as [p Hp]. rewrite nth_error_map, Hp. unfold coord. now rewrite (nth_error_nth _ _ _ Hp). Qed.

Lemma minmax_bounds coords d lo hi : bounds coords d lo hi -> minmax (column coords d) = Ok (lo, hi).
Proof.
  intros ((a & Ha & Ea) & (b & Hb & Eb) & HB). assert (NE : column coords d <> []). { destruct coords; [cbn in Ha; lia|discriminate]. }
  assert (HC : forall y, In y (column coords d) -> lo <= y <= hi). { intros y Hy. apply In_nth_error in Hy. destruct Hy as (n & Hn). assert (L : (n < length coords)%nat) by (apply nth_error_Some_lt in Hn; unfold column in Hn; now rewrite map_length in Hn). rewrite (column_nth coords d n L) in Hn. injection Hn as <-. now apply HB. }
  assert (IL : In lo (column coords d)) by (rewrite <- Ea; exact (nth_error_In _ _ (column_nth coords d a Ha))). assert (IH : In hi (column coords d)) by (rewrite <- Eb; exact (nth_error_In _ _ (column_nth coords d b Hb))).
  destruct (column coords d) as [|x t]; [congruence|]. cbn. f_equal. f_equal.
  - destruct (fold_min_le t x) as [M1 M2]. apply Rle_antisym; [destruct IL as [<-|IL]; [exact M1|now apply M2]|]. destruct (fold_min_in t x) as [E|E]; [rewrite E; apply HC; now left|apply HC; now right].
  - destruct (fold_max_le t x) as [M1 M2]. apply Rle_antisym; [|destruct IH as [<-|IH]; [exact M1|now apply M2]]. destruct (fold_max_in t x) as [E|E]; [rewrite E; apply HC; now left|apply HC; now right].
Qed.

Lemma enum_from_sorted {A} : forall (l : list A) k (f : nat * A -> bool), StronglySorted lt (map fst (filter f (enum_from k l))) /\ forall n, In n (map fst (filter f (enum_from k l))) -> (k <= n)%nat.
Proof.
  induction l as [|x l IH]; intros k f; cbn [enum_from filter map]; [split; [constructor|contradiction]|]. destruct (IH (S k) f) as [H1 H2]. destruct (f (k, x)); cbn [map fst].
  - split; [constructor; [exact H1|apply Forall_forall; intros n Hn; specialize (H2 n Hn); lia]|]. intros n [<-|Hn]; [lia|specialize (H2 n Hn); lia].
  - split; [exact H1|]. intros n Hn. specialize (H2 n Hn). lia.
Qed.
Lemma where_near_In vals v tol n : In n (where_near vals v tol) <-> exists x, nth_error vals n = Some x /\ Rabs (x - v) < tol.
Proof.
  unfold where_near. rewrite in_map_iff. split.
  - intros ([k x] & <- & H). apply filter_In in H. destruct H as [H1 H2]. apply enum_In in H1. exists x. split; [exact H1|]. cbn in H2. destruct (Rlt_dec (Rabs (x - v)) tol); [assumption|discriminate].
  - intros (x & H1 & H2). exists (n, x). split; [reflexivity|]. apply filter_In. split; [now apply enum_In|]. cbn. destruct (Rlt_dec (Rabs (x - v)) tol); [reflexivity|contradiction].
Qed.
Lemma sorted_unique : forall l k, StronglySorted lt l -> StronglySorted lt k -> (forall n, In n l <-> In n k) -> l = k.
Proof.
  induction l as [|x l IH]; intros k HL HK H.
  - destruct k as [|y k]; [reflexivity|]. exfalso. apply (proj2 (H y)). now left.
  - destruct k as [|y k]; [exfalso; apply (proj1 (H x)); now left|]. inversion HL as [|? ? L1 L2]; subst. inversion HK as [|? ? K1 K2]; subst. rewrite Forall_forall in L2, K2.
    assert (x = y). { destruct (proj1 (H x) (or_introl eq_refl)) as [E|E]; [auto|]. destruct (proj2 (H y) (or_introl eq_refl)) as [E'|E']; [auto|]. specialize (K2 x E). specialize (L2 y E'). lia. }
    subst y. f_equal. apply IH; auto. intros n. split; intros Hn.
    + destruct (proj1 (H n) (or_intror Hn)) as [<-|E]; [specialize (L2 x Hn); lia|exact E].
    + destruct (proj2 (H n) (or_intror Hn)) as [<-|E]; [specialize (K2 x Hn); lia|exact E].
Qed.
Lemma near_where coords d v tol l : nodes_near coords d v tol l -> where_near (column coords d) v tol = l.
Proof.
  intros [HS HI]. apply sorted_unique; [apply enum_from_sorted|exact HS|]. intros n. rewrite where_near_In, HI. split.
  - intros (x & H1 & H2). assert (L : (n < length coords)%nat) by (apply nth_error_Some_lt in H1; unfold column in H1; now rewrite map_length in H1). rewrite (column_nth coords d n L) in H1. injection H1 as <-. now split.
  - intros [L H]. exists (coord coords n d). split; [now apply column_nth|exact H].
Qed.
