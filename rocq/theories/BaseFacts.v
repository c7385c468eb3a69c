(** * Facts about the vocabulary of [Base.v] *)
From Verif Require Export Base.

(** ** Results *)

Lemma bind_Ok {A B} (m : res A) (k : A -> res B) b :
  bind m k = Ok b <-> exists a, m = Ok a /\ k a = Ok b.
Proof.
  destruct m as [a|e]; simpl; split.
  - intros H; exists a; auto.
  - intros [a' [H1 H2]]; inversion H1; subst; auto.
  - intros H; inversion H.
  - intros [a' [H1 _]]; inversion H1.
Qed.

Lemma guard_Ok c e u : guard c e = Ok u <-> c = true.
Proof. destruct c, u; simpl; split; intros H; auto; inversion H. Qed.

Ltac inv_ok :=
  repeat match goal with
  | H : Ok _ = Ok _ |- _ => injection H; clear H; intros; subst
  | H : Err _ = Ok _ |- _ => discriminate H
  | H : Ok _ = Err _ |- _ => discriminate H
  | H : bind _ _ = Ok _ |- _ =>
      apply bind_Ok in H; let a := fresh "a" in let Ha := fresh "Hok" in destruct H as [a [Ha H]]
  | H : guard _ _ = Ok _ |- _ => apply guard_Ok in H
  end.

Lemma get_Ok {A} (a : list A) i x : get a i = Ok x <-> nth_error a i = Some x.
Proof.
  unfold get; destruct (nth_error a i) eqn:E; split; intros H; inversion H; auto.
Qed.

Lemma get_lt {A} (a : list A) i : i < length a -> exists x, get a i = Ok x.
Proof.
  intros H; unfold get. destruct (nth_error a i) eqn:E; eauto.
  apply nth_error_None in E; lia.
Qed.

Lemma get_Ok_lt {A} (a : list A) i x : get a i = Ok x -> i < length a.
Proof. rewrite get_Ok; intros H; apply nth_error_Some; congruence. Qed.

Lemma get_Err {A} (a : list A) i e : get a i = Err e <-> e = IndexError /\ length a <= i.
Proof.
  unfold get; destruct (nth_error a i) eqn:E; split; intros H.
  - inversion H.
  - destruct H as [_ H]. apply nth_error_None in H; congruence.
  - inversion H; split; auto. apply nth_error_None; auto.
  - destruct H as [-> _]; auto.
Qed.

Lemma get2_Ok {A} (a : list (list A)) i j x :
  get2 a i j = Ok x <-> exists r, nth_error a i = Some r /\ nth_error r j = Some x.
Proof.
  unfold get2. rewrite bind_Ok. split; intros [r [H1 H2]]; exists r; split;
  apply get_Ok; auto.
Qed.

(** ** mapM *)

Lemma mapM_Ok {A B} (f : A -> res B) l ys :
  mapM f l = Ok ys <-> Forall2 (fun x y => f x = Ok y) l ys.
Proof.
  revert ys; induction l as [|x xs IH]; intros ys; simpl.
  - split; intros H.
    + inversion H; constructor.
    + inversion H; auto.
  - split; intros H.
    + inv_ok. constructor; auto. apply IH; auto.
    + inversion H as [|a b la lb Hf Hrest]; subst.
      rewrite Hf; simpl. apply IH in Hrest. rewrite Hrest; auto.
Qed.

Lemma mapM_length {A B} (f : A -> res B) l ys : mapM f l = Ok ys -> length ys = length l.
Proof. rewrite mapM_Ok; intros H; symmetry; induction H; simpl; auto. Qed.

Lemma mapM_map {A B} (f : A -> res B) (g : A -> B) l :
  (forall x, In x l -> f x = Ok (g x)) -> mapM f l = Ok (map g l).
Proof.
  induction l as [|x xs IH]; intros H; simpl; auto.
  rewrite H by (simpl; auto); simpl. rewrite IH; auto. intros; apply H; simpl; auto.
Qed.

Lemma mapM_ext {A B} (f g : A -> res B) l :
  (forall x, In x l -> f x = g x) -> mapM f l = mapM g l.
Proof.
  induction l as [|x xs IH]; intros H; simpl; auto.
  rewrite H by (simpl; auto). rewrite IH; auto. intros; apply H; simpl; auto.
Qed.

Lemma mapM_total {A B} (f : A -> res B) l :
  (forall x, In x l -> exists y, f x = Ok y) -> exists ys, mapM f l = Ok ys.
Proof.
  induction l as [|x xs IH]; intros H; simpl; eauto.
  destruct (H x) as [y Hy]; [simpl; auto|]. rewrite Hy; simpl.
  destruct IH as [ys Hys]; [intros; apply H; simpl; auto|].
  rewrite Hys; simpl; eauto.
Qed.

Lemma Forall2_nth_error {A B} (P : A -> B -> Prop) l ys i x :
  Forall2 P l ys -> nth_error l i = Some x -> exists y, nth_error ys i = Some y /\ P x y.
Proof.
  intros H; revert i; induction H as [|a b la lb Hab Hr IH]; intros i Hi.
  - destruct i; discriminate.
  - destruct i as [|i]; simpl in *.
    + inversion Hi; subst; eauto.
    + auto.
Qed.

Lemma Forall2_nth_error_r {A B} (P : A -> B -> Prop) l ys i y :
  Forall2 P l ys -> nth_error ys i = Some y -> exists x, nth_error l i = Some x /\ P x y.
Proof.
  intros H; revert i; induction H as [|a b la lb Hab Hr IH]; intros i Hi.
  - destruct i; discriminate.
  - destruct i as [|i]; simpl in *.
    + inversion Hi; subst; eauto.
    + auto.
Qed.

Lemma mapM_nth_error {A B} (f : A -> res B) l ys i x :
  mapM f l = Ok ys -> nth_error l i = Some x -> exists y, nth_error ys i = Some y /\ f x = Ok y.
Proof. rewrite mapM_Ok; intros H Hi; eapply Forall2_nth_error in H; eauto. Qed.

Lemma mapM_nth_error_r {A B} (f : A -> res B) l ys i y :
  mapM f l = Ok ys -> nth_error ys i = Some y -> exists x, nth_error l i = Some x /\ f x = Ok y.
Proof. rewrite mapM_Ok; intros H Hi; eapply Forall2_nth_error_r in H; eauto. Qed.

Lemma mapM_app {A B} (f : A -> res B) l1 l2 :
  mapM f (l1 ++ l2) = (do a <- mapM f l1; do b <- mapM f l2; Ok (a ++ b)).
Proof.
  induction l1 as [|x xs IH]; simpl.
  - destruct (mapM f l2); auto.
  - destruct (f x) as [y|e]; simpl; auto. rewrite IH.
    destruct (mapM f xs); simpl; auto. destruct (mapM f l2); auto.
Qed.

Lemma foldM_app {A S} (f : S -> A -> res S) l1 l2 s :
  foldM f (l1 ++ l2) s = (do s' <- foldM f l1 s; foldM f l2 s').
Proof.
  revert s; induction l1 as [|x xs IH]; intros s; simpl; auto.
  destruct (f s x); simpl; auto.
Qed.

(** ** Extensionality of lists *)

Lemma nth_error_ext {A} (a b : list A) :
  (forall i, nth_error a i = nth_error b i) -> a = b.
Proof.
  revert b; induction a as [|x xs IH]; intros [|y ys] H; auto.
  - specialize (H 0); discriminate.
  - specialize (H 0); discriminate.
  - f_equal.
    + specialize (H 0); simpl in H; congruence.
    + apply IH; intros i; apply (H (S i)).
Qed.

Lemma nth_error_lt {A} (l : list A) i : i < length l -> exists x, nth_error l i = Some x.
Proof.
  intros H; destruct (nth_error l i) eqn:E; eauto. apply nth_error_None in E; lia.
Qed.

Lemma nth_error_Some_lt {A} (l : list A) i x : nth_error l i = Some x -> i < length l.
Proof. intros H; apply nth_error_Some; congruence. Qed.

Lemma nth_error_ge {A} (l : list A) i : length l <= i -> nth_error l i = None.
Proof. apply nth_error_None. Qed.

Lemma nth_error_repeat {A} (x : A) n i : i < n -> nth_error (repeat x n) i = Some x.
Proof.
  revert i; induction n as [|n IH]; intros i H; [lia|].
  destruct i; simpl; auto. apply IH; lia.
Qed.

Lemma nth_error_repeat_inv {A} (x y : A) n i : nth_error (repeat x n) i = Some y -> y = x /\ i < n.
Proof.
  intros H. assert (i < n) by (rewrite <- (repeat_length x n); eapply nth_error_Some_lt; eauto).
  rewrite nth_error_repeat in H by auto. inversion H; auto.
Qed.

Lemma nth_error_map_some {A B} (f : A -> B) l i y :
  nth_error (map f l) i = Some y <-> exists x, nth_error l i = Some x /\ y = f x.
Proof.
  rewrite nth_error_map. destruct (nth_error l i) as [x|]; simpl; split.
  - intros H; inversion H; eauto.
  - intros [x' [H1 ->]]; inversion H1; auto.
  - discriminate.
  - intros [x' [H1 _]]; discriminate.
Qed.

Lemma nth_error_seq s n i : i < n -> nth_error (seq s n) i = Some (s + i).
Proof.
  revert s i; induction n as [|n IH]; intros s i H; [lia|].
  destruct i as [|i]; simpl; [f_equal; lia|]. rewrite IH by lia. f_equal; lia.
Qed.

Lemma nth_error_seq_some s n i x : nth_error (seq s n) i = Some x -> x = s + i /\ i < n.
Proof.
  intros H. assert (i < n) by (rewrite <- (seq_length n s); eapply nth_error_Some_lt; eauto).
  rewrite nth_error_seq in H by auto. inversion H; auto.
Qed.

Lemma in_nth_error {A} (l : list A) x : In x l <-> exists i, nth_error l i = Some x.
Proof.
  split.
  - apply In_nth_error.
  - intros [i H]; eapply nth_error_In; eauto.
Qed.

Lemma rect_nth {A} n (t : list (list A)) i r : rect n t -> nth_error t i = Some r -> length r = n.
Proof.
  unfold rect; rewrite Forall_forall; intros H Hi; apply H; eapply nth_error_In; eauto.
Qed.

Lemma rect_map {A B} n (f : list A -> list B) t :
  (forall r, length (f r) = length r) -> rect n t -> rect n (map f t).
Proof.
  intros Hf; unfold rect; rewrite !Forall_forall; intros H r Hr.
  apply in_map_iff in Hr; destruct Hr as [r' [<- Hr']]. rewrite Hf; auto.
Qed.

(** ** Writes *)

Lemma set_Ok_iff {A} (a : list A) i v : (exists a', set a i v = Ok a') <-> i < length a.
Proof.
  revert i; induction a as [|x xs IH]; intros i; simpl.
  - split; [intros [a' H]; discriminate|lia].
  - destruct i as [|i].
    + split; [lia|eauto].
    + split.
      * intros [a' H]; inv_ok. assert (i < length xs) by (apply IH; eauto). lia.
      * intros H. destruct (proj2 (IH i)) as [xs' Hx]; [lia|]. rewrite Hx; simpl; eauto.
Qed.

Lemma set_length {A} (a a' : list A) i v : set a i v = Ok a' -> length a' = length a.
Proof.
  revert i a'; induction a as [|x xs IH]; intros i a' H; simpl in *; [discriminate|].
  destruct i as [|i]; inv_ok; simpl; auto. f_equal; eauto.
Qed.

Lemma set_nth_error {A} (a a' : list A) i v j :
  set a i v = Ok a' -> nth_error a' j = if Nat.eqb j i then Some v else nth_error a j.
Proof.
  revert i j a'; induction a as [|x xs IH]; intros i j a' H; simpl in *; [discriminate|].
  destruct i as [|i]; inv_ok.
  - destruct j; simpl; auto.
  - destruct j as [|j]; simpl; auto.
Qed.

Lemma set_Ok_lt {A} (a a' : list A) i v : set a i v = Ok a' -> i < length a.
Proof. intros H; apply (set_Ok_iff a i v); eauto. Qed.

Lemma run_writes_length {A} (ws : list (nat * A)) a a' :
  run_writes ws a = Ok a' -> length a' = length a.
Proof.
  revert a; induction ws as [|[i v] ws IH]; intros a H; unfold run_writes in *; simpl in *; inv_ok; auto.
  apply set_length in Hok. rewrite <- Hok; eauto.
Qed.

Lemma run_writes_in_range {A} (ws : list (nat * A)) a :
  (exists a', run_writes ws a = Ok a') <-> (forall i v, In (i, v) ws -> i < length a).
Proof.
  revert a; induction ws as [|[i v] ws IH]; intros a; unfold run_writes in *; simpl.
  - split; [intros; contradiction|eauto].
  - split.
    + intros [a' H] i' v' Hin; inv_ok.
      pose proof (set_Ok_lt _ _ _ _ Hok) as Hlt. pose proof (set_length _ _ _ _ Hok) as Hl.
      destruct Hin as [Heq|Hin]; [inversion Heq; subst; auto|].
      rewrite <- Hl. apply (proj1 (IH _)) with (v := v'); eauto.
    + intros H. destruct (proj2 (set_Ok_iff a i v)) as [a1 H1]; [eapply H; left; eauto|].
      rewrite H1; simpl. apply IH. apply set_length in H1. rewrite H1.
      intros; eapply H; right; eauto.
Qed.

(** Writes that agree on every index: the result does not depend on the
    order of execution. *)
Definition consistent {A} (ws : list (nat * A)) : Prop :=
  forall i v v', In (i, v) ws -> In (i, v') ws -> v = v'.

Lemma run_writes_written {A} (ws : list (nat * A)) a a' i v :
  run_writes ws a = Ok a' -> consistent ws -> In (i, v) ws -> nth_error a' i = Some v.
Proof.
  revert a; induction ws as [|[k w] ws IH]; intros a H Hc Hin; unfold run_writes in *; simpl in *; [contradiction|].
  inv_ok.
  destruct (in_dec Nat.eq_dec i (map fst ws)) as [Hi|Hi].
  - apply in_map_iff in Hi. destruct Hi as [[i' v'] [Hi' Hi]]; simpl in Hi'; subst i'.
    assert (v' = v) by (eapply Hc; [right; apply Hi|apply Hin]). subst v'.
    eapply IH; eauto. intros j x y Hx Hy; eapply Hc; right; eauto.
  - destruct Hin as [Heq|Hin].
    + inversion Heq; subst.
      assert (Hrest : forall b b', foldM (fun a0 w0 => set a0 (fst w0) (snd w0)) ws b = Ok b' ->
                nth_error b' i = nth_error b i).
      { clear - Hi. induction ws as [|[k w] ws IH]; intros b b' H; simpl in *; inv_ok; auto.
        rewrite (IH ltac:(tauto) _ _ H). erewrite set_nth_error by eauto.
        destruct (Nat.eqb_spec i k); auto. subst; exfalso; auto. }
      rewrite (Hrest _ _ H). erewrite set_nth_error by eauto. rewrite Nat.eqb_refl; auto.
    + exfalso; apply Hi; apply in_map_iff; exists (i, v); auto.
Qed.

Lemma run_writes_untouched {A} (ws : list (nat * A)) a a' i :
  run_writes ws a = Ok a' -> (forall v, ~ In (i, v) ws) -> nth_error a' i = nth_error a i.
Proof.
  revert a; induction ws as [|[k w] ws IH]; intros a H Hn; unfold run_writes in *; simpl in *; inv_ok; auto.
  rewrite (IH _ H).
  - erewrite set_nth_error by eauto. destruct (Nat.eqb_spec i k); auto.
    subst; exfalso; eapply Hn; left; eauto.
  - intros v Hv; eapply Hn; right; eauto.
Qed.

Lemma run_writes_consistent_in {A} (ws : list (nat * A)) i :
  (exists v, In (i, v) ws) \/ (forall v, ~ In (i, v) ws).
Proof.
  destruct (in_dec Nat.eq_dec i (map fst ws)) as [H|H].
  - left. apply in_map_iff in H. destruct H as [[i' v] [Hi H]]; simpl in Hi; subst; eauto.
  - right. intros v Hv; apply H; apply in_map_iff; exists (i, v); auto.
Qed.

Theorem run_writes_perm {A} (ws ws' : list (nat * A)) a :
  consistent ws -> Permutation ws ws' -> run_writes ws' a = run_writes ws a.
Proof.
  intros Hc Hp.
  assert (Hc' : consistent ws').
  { intros i v v' H1 H2. eapply Hc; eapply Permutation_in; try apply Permutation_sym; eauto. }
  destruct (run_writes ws a) as [b|e] eqn:E; destruct (run_writes ws' a) as [b'|e'] eqn:E'; auto.
  - f_equal. apply nth_error_ext; intros i.
    destruct (run_writes_consistent_in ws i) as [[v Hv]|Hn].
    + rewrite (run_writes_written _ _ _ _ _ E Hc Hv).
      apply (run_writes_written _ _ _ _ _ E' Hc'). eapply Permutation_in; eauto.
    + rewrite (run_writes_untouched _ _ _ _ E Hn).
      apply (run_writes_untouched _ _ _ _ E').
      intros v Hv; eapply Hn; eapply Permutation_in; [apply Permutation_sym|]; eauto.
  - exfalso. assert (exists b', run_writes ws' a = Ok b').
    { apply run_writes_in_range. intros i v Hin. pose proof (proj1 (run_writes_in_range ws a)) as HH.
      eapply HH; eauto. eapply Permutation_in; [apply Permutation_sym|]; eauto. }
    destruct H as [x Hx]; congruence.
  - exfalso. assert (exists b', run_writes ws a = Ok b').
    { apply run_writes_in_range. intros i v Hin. pose proof (proj1 (run_writes_in_range ws' a)) as HH.
      eapply HH; eauto. eapply Permutation_in; eauto. }
    destruct H as [x Hx]; congruence.
  - (* both fail: the only error is IndexError *)
    assert (Herr : forall (l : list (nat * A)) x e0, run_writes l x = Err e0 -> e0 = IndexError).
    { clear. assert (Hset : forall (a : list A) i v e, set a i v = Err e -> e = IndexError).
      { induction a as [|x xs IH]; intros [|i] v e H; simpl in *; try congruence.
        destruct (set xs i v) eqn:E; simpl in *; [discriminate|]. inversion H; subst; eauto. }
      unfold run_writes; induction l as [|[i v] l IH]; intros x e0 H; simpl in *; [discriminate|].
      destruct (set x i v) eqn:E; simpl in *; eauto. inversion H; subst; eauto. }
    rewrite (Herr _ _ _ E), (Herr _ _ _ E'); auto.
Qed.

(** ** 2d writes *)

Lemma set2_Ok {A} (a a' : list (list A)) i j v :
  set2 a i j v = Ok a' <->
  exists r r', nth_error a i = Some r /\ set r j v = Ok r' /\ set a i r' = Ok a'.
Proof.
  unfold set2; split.
  - intros H; inv_ok. apply get_Ok in Hok. eauto 6.
  - intros [r [r' [H1 [H2 H3]]]]. unfold get; rewrite H1; simpl; rewrite H2; simpl; auto.
Qed.

Definition get2o {A} (a : list (list A)) (i j : nat) : option A :=
  match nth_error a i with Some r => nth_error r j | None => None end.

Lemma get2o_get2 {A} (a : list (list A)) i j x : get2 a i j = Ok x <-> get2o a i j = Some x.
Proof.
  rewrite get2_Ok; unfold get2o. split.
  - intros [r [-> H]]; auto.
  - destruct (nth_error a i); [eauto|discriminate].
Qed.

Lemma set2_get2o {A} (a a' : list (list A)) i j v k l :
  set2 a i j v = Ok a' ->
  get2o a' k l = if (Nat.eqb k i && Nat.eqb l j)%bool then Some v else get2o a k l.
Proof.
  intros H; apply set2_Ok in H; destruct H as [r [r' [H1 [H2 H3]]]].
  unfold get2o. erewrite set_nth_error by eauto.
  destruct (Nat.eqb_spec k i); simpl; auto. subst k. rewrite H1.
  erewrite set_nth_error by eauto; auto.
Qed.

(** the shape (row lengths) of a 2d array *)
Definition shape2 {A} (a : list (list A)) : list nat := map (@length A) a.

Lemma set2_shape {A} (a a' : list (list A)) i j v : set2 a i j v = Ok a' -> shape2 a' = shape2 a.
Proof.
  intros H; apply set2_Ok in H; destruct H as [r [r' [H1 [H2 H3]]]].
  apply nth_error_ext; intros k. unfold shape2. rewrite !nth_error_map.
  erewrite set_nth_error by eauto. destruct (Nat.eqb_spec k i); auto.
  subst; rewrite H1; simpl. f_equal. eapply set_length; eauto.
Qed.

Lemma get2o_shape {A} (a : list (list A)) i j :
  (exists x, get2o a i j = Some x) <-> exists n, nth_error (shape2 a) i = Some n /\ j < n.
Proof.
  unfold get2o, shape2; rewrite nth_error_map. destruct (nth_error a i) as [r|]; simpl.
  - split.
    + intros [x H]; exists (length r); split; auto. eapply nth_error_Some_lt; eauto.
    + intros [n [H1 H2]]; inversion H1; subst. apply nth_error_lt; auto.
  - split; [intros [x H]; discriminate|intros [n [H _]]; discriminate].
Qed.

Lemma set2_Ok_iff {A} (a : list (list A)) i j v :
  (exists a', set2 a i j v = Ok a') <-> (exists n, nth_error (shape2 a) i = Some n /\ j < n).
Proof.
  rewrite <- get2o_shape; unfold get2o; split.
  - intros [a' H]; apply set2_Ok in H; destruct H as [r [r' [H1 [H2 H3]]]].
    rewrite H1. apply set_Ok_lt in H2. apply nth_error_lt; auto.
  - destruct (nth_error a i) as [r|] eqn:E; intros [x H]; [|discriminate].
    apply nth_error_Some_lt in H. destruct (proj2 (set_Ok_iff r j v) H) as [r' Hr'].
    destruct (proj2 (set_Ok_iff a i r')) as [a' Ha']; [eapply nth_error_Some_lt; eauto|].
    exists a'. apply set2_Ok; eauto 6.
Qed.

Lemma run_writes2_shape {A} (ws : list (nat * nat * A)) a a' :
  run_writes2 ws a = Ok a' -> shape2 a' = shape2 a.
Proof.
  revert a; induction ws as [|w ws IH]; intros a H; unfold run_writes2 in *; simpl in *; inv_ok; auto.
  apply set2_shape in Hok. rewrite <- Hok; eauto.
Qed.

Lemma get2o_ext {A} (a b : list (list A)) :
  shape2 a = shape2 b -> (forall i j, get2o a i j = get2o b i j) -> a = b.
Proof.
  intros Hs H. apply nth_error_ext; intros i.
  assert (Hi : nth_error (shape2 a) i = nth_error (shape2 b) i) by (rewrite Hs; auto).
  unfold shape2 in Hi; rewrite !nth_error_map in Hi.
  destruct (nth_error a i) as [r|] eqn:Ea; destruct (nth_error b i) as [r'|] eqn:Eb; simpl in Hi; try discriminate; auto.
  f_equal. apply nth_error_ext; intros j. specialize (H i j). unfold get2o in H. rewrite Ea, Eb in H; auto.
Qed.

Definition in_shape {A} (a : list (list A)) (i j : nat) : Prop :=
  exists n, nth_error (shape2 a) i = Some n /\ j < n.

Lemma run_writes2_in_range {A} (ws : list (nat * nat * A)) a :
  (exists a', run_writes2 ws a = Ok a') <-> (forall i j v, In (i, j, v) ws -> in_shape a i j).
Proof.
  revert a; induction ws as [|[[i j] v] ws IH]; intros a; unfold run_writes2 in *; simpl.
  - split; [intros; contradiction|eauto].
  - split.
    + intros [a' H] i' j' v' Hin; inv_ok.
      pose proof (set2_shape _ _ _ _ _ Hok) as Hs.
      destruct Hin as [Heq|Hin].
      * inversion Heq; subst. apply (set2_Ok_iff a i' j' v'); eauto.
      * unfold in_shape; rewrite <- Hs. eapply (proj1 (IH _)); eauto.
    + intros H. destruct (proj2 (set2_Ok_iff a i j v)) as [a1 H1].
      { eapply H; left; eauto. }
      rewrite H1; simpl. apply IH. intros i' j' v' Hin. unfold in_shape.
      rewrite (set2_shape _ _ _ _ _ H1). eapply H; right; eauto.
Qed.

Definition consistent2 {A} (ws : list (nat * nat * A)) : Prop :=
  forall i j v v', In (i, j, v) ws -> In (i, j, v') ws -> v = v'.

Lemma run_writes2_untouched {A} (ws : list (nat * nat * A)) a a' i j :
  run_writes2 ws a = Ok a' -> (forall v, ~ In (i, j, v) ws) -> get2o a' i j = get2o a i j.
Proof.
  revert a; induction ws as [|[[k l] w] ws IH]; intros a H Hn; unfold run_writes2 in *; simpl in *; inv_ok; auto.
  rewrite (IH _ H).
  - erewrite set2_get2o by eauto. destruct (Nat.eqb_spec i k), (Nat.eqb_spec j l); simpl; auto.
    subst; exfalso; eapply Hn; left; eauto.
  - intros v Hv; eapply Hn; right; eauto.
Qed.

Lemma writes2_dec {A} (ws : list (nat * nat * A)) i j :
  (exists v, In (i, j, v) ws) \/ (forall v, ~ In (i, j, v) ws).
Proof.
  induction ws as [|[[k l] v] ws IH]; [right; intros v H; inversion H|].
  destruct IH as [[v' H]|H]; [left; exists v'; right; auto|].
  destruct (Nat.eq_dec i k), (Nat.eq_dec j l); subst.
  - left; exists v; left; auto.
  - right; intros v' [Hv|Hv]; [inversion Hv; auto|eapply H; eauto].
  - right; intros v' [Hv|Hv]; [inversion Hv; auto|eapply H; eauto].
  - right; intros v' [Hv|Hv]; [inversion Hv; auto|eapply H; eauto].
Qed.

Lemma run_writes2_written {A} (ws : list (nat * nat * A)) a a' i j v :
  run_writes2 ws a = Ok a' -> consistent2 ws -> In (i, j, v) ws -> get2o a' i j = Some v.
Proof.
  revert a; induction ws as [|[[k l] w] ws IH]; intros a H Hc Hin; [contradiction|].
  unfold run_writes2 in *; simpl in H; inv_ok.
  destruct (writes2_dec ws i j) as [[v' Hv']|Hn].
  - assert (v' = v) by (eapply Hc; [right; apply Hv'|apply Hin]). subst v'.
    eapply IH; eauto. intros ? ? ? ? ? ?; eapply Hc; right; eauto.
  - destruct Hin as [Heq|Hin]; [|exfalso; eapply Hn; eauto].
    inversion Heq; subst.
    rewrite (run_writes2_untouched _ _ _ _ _ H Hn). erewrite set2_get2o by eauto.
    rewrite !Nat.eqb_refl; auto.
Qed.

Theorem run_writes2_perm {A} (ws ws' : list (nat * nat * A)) a :
  consistent2 ws -> Permutation ws ws' -> run_writes2 ws' a = run_writes2 ws a.
Proof.
  intros Hc Hp.
  assert (Hc' : consistent2 ws').
  { intros i j v v' H1 H2. eapply Hc; eapply Permutation_in; try apply Permutation_sym; eauto. }
  destruct (run_writes2 ws a) as [b|e] eqn:E; destruct (run_writes2 ws' a) as [b'|e'] eqn:E'; auto.
  - f_equal. apply get2o_ext.
    { rewrite (run_writes2_shape _ _ _ E), (run_writes2_shape _ _ _ E'); auto. }
    intros i j. destruct (writes2_dec ws i j) as [[v Hv]|Hn].
    + rewrite (run_writes2_written _ _ _ _ _ _ E Hc Hv).
      apply (run_writes2_written _ _ _ _ _ _ E' Hc'). eapply Permutation_in; eauto.
    + rewrite (run_writes2_untouched _ _ _ _ _ E Hn).
      apply (run_writes2_untouched _ _ _ _ _ E').
      intros v Hv; eapply Hn; eapply Permutation_in; [apply Permutation_sym|]; eauto.
  - exfalso. assert (exists b', run_writes2 ws' a = Ok b') as [x Hx].
    { apply run_writes2_in_range. intros i j v Hin. pose proof (proj1 (run_writes2_in_range ws a)) as HH.
      eapply HH; eauto. eapply Permutation_in; [apply Permutation_sym|]; eauto. }
    congruence.
  - exfalso. assert (exists b', run_writes2 ws a = Ok b') as [x Hx].
    { apply run_writes2_in_range. intros i j v Hin. pose proof (proj1 (run_writes2_in_range ws' a)) as HH.
      eapply HH; eauto. eapply Permutation_in; eauto. }
    congruence.
  - assert (Herr : forall (l : list (nat * nat * A)) x e0, run_writes2 l x = Err e0 -> e0 = IndexError).
    { clear. assert (Hset : forall B (a : list B) i v e, set a i v = Err e -> e = IndexError).
      { induction a as [|x xs IH]; intros [|i] v e H; simpl in *; try congruence.
        destruct (set xs i v) eqn:E; simpl in *; [discriminate|]. inversion H; subst; eauto. }
      assert (Hset2 : forall (a : list (list A)) i j v e, set2 a i j v = Err e -> e = IndexError).
      { unfold set2; intros a i j v e H. destruct (get a i) as [r|e1] eqn:E1; simpl in H.
        - destruct (set r j v) eqn:E2; simpl in H; [eauto|inversion H; subst; eauto].
        - apply get_Err in E1; inversion H; subst; tauto. }
      unfold run_writes2; induction l as [|[[i j] v] l IH]; intros x e0 H; simpl in *; [discriminate|].
      destruct (set2 x i j v) eqn:E; simpl in *; eauto. inversion H; subst; eauto. }
    rewrite (Herr _ _ _ E), (Herr _ _ _ E'); auto.
Qed.

(** ** Enumeration *)

Lemma enum_from_in {A} (l : list A) k i x :
  In (i, x) (enum_from k l) <-> k <= i /\ nth_error l (i - k) = Some x.
Proof.
  revert k; induction l as [|y ys IH]; intros k; simpl.
  - split; [contradiction|]. intros [_ H]; destruct (i - k); discriminate.
  - rewrite IH. split.
    + intros [H|[H1 H2]].
      * inversion H; subst. rewrite Nat.sub_diag; split; auto.
      * split; [lia|]. replace (i - k) with (S (i - S k)) by lia; auto.
    + intros [H1 H2]. destruct (Nat.eq_dec k i) as [->|Hne].
      * left. rewrite Nat.sub_diag in H2; simpl in H2. congruence.
      * right. split; [lia|]. replace (i - k) with (S (i - S k)) in H2 by lia; auto.
Qed.

Lemma enum_in {A} (l : list A) i x : In (i, x) (enum l) <-> nth_error l i = Some x.
Proof. unfold enum; rewrite enum_from_in, Nat.sub_0_r. intuition lia. Qed.

Lemma enum_from_map_fst {A} (l : list A) k : map fst (enum_from k l) = seq k (length l).
Proof. revert k; induction l; intros; simpl; f_equal; auto. Qed.

Lemma enum_from_map_snd {A} (l : list A) k : map snd (enum_from k l) = l.
Proof. revert k; induction l; intros; simpl; f_equal; auto. Qed.

Lemma enum_from_length {A} (l : list A) k : length (enum_from k l) = length l.
Proof. revert k; induction l; intros; simpl; auto. Qed.

Lemma enum_from_app {A} (l1 l2 : list A) k :
  enum_from k (l1 ++ l2) = enum_from k l1 ++ enum_from (k + length l1) l2.
Proof.
  revert k; induction l1 as [|x xs IH]; intros k; simpl.
  - rewrite Nat.add_0_r; auto.
  - rewrite IH. do 2 f_equal. f_equal; lia.
Qed.

Lemma nth_error_enum {A} (l : list A) i :
  nth_error (enum l) i = option_map (pair i) (nth_error l i).
Proof.
  unfold enum. assert (H : forall k, nth_error (enum_from k l) i = option_map (pair (k + i)) (nth_error l i)).
  { revert i; induction l as [|y ys IH]; intros [|i] k; simpl; auto.
    - rewrite Nat.add_0_r; auto.
    - rewrite IH. replace (S k + i) with (k + S i) by lia; auto. }
  apply (H 0).
Qed.

(** ** Maxima and sums *)

Lemma fold_max_spec l x m :
  fold_left Nat.max l x = m -> (In m (x :: l)) /\ (forall y, In y (x :: l) -> y <= m).
Proof.
  revert x; induction l as [|a l IH]; intros x H; simpl in H.
  - subst; split; [left; auto|]. intros y [->|[]]; auto.
  - apply IH in H. destruct H as [H1 H2]. split.
    + destruct H1 as [H1|H1]; [|right; right; auto].
      destruct (Nat.max_dec x a) as [E|E]; rewrite E in H1; subst; [left|right; left]; auto.
    + intros y [->|[->|Hy]].
      * assert (Nat.max y a <= m) by (apply H2; left; auto). lia.
      * assert (Nat.max x y <= m) by (apply H2; left; auto). lia.
      * apply H2; right; auto.
Qed.

Lemma np_max_spec l m : np_max l = Ok m <-> In m l /\ forall y, In y l -> y <= m.
Proof.
  destruct l as [|x xs]; simpl.
  - split; [discriminate|intros [[] _]].
  - split.
    + intros H; injection H as H. apply fold_max_spec; auto.
    + intros [H1 H2]. f_equal.
      destruct (fold_max_spec xs x _ eq_refl) as [H3 H4].
      apply Nat.le_antisymm; auto.
Qed.

Lemma np_max_ok l : l <> [] -> exists m, np_max l = Ok m.
Proof. destruct l; [congruence|]; simpl; eauto. Qed.

Lemma fold_min_spec l x m :
  fold_left Nat.min l x = m -> (In m (x :: l)) /\ (forall y, In y (x :: l) -> m <= y).
Proof.
  revert x; induction l as [|a l IH]; intros x H; simpl in H.
  - subst; split; [left; auto|]. intros y [->|[]]; auto.
  - apply IH in H. destruct H as [H1 H2]. split.
    + destruct H1 as [H1|H1]; [|right; right; auto].
      destruct (Nat.min_dec x a) as [E|E]; rewrite E in H1; subst; [left|right; left]; auto.
    + intros y [->|[->|Hy]].
      * assert (m <= Nat.min y a) by (apply H2; left; auto). lia.
      * assert (m <= Nat.min x y) by (apply H2; left; auto). lia.
      * apply H2; right; auto.
Qed.

Lemma np_min_spec l m : np_min l = Ok m <-> In m l /\ forall y, In y l -> m <= y.
Proof.
  destruct l as [|x xs]; simpl.
  - split; [discriminate|intros [[] _]].
  - split.
    + intros H; injection H as H. apply fold_min_spec; auto.
    + intros [H1 H2]. f_equal.
      destruct (fold_min_spec xs x _ eq_refl) as [H3 H4].
      apply Nat.le_antisymm; auto.
Qed.

Lemma fold_add_acc l a : fold_left Nat.add l a = a + np_sum l.
Proof.
  unfold np_sum. revert a; induction l as [|x xs IH]; intros a; simpl; [lia|].
  rewrite IH, (IH x); lia.
Qed.

Lemma np_sum_cons x l : np_sum (x :: l) = x + np_sum l.
Proof. unfold np_sum at 1; simpl. apply fold_add_acc. Qed.

Lemma np_sum_app l1 l2 : np_sum (l1 ++ l2) = np_sum l1 + np_sum l2.
Proof.
  induction l1 as [|x xs IH]; simpl; auto. rewrite !np_sum_cons, IH; lia.
Qed.

Lemma np_sum_nil : np_sum [] = 0.
Proof. reflexivity. Qed.

Lemma length_concat {A} (t : list (list A)) : length (concat t) = np_sum (map (@length A) t).
Proof.
  induction t as [|r t IH]; simpl; auto. rewrite app_length, np_sum_cons, IH; auto.
Qed.

Lemma length_concat_rect {A} n (t : list (list A)) : rect n t -> length (concat t) = length t * n.
Proof.
  unfold rect; induction t as [|r t IH]; intros H; simpl; auto.
  inversion H; subst. rewrite app_length, IH; auto.
Qed.

(** ** Offsets and splitting *)

Lemma indptr_from_length s w : length (indptr_from s w) = S (length w).
Proof. revert s; induction w; intros; simpl; auto. Qed.

Lemma indptr_from_nth s w i :
  i <= length w -> nth_error (indptr_from s w) i = Some (s + np_sum (firstn i w)).
Proof.
  revert s i; induction w as [|x xs IH]; intros s i H; simpl in *.
  - assert (i = 0) by lia; subst; simpl. rewrite Nat.add_0_r; auto.
  - destruct i as [|i]; simpl; [rewrite Nat.add_0_r; auto|].
    rewrite IH by lia. rewrite np_sum_cons. f_equal; lia.
Qed.

Lemma indptr_length w : length (indptr w) = S (length w).
Proof. apply indptr_from_length. Qed.

Lemma indptr_nth w i : i <= length w -> nth_error (indptr w) i = Some (np_sum (firstn i w)).
Proof. intros; unfold indptr; rewrite indptr_from_nth; auto. Qed.

Lemma skipn_firstn_concat {A} (t : list (list A)) i :
  skipn (np_sum (firstn i (map (@length A) t))) (concat t) = concat (skipn i t).
Proof.
  revert i; induction t as [|r t IH]; intros [|i]; simpl; auto.
  rewrite np_sum_cons, skipn_app.
  rewrite skipn_all2 by lia. simpl.
  replace (length r + np_sum (firstn i (map (@length A) t)) - length r)
    with (np_sum (firstn i (map (@length A) t))) by lia.
  auto.
Qed.

Lemma sum_firstn_S w i x :
  nth_error w i = Some x -> np_sum (firstn (S i) w) = np_sum (firstn i w) + x.
Proof.
  revert w; induction i as [|i IH]; intros [|y w] H; try discriminate.
  - simpl in H. injection H as ->. cbn [firstn]. rewrite np_sum_cons, np_sum_nil; lia.
  - simpl in H. rewrite !firstn_cons, !np_sum_cons, (IH _ H); lia.
Qed.

(** the slice [indptr[i]:indptr[i+1]] of the flattened rows is row [i] *)
Lemma slice_concat {A} (t : list (list A)) i r :
  nth_error t i = Some r ->
  slice (concat t) (np_sum (firstn i (map (@length A) t)))
        (np_sum (firstn (S i) (map (@length A) t))) = r.
Proof.
  intros H. unfold slice. rewrite skipn_firstn_concat.
  assert (Hd : skipn i t = r :: skipn (S i) t).
  { clear -H. revert t H; induction i as [|i IH]; intros [|x t] H; simpl in *; try discriminate.
    - congruence.
    - apply IH; auto. }
  assert (Hs : np_sum (firstn (S i) (map (@length A) t)) = np_sum (firstn i (map (@length A) t)) + length r).
  { apply sum_firstn_S. rewrite nth_error_map, H; auto. }
  rewrite Hs, Hd. replace (np_sum (firstn i (map (@length A) t)) + length r - np_sum (firstn i (map (@length A) t))) with (length r) by lia.
  simpl. rewrite firstn_app, Nat.sub_diag, firstn_all; simpl. apply app_nil_r.
Qed.

Lemma split_by_concat {A} (t : list (list A)) : split_by (map (@length A) t) (concat t) = t.
Proof.
  induction t as [|r t IH]; simpl; auto.
  rewrite firstn_app, Nat.sub_diag, firstn_all; simpl. rewrite app_nil_r.
  rewrite skipn_app, Nat.sub_diag, skipn_all; simpl. rewrite IH; auto.
Qed.

Lemma split_by_length {A} cuts (l : list A) : length (split_by cuts l) = length cuts.
Proof. revert l; induction cuts; intros; simpl; auto. Qed.

Lemma concat_split_by {A} cuts (l : list A) : np_sum cuts = length l -> concat (split_by cuts l) = l.
Proof.
  revert l; induction cuts as [|c cs IH]; intros l H; simpl.
  - destruct l; auto. discriminate.
  - rewrite np_sum_cons in H. rewrite IH.
    + apply firstn_skipn.
    + rewrite skipn_length; lia.
Qed.

Lemma split_by_map {A B} (f : A -> B) cuts l : split_by cuts (map f l) = map (map f) (split_by cuts l).
Proof.
  revert l; induction cuts as [|c cs IH]; intros l; simpl; auto.
  rewrite firstn_map, skipn_map, IH; auto.
Qed.

Lemma map_length_repeat {A} n (t : list (list A)) : rect n t -> map (@length A) t = repeat n (length t).
Proof. unfold rect; induction 1 as [|r t Hr Ht IH]; simpl; f_equal; auto. Qed.

Lemma reshape_concat {A} m (t : list (list A)) : rect m t -> reshape (length t) m (concat t) = t.
Proof.
  intros H; unfold reshape. rewrite <- map_length_repeat with (t := t) by auto. apply split_by_concat.
Qed.

Lemma nth_error_concat_rect {A} m (t : list (list A)) i j r :
  rect m t -> nth_error t i = Some r -> j < m -> nth_error (concat t) (i * m + j) = nth_error r j.
Proof.
  intros H; revert i; induction t as [|r0 t IH]; intros i Hi Hj; [destruct i; discriminate|].
  inversion H as [|? ? Hr0 Ht]; subst.
  destruct i as [|i]; simpl in *.
  - injection Hi as ->. rewrite nth_error_app1 by lia; auto.
  - rewrite nth_error_app2 by lia.
    replace (length r0 + i * length r0 + j - length r0) with (i * length r0 + j) by lia. auto.
Qed.

Lemma nth_error_concat_rect_inv {A} m (t : list (list A)) k x :
  rect m t -> nth_error (concat t) k = Some x ->
  0 < m /\ exists r, nth_error t (k / m) = Some r /\ nth_error r (k mod m) = Some x.
Proof.
  intros H Hk.
  assert (Hlen : k < length t * m) by (rewrite <- length_concat_rect with (t := t) by auto; eapply nth_error_Some_lt; eauto).
  assert (Hm : 0 < m) by nia.
  split; auto.
  assert (Hd : k / m < length t) by (apply Nat.div_lt_upper_bound; nia).
  destruct (nth_error_lt t _ Hd) as [r Hr]. exists r; split; auto.
  rewrite <- nth_error_concat_rect with (t := t) (i := k / m) (m := m); auto.
  - rewrite <- Hk. f_equal. pose proof (Nat.div_mod k m ltac:(lia)). lia.
  - apply Nat.mod_upper_bound; lia.
Qed.

(** ** Dictionaries *)

Lemma dget_dset {A} (d : dict A) k v k' :
  dget (dset d k v) k' = if Nat.eqb k' k then Ok v else dget d k'.
Proof.
  induction d as [|[k0 v0] d IH]; simpl.
  - destruct (Nat.eqb k' k); auto.
  - destruct (Nat.eqb_spec k k0); simpl.
    + subst. destruct (Nat.eqb_spec k' k0); auto.
    + rewrite IH. destruct (Nat.eqb_spec k' k0); auto.
      destruct (Nat.eqb_spec k' k); auto. subst; congruence.
Qed.

Lemma dkeys_dset {A} (d : dict A) k v :
  dkeys (dset d k v) = if existsb (Nat.eqb k) (dkeys d) then dkeys d else dkeys d ++ [k].
Proof.
  induction d as [|[k0 v0] d IH]; simpl; auto.
  destruct (Nat.eqb_spec k k0); simpl; subst; auto.
  rewrite IH. destruct (existsb (Nat.eqb k) (dkeys d)); auto.
Qed.

Lemma dget_In {A} (d : dict A) k v : dget d k = Ok v -> In (k, v) d.
Proof.
  induction d as [|[k0 v0] d IH]; simpl; [discriminate|].
  destruct (Nat.eqb_spec k k0); intros H; auto. inv_ok; auto.
Qed.

Lemma In_dget {A} (d : dict A) k v : NoDup (dkeys d) -> In (k, v) d -> dget d k = Ok v.
Proof.
  induction d as [|[k0 v0] d IH]; simpl; [contradiction|].
  intros Hnd Hin. inversion Hnd; subst. destruct Hin as [Heq|Hin].
  - inversion Heq; subst. rewrite Nat.eqb_refl; auto.
  - destruct (Nat.eqb_spec k k0); auto.
    subst. exfalso. apply H1. apply in_map_iff. exists (k0, v); auto.
Qed.

Lemma dget_ok_iff {A} (d : dict A) k : (exists v, dget d k = Ok v) <-> In k (dkeys d).
Proof.
  induction d as [|[k0 v0] d IH]; simpl.
  - split; [intros [v H]; discriminate|contradiction].
  - destruct (Nat.eqb_spec k k0) as [E|E].
    + subst; split; eauto.
    + rewrite IH. split; [right; auto|intros [H|H]; [congruence|auto]].
Qed.

Lemma dset_app {A} (d1 d2 : dict A) k v :
  ~ In k (dkeys d1) -> dset (d1 ++ d2) k v = d1 ++ dset d2 k v.
Proof.
  induction d1 as [|[k0 v0] d1 IH]; simpl; auto.
  intros Hn. destruct (Nat.eqb_spec k k0); [subst; tauto|].
  rewrite IH; auto.
Qed.

(** building a dictionary from fresh keys keeps the order *)
Lemma fold_dset_fresh {A B} (f : B -> nat) (g : B -> A) l (d : dict A) :
  NoDup (dkeys d ++ map f l) ->
  fold_left (fun d x => dset d (f x) (g x)) l d = d ++ map (fun x => (f x, g x)) l.
Proof.
  revert d; induction l as [|x xs IH]; intros d H; simpl.
  - rewrite app_nil_r; auto.
  - assert (Hnx : ~ In (f x) (dkeys d)).
    { simpl in H. apply NoDup_remove_2 in H. intros Hin; apply H; apply in_or_app; auto. }
    assert (Hset : dset d (f x) (g x) = d ++ [(f x, g x)]).
    { rewrite <- (app_nil_r d) at 1. rewrite dset_app; auto. }
    rewrite Hset, IH.
    + rewrite <- app_assoc; auto.
    + unfold dkeys in *. rewrite map_app; simpl. rewrite <- app_assoc; auto.
Qed.

(** ** Unique and sort *)

Section UniqueFacts.
  Context {A : Type} (cmp : A -> A -> comparison).
  Hypothesis cmp_eq : forall x y, cmp x y = Eq <-> x = y.
  Hypothesis cmp_anti : forall x y, cmp y x = CompOpp (cmp x y).
  Hypothesis cmp_trans : forall x y z, cmp x y = Lt -> cmp y z = Lt -> cmp x z = Lt.

  Definition clt x y := cmp x y = Lt.
  Definition cle x y := cmp x y <> Gt.

  Lemma ins_uniq_in x l y : In y (ins_uniq cmp x l) <-> y = x \/ In y l.
  Proof.
    induction l as [|z zs IH]; simpl; [intuition|].
    destruct (cmp x z) eqn:E; simpl.
    - apply cmp_eq in E; subst. intuition.
    - intuition.
    - rewrite IH. intuition.
  Qed.

  Lemma unique_in l y : In y (unique cmp l) <-> In y l.
  Proof.
    induction l as [|x xs IH]; simpl; [tauto|]. rewrite ins_uniq_in, IH; intuition.
  Qed.

  Lemma ins_uniq_sorted x l :
    StronglySorted clt l -> StronglySorted clt (ins_uniq cmp x l).
  Proof.
    induction l as [|z zs IH]; intros H; simpl; [repeat constructor|].
    inversion H as [|? ? Hs Hf]; subst.
    destruct (cmp x z) eqn:E; auto.
    - constructor; auto. constructor; auto. rewrite Forall_forall in *.
      intros y Hy. eapply cmp_trans; eauto. apply Hf; auto.
    - constructor; auto. rewrite Forall_forall in *. intros y Hy.
      apply ins_uniq_in in Hy. destruct Hy as [->|Hy]; [|apply Hf; auto].
      unfold clt. rewrite cmp_anti, E; auto.
  Qed.

  Lemma unique_sorted l : StronglySorted clt (unique cmp l).
  Proof. induction l as [|x xs IH]; simpl; [constructor|]. apply ins_uniq_sorted; auto. Qed.

  Lemma sorted_NoDup l : StronglySorted clt l -> NoDup l.
  Proof.
    induction 1 as [|x l Hs IH Hf]; constructor; auto.
    intros Hin. rewrite Forall_forall in Hf. specialize (Hf x Hin).
    unfold clt in Hf. rewrite (proj2 (cmp_eq x x) eq_refl) in Hf; discriminate.
  Qed.

  Lemma unique_NoDup l : NoDup (unique cmp l).
  Proof. apply sorted_NoDup, unique_sorted. Qed.

  Lemma index_of_Ok x l i : index_of cmp x l = Ok i -> nth_error l i = Some x.
  Proof.
    revert i; induction l as [|y ys IH]; intros i H; simpl in H; [discriminate|].
    destruct (cmp x y) eqn:E; inv_ok; simpl; auto.
    apply cmp_eq in E; subst; auto.
  Qed.

  Lemma index_of_ok x l : In x l -> exists i, index_of cmp x l = Ok i.
  Proof.
    induction l as [|y ys IH]; intros H; [contradiction|]. simpl.
    destruct (cmp x y) eqn:E; eauto;
      (destruct H as [H|H];
        [subst; rewrite (proj2 (cmp_eq x x) eq_refl) in E; discriminate|];
       destruct (IH H) as [i Hi]; rewrite Hi; simpl; eauto).
  Qed.

  Lemma index_of_nth l i x :
    NoDup l -> nth_error l i = Some x -> index_of cmp x l = Ok i.
  Proof.
    intros Hnd Hi.
    destruct (index_of_ok x l) as [j Hj]; [eapply nth_error_In; eauto|].
    pose proof (index_of_Ok _ _ _ Hj) as Hj'.
    assert (i = j).
    { eapply (proj1 (NoDup_nth_error l)); eauto; [eapply nth_error_Some_lt; eauto|congruence]. }
    subst; auto.
  Qed.

  Lemma sorted_nth_lt l i j x y :
    StronglySorted clt l -> nth_error l i = Some x -> nth_error l j = Some y ->
    (i < j <-> cmp x y = Lt).
  Proof.
    intros Hs; revert i j; induction Hs as [|z l Hs IH Hf]; intros i j Hi Hj.
    - destruct i; discriminate.
    - rewrite Forall_forall in Hf.
      destruct i as [|i], j as [|j]; simpl in *.
      + injection Hi as ->; injection Hj as ->. split; [lia|].
        rewrite (proj2 (cmp_eq y y) eq_refl); discriminate.
      + injection Hi as ->. split; [|lia]. intros _. apply Hf. eapply nth_error_In; eauto.
      + injection Hj as ->. split; [lia|]. intros H.
        assert (cmp y x = Lt) by (apply Hf; eapply nth_error_In; eauto).
        rewrite cmp_anti, H0 in H; discriminate.
      + rewrite <- (IH i j); auto. lia.
  Qed.

  (** a strictly increasing list is determined by its elements *)
  Lemma sorted_ext l1 l2 :
    StronglySorted clt l1 -> StronglySorted clt l2 -> (forall x, In x l1 <-> In x l2) -> l1 = l2.
  Proof.
    assert (Hirr : forall x, cmp x x <> Lt) by (intros x H; rewrite (proj2 (cmp_eq x x) eq_refl) in H; discriminate).
    intros H1; revert l2; induction H1 as [|x l1 Hs1 IH Hf1]; intros l2 H2 Hin.
    - destruct l2 as [|y l2]; auto. exfalso. apply (Hin y); left; auto.
    - destruct l2 as [|y l2]; [exfalso; apply (Hin x); left; auto|].
      inversion H2 as [|? ? Hs2 Hf2]; subst. rewrite Forall_forall in *.
      assert (x = y).
      { destruct (proj1 (Hin x) (or_introl eq_refl)) as [|Hx]; auto.
        destruct (proj2 (Hin y) (or_introl eq_refl)) as [|Hy]; auto.
        exfalso. apply (Hirr x). eapply cmp_trans; [apply Hf1; eauto|apply Hf2; eauto]. }
      subst y. f_equal. apply IH; auto. intros z; split; intros Hz.
      + destruct (proj1 (Hin z) (or_intror Hz)) as [<-|]; auto.
        exfalso. apply (Hirr x). apply Hf1; auto.
      + destruct (proj2 (Hin z) (or_intror Hz)) as [<-|]; auto.
        exfalso. apply (Hirr x). apply Hf2; auto.
  Qed.

  Lemma unique_sorted_id l : StronglySorted clt l -> unique cmp l = l.
  Proof.
    intros H; apply sorted_ext; auto using unique_sorted. intros; apply unique_in.
  Qed.

  Lemma unique_inverse_spec l u inv :
    unique_inverse cmp l = Ok (u, inv) ->
    u = unique cmp l /\ length inv = length l /\
    (forall i x, nth_error l i = Some x -> exists k, nth_error inv i = Some k /\ nth_error u k = Some x).
  Proof.
    unfold unique_inverse; intros H. apply bind_Ok in H. destruct H as [inv' [Hok H]]. injection H as <- <-.
    split; [auto|]. split; [eapply mapM_length; eauto|].
    intros i x Hi. destruct (mapM_nth_error _ _ _ _ _ Hok Hi) as [k [Hk1 Hk2]].
    exists k; split; auto. apply index_of_Ok; auto.
  Qed.

  Lemma unique_inverse_ok l : exists inv, unique_inverse cmp l = Ok (unique cmp l, inv).
  Proof.
    unfold unique_inverse.
    destruct (mapM_total (fun x => index_of cmp x (unique cmp l)) l) as [inv Hinv].
    - intros x Hx. apply index_of_ok. apply unique_in; auto.
    - rewrite Hinv; simpl; eauto.
  Qed.

  Lemma ins_sort_perm x l : Permutation (x :: l) (ins_sort cmp x l).
  Proof.
    induction l as [|y ys IH]; simpl; auto.
    destruct (cmp x y); auto.
    transitivity (y :: x :: ys); [constructor|]. constructor; auto.
  Qed.

  Lemma sort_perm l : Permutation l (sort cmp l).
  Proof.
    induction l as [|x xs IH]; simpl; auto.
    transitivity (x :: sort cmp xs); [constructor; auto|]. apply ins_sort_perm.
  Qed.

  Lemma cle_trans x y z : cle x y -> cle y z -> cle x z.
  Proof.
    unfold cle; intros H1 H2 H3.
    destruct (cmp x y) eqn:E1; try congruence.
    - apply cmp_eq in E1; subst; congruence.
    - destruct (cmp y z) eqn:E2; try congruence.
      + apply cmp_eq in E2; subst; congruence.
      + rewrite (cmp_trans _ _ _ E1 E2) in H3; discriminate.
  Qed.

  Lemma ins_sort_sorted x l : StronglySorted cle l -> StronglySorted cle (ins_sort cmp x l).
  Proof.
    induction l as [|y ys IH]; intros H; simpl; [repeat constructor|].
    inversion H as [|? ? Hs Hf]; subst.
    destruct (cmp x y) eqn:E.
    - constructor; auto. constructor; [unfold cle; congruence|].
      rewrite Forall_forall in *; intros z Hz. eapply cle_trans; [|apply Hf; auto]. unfold cle; congruence.
    - constructor; auto. constructor; [unfold cle; congruence|].
      rewrite Forall_forall in *; intros z Hz. eapply cle_trans; [|apply Hf; auto]. unfold cle; congruence.
    - constructor; auto. rewrite Forall_forall in *. intros z Hz.
      apply (Permutation_in _ (Permutation_sym (ins_sort_perm x ys))) in Hz.
      destruct Hz as [<-|Hz]; [|apply Hf; auto].
      unfold cle; rewrite cmp_anti, E; discriminate.
  Qed.

  Lemma sort_sorted l : StronglySorted cle (sort cmp l).
  Proof. induction l; simpl; [constructor|]. apply ins_sort_sorted; auto. Qed.

  Lemma cle_antisym x y : cle x y -> cle y x -> x = y.
  Proof.
    unfold cle; intros H1 H2. rewrite cmp_anti in H2.
    destruct (cmp x y) eqn:E; simpl in *; try congruence. apply cmp_eq; auto.
  Qed.

  Lemma sorted_perm_eq l1 l2 :
    StronglySorted cle l1 -> StronglySorted cle l2 -> Permutation l1 l2 -> l1 = l2.
  Proof.
    intros H1; revert l2; induction H1 as [|x l1 Hs1 IH Hf1]; intros l2 H2 Hp.
    - apply Permutation_nil in Hp; auto.
    - destruct l2 as [|y l2]; [apply Permutation_sym, Permutation_nil in Hp; discriminate|].
      inversion H2 as [|? ? Hs2 Hf2]; subst. rewrite Forall_forall in *.
      assert (x = y).
      { apply cle_antisym.
        - destruct (Permutation_in y (Permutation_sym Hp) (or_introl eq_refl)) as [->|Hy].
          + unfold cle. rewrite (proj2 (cmp_eq y y) eq_refl); discriminate.
          + apply Hf1; auto.
        - destruct (Permutation_in x Hp (or_introl eq_refl)) as [->|Hx].
          + unfold cle. rewrite (proj2 (cmp_eq x x) eq_refl); discriminate.
          + apply Hf2; auto. }
      subst y. f_equal. apply IH; auto. eapply Permutation_cons_inv; eauto.
  Qed.

  Lemma sort_eq_perm l1 l2 : sort cmp l1 = sort cmp l2 <-> Permutation l1 l2.
  Proof.
    split; intros H.
    - rewrite (sort_perm l1), H. symmetry; apply sort_perm.
    - apply sorted_perm_eq; auto using sort_sorted.
      rewrite <- (sort_perm l1), H. apply sort_perm.
  Qed.

  Lemma sort_length l : length (sort cmp l) = length l.
  Proof. symmetry; apply Permutation_length, sort_perm. Qed.
End UniqueFacts.

(** instances *)

Lemma nat_cmp_eq : forall x y, Nat.compare x y = Eq <-> x = y.
Proof. apply Nat.compare_eq_iff. Qed.
Lemma nat_cmp_anti : forall x y, Nat.compare y x = CompOpp (Nat.compare x y).
Proof. intros; apply Nat.compare_antisym. Qed.
Lemma nat_cmp_trans : forall x y z, Nat.compare x y = Lt -> Nat.compare y z = Lt -> Nat.compare x z = Lt.
Proof. intros x y z; rewrite !Nat.compare_lt_iff; lia. Qed.

Lemma lex_cmp_eq : forall x y, lex_cmp x y = Eq <-> x = y.
Proof.
  induction x as [|a x IH]; intros [|b y]; simpl; split; intros H; try discriminate; auto.
  - destruct (Nat.compare a b) eqn:E; try discriminate. apply Nat.compare_eq in E. apply IH in H. congruence.
  - inversion H; subst. rewrite Nat.compare_refl. apply IH; auto.
Qed.

Lemma lex_cmp_anti : forall x y, lex_cmp y x = CompOpp (lex_cmp x y).
Proof.
  induction x as [|a x IH]; intros [|b y]; simpl; auto.
  rewrite Nat.compare_antisym. destruct (Nat.compare a b); simpl; auto.
Qed.

Lemma lex_cmp_trans : forall x y z, lex_cmp x y = Lt -> lex_cmp y z = Lt -> lex_cmp x z = Lt.
Proof.
  induction x as [|a x IH]; intros [|b y] [|c z]; simpl; auto; try discriminate.
  destruct (Nat.compare a b) eqn:E1; destruct (Nat.compare b c) eqn:E2; try discriminate; intros H1 H2.
  - apply Nat.compare_eq in E1, E2; subst. rewrite Nat.compare_refl. eauto.
  - apply Nat.compare_eq in E1; subst. rewrite E2; auto.
  - apply Nat.compare_eq in E2; subst. rewrite E1; auto.
  - apply Nat.compare_lt_iff in E1, E2. replace (Nat.compare a c) with Lt; auto.
    symmetry; apply Nat.compare_lt_iff; lia.
Qed.

Lemma clt_nat x y : clt Nat.compare x y <-> x < y.
Proof. unfold clt; apply Nat.compare_lt_iff. Qed.

Lemma cle_nat x y : cle Nat.compare x y <-> x <= y.
Proof. unfold cle; rewrite Nat.compare_gt_iff; lia. Qed.

Lemma np_unique_in l x : In x (np_unique l) <-> In x l.
Proof. apply unique_in, nat_cmp_eq. Qed.

Lemma StronglySorted_impl {A} (P Q : A -> A -> Prop) l :
  (forall x y, P x y -> Q x y) -> StronglySorted P l -> StronglySorted Q l.
Proof.
  intros H; induction 1 as [|x l Hs IH Hf]; constructor; auto.
  eapply Forall_impl; [|apply Hf]; auto.
Qed.

Lemma np_unique_sorted l : StronglySorted lt (np_unique l).
Proof.
  eapply StronglySorted_impl; [intros x y H; apply clt_nat; apply H|].
  apply unique_sorted; [apply nat_cmp_eq|apply nat_cmp_anti|apply nat_cmp_trans].
Qed.

Lemma np_unique_NoDup l : NoDup (np_unique l).
Proof. apply unique_NoDup; [apply nat_cmp_eq|apply nat_cmp_anti|apply nat_cmp_trans]. Qed.

Lemma np_unique_ext l l' :
  StronglySorted lt l' -> (forall x, In x l' <-> In x l) -> np_unique l = l'.
Proof.
  intros Hs Hin. apply sorted_ext with (cmp := Nat.compare).
  - apply nat_cmp_eq.
  - apply nat_cmp_trans.
  - apply unique_sorted; [apply nat_cmp_eq|apply nat_cmp_anti|apply nat_cmp_trans].
  - eapply StronglySorted_impl; [|apply Hs]. intros; apply clt_nat; auto.
  - intros x; rewrite Hin. apply np_unique_in.
Qed.

Lemma seq_sorted s n : StronglySorted lt (seq s n).
Proof.
  revert s; induction n as [|n IH]; intros s; simpl; constructor; auto.
  rewrite Forall_forall; intros x Hx; apply in_seq in Hx; lia.
Qed.

Lemma np_sort_perm l : Permutation l (np_sort l).
Proof. apply sort_perm. Qed.

Lemma np_sort_sorted l : StronglySorted le (np_sort l).
Proof.
  eapply StronglySorted_impl; [intros x y H; apply cle_nat; apply H|].
  apply sort_sorted; [apply nat_cmp_eq|apply nat_cmp_anti|apply nat_cmp_trans].
Qed.

Lemma np_sort_eq_perm l1 l2 : np_sort l1 = np_sort l2 <-> Permutation l1 l2.
Proof. apply sort_eq_perm; [apply nat_cmp_eq|apply nat_cmp_anti|apply nat_cmp_trans]. Qed.

Lemma np_sort_length l : length (np_sort l) = length l.
Proof. apply sort_length. Qed.
