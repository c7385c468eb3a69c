(** * Filling arrays: results of write lists that cover an array *)
From Verif Require Export BaseFacts NumBase.

Lemma mapM_In {A B} (f : A -> res B) l ys y :
  mapM f l = Ok ys -> (In y ys <-> exists x, In x l /\ f x = Ok y).
Proof.
  intros H. split.
  - intros Hy. apply In_nth_error in Hy. destruct Hy as [i Hi].
    destruct (mapM_nth_error_r _ _ _ _ _ H Hi) as [x [H1 H2]]. exists x; split; auto. eapply nth_error_In; eauto.
  - intros [x [Hx Hf]]. apply In_nth_error in Hx. destruct Hx as [i Hi].
    destruct (mapM_nth_error _ _ _ _ _ H Hi) as [y' [H1 H2]].
    assert (y = y') by congruence. subst. eapply nth_error_In; eauto.
Qed.

Lemma mapM_perm_total {A B} (f : A -> res B) l l' :
  Permutation l l' -> (forall x, In x l -> exists y, f x = Ok y) -> exists ys, mapM f l' = Ok ys.
Proof.
  intros Hp H. apply mapM_total. intros x Hx. apply H. eapply Permutation_in; [apply Permutation_sym|]; eauto.
Qed.

(** a write list that writes exactly the entries of [r0] produces [r0] *)
Lemma run_writes2_fill {A} (ws : list (nat * nat * A)) a r0 :
  shape2 a = shape2 r0 ->
  (forall i j x, In (i, j, x) ws -> get2o r0 i j = Some x) ->
  (forall i j x, get2o r0 i j = Some x -> exists x', In (i, j, x') ws) ->
  run_writes2 ws a = Ok r0.
Proof.
  intros Hs Hw Hc.
  destruct (proj2 (run_writes2_in_range ws a)) as [r Hr].
  { intros i j v Hin. unfold in_shape. rewrite Hs. apply get2o_shape. exists v; auto. }
  rewrite Hr. f_equal.
  assert (Hcons : consistent2 ws) by (intros i j v v' H1 H2; apply Hw in H1, H2; congruence).
  pose proof (run_writes2_shape _ _ _ Hr) as Hsr.
  apply get2o_ext; [congruence|]. intros i j.
  destruct (get2o r0 i j) as [x|] eqn:E.
  - destruct (Hc _ _ _ E) as [x' Hx']. rewrite (run_writes2_written _ _ _ _ _ _ Hr Hcons Hx').
    apply Hw in Hx'. congruence.
  - destruct (get2o r i j) as [y|] eqn:Ey; auto.
    assert (exists z, get2o r0 i j = Some z) as [z Hz]
      by (apply get2o_shape; rewrite <- Hs, <- Hsr; apply get2o_shape; eauto).
    congruence.
Qed.

Lemma run_writes_fill {A} (ws : list (nat * A)) a r0 :
  length a = length r0 ->
  (forall i x, In (i, x) ws -> nth_error r0 i = Some x) ->
  (forall i x, nth_error r0 i = Some x -> exists x', In (i, x') ws) ->
  run_writes ws a = Ok r0.
Proof.
  intros Hs Hw Hc.
  destruct (proj2 (run_writes_in_range ws a)) as [r Hr].
  { intros i v Hin. rewrite Hs. apply Hw in Hin. eapply nth_error_Some_lt; eauto. }
  rewrite Hr. f_equal.
  assert (Hcons : consistent ws) by (intros i v v' H1 H2; apply Hw in H1, H2; congruence).
  pose proof (run_writes_length _ _ _ Hr) as Hsr.
  apply nth_error_ext; intros i.
  destruct (nth_error r0 i) as [x|] eqn:E.
  - destruct (Hc _ _ E) as [x' Hx']. rewrite (run_writes_written _ _ _ _ _ Hr Hcons Hx').
    apply Hw in Hx'. congruence.
  - apply nth_error_ge. rewrite Hsr, Hs. apply nth_error_None; auto.
Qed.

Lemma shape2_zeros2 {A} (z : A) n m : shape2 (zeros2 z n m) = repeat m n.
Proof. unfold shape2, zeros2. induction n; simpl; auto. rewrite repeat_length, IHn; auto. Qed.

Lemma shape2_rect {A} n (t : list (list A)) : rect n t -> shape2 t = repeat n (length t).
Proof. unfold rect, shape2. induction t as [|r t IH]; intros H; simpl; auto. inversion H; subst. rewrite IH; auto. Qed.

Lemma nth_error_list_prod {A B} (a : list A) (b : list B) i j x y :
  nth_error a i = Some x -> nth_error b j = Some y ->
  nth_error (list_prod a b) (i * length b + j) = Some (x, y).
Proof.
  revert i; induction a as [|a0 a IH]; intros i Hi Hj; [destruct i; discriminate|].
  assert (Hjl : j < length b) by (eapply nth_error_Some_lt; eauto).
  destruct i as [|i]; simpl in *.
  - injection Hi as ->. rewrite nth_error_app1 by (rewrite map_length; auto).
    rewrite nth_error_map, Hj; auto.
  - rewrite nth_error_app2; rewrite map_length; [|lia].
    replace (length b + i * length b + j - length b) with (i * length b + j) by lia. auto.
Qed.

Lemma nth_error_list_prod_inv {A B} (a : list A) (b : list B) k x y :
  nth_error (list_prod a b) k = Some (x, y) ->
  exists i j, k = i * length b + j /\ nth_error a i = Some x /\ nth_error b j = Some y.
Proof.
  revert k; induction a as [|a0 a IH]; intros k H; simpl in H; [destruct k; discriminate|].
  destruct (le_lt_dec (length b) k) as [Hk|Hk].
  - rewrite nth_error_app2 in H by (rewrite map_length; auto). rewrite map_length in H.
    destruct (IH _ H) as [i [j [H1 [H2 H3]]]]. exists (S i), j. simpl. repeat split; auto. lia.
  - rewrite nth_error_app1 in H by (rewrite map_length; auto). rewrite nth_error_map in H.
    destruct (nth_error b k) eqn:E; [|discriminate]. simpl in H. injection H as -> ->.
    exists 0, k. simpl; auto.
Qed.

Lemma in_list_prod_r {A B} (a : list A) (b : list B) x y : In (x, y) (list_prod a b) <-> In x a /\ In y b.
Proof. apply in_prod_iff. Qed.
