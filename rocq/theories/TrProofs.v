(** * Proofs about [TrModel.v], part 1: transform_topology and its relatives *)
From Verif Require Export FillFacts TopoProofs5 TrSpec.

Lemma rect_ncols {A} n (t : list (list A)) : rect n t -> t <> [] -> ncols t = n.
Proof. destruct t as [|r t]; [congruence|]. intros H _. inversion H; auto. Qed.

(** the value computed by transform_topology and repeat_cell_nodal_data *)
Definition tr_value {A} (topo : list (list A)) (path : list (list nat)) : res (list (list A)) :=
  mapM (fun cp => take (fst cp) (snd cp)) (list_prod topo path).

Lemma tr_value_total {A} w (topo : list (list A)) path :
  rect w topo -> valid_path w path -> exists r, tr_value topo path = Ok r.
Proof.
  intros Hr [_ Hp]. apply mapM_total. intros [cell p] Hin. apply in_prod_iff in Hin. destruct Hin as [Hc Hpp].
  simpl. apply take_ok. intros q Hq. unfold rect in Hr. rewrite Forall_forall in Hr. rewrite (Hr _ Hc). eauto.
Qed.

Lemma tr_value_get {A} (topo : list (list A)) path r i k cell p :
  tr_value topo path = Ok r -> nth_error topo i = Some cell -> nth_error path k = Some p ->
  exists row, nth_error r (i * length path + k) = Some row /\ take cell p = Ok row.
Proof.
  intros H Hi Hk. unfold tr_value in H.
  destruct (mapM_nth_error _ _ _ _ _ H (nth_error_list_prod _ _ _ _ _ _ Hi Hk)) as [row [H1 H2]].
  exists row; auto.
Qed.

Lemma tr_value_split {A} (topo : list (list A)) path r :
  tr_value topo path = Ok r -> split_along topo path r.
Proof.
  intros H. split.
  - unfold tr_value in H. apply mapM_length in H. rewrite H, prod_length; auto.
  - intros i k cell p Hi Hk. destruct (tr_value_get _ _ _ _ _ _ _ H Hi Hk) as [row [H1 H2]].
    exists row. split; auto. split; [eapply mapM_length; eauto|].
    intros j q Hj. destruct (take_nth _ _ _ _ _ H2 Hj) as [x [H3 H4]]. congruence.
Qed.

Lemma split_along_unique {A} n (topo : list (list A)) path r r' :
  rect n path -> split_along topo path r -> split_along topo path r' -> (forall p q, In p path -> In q p -> forall c, In c topo -> q < length c) -> r = r'.
Proof.
  intros Hn [Hl H] [Hl' H'] Hv. apply nth_error_ext; intros m.
  destruct (le_lt_dec (length topo * length path) m) as [Hm|Hm].
  { rewrite !nth_error_ge by lia. auto. }
  assert (Hpn : 0 < length path) by (destruct (length path); lia).
  set (i := m / length path). set (k := m mod length path).
  assert (Hmk : m = i * length path + k) by (unfold i, k; rewrite (Nat.div_mod m (length path)) at 1; lia).
  assert (Hi : i < length topo) by (apply Nat.div_lt_upper_bound; lia).
  assert (Hk : k < length path) by (apply Nat.mod_upper_bound; lia).
  destruct (nth_error_lt _ _ Hi) as [cell Hc], (nth_error_lt _ _ Hk) as [p Hp].
  destruct (H _ _ _ _ Hc Hp) as [row [H1 [H2 H3]]], (H' _ _ _ _ Hc Hp) as [row' [H1' [H2' H3']]].
  rewrite Hmk, H1, H1'. f_equal. apply nth_error_ext. intros j.
  destruct (nth_error p j) as [q|] eqn:E.
  - rewrite (H3 _ _ E), (H3' _ _ E). auto.
  - apply nth_error_None in E. rewrite !nth_error_ge by lia. auto.
Qed.

Lemma tr_iterations_in nE nSub nSubN i j k :
  In (i, j, k) (tr_iterations nE nSub nSubN) <-> i < nE /\ j < nSubN /\ k < nSub.
Proof.
  unfold tr_iterations. rewrite in_flat_map. split.
  - intros [i' [Hi H]]. apply in_flat_map in H. destruct H as [j' [Hj H]]. apply in_map_iff in H.
    destruct H as [k' [[= -> -> ->] Hk]]. apply in_seq in Hi, Hj, Hk. lia.
  - intros [Hi [Hj Hk]]. exists i. split; [apply in_seq; lia|]. apply in_flat_map. exists j.
    split; [apply in_seq; lia|]. apply in_map_iff. exists k. split; auto. apply in_seq; lia.
Qed.

Lemma rep_iterations_in nE nSub nSubN i j k :
  In (i, j, k) (rep_iterations nE nSub nSubN) <-> i < nE /\ j < nSub /\ k < nSubN.
Proof.
  unfold rep_iterations. rewrite in_flat_map. split.
  - intros [i' [Hi H]]. apply in_flat_map in H. destruct H as [j' [Hj H]]. apply in_map_iff in H.
    destruct H as [k' [[= -> -> ->] Hk]]. apply in_seq in Hi, Hj, Hk. lia.
  - intros [Hi [Hj Hk]]. exists i. split; [apply in_seq; lia|]. apply in_flat_map. exists j.
    split; [apply in_seq; lia|]. apply in_map_iff. exists k. split; auto. apply in_seq; lia.
Qed.

(** one iteration reads the entry it should *)
Lemma tr_read {A} (topo : list (list A)) path r i j k n :
  tr_value topo path = Ok r -> rect n path -> i < length topo -> j < n -> k < length path ->
  exists p v, get2 path k j = Ok p /\ get2 topo i p = Ok v /\ get2o r (i * length path + k) j = Some v.
Proof.
  intros H Hn Hi Hj Hk.
  destruct (nth_error_lt _ _ Hi) as [cell Hc], (nth_error_lt _ _ Hk) as [p Hp].
  destruct (tr_value_get _ _ _ _ _ _ _ H Hc Hp) as [row [H1 H2]].
  assert (Hpl : length p = n) by (eapply rect_nth; eauto).
  destruct (nth_error_lt p j) as [q Hq]; [lia|].
  destruct (take_nth _ _ _ _ _ H2 Hq) as [v [H3 H4]].
  exists q, v. repeat split.
  - apply get2o_get2. unfold get2o. rewrite Hp; auto.
  - apply get2o_get2. unfold get2o. rewrite Hc; auto.
  - unfold get2o. rewrite H1; auto.
Qed.

Lemma tr_value_rect {A} n (topo : list (list A)) path r :
  tr_value topo path = Ok r -> rect n path -> rect n r.
Proof.
  intros H Hn. unfold rect in *. rewrite Forall_forall in *. intros row Hrow.
  apply (proj1 (mapM_In _ _ _ _ H)) in Hrow. destruct Hrow as [[c p] [Hin Ht]].
  apply in_prod_iff in Hin. simpl in Ht. apply mapM_length in Ht. rewrite Ht. apply Hn, Hin.
Qed.

Lemma tr_fill {A} (z : A) (topo : list (list A)) path r n ws :
  tr_value topo path = Ok r -> rect n path -> ncols path = n \/ path = [] ->
  (forall a b x, In (a, b, x) ws <-> exists i j k, a = i * length path + k /\ b = j /\
      i < length topo /\ j < ncols path /\ k < length path /\ get2o r (i * length path + k) j = Some x) ->
  run_writes2 ws (zeros2 z (length path * length topo) (ncols path)) = Ok r.
Proof.
  intros H Hn Hc Hws. pose proof (tr_value_rect _ _ _ _ H Hn) as Hr.
  assert (Hl : length r = length topo * length path)
    by (unfold tr_value in H; apply mapM_length in H; rewrite H, prod_length; auto).
  apply run_writes2_fill.
  - rewrite shape2_zeros2, (shape2_rect n) by auto. rewrite Hl.
    destruct Hc as [-> | ->]; [f_equal; lia|]. simpl. rewrite Nat.mul_0_r; auto.
  - intros i j x Hin. apply Hws in Hin. destruct Hin as [i0 [j0 [k0 [-> [-> [_ [_ [_ Hx]]]]]]]]. auto.
  - intros a b x Hx. exists x. apply Hws.
    assert (Ha : a < length r) by (unfold get2o in Hx; destruct (nth_error r a) eqn:E; [eapply nth_error_Some_lt; eauto|discriminate]).
    assert (Hpn : 0 < length path) by (destruct (length path); lia).
    exists (a / length path), b, (a mod length path).
    assert (Ha2 : a = a / length path * length path + a mod length path)
      by (rewrite (Nat.div_mod a (length path)) at 1; lia).
    split; auto. split; auto. split; [apply Nat.div_lt_upper_bound; lia|].
    split; [|split; [apply Nat.mod_upper_bound; lia|rewrite <- Ha2; auto]].
    unfold get2o in Hx. destruct (nth_error r a) as [row|] eqn:E; [|discriminate].
    apply nth_error_Some_lt in Hx. unfold rect in Hr. rewrite Forall_forall in Hr.
    rewrite (Hr row) in Hx by (eapply nth_error_In; eauto).
    destruct Hc as [-> | ->]; auto. simpl in Hpn; lia.
Qed.

Lemma ncols_cases {A} n (t : list (list A)) : rect n t -> ncols t = n \/ t = [].
Proof. destruct t as [|r t]; [auto|]. intros H. left. inversion H; auto. Qed.

Lemma transform_any_order {A} (z : A) its topo path r :
  (exists n, rect n path) -> tr_value topo path = Ok r ->
  Permutation its (tr_iterations (length topo) (length path) (ncols path)) ->
  transform_topology_in z its topo path = Ok r.
Proof.
  intros [n Hn] H Hp. unfold transform_topology_in.
  set (f := fun ijk : nat * nat * nat => _).
  assert (Hnc : forall k, k < length path -> ncols path = n).
  { intros k Hk. destruct (ncols_cases n path Hn) as [ | -> ]; auto. simpl in Hk; lia. }
  assert (Hf : forall i j k, i < length topo -> j < ncols path -> k < length path ->
     exists v, f (i, j, k) = Ok (i * length path + k, j, v) /\ get2o r (i * length path + k) j = Some v).
  { intros i j k Hi Hj Hk. rewrite (Hnc k Hk) in Hj.
    destruct (tr_read topo path r i j k n H Hn Hi Hj Hk) as [p [v [H1 [H2 H3]]]].
    exists v. unfold f. rewrite H1. cbn [bind]. rewrite H2. cbn [bind]. auto. }
  assert (Hits : forall i j k, In (i, j, k) its <-> i < length topo /\ j < ncols path /\ k < length path).
  { intros i j k. rewrite <- tr_iterations_in. split; intros Hin; (eapply Permutation_in; [|exact Hin]); auto.
    apply Permutation_sym; auto. }
  destruct (mapM_total f its) as [ws Hws].
  { intros [[i j] k] Hin. apply Hits in Hin. destruct (Hf i j k) as [v [Hv _]]; try tauto. eauto. }
  rewrite Hws. cbn [bind]. apply (tr_fill z topo path r n); auto.
  { apply ncols_cases; auto. }
  intros a b x. rewrite (mapM_In _ _ _ _ Hws). split.
  - intros [[[i j] k] [Hin Hfx]]. apply Hits in Hin. destruct (Hf i j k) as [v [Hv1 Hv2]]; try tauto.
    rewrite Hv1 in Hfx. injection Hfx as <- <- <-. exists i, j, k. tauto.
  - intros [i [j [k [-> [-> [Hi [Hj [Hk Hx]]]]]]]]. exists (i, j, k). split; [apply Hits; auto|].
    destruct (Hf i j k) as [v [Hv1 Hv2]]; auto. rewrite Hv1. congruence.
Qed.

Lemma repeat_any_order {A} (z : A) its topo path r :
  (exists n, rect n path) -> tr_value topo path = Ok r ->
  Permutation its (rep_iterations (length topo) (length path) (ncols path)) ->
  repeat_cell_nodal_data_in z its topo path = Ok r.
Proof.
  intros [n Hn] H Hp. unfold repeat_cell_nodal_data_in.
  set (f := fun ijk : nat * nat * nat => _).
  assert (Hnc : forall k, k < length path -> ncols path = n).
  { intros k Hk. destruct (ncols_cases n path Hn) as [ | -> ]; auto. simpl in Hk; lia. }
  assert (Hf : forall i j k, i < length topo -> j < ncols path -> k < length path ->
     exists v, f (i, k, j) = Ok (i * length path + k, j, v) /\ get2o r (i * length path + k) j = Some v).
  { intros i j k Hi Hj Hk. rewrite (Hnc k Hk) in Hj.
    destruct (tr_read topo path r i j k n H Hn Hi Hj Hk) as [p [v [H1 [H2 H3]]]].
    exists v. unfold f. rewrite H1. cbn [bind]. rewrite H2. cbn [bind]. split; auto.
    rewrite Nat.mul_comm; auto. }
  assert (Hits : forall i j k, In (i, k, j) its <-> i < length topo /\ j < ncols path /\ k < length path).
  { intros i j k. rewrite and_comm with (A := j < ncols path). rewrite <- rep_iterations_in.
    split; intros Hin; (eapply Permutation_in; [|exact Hin]); auto.
    apply Permutation_sym; auto. }
  destruct (mapM_total f its) as [ws Hws].
  { intros [[i k] j] Hin. apply Hits in Hin. destruct (Hf i j k) as [v [Hv _]]; try tauto. eauto. }
  rewrite Hws. cbn [bind]. apply (tr_fill z topo path r n); auto.
  { apply ncols_cases; auto. }
  intros a b x. rewrite (mapM_In _ _ _ _ Hws). split.
  - intros [[[i k] j] [Hin Hfx]]. apply Hits in Hin. destruct (Hf i j k) as [v [Hv1 Hv2]]; try tauto.
    rewrite Hv1 in Hfx. injection Hfx as <- <- <-. exists i, j, k. tauto.
  - intros [i [j [k [-> [-> [Hi [Hj [Hk Hx]]]]]]]]. exists (i, k, j). split; [apply Hits; auto|].
    destruct (Hf i j k) as [v [Hv1 Hv2]]; auto. rewrite Hv1. congruence.
Qed.

Lemma transform_value {A} (z : A) w topo path :
  rect w topo -> valid_path w path ->
  exists r, tr_value topo path = Ok r /\ transform_topology_ z topo path = Ok r.
Proof.
  intros Hw Hv. destruct (tr_value_total w topo path Hw Hv) as [r Hr]. exists r. split; auto.
  apply transform_any_order; auto. apply Hv.
Qed.

Lemma transform_split {A} (z : A) w its topo path :
  rect w topo -> valid_path w path ->
  Permutation its (tr_iterations (length topo) (length path) (ncols path)) ->
  exists r, transform_topology_in z its topo path = Ok r /\ split_along topo path r.
Proof.
  intros Hw Hv Hp. destruct (tr_value_total w topo path Hw Hv) as [r Hr]. exists r.
  split; [apply transform_any_order; auto; apply Hv|]. apply tr_value_split; auto.
Qed.

(** a path entry beyond the cell is an out-of-range read *)
Lemma transform_bad_path {A} (z : A) w topo path p q :
  rect w topo -> topo <> [] -> (exists n, rect n path) -> In p path -> In q p -> w <= q ->
  transform_topology_ z topo path = Err IndexError.
Proof.
  intros Hw Hne [n Hn] Hp Hq Hlt.
  unfold transform_topology_, transform_topology_in.
  assert (Hnc : ncols path = n) by (destruct (ncols_cases n path Hn) as [ | -> ]; [auto|contradiction]).
  assert (Herr : forall {X Y} (f : X -> res Y) l x,
     In x l -> (forall y, In y l -> exists v, f y = Ok v \/ f y = Err IndexError) -> f x = Err IndexError -> mapM f l = Err IndexError).
  { clear. intros X Y f l x. induction l as [|a l IH]; intros Hin Hall Hx; [contradiction|]. simpl.
    destruct (Hall a (or_introl eq_refl)) as [v [Hv|Hv]]; rewrite Hv; simpl; auto.
    destruct Hin as [->|Hin]; [congruence|]. rewrite IH; auto. intros y Hy; apply Hall; right; auto. }
  destruct topo as [|c topo]; [congruence|].
  apply In_nth_error in Hp, Hq. destruct Hp as [k Hk], Hq as [j Hj].
  rewrite (Herr _ _ _ _ (0, j, k)); auto.
  - apply tr_iterations_in. simpl length. split; [lia|]. split; [|eapply nth_error_Some_lt; eauto].
    rewrite Hnc. apply nth_error_Some_lt in Hj. assert (length p = n) by (eapply rect_nth; eauto). lia.
  - intros [[i j'] k'] _.
    destruct (get2 path k' j') as [p'|e] eqn:E1; cbn [bind].
    + destruct (get2 (c :: topo) i p') as [v|e] eqn:E2; cbn [bind].
      * eexists; left; reflexivity.
      * unfold get2 in E2. destruct (get (c :: topo) i) as [r|e'] eqn:E3; cbn [bind] in E2.
        -- unfold get in E2. destruct (nth_error r p'); inversion E2. exists (0, 0, z). auto.
        -- unfold get in E3. destruct (nth_error (c :: topo) i); inversion E3. injection E2 as <-. exists (0, 0, z). subst; auto.
    + unfold get2 in E1. destruct (get path k') as [r|e'] eqn:E3; cbn [bind] in E1.
      * unfold get in E1. destruct (nth_error r j'); inversion E1. exists (0, 0, z). auto.
      * unfold get in E3. destruct (nth_error path k'); inversion E3. injection E1 as <-. exists (0, 0, z). subst; auto.
  - assert (H1 : get2 path k j = Ok q) by (apply get2o_get2; unfold get2o; rewrite Hk; auto).
    rewrite H1. cbn [bind]. unfold get2, get at 1. simpl nth_error. cbn [bind].
    unfold get. rewrite nth_error_ge; auto. inversion Hw; subst; lia.
Qed.
