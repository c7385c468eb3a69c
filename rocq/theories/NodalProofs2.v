(** * Proofs about [NodalModel.v]: distributing and collecting data *)
From Coq Require Import Reals Lra Lia List Permutation.
From Verif Require Import NodalModel NodalSpec BaseFacts FillFacts TopoProofs TrModel TrProofs ElevProofs ShapeProofs2 ShapeProofs3 ShapeProofs4 TriProofs3 NodalProofs.
Import ListNotations.
Local Open Scope R_scope.

(** ** tables of the shape of a topology *)
Lemma cell_entry_ext {A} (a b : list (list A)) : map (@length A) a = map (@length A) b -> (forall i j x, cell_entry a i j x -> cell_entry b i j x) -> a = b.
Proof.
  intros HS H. apply get2o_ext; [exact HS|]. intros i j. destruct (get2o a i j) as [x|] eqn:E.
  - unfold get2o in E. destruct (nth_error a i) as [r|] eqn:Er; [|discriminate]. destruct (H i j x (ex_intro _ r (conj Er E))) as (r' & Hr & Hj). unfold get2o. now rewrite Hr.
  - destruct (get2o b i j) as [y|] eqn:Ey; [|reflexivity].
    assert (exists z, get2o a i j = Some z) as [z Hz]; [|congruence]. apply get2o_shape. unfold shape2. rewrite HS. apply get2o_shape. eauto.
Qed.
Lemma shape_entry {A B} (a : list (list A)) (b : list (list B)) i j x : same_shape a b -> cell_entry a i j x -> exists y, cell_entry b i j y.
Proof.
  intros HS (r & Hr & Hj). assert (exists y, get2o b i j = Some y) as [y Hy].
  { apply get2o_shape. unfold shape2. rewrite <- HS. apply (get2o_shape a i j). exists x. unfold get2o. now rewrite Hr. }
  unfold get2o in Hy. destruct (nth_error b i) as [r'|] eqn:E; [|discriminate]. exists y, r'. auto.
Qed.
Lemma cell_entry_fun {A} (a : list (list A)) i j x y : cell_entry a i j x -> cell_entry a i j y -> x = y.
Proof. intros (r & Hr & Hj) (r' & Hr' & Hj'). congruence. Qed.
Lemma mapM_table {A} (F : nat * list nat -> res (list A)) (P : nat -> nat -> nat -> A -> Prop) topo :
  (forall i r, nth_error topo i = Some r -> exists row, F (i, r) = Ok row /\ length row = length r /\
     forall j n, nth_error r j = Some n -> exists x, nth_error row j = Some x /\ P i j n x) ->
  exists D, mapM F (enum topo) = Ok D /\ same_shape topo D /\ forall i j n, entry topo i j n -> exists x, cell_entry D i j x /\ P i j n x.
Proof.
  intros H. destruct (mapM_total F (enum topo)) as [D HD].
  { intros (i & r) Hin. apply enum_in in Hin. destruct (H i r Hin) as (row & E & _). eauto. }
  assert (HR : forall i r, nth_error topo i = Some r -> exists row, nth_error D i = Some row /\ length row = length r /\ forall j n, nth_error r j = Some n -> exists x, nth_error row j = Some x /\ P i j n x).
  { intros i r Hr. destruct (mapM_nth_error F (enum topo) D i (i, r) HD) as (row & Hrow & E). { rewrite nth_error_enum, Hr. reflexivity. }
    exists row. split; [assumption|]. destruct (H i r Hr) as (row' & E' & HL & HP). assert (row' = row) by congruence. subst. auto. }
  exists D. split; [exact HD|]. split.
  - unfold same_shape. apply nth_error_ext. intros i. rewrite !nth_error_map. destruct (nth_error topo i) as [r|] eqn:E.
    + destruct (HR i r E) as (row & -> & HL & _). cbn. now rewrite HL.
    + cbn. rewrite nth_error_ge; [reflexivity|]. rewrite (mapM_length _ _ _ HD). unfold enum. rewrite enum_from_length. now apply nth_error_None.
  - intros i j n (r & Hr & Hj). destruct (HR i r Hr) as (row & Hrow & _ & HP). destruct (HP j n Hj) as (x & Hx & Px). exists x. split; [exists row; auto|exact Px].
Qed.
Lemma at_node_map {A B} (h : nat -> A -> B) topo (f : list (list A)) (D : list (list B)) n : same_shape topo f -> same_shape topo D ->
  (forall i j m x, entry topo i j m -> cell_entry f i j x -> cell_entry D i j (h m x)) -> at_node topo D n = map (h n) (at_node topo f n).
Proof.
  intros HF HD H.
  assert (E : concat D = map (fun mx => h (fst mx) (snd mx)) (combine (concat topo) (concat f))).
  { apply nth_error_ext. intros k. rewrite nth_error_map.
    assert (L1 : length (concat f) = length (concat topo)) by (rewrite !length_concat; now rewrite HF).
    assert (L2 : length (concat D) = length (concat topo)) by (rewrite !length_concat; now rewrite HD).
    destruct (nth_error (concat topo) k) as [m|] eqn:Em.
    - destruct (concat_entry_inv _ _ _ Em) as (i & j & r & Hr & Hj & ->). destruct (shape_entry topo f i j m HF (ex_intro _ r (conj Hr Hj))) as (x & r2 & Hr2 & Hj2).
      destruct (H i j m x (ex_intro _ r (conj Hr Hj)) (ex_intro _ r2 (conj Hr2 Hj2))) as (r3 & Hr3 & Hj3).
      pose proof (concat_entry D i j r3 _ Hr3 Hj3) as E3. pose proof (concat_entry f i j r2 _ Hr2 Hj2) as E2. rewrite <- HD in E3. rewrite <- HF in E2. rewrite E3.
      assert (Ec : forall (a : list nat) (b : list A) q u v, nth_error a q = Some u -> nth_error b q = Some v -> nth_error (combine a b) q = Some (u, v)).
      { clear. induction a; intros [|y b] [|q] u v Ha Hb; try discriminate; cbn in *; [congruence|now apply IHa]. }
      rewrite (Ec _ _ _ _ _ Em E2). reflexivity.
    - apply nth_error_None in Em. rewrite nth_error_ge by lia. rewrite nth_error_ge; [reflexivity|]. rewrite combine_length. lia. }
  unfold at_node. rewrite E. generalize (concat topo) as l. generalize (concat f) as b. clear. intros b l. revert b.
  induction l as [|m l IH]; intros [|x b]; try reflexivity. cbn [combine map filter fst snd]. destruct (Nat.eqb_spec m n) as [->|_]; cbn [map snd]; [f_equal|]; apply IH.
Qed.

Lemma vscale_scaled x p : scaled x p (vscale x p).
Proof. split; [apply vscale_length|]. intros a. unfold at_. apply vscale_nth. Qed.
Lemma scaled_unique x p q : scaled x p q -> q = vscale x p.
Proof.
  intros [HL H]. apply (nth_ext q (vscale x p) 0 0); [rewrite vscale_length; exact HL|]. intros a _. rewrite vscale_nth. apply H.
Qed.
Lemma distribute_bulk_value : forall data topo f, same_shape topo f -> (forall n, used topo n -> (n < length data)%nat) ->
  exists D, distribute_bulk data topo f = Ok D /\ distributed data topo f D.
Proof.
  intros data topo f HF HN. unfold distribute_bulk.
  destruct (mapM_table (fun ir => mapM (fun jn => do row <- get data (snd jn); do f0 <- get2 f (fst ir) (fst jn); Ok (vscale f0 row)) (enum (snd ir)))
    (fun i j n q => exists p x, nth_error data n = Some p /\ cell_entry f i j x /\ q = vscale x p) topo) as (D & HD & HS & HE).
  - intros i r Hr. cbn [fst snd].
    assert (HG : forall j n, nth_error r j = Some n -> exists p x, nth_error data n = Some p /\ cell_entry f i j x /\ (do row <- get data n; do f0 <- get2 f i j; Ok (vscale f0 row)) = Ok (vscale x p)).
    { intros j n Hj. destruct (nth_error_lt data n) as [p Hp]; [apply HN; exists i, j, r; auto|]. destruct (shape_entry topo f i j n HF (ex_intro _ r (conj Hr Hj))) as (x & Hx).
      exists p, x. split; [assumption|]. split; [assumption|]. rewrite (proj2 (get_Ok _ _ _) Hp). cbn [bind]. rewrite (proj2 (get2_Ok _ _ _ _) Hx). reflexivity. }
    destruct (mapM_total (fun jn : nat * nat => do row <- get data (snd jn); do f0 <- get2 f i (fst jn); Ok (vscale f0 row)) (enum r)) as [row Hrow].
    { intros (j & n) Hin. apply enum_in in Hin. destruct (HG j n Hin) as (p & x & _ & _ & E). cbn [fst snd]. eauto. }
    exists row. split; [exact Hrow|]. split; [rewrite (mapM_length _ _ _ Hrow); unfold enum; apply enum_from_length|].
    intros j n Hj. destruct (mapM_nth_error _ _ _ j (j, n) Hrow) as (q & Hq & E); [rewrite nth_error_enum, Hj; reflexivity|]. exists q. split; [assumption|].
    destruct (HG j n Hj) as (p & x & Hp & Hx & E'). exists p, x. split; [assumption|]. split; [assumption|]. cbn [fst snd] in E. congruence.
  - exists D. split; [exact HD|]. split; [exact HS|]. intros i j n p x He Hp Hx. destruct (HE i j n He) as (q & Hq & p' & x' & Hp' & Hx' & ->).
    assert (p' = p) by congruence. subst p'. assert (x' = x) by (apply (cell_entry_fun f i j); assumption). subst x'. exists (vscale x p). split; [exact Hq|apply vscale_scaled].
Qed.
Lemma distribute_sparse_value : forall data topo cids ptr ndf F f, csr_of F ptr ndf -> rows_at F cids f -> same_shape topo f -> (forall n, used topo n -> (n < length data)%nat) ->
  exists D, distribute_sparse data topo cids ptr ndf = Ok D /\ distributed data topo f D.
Proof.
  intros data topo cids ptr ndf F f [-> ->] HC HF HN. unfold distribute_sparse.
  destruct (mapM_table (fun ir => do c <- get cids (fst ir); do ndf_e <- csr_row (indptr (map (@length R) F)) (concat F) c;
      mapM (fun jn => do row <- get data (snd jn); do f0 <- get ndf_e (fst jn); Ok (vscale f0 row)) (enum (snd ir)))
    (fun i j n q => exists p x, nth_error data n = Some p /\ cell_entry f i j x /\ q = vscale x p) topo) as (D & HD & HS & HE).
  - intros i r Hr. cbn [fst snd].
    assert (exists fe, nth_error f i = Some fe /\ length fe = length r) as (fe & Hfe & Lfe).
    { assert (E : nth_error (map (@length nat) topo) i = nth_error (map (@length R) f) i) by (now rewrite HF). rewrite !nth_error_map, Hr in E. destruct (nth_error f i) as [fe|]; [|discriminate]. exists fe. split; [reflexivity|]. injection E as E. now symmetry. }
    destruct (Forall2_nth_error_r _ _ _ _ _ HC Hfe) as (c & Hc & HFc). rewrite (proj2 (get_Ok _ _ _) Hc). cbn [bind]. rewrite (csr_row_of F c fe HFc). cbn [bind].
    assert (HG : forall j n, nth_error r j = Some n -> exists p x, nth_error data n = Some p /\ cell_entry f i j x /\ (do row <- get data n; do f0 <- get fe j; Ok (vscale f0 row)) = Ok (vscale x p)).
    { intros j n Hj. destruct (nth_error_lt data n) as [p Hp]; [apply HN; exists i, j, r; auto|]. destruct (nth_error_lt fe j) as [x Hx]; [rewrite Lfe; eapply nth_error_Some_lt; eauto|].
      exists p, x. split; [assumption|]. split; [exists fe; auto|]. rewrite (proj2 (get_Ok _ _ _) Hp). cbn [bind]. rewrite (proj2 (get_Ok _ _ _) Hx). reflexivity. }
    destruct (mapM_total (fun jn : nat * nat => do row <- get data (snd jn); do f0 <- get fe (fst jn); Ok (vscale f0 row)) (enum r)) as [row Hrow].
    { intros (j & n) Hin. apply enum_in in Hin. destruct (HG j n Hin) as (p & x & _ & _ & E). cbn [fst snd]. eauto. }
    exists row. split; [exact Hrow|]. split; [rewrite (mapM_length _ _ _ Hrow); unfold enum; apply enum_from_length|].
    intros j n Hj. destruct (mapM_nth_error _ _ _ j (j, n) Hrow) as (q & Hq & E); [rewrite nth_error_enum, Hj; reflexivity|]. exists q. split; [assumption|].
    destruct (HG j n Hj) as (p & x & Hp & Hx & E'). exists p, x. split; [assumption|]. split; [assumption|]. cbn [fst snd] in E. congruence.
  - exists D. split; [exact HD|]. split; [exact HS|]. intros i j n p x He Hp Hx. destruct (HE i j n He) as (q & Hq & p' & x' & Hp' & Hx' & ->).
    assert (p' = p) by congruence. subst p'. assert (x' = x) by (apply (cell_entry_fun f i j); assumption). subst x'. exists (vscale x p). split; [exact Hq|apply vscale_scaled].
Qed.
(** the pieces at a node add up to the value of the node times the sum of the factors *)
Lemma distributed_sum : forall data topo f D n p a, same_shape topo f -> (forall n, used topo n -> (n < length data)%nat) -> distributed data topo f D ->
  nth_error data n = Some p -> rsum (map (at_ a) (at_node topo D n)) = rsum (at_node topo f n) * at_ a p.
Proof.
  intros data topo f D n p a HF HN [HS HE] Hp.
  rewrite (at_node_map (fun m x => vscale x (nth m data [])) topo f D n HF HS).
  - rewrite map_map, (nth_error_nth data n [] Hp). induction (at_node topo f n) as [|x l IH]; [cbn; lra|]. cbn [map]. rewrite !rsum_cons, IH. unfold at_ at 1. rewrite vscale_nth. unfold at_. lra.
  - intros i j m x He Hx. destruct (nth_error_lt data m) as [q Hq]; [apply HN; exists i, j; exact He|]. rewrite (nth_error_nth data m [] Hq).
    destruct (HE i j m q x He Hq Hx) as (v & Hv & Hs). now rewrite <- (scaled_unique _ _ _ Hs).
Qed.
Lemma copies_value : forall data topo, (forall n, used topo n -> (n < length data)%nat) ->
  exists D, celldata_pull data topo [] None = Ok D /\ same_shape topo D /\ forall i j n p, entry topo i j n -> nth_error data n = Some p -> cell_entry D i j p.
Proof.
  intros data topo HN. assert (HF : same_shape topo (map (map (fun _ => 1)) topo)).
  { unfold same_shape. rewrite map_map. apply map_ext. intros r. now rewrite map_length. }
  destruct (distribute_bulk_value data topo _ HF HN) as (D & E & HS & HE). exists D. split; [exact E|]. split; [exact HS|].
  intros i j n p He Hp. destruct (HE i j n p 1 He Hp) as (q & Hq & HL & Ha).
  - destruct He as (r & Hr & Hj). exists (map (fun _ => 1) r). rewrite nth_error_map, Hr. split; [reflexivity|]. now rewrite nth_error_map, Hj.
  - replace p with q; [assumption|]. apply (nth_ext q p 0 0 HL). intros a _. specialize (Ha a). unfold at_ in Ha. lra.
Qed.

(** ** the parallel loop over the nodes of a cell *)
Lemma split_unique {A} (x : A) l1 l2 p s : NoDup (p ++ x :: s) -> l1 ++ x :: l2 = p ++ x :: s -> l1 = p /\ l2 = s.
Proof.
  revert p. induction l1 as [|y l1 IH]; intros [|z p] HN E; cbn in *.
  - injection E as ->. auto.
  - injection E as -> ->. inversion HN as [|? ? H _]; subst. exfalso. apply H. apply in_app_iff. right. now left.
  - injection E as -> E. inversion HN as [|? ? H _]; subst. exfalso. apply H. apply in_app_iff. right. now left.
  - injection E as -> E. inversion HN as [|? ? _ H]; subst. destruct (IH p H E) as [-> ->]. auto.
Qed.
Lemma steps_nodup n : NoDup (map Fetch (seq 0 n) ++ map Store_ (seq 0 n)).
Proof.
  assert (G : forall l : list nat, NoDup l -> forall l', NoDup l' -> NoDup (map Fetch l ++ map Store_ l')).
  { induction l as [|x l IH]; intros Hl l' Hl'; cbn.
    - apply FinFun.Injective_map_NoDup; [|exact Hl']. intros a b E. now injection E.
    - inversion Hl as [|? ? Hx Hl2]; subst. constructor; [|now apply IH]. intros H. apply in_app_iff in H. destruct H as [H|H]; apply in_map_iff in H; destruct H as (y & E & Hy); [injection E as ->; auto|discriminate]. }
  apply G; apply seq_NoDup.
Qed.
Lemma interleaving_facts n steps : interleaving n steps ->
  NoDup steps /\ (forall j, In (Fetch j) steps \/ In (Store_ j) steps -> (j < n)%nat) /\ (forall j, (j < n)%nat -> In (Store_ j) steps) /\
  (forall j p s, steps = p ++ Fetch j :: s -> ~ In (Store_ j) p) /\ (forall j p s, steps = p ++ Store_ j :: s -> In (Fetch j) p).
Proof.
  intros [HP HO]. assert (HN : NoDup steps) by (apply (Permutation_NoDup HP), steps_nodup).
  assert (HJ : forall j, In (Fetch j) steps \/ In (Store_ j) steps -> (j < n)%nat).
  { intros j H. assert (In (Fetch j) (map Fetch (seq 0 n) ++ map Store_ (seq 0 n)) \/ In (Store_ j) (map Fetch (seq 0 n) ++ map Store_ (seq 0 n))) as H'
      by (destruct H as [H|H]; [left|right]; apply (Permutation_in _ (Permutation_sym HP)); assumption).
    destruct H' as [H'|H']; apply in_app_iff in H'; destruct H' as [H'|H']; apply in_map_iff in H'; destruct H' as (y & E & Hy); try discriminate; injection E as ->; apply in_seq in Hy; lia. }
  split; [exact HN|]. split; [exact HJ|]. split; [|split].
  - intros j Hj. apply (Permutation_in _ HP). apply in_app_iff. right. apply in_map. apply in_seq. lia.
  - intros j p s E Hin. destruct (HO j) as (l1 & l2 & E' & Hl2). { apply HJ. left. rewrite E. apply in_app_iff. right. now left. }
    assert (Es : l1 ++ Fetch j :: l2 = p ++ Fetch j :: s) by congruence. destruct (split_unique (Fetch j) l1 l2 p s) as [-> ->]; [now rewrite <- E|exact Es|].
    rewrite E in HN. clear - HN Hin Hl2. induction p as [|x p IH]; [destruct Hin|]. cbn in HN. inversion HN as [|? ? Hx HN']; subst. destruct Hin as [->|Hin].
    + apply Hx. apply in_app_iff. right. now right.
    + now apply IH.
  - intros j p s E. destruct (HO j) as (l1 & l2 & E' & Hl2). { apply HJ. right. rewrite E. apply in_app_iff. right. now left. }
    apply in_split in Hl2. destruct Hl2 as (u & v & ->). assert (Es : (l1 ++ Fetch j :: u) ++ Store_ j :: v = p ++ Store_ j :: s) by (rewrite <- app_assoc; cbn; congruence).
    destruct (split_unique (Store_ j) (l1 ++ Fetch j :: u) v p s) as [<- _]; [now rewrite <- E|exact Es|]. apply in_app_iff. right. now left.
Qed.

Lemma collect_cell_value : forall k nodes vals steps res0, NoDup nodes -> length vals = length nodes -> rect k vals -> rect k res0 ->
  Forall (fun n => (n < length res0)%nat) nodes -> interleaving (length nodes) steps ->
  exists r, collect_cell steps nodes vals res0 = Ok r /\ length r = length res0 /\ rect k r /\
    (forall j n v x, nth_error nodes j = Some n -> nth_error vals j = Some v -> nth_error res0 n = Some x -> exists y, nth_error r n = Some y /\ forall a, at_ a y = at_ a x + at_ a v) /\
    (forall n, ~ In n nodes -> nth_error r n = nth_error res0 n).
Proof.
  intros k nodes vals steps res0 HD HL HV HR HB HI. destruct (interleaving_facts _ _ HI) as (HN & HJ & HA & HF & HS).
  set (Inv := fun (p : list step) (st : list (list R) * dict (list R)) =>
    length (fst st) = length res0 /\
    (forall j n v x, nth_error nodes j = Some n -> nth_error vals j = Some v -> nth_error res0 n = Some x ->
       (In (Store_ j) p -> exists y, nth_error (fst st) n = Some y /\ vadd (K := R) x v = Ok y) /\
       (~ In (Store_ j) p -> nth_error (fst st) n = Some x) /\
       (In (Fetch j) p -> exists y, dget (snd st) j = Ok y /\ vadd (K := R) x v = Ok y)) /\
    (forall n, ~ In n nodes -> nth_error (fst st) n = nth_error res0 n)).
  assert (Hadd : forall x v, length x = k -> length v = k -> exists y, vadd (K := R) x v = Ok y /\ length y = k /\ forall a, at_ a y = at_ a x + at_ a v).
  { intros x v Hx Hv. destruct (vadd_R k x v Hx Hv) as (y & E & Ly & Ny). exists y. auto. }
  assert (Hall : forall j, (j < length nodes)%nat -> exists n v x, nth_error nodes j = Some n /\ nth_error vals j = Some v /\ nth_error res0 n = Some x /\ length x = k /\ length v = k).
  { intros j Hj. destruct (nth_error_lt nodes j Hj) as [n Hn]. destruct (nth_error_lt vals j) as [v Hv]; [lia|]. rewrite Forall_forall in HB.
    destruct (nth_error_lt res0 n) as [x Hx]; [apply HB; eapply nth_error_In; eauto|]. exists n, v, x. repeat split; try assumption; [apply (rect_nth k res0 n x HR Hx)|apply (rect_nth k vals j v HV Hv)]. }
  assert (Hloop : forall s p st, steps = p ++ s -> Inv p st -> exists st', foldM (collect_step nodes vals) s st = Ok st' /\ Inv steps st').
  { induction s as [|st0 s IH]; intros p st E Hinv; cbn [foldM].
    - rewrite app_nil_r in E. subst p. eauto.
    - destruct Hinv as (I1 & I2 & I3). destruct st0 as [j|j].
      + assert (Hj : (j < length nodes)%nat) by (apply HJ; left; rewrite E; apply in_app_iff; right; now left).
        destruct (Hall j Hj) as (n & v & x & Hn & Hv & Hx & Lx & Lv). destruct (I2 j n v x Hn Hv Hx) as (_ & I2b & _). specialize (I2b (HF j p s E)).
        destruct (Hadd x v Lx Lv) as (y & Ey & Ly & _).
        assert (Est : collect_step nodes vals st (Fetch j) = Ok (fst st, dset (snd st) j y)).
        { unfold collect_step. rewrite (proj2 (get_Ok _ _ _) Hn). cbn [bind]. rewrite (proj2 (get_Ok _ _ _) I2b). cbn [bind]. rewrite (proj2 (get_Ok _ _ _) Hv). cbn [bind]. rewrite Ey. reflexivity. }
        rewrite Est. cbn [bind]. apply (IH (p ++ [Fetch j])); [rewrite <- app_assoc; exact E|]. split; [exact I1|]. split; [|exact I3]. cbn [fst snd].
        intros j' n' v' x' Hn' Hv' Hx'. destruct (I2 j' n' v' x' Hn' Hv' Hx') as (A1 & A2 & A3). split; [|split].
        * intros H. apply A1. apply in_app_iff in H. destruct H as [H|[H|[]]]; [assumption|discriminate].
        * intros H. apply A2. intros H'. apply H. apply in_app_iff. now left.
        * intros H. rewrite dget_dset. destruct (Nat.eqb_spec j' j) as [->|Hne].
          -- exists y. assert (n' = n) by congruence. subst n'. assert (v' = v) by congruence. assert (x' = x) by congruence. subst. auto.
          -- apply A3. apply in_app_iff in H. destruct H as [H|[H|[]]]; [assumption|]. injection H as ->. easy.
      + assert (Hj : (j < length nodes)%nat) by (apply HJ; right; rewrite E; apply in_app_iff; right; now left).
        destruct (Hall j Hj) as (n & v & x & Hn & Hv & Hx & Lx & Lv). destruct (I2 j n v x Hn Hv Hx) as (_ & _ & I2c). destruct (I2c (HS j p s E)) as (y & Ey & Hy).
        destruct (proj2 (set_Ok_iff (fst st) n y)) as [a Ea]. { rewrite I1. eapply nth_error_Some_lt; eauto. }
        assert (Est : collect_step nodes vals st (Store_ j) = Ok (a, snd st)).
        { unfold collect_step. rewrite (proj2 (get_Ok _ _ _) Hn). cbn [bind]. rewrite Ey. cbn [bind]. rewrite Ea. reflexivity. }
        rewrite Est. cbn [bind]. apply (IH (p ++ [Store_ j])); [rewrite <- app_assoc; exact E|]. split; [|split]; cbn [fst snd].
        * rewrite <- I1. now apply set_length with n y.
        * intros j' n' v' x' Hn' Hv' Hx'. destruct (I2 j' n' v' x' Hn' Hv' Hx') as (A1 & A2 & A3).
          assert (Hjj : n' = n -> j' = j). { intros ->. apply (proj1 (NoDup_nth_error nodes) HD); [eapply nth_error_Some_lt; eauto|congruence]. }
          rewrite (set_nth_error _ _ _ _ n' Ea). split; [|split].
          -- intros H. destruct (Nat.eqb_spec n' n) as [->|Hne].
             ++ specialize (Hjj eq_refl). subst j'. exists y. assert (v' = v) by congruence. assert (x' = x) by congruence. subst. auto.
             ++ apply A1. apply in_app_iff in H. destruct H as [H|[H|[]]]; [assumption|]. injection H as ->. congruence.
          -- intros H. destruct (Nat.eqb_spec n' n) as [->|Hne].
             ++ specialize (Hjj eq_refl). subst j'. exfalso. apply H. apply in_app_iff. right. now left.
             ++ apply A2. intros H'. apply H. apply in_app_iff. now left.
          -- intros H. apply A3. apply in_app_iff in H. destruct H as [H|[H|[]]]; [assumption|discriminate].
        * intros m Hm. rewrite (set_nth_error _ _ _ _ m Ea). destruct (Nat.eqb_spec m n) as [->|_]; [|now apply I3]. exfalso. apply Hm. eapply nth_error_In; eauto. }
  destruct (Hloop steps [] (res0, []) eq_refl) as (st' & E & (I1 & I2 & I3)).
  { split; [reflexivity|]. split; [|auto]. intros j n v x Hn Hv Hx. split; [intros []|]. split; [auto|intros []]. }
  exists (fst st'). unfold collect_cell. rewrite E. cbn [bind]. split; [reflexivity|]. split; [exact I1|].
  assert (Hw : forall j n v x, nth_error nodes j = Some n -> nth_error vals j = Some v -> nth_error res0 n = Some x -> exists y, nth_error (fst st') n = Some y /\ vadd (K := R) x v = Ok y).
  { intros j n v x Hn Hv Hx. apply (I2 j n v x Hn Hv Hx). apply HA. eapply nth_error_Some_lt; eauto. }
  split; [|split; [|exact I3]].
  - apply Forall_forall. intros y Hy. apply In_nth_error in Hy. destruct Hy as (m & Hm). destruct (in_dec Nat.eq_dec m nodes) as [Hin|Hin].
    + apply In_nth_error in Hin. destruct Hin as (j & Hj). destruct (Hall j) as (n & v & x & Hn & Hv & Hx & Lx & Lv); [eapply nth_error_Some_lt; eauto|].
      assert (n = m) by congruence. subst n. destruct (Hw j m v x Hn Hv Hx) as (y' & Hy' & Ey). destruct (Hadd x v Lx Lv) as (z & Ez & Lz & _). congruence.
    + rewrite I3 in Hm by assumption. apply (rect_nth k res0 m y HR Hm).
  - intros j n v x Hn Hv Hx. destruct (Hw j n v x Hn Hv Hx) as (y & Hy & Ey). exists y. split; [assumption|].
    assert (Lx : length x = k) by apply (rect_nth k res0 n x HR Hx). assert (Lv : length v = k) by apply (rect_nth k vals j v HV Hv).
    destruct (Hadd x v Lx Lv) as (z & Ez & _ & Nz). assert (z = y) by congruence. subst. assumption.
Qed.
