(** * Proofs about [TopoModel.v], part 4: adjacency, rewiring, detaching, unique entities *)
From Verif Require Export TopoProofs3.

(** ** C03: nodal adjacency *)

Lemma foldM_dset_fresh {A B} (f : B -> nat) (g : B -> res A) (h : B -> A) (l : list B) (d : dict A) :
  NoDup (dkeys d ++ map f l) -> (forall x, In x l -> g x = Ok (h x)) ->
  foldM (fun d x => do v <- g x; Ok (dset d (f x) v)) l d = Ok (d ++ map (fun x => (f x, h x)) l).
Proof.
  intros Hnd Hg. rewrite <- fold_dset_fresh by auto. clear Hnd. revert d.
  induction l as [|x l IH]; intros d; simpl; auto.
  rewrite Hg by (left; auto). cbn [bind]. apply IH. intros; apply Hg; right; auto.
Qed.

Lemma subtopo_1d_ok t inds rows :
  take t inds = Ok rows ->
  subtopo_1d (concat t) (map (@length nat) t) inds (indptr (map (@length nat) t)) = Ok (concat rows).
Proof.
  intros H. unfold subtopo_1d.
  assert (Hw : take (map (@length nat) t) inds = Ok (map (@length nat) rows)).
  { unfold take in *. apply mapM_Ok in H. apply mapM_Ok. induction H as [|i r inds rows Hi Hr IH]; simpl; constructor; auto.
    apply get_Ok in Hi. apply get_Ok. rewrite nth_error_map, Hi; auto. }
  rewrite Hw. cbn [bind].
  assert (Hrows : mapM (fun i => do lo <- get (indptr (map (@length nat) t)) i;
                    do hi <- get (indptr (map (@length nat) t)) (S i); Ok (slice (concat t) lo hi)) inds = Ok rows).
  { unfold take in H. apply mapM_Ok in H. apply mapM_Ok. clear Hw.
    induction H as [|i r inds rows Hi Hr IH]; constructor; auto.
    apply get_Ok in Hi. assert (Hil : i < length t) by (eapply nth_error_Some_lt; eauto).
    unfold get. rewrite !indptr_nth by (rewrite map_length; lia). cbn [bind].
    rewrite slice_concat with (r := r); auto. }
  rewrite Hrows. cbn [bind]. apply scatter_ok.
Qed.

Lemma incidence_rows t n L :
  incidence t n L -> exists rows, take t (map fst L) = Ok rows /\
    forall m, In m (concat rows) <-> share_cell t n m.
Proof.
  intros [Hin Hs].
  destruct (take_ok t (map fst L)) as [rows Hrows].
  { intros i Hi. apply in_map_iff in Hi. destruct Hi as [[i' j] [<- Hi]]. apply Hin in Hi.
    destruct Hi as [r [Hi _]]. eapply nth_error_Some_lt; eauto. }
  exists rows; split; auto. intros m. rewrite in_concat. split.
  - intros [r [H1 H2]]. apply In_nth_error in H1. destruct H1 as [k H1].
    destruct (mapM_nth_error_r _ _ _ _ _ Hrows H1) as [i [H3 H4]]. apply get_Ok in H4.
    apply nth_error_In in H3. apply in_map_iff in H3. destruct H3 as [[i' j] [Heq H3]]. simpl in Heq; subst i'.
    apply Hin in H3. destruct H3 as [r' [H5 H6]]. rewrite H4 in H5. injection H5 as <-.
    exists r. split; [eapply nth_error_In; eauto|]. split; auto. eapply nth_error_In; eauto.
  - intros [r [H1 [H2 H3]]]. apply In_nth_error in H1, H2. destruct H1 as [i H1], H2 as [j H2].
    assert (Hij : In (i, j) L) by (apply Hin; exists r; auto).
    assert (Hi : In i (map fst L)) by (apply in_map_iff; exists (i, j); auto).
    apply In_nth_error in Hi. destruct Hi as [k Hk].
    destruct (mapM_nth_error _ _ _ _ _ Hrows Hk) as [r' [H4 H5]]. apply get_Ok in H5.
    rewrite H1 in H5. injection H5 as <-. exists r; split; auto. eapply nth_error_In; eauto.
Qed.

Lemma SS_lt_NoDup l : StronglySorted lt l -> NoDup l.
Proof.
  intros H. apply (sorted_NoDup Nat.compare nat_cmp_eq).
  eapply StronglySorted_impl; [|exact H]. intros; apply clt_nat; auto.
Qed.

(** the dictionary of lists built from the cells *)
Lemma adjacency_dol topo t assume :
  represents topo t -> ~ is_csr topo -> concat t <> [] ->
  exists ereg nreg dol,
    snd (cells_at_nodes topo FDicts assume None false) = Ok (ODicts None ereg nreg) /\
    (match topo with
     | TNp t => do d <- nodal_adjacency_as_dol_np t ereg; Ok (Some d)
     | TNp1 t => Err TypeError
     | TAk t => do d <- nodal_adjacency_as_dol_ak (concat t) (map (@length nat) t) ereg; Ok (Some d)
     | TCsr _ _ => Ok None
     end) = Ok (Some dol) /\
    node_keys t assume (dkeys dol) /\
    forall n, In n (dkeys dol) -> exists l, dget dol n = Ok l /\ StronglySorted lt l /\
      forall m, In m l <-> share_cell t n m.
Proof.
  intros Hr Hcsr Hne.
  destruct (cells_dicts topo t assume None false Hr Hne) as [counts [ereg [nreg [Hc [Hk [Hk2 [Hl Hall]]]]]]].
  { intros; discriminate. }
  assert (Hnd : NoDup (dkeys ereg)) by (apply SS_lt_NoDup; apply Hk).
  assert (Hrow : forall k v, In (k, v) ereg -> exists rows, take t v = Ok rows /\ forall m, In m (concat rows) <-> share_cell t k m).
  { intros k v Hin. pose proof (In_dget _ _ _ Hnd Hin) as Hg.
    assert (Hkin : In k (dkeys ereg)) by (apply dget_ok_iff; eauto).
    apply In_nth_error in Hkin. destruct Hkin as [i Hi].
    destruct (Hall i k Hi) as [L [E [HL [_ [HE [H1 H2]]]]]]. rewrite H1 in Hg. injection Hg as <-. subst E.
    apply incidence_rows; auto. }
  pose (h := fun ke : nat * list nat => match take t (snd ke) with Ok rows => np_unique (concat rows) | Err _ => [] end).
  assert (Hh : forall ke, In ke ereg -> exists rows, take t (snd ke) = Ok rows /\ h ke = np_unique (concat rows)).
  { intros [k v] Hin. destruct (Hrow k v Hin) as [rows [H1 _]]. exists rows. unfold h. simpl. rewrite H1; auto. }
  exists ereg, nreg, (map (fun ke => (fst ke, h ke)) ereg).
  split; [exact Hc|].
  assert (Hkeys : dkeys (map (fun ke : nat * list nat => (fst ke, h ke)) ereg) = dkeys ereg).
  { unfold dkeys. rewrite map_map. apply map_ext; auto. }
  split; [|split; [rewrite Hkeys; auto|]].
  - destruct Hr.
    + unfold nodal_adjacency_as_dol_np.
      assert (Hf : foldM (fun d ke => do rows <- take t (snd ke); Ok (dset d (fst ke) (np_unique (concat rows)))) ereg []
                = Ok (map (fun ke => (fst ke, h ke)) ereg)).
      { rewrite <- (app_nil_l (map _ ereg)).
        rewrite <- (foldM_dset_fresh fst (fun ke => do rows <- take t (snd ke); Ok (np_unique (concat rows))) h ereg []).
        - clear. generalize (@nil (nat * list nat)). induction ereg as [|ke l IH]; intros d; cbn [foldM]; auto.
          destruct (take t (snd ke)); cbn [bind]; auto.
        - simpl. auto.
        - intros ke Hke. destruct (Hh ke Hke) as [rows [H1 H2]]. rewrite H1, H2; auto. }
      rewrite Hf; auto.
    + unfold nodal_adjacency_as_dol_ak.
      assert (Hf : foldM (fun d ke => do s <- subtopo_1d (concat t) (map (@length nat) t) (snd ke) (indptr (map (@length nat) t));
                      Ok (dset d (fst ke) (np_unique s))) ereg []
                = Ok (map (fun ke => (fst ke, h ke)) ereg)).
      { rewrite <- (app_nil_l (map _ ereg)).
        rewrite <- (foldM_dset_fresh fst (fun ke => do s <- subtopo_1d (concat t) (map (@length nat) t) (snd ke) (indptr (map (@length nat) t)); Ok (np_unique s)) h ereg []).
        - clear. generalize (@nil (nat * list nat)). induction ereg as [|ke l IH]; intros d; cbn [foldM]; auto.
          destruct (subtopo_1d _ _ (snd ke) _); cbn [bind]; auto.
        - simpl. auto.
        - intros ke Hke. destruct (Hh ke Hke) as [rows [H1 H2]].
          rewrite (subtopo_1d_ok _ _ _ H1), H2; auto. }
      rewrite Hf; auto.
    + exfalso; apply Hcsr; simpl; auto.
  - intros n Hn. rewrite Hkeys in Hn. unfold dkeys in Hn. apply in_map_iff in Hn.
    destruct Hn as [[k v] [Heq Hin]]. simpl in Heq; subst k.
    exists (h (n, v)). destruct (Hh _ Hin) as [rows [H1 H2]].
    split.
    { apply In_dget; [rewrite Hkeys; auto|]. apply in_map_iff. exists (n, v); auto. }
    rewrite H2. split; [apply np_unique_sorted|]. intros m. rewrite np_unique_in.
    destruct (Hrow _ _ Hin) as [rows' [H3 H4]]. simpl in H1. rewrite H1 in H3. injection H3 as <-. auto.
Qed.

Lemma dol_to_jagged_ok (dol : dict (list nat)) :
  NoDup (dkeys dol) ->
  dol_to_jagged_data dol = Ok (map (fun kv => length (snd kv)) dol, concat (map snd dol)).
Proof.
  intros Hnd. unfold dol_to_jagged_data.
  assert (Hrows : mapM (dget dol) (dkeys dol) = Ok (map snd dol)).
  { apply mapM_Ok. unfold dkeys.
    assert (Hgen : forall l, (forall k v, In (k, v) l -> dget dol k = Ok v) ->
              Forall2 (fun x y => dget dol x = Ok y) (map fst l) (map snd l)).
    { induction l as [|[k v] l IH]; intros H; simpl; constructor.
      - apply H; left; auto.
      - apply IH; intros; apply H; right; auto. }
    apply Hgen. intros; apply In_dget; auto. }
  rewrite Hrows. cbn [bind]. rewrite scatter_ok. cbn [bind]. rewrite map_map. auto.
Qed.

Lemma nodal_adjacency_ok hasnx topo t f assume :
  represents topo t -> ~ is_csr topo -> concat t <> [] -> hasnx = true \/ f = AFJagged ->
  exists dol,
    snd (nodal_adjacency hasnx topo f assume) =
      Ok (match f with AFJagged => AJagged (map snd dol) | AFNx => ANx dol | AFOther => ADol dol end) /\
    node_keys t assume (dkeys dol) /\
    forall n, In n (dkeys dol) -> exists l, dget dol n = Ok l /\ StronglySorted lt l /\
      forall m, In m l <-> share_cell t n m.
Proof.
  intros Hr Hcsr Hne Hf.
  destruct (adjacency_dol topo t assume Hr Hcsr Hne) as [ereg [nreg [dol [Hc [Hd [Hk Hall]]]]]].
  exists dol. split; [|auto].
  unfold nodal_adjacency. destruct (cells_at_nodes topo FDicts assume None false) as [ta r].
  simpl in Hc. subst r. cbn [snd bind]. rewrite Hd. cbn [bind].
  assert (Hg : (hasnx || match f with AFJagged => true | _ => false end)%bool = true).
  { destruct Hf as [-> | ->]; auto. destruct hasnx; auto. }
  rewrite Hg. cbn [guard bind]. destruct f; auto.
  rewrite dol_to_jagged_ok by (apply SS_lt_NoDup; apply Hk). cbn [bind fst snd].
  replace (map (fun kv : nat * list nat => length (snd kv)) dol) with (map (@length nat) (map snd dol))
    by (rewrite map_map; auto).
  rewrite split_by_concat. auto.
Qed.

(** without networkx every format but 'jagged' is refused *)
Lemma nodal_adjacency_no_nx topo t f assume :
  represents topo t -> ~ is_csr topo -> concat t <> [] -> f <> AFJagged ->
  snd (nodal_adjacency false topo f assume) = Err ImportError.
Proof.
  intros Hr Hcsr Hne Hf.
  destruct (adjacency_dol topo t assume Hr Hcsr Hne) as [ereg [nreg [dol [Hc [Hd [Hk Hall]]]]]].
  unfold nodal_adjacency. destruct (cells_at_nodes topo FDicts assume None false) as [ta r].
  simpl in Hc. subst r. cbn [snd bind]. rewrite Hd. cbn [bind].
  destruct f; try congruence; auto.
Qed.

Lemma nodal_adjacency_csr_fails hasnx t f assume :
  concat t <> [] ->
  exists e, snd (nodal_adjacency hasnx (TCsr (indptr (map (@length nat) t)) (concat t)) f assume) = Err e.
Proof.
  intros Hne.
  destruct (cells_dicts _ t assume None false (rep_csr t) Hne) as [counts [ereg [nreg [Hc _]]]].
  { intros; discriminate. }
  unfold nodal_adjacency.
  destruct (cells_at_nodes (TCsr (indptr (map (@length nat) t)) (concat t)) FDicts assume None false) as [ta r].
  simpl in Hc. subst r. cbn [snd bind].
  destruct (guard (hasnx || match f with AFJagged => true | _ => false end)%bool ImportError) as [u|e];
    cbn [bind]; eauto.
Qed.

(** ** C06: rewiring *)

Lemma remap_topo_in_ok es t m (f : nat -> nat) :
  Permutation es (entries t) -> (forall n, used t n -> mlookup m n = Ok (f n)) ->
  remap_topo_in es t m = Ok (map (map f) t).
Proof.
  intros Hp Hf. unfold remap_topo_in.
  assert (Hes : forall i j n, In (i, j, n) es <-> entry t i j n).
  { intros i j n. rewrite entry_get2o, <- entries_in. split; intros H.
    - eapply Permutation_in; eauto.
    - eapply Permutation_in; [apply Permutation_sym|]; eauto. }
  rewrite mapM_map with (g := fun e => (fst e, f (node_of e))).
  2:{ intros [[i j] n] H. apply Hes in H. rewrite (Hf (node_of (i, j, n))); auto. exists i, j; auto. }
  cbn [bind].
  set (ws := map (fun e => (fst e, f (node_of e))) es).
  set (z := map (fun r => zeros 0 (length r)) t).
  assert (Hws : forall i j v, In (i, j, v) ws <-> exists n, entry t i j n /\ v = f n).
  { intros i j v. unfold ws. rewrite in_map_iff. split.
    - intros [[[i' j'] n] [H1 H2]]. simpl in H1. inversion H1; subst. apply Hes in H2. eauto.
    - intros [n [H1 ->]]. exists (i, j, n). split; auto. apply Hes; auto. }
  assert (Hc : consistent2 ws).
  { intros i j v v' H1 H2. apply Hws in H1, H2. destruct H1 as [n [H1 ->]], H2 as [n' [H2 ->]].
    apply entry_get2o in H1, H2. congruence. }
  assert (Hz : shape2 z = shape2 t).
  { unfold shape2, z. rewrite map_map. apply map_ext; intros; unfold zeros; apply repeat_length. }
  destruct (proj2 (run_writes2_in_range ws z)) as [r Hr].
  { intros i j v H. apply Hws in H. destruct H as [n [H _]]. unfold in_shape. rewrite Hz.
    apply get2o_shape. exists n. apply entry_get2o; auto. }
  rewrite Hr. f_equal.
  assert (Hsh : shape2 r = shape2 t) by (rewrite (run_writes2_shape _ _ _ Hr); auto).
  assert (Hsh2 : shape2 (map (map f) t) = shape2 t).
  { unfold shape2. rewrite map_map. apply map_ext; intros; apply map_length. }
  apply get2o_ext; [congruence|]. intros i j.
  destruct (get2o t i j) as [n|] eqn:E.
  - assert (Hin : In (i, j, f n) ws) by (apply Hws; exists n; split; auto; apply entry_get2o; auto).
    rewrite (run_writes2_written _ _ _ _ _ _ Hr Hc Hin).
    unfold get2o in *. rewrite nth_error_map. destruct (nth_error t i); [|discriminate]. simpl.
    rewrite nth_error_map, E; auto.
  - assert (Hno : forall (a : list (list nat)), shape2 a = shape2 t -> get2o a i j = None).
    { intros a Ha. destruct (get2o a i j) as [x|] eqn:Ex; auto.
      assert (exists y, get2o t i j = Some y) as [y Hy] by (apply get2o_shape; rewrite <- Ha; apply get2o_shape; eauto).
      congruence. }
    rewrite !Hno; auto.
Qed.

Lemma remap_topo_ok t m (f : nat -> nat) :
  (forall n, used t n -> mlookup m n = Ok (f n)) -> remap_topo t m = Ok (map (map f) t).
Proof. intros H; apply remap_topo_in_ok; auto. Qed.

Lemma remap_topo_1d_in_ok es t m (f : nat -> nat) :
  Permutation es (enum t) -> (forall n, In n t -> mlookup m n = Ok (f n)) ->
  remap_topo_1d_in es t m = Ok (map f t).
Proof.
  intros Hp Hf. unfold remap_topo_1d_in.
  assert (Hes : forall i n, In (i, n) es <-> nth_error t i = Some n).
  { intros i n. rewrite <- enum_in. split; intros H.
    - eapply Permutation_in; eauto.
    - eapply Permutation_in; [apply Permutation_sym|]; eauto. }
  rewrite mapM_map with (g := fun e => (fst e, f (snd e))).
  2:{ intros [i n] H. apply Hes in H. simpl. rewrite Hf; auto. eapply nth_error_In; eauto. }
  cbn [bind]. set (ws := map (fun e => (fst e, f (snd e))) es).
  assert (Hws : forall i v, In (i, v) ws <-> exists n, nth_error t i = Some n /\ v = f n).
  { intros i v. unfold ws. rewrite in_map_iff. split.
    - intros [[i' n] [H1 H2]]. simpl in H1. inversion H1; subst. apply Hes in H2. eauto.
    - intros [n [H1 ->]]. exists (i, n). split; auto. apply Hes; auto. }
  assert (Hc : consistent ws).
  { intros i v v' H1 H2. apply Hws in H1, H2. destruct H1 as [n [H1 ->]], H2 as [n' [H2 ->]]. congruence. }
  destruct (proj2 (run_writes_in_range ws (zeros 0 (length t)))) as [r Hr].
  { intros i v H. apply Hws in H. destruct H as [n [H _]]. unfold zeros; rewrite repeat_length.
    eapply nth_error_Some_lt; eauto. }
  rewrite Hr. f_equal. apply nth_error_ext; intros i.
  rewrite nth_error_map. destruct (nth_error t i) as [n|] eqn:E.
  - apply (run_writes_written _ _ _ _ _ Hr Hc). apply Hws; eauto.
  - apply nth_error_ge. rewrite (run_writes_length _ _ _ Hr). unfold zeros. rewrite repeat_length.
    apply nth_error_None; auto.
Qed.

Lemma remap_topo_1d_ok t m (f : nat -> nat) :
  (forall n, In n t -> mlookup m n = Ok (f n)) -> remap_topo_1d t m = Ok (map f t).
Proof. intros H; apply remap_topo_1d_in_ok; auto. Qed.

Lemma mapM_fails {A B} (g : A -> res B) l x :
  In x l -> (exists e, g x = Err e) -> exists e, mapM g l = Err e.
Proof.
  induction l as [|y l IH]; intros Hin Hx; [contradiction|]. simpl.
  destruct (g y) as [v|e] eqn:E; simpl; eauto.
  destruct Hin as [->|Hin].
  - destruct Hx as [e He]. congruence.
  - destruct (IH Hin Hx) as [e He]. rewrite He; simpl; eauto.
Qed.

Lemma rewire_ok topo m (f : nat -> nat) :
  rewires topo -> (forall n, In n (flat topo) -> mlookup m n = Ok (f n)) ->
  rewire topo m false = Ok (map_nodes f topo).
Proof.
  intros Hk Hf. unfold rewire. cbn [bind]. destruct topo as [t|t|t|p d]; simpl in Hk, Hf; try contradiction.
  - rewrite (remap_topo_1d_ok t m f); auto.
  - rewrite (remap_topo_ok t m f); auto. intros n Hn; apply Hf, entry_in_concat; auto.
  - rewrite (remap_topo_1d_ok (concat t) m f); auto. cbn [bind map_nodes]. do 2 f_equal.
    rewrite split_by_map, split_by_concat; auto.
Qed.

Lemma rewire_fails topo m n :
  rewires topo -> In n (flat topo) -> (exists e, mlookup m n = Err e) ->
  exists e, rewire topo m false = Err e.
Proof.
  intros Hk Hn He. unfold rewire. cbn [bind]. destruct topo as [t|t|t|p d]; simpl in Hk, Hn; try contradiction.
  - unfold remap_topo_1d, remap_topo_1d_in.
    apply In_nth_error in Hn. destruct Hn as [i Hi].
    destruct (mapM_fails (fun e => do v <- mlookup m (snd e); Ok (fst e, v)) (enum t) (i, n)) as [e' He'].
    + apply enum_in; auto.
    + destruct He as [e He]. simpl. rewrite He. simpl; eauto.
    + rewrite He'; simpl; eauto.
  - unfold remap_topo, remap_topo_in.
    apply entry_in_concat in Hn. destruct Hn as [i [j Hn]].
    destruct (mapM_fails (fun e => do v <- mlookup m (node_of e); Ok (fst e, v)) (entries t) (i, j, n)) as [e' He'].
    + apply entries_in. apply entry_get2o; auto.
    + destruct He as [e He]. unfold node_of; simpl. rewrite He. simpl; eauto.
    + rewrite He'; simpl; eauto.
  - unfold remap_topo_1d, remap_topo_1d_in.
    apply In_nth_error in Hn. destruct Hn as [i Hi].
    destruct (mapM_fails (fun e => do v <- mlookup m (snd e); Ok (fst e, v)) (enum (concat t)) (i, n)) as [e' He'].
    + apply enum_in; auto.
    + destruct He as [e He]. simpl. rewrite He. simpl; eauto.
    + rewrite He'; simpl; eauto.
Qed.

(** inverse maps *)
Lemma fold_invmap_spec k0 inds (d : dict nat) g i :
  NoDup inds -> nth_error inds i = Some g ->
  dget (fold_left (fun d ig => dset d (snd ig) (fst ig)) (enum_from k0 inds) d) g = Ok (k0 + i).
Proof.
  revert k0 d i; induction inds as [|x inds IH]; intros k0 d i Hnd Hi; [destruct i; discriminate|].
  inversion Hnd; subst. simpl. destruct i as [|i]; simpl in Hi.
  - injection Hi as ->.
    assert (Hstay : forall l k d, ~ In g l -> dget (fold_left (fun d ig => dset d (snd ig) (fst ig)) (enum_from k l) d) g = dget d g).
    { clear. induction l as [|y l IH]; intros k d Hn; simpl; auto. rewrite IH by (intros H; apply Hn; right; auto).
      rewrite dget_dset. destruct (Nat.eqb_spec g y); auto. subst; exfalso; apply Hn; left; auto. }
    rewrite Hstay by auto. rewrite dget_dset, Nat.eqb_refl. f_equal; lia.
  - rewrite (IH (S k0) _ i); auto. f_equal; lia.
Qed.

Lemma invmap_get inds g i :
  NoDup inds -> nth_error inds i = Some g -> dget (inds_to_invmap_as_dict inds) g = Ok i.
Proof. intros H1 H2. unfold inds_to_invmap_as_dict, enum. rewrite (fold_invmap_spec 0 inds [] g i); auto. Qed.

Lemma invmap_missing inds g : ~ In g inds -> dget (inds_to_invmap_as_dict inds) g = Err KeyError.
Proof.
  unfold inds_to_invmap_as_dict, enum. intros H.
  assert (Hgen : forall k l d, ~ In g l -> dget d g = Err KeyError ->
     dget (fold_left (fun d ig => dset d (snd ig) (fst ig)) (enum_from k l) d) g = Err KeyError).
  { intros k l; revert k; induction l as [|x l IH]; intros k d Hn Hd; simpl; auto.
    apply IH; [intros Hx; apply Hn; right; auto|]. rewrite dget_dset. destruct (Nat.eqb_spec g x); auto.
    subst; exfalso; apply Hn; left; auto. }
  apply Hgen; auto.
Qed.

Lemma rewire_invert_ok topo inds :
  NoDup inds -> rewires topo ->
  (forall n, In n (flat topo) -> In n inds) ->
  exists f, rewire topo (MArr inds) true = Ok (map_nodes f topo) /\
    forall n, In n (flat topo) -> nth_error inds (f n) = Some n.
Proof.
  intros Hnd Hk Hin.
  pose (f := fun n => match dget (inds_to_invmap_as_dict inds) n with Ok i => i | Err _ => 0 end).
  assert (Hf : forall n, In n inds -> dget (inds_to_invmap_as_dict inds) n = Ok (f n) /\ nth_error inds (f n) = Some n).
  { intros n Hn. apply In_nth_error in Hn. destruct Hn as [i Hi]. unfold f.
    rewrite (invmap_get inds n i) by auto. auto. }
  exists f. split; [|intros n Hn; apply Hf; auto].
  change (rewire topo (MArr inds) true) with (rewire topo (MDict (inds_to_invmap_as_dict inds)) false).
  apply rewire_ok; auto. intros n Hn. apply Hf; auto.
Qed.

Lemma map_nodes_comp f g topo : map_nodes f (map_nodes g topo) = map_nodes (fun n => f (g n)) topo.
Proof.
  destruct topo; simpl; f_equal; rewrite ?map_map; auto; apply map_ext; intros; apply map_map.
Qed.

Lemma map_nodes_id f topo : (forall n, In n (flat topo) -> f n = n) -> map_nodes f topo = topo.
Proof.
  intros H. destruct topo as [t|t|t|p d]; simpl in *; f_equal.
  - rewrite <- (map_id t) at 2. apply map_ext_in; auto.
  - rewrite <- (map_id t) at 2. apply map_ext_in; intros r Hr. rewrite <- (map_id r) at 2.
    apply map_ext_in; intros n Hn. apply H. apply in_concat; eauto.
  - rewrite <- (map_id t) at 2. apply map_ext_in; intros r Hr. rewrite <- (map_id r) at 2.
    apply map_ext_in; intros n Hn. apply H. apply in_concat; eauto.
  - rewrite <- (map_id d) at 2. apply map_ext_in; auto.
Qed.

Lemma flat_map_nodes f topo : flat (map_nodes f topo) = map f (flat topo).
Proof. destruct topo; simpl; auto; rewrite concat_map; auto. Qed.

(** local -> global by the array, then back by its inverse *)
Lemma rewire_roundtrip topo topo' inds :
  NoDup inds -> rewire topo (MArr inds) false = Ok topo' -> rewire topo' (MArr inds) true = Ok topo.
Proof.
  intros Hnd H.
  assert (Hk : rewires topo) by (destruct topo; simpl in *; auto; discriminate).
  assert (Hall : forall n, In n (flat topo) -> n < length inds).
  { intros n Hn. destruct (le_lt_dec (length inds) n) as [Hl|]; auto. exfalso.
    destruct (rewire_fails topo (MArr inds) n Hk Hn) as [e He].
    - simpl. unfold get. rewrite nth_error_ge; eauto.
    - congruence. }
  pose (f := fun n => nth n inds 0).
  assert (Hf : forall n, In n (flat topo) -> mlookup (MArr inds) n = Ok (f n)).
  { intros n Hn. simpl. apply get_Ok. unfold f. apply nth_error_nth'. auto. }
  rewrite (rewire_ok topo (MArr inds) f Hk Hf) in H. injection H as <-.
  destruct (rewire_invert_ok (map_nodes f topo) inds) as [g [Hg1 Hg2]]; auto.
  - destruct topo; auto.
  - intros n Hn. rewrite flat_map_nodes in Hn. apply in_map_iff in Hn. destruct Hn as [k [<- Hk2]].
    unfold f. apply nth_In; auto.
  - rewrite Hg1, map_nodes_comp. f_equal. apply map_nodes_id. intros n Hn.
    assert (Hin : In (f n) (flat (map_nodes f topo))) by (rewrite flat_map_nodes; apply in_map; auto).
    specialize (Hg2 _ Hin). eapply (proj1 (NoDup_nth_error inds)); auto.
    + eapply nth_error_Some_lt; eauto.
    + rewrite Hg2. specialize (Hf n Hn). simpl in Hf. apply get_Ok in Hf. auto.
Qed.

(** global -> local by the inverse, then back by the array *)
Lemma rewire_roundtrip_back topo topo' inds :
  NoDup inds -> rewire topo (MArr inds) true = Ok topo' -> rewire topo' (MArr inds) false = Ok topo.
Proof.
  intros Hnd H.
  assert (Hk : rewires topo) by (destruct topo; simpl in *; auto; discriminate).
  assert (Hall : forall n, In n (flat topo) -> In n inds).
  { intros n Hn. destruct (in_dec Nat.eq_dec n inds) as [|Hl]; auto. exfalso.
    destruct (rewire_fails topo (MDict (inds_to_invmap_as_dict inds)) n Hk Hn) as [e He].
    - simpl. rewrite invmap_missing; eauto.
    - change (rewire topo (MArr inds) true) with (rewire topo (MDict (inds_to_invmap_as_dict inds)) false) in H.
      congruence. }
  destruct (rewire_invert_ok topo inds Hnd Hk Hall) as [g [Hg1 Hg2]].
  rewrite Hg1 in H. injection H as <-.
  rewrite (rewire_ok (map_nodes g topo) (MArr inds) (fun n => nth n inds 0)).
  - rewrite map_nodes_comp. f_equal. apply map_nodes_id. intros n Hn.
    apply nth_error_nth. auto.
  - destruct topo; auto.
  - intros n Hn. rewrite flat_map_nodes in Hn. apply in_map_iff in Hn. destruct Hn as [k [<- Hk2]].
    simpl. apply get_Ok. apply nth_error_nth'. eapply nth_error_Some_lt; eauto.
Qed.

Lemma rewire_invert_missing topo inds n :
  rewires topo -> In n (flat topo) -> ~ In n inds -> exists e, rewire topo (MArr inds) true = Err e.
Proof.
  intros Hk Hn Hm.
  change (rewire topo (MArr inds) true) with (rewire topo (MDict (inds_to_invmap_as_dict inds)) false).
  apply rewire_fails with (n := n); auto. simpl. rewrite invmap_missing; eauto.
Qed.

Lemma invmap_array_ok inds es :
  NoDup inds -> inds <> [] -> Permutation es (enum inds) ->
  exists a, inds_to_invmap_as_array_in es inds = Ok a /\
    (forall i g, nth_error inds i = Some g -> nth_error a g = Some i) /\
    (forall g, In g inds -> g < length a) /\
    (forall g, g < length a -> ~ In g inds -> nth_error a g = Some 0).
Proof.
  intros Hnd Hne Hp. unfold inds_to_invmap_as_array_in.
  destruct (np_max_ok _ Hne) as [m Hm]. rewrite Hm. cbn [bind].
  apply np_max_spec in Hm. destruct Hm as [_ Hm].
  set (ws := map (fun ig : nat * nat => (snd ig, fst ig)) es).
  assert (Hws : forall g i, In (g, i) ws <-> nth_error inds i = Some g).
  { intros g i. unfold ws. rewrite in_map_iff, <- enum_in. split.
    - intros [[i' g'] [H1 H2]]. simpl in H1. inversion H1; subst. eapply Permutation_in; eauto.
    - intros H. exists (i, g); split; auto. eapply Permutation_in; [apply Permutation_sym|]; eauto. }
  assert (Hc : consistent ws).
  { intros g i i' H1 H2. apply Hws in H1, H2. eapply (proj1 (NoDup_nth_error inds)); eauto.
    - eapply nth_error_Some_lt; eauto.
    - congruence. }
  destruct (proj2 (run_writes_in_range ws (zeros 0 (m + 1)))) as [r Hr].
  { intros g i H. apply Hws in H. apply nth_error_In in H. specialize (Hm _ H).
    unfold zeros; rewrite repeat_length. lia. }
  exists r. split; auto.
  assert (Hlr : length r = m + 1) by (rewrite (run_writes_length _ _ _ Hr); unfold zeros; rewrite repeat_length; auto).
  split; [|split].
  - intros i g Hi. apply (run_writes_written _ _ _ _ _ Hr Hc). apply Hws; auto.
  - intros g Hg. rewrite Hlr. specialize (Hm _ Hg). lia.
  - intros g Hg Hn. rewrite (run_writes_untouched _ _ _ _ Hr).
    + unfold zeros. apply nth_error_repeat. lia.
    + intros i Hi. apply Hws in Hi. apply Hn. eapply nth_error_In; eauto.
Qed.

Lemma arrays_to_imap_ok source target d :
  NoDup source -> arrays_to_imap_as_dict source target = Ok d ->
  forall i s t, nth_error source i = Some s -> nth_error target i = Some t -> dget d s = Ok t.
Proof.
  intros Hnd H. unfold arrays_to_imap_as_dict, enum in H.
  assert (Hgen : forall l k d0 d1, NoDup l ->
     foldM (fun d ig => do v <- get target (fst ig); Ok (dset d (snd ig) v)) (enum_from k l) d0 = Ok d1 ->
     (forall s, ~ In s l -> dget d1 s = dget d0 s) /\
     (forall i s t, nth_error l i = Some s -> nth_error target (k + i) = Some t -> dget d1 s = Ok t)).
  { clear. induction l as [|x l IH]; intros k d0 d1 Hnd H; cbn [enum_from foldM fst snd] in H.
    - injection H as <-. split; auto. intros [|i]; discriminate.
    - inversion Hnd; subst. inv_ok. destruct (IH _ _ _ H3 H) as [Ha Hb]. apply get_Ok in Hok0. split.
      + intros s Hs. rewrite Ha by (intros Hx; apply Hs; right; auto). rewrite dget_dset.
        destruct (Nat.eqb_spec s x); auto. subst; exfalso; apply Hs; left; auto.
      + intros [|i] s t Hi Ht; simpl in Hi.
        * injection Hi as ->. rewrite Ha by auto. rewrite dget_dset, Nat.eqb_refl.
          rewrite Nat.add_0_r in Ht. congruence.
        * apply (Hb i); auto. rewrite <- Ht. f_equal; lia. }
  intros i s t Hi Ht. apply (proj2 (Hgen _ _ _ _ Hnd H) i); auto.
Qed.
