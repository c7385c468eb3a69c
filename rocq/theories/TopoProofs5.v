(** * Proofs about [TopoModel.v], part 5: regularize, detach, unique entities, purity *)
From Verif Require Export TopoProofs4.

(** ** C05 *)

Lemma take2_located t' u t : take2 u t' = Ok t -> same_shape t' t -> located_in u t t'.
Proof.
  intros H Hs. split; [symmetry; auto|]. intros i j n He.
  destruct (take2_entry _ _ _ i j H) as [_ Hb]. destruct (Hb n He) as [k [H1 H2]]. eauto.
Qed.

Lemma unique_inverse_np l u inv : unique_inverse Nat.compare l = Ok (u, inv) -> u = np_unique l.
Proof. intros H. apply (unique_inverse_spec _ nat_cmp_eq) in H. destruct H as [-> _]; auto. Qed.

Lemma regularize_full topo t :
  represents topo t ->
  exists topo' t' u,
    snd (regularize topo) = Ok (topo', u) /\ represents topo' t' /\ same_kind topo topo' /\
    StronglySorted lt u /\ (forall n, In n u <-> used t n) /\
    located_in u t t' /\
    (concat t <> [] -> tight (concat t')) /\
    (forall k, used t' k <-> k < length u).
Proof.
  intros Hr. destruct (regularize_ok _ _ Hr) as [u [inv [topo' [Hui [Hreg [Hrep [Hk _]]]]]]].
  exists topo', (split_by (map (@length nat) t) inv), u.
  pose proof (unique_inverse_np _ _ _ Hui) as Hu.
  split; auto. split; auto. split; auto. split; [subst u; apply np_unique_sorted|].
  split; [intros n; subst u; rewrite np_unique_in; symmetry; apply entry_in_concat|].
  split.
  { apply take2_located; [apply regular_rows_take; auto|]. apply inverse_row_lengths with (u := u); auto. }
  rewrite (unique_inverse_concat _ _ _ Hui). split.
  - intros Hne. apply (tight_inverse _ _ _ Hne Hui).
  - intros k. rewrite entry_in_concat, (unique_inverse_concat _ _ _ Hui). apply (inverse_covers _ _ _ _ Hui).
Qed.

(** order is preserved: follows from [u] being increasing *)
Lemma sorted_lt_nth u a b x y :
  StronglySorted lt u -> nth_error u a = Some x -> nth_error u b = Some y -> (a < b <-> x < y).
Proof.
  intros Hs Ha Hb.
  assert (Hs' : StronglySorted (clt Nat.compare) u)
    by (eapply StronglySorted_impl; [|exact Hs]; intros; apply clt_nat; auto).
  assert (Hfw : forall a b x y, nth_error u a = Some x -> nth_error u b = Some y -> a < b -> x < y).
  { clear - Hs. induction Hs as [|z u Hs IH Hf]; intros a b x y Ha Hb Hab; [destruct a; discriminate|].
    destruct b as [|b]; [lia|]. destruct a as [|a]; simpl in *.
    - injection Ha as <-. rewrite Forall_forall in Hf. apply Hf. eapply nth_error_In; eauto.
    - eapply IH; eauto. lia. }
  split; [eapply Hfw; eauto|]. intros Hxy.
  destruct (lt_eq_lt_dec a b) as [[H|H]|H]; auto; exfalso.
  - subst. assert (x = y) by congruence. lia.
  - assert (y < x) by (eapply Hfw; eauto). lia.
Qed.

(** ** C07 *)

(** renumbering by the position in a sorted array of the used numbers *)
Lemma invmap_remap t inds :
  NoDup inds -> (forall n, used t n -> In n inds) ->
  exists f, remap_topo t (MDict (inds_to_invmap_as_dict inds)) = Ok (map (map f) t) /\
    remap_topo_1d (concat t) (MDict (inds_to_invmap_as_dict inds)) = Ok (map f (concat t)) /\
    forall n, used t n -> nth_error inds (f n) = Some n.
Proof.
  intros Hnd Hin.
  pose (f := fun n => match dget (inds_to_invmap_as_dict inds) n with Ok i => i | Err _ => 0 end).
  assert (Hf : forall n, used t n -> mlookup (MDict (inds_to_invmap_as_dict inds)) n = Ok (f n) /\ nth_error inds (f n) = Some n).
  { intros n Hn. apply Hin in Hn. apply In_nth_error in Hn. destruct Hn as [i Hi]. unfold f. simpl.
    rewrite (invmap_get inds n i) by auto. auto. }
  exists f. split; [|split].
  - apply remap_topo_ok. intros n Hn; apply Hf; auto.
  - apply remap_topo_1d_ok. intros n Hn; apply Hf. apply entry_in_concat; auto.
  - intros n Hn; apply Hf; auto.
Qed.

Lemma entry_map f t i j n : entry (map (map f) t) i j n <-> exists m, entry t i j m /\ n = f m.
Proof.
  rewrite entry_get2o. unfold get2o. rewrite nth_error_map. destruct (nth_error t i) as [r|] eqn:E; simpl.
  - rewrite nth_error_map. destruct (nth_error r j) as [m|] eqn:E2; simpl; split.
    + intros [= <-]. exists m. split; auto. exists r; auto.
    + intros [m' [[r' [H1 H2]] ->]]. congruence.
    + discriminate.
    + intros [m' [[r' [H1 H2]] ->]]. congruence.
  - split; [discriminate|]. intros [m' [[r' [H1 H2]] _]]. congruence.
Qed.

Lemma located_map f t inds :
  (forall n, used t n -> nth_error inds (f n) = Some n) -> located_in inds t (map (map f) t).
Proof.
  intros H. split.
  - unfold same_shape. rewrite map_map. apply map_ext; intros; rewrite map_length; auto.
  - intros i j n He. exists (f n). split; [apply entry_map; eauto|]. apply H. exists i, j; auto.
Qed.

Lemma np_unique_used t : used_list t (np_unique (concat t)).
Proof. split; [apply np_unique_sorted|]. intros n. rewrite np_unique_in. symmetry; apply entry_in_concat. Qed.

Lemma located_covers u t t' k :
  used_list t u -> located_in u t t' -> used t' k <-> k < length u.
Proof.
  intros [Hs Hu] [Hsh Hl]. split.
  - intros [i [j He]].
    assert (exists n, entry t i j n) as [n Hn].
    { apply entry_get2o in He.
      assert (exists x, get2o t' i j = Some x) as Hx by eauto.
      apply get2o_shape in Hx. unfold same_shape, shape2 in *. unfold in_shape, shape2 in *.
      assert (Hy : in_shape t i j) by (unfold in_shape, shape2; rewrite Hsh; auto).
      apply get2o_shape in Hy. destruct Hy as [x Hy]. exists x. apply entry_get2o; auto. }
    destruct (Hl _ _ _ Hn) as [k' [H1 H2]]. apply entry_get2o in He, H1.
    assert (k = k') by congruence. subst. eapply nth_error_Some_lt; eauto.
  - intros Hk. destruct (nth_error_lt u k Hk) as [n Hn].
    assert (Hin : In n u) by (eapply nth_error_In; eauto). apply Hu in Hin. destruct Hin as [i [j He]].
    destruct (Hl _ _ _ He) as [k' [H1 H2]].
    assert (k = k') by (eapply (proj1 (NoDup_nth_error u)); [apply SS_lt_NoDup; auto|auto|congruence]).
    subst. exists i, j; auto.
Qed.

Lemma located_tight u t t' :
  used_list t u -> located_in u t t' -> concat t <> [] -> tight (concat t').
Proof.
  intros Hu Hl Hne. exists (length u - 1). intros k. rewrite <- entry_in_concat.
  rewrite (located_covers u t t' k Hu Hl).
  assert (length u <> 0).
  { destruct u; simpl; auto. exfalso. destruct (concat t) as [|x l] eqn:E; [congruence|].
    assert (Hx : In x (concat t)) by (rewrite E; left; auto). apply entry_in_concat in Hx. apply Hu in Hx. auto. }
  lia.
Qed.

Lemma take_length {A} (a : list A) inds r : take a inds = Ok r -> length r = length inds.
Proof. apply mapM_length. Qed.

Lemma detach_bulk_ok {A} (coords : list A) t :
  (forall n, used t n -> n < length coords) ->
  exists c t' inds, detach_mesh_bulk coords t = Ok (c, t') /\
    used_list t inds /\ located_in inds t t' /\ take coords inds = Ok c.
Proof.
  intros Hr. unfold detach_mesh_bulk.
  destruct (take_ok coords (np_unique (concat t))) as [c Hc].
  { intros k Hk. apply Hr, entry_in_concat. apply np_unique_in; auto. }
  destruct (invmap_remap t (np_unique (concat t))) as [f [H1 [H2 H3]]].
  { apply np_unique_NoDup. } { intros n Hn; apply np_unique_in, entry_in_concat; auto. }
  exists c, (map (map f) t), (np_unique (concat t)). rewrite Hc, H1. cbn [bind].
  split; auto. split; [apply np_unique_used|]. split; auto. apply located_map; auto.
Qed.

Lemma detach_data_ok {A B} (coords : list A) t (data : list B) :
  (forall n, used t n -> n < length coords /\ n < length data) ->
  exists c d t' inds, detach_mesh_data_bulk coords t data = Ok (c, d, t') /\
    used_list t inds /\ located_in inds t t' /\ take coords inds = Ok c /\ take data inds = Ok d.
Proof.
  intros Hr. unfold detach_mesh_data_bulk.
  destruct (take_ok coords (np_unique (concat t))) as [c Hc].
  { intros k Hk. apply Hr, entry_in_concat. apply np_unique_in; auto. }
  destruct (take_ok data (np_unique (concat t))) as [d Hd].
  { intros k Hk. apply Hr, entry_in_concat. apply np_unique_in; auto. }
  destruct (invmap_remap t (np_unique (concat t))) as [f [H1 [H2 H3]]].
  { apply np_unique_NoDup. } { intros n Hn; apply np_unique_in, entry_in_concat; auto. }
  exists c, d, (map (map f) t), (np_unique (concat t)). rewrite Hc, Hd, H1. cbn [bind].
  split; auto. split; [apply np_unique_used|]. split; auto. apply located_map; auto.
Qed.

Lemma detach_jagged_ok {A} (coords : list A) t :
  (forall n, used t n -> n < length coords) ->
  exists c t' inds, detach_mesh_jagged coords t = Ok (c, t') /\
    used_list t inds /\ located_in inds t t' /\ take coords inds = Ok c.
Proof.
  intros Hr. unfold detach_mesh_jagged.
  destruct (take_ok coords (np_unique (concat t))) as [c Hc].
  { intros k Hk. apply Hr, entry_in_concat. apply np_unique_in; auto. }
  destruct (invmap_remap t (np_unique (concat t))) as [f [H1 [H2 H3]]].
  { apply np_unique_NoDup. } { intros n Hn; apply np_unique_in, entry_in_concat; auto. }
  exists c, (map (map f) t), (np_unique (concat t)). rewrite Hc, H2. cbn [bind].
  rewrite split_by_map, split_by_concat.
  split; auto. split; [apply np_unique_used|]. split; auto. apply located_map; auto.
Qed.

Lemma take_fails {A} (a : list A) inds k : In k inds -> length a <= k -> exists e, take a inds = Err e.
Proof.
  intros Hin Hk. apply mapM_fails with (x := k); auto. unfold get. rewrite nth_error_ge by auto. eauto.
Qed.

Lemma detach_bulk_out_of_range {A} (coords : list A) t n :
  used t n -> length coords <= n -> exists e, detach_mesh_bulk coords t = Err e.
Proof.
  intros Hn Hl. unfold detach_mesh_bulk.
  destruct (take_fails coords (np_unique (concat t)) n) as [e He]; auto.
  - apply np_unique_in, entry_in_concat; auto.
  - rewrite He; simpl; eauto.
Qed.

Lemma detached_of {A} (coords : list A) t c t' inds :
  used_list t inds -> located_in inds t t' -> take coords inds = Ok c -> detached coords t c t'.
Proof.
  intros Hu Hl Hc. split; [apply Hl|]. split; [|split; [|split]].
  - intros i j n He. destruct (proj2 Hl i j n He) as [k [H1 H2]]. exists k. split; auto.
    destruct (take_nth _ _ _ _ _ Hc H2) as [x [H3 H4]]. congruence.
  - intros; eapply located_tight; eauto.
  - intros k. rewrite (take_length _ _ _ Hc). apply (located_covers inds t t' k); auto.
  - exists inds; auto.
Qed.

Lemma detach_plain {A} (coords : list A) topo t :
  represents topo t -> ~ is_csr topo -> (forall n, used t n -> n < length coords) ->
  exists c topo' t', detach coords None topo None = Ok (c, topo') /\ represents topo' t' /\
    same_kind topo topo' /\ detached coords t c t'.
Proof.
  intros Hr Hn Hin. destruct Hr as [t|t|t].
  - destruct (detach_bulk_ok coords t Hin) as [c [t' [inds [H1 [H2 [H3 H4]]]]]].
    exists c, (TNp t'), t'. unfold detach. cbn [bind]. rewrite H1. cbn [bind fst snd].
    split; auto. split; [constructor|]. split; [simpl; auto|]. eapply detached_of; eauto.
  - destruct (detach_jagged_ok coords t Hin) as [c [t' [inds [H1 [H2 [H3 H4]]]]]].
    exists c, (TAk t'), t'. unfold detach. cbn [bind]. rewrite H1. cbn [bind fst snd].
    split; auto. split; [constructor|]. split; [simpl; auto|]. eapply detached_of; eauto.
  - exfalso; apply Hn; simpl; auto.
Qed.

(** ** C08 *)

Lemma detach_global {A} (coords : list A) topo t gids pc :
  represents topo t -> ~ is_csr topo -> NoDup gids -> length gids <= length coords ->
  (forall n, used t n -> In n gids) ->
  exists c topo' t', detach coords pc topo (Some gids) = Ok (c, topo') /\ represents topo' t' /\
    same_kind topo topo' /\ same_shape t t' /\ (concat t <> [] -> tight (concat t')) /\
    (forall k, used t' k <-> k < length c) /\
    (forall i j g, entry t i j g -> exists k n', nth_error gids k = Some g /\ entry t' i j n' /\
        nth_error c n' = nth_error coords k).
Proof.
  intros Hr Hn Hnd Hlen Hin.
  assert (Hk : rewires topo) by (destruct Hr; simpl in *; auto).
  assert (Hfl : forall n, In n (flat topo) <-> used t n).
  { intros n. rewrite entry_in_concat. destruct Hr; simpl; reflexivity. }
  destruct (rewire_invert_ok topo gids) as [f [Hf1 Hf2]]; auto.
  { intros n Hx; apply Hin, Hfl; auto. }
  assert (Hr2 : represents (map_nodes f topo) (map (map f) t)).
  { destruct Hr; simpl; try constructor. exfalso; apply Hn; simpl; auto. }
  destruct (detach_plain coords (map_nodes f topo) (map (map f) t)) as [c [topo' [t' [H1 [H2 [H3 H4]]]]]]; auto.
  { destruct Hr; simpl in *; auto. }
  { intros n [i [j He]]. apply entry_map in He. destruct He as [m [He ->]].
    assert (Hm : nth_error gids (f m) = Some m) by (apply Hf2, Hfl; exists i, j; auto).
    apply nth_error_Some_lt in Hm. lia. }
  exists c, topo', t'. split.
  { unfold detach in *. rewrite Hf1. destruct Hr; simpl in Hn, Hk; try contradiction;
      cbn [bind map_nodes] in *; auto. }
  destruct H4 as [Hs [He [Ht [Hc Hi]]]].
  split; auto. split; [destruct Hr, topo'; simpl in *; auto|].
  split; [|split; [|split]].
  - unfold same_shape in *. rewrite <- Hs, map_map. apply map_ext; intros; rewrite map_length; auto.
  - intros Hne. apply Ht. rewrite <- concat_map. destruct (concat t); simpl; congruence.
  - auto.
  - intros i j g Hg. destruct (He i j (f g)) as [n' [H5 H6]]; [apply entry_map; eauto|].
    exists (f g), n'. split; [|auto]. apply Hf2, Hfl. exists i, j; auto.
Qed.

(** the ids of a PointCloud argument are used when no [inds] is given *)
Lemma detach_pointcloud {A} (coords : list A) topo gids :
  detach coords (Some gids) topo None = detach coords None topo (Some gids).
Proof. unfold detach. auto. Qed.

Lemma detach_unknown_id {A} (coords : list A) topo t gids pc n :
  represents topo t -> ~ is_csr topo -> used t n -> ~ In n gids ->
  exists e, detach coords pc topo (Some gids) = Err e.
Proof.
  intros Hr Hc Hu Hn.
  assert (Hk : rewires topo) by (destruct Hr; simpl in *; auto).
  destruct (rewire_invert_missing topo gids n) as [e He]; auto.
  - apply entry_in_concat in Hu. destruct Hr; simpl; auto.
  - unfold detach. rewrite He. destruct topo; simpl; eauto.
Qed.

(** ** C09 *)

Lemma concat_position3 (t3 : list (list (list nat))) (inv : list nat) i j e :
  length inv = length (concat t3) -> entity t3 i j e ->
  exists p, nth_error (concat t3) p = Some e /\
    forall k, nth_error inv p = Some k <-> entry (split_by (map (@length (list nat)) t3) inv) i j k.
Proof.
  revert inv i; induction t3 as [|c t3 IH]; intros inv i Hl [c' [H1 H2]]; [destruct i; discriminate|].
  simpl in Hl. rewrite app_length in Hl. destruct i as [|i]; simpl in H1.
  - injection H1 as <-. exists j.
    assert (Hj : j < length c) by (eapply nth_error_Some_lt; eauto).
    split; [simpl; rewrite nth_error_app1; auto|].
    intros k. simpl. unfold entry. simpl. split.
    + intros Hk. eexists; split; eauto. rewrite <- (firstn_skipn (length c) inv) in Hk.
      rewrite nth_error_app1 in Hk; auto. rewrite firstn_length. lia.
    + intros [r [[= <-] Hr]]. rewrite <- (firstn_skipn (length c) inv).
      rewrite nth_error_app1; auto. rewrite firstn_length. lia.
  - destruct (IH (skipn (length c) inv) i) as [p [Hp Hk]].
    { rewrite skipn_length. lia. } { exists c'; auto. }
    exists (length c + p). split.
    + simpl. rewrite nth_error_app2 by lia. rewrite <- Hp. f_equal; lia.
    + intros k. specialize (Hk k). unfold entry in *. simpl. rewrite <- Hk.
      rewrite <- (firstn_skipn (length c) inv) at 1.
      rewrite nth_error_app2 by (rewrite firstn_length; lia). rewrite firstn_length.
      replace (length c + p - Nat.min (length c) (length inv)) with p by lia. reflexivity.
Qed.

Lemma unique_topo_data_ok t3 :
  exists us ids, unique_topo_data t3 = Ok (us, ids) /\
    StronglySorted (fun x y => lex_cmp x y = Lt) us /\
    (forall x, In x us -> StronglySorted le x) /\
    map (@length nat) ids = map (@length (list nat)) t3 /\
    (forall i j e, entity t3 i j e -> exists k x, entry ids i j k /\ nth_error us k = Some x /\ Permutation e x) /\
    (forall x, In x us -> exists i j e, entity t3 i j e /\ Permutation e x).
Proof.
  unfold unique_topo_data.
  destruct (unique_inverse_ok lex_cmp lex_cmp_eq lex_cmp_anti lex_cmp_trans (map np_sort (concat t3))) as [inv Hinv]
    || destruct (unique_inverse_ok lex_cmp lex_cmp_eq (map np_sort (concat t3))) as [inv Hinv].
  rewrite Hinv. cbn [bind fst snd].
  destruct (unique_inverse_spec _ lex_cmp_eq _ _ _ Hinv) as [_ [Hlen Hk]].
  rewrite map_length in Hlen.
  do 2 eexists. split; [reflexivity|].
  split; [apply unique_sorted; [apply lex_cmp_eq|apply lex_cmp_anti|apply lex_cmp_trans]|].
  split.
  { intros x Hx. apply (proj1 (unique_in lex_cmp lex_cmp_eq _ _)) in Hx. apply in_map_iff in Hx. destruct Hx as [e [<- _]].
    apply np_sort_sorted. }
  split.
  { apply split_by_lengths. rewrite Hlen. rewrite length_concat. reflexivity. }
  split.
  - intros i j e He. destruct (concat_position3 t3 inv i j e Hlen He) as [p [Hp Hpk]].
    destruct (Hk p (np_sort e)) as [k [H1 H2]].
    { rewrite nth_error_map, Hp; auto. }
    exists k, (np_sort e). split; [apply Hpk; auto|]. split; auto. apply np_sort_perm.
  - intros x Hx. apply (proj1 (unique_in lex_cmp lex_cmp_eq _ _)) in Hx. apply in_map_iff in Hx. destruct Hx as [e [<- He]].
    apply in_concat in He. destruct He as [c [H1 H2]]. apply In_nth_error in H1, H2.
    destruct H1 as [i H1], H2 as [j H2]. exists i, j, e. split; [exists c; auto|]. apply np_sort_perm.
Qed.

(** same id iff same nodes *)
Lemma unique_topo_data_ids t3 us ids i j e i' j' e' k k' :
  unique_topo_data t3 = Ok (us, ids) -> entity t3 i j e -> entity t3 i' j' e' ->
  entry ids i j k -> entry ids i' j' k' -> (k = k' <-> Permutation e e').
Proof.
  intros H He He' Hk Hk'.
  destruct (unique_topo_data_ok t3) as [us2 [ids2 [H2 [Hs [Hsort [_ [Hall _]]]]]]].
  rewrite H in H2. injection H2 as <- <-.
  destruct (Hall _ _ _ He) as [k1 [x [H1 [H3 H4]]]].
  destruct (Hall _ _ _ He') as [k2 [x' [H5 [H6 H7]]]].
  apply entry_get2o in H1, H5, Hk, Hk'.
  assert (k1 = k) by congruence. assert (k2 = k') by congruence. subst k1 k2.
  split.
  - intros <-. rewrite H3 in H6. injection H6 as <-. etransitivity; eauto. apply Permutation_sym; auto.
  - intros Hp. assert (Hxx : x = x').
    { assert (Hpx : Permutation x x').
      { transitivity e; [apply Permutation_sym; auto|]. transitivity e'; auto. }
      apply np_sort_eq_perm in Hpx.
      assert (Hid : forall y, StronglySorted le y -> np_sort y = y).
      { intros y Hy. apply (sorted_perm_eq Nat.compare nat_cmp_eq nat_cmp_anti) .
        - apply sort_sorted; [apply nat_cmp_eq|apply nat_cmp_anti|apply nat_cmp_trans].
        - eapply StronglySorted_impl; [|exact Hy]. intros a b Hab. apply cle_nat; auto.
        - apply Permutation_sym, np_sort_perm. }
      rewrite (Hid x), (Hid x') in Hpx; auto.
      - apply Hsort. eapply nth_error_In; eauto.
      - apply Hsort. eapply nth_error_In; eauto. }
    subst x'. apply (proj1 (NoDup_nth_error us)); [|eapply nth_error_Some_lt; eauto|congruence].
    apply (sorted_NoDup lex_cmp lex_cmp_eq). exact Hs.
Qed.

(** ** C10 *)

Lemma np_sort_id_iff x : np_sort x = x <-> StronglySorted le x.
Proof.
  split; intros H.
  - rewrite <- H. apply np_sort_sorted.
  - apply (sorted_perm_eq Nat.compare nat_cmp_eq nat_cmp_anti).
    + apply sort_sorted; [apply nat_cmp_eq|apply nat_cmp_anti|apply nat_cmp_trans].
    + eapply StronglySorted_impl; [|exact H]. intros a b Hab. apply cle_nat; auto.
    + apply Permutation_sym, np_sort_perm.
Qed.

Lemma take_split {A} (us : list A) (cuts : list nat) inv l :
  take us inv = Ok l -> mapM (take us) (split_by cuts inv) = Ok (split_by cuts l).
Proof.
  revert inv l; induction cuts as [|c cs IH]; intros inv l H; simpl; auto.
  assert (Hf : take us (firstn c inv) = Ok (firstn c l) /\ take us (skipn c inv) = Ok (skipn c l)).
  { unfold take in *. apply mapM_Ok in H. split; apply mapM_Ok; clear IH.
    - revert c; induction H; intros [|c]; simpl; constructor; auto.
    - revert c; induction H; intros [|c]; simpl; auto; constructor; auto. }
  destruct Hf as [H1 H2]. rewrite H1. cbn [bind]. rewrite (IH _ _ H2). auto.
Qed.

Lemma reconstruct_ok t3 us ids :
  unique_topo_data t3 = Ok (us, ids) -> reconstruct us ids = Ok (map (map np_sort) t3).
Proof.
  unfold unique_topo_data, reconstruct. intros H. apply bind_Ok in H. destruct H as [[u inv] [Hok0 H]]. injection H as <- <-. cbn [fst snd].
  destruct (unique_inverse_spec _ lex_cmp_eq _ _ _ Hok0) as [_ [Hlen Hk]].
  assert (Ht : take u inv = Ok (map np_sort (concat t3))).
  { unfold take. apply mapM_Ok.
    assert (Hgen : forall (inv : list nat) (l : list (list nat)), length inv = length l ->
       (forall i x, nth_error l i = Some x -> exists k, nth_error inv i = Some k /\ nth_error u k = Some x) ->
       Forall2 (fun x y => get u x = Ok y) inv l).
    { clear. induction inv as [|k inv IH]; intros [|x l] Hl H; simpl in Hl; try discriminate; constructor.
      - destruct (H 0 x eq_refl) as [k' [H1 H2]]. simpl in H1. injection H1 as <-. apply get_Ok; auto.
      - apply IH; [lia|]. intros i y Hi. apply (H (S i) y Hi). }
    apply Hgen; auto. }
  rewrite (take_split _ _ _ _ Ht). f_equal. rewrite split_by_map, split_by_concat. auto.
Qed.

Lemma reconstruct_iff t3 us ids :
  unique_topo_data t3 = Ok (us, ids) ->
  (reconstruct us ids = Ok t3 <-> forall i j e, entity t3 i j e -> StronglySorted le e).
Proof.
  intros H. rewrite (reconstruct_ok _ _ _ H). split.
  - intros [= Hs] i j e [c [H1 H2]].
    assert (Hx : nth_error (map (map np_sort) t3) i = Some (map np_sort c)) by (rewrite nth_error_map, H1; auto).
    rewrite Hs, H1 in Hx. injection Hx as Hx.
    assert (Hy : nth_error (map np_sort c) j = Some (np_sort e)) by (rewrite nth_error_map, H2; auto).
    rewrite <- Hx, H2 in Hy. injection Hy as Hy. apply np_sort_id_iff; auto.
  - intros Hs. f_equal. rewrite <- (map_id t3) at 2. apply map_ext_in. intros c Hc.
    rewrite <- (map_id c) at 2. apply map_ext_in. intros e He. apply np_sort_id_iff.
    apply In_nth_error in Hc, He. destruct Hc as [i Hi], He as [j Hj]. apply (Hs i j). exists c; auto.
Qed.

(** ** C11 *)

Lemma regularize_pure topo : ~ is_csr topo -> fst (regularize topo) = topo.
Proof. destruct topo; simpl; auto. intros H; exfalso; auto. Qed.

Lemma cells_pure topo f a c r : fst (regularize topo) = topo -> fst (cells_at_nodes topo f a c r) = topo.
Proof.
  intros H. unfold cells_at_nodes.
  assert (Hmain : forall (A : Type) (k : res (topo_like * option (list nat)) -> res A),
     fst (let '(topo', prep) := if a then (topo, Ok (topo, None)) else
            match is_regular topo with
            | Err e => (topo, Err e)
            | Ok true => (topo, Ok (topo, None))
            | Ok false => let (t', r) := regularize topo in (t', do ru <- r; Ok (fst ru, Some (snd ru)))
            end in (topo', k prep)) = topo).
  { intros A k. destruct a; auto. destruct (is_regular topo) as [[]|]; auto.
    destruct (regularize topo); auto. }
  destruct c; [destruct (is_dicts f); auto|]; apply Hmain.
Qed.

Lemma query_pure q topo : fst (regularize topo) = topo -> after q topo = topo.
Proof.
  intros H. destruct q; simpl; auto.
  - unfold count_cells_at_nodes. destruct regular; auto. destruct (regularize topo); auto.
  - apply cells_pure; auto.
  - unfold nodal_adjacency. pose proof (cells_pure topo FDicts assume None false H) as Hc.
    destruct (cells_at_nodes topo FDicts assume None false). auto.
Qed.

Lemma queries_pure qs topo :
  fst (regularize topo) = topo -> fold_left (fun t q => after q t) qs topo = topo.
Proof.
  intros H. induction qs as [|q qs IH]; simpl; auto. rewrite query_pure; auto.
Qed.

Lemma csr_tight_pure t :
  tight (concat t) -> fst (regularize (TCsr (indptr (map (@length nat) t)) (concat t))) =
    TCsr (indptr (map (@length nat) t)) (concat t).
Proof.
  intros Ht. unfold regularize.
  destruct (unique_inverse Nat.compare (concat t)) as [[u inv]|e] eqn:E; auto.
  destruct (inverse_tight_id _ _ _ Ht E) as [_ ->]. auto.
Qed.

(** ** Packaging for [PropertiesTopo.v] *)

Lemma share_cell_sym t n m : share_cell t n m <-> share_cell t m n.
Proof. unfold share_cell; split; intros [r H]; exists r; tauto. Qed.

Lemma share_cell_refl t n : used t n <-> share_cell t n n.
Proof.
  rewrite entry_in_concat, in_concat. unfold share_cell. split; intros [r H]; exists r; tauto.
Qed.

Lemma is_regular_decides topo t :
  represents topo t -> concat t <> [] ->
  (is_regular topo = Ok true <-> tight (concat t)) /\ (is_regular topo = Ok false <-> ~ tight (concat t)).
Proof.
  intros Hr Hne. pose proof (tight_is_regular _ _ Hr Hne) as H. split; auto.
  rewrite <- H. destruct (is_regular_total _ _ Hr Hne) as [[] ->]; split; try congruence; intros H1.
Qed.

(** ** One-dimensional arrays *)
Lemma regularize_1d l :
  exists r u, regularize (TNp1 l) = (TNp1 l, Ok (TNp1 r, u)) /\ StronglySorted lt u /\ (forall n, In n u <-> In n l) /\
    length r = length l /\ (forall i n, nth_error l i = Some n -> exists k, nth_error r i = Some k /\ nth_error u k = Some n) /\
    (l <> [] -> tight r).
Proof.
  destruct (unique_inverse_ok Nat.compare nat_cmp_eq l) as [inv E]. exists inv, (np_unique l). cbn [regularize]. rewrite E. cbn [bind fst snd].
  split; [reflexivity|]. split; [apply np_unique_sorted|]. split; [intros n; apply np_unique_in|].
  pose proof (unique_inverse_spec Nat.compare nat_cmp_eq _ _ _ E) as (_ & E2 & E3). split; [exact E2|]. split; [exact E3|].
  intros H. exact (tight_inverse _ _ _ H E).
Qed.
Lemma is_regular_1d l : l <> [] -> (is_regular (TNp1 l) = Ok true <-> tight l) /\ (is_regular (TNp1 l) = Ok false <-> ~ tight l).
Proof.
  intros H. pose proof (is_regular_decides (TNp [l]) [l] (rep_np [l])) as G. cbn [concat] in G. rewrite app_nil_r in G. specialize (G H).
  unfold is_regular in *. cbn [flat concat] in G. rewrite app_nil_r in G. exact G.
Qed.

Lemma stores_flat topo n : stores topo n <-> In n (flat topo).
Proof. destruct topo; simpl; rewrite ?in_concat; reflexivity. Qed.

Lemma rewire_stores_ok topo m f :
  rewires topo -> (forall n, stores topo n -> mlookup m n = Ok (f n)) ->
  rewire topo m false = Ok (map_nodes f topo).
Proof. intros Hk H. apply rewire_ok; auto. intros n Hn; apply H, stores_flat; auto. Qed.

Lemma rewire_stores_fails topo m n e :
  rewires topo -> stores topo n -> mlookup m n = Err e -> exists e', rewire topo m false = Err e'.
Proof. intros Hk H He. apply rewire_fails with (n := n); eauto. apply stores_flat; auto. Qed.

Lemma rewire_invert_stores topo inds :
  NoDup inds -> rewires topo -> (forall n, stores topo n -> In n inds) ->
  exists f, rewire topo (MArr inds) true = Ok (map_nodes f topo) /\
    forall n, stores topo n -> nth_error inds (f n) = Some n.
Proof.
  intros Hnd Hk H. destruct (rewire_invert_ok topo inds Hnd Hk) as [f [H1 H2]].
  - intros n Hn; apply H, stores_flat; auto.
  - exists f. split; auto. intros n Hn; apply H2, stores_flat; auto.
Qed.

Lemma rewire_invert_missing_stores topo inds n :
  rewires topo -> stores topo n -> ~ In n inds -> exists e, rewire topo (MArr inds) true = Err e.
Proof. intros Hk H Hn. apply rewire_invert_missing with (n := n); auto. apply stores_flat; auto. Qed.

Lemma invmap_array_race :
  exists inds es a a', Permutation es (enum inds) /\
    inds_to_invmap_as_array_in (enum inds) inds = Ok a /\
    inds_to_invmap_as_array_in es inds = Ok a' /\ a <> a'.
Proof.
  exists [0; 0], [(1, 0); (0, 0)], [1], [0]. split; [apply perm_swap|].
  split; [reflexivity|]. split; [reflexivity|discriminate].
Qed.

Lemma detach_data_full {A B} (coords : list A) t (data : list B) :
  (forall n, used t n -> n < length coords /\ n < length data) ->
  exists c d t', detach_mesh_data_bulk coords t data = Ok (c, d, t') /\
    detached coords t c t' /\ detached data t d t'.
Proof.
  intros H. destruct (detach_data_ok coords t data H) as [c [d [t' [inds [H1 [H2 [H3 [H4 H5]]]]]]]].
  exists c, d, t'. split; auto. split; eapply detached_of; eauto.
Qed.

Lemma reconstruct_refuted :
  exists t3 us ids, unique_topo_data t3 = Ok (us, ids) /\ reconstruct us ids <> Ok t3.
Proof.
  exists [[[0;1];[1;2];[2;3];[3;0]]]. do 2 eexists. split; [reflexivity|]. discriminate.
Qed.

Lemma queries_pure_nocsr qs topo :
  ~ is_csr topo -> fold_left (fun t q => after q t) qs topo = topo.
Proof. intros H. apply queries_pure, regularize_pure; auto. Qed.

Lemma queries_pure_csr qs t :
  let topo := TCsr (indptr (map (@length nat) t)) (concat t) in
  tight (concat t) -> fold_left (fun t q => after q t) qs topo = topo.
Proof. intros topo H. apply queries_pure, csr_tight_pure; auto. Qed.

Lemma csr_mutated :
  exists t, let topo := TCsr (indptr (map (@length nat) t)) (concat t) in
    after (QCount false) topo <> topo /\
    snd (count_cells_at_nodes (after (QCount false) topo) false) <> snd (count_cells_at_nodes topo false).
Proof. exists [[0; 2]; [2; 5]]. split; discriminate. Qed.

(** the array form of the inverse map, one position after the other: the last position of an index is kept *)
Lemma invmap_array_order inds :
  inds <> [] ->
  exists a, inds_to_invmap_as_array inds = Ok a /\
    (forall i g, nth_error inds i = Some g -> (forall j, i < j -> nth_error inds j <> Some g) -> nth_error a g = Some i) /\
    (forall g, In g inds -> g < length a) /\
    (forall g, g < length a -> ~ In g inds -> nth_error a g = Some 0).
Proof.
  intros Hne. unfold inds_to_invmap_as_array, inds_to_invmap_as_array_in.
  destruct (np_max_ok _ Hne) as [m Hm]. rewrite Hm. cbn [bind].
  apply np_max_spec in Hm. destruct Hm as [_ Hm].
  set (ws := map (fun ig : nat * nat => (snd ig, fst ig)) (enum inds)).
  assert (Hws : forall g i, In (g, i) ws <-> nth_error inds i = Some g).
  { intros g i. unfold ws. rewrite in_map_iff, <- enum_in. split.
    - intros [[i' g'] [H1 H2]]. simpl in H1. inversion H1; subst. assumption.
    - intros H. exists (i, g); split; auto. }
  destruct (proj2 (run_writes_in_range ws (zeros 0 (m + 1)))) as [r Hr].
  { intros g i H. apply Hws in H. apply nth_error_In in H. specialize (Hm _ H).
    unfold zeros; rewrite repeat_length. lia. }
  exists r. split; auto.
  assert (Hlr : length r = m + 1) by (rewrite (run_writes_length _ _ _ Hr); unfold zeros; rewrite repeat_length; auto).
  split; [|split].
  - intros i g Hi Hl. destruct (nth_error_split _ _ Hi) as (l1 & l2 & E & L1).
    unfold ws, enum in Hr. rewrite E, enum_from_app, map_app in Hr. cbn [enum_from map fst snd Nat.add] in Hr. rewrite L1 in Hr.
    unfold run_writes in Hr. rewrite foldM_app in Hr.
    destruct (foldM _ (map _ (enum_from 0 l1)) (zeros 0 (m + 1))) as [a1|] eqn:E1; [|discriminate]. cbn [bind foldM fst snd] in Hr.
    destruct (set a1 g i) as [a2|] eqn:E2; [|discriminate]. cbn [bind] in Hr. fold (run_writes (map (fun ig : nat * nat => (snd ig, fst ig)) (enum_from (S i) l2)) a2) in Hr.
    rewrite (run_writes_untouched _ _ _ g Hr).
    + rewrite (set_nth_error _ _ _ _ g E2), Nat.eqb_refl. reflexivity.
    + intros v Hv. apply in_map_iff in Hv. destruct Hv as ([j h] & [= -> ->] & Hj). apply enum_from_in in Hj. destruct Hj as (Hj1 & Hj2).
      apply (Hl v); [lia|]. rewrite E, nth_error_app2 by lia. rewrite L1. replace (v - i) with (S (v - S i)) by lia. exact Hj2.
  - intros g Hg. rewrite Hlr. specialize (Hm _ Hg). lia.
  - intros g Hg Hn. rewrite (run_writes_untouched _ _ _ _ Hr).
    + unfold zeros. apply nth_error_repeat. lia.
    + intros i Hi. apply Hws in Hi. apply Hn. eapply nth_error_In; eauto.
Qed.
