(** * Proofs about [LocModel.v], part 7: nearest neighbours and lazy evaluation *)
From Coq Require Import Reals Lra Lia List Permutation Sorting.Sorted.
From Verif Require Import LocModel LocSpec QuadSpec SplitSpec BaseFacts TopoProofs5 TrProofs ShapeProofs4 TriProofs TriProofs2 TriProofs6 LocProofs LocProofs2 LocProofs3 LocProofs4 LocProofs5 LocProofs6.
Import ListNotations.
Local Open Scope R_scope.

(** ** a correct query: sort by distance *)
Fixpoint insert_by (f : nat -> R) (i : nat) (l : list nat) : list nat :=
  match l with [] => [i] | j :: r => if Rle_dec (f i) (f j) then i :: l else j :: insert_by f i r end.
Definition sort_by (f : nat -> R) (l : list nat) : list nat := fold_right (insert_by f) [] l.
Definition sorting_query (X : list (list R)) (y : list R) (k : nat) (bound : option R) : list nat :=
  firstn k (sort_by (fun i => dist2 y (nth i X [])) (seq 0 (length X))).
Lemma insert_perm : forall f i l, Permutation (i :: l) (insert_by f i l).
Proof.
  intros f i. induction l as [|j l IH]; [constructor; constructor|]. cbn [insert_by]. destruct (Rle_dec _ _); [reflexivity|].
  transitivity (j :: i :: l); [apply perm_swap|now constructor].
Qed.
Lemma sort_perm : forall f l, Permutation l (sort_by f l).
Proof. intros f. induction l as [|i l IH]; [constructor|]. cbn [sort_by fold_right]. rewrite <- insert_perm. now constructor. Qed.
Lemma insert_sorted : forall f i l, StronglySorted (fun a b => f a <= f b) l -> StronglySorted (fun a b => f a <= f b) (insert_by f i l).
Proof.
  intros f i l H. induction H as [|j l H IH Hj]; [repeat constructor|]. cbn [insert_by]. destruct (Rle_dec (f i) (f j)) as [Hle|Hle].
  - constructor; [now constructor|]. constructor; [assumption|]. rewrite Forall_forall in *. intros b Hb. specialize (Hj b Hb). lra.
  - constructor; [assumption|]. apply Forall_forall. intros b Hb. apply (Permutation_in _ (Permutation_sym (insert_perm f i l))) in Hb.
    destruct Hb as [<-|Hb]; [lra|]. rewrite Forall_forall in Hj. auto.
Qed.
Lemma sort_sorted : forall f l, StronglySorted (fun a b => f a <= f b) (sort_by f l).
Proof. intros f. induction l as [|i l IH]; [constructor|]. cbn [sort_by fold_right]. now apply insert_sorted. Qed.
Lemma ss_split : forall (P : nat -> nat -> Prop) l1 l2, StronglySorted P (l1 ++ l2) -> forall a b, In a l1 -> In b l2 -> P a b.
Proof.
  intros P l1 l2. induction l1 as [|c l1 IH]; intros H a b [].
  - subst c. intros Hb. cbn [app] in H. inversion H as [|? ? _ HF]; subst. rewrite Forall_forall in HF. apply HF. apply in_or_app. now right.
  - intros Hb. cbn [app] in H. inversion H; subst. now apply IH.
Qed.
Lemma sorting_nearest : nearest_query sorting_query.
Proof.
  intros X y k Hk. unfold sorting_query. set (f := fun i => dist2 y (nth i X [])). set (s := sort_by f (seq 0 (length X))).
  pose proof (sort_perm f (seq 0 (length X))) as HP. pose proof (sort_sorted f (seq 0 (length X))) as HS. fold s in HP, HS.
  assert (HL : length s = length X) by (rewrite <- (Permutation_length HP); apply seq_length).
  assert (HN : NoDup s) by (apply (Permutation_NoDup HP), seq_NoDup).
  pose proof (firstn_skipn k s) as HA. unfold nearest. split; [rewrite firstn_length; lia|]. split.
  { rewrite <- HA in HN. clear - HN. induction (firstn k s) as [|a l IH]; [constructor|]. cbn [app] in HN. inversion HN as [|? ? H1 H2]; subst. constructor; [|auto].
    intros H. apply H1. apply in_or_app. now left. }
  split.
  - apply Forall_forall. intros i Hi. assert (Hs : In i s) by (rewrite <- HA; apply in_or_app; now left).
    apply (Permutation_in _ (Permutation_sym HP)) in Hs. apply in_seq in Hs. lia.
  - intros i j Hi Hj Hnj. assert (Hs : In j s) by (apply (Permutation_in _ HP), in_seq; lia). rewrite <- HA in Hs. apply in_app_or in Hs. destruct Hs as [Hs|Hs]; [contradiction|].
    rewrite <- HA in HS. exact (ss_split _ _ _ HS i j Hi Hs).
Qed.

(** ** the upper bound for the distance *)
Lemma knn_bound_ignored : forall query X Y k bound, k_nearest_neighbours query false X Y k bound = k_nearest_neighbours query false X Y k None.
Proof. reflexivity. Qed.

(** ** five tetrahedra, the large one far from its centre *)
Definition corner (o e : R) : list (list R) := [[o; o; o]; [o + e; o; o]; [o; o + e; o]; [o; o; o + e]].
Definition five_ecs : list (list (list R)) := [corner 0 100; corner (-2) 1; corner (-4) 1; corner (-6) 1; corner (-8) 1].
Definition five_coords : list (list R) := concat five_ecs.
Definition five_topo : list (list nat) := [[0; 1; 2; 3]; [4; 5; 6; 7]; [8; 9; 10; 11]; [12; 13; 14; 15]; [16; 17; 18; 19]]%nat.
Lemma five_mesh : mesh_at five_coords five_topo five_ecs.
Proof. unfold mesh_at, nodes_at, five_topo, five_ecs, five_coords, corner. cbn [concat app]. repeat (apply Forall2_cons; [repeat (apply Forall2_cons; [reflexivity|]); apply Forall2_nil|]). apply Forall2_nil. Qed.
Lemma corner_solid : forall o e, e <> 0 -> solid_tet (corner o e).
Proof.
  intros o e He. apply solid_of_volume; try reflexivity. unfold signed_volume, at_. cbn [nth].
  replace ((_ - _ + _) / 6) with (e * (e * e) / 6) by field.
  assert (e * (e * e) <> 0) by (repeat apply Rmult_integral_contrapositive_currified; assumption). lra.
Qed.
Lemma five_solid : forall ec q, In ec five_ecs -> In q tetmap_TET4 -> solid_tet (pick q ec).
Proof.
  intros ec q He [<-|[]]. unfold five_ecs in He. cbn [In] in He.
  assert (exists o e, ec = corner o e /\ e <> 0) as (o & e & -> & Hne).
  { destruct He as [<-|[<-|[<-|[<-|[<-|[]]]]]]; do 2 eexists; (split; [reflexivity|lra]). }
  exact (corner_solid o e Hne).
Qed.
Lemma corner_centre : forall o e c, centre 3 (corner o e) c -> c = [o + e / 4; o + e / 4; o + e / 4].
Proof.
  intros o e c (HD & _ & _ & HW). apply space_eq; [assumption|reflexivity|]. intros d Hd. rewrite (HW d Hd).
  assert (E : INR 4 = 4) by (cbn; lra). unfold corner. cbn [length repeat]. rewrite E. unfold weighted, at_. destruct d as [|[|[|]]]; [| | |lia]; cbn [nth combine map fold_right fst snd]; field.
Qed.
Lemma corner_weights : forall o e x, e <> 0 -> weights_of 3 [1 - 3 * ((x - o) / e); (x - o) / e; (x - o) / e; (x - o) / e] (corner o e) [x; x; x].
Proof.
  intros o e x He. split; [reflexivity|]. split; [cbn [fold_right]; lra|]. intros [|[|[|]]] Hd; [| | |lia]; unfold weighted, at_, corner; cbn [nth combine map fold_right fst snd]; field; assumption.
Qed.
Lemma five_centers : forall centers, Forall2 (centre 3) (simplices tetmap_TET4 five_ecs) centers ->
  centers = [[25; 25; 25]; [-7/4; -7/4; -7/4]; [-15/4; -15/4; -15/4]; [-23/4; -23/4; -23/4]; [-31/4; -31/4; -31/4]].
Proof.
  intros centers H. change (simplices tetmap_TET4 five_ecs) with five_ecs in H. unfold five_ecs in H.
  inversion H as [|? c0 ? l0 H0 R0]; subst. inversion R0 as [|? c1 ? l1 H1 R1]; subst. inversion R1 as [|? c2 ? l2 H2 R2]; subst.
  inversion R2 as [|? c3 ? l3 H3 R3]; subst. inversion R3 as [|? c4 ? l4 H4 R4]; subst. inversion R4; subst.
  apply corner_centre in H0, H1, H2, H3, H4. subst. repeat (apply f_equal2; [repeat (apply f_equal2; [lra|]); reflexivity|]). reflexivity.
Qed.
Lemma lazy_misses : forall query sched tol, any_order sched -> nearest_query query -> 0 < tol <= 1 ->
  exists tgt locs,
    locate query sched lcoords_TET4 (Ok tetmap_TET4) five_coords five_topo false 4%nat tol [[1; 1; 1]] = Ok ([0%nat], tgt, locs) /\
    locate query sched lcoords_TET4 (Ok tetmap_TET4) five_coords five_topo true 4%nat tol [[1; 1; 1]] = Ok ([], [], []) /\
    pip_3d query (Ok tetmap_TET4) five_coords five_topo false 4%nat tol [[1; 1; 1]] = Ok [true] /\
    pip_3d query (Ok tetmap_TET4) five_coords five_topo true 4%nat tol [[1; 1; 1]] = Ok [false].
Proof.
  intros query sched tol Hs Hq Ht.
  assert (Hlc : Forall (dim 3) (lcoords_TET4 (K := R))) by repeat constructor.
  assert (Hr : rect 4 five_topo) by repeat constructor.
  assert (Hx : Forall (dim 3) [[1; 1; 1]]) by repeat constructor.
  assert (HB : exists ec, In ec five_ecs /\ near_cell 3 tol tetmap_TET4 ec [1; 1; 1]).
  { exists (corner 0 100). split; [now left|]. exists [0; 1; 2; 3]%nat. split; [now left|]. exists [1 - 3 * ((1 - 0) / 100); (1 - 0) / 100; (1 - 0) / 100; (1 - 0) / 100].
    split; [exact (corner_weights 0 100 1 ltac:(lra))|]. repeat (apply Forall_cons; [lra|]); apply Forall_nil. }
  assert (HE : forall centers, Forall2 (centre 3) (simplices tetmap_TET4 five_ecs) centers ->
    ~ exists j tet, In j (query centers [1; 1; 1] 4%nat None) /\ nth_error (simplices tetmap_TET4 five_ecs) j = Some tet /\ near_hull 3 tol tet [1; 1; 1]).
  { intros centers Hc (j & tet & Hj & Ht' & HN). apply five_centers in Hc. change (simplices tetmap_TET4 five_ecs) with five_ecs in Ht'.
    assert (H4 : (4 <= length centers)%nat) by (rewrite Hc; cbn; lia). destruct (Hq centers [1; 1; 1] 4%nat H4) as (HL & HD & _ & HO).
    destruct j as [|j].
    - assert (HX : exists i, In i (seq 0 5) /\ ~ In i (query centers [1; 1; 1] 4%nat None)).
      { destruct (Exists_dec (fun i => ~ In i (query centers [1; 1; 1] 4%nat None)) (seq 0 5)) as [HX|HX].
        - intros i. destruct (in_dec Nat.eq_dec i (query centers [1; 1; 1] 4%nat None)); [right; tauto|now left].
        - apply Exists_exists in HX. exact HX.
        - exfalso. assert (HI : incl (seq 0 5) (query centers [1; 1; 1] 4%nat None)).
          { intros i Hi. destruct (in_dec Nat.eq_dec i (query centers [1; 1; 1] 4%nat None)) as [|Hn]; [assumption|]. exfalso. apply HX. apply Exists_exists. eauto. }
          apply NoDup_incl_length in HI; [|apply seq_NoDup]. rewrite seq_length, HL in HI. lia. }
      destruct HX as (i & Hi & Hni). specialize (HO 0%nat i Hj). apply in_seq in Hi. rewrite Hc in HO. cbn [length] in HO. specialize (HO ltac:(lia)). rewrite <- Hc in HO. specialize (HO Hni). rewrite Hc in HO.
      destruct i as [|[|[|[|[|i]]]]]; [now apply Hni| | | | |lia]; unfold dist2 in HO; cbn [nth combine map fold_right fst snd] in HO; lra.
    - assert (exists o, tet = corner o 1 /\ o <= -2) as (o & -> & Ho).
      { unfold five_ecs in Ht'. destruct j as [|[|[|[|j]]]]; cbn [nth_error] in Ht'; [injection Ht' as <-; eexists; (split; [reflexivity|lra])..|destruct j; discriminate Ht']. }
      revert HN. apply (not_near tol _ [1; 1; 1] _ (corner_solid o 1 ltac:(lra)) eq_refl (corner_weights o 1 1 ltac:(lra))). apply Exists_cons_tl, Exists_cons_hd. right. lra. }
  destruct (locate_eager query sched lcoords_TET4 tetmap_TET4 five_coords five_topo five_ecs Hlc pieces_TET4 five_mesh Hr five_solid tol [[1; 1; 1]] Hx Hs 4%nat) as (src & tgt & locs & E & H).
  assert (src = [0%nat]) as ->.
  { apply sorted_lists; [apply H| |].
    - intros a b i j Ha Hb Hab. destruct b as [|b]; [lia|]. destruct b; discriminate Hb.
    - intros i. split.
      + intros Hi. destruct (located_src _ _ _ _ _ _ _ H i Hi) as (p & Hp). destruct i as [|[|i]]; try discriminate Hp. now left.
      + intros [<-|[]]. now apply (proj1 (proj2 (proj2 (proj2 H))) 0%nat [1; 1; 1] eq_refl). }
  exists tgt, locs. split; [exact E|]. split; [|split].
  - destruct (locate_lazy query sched lcoords_TET4 tetmap_TET4 five_coords five_topo five_ecs Hlc pieces_TET4 five_mesh Hr five_solid tol [[1; 1; 1]] Hx Hs Hq 4%nat 4%nat eq_refl ltac:(lia)) as (centers & Hc & src' & tgt' & locs' & E' & H').
    rewrite E'. destruct src' as [|i src'].
    + destruct H' as (H1 & H2 & _). destruct tgt'; [|discriminate H1]. destruct locs'; [|discriminate H2]. reflexivity.
    + exfalso. destruct (located_src _ _ _ _ _ _ _ H' i (or_introl eq_refl)) as (p & Hp). destruct i as [|[|i]]; try discriminate Hp.
      apply (not_listed _ _ _ _ _ _ _ 0%nat [1; 1; 1] H' eq_refl (HE centers Hc)). now left.
  - destruct (pip_eager query lcoords_TET4 tetmap_TET4 five_coords five_topo five_ecs pieces_TET4 five_mesh Hr five_solid tol [[1; 1; 1]] Hx 4%nat) as (b & E' & H').
    rewrite E'. inversion H' as [|? v ? l Hv Hl]; subst. inversion Hl; subst. f_equal. f_equal. now apply Hv.
  - destruct (pip_lazy query lcoords_TET4 tetmap_TET4 five_coords five_topo five_ecs pieces_TET4 five_mesh Hr five_solid tol [[1; 1; 1]] Hx Hq 4%nat 4%nat eq_refl ltac:(lia)) as (centers & Hc & b & E' & H').
    rewrite E'. inversion H' as [|? v ? l Hv Hl]; subst. inversion Hl; subst. f_equal. f_equal. destruct v; [|reflexivity]. exfalso. apply (HE centers Hc). now apply Hv.
Qed.
