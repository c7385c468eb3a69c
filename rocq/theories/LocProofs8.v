(** * Proofs about [LocModel.v], part 8: triangles in the plane, nearest neighbours with a bound, the first hit *)
From Coq Require Import Reals Lra Lia List Permutation.
From Verif Require Import LocModel LocSpec QuadSpec BaseFacts TrProofs ShapeProofs4 TriProofs TriProofs2 TriProofs3 TriProofs6 LocProofs LocProofs2 LocProofs3 LocProofs4 LocProofs7.
Import ListNotations.
Local Open Scope R_scope.

Lemma ccw_length : forall ec, ccw_cell ec -> length ec = 3%nat.
Proof. intros ec (a & b & c & -> & _). reflexivity. Qed.
Lemma simplices_T3 : forall ecs, Forall (fun ec : list (list R) => length ec = 3%nat) ecs -> simplices trimap_T3 ecs = ecs.
Proof.
  intros ecs H. unfold simplices, trimap_T3. induction H as [|ec ecs He _ IH]; [reflexivity|]. cbn [list_prod map app fst snd]. rewrite IH.
  f_equal. destruct ec as [|a [|b [|c [|]]]]; try discriminate He. reflexivity.
Qed.
Lemma pick_T3 : forall ec : list (list R), length ec = 3%nat -> pick [0; 1; 2]%nat ec = ec.
Proof. intros ec He. destruct ec as [|a [|b [|c [|]]]]; try discriminate He. reflexivity. Qed.
Lemma ccw_pick : forall ecs, Forall ccw_cell ecs -> forall ec q, In ec ecs -> In q trimap_T3 -> ccw_cell (pick q ec).
Proof.
  intros ecs H ec q He [<-|[]]. rewrite Forall_forall in H. rewrite pick_T3 by (apply ccw_length; auto). auto.
Qed.
Lemma nat_ccw_dim : forall ec p, ccw_cell ec -> dim 2 p ->
  exists l, glob_to_nat_tri Floating p ec = Ok l /\ weights_of 2 l ec p /\ forall l', weights_of 2 l' ec p -> l' = l.
Proof. intros. apply nat_ccw_cell; auto using dim_has. Qed.
Lemma pieces_T3 : pieces 3 3 trimap_T3.
Proof. repeat constructor. Qed.
Lemma position_T3 : forall ec l p, length ec = 3%nat -> weights_of 2 l ec p -> forall loc, dim 2 loc -> weights_of 2 l lcoords_tri loc ->
  forall a, (a < 2)%nat -> position shp_tri_loc ec a loc = at_ a p.
Proof.
  intros ec l p HL (HLl & HS & HW) loc Hloc (_ & _ & HW') a Ha. destruct (dim2 _ Hloc) as (r & s & ->).
  destruct ec as [|p0 [|p1 [|p2 [|]]]]; try discriminate HL. destruct l as [|l0 [|l1 [|l2 [|]]]]; try discriminate HLl. cbn [fold_right] in HS.
  pose proof (HW' 0%nat ltac:(lia)) as E0. pose proof (HW' 1%nat ltac:(lia)) as E1.
  unfold weighted, at_, lcoords_tri in E0, E1. cbn [combine map fold_right fst snd nth] in E0, E1.
  rewrite (HW a Ha). unfold position, shp_tri_loc, get. cbn [nth_error bind]. unfold weighted, dot, rsum. cbn [map combine fold_right fst snd]. unfold at_.
  replace r with l1 by lra. replace s with l2 by lra. replace l0 with (1 - l1 - l2) by lra. ring.
Qed.

(** ** locate_tri_2d *)
Lemma locate_tri : forall query sched coords topo ecs tol x k, any_order sched -> mesh_at coords topo ecs -> Forall ccw_cell ecs -> Forall (dim 2) x ->
  exists src tgt locs, locate_tri_2d query sched coords topo false k tol x = Ok (src, tgt, locs) /\
  located_all x (length topo) (fun p => exists ec, In ec ecs /\ near_hull 2 tol ec p)
    (fun e p loc => exists ec, nth_error ecs e = Some ec /\ near_hull 2 tol ec p /\ dim 2 loc /\
       forall a, (a < 2)%nat -> position shp_tri_loc ec a loc = at_ a p) src tgt locs.
Proof.
  intros query sched coords topo ecs tol x k Hs Hm Hc Hx.
  assert (HL : Forall (fun ec : list (list R) => length ec = 3%nat) ecs) by (eapply Forall_impl; [|exact Hc]; apply ccw_length).
  assert (Hlc : Forall (dim 2) lcoords_tri) by repeat constructor.
  destruct (eager_ok query sched Hs (glob_to_nat_tri Floating) 3 2 ccw_cell lcoords_tri trimap_T3 nat_ccw_dim ccw_length
    (comb_2d _ _ Hlc pieces_T3) (pieces_length _ _ _ pieces_T3) ecs (ccw_pick ecs Hc) x Hx tol) as (src & tgt & locs & E & H).
  exists src, tgt, locs. rewrite (simplices_T3 _ HL), (mesh_length _ _ _ Hm) in E. rewrite (mesh_length _ _ _ Hm) in H. split.
  { unfold locate_tri_2d. rewrite (proj1 (mesh_mapM _ _ _) Hm). exact E. }
  destruct H as (H1 & H2 & H3 & H4 & H5). split; [assumption|]. split; [assumption|]. split; [assumption|]. rewrite Forall_forall in HL. split.
  - intros i p Hp. rewrite (H4 i p Hp). split.
    + intros (ec & He & q & [<-|[]] & HN). exists ec. split; [assumption|]. now rewrite pick_T3 in HN by auto.
    + intros (ec & He & HN). exists ec. split; [assumption|]. exists [0; 1; 2]%nat. split; [now left|]. now rewrite pick_T3 by auto.
  - intros s i e loc Hi He Hl. destruct (H5 s i e loc Hi He Hl) as (p & Hp & Hlt & ec & Hec & q & l & [<-|[]] & HW & HF & HW' & HD).
    exists p. split; [assumption|]. split; [assumption|]. exists ec. split; [assumption|]. apply nth_error_In in Hec. rewrite pick_T3 in HW by auto.
    split; [now exists l|]. split; [assumption|]. rewrite pick_T3 in HW' by reflexivity. intros a Ha. apply (position_T3 ec l p); auto.
Qed.
(** every point of the mesh is found *)
Lemma hull_near : forall n tol ec p, 0 < tol -> in_hull n ec p -> near_hull n tol ec p.
Proof.
  intros n tol ec p Ht (l & HW & HF). exists l. split; [assumption|]. pose proof (hull_le1 n ec p l HW HF) as H1.
  rewrite Forall_forall in *. intros w Hw. specialize (HF w Hw). specialize (H1 w Hw). lra.
Qed.
Lemma empty_sched : forall sched, any_order sched -> forall m, sched 0%nat m = [].
Proof. intros sched H m. specialize (H 0%nat m). cbn [seq list_prod] in H. now apply Permutation_nil in H. Qed.
Lemma centroid : forall a b c : list R, let p := [weighted [1/3; 1/3; 1/3] [a; b; c] 0; weighted [1/3; 1/3; 1/3] [a; b; c] 1] in
  weights_of 2 [1/3; 1/3; 1/3] [a; b; c] p /\ in_hull 2 [a; b; c] p /\ dim 2 p.
Proof.
  intros a b c p.
  assert (HW : weights_of 2 [1/3; 1/3; 1/3] [a; b; c] p).
  { split; [reflexivity|]. split; [cbn [fold_right]; lra|]. intros d Hd. destruct d as [|[|]]; [reflexivity|reflexivity|lia]. }
  split; [assumption|]. split; [|reflexivity]. exists [1/3; 1/3; 1/3]. split; [assumption|]. repeat (apply Forall_cons; [lra|]); apply Forall_nil.
Qed.
Lemma clockwise_out : forall a b c tol, has_dim 2 a -> has_dim 2 b -> has_dim 2 c -> clockwise a b c -> 0 < tol <= 1 / 3 ->
  let p := [weighted [1/3; 1/3; 1/3] [a; b; c] 0; weighted [1/3; 1/3; 1/3] [a; b; c] 1] in
  exists l, glob_to_nat_tri Floating p [a; b; c] = Ok l /\ inside tol l = false.
Proof.
  intros a b c tol Ha Hb Hc H Ht p. destruct (centroid a b c) as (HW & _ & _). fold p in HW.
  exists [- (1/3); - (1/3); 1 + 1/3 + 1/3]. split; [apply (nat_clockwise_of a b c p) with (l2 := 1/3); auto; unfold has_dim; cbn; lia|].
  destruct (inside tol [- (1/3); - (1/3); 1 + 1/3 + 1/3]) eqn:E; [|reflexivity]. exfalso. apply inside_spec in E. inversion E as [|? ? HH _]; subst. lra.
Qed.
Lemma locate_tri_clockwise : forall query sched k a b c tol, any_order sched -> has_dim 2 a -> has_dim 2 b -> has_dim 2 c -> clockwise a b c -> 0 < tol <= 1 / 3 ->
  exists p, in_hull 2 [a; b; c] p /\ locate_tri_2d query sched [a; b; c] [[0; 1; 2]%nat] false k tol [p] = Ok ([], [], []) /\
    pip_2d trimap_T3 [a; b; c] [[0; 1; 2]%nat] tol [p] = Ok [false].
Proof.
  intros query sched k a b c tol Hs Ha Hb Hc H Ht. destruct (centroid a b c) as (_ & HI & HD). destruct (clockwise_out a b c tol Ha Hb Hc H Ht) as (l & E & Hf).
  set (p := [weighted _ _ 0; weighted _ _ 1]) in *. exists p. split; [assumption|]. split.
  - unfold locate_tri_2d, cells_coords, get. cbn [mapM nth_error bind]. unfold locate_simplices, neighbours_if, nat_coordinates. cbn [bind mapM]. rewrite E. cbn [bind].
    unfold pip_of_nat. cbn [map length seq filter nth existsb]. rewrite Hf. cbn [orb]. unfold take. cbn [mapM bind length]. rewrite (empty_sched _ Hs). reflexivity.
  - unfold pip_2d. cbn [trimap_T3]. change (transform_topology_ 0%nat [[0; 1; 2]%nat] trimap_T3) with (Ok [[0; 1; 2]%nat]). cbn [bind].
    unfold cells_coords, get. cbn [mapM nth_error bind]. unfold pip_tri_bulk, glob_to_nat_tri_bulk. cbn [mapM]. rewrite E. cbn [bind]. unfold pip_of_nat. cbn [map existsb]. rewrite Hf. reflexivity.
Qed.

(** ** pip of planar cells *)
Lemma pip_planar : forall trimap w coords topo ecs tol x, mesh_at coords topo ecs -> rect w topo -> pieces 3 w trimap ->
  (forall ec q, In ec ecs -> In q trimap -> ccw_cell (pick q ec)) -> Forall (dim 2) x ->
  exists b, pip_2d trimap coords topo tol x = Ok b /\ Forall2 (fun p v => v = true <-> exists ec, In ec ecs /\ near_cell 2 tol trimap ec p) x b.
Proof.
  intros trimap w coords topo ecs tol x Hm Hr Hp Hc Hx. destruct (tet_mesh coords topo ecs trimap _ 3 Hm Hr Hp) as (tris & E1 & E2 & _).
  destruct (eager_pip (fun _ _ _ _ => []) (glob_to_nat_tri Floating) 2 ccw_cell trimap nat_ccw_dim ecs Hc x Hx tol 0) as (b & E & H).
  exists b. split; [|exact H]. unfold pip_2d. rewrite E1. cbn [bind]. rewrite E2. cbn [bind]. unfold pip_simplices, neighbours_if, nat_coordinates in E. cbn [bind] in E.
  unfold pip_tri_bulk, glob_to_nat_tri_bulk. destruct (mapM _ x) as [nats|e]; [|discriminate E]. cbn [bind] in *. exact E.
Qed.

(** ** nearest neighbours *)
Lemma knn_nearest : forall query X Y k, nearest_query query -> (k <= length X)%nat -> k <> 1%nat ->
  exists rows, k_nearest_neighbours query false X Y k None = Inds2 rows /\ Forall2 (fun y row => nearest X y k row) Y rows.
Proof.
  intros query X Y k Hq Hk H1. unfold k_nearest_neighbours. replace (Nat.eqb k 1) with false by (symmetry; now apply Nat.eqb_neq).
  eexists. split; [reflexivity|]. induction Y as [|y Y IH]; constructor; auto.
Qed.
Lemma knn_one : forall query X Y, nearest_query query -> X <> [] ->
  exists l, k_nearest_neighbours query false X Y 1 None = Inds1 l /\
    Forall2 (fun y i => (i < length X)%nat /\ forall j, (j < length X)%nat -> dist2 y (nth i X []) <= dist2 y (nth j X [])) Y l.
Proof.
  intros query X Y Hq HX. eexists. split; [reflexivity|]. induction Y as [|y Y IH]; constructor; [|exact IH]. clear IH.
  destruct (Hq X y 1%nat) as (HL & _ & HB & HO); [destruct X; [easy|cbn; lia]|]. destruct (query X y 1%nat None) as [|i [|]]; try discriminate HL. cbn [nth].
  inversion HB as [|? ? Hi _]; subst. split; [assumption|]. intros j Hj. destruct (Nat.eq_dec i j) as [->|Hn]; [lra|].
  apply HO; [now left|assumption|]. intros [->|[]]. now apply Hn.
Qed.
Lemma knn_beyond : forall query bound, nearest_query query -> 0 <= bound ->
  exists X y i, k_nearest_neighbours query false X [y] 1 (Some bound) = Inds1 [i] /\ (i < length X)%nat /\ bound < dist y (nth i X []).
Proof.
  intros query bound Hq Hb. exists [[bound + 1]], [0]. destruct (Hq [[bound + 1]] [0] 1%nat) as (HL & _ & HB & _); [cbn; lia|].
  destruct (query [[bound + 1]] [0] 1%nat None) as [|i [|]] eqn:E; try discriminate HL. inversion HB as [|? ? Hi _]; subst. cbn [length] in Hi. assert (i = 0%nat) as -> by lia.
  exists 0%nat. split; [|split; [cbn; lia|]].
  - unfold k_nearest_neighbours. cbn [Nat.eqb map]. now rewrite E.
  - unfold dist, dist2. cbn [nth combine map fold_right fst snd]. replace ((0 - (bound + 1)) * (0 - (bound + 1)) + 0) with (Rsqr (bound + 1)) by (unfold Rsqr; ring).
    rewrite sqrt_Rsqr by lra. lra.
Qed.

(** ** the first hit *)
Local Open Scope nat_scope.
Lemma not_first : forall pips m i j j', rect m pips -> hit pips i j -> hit pips i j' -> j < j' ->
  exists g, find_first_hits pips = Ok (g, g) /\ nth_error g i <> Some j.
Proof.
  intros pips m i j j' Hm H1 H2 Hj. destruct (sequential_hits pips m Hm) as (g & E & HL & H). exists g. split; [assumption|].
  assert (Hi : i < length pips) by (destruct H1 as (row & Hr & _); now apply nth_error_Some_lt in Hr).
  destruct (H i Hi) as [(k & _ & Hk & Hg)|(Hn & _)]; [|exfalso; now apply (Hn j)]. rewrite Hg. intros [= ->]. now apply (Hk j' Hj).
Qed.
Lemma order_matters : forall n : nat, exists pips its its', rect 2 pips /\ length pips = S n /\ Permutation (list_prod (seq 0 (length pips)) (seq 0 2)) its /\
  Permutation (list_prod (seq 0 (length pips)) (seq 0 2)) its' /\ find_first_hits_in its pips <> find_first_hits_in its' pips.
Proof.
  intros n. set (pips := [true; true] :: repeat [true; true] n). set (L := list_prod (seq 1 n) (seq 0 2)).
  assert (HR : rect 2 pips) by (constructor; [reflexivity|]; apply Forall_forall; intros r Hr; apply repeat_spec in Hr; now subst r).
  assert (HL : length pips = S n) by (cbn [length pips]; now rewrite repeat_length).
  assert (HE : list_prod (seq 0 (length pips)) (seq 0 2) = (0, 0) :: (0, 1) :: L) by (rewrite HL; reflexivity).
  assert (P1 : Permutation (list_prod (seq 0 (length pips)) (seq 0 2)) ((0, 0) :: (0, 1) :: L)) by (rewrite HE; apply Permutation_refl).
  assert (P2 : Permutation (list_prod (seq 0 (length pips)) (seq 0 2)) ((0, 1) :: (0, 0) :: L)) by (rewrite HE; apply perm_swap).
  exists pips, ((0, 0) :: (0, 1) :: L), ((0, 1) :: (0, 0) :: L). do 4 (split; [assumption|]).
  assert (HN : forall j, ~ In (0, j) L) by (intros j Hj; apply in_prod_iff in Hj; destruct Hj as (Hj & _); apply in_seq in Hj; lia).
  assert (H0 : forall j, j < 2 -> hit pips 0 j).
  { intros [|[|j]] Hj; [..|lia]; exists [true; true]; split; reflexivity. }
  assert (AE : forall its, Permutation (list_prod (seq 0 (length pips)) (seq 0 2)) its -> all_entries its (length pips) 2).
  { intros its HP. exact HP. }
  destruct (first_hits pips _ 2 HR (AE _ P1)) as (g & E & Lg & G). destruct (first_hits pips _ 2 HR (AE _ P2)) as (g' & E' & Lg' & G').
  rewrite E, E'. intros [= Hg]. assert (Hlt : 0 < length pips) by lia. specialize (G 0 Hlt). specialize (G' 0 Hlt).
  destruct G as [(j & i1 & i2 & Hs & _ & Hlast & Hj)|(Hn & _)]; [|exfalso; apply (Hn 0), H0; lia].
  destruct G' as [(j' & i1' & i2' & Hs' & _ & Hlast' & Hj')|(Hn & _)]; [|exfalso; apply (Hn 0), H0; lia].
  assert (j = 1) as ->.
  { destruct i1 as [|x [|x' i1]]; cbn [app] in Hs; [|now inversion Hs|].
    - exfalso. apply (Hlast 1); [inversion Hs; now left|apply H0; lia].
    - exfalso. apply (HN j). inversion Hs as [[HA HB HC]]. rewrite HC. apply in_or_app. right. now left. }
  assert (j' = 0) as ->.
  { destruct i1' as [|x [|x' i1']]; cbn [app] in Hs'; [|now inversion Hs'|].
    - exfalso. apply (Hlast' 0); [inversion Hs'; now left|apply H0; lia].
    - exfalso. apply (HN j'). inversion Hs' as [[HA HB HC]]. rewrite HC. apply in_or_app. right. now left. }
  congruence.
Qed.
