(** * Proofs about [RecipeModel.v], part 6: selected boxes, split into tetrahedra *)
From Coq Require Import Reals Lra Lia String.
From Verif Require Export RecipeProofs5.
From Verif Require Import SplitProofs7 GridProofs7 ShapeProofs4.
Import ListNotations.
Local Open Scope R_scope.

Lemma in_tet_ext coords tet q q' : (forall d, (d < 3)%nat -> q d = q' d) -> in_tet coords tet q -> in_tet coords tet q'.
Proof. intros H (l0 & l1 & l2 & l3 & [Hs (a & b & c & e & r & E & B)] & P). exists l0, l1, l2, l3. split; [|exact P]. split; [exact Hs|]. exists a, b, c, e, r. split; [exact E|]. intros d Hd. rewrite <- (H d Hd). auto. Qed.
Lemma tet_path_in order k q : nth_error (tet_path order) k = Some q -> forall m, In m q -> (m < length (hexa order))%nat.
Proof.
  unfold tet_path, hexa. destruct (Nat.eqb order 1); intros H m Hm; apply nth_error_In in H.
  - cbn in H. repeat (destruct H as [<-|H]; [cbn in Hm; cbn; lia|]). contradiction.
  - cbn in H. repeat (destruct H as [<-|H]; [cbn in Hm; cbn; lia|]). contradiction.
Qed.
(** the fifth tetrahedron does not use the corner (-1, 1, -1) *)
Lemma tet_path_4 order q m : nth_error (tet_path order) 4 = Some q -> In m q -> exists r s t, nth_error (hexa order) m = Some [r; s; t] /\ ~ (r = -1 /\ s = 1 /\ t = -1).
Proof.
  unfold tet_path, hexa. destruct (Nat.eqb order 1); intros [= <-] Hm; cbn in Hm; repeat (destruct Hm as [<-|Hm]; [do 3 eexists; (split; [reflexivity|]); cbn [kofZ NumR]; lra|]); contradiction.
Qed.
Lemma detached_points (coords c : list (list R)) (inds : list nat) : rect 3 coords -> points_differ coords -> NoDup inds -> length c = length inds -> (forall k n, nth_error inds k = Some n -> nth_error c k = nth_error coords n) ->
  rect 3 c /\ points_differ c.
Proof.
  intros HR HD ND LC PT. split.
  - apply Forall_forall. intros p Hp. apply In_nth_error in Hp. destruct Hp as [k Hk]. destruct (nth_error inds k) as [n|] eqn:En; [|apply nth_error_None in En; pose proof (nth_error_Some_lt _ _ _ Hk); lia]. rewrite (PT k n En) in Hk. apply (proj1 (Forall_forall _ _) HR). eapply nth_error_In; eauto.
  - intros k k' p Hk Hk'. destruct (nth_error inds k) as [n|] eqn:En; [|apply nth_error_None in En; pose proof (nth_error_Some_lt _ _ _ Hk); lia]. destruct (nth_error inds k') as [n'|] eqn:En'; [|apply nth_error_None in En'; pose proof (nth_error_Some_lt _ _ _ Hk'); lia].
    rewrite (PT k n En) in Hk. rewrite (PT k' n' En') in Hk'. pose proof (HD _ _ _ Hk Hk') as <-. apply (proj1 (NoDup_nth_error _) ND); [eapply nth_error_Some_lt; eauto|congruence].
Qed.

Section Tets.
Variables (order : nat) (coords : list (list R)) (topo : list (list nat)) (nx ny nz : nat) (xs ys zs : nat -> R).
Hypothesis (HG : grid_boxes (hexa order) coords topo nx ny nz xs ys zs) (HH : hexahedral (hexa order)).
Hypothesis (Ix : forall i, (i < nx)%nat -> xs i < xs (i + 1)%nat) (Iy : forall i, (i < ny)%nat -> ys i < ys (i + 1)%nat) (Iz : forall i, (i < nz)%nat -> zs i < zs (i + 1)%nat).
Variables (keep : list R -> res bool) (kept : list R -> bool).
Hypothesis HK : forall x y z, keep [x; y; z] = Ok (kept [x; y; z]).

Lemma selected_tets : exists centers mask t0 c t, cell_centers_bulk coords topo = Ok centers /\ mapM keep centers = Ok mask /\
  (if Nat.eqb order 1 then do r <- H8_to_TET4 0%nat coords (select topo mask) DNone PNone; Ok (fst r, fst (snd r), "TET4"%string)
   else do r <- H27_to_TET10 0%nat coords (select topo mask) DNone PNone; Ok (fst r, fst (snd r), "TET10"%string)) = Ok (coords, t0, if Nat.eqb order 1 then "TET4"%string else "TET10"%string) /\
  detach_mesh_bulk coords t0 = Ok (c, t) /\ tet_mesh c t /\ (Nat.eqb order 1 = false -> forall tet, In tet t -> edges_halved c tet) /\
  (forall p, (exists tet, In tet t /\ in_tet c tet p) <->
     exists i j l, (i < nx)%nat /\ (j < ny)%nat /\ (l < nz)%nat /\ kept (middle xs ys zs i j l) = true /\ forall d, (d < 3)%nat -> corner xs ys zs i j l d <= p d <= corner xs ys zs i j l d + side xs ys zs i j l d) /\
  (forall i j l, (i + 1 < nx)%nat -> (j < ny)%nat -> (l < nz)%nat -> kept (middle xs ys zs i j l) = true -> kept (middle xs ys zs (i + 1) j l) = true -> ~ conforming c t).
Proof.
  destruct (selected_rows (hexa order) coords topo nx ny nz xs ys zs HG HH keep kept HK) as (centers & mask & idx & EC & EM & NI & S1 & S2).
  destruct HG as (HR & HD & HU & HLen & HC & HS). set (rows := select topo mask) in *.
  assert (RR : rect (length (hexa order)) rows).
  { apply Forall_forall. intros cell Hin. apply In_nth_error in Hin. destruct Hin as [k Hk]. destruct (S1 k cell Hk) as (i & j & l & _ & _ & _ & _ & _ & _ & [BL _]). exact BL. }
  destruct (tet_rows order coords rows RR) as (t0 & ET & LT0 & TR).
  (* a tetrahedron *)
  assert (PRE : forall m tet, nth_error t0 m = Some tet -> exists r cell b p q rest i j l, m = (r * 5 + b)%nat /\ (b < 5)%nat /\ nth_error rows r = Some cell /\ tet = reorder q cell /\
     nth_error path_H8_to_TET4 b = Some p /\ nth_error (tet_path order) b = Some q /\ tet = reorder p (firstn 8 cell) ++ rest /\ length (reorder p (firstn 8 cell)) = 4%nat /\
     (i < nx)%nat /\ (j < ny)%nat /\ (l < nz)%nat /\ nth_error idx r = Some ((i * ny + j) * nz + l)%nat /\ nth_error topo ((i * ny + j) * nz + l) = Some cell /\ kept (middle xs ys zs i j l) = true /\ box_placed 3 0 coords cell (hexa order) (corner xs ys zs i j l) (side xs ys zs i j l)).
  { intros m tet Hm. pose proof (nth_error_Some_lt _ _ _ Hm) as B. rewrite LT0 in B. pose proof (Nat.div_mod m 5 ltac:(lia)) as DM. pose proof (Nat.mod_upper_bound m 5 ltac:(lia)) as MB. set (r := (m / 5)%nat) in *. set (b := (m mod 5)%nat) in *.
    destruct (nth_error rows r) as [cell|] eqn:Er; [|apply nth_error_None in Er; lia]. destruct (TR r cell b Er MB) as (p & q & rest & H1 & H2 & H3 & H4 & H5). destruct (S1 r cell Er) as (i & j & l & Hi & Hj & Hl & Q1 & Q2 & Q3 & Q4).
    replace (r * 5 + b)%nat with m in H1 by lia. rewrite Hm in H1. injection H1 as ->. exists r, cell, b, p, q, rest, i, j, l. repeat (split; [assumption || reflexivity || lia|]). exact Q4. }
  assert (NODES : forall order' q b (cell : list nat) n, length cell = length (hexa order') -> nth_error (tet_path order') b = Some q -> In n (reorder q cell) -> exists k, In k q /\ nth_error cell k = Some n).
  { intros order' q b cell n Hc Hq Hn. unfold reorder in Hn. apply in_map_iff in Hn. destruct Hn as (k & <- & Hk). exists k. split; [exact Hk|]. apply nth_error_nth'. rewrite Hc. eapply tet_path_in; eauto. }
  destruct (detach_cells coords t0) as (c & t & inds & ED & ND & LC & LT & US & PT & CELLS).
  { intros n (m & e & tet & H1 & H2). destruct (PRE m tet H1) as (r & cell & b & p & q & rest & i & j & l & _ & _ & _ & -> & _ & Hq & _ & _ & _ & _ & _ & _ & Q2 & _ & [BL _]).
    destruct (NODES order q b cell n BL Hq (nth_error_In _ _ H2)) as (k & _ & Hk). apply HU. exists ((i * ny + j) * nz + l)%nat, k, cell. auto. }
  destruct (detached_points coords c inds HR HD ND LC PT) as [RC DC].
  assert (PTN : forall k n, nth_error inds k = Some n -> nth k c [] = nth n coords []).
  { intros k n Hk. pose proof (PT k n Hk) as Q. pose proof (nth_error_Some_lt _ _ _ Hk) as L1. rewrite <- LC in L1. destruct (nth_error c k) as [p|] eqn:Ep; [|apply nth_error_None in Ep; lia]. rewrite (nth_error_nth _ _ [] Ep). symmetry. apply nth_error_nth. auto. }
  assert (FWD : forall m tet, nth_error t0 m = Some tet -> exists tet', nth_error t m = Some tet' /\ length tet' = length tet /\ forall k n', nth_error tet' k = Some n' <-> exists n, nth_error tet k = Some n /\ nth_error inds n' = Some n).
  { intros m tet Hm. destruct (nth_error t m) as [tet'|] eqn:E; [|apply nth_error_None in E; pose proof (nth_error_Some_lt _ _ _ Hm); lia]. destruct (CELLS m tet' E) as (tet2 & H1 & H2 & H3). rewrite Hm in H1. injection H1 as <-. eauto. }
  assert (IT : forall tet' tet q, length tet' = length tet -> (forall k n', nth_error tet' k = Some n' <-> exists n, nth_error tet k = Some n /\ nth_error inds n' = Some n) -> (in_tet c tet' q <-> in_tet coords tet q) /\ (inside_tet c tet' q <-> inside_tet coords tet q)).
  { intros tet' tet q LL EE. split; [unfold in_tet|unfold inside_tet]; split; intros (l0 & l1 & l2 & l3 & B & P); exists l0, l1, l2, l3; (split; [|exact P]);
      apply (bary_detached c coords inds tet' tet q l0 l1 l2 l3 PTN LL EE) in B || apply (bary_detached c coords inds tet' tet q l0 l1 l2 l3 PTN LL EE); exact B. }
  assert (SP : forall i j l, (i < nx)%nat -> (j < ny)%nat -> (l < nz)%nat -> forall d, (d < 3)%nat -> 0 < side xs ys zs i j l d) by (intros; apply (side_pos nx ny nz); auto).
  assert (AFF : forall cell i j l, box_placed 3 0 coords cell (hexa order) (corner xs ys zs i j l) (side xs ys zs i j l) ->
    affine_at lcoords_H8 coords (firstn 8 cell) (mid_of (corner xs ys zs i j l) (side xs ys zs i j l)) (axis (side xs ys zs i j l) 0) (axis (side xs ys zs i j l) 1) (axis (side xs ys zs i j l) 2)) by (intros cell i j l B; apply (box_affine (hexa order)); auto using hexa_cases).
  assert (POS : forall i j l, (i < nx)%nat -> (j < ny)%nat -> (l < nz)%nat -> 0 < det_uvw (axis (side xs ys zs i j l) 0) (axis (side xs ys zs i j l) 1) (axis (side xs ys zs i j l) 2)).
  { intros i j l Hi Hj Hl. rewrite box_det. pose proof (SP i j l Hi Hj Hl 0%nat ltac:(lia)). pose proof (SP i j l Hi Hj Hl 1%nat ltac:(lia)). pose proof (SP i j l Hi Hj Hl 2%nat ltac:(lia)). assert (0 < side xs ys zs i j l 0 * side xs ys zs i j l 1) by now apply Rmult_lt_0_compat. assert (0 < side xs ys zs i j l 0 * side xs ys zs i j l 1 * side xs ys zs i j l 2) by now apply Rmult_lt_0_compat. lra. }
  exists centers, mask, t0, c, t. split; [exact EC|]. split; [exact EM|]. split; [exact ET|]. split; [exact ED|]. split; [|split; [|split]].
  - split; [exact RC|]. split; [exact DC|]. split; [exact US|]. split.
    + intros tet' Hin. apply In_nth_error in Hin. destruct Hin as [m Hm]. destruct (CELLS m tet' Hm) as (tet & H1 & H2 & H3).
      destruct (PRE m tet H1) as (r & cell & b & p & q & rest & i & j & l & _ & Hb & _ & _ & Hp & _ & E4 & L4 & Hi & Hj & Hl & _ & _ & _ & B).
      assert (V : tet_nodes_volume c tet' = tet_nodes_volume coords tet).
      { assert (F : forall k n' n, nth_error tet' k = Some n' -> nth_error tet k = Some n -> forall d, coord c n' d = coord coords n d).
        { intros k n' n A1 A2 d. apply H3 in A1. destruct A1 as (n2 & M1 & M2). rewrite A2 in M1. injection M1 as <-. unfold coord. now rewrite (PTN _ _ M2). }
        clear -F H2. destruct tet as [|x0 [|x1 [|x2 [|x3 tet]]]], tet' as [|y0 [|y1 [|y2 [|y3 tet']]]]; try discriminate H2; try reflexivity. unfold tet_nodes_volume, tet_volume.
        rewrite !(F 0%nat y0 x0 eq_refl eq_refl), !(F 1%nat y1 x1 eq_refl eq_refl), !(F 2%nat y2 x2 eq_refl eq_refl), !(F 3%nat y3 x3 eq_refl eq_refl). reflexivity. }
      rewrite V, E4, volume_rest by exact L4. assert (L8 : length (firstn 8 cell) = 8%nat) by (rewrite firstn_length, (proj1 B); destruct (hexa_cases order) as [-> | ->]; reflexivity).
      rewrite (H8_tets coords (firstn 8 cell) _ _ _ _ L8 (AFF cell i j l B) b p Hp). pose proof (POS i j l Hi Hj Hl). destruct b as [|[|[|[|[|b]]]]]; cbn [nth]; [lra..|lia].
    + intros m m' tet1 tet2 q0 Hm Hm' I1 I2. destruct (CELLS m tet1 Hm) as (ta & H1 & H2 & H3). destruct (CELLS m' tet2 Hm') as (tb & H1' & H2' & H3'). apply (IT tet1 ta q0 H2 H3) in I1. apply (IT tet2 tb q0 H2' H3') in I2.
      destruct (PRE m ta H1) as (r & cell & b & p & q & rest & i & j & l & Em & Hb & Hr & _ & Hp & _ & E4 & L4 & Hi & Hj & Hl & Q1 & _ & _ & B).
      destruct (PRE m' tb H1') as (r' & cell' & b' & p' & q' & rest' & i' & j' & l' & Em' & Hb' & Hr' & _ & Hp' & _ & E4' & L4' & Hi' & Hj' & Hl' & Q1' & _ & _ & B').
      rewrite E4 in I1. apply (proj1 (inside_tet_rest _ _ _ _ L4)) in I1. rewrite E4' in I2. apply (proj1 (inside_tet_rest _ _ _ _ L4')) in I2.
      pose proof (open_cell _ _ b p coords _ q0 (SP i j l Hi Hj Hl) (AFF cell i j l B) Hp I1) as O1. pose proof (open_cell _ _ b' p' coords _ q0 (SP i' j' l' Hi' Hj' Hl') (AFF cell' i' j' l' B') Hp' I2) as O2.
      assert (E : i = i' /\ j = j' /\ l = l').
      { unfold corner, side in O1, O2. split; [|split].
        - specialize (O1 0%nat ltac:(lia)). specialize (O2 0%nat ltac:(lia)). cbn [nth] in *. apply (same_interval nx xs i i' (q0 0%nat)); auto; lra.
        - specialize (O1 1%nat ltac:(lia)). specialize (O2 1%nat ltac:(lia)). cbn [nth] in *. apply (same_interval ny ys j j' (q0 1%nat)); auto; lra.
        - specialize (O1 2%nat ltac:(lia)). specialize (O2 2%nat ltac:(lia)). cbn [nth] in *. apply (same_interval nz zs l l' (q0 2%nat)); auto; lra. }
      destruct E as (<- & <- & <-). assert (r = r') by (apply (proj1 (NoDup_nth_error _) NI); [eapply nth_error_Some_lt; eauto|congruence]). subst r'. rewrite Hr in Hr'. injection Hr' as <-.
      assert (b = b') by (eapply (H8_disjoint coords (firstn 8 cell) _ _ _ _ (AFF cell i j l B) b b' p p' q0); eauto; pose proof (POS i j l Hi Hj Hl); lra). lia.
  - intros EO tet' Hin. apply In_nth_error in Hin. destruct Hin as [m Hm]. destruct (CELLS m tet' Hm) as (tet & H1 & H2 & H3).
    destruct (PRE m tet H1) as (r & cell & b & p & q & rest & i & j & l & _ & Hb & _ & Et & Hp & Hq & _ & _ & Hi & Hj & Hl & _ & _ & _ & B). unfold tet_path in Hq. rewrite EO in Hq.
    assert (A27 : affine_at lcoords_H27 coords cell (mid_of (corner xs ys zs i j l) (side xs ys zs i j l)) (axis (side xs ys zs i j l) 0) (axis (side xs ys zs i j l) 1) (axis (side xs ys zs i j l) 2)) by (apply (box_affine (hexa order)); auto using hexa_cases; unfold hexa; now rewrite EO).
    assert (L10 : length tet = 10%nat). { rewrite Et. unfold reorder. rewrite map_length. apply nth_error_In in Hq. cbn in Hq. repeat (destruct Hq as [<-|Hq]; [reflexivity|]). contradiction. }
    split; [congruence|]. intros e a b0 He. destruct (TET10_midpoints coords cell _ _ _ _ q e a b0 A27 (nth_error_In _ _ Hq) He) as (na & nb & nm & N1 & N2 & N3 & NM). rewrite <- Et in N1, N2, N3.
    assert (BK : forall k n, nth_error tet k = Some n -> exists n', nth_error tet' k = Some n' /\ forall d, coord c n' d = coord coords n d).
    { intros k n A. destruct (nth_error tet' k) as [n'|] eqn:E'; [|apply nth_error_None in E'; pose proof (nth_error_Some_lt _ _ _ A); lia]. exists n'. split; [reflexivity|]. intros d. apply H3 in E'. destruct E' as (n2 & M1 & M2). rewrite A in M1. injection M1 as <-. unfold coord. now rewrite (PTN _ _ M2). }
    destruct (BK _ _ N1) as (na' & A1 & A2). destruct (BK _ _ N2) as (nb' & B1 & B2). destruct (BK _ _ N3) as (nm' & C1 & C2). exists na', nb', nm'. do 3 (split; [assumption|]). intros d Hd. rewrite C2, A2, B2. auto.
  - intros q0. split.
    + intros (tet' & Hin & I1). apply In_nth_error in Hin. destruct Hin as [m Hm]. destruct (CELLS m tet' Hm) as (tet & H1 & H2 & H3). apply (IT tet' tet q0 H2 H3) in I1.
      destruct (PRE m tet H1) as (r & cell & b & p & q & rest & i & j & l & _ & Hb & _ & _ & Hp & _ & E4 & L4 & Hi & Hj & Hl & _ & _ & Hk & B). rewrite E4 in I1. apply (proj1 (in_tet_rest _ _ _ _ L4)) in I1.
      exists i, j, l. do 4 (split; [assumption|]). apply (box_cell _ _ q0 (SP i j l Hi Hj Hl)). exact (H8_within coords _ _ _ _ _ (AFF cell i j l B) b p q0 Hp I1).
    + intros (i & j & l & Hi & Hj & Hl & Hk & HB). destruct (S2 i j l Hi Hj Hl Hk) as (cell & Hc & Hin). apply In_nth_error in Hin. destruct Hin as [r Hr].
      destruct (HC _ cell Hc) as (i' & j' & l' & Hi' & Hj' & Hl' & E & B). apply pos_inj in E; auto. destruct E as [E <-]. apply pos_inj in E; auto. destruct E as [<- <-].
      apply (box_cell _ _ q0 (SP i j l Hi Hj Hl)) in HB. destruct HB as (x & y & z & HX & HQ). destruct (H8_cover coords _ _ _ _ _ (AFF cell i j l B) x y z HX) as (b & p & Hp & I1).
      assert (Hb : (b < 5)%nat) by (apply nth_error_Some_lt in Hp; exact Hp). destruct (TR r cell b Hr Hb) as (p2 & q & rest & T1 & T2 & T3 & T4 & T5). rewrite Hp in T2. injection T2 as <-.
      destruct (FWD _ _ T1) as (tet' & F1 & F2 & F3). exists tet'. split; [eapply nth_error_In; eauto|]. apply (IT tet' _ q0 F2 F3). rewrite T4. apply (in_tet_rest _ _ _ _ T5). apply (in_tet_ext coords _ (image (mid_of (corner xs ys zs i j l) (side xs ys zs i j l)) (axis (side xs ys zs i j l) 0) (axis (side xs ys zs i j l) 1) (axis (side xs ys zs i j l) 2) x y z)); [intros d Hd; symmetry; auto|exact I1].
  - intros i j l Hi Hj Hl Hk Hk' CF.
    assert (FIND : forall i, (i < nx)%nat -> kept (middle xs ys zs i j l) = true -> exists cell tet', box_placed 3 0 coords cell (hexa order) (corner xs ys zs i j l) (side xs ys zs i j l) /\ In tet' t /\
       (forall n', In n' tet' -> exists k n, k <> 3%nat /\ (exists r s u, nth_error (hexa order) k = Some [r; s; u] /\ ~ (r = -1 /\ s = 1 /\ u = -1)) /\ nth_error cell k = Some n /\ nth_error inds n' = Some n) /\
       (forall q, in_tet coords (reorder [0;2;7;5] cell)%nat q -> in_tet c tet' q) /\ exists n', nth_error tet' 1 = Some n' /\ nth_error inds n' = Some (nth 2 cell 0)%nat /\ forall q l0 l1 l2 l3, barycentric c tet' q l0 l1 l2 l3 -> barycentric coords (reorder [0;2;7;5] cell)%nat q l0 l1 l2 l3).
    { clear i Hi Hk Hk'. intros i Hi Hk. destruct (S2 i j l Hi Hj Hl Hk) as (cell & Hc & Hin). apply In_nth_error in Hin. destruct Hin as [r Hr].
      destruct (HC _ cell Hc) as (i' & j' & l' & Hi' & Hj' & Hl' & E & B). apply pos_inj in E; auto. destruct E as [E <-]. apply pos_inj in E; auto. destruct E as [<- <-].
      destruct (TR r cell 4%nat Hr ltac:(lia)) as (p2 & q & rest & T1 & T2 & T3 & T4 & T5). injection T2 as <-. destruct (FWD _ _ T1) as (tet' & F1 & F2 & F3).
      assert (R8 : reorder [0;2;7;5]%nat (firstn 8 cell) = reorder [0;2;7;5]%nat cell).
      { assert (length cell = length (hexa order)) by apply B. assert (8 <= length cell)%nat by (destruct (hexa_cases order) as [E|E]; rewrite E in H; cbn in H; lia). do 8 (destruct cell as [|? cell]; [cbn in H0; lia|]). reflexivity. }
      rewrite R8 in *. exists cell, tet'. split; [exact B|]. split; [eapply nth_error_In; eauto|]. split; [|split].
      - intros n' Hn. apply In_nth_error in Hn. destruct Hn as [e He]. apply F3 in He. destruct He as (n & N1 & N2). destruct (NODES order q 4%nat cell n (proj1 B) T3 (nth_error_In _ _ N1)) as (k & K1 & K2). exists k, n. destruct (tet_path_4 order q k T3 K1) as (u1 & u2 & u3 & U1 & U2). split; [|split; [eauto|auto]].
        intros ->. apply U2. clear - U1. destruct (hexa_cases order) as [E|E]; rewrite E in U1; cbn in U1; injection U1 as <- <- <-; lra.
      - intros q1 I1. apply (IT tet' _ q1 F2 F3). rewrite T4. apply (in_tet_rest _ _ _ _ T5). exact I1.
      - destruct (nth_error tet' 1) as [n'|] eqn:E1; [|apply nth_error_None in E1; rewrite F2, T4, app_length, T5 in E1; lia]. exists n'. split; [reflexivity|]. split.
        + apply F3 in E1. destruct E1 as (n & N1 & N2). rewrite T4 in N1. rewrite N2, <- N1. reflexivity.
        + intros q1 l0 l1 l2 l3 BB. apply (bary_detached c coords inds tet' _ q1 l0 l1 l2 l3 PTN F2 F3) in BB. rewrite T4 in BB. apply (proj1 (bary_rest _ _ _ _ _ _ _ _ T5)) in BB. exact BB. }
    destruct (FIND i ltac:(lia) Hk) as (ca & ta & Ba & Ia & Na & Ta & (n2 & M1 & M2 & Wa)). destruct (FIND (i + 1)%nat Hi Hk') as (cb & tb & Bb & Ib & Nb & Tb & _).
    assert (P : forall cell i k r s u, box_placed 3 0 coords cell (hexa order) (corner xs ys zs i j l) (side xs ys zs i j l) -> nth_error (hexa order) k = Some [r; s; u] -> forall d, (d < 3)%nat ->
      coord coords (nth k cell 0%nat) d = corner xs ys zs i j l d + side xs ys zs i j l d * (nth d [r; s; u] 0 + 1) / 2) by (intros cell i0 k r s u [_ BP] Hq d Hd; rewrite <- (BP k _ Hq d Hd), Nat.sub_0_r; reflexivity).
    assert (X0 : nth_error (hexa order) 0 = Some [-1; -1; -1]) by (destruct (hexa_cases order) as [-> | ->]; reflexivity).
    assert (X2 : nth_error (hexa order) 2 = Some [1; 1; -1]) by (destruct (hexa_cases order) as [-> | ->]; reflexivity).
    assert (X7 : nth_error (hexa order) 7 = Some [-1; 1; 1]) by (destruct (hexa_cases order) as [-> | ->]; reflexivity).
    assert (X5 : nth_error (hexa order) 5 = Some [1; -1; 1]) by (destruct (hexa_cases order) as [-> | ->]; reflexivity).
    set (q0 := fun d => nth d [xs (i + 1)%nat; (ys j + ys (j + 1)%nat) / 2; (zs l + zs (l + 1)%nat) / 2] 0).
    assert (I1 : in_tet c ta q0).
    { apply Ta. exists 0, (1/2), 0, (1/2). split; [|lra]. split; [lra|]. do 5 eexists. split; [reflexivity|]. intros d Hd. rewrite (P ca i 0%nat _ _ _ Ba X0 d Hd), (P ca i 2%nat _ _ _ Ba X2 d Hd), (P ca i 7%nat _ _ _ Ba X7 d Hd), (P ca i 5%nat _ _ _ Ba X5 d Hd). unfold q0, corner, side. destruct d as [|[|[|d]]]; [| | |lia]; cbn [nth]; field. }
    assert (I2 : in_tet c tb q0).
    { apply Tb. exists (1/2), 0, (1/2), 0. split; [|lra]. split; [lra|]. do 5 eexists. split; [reflexivity|]. intros d Hd. rewrite (P cb (i + 1)%nat 0%nat _ _ _ Bb X0 d Hd), (P cb (i + 1)%nat 2%nat _ _ _ Bb X2 d Hd), (P cb (i + 1)%nat 7%nat _ _ _ Bb X7 d Hd), (P cb (i + 1)%nat 5%nat _ _ _ Bb X5 d Hd). unfold q0, corner, side. destruct d as [|[|[|d]]]; [| | |lia]; cbn [nth]; field. }
    destruct (CF ta tb q0 Ia Ib I1 I2) as (l0 & l1 & l2 & l3 & BB & CC). apply Wa in BB.
    assert (L1 : l1 <> 0).
    { destruct BB as [HS1 (a & b & e & f & rest & E & BE)]. injection E as <- <- <- <- <-. pose proof (Ix i ltac:(lia)) as GX. pose proof (Iy j Hj) as GY. pose proof (Iz l Hl) as GZ.
      pose proof (BE 0%nat ltac:(lia)) as E0. pose proof (BE 1%nat ltac:(lia)) as E1. pose proof (BE 2%nat ltac:(lia)) as E2. clear BE.
      rewrite (P ca i 0%nat _ _ _ Ba X0), (P ca i 2%nat _ _ _ Ba X2), (P ca i 7%nat _ _ _ Ba X7), (P ca i 5%nat _ _ _ Ba X5) in E0, E1, E2 by lia. unfold q0, corner, side in E0, E1, E2. cbn [nth] in E0, E1, E2.
      assert (F0 : (xs (i + 1)%nat - xs i) * (l1 + l3 - 1) = 0) by (assert (l0 = 1 - l1 - l2 - l3) by lra; subst l0; lra).
      assert (F1 : (ys (j + 1)%nat - ys j) * (l1 + l2 - 1/2) = 0) by (assert (l0 = 1 - l1 - l2 - l3) by lra; subst l0; lra).
      assert (F2 : (zs (l + 1)%nat - zs l) * (l2 + l3 - 1/2) = 0) by (assert (l0 = 1 - l1 - l2 - l3) by lra; subst l0; lra).
      apply Rmult_integral in F0, F1, F2. destruct F0; [lra|]. destruct F1; [lra|]. destruct F2; [lra|]. lra. }
    pose proof (CC 1%nat l1 n2 eq_refl M1 L1) as In2. destruct (Nb n2 In2) as (k & n & _ & (r & s & u & U1 & U2) & K1 & K2). rewrite M2 in K2. injection K2 as K2. apply U2.
    assert (Q : forall d, (d < 3)%nat -> corner xs ys zs i j l d + side xs ys zs i j l d * (nth d [1; 1; -1] 0 + 1) / 2 = corner xs ys zs (i + 1) j l d + side xs ys zs (i + 1) j l d * (nth d [r; s; u] 0 + 1) / 2).
    { intros d Hd. rewrite <- (P ca i 2%nat _ _ _ Ba X2 d Hd), <- (P cb (i + 1)%nat k _ _ _ Bb U1 d Hd). rewrite K2, (nth_error_nth cb k 0%nat K1). reflexivity. }
    pose proof (Q 0%nat ltac:(lia)) as Q0. pose proof (Q 1%nat ltac:(lia)) as Q1. pose proof (Q 2%nat ltac:(lia)) as Q2. unfold corner, side in Q0, Q1, Q2. cbn [nth] in Q0, Q1, Q2.
    pose proof (Ix (i + 1)%nat Hi) as GX. pose proof (Iy j Hj) as GY. pose proof (Iz l Hl) as GZ. clear - Q0 Q1 Q2 GX GY GZ.
    assert (F0 : (xs (i + 1 + 1)%nat - xs (i + 1)%nat) * (r + 1) = 0) by lra. assert (F1 : (ys (j + 1)%nat - ys j) * (s - 1) = 0) by lra. assert (F2 : (zs (l + 1)%nat - zs l) * (u + 1) = 0) by lra.
    apply Rmult_integral in F0, F1, F2. repeat split; lra.
Qed.
End Tets.
