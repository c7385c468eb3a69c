(** * Proofs about [RecipeModel.v], part 2: boxes of a grid, selected by their centres *)
From Coq Require Import Reals Lra Lia Permutation Sorted.
From Verif Require Export RecipeProofs.
From Verif Require Import BaseFacts TriSpec GridProofs5 TopoProofs TopoProofs5 NodalProofs4 NodalProofs6 TileProofs3 ExtrudeProofs3.
Import ListNotations.
Local Open Scope R_scope.

(** ** Selected rows *)
Lemma select_from {A} : forall (l : list A) mask s, length mask = length l -> let idx := map fst (filter snd (combine (seq s (length l)) mask)) in
  NoDup idx /\ (forall i, In i idx -> (s <= i)%nat) /\ length (select l mask) = length idx /\
  (forall k x, nth_error (select l mask) k = Some x -> exists i, nth_error idx k = Some (s + i)%nat /\ nth_error l i = Some x /\ nth_error mask i = Some true) /\
  (forall i x, nth_error l i = Some x -> nth_error mask i = Some true -> In x (select l mask)).
Proof.
  induction l as [|a l IH]; intros [|b mask] s HL; cbn in HL; try discriminate; intros idx.
  - unfold idx, select. cbn. split; [constructor|]. split; [easy|]. split; [reflexivity|]. split; [intros [|k] x H; discriminate|intros [|i] x H; discriminate].
  - destruct (IH mask (S s) ltac:(lia)) as (N & B & Len & H1 & H2). clear IH. set (idx' := map fst (filter snd (combine (seq (S s) (length l)) mask))) in *. destruct b.
    + assert (E : idx = s :: idx') by reflexivity. rewrite E. unfold select. cbn [combine filter snd map fst]. fold (select l mask). split; [constructor; [intros H; specialize (B s H); lia|exact N]|].
      split; [intros i [<-|H]; [lia|specialize (B i H); lia]|]. split; [cbn [length]; now rewrite Len|]. split.
      * intros [|k] x H; [injection H as <-; exists 0%nat; rewrite Nat.add_0_r; auto|]. destruct (H1 k x H) as (i & Q1 & Q2 & Q3). exists (S i). split; [cbn [nth_error]; rewrite Q1; f_equal; lia|auto].
      * intros [|i] x H Q; [injection H as <-; now left|right; exact (H2 i x H Q)].
    + assert (E : idx = idx') by reflexivity. rewrite E. unfold select. cbn [combine filter snd map fst]. fold (select l mask). split; [exact N|].
      split; [intros i H; specialize (B i H); lia|]. split; [exact Len|]. split.
      * intros k x H. destruct (H1 k x H) as (i & Q1 & Q2 & Q3). exists (S i). split; [rewrite Q1; f_equal; lia|auto].
      * intros [|i] x H Q; [discriminate|exact (H2 i x H Q)].
Qed.
Lemma select_inv {A} (l : list A) mask : length mask = length l -> exists idx, NoDup idx /\
  (forall k x, nth_error (select l mask) k = Some x -> exists i, nth_error idx k = Some i /\ nth_error l i = Some x /\ nth_error mask i = Some true) /\
  (forall i x, nth_error l i = Some x -> nth_error mask i = Some true -> In x (select l mask)).
Proof. intros H. destruct (select_from l mask 0 H) as (N & _ & _ & H1 & H2). eexists. split; [exact N|]. split; [exact H1|exact H2]. Qed.

(** ** Cells after detaching *)
Lemma detach_cells {A} (coords : list A) t : (forall n, used t n -> (n < length coords)%nat) ->
  exists c t' inds, detach_mesh_bulk coords t = Ok (c, t') /\ NoDup inds /\ length c = length inds /\ length t' = length t /\ (forall k, used t' k <-> (k < length c)%nat) /\
    (forall k n, nth_error inds k = Some n -> nth_error c k = nth_error coords n) /\
    (forall i cell', nth_error t' i = Some cell' -> exists cell, nth_error t i = Some cell /\ length cell' = length cell /\
       forall k n', nth_error cell' k = Some n' <-> exists n, nth_error cell k = Some n /\ nth_error inds n' = Some n).
Proof.
  intros H. destruct (detach_bulk_ok coords t H) as (c & t' & inds & E & [HS HU] & HLoc & HT). exists c, t', inds. split; [exact E|]. pose proof (sorted_NoDup _ HS) as ND. split; [exact ND|]. split; [exact (take_length _ _ _ HT)|].
  pose proof (detached_of coords t c t' inds (conj HS HU) HLoc HT) as (SS & _ & _ & US & _).
  assert (LL : length t' = length t) by (unfold same_shape in SS; apply (f_equal (@length nat)) in SS; rewrite !map_length in SS; auto). split; [exact LL|]. split; [exact US|].
  split; [intros k n Hk; destruct (take_nth _ _ _ _ _ HT Hk) as (x & -> & ->); reflexivity|].
  intros i cell' Hi. destruct (nth_error t i) as [cell|] eqn:Hc; [|apply nth_error_None in Hc; pose proof (nth_error_Some_lt _ _ _ Hi); lia]. exists cell. split; [reflexivity|].
  assert (LC : length cell' = length cell). { unfold same_shape in SS. apply (f_equal (fun l => nth_error l i)) in SS. rewrite !nth_error_map, Hi, Hc in SS. cbn in SS. congruence. } split; [exact LC|].
  assert (F : forall k n, nth_error cell k = Some n -> exists n', nth_error cell' k = Some n' /\ nth_error inds n' = Some n).
  { intros k n Hk. destruct (proj2 HLoc i k n ltac:(exists cell; auto)) as (n' & (row & R1 & R2) & R3). rewrite Hi in R1. injection R1 as <-. eauto. }
  intros k n'. split.
  - intros Hk. destruct (nth_error cell k) as [n|] eqn:Hn; [|apply nth_error_None in Hn; pose proof (nth_error_Some_lt _ _ _ Hk); lia]. destruct (F k n Hn) as (m & M1 & M2). rewrite Hk in M1. injection M1 as <-. eauto.
  - intros (n & Hn & Hi'). destruct (F k n Hn) as (m & M1 & M2). rewrite M1. f_equal. apply (proj1 (NoDup_nth_error _) ND); [eapply nth_error_Some_lt; eauto|congruence].
Qed.

(** ** Centres *)
Definition middle (xs ys zs : nat -> R) (i j l : nat) : list R := [(xs i + xs (i + 1)%nat) / 2; (ys j + ys (j + 1)%nat) / 2; (zs l + zs (l + 1)%nat) / 2].
(** local coordinates of a hexahedron: corners 0 and 6, centre 0 *)
Definition hexahedral (lcoords : list (list R)) : Prop :=
  nth_error lcoords 0 = Some [-1; -1; -1] /\ nth_error lcoords 6 = Some [1; 1; 1] /\ forall d, (d < 3)%nat -> rsum (map (fun q => nth d q 0) lcoords) = 0.
Lemma box_center xs ys zs i j l coords cell lcoords : rect 3 coords -> (forall n, In n cell -> (n < length coords)%nat) -> hexahedral lcoords ->
  box_placed 3 0 coords cell lcoords (corner xs ys zs i j l) (side xs ys zs i j l) ->
  (do ec <- mapM (get coords) cell; vmean ec) = Ok (middle xs ys zs i j l).
Proof.
  intros HR HB (H0 & _ & HS) [HL HP].
  rewrite (mapM_map (get coords) (fun n => nth n coords [])) by (intros n Hn; apply get_Ok, nth_error_nth'; auto). cbn [bind].
  assert (NE : cell <> []) by (intros ->; cbn in HL; destruct lcoords; [discriminate H0|discriminate HL]).
  assert (RR : rect 3 (map (fun n => nth n coords []) cell)). { apply Forall_forall. intros r Hr. apply in_map_iff in Hr. destruct Hr as (n & <- & Hn). apply (proj1 (Forall_forall _ _) HR). apply nth_In. auto. }
  rewrite (vmean_means 3) by (exact RR || (destruct cell; [congruence|discriminate])). f_equal. unfold means. rewrite map_length. cbn [seq map].
  assert (V : forall d, (d < 3)%nat -> rsum (map (at_ d) (map (fun n => nth n coords []) cell)) / INR (length cell) = corner xs ys zs i j l d + side xs ys zs i j l d / 2).
  { intros d Hd. rewrite map_map. replace (map (fun n => at_ d (nth n coords [])) cell) with (map (fun q => (nth d q 0) * (side xs ys zs i j l d / 2) + (corner xs ys zs i j l d + side xs ys zs i j l d / 2)) lcoords).
    - rewrite (NodalProofs6.rsum_plus (fun q => nth d q 0 * (side xs ys zs i j l d / 2))), rsum_mult, HS by auto. rewrite (rsum_const (fun _ => _) lcoords (corner xs ys zs i j l d + side xs ys zs i j l d / 2)) by auto. rewrite HL.
      assert (INR (length lcoords) <> 0) by (apply not_0_INR; destruct lcoords; [discriminate H0|discriminate]). field. auto.
    - apply nth_error_ext. intros k. rewrite !nth_error_map. destruct (nth_error lcoords k) as [q|] eqn:Eq; cbn [option_map].
      + specialize (HP k q Eq d Hd). assert (Hk : (k < length cell)%nat) by (rewrite HL; eapply nth_error_Some_lt; eauto). rewrite (nth_error_nth' cell 0%nat Hk). cbn [option_map]. unfold at_. f_equal. rewrite Nat.sub_0_r in HP. unfold coord in HP. rewrite HP. field.
      + apply nth_error_None in Eq. rewrite (proj2 (nth_error_None _ _)) by lia. reflexivity. }
  rewrite !V by lia. unfold corner, side, middle. cbn [nth]. match goal with |- [?a; ?b; ?c] = [?x; ?y; ?z] => replace a with x by field; replace b with y by field; replace c with z by field end. reflexivity.
Qed.

(** ** The selected cells *)
Section Selected.
Variables (lcoords coords : list (list R)) (topo : list (list nat)) (nx ny nz : nat) (xs ys zs : nat -> R).
Hypothesis (HG : grid_boxes lcoords coords topo nx ny nz xs ys zs) (HH : hexahedral lcoords).
Hypothesis (Ix : forall i, (i < nx)%nat -> xs i < xs (i + 1)%nat) (Iy : forall i, (i < ny)%nat -> ys i < ys (i + 1)%nat) (Iz : forall i, (i < nz)%nat -> zs i < zs (i + 1)%nat).
Variables (keep : list R -> res bool) (kept : list R -> bool).
Hypothesis HK : forall x y z, keep [x; y; z] = Ok (kept [x; y; z]).

Lemma side_pos i j l d : (i < nx)%nat -> (j < ny)%nat -> (l < nz)%nat -> (d < 3)%nat -> 0 < side xs ys zs i j l d.
Proof. intros Hi Hj Hl Hd. unfold side. specialize (Ix i Hi). specialize (Iy j Hj). specialize (Iz l Hl). destruct d as [|[|[|d]]]; [| | |lia]; cbn [nth]; lra. Qed.
Lemma corners_of cell lo h : box_placed 3 0 coords cell lcoords lo h -> forall d, (d < 3)%nat -> box_lo coords cell d = lo d /\ box_hi coords cell d = lo d + h d.
Proof.
  intros [HL HP] d Hd. destruct HH as (H0 & H6 & _). unfold box_lo, box_hi. pose proof (HP 0%nat _ H0 d Hd) as Q0. pose proof (HP 6%nat _ H6 d Hd) as Q6. rewrite Nat.sub_0_r in Q0, Q6. rewrite Q0, Q6.
  destruct d as [|[|[|d]]]; [| | |lia]; cbn [nth]; split; lra.
Qed.
(** the positions are monotone *)
Lemma mono n (vs : nat -> R) : (forall i, (i < n)%nat -> vs i < vs (i + 1)%nat) -> forall i j, (i < j)%nat -> (j <= n)%nat -> vs i < vs j.
Proof. intros H i j. induction j as [|j IH]; intros H1 H2; [lia|]. specialize (H j ltac:(lia)). replace (j + 1)%nat with (S j) in H by lia. destruct (Nat.eq_dec i j) as [->|]; [exact H|]. specialize (IH ltac:(lia) ltac:(lia)). lra. Qed.
Lemma same_interval n (vs : nat -> R) i j p : (forall i, (i < n)%nat -> vs i < vs (i + 1)%nat) -> (i < n)%nat -> (j < n)%nat -> vs i < p < vs (i + 1)%nat -> vs j < p < vs (j + 1)%nat -> i = j.
Proof.
  intros H Hi Hj H1 H2. destruct (Nat.lt_trichotomy i j) as [L|[E|L]]; [|exact E|].
  - assert (vs (i + 1)%nat <= vs j). { destruct (Nat.eq_dec (i + 1) j) as [<-|]; [lra|]. left. apply (mono n vs H); lia. } lra.
  - assert (vs (j + 1)%nat <= vs i). { destruct (Nat.eq_dec (j + 1) i) as [<-|]; [lra|]. left. apply (mono n vs H); lia. } lra.
Qed.

Definition box_at (c : list (list R)) (cell : list nat) (i j l : nat) : Prop :=
  forall d, (d < 3)%nat -> box_lo c cell d = corner xs ys zs i j l d /\ box_hi c cell d = corner xs ys zs i j l d + side xs ys zs i j l d.
Lemma selected_rows : exists centers mask idx, cell_centers_bulk coords topo = Ok centers /\ mapM keep centers = Ok mask /\ NoDup idx /\
  (forall k cell, nth_error (select topo mask) k = Some cell -> exists i j l, (i < nx)%nat /\ (j < ny)%nat /\ (l < nz)%nat /\ nth_error idx k = Some ((i * ny + j) * nz + l)%nat /\
     nth_error topo ((i * ny + j) * nz + l) = Some cell /\ kept (middle xs ys zs i j l) = true /\ box_placed 3 0 coords cell lcoords (corner xs ys zs i j l) (side xs ys zs i j l)) /\
  (forall i j l, (i < nx)%nat -> (j < ny)%nat -> (l < nz)%nat -> kept (middle xs ys zs i j l) = true -> exists cell, nth_error topo ((i * ny + j) * nz + l) = Some cell /\ In cell (select topo mask)).
Proof.
  destruct HG as (HR & HD & HU & HLen & HC & HS).
  set (mid := fun k => middle xs ys zs (k / nz / ny) (k / nz mod ny) (k mod nz)).
  assert (MID : forall i j l, (j < ny)%nat -> (l < nz)%nat -> mid ((i * ny + j) * nz + l)%nat = middle xs ys zs i j l).
  { intros i j l Hj Hl. unfold mid. rewrite !(Nat.div_add_l _ nz), (Nat.div_small l nz), Nat.add_0_r by lia. rewrite Nat.div_add_l, (Nat.div_small j ny), Nat.add_0_r by lia. f_equal.
    - rewrite Nat.add_comm, Nat.mod_add, Nat.mod_small; lia.
    - rewrite Nat.add_comm, Nat.mod_add, Nat.mod_small; lia. }
  assert (EC : cell_centers_bulk coords topo = Ok (map mid (seq 0 (length topo)))).
  { unfold cell_centers_bulk, cells_coords, cell_centers_bulk2.
    assert (G : forall c cell, nth_error topo c = Some cell -> (do ec <- mapM (get coords) cell; vmean ec) = Ok (mid c)).
    { intros c cell Hc. destruct (HC c cell Hc) as (i & j & l & Hi & Hj & Hl & -> & B). rewrite MID by auto. apply (box_center xs ys zs i j l coords cell lcoords HR); auto.
      intros n Hn. apply HU. apply In_nth_error in Hn. destruct Hn as [k Hk]. exists ((i * ny + j) * nz + l)%nat, k, cell. auto. }
    clear -G. revert G. generalize mid. intros m G. clear mid. assert (GG : forall s, (forall c cell, nth_error topo c = Some cell -> (do ec <- mapM (get coords) cell; vmean ec) = Ok (m (s + c)%nat)) ->
      (do ec <- mapM (mapM (get coords)) topo; mapM vmean ec) = Ok (map m (seq s (length topo)))); [|apply (GG 0%nat); exact G].
    clear G. induction topo as [|cell tp IH]; intros s G; [reflexivity|]. cbn [mapM length seq map]. pose proof (G 0%nat cell eq_refl) as G0. rewrite Nat.add_0_r in G0. destruct (mapM (get coords) cell) as [ec|]; [|discriminate]. cbn [bind] in *.
    specialize (IH (S s) ltac:(intros c cell' H; replace (S s + c)%nat with (s + S c)%nat by lia; apply G; exact H)). destruct (mapM (mapM (get coords)) tp) as [ecs|]; [|discriminate]. cbn [bind mapM] in *. rewrite G0. cbn [bind]. rewrite IH. reflexivity. }
  assert (EM : mapM keep (map mid (seq 0 (length topo))) = Ok (map kept (map mid (seq 0 (length topo))))).
  { apply mapM_map. intros x Hx. apply in_map_iff in Hx. destruct Hx as (k & <- & _). apply HK. }
  set (mask := map kept (map mid (seq 0 (length topo)))) in *.
  assert (LM : length mask = length topo) by (unfold mask; now rewrite !map_length, seq_length).
  assert (TM : forall k, nth_error mask k = Some true -> kept (mid k) = true).
  { intros k Hk. unfold mask in Hk. rewrite map_map, nth_error_map in Hk. destruct (nth_error (seq 0 (length topo)) k) as [y|] eqn:Ey; [|discriminate]. apply nth_error_seq_some in Ey. destruct Ey as [-> _]. cbn in Hk. congruence. }
  assert (TM' : forall k, (k < length topo)%nat -> kept (mid k) = true -> nth_error mask k = Some true).
  { intros k Hk E. unfold mask. rewrite map_map, nth_error_map, nth_error_seq by auto. cbn. congruence. }
  destruct (select_inv topo mask LM) as (idx & NI & S1 & S2).
  exists (map mid (seq 0 (length topo))), mask, idx. split; [exact EC|]. split; [exact EM|]. split; [exact NI|]. split.
  - intros k cell Hk. destruct (S1 k cell Hk) as (q & Q1 & Q2 & Q3). destruct (HC q cell Q2) as (i & j & l & Hi & Hj & Hl & -> & B). exists i, j, l. do 5 (split; auto). split; [rewrite <- MID by auto; apply TM, Q3|exact B].
  - intros i j l Hi Hj Hl Hm. assert (Hq : (((i * ny + j) * nz + l) < length topo)%nat) by (rewrite HLen; assert (A1 : (i * ny + j < nx * ny)%nat) by nia; clear - A1 Hl; nia). destruct (nth_error topo ((i * ny + j) * nz + l)) as [cell|] eqn:Ec; [|apply nth_error_None in Ec; lia].
    exists cell. split; [reflexivity|]. apply (S2 _ cell Ec), TM'; [exact Hq|rewrite MID by auto; exact Hm].
Qed.
Lemma selected_boxes : exists centers mask c t, cell_centers_bulk coords topo = Ok centers /\ mapM keep centers = Ok mask /\ detach_mesh_bulk coords (select topo mask) = Ok (c, t) /\
  box_mesh lcoords c t /\
  (forall i j l, (i < nx)%nat -> (j < ny)%nat -> (l < nz)%nat -> kept (middle xs ys zs i j l) = true -> exists cell, In cell t /\ box_at c cell i j l) /\
  (forall cell, In cell t -> exists i j l, (i < nx)%nat /\ (j < ny)%nat /\ (l < nz)%nat /\ kept (middle xs ys zs i j l) = true /\ box_at c cell i j l).
Proof.
  destruct selected_rows as (centers & mask & idx & EC & EM & NI & S1 & S2). destruct HG as (HR & HD & HU & HLen & HC & HS).
  destruct (detach_cells coords (select topo mask)) as (c & t & inds & ED & ND & LC & LT & US & PT & CELLS).
  { intros n (k & e & cell & H1 & H2). destruct (S1 k cell H1) as (i & j & l & _ & _ & _ & _ & H3 & _). apply HU. exists ((i * ny + j) * nz + l)%nat, e, cell. auto. }
  (* a cell of the result *)
  assert (CELL : forall k cell', nth_error t k = Some cell' -> exists q cell i j l, nth_error idx k = Some q /\ nth_error topo q = Some cell /\ q = ((i * ny + j) * nz + l)%nat /\ (i < nx)%nat /\ (j < ny)%nat /\ (l < nz)%nat /\ kept (middle xs ys zs i j l) = true /\
     box_placed 3 0 c cell' lcoords (corner xs ys zs i j l) (side xs ys zs i j l) /\ length cell' = length cell /\
     (forall e n', nth_error cell' e = Some n' <-> exists n, nth_error cell e = Some n /\ nth_error inds n' = Some n)).
  { intros k cell' Hk. destruct (CELLS k cell' Hk) as (cell & H1 & H2 & H3). destruct (S1 k cell H1) as (i & j & l & Hi & Hj & Hl & Q1 & Q2 & Q3 & B). exists ((i * ny + j) * nz + l)%nat, cell, i, j, l. do 6 (split; auto). split; [exact Q3|]. split; [|split; [exact H2|exact H3]].
    destruct B as [BL BP]. split; [congruence|]. intros e p He d Hd. rewrite <- (BP e p He d Hd). rewrite !Nat.sub_0_r.
    assert (Ke : (e < length cell')%nat) by (rewrite H2, BL; eapply nth_error_Some_lt; eauto). destruct (proj1 (H3 e (nth e cell' 0%nat)) (nth_error_nth' _ _ Ke)) as (n & N1 & N2). rewrite (nth_error_nth cell e 0%nat N1). unfold coord. f_equal. pose proof (PT _ _ N2) as Q.
    destruct (nth_error coords n) as [x|] eqn:En; [now rewrite (nth_error_nth _ _ [] En), (nth_error_nth _ _ [] Q)|]. exfalso. apply nth_error_None in En. pose proof (nth_error_Some_lt _ _ _ N2) as L1. rewrite <- LC in L1. apply nth_error_None in Q. lia. }
  assert (BOX : forall cell' i j l, box_placed 3 0 c cell' lcoords (corner xs ys zs i j l) (side xs ys zs i j l) -> box_at c cell' i j l).
  { intros cell' i j l [BL BP] d Hd. destruct HH as (H0 & H6 & _). pose proof (BP 0%nat _ H0 d Hd) as Q0. pose proof (BP 6%nat _ H6 d Hd) as Q6. rewrite Nat.sub_0_r in Q0, Q6. unfold box_lo, box_hi. rewrite Q0, Q6. destruct d as [|[|[|d]]]; [| | |lia]; cbn [nth]; split; lra. }
  assert (PTS : forall k n, nth_error inds k = Some n -> exists p, nth_error c k = Some p /\ nth_error coords n = Some p).
  { intros k n Hk. pose proof (PT k n Hk) as Q. pose proof (nth_error_Some_lt _ _ _ Hk) as L1. rewrite <- LC in L1. destruct (nth_error c k) as [p|] eqn:Ep; [eauto|apply nth_error_None in Ep; lia]. }
  exists centers, mask, c, t. split; [exact EC|]. split; [exact EM|]. split; [exact ED|]. split; [|split].
  - split; [|split; [|split; [|split; [|split]]]].
    + apply Forall_forall. intros p Hp. apply In_nth_error in Hp. destruct Hp as [k Hk]. destruct (nth_error inds k) as [n|] eqn:En; [|apply nth_error_None in En; pose proof (nth_error_Some_lt _ _ _ Hk); lia]. rewrite (PT k n En) in Hk. apply (proj1 (Forall_forall _ _) HR). eapply nth_error_In; eauto.
    + intros k k' p Hk Hk'. destruct (nth_error inds k) as [n|] eqn:En; [|apply nth_error_None in En; pose proof (nth_error_Some_lt _ _ _ Hk); lia]. destruct (nth_error inds k') as [n'|] eqn:En'; [|apply nth_error_None in En'; pose proof (nth_error_Some_lt _ _ _ Hk'); lia].
      rewrite (PT k n En) in Hk. rewrite (PT k' n' En') in Hk'. pose proof (HD _ _ _ Hk Hk') as <-. apply (proj1 (NoDup_nth_error _) ND); [eapply nth_error_Some_lt; eauto|congruence].
    + exact US.
    + intros cell' Hin. apply In_nth_error in Hin. destruct Hin as [k Hk]. destruct (CELL k cell' Hk) as (q & cell & i & j & l & _ & _ & _ & Hi & Hj & Hl & _ & B & _). pose proof (BOX cell' i j l B) as BA. split.
      * intros d Hd. destruct (BA d Hd) as [-> ->]. pose proof (side_pos i j l d Hi Hj Hl Hd). lra.
      * destruct B as [BL BP]. split; [exact BL|]. intros e p He d Hd. rewrite (BP e p He d Hd). destruct (BA d Hd) as [-> ->]. field.
    + intros k k' cell cell' p Hk Hk' H1 H2. destruct (CELL k cell Hk) as (q & ce & i & j & l & Q1 & _ & Q3 & Hi & Hj & Hl & _ & B & _). destruct (CELL k' cell' Hk') as (q' & ce' & i' & j' & l' & Q1' & _ & Q3' & Hi' & Hj' & Hl' & _ & B' & _).
      pose proof (BOX _ _ _ _ B) as BA. pose proof (BOX _ _ _ _ B') as BA'.
      assert (E : i = i' /\ j = j' /\ l = l').
      { unfold inside_box in H1, H2. split; [|split].
        - specialize (H1 0%nat ltac:(lia)). specialize (H2 0%nat ltac:(lia)). destruct (BA 0%nat ltac:(lia)) as [E1 E2]. destruct (BA' 0%nat ltac:(lia)) as [E3 E4]. rewrite E1, E2 in H1. rewrite E3, E4 in H2. unfold corner, side in *. cbn [nth] in *. apply (same_interval nx xs i i' (nth 0 p 0)); auto; lra.
        - specialize (H1 1%nat ltac:(lia)). specialize (H2 1%nat ltac:(lia)). destruct (BA 1%nat ltac:(lia)) as [E1 E2]. destruct (BA' 1%nat ltac:(lia)) as [E3 E4]. rewrite E1, E2 in H1. rewrite E3, E4 in H2. unfold corner, side in *. cbn [nth] in *. apply (same_interval ny ys j j' (nth 1 p 0)); auto; lra.
        - specialize (H1 2%nat ltac:(lia)). specialize (H2 2%nat ltac:(lia)). destruct (BA 2%nat ltac:(lia)) as [E1 E2]. destruct (BA' 2%nat ltac:(lia)) as [E3 E4]. rewrite E1, E2 in H1. rewrite E3, E4 in H2. unfold corner, side in *. cbn [nth] in *. apply (same_interval nz zs l l' (nth 2 p 0)); auto; lra. }
      destruct E as (<- & <- & <-). rewrite <- Q3' in Q3. subst q'. apply (proj1 (NoDup_nth_error _) NI); [eapply nth_error_Some_lt; eauto|congruence].
    + intros cell cell' n Hin Hin' Hn. apply In_nth_error in Hin. destruct Hin as [k Hk]. apply In_nth_error in Hin'. destruct Hin' as [k' Hk']. destruct (CELL k cell Hk) as (q & ce & i & j & l & _ & Q2 & Q3 & Hi & Hj & Hl & _ & B & LL & EE). destruct (CELL k' cell' Hk') as (q' & ce' & i' & j' & l' & _ & Q2' & Q3' & Hi' & Hj' & Hl' & _ & B' & LL' & EE').
      apply In_nth_error in Hn. destruct Hn as [e He]. apply EE in He. destruct He as (m & M1 & M2). subst q'.
      pose proof (HS ce i' j' l' ce' m Hi' Hj' Hl' (nth_error_In _ _ Q2) Q2' (nth_error_In _ _ M1)) as CF. destruct (PTS n m M2) as (p & P1 & P2).
      assert (I : In n cell' <-> In m ce').
      { split; intros H; apply In_nth_error in H; destruct H as [e' H].
        - apply EE' in H. destruct H as (m' & M3 & M4). rewrite M2 in M4. injection M4 as <-. eapply nth_error_In; eauto.
        - apply (nth_error_In cell' e'). apply EE'. eauto. }
      rewrite I, CF. pose proof (BOX _ _ _ _ B') as BA. unfold in_box, coord. rewrite (nth_error_nth _ _ [] P1), (nth_error_nth _ _ [] P2).
      split; intros H d Hd; specialize (H d Hd); destruct (BA d Hd) as [E1 E2]; rewrite ?E1, ?E2 in *; exact H.
  - intros i j l Hi Hj Hl Hm. destruct (S2 i j l Hi Hj Hl Hm) as (cell & Ec & Hin). apply In_nth_error in Hin. destruct Hin as [k Hk].
    destruct (nth_error t k) as [cell'|] eqn:Ek; [|apply nth_error_None in Ek; pose proof (nth_error_Some_lt _ _ _ Hk); lia].
    destruct (CELLS k cell' Ek) as (cell0 & C1 & C2 & C3). rewrite Hk in C1. injection C1 as <-.
    exists cell'. split; [eapply nth_error_In; eauto|]. apply BOX. destruct (HC _ _ Ec) as (i' & j' & l' & Hi' & Hj' & Hl' & E & B). apply pos_inj in E; auto. destruct E as [E <-]. apply pos_inj in E; auto. destruct E as [<- <-].
    destruct B as [BL BP]. split; [congruence|]. intros e p He d Hd. rewrite <- (BP e p He d Hd). rewrite !Nat.sub_0_r.
    assert (Ke : (e < length cell')%nat) by (rewrite C2, BL; eapply nth_error_Some_lt; eauto). destruct (proj1 (C3 e (nth e cell' 0%nat)) (nth_error_nth' _ _ Ke)) as (n & N1 & N2). rewrite (nth_error_nth cell e 0%nat N1). unfold coord. f_equal. destruct (PTS _ _ N2) as (x & X1 & X2). now rewrite (nth_error_nth _ _ [] X1), (nth_error_nth _ _ [] X2).
  - intros cell' Hin. apply In_nth_error in Hin. destruct Hin as [k Hk]. destruct (CELL k cell' Hk) as (q & cell & i & j & l & _ & _ & _ & Hi & Hj & Hl & Hm & B & _). exists i, j, l. do 4 (split; auto).
Qed.
End Selected.
