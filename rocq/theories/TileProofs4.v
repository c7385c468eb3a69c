(** * Proofs about [TileModel.v], part 4: copies, joints and crossings *)
From Coq Require Import Reals Lra Lia List Permutation Sorted.
From Verif Require Import BaseFacts FillFacts TrModel TrProofs TopoProofs TopoProofs3 TopoProofs4 TopoProofs5 TileModel TileSpec ExtrudeProofs TileProofs TileProofs2 TileProofs3.
Import ListNotations.
Local Open Scope R_scope.

Section tiles.
Variables (coords : list (list R)) (topo : list (list nat)) (tol sx sy : R) (lx hx ly hy : list nat) (nX nY : nat).
Hypothesis HT : tile_cell coords tol sx sy lx hx ly hy.
Hypothesis HR : rect (ncols topo) topo.
Hypothesis HU : forall n, used topo n -> (n < length coords)%nat.
Let f := image_of (length coords) nX nY lx hx ly hy.
Let T := map (map f) (tiled_topo topo (length coords) nX nY).
Let C := tiled_coords coords sx sy nX nY.

Lemma joined_entry n k m : entry T n k m <-> exists i j e r, (i < nX)%nat /\ (j < nY)%nat /\ n = ((i * nY + j) * length topo + e)%nat /\ entry topo e k r /\ m = target (length coords) nY lx hx ly hy i j r.
Proof.
  unfold T. rewrite map_map_entry. split.
  - intros (a & H & ->). apply tiled_entry in H. destruct H as (i & j & e & r & Hi & Hj & -> & He & ->). exists i, j, e, r. repeat (split; [assumption || reflexivity|]). apply image_of_at; auto. apply HU. exists e, k. exact He.
  - intros (i & j & e & r & Hi & Hj & -> & He & ->). exists (r + (i * nY + j) * length coords)%nat. split; [apply tiled_entry; exists i, j, e, r; auto 7|]. symmetry. apply image_of_at; auto. apply HU. exists e, k. exact He.
Qed.
Lemma joined_used m : used T m <-> exists i j r, (i < nX)%nat /\ (j < nY)%nat /\ used topo r /\ m = target (length coords) nY lx hx ly hy i j r.
Proof.
  split.
  - intros (n & k & H). apply joined_entry in H. destruct H as (i & j & e & r & Hi & Hj & _ & He & ->). exists i, j, r. repeat (split; [assumption|]). split; [exists e, k; exact He|reflexivity].
  - intros (i & j & r & Hi & Hj & (e & k & He) & ->). exists ((i * nY + j) * length topo + e)%nat, k. apply joined_entry. exists i, j, e, r. auto 7.
Qed.
Lemma joined_range m : used T m -> (m < length C)%nat.
Proof.
  intros H. apply joined_used in H. destruct H as (i & j & r & Hi & Hj & Hr & ->). apply nth_error_Some_lt with (x := moved coords sx sy i j r). apply (target_place coords tol sx sy lx hx ly hy nX nY HT); auto.
Qed.

(** copies *)
Lemma tiles_result : exists c t, (forall its, Permutation (blocks nX nY) its -> tile2d_in its coords topo nX nY tol = Ok (c, t)) /\
  length t = (nX * nY * length topo)%nat /\ (forall row, In row t -> length row = ncols topo) /\ (forall k, (k < length c)%nat <-> used t k) /\
  forall i j e k n, (i < nX)%nat -> (j < nY)%nat -> entry topo e k n ->
    exists m, entry t ((i * nY + j) * length topo + e) k m /\ nth_error c m = Some [coord coords n 0 + INR i * sx; coord coords n 1 + INR j * sy; coord coords n 2].
Proof.
  destruct (detach_bulk_ok C T joined_range) as (c & t & inds & E & HUL & HL & HC). exists c, t. split; [|split; [|split; [|split]]].
  - intros its HP. rewrite (tile_value its coords topo nX nY tol sx sy lx hx ly hy HT HR HU HP). exact E.
  - pose proof (f_equal (@length nat) (proj1 HL)) as LL. rewrite !map_length in LL. rewrite <- LL. unfold T. rewrite map_length. apply stack_length.
  - intros row Hrow. apply In_nth_error in Hrow. destruct Hrow as (n & Hn). pose proof (f_equal (fun l => nth_error l n) (proj1 HL)) as LL. cbn beta in LL. rewrite !nth_error_map, Hn in LL. unfold T in LL. rewrite nth_error_map in LL.
    destruct (nth_error (tiled_topo topo (length coords) nX nY) n) as [row0|] eqn:E0; [|discriminate]. cbn in LL. injection LL as <-. rewrite map_length. apply stack_inv in E0. destruct E0 as (i & j & r & x & _ & _ & Hx & _ & ->). unfold shifted. rewrite map_length. exact (proj1 (Forall_forall _ _) HR _ (nth_error_In _ _ Hx)).
  - destruct (detached_of C T c t inds HUL HL HC) as (_ & _ & _ & H & _). intros k. specialize (H k). tauto.
  - intros i j e k n Hi Hj He. destruct (proj2 HL ((i * nY + j) * length topo + e)%nat k (target (length coords) nY lx hx ly hy i j n)) as (m & H1 & H2).
    { apply joined_entry. exists i, j, e, n. auto 7. }
    exists m. split; [exact H1|]. destruct (take_nth _ _ _ _ _ HC H2) as (x & H3 & H4). assert (Hn : (n < length coords)%nat) by (apply HU; exists e, k; exact He). pose proof (target_place coords tol sx sy lx hx ly hy nX nY HT i j n Hi Hj Hn) as TP. fold C in TP. unfold moved in TP. congruence.
Qed.

(** points of the result *)
Lemma tiles_points its c t : Permutation (blocks nX nY) its -> tile2d_in its coords topo nX nY tol = Ok (c, t) ->
  exists inds, NoDup inds /\ (forall m, In m inds <-> used T m) /\ take C inds = Ok c.
Proof.
  intros HP H. rewrite (tile_value its coords topo nX nY tol sx sy lx hx ly hy HT HR HU HP) in H. destruct (detach_bulk_ok C T joined_range) as (c' & t' & inds & E & HUL & HL & HC). fold f T C in H. rewrite E in H. injection H as <- <-. exists inds. split; [apply sorted_NoDup, (proj1 HUL)|]. split; [apply (proj2 HUL)|exact HC].
Qed.

Lemma bounds_unique d lo hi lo' hi' : bounds coords d lo hi -> bounds coords d lo' hi' -> lo = lo' /\ hi = hi'.
Proof.
  intros ((a & Ha & Ea) & (b & Hb & Eb) & H) ((a' & Ha' & Ea') & (b' & Hb' & Eb') & H'). pose proof (H a' Ha'). pose proof (H b' Hb'). pose proof (H' a Ha). pose proof (H' b Hb). lra.
Qed.

(** points coincide at crossings only *)
Lemma tiles_coincide its c t xmin xmax ymin ymax : sharp coords 0 tol -> sharp coords 1 tol -> 0 < tol -> NoDup coords ->
  bounds coords 0 xmin xmax -> bounds coords 1 ymin ymax -> Permutation (blocks nX nY) its -> tile2d_in its coords topo nX nY tol = Ok (c, t) ->
  forall a b p, a <> b -> nth_error c a = Some p -> nth_error c b = Some p ->
    exists i j, (0 < i < nX)%nat /\ (0 < j < nY)%nat /\ nth 0 p 0 = xmin + INR i * sx /\ nth 1 p 0 = ymin + INR j * sy.
Proof.
  intros SX SY H0 ND BX BY HP H a b p Nab Ha Hb. destruct (tiles_points its c t HP H) as (inds & NI & HI & HC).
  destruct (SX xmin xmax BX) as [DX TX]. destruct (SY ymin ymax BY) as [DY TY].
  destruct (HT) as (H3 & x0 & x1 & y0 & y1 & BX' & BY' & EX & EY & LX & HX & LY & HY & MX & MY).
  destruct (bounds_unique 0%nat _ _ _ _ BX BX') as [<- <-]. destruct (bounds_unique 1%nat _ _ _ _ BY BY') as [<- <-].
  assert (Q : forall k, nth_error c k = Some p -> exists n i j s, nth_error inds k = Some n /\ (i < nX)%nat /\ (j < nY)%nat /\ (s < length coords)%nat /\ n = (s + (i * nY + j) * length coords)%nat /\ p = moved coords sx sy i j s /\ canonical lx ly hy nY i j s).
  { intros k Hk. assert (L : (k < length inds)%nat) by (rewrite <- (take_length _ _ _ HC); now apply nth_error_Some_lt in Hk). destruct (nth_error_lt inds k L) as [n Hn]. destruct (take_nth _ _ _ _ _ HC Hn) as (x & E1 & E2). rewrite Hk in E1. injection E1 as <-.
    pose proof (proj1 (HI n) (nth_error_In _ _ Hn)) as U. apply joined_used in U. destruct U as (i & j & r & Hi & Hj & Hr & ->). apply HU in Hr.
    destruct (target_canonical coords tol sx sy lx hx ly hy nX nY HT i j r SX SY H0 Hi Hj Hr) as (i' & j' & s & Hi' & Hj' & Hs & E & M & K). exists (target (length coords) nY lx hx ly hy i j r), i', j', s. repeat (split; [assumption|]). split; [|exact K]. rewrite M. pose proof (target_place coords tol sx sy lx hx ly hy nX nY HT i j r Hi Hj Hr) as TP. fold C in TP. congruence. }
  destruct (Q a Ha) as (n & i & j & s & Hn & Hi & Hj & Hs & En & Ep & [K1 K2]). destruct (Q b Hb) as (n' & i' & j' & s' & Hn' & Hi' & Hj' & Hs' & En' & Ep' & [K1' K2']). rewrite Ep in Ep'. unfold moved in Ep'. injection Ep' as E0 E1 E2.
  pose proof (proj2 (proj2 BX) s Hs) as RX. pose proof (proj2 (proj2 BX) s' Hs') as RX'. pose proof (proj2 (proj2 BY) s Hs) as RY. pose proof (proj2 (proj2 BY) s' Hs') as RY'.
  assert (STEP : forall (u v lo hi size : R) (k l : nat), size = hi - lo -> 0 < size -> lo <= u <= hi -> lo <= v <= hi -> u + INR k * size = v + INR l * size -> (k < l)%nat -> u = hi /\ v = lo /\ l = S k).
  { intros u v lo hi size k l Es Hz Hu Hv E Hk. assert (I : (l - k <= 1)%nat). { destruct (le_lt_dec (l - k) 1) as [|Hl]; [assumption|]. exfalso. assert (INR l >= INR k + 2) by (replace 2 with (INR 2) by (cbn; ring); rewrite <- plus_INR; apply Rle_ge, le_INR; lia). assert (v = u - (INR l - INR k) * size) by lra. assert ((INR l - INR k) * size >= 2 * size) by (apply Rmult_ge_compat_r; lra). lra. }
    assert (l = S k) by lia. subst l. rewrite S_INR in E. split; [lra|]. split; [lra|reflexivity]. }
  assert (Hsx : 0 < sx) by lra. assert (Hsy : 0 < sy) by lra.
  assert (NLY : forall q, (q < length coords)%nat -> coord coords q 1 = ymin -> In q ly) by (intros q Hq E; apply (proj2 LY); split; [exact Hq|]; rewrite E, Rminus_diag_eq, Rabs_R0 by reflexivity; exact H0).
  assert (NLX : forall q, (q < length coords)%nat -> coord coords q 0 = xmin -> In q lx) by (intros q Hq E; apply (proj2 LX); split; [exact Hq|]; rewrite E, Rminus_diag_eq, Rabs_R0 by reflexivity; exact H0).
  assert (EJ : j = j').
  { destruct (lt_eq_lt_dec j j') as [[L|E]|L]; [|exact E|]; exfalso.
    - destruct (STEP _ _ ymin ymax sy j j' EY Hsy RY RY' E1 L) as (_ & B & _). destruct K1' as [K|K]; [lia|]. apply K, NLY; assumption.
    - destruct (STEP _ _ ymin ymax sy j' j EY Hsy RY' RY (eq_sym E1) L) as (_ & B & _). destruct K1 as [K|K]; [lia|]. apply K, NLY; assumption. }
  subst j'.
  assert (CROSS : forall i1 s1, (i1 < nX)%nat -> (s1 < length coords)%nat -> (0 < i1)%nat -> p = moved coords sx sy i1 j s1 -> coord coords s1 0 = xmin -> (i1 = 0%nat \/ ~ In s1 lx \/ (In s1 hy /\ (S j < nY)%nat)) ->
    exists i j, (0 < i < nX)%nat /\ (0 < j < nY)%nat /\ nth 0 p 0 = xmin + INR i * sx /\ nth 1 p 0 = ymin + INR j * sy).
  { intros i1 s1 L1 L2 L3 P X [K|[K|[K K']]]; [lia|exfalso; apply K, NLX; assumption|]. exists i1, (S j). split; [lia|]. split; [lia|]. rewrite P. unfold moved. cbn [nth]. rewrite X. split; [reflexivity|].
    apply (proj2 HY) in K. rewrite (proj2 (TY s1 L2) (proj2 K)), S_INR, EY. ring. }
  destruct (lt_eq_lt_dec i i') as [[L|E]|L].
  - destruct (STEP _ _ xmin xmax sx i i' EX Hsx RX RX' E0 L) as (_ & B & _). apply (CROSS i' s'); auto; [lia|]. rewrite Ep. unfold moved. congruence.
  - exfalso. subst i'. apply Nab. apply (proj1 (NoDup_nth_error inds) NI); [now apply nth_error_Some_lt in Hn|]. rewrite Hn, Hn'. f_equal.
    assert (Ess : s = s').
    { apply (proj1 (NoDup_nth_error coords) ND); [exact Hs|]. destruct (nth_error_lt coords s Hs) as [q Hq]. destruct (nth_error_lt coords s' Hs') as [q' Hq']. rewrite Hq, Hq'. f_equal.
      pose proof (proj1 (Forall_forall _ _) H3 q (nth_error_In _ _ Hq)) as L. pose proof (proj1 (Forall_forall _ _) H3 q' (nth_error_In _ _ Hq')) as L'. unfold coord in E0, E1, E2. rewrite (nth_error_nth coords s [] Hq), (nth_error_nth coords s' [] Hq') in E0, E1, E2.
      destruct q as [|q0 [|q1 [|q2 [|]]]]; try discriminate L. destruct q' as [|r0 [|r1 [|r2 [|]]]]; try discriminate L'. cbn [nth] in E0, E1, E2. replace r0 with q0 by lra. replace r1 with q1 by lra. now rewrite E2. }
    congruence.
  - destruct (STEP _ _ xmin xmax sx i' i EX Hsx RX' RX (eq_sym E0) L) as (_ & B & _). apply (CROSS i s); auto. lia.
Qed.

(** and at crossings they do *)
Lemma tiles_crossing its c t sw nw : (1 < nX)%nat -> (1 < nY)%nat -> In sw lx -> In (sw, nw) (combine ly hy) -> used topo sw -> used topo nw ->
  Permutation (blocks nX nY) its -> tile2d_in its coords topo nX nY tol = Ok (c, t) ->
  exists a b p, a <> b /\ nth_error c a = Some p /\ nth_error c b = Some p /\ used t a /\ used t b.
Proof.
  intros HX1 HY1 HL HI U1 U2 HP H. destruct (tiles_points its c t HP H) as (inds & NI & HIn & HC).
  pose proof (HU sw U1) as R1. pose proof (HU nw U2) as R2.
  destruct (HT) as (H3 & x0 & x1 & y0 & y1 & BX & BY & EX & EY & LX & HX & LY & HY & MX & MY).
  destruct (Forall2_combine _ _ _ MY sw nw HI) as [E1 E2].
  assert (HLn : In nw lx) by (apply (proj2 LX); split; [exact R2|]; rewrite (E2 0%nat) by lia; exact (proj2 (proj1 (proj2 LX sw) HL))).
  destruct (combine_total lx hx (Forall2_len _ _ _ MX) nw HLn) as (ne & HIx & HIh). apply (proj2 HX) in HIh. destruct HIh as [R3 _].
  assert (A : target (length coords) nY lx hx ly hy 1 1 sw = (nw + nY * length coords)%nat).
  { unfold target. cbn [Nat.ltb Nat.leb]. rewrite (partner_some ly hy sw nw (sorted_NoDup _ (proj1 LY)) HI). f_equal. f_equal. lia. }
  assert (B : target (length coords) nY lx hx ly hy 1 0 nw = ne).
  { unfold target. cbn [Nat.ltb Nat.leb]. rewrite (partner_some lx hx nw ne (sorted_NoDup _ (proj1 LX)) HIx). cbn. lia. }
  assert (PA : In (nw + nY * length coords)%nat inds) by (apply HIn, joined_used; exists 1%nat, 1%nat, sw; auto).
  assert (PB : In ne inds) by (apply HIn, joined_used; exists 1%nat, 0%nat, nw; repeat split; auto; lia).
  pose proof (target_place coords tol sx sy lx hx ly hy nX nY HT 1 1 sw ltac:(lia) ltac:(lia) R1) as TA. pose proof (target_place coords tol sx sy lx hx ly hy nX nY HT 1 0 nw ltac:(lia) ltac:(lia) R2) as TB. fold C in TA, TB. rewrite A in TA. rewrite B in TB.
  assert (EP : moved coords sx sy 1 0 nw = moved coords sx sy 1 1 sw). { unfold moved. rewrite E1, (E2 0%nat), (E2 2%nat) by lia. f_equal. f_equal. cbn. ring. }
  apply In_nth_error in PA, PB. destruct PA as (a & Ha). destruct PB as (b & Hb). destruct (take_nth _ _ _ _ _ HC Ha) as (pa & A1 & A2). destruct (take_nth _ _ _ _ _ HC Hb) as (pb & B1 & B2).
  destruct tiles_result as (c' & t' & E & _ & _ & CU & _). rewrite (E its HP) in H. injection H as <- <-.
  exists a, b, (moved coords sx sy 1 1 sw). split; [intros ->; rewrite Ha in Hb; injection Hb as Hb; nia|]. split; [congruence|]. split; [congruence|]. split; apply CU; [apply nth_error_Some_lt in A1|apply nth_error_Some_lt in B1]; assumption.
Qed.
End tiles.

(** sides with different numbers of nodes *)
Lemma tiles_mismatch its coords topo nX nY tol xmin xmax ymin ymax lx hx : rect 3 coords -> rect (ncols topo) topo -> bounds coords 0 xmin xmax -> bounds coords 1 ymin ymax ->
  nodes_near coords 0 xmin tol lx -> nodes_near coords 0 xmax tol hx -> length lx <> length hx -> (1 < nX)%nat -> (0 < nY)%nat ->
  Permutation (blocks nX nY) its -> tile2d_in its coords topo nX nY tol = Err ValueError.
Proof.
  intros HR HT BX BY LX HX HL H1 H2 HP. assert (HN : coords <> []) by (destruct BX as ((n & Hn & _) & _); destruct coords; [cbn in Hn; lia|discriminate]).
  unfold tile2d_in. rewrite !column_ok by (auto; lia). cbn [bind]. rewrite (minmax_bounds _ _ _ _ BX), (minmax_bounds _ _ _ _ BY). cbn [bind fst snd].
  rewrite (near_where _ _ _ _ _ LX), (near_where _ _ _ _ _ HX), (coords_ok coords _ _ nX nY its HR HN HP), (topo_ok topo (length coords) nX nY its HT HP). cbn [bind].
  match goal with |- context [mapM ?g its] => assert (E : mapM g its = Err ValueError) end; [|now rewrite E].
  assert (HI : In (1%nat, 0%nat) its) by (apply (Permutation_in _ HP), blocks_In; lia).
  set (ly := where_near _ _ _). set (hy := where_near (column coords 1) ymax tol). clearbody ly hy. clear - HL HI. induction its as [|[i j] its IH]; [contradiction|]. cbn [mapM].
  assert (D : (exists ws, tile_map_writes (length coords) nY lx hx ly hy (i, j) = Ok ws) \/ tile_map_writes (length coords) nY lx hx ly hy (i, j) = Err ValueError).
  { unfold tile_map_writes, tile_side_writes. destruct (Nat.ltb 0 i), (Nat.eqb (length lx) (length hx)), (Nat.ltb 0 j), (Nat.eqb (length ly) (length hy)); cbn; eauto. }
  destruct HI as [E|HI].
  - injection E as -> ->. unfold tile_map_writes, tile_side_writes. cbn [Nat.ltb Nat.leb]. destruct (Nat.eqb_spec (length lx) (length hx)); [contradiction|]. reflexivity.
  - destruct D as [(ws & ->)| ->]; [cbn [bind]; now rewrite (IH HI)|reflexivity].
Qed.

(** one row or column of tiles *)
Lemma tiles_strip coords topo tol sx sy lx hx ly hy nX nY : tile_cell coords tol sx sy lx hx ly hy -> rect (ncols topo) topo -> (forall n, used topo n -> (n < length coords)%nat) ->
  forall its c t, sharp coords 0 tol -> sharp coords 1 tol -> 0 < tol -> NoDup coords -> (nX <= 1 \/ nY <= 1)%nat -> Permutation (blocks nX nY) its -> tile2d_in its coords topo nX nY tol = Ok (c, t) -> NoDup c.
Proof.
  intros HT HR HU its c t SX SY H0 ND HN HP H. destruct (HT) as (_ & x0 & x1 & y0 & y1 & BX & BY & _). apply NoDup_nth_error. intros a b La E. destruct (Nat.eq_dec a b) as [|N]; [assumption|]. exfalso.
  destruct (nth_error_lt c a La) as [p Hp]. destruct (tiles_coincide coords topo tol sx sy lx hx ly hy nX nY HT HR HU its c t x0 x1 y0 y1 SX SY H0 ND BX BY HP H a b p N Hp) as (i & j & Hi & Hj & _); [congruence|]. lia.
Qed.

(** ** sides that are listed in different order *)
Definition rectangle (x0 x1 y0 y1 : R) : list (list R) := [[x0; y0; 0]; [x1; y0; 0]; [x1; y1; 0]; [x0; y1; 0]].
Lemma rectangle_sides x0 x1 y0 y1 tol : 0 < tol -> tol <= x1 - x0 -> tol <= y1 - y0 -> sides (rectangle x0 x1 y0 y1) tol (x1 - x0) (y1 - y0) [0; 3]%nat [1; 2]%nat [0; 1]%nat [2; 3]%nat.
Proof.
  intros H0 HX HY.
  assert (Q : forall d v l, StronglySorted lt l -> (forall n, In n l -> (n < 4)%nat) -> (forall n, (n < 4)%nat -> (In n l -> coord (rectangle x0 x1 y0 y1) n d = v) /\ (~ In n l -> tol <= Rabs (coord (rectangle x0 x1 y0 y1) n d - v))) -> nodes_near (rectangle x0 x1 y0 y1) d v tol l).
  { intros d v l H1 H2 H3. split; [exact H1|]. intros n. split; [intros H; split; [now apply H2|]; rewrite (proj1 (H3 n (H2 n H)) H), Rminus_diag_eq, Rabs_R0 by reflexivity; exact H0|]. intros [L H]. destruct (in_dec Nat.eq_dec n l) as [|N]; [assumption|]. pose proof (proj2 (H3 n L) N). lra. }
  assert (D : forall a b, tol <= a - b -> tol <= Rabs (a - b) /\ tol <= Rabs (b - a)) by (intros a b H; rewrite (Rabs_minus_sym b a); split; rewrite Rabs_right; lra).
  split; [repeat constructor|]. exists x0, x1, y0, y1.
  assert (B0 : bounds (rectangle x0 x1 y0 y1) 0 x0 x1) by (split; [exists 0%nat; split; [cbn; lia|reflexivity]|split; [exists 2%nat; split; [cbn; lia|reflexivity]|]]; intros n Hn; cbn in Hn; destruct n as [|[|[|[|n]]]]; [cbn; lra..|lia]).
  assert (B1 : bounds (rectangle x0 x1 y0 y1) 1 y0 y1) by (split; [exists 0%nat; split; [cbn; lia|reflexivity]|split; [exists 2%nat; split; [cbn; lia|reflexivity]|]]; intros n Hn; cbn in Hn; destruct n as [|[|[|[|n]]]]; [cbn; lra..|lia]).
  split; [exact B0|]. split; [exact B1|]. split; [reflexivity|]. split; [reflexivity|].
  assert (W : forall l : list nat, l = [0; 3]%nat \/ l = [1; 2]%nat \/ l = [0; 1]%nat \/ l = [2; 3]%nat -> StronglySorted lt l /\ forall n, In n l -> (n < 4)%nat).
  { intros l [-> |[-> |[-> | ->]]]; (split; [repeat constructor; lia|intros n Hn; cbn in Hn; repeat (destruct Hn as [<-|Hn]; [lia|]); contradiction]). }
  repeat (split; [apply Q; [apply W; auto|apply W; auto|]; intros n Hn; destruct n as [|[|[|[|n]]]]; [..|lia]; (split; [intros Hl; cbn in Hl; cbn; first [reflexivity|exfalso; lia]|intros Hl; cbn; first [exfalso; apply Hl; cbn; now auto|apply (proj1 (D x1 x0 HX))|apply (proj2 (D x1 x0 HX))|apply (proj1 (D y1 y0 HY))|apply (proj2 (D y1 y0 HY))]])|]).
  split; reflexivity.
Qed.

(** the numbers of a rectangle run around it: the rows of tiles are joined crosswise *)
Lemma tiles_twisted x0 x1 y0 y1 tol nX nY its : 0 < tol -> tol <= x1 - x0 -> tol <= y1 - y0 -> (0 < nX)%nat -> (1 < nY)%nat -> Permutation (blocks nX nY) its ->
  exists c t m m', tile2d_in its (rectangle x0 x1 y0 y1) [[0; 1; 2; 3]%nat] nX nY tol = Ok (c, t) /\ entry t 1 0 m /\ entry t 1 1 m' /\
    nth_error c m = Some [x1; y1; 0] /\ nth_error c m' = Some [x0; y1; 0].
Proof.
  intros H0 HX HY HnX HnY HP. pose proof (rectangle_sides x0 x1 y0 y1 tol H0 HX HY) as HS. set (coords := rectangle x0 x1 y0 y1) in *. set (topo := [[0; 1; 2; 3]%nat]).
  assert (HU : forall n, used topo n -> (n < length coords)%nat).
  { intros n (e & k & row & H1 & H2). destruct e as [|e]; [|destruct e; discriminate]. injection H1 as <-. destruct k as [|[|[|[|k]]]]; try (injection H2 as <-; cbn; lia). destruct k; discriminate. }
  rewrite (tile_value_sides its coords topo nX nY tol _ _ _ _ _ _ HS ltac:(repeat constructor) HU HP).
  set (lx := [0; 3]%nat) in *. set (hx := [1; 2]%nat) in *. set (ly := [0; 1]%nat) in *. set (hy := [2; 3]%nat) in *.
  set (T := map (map (image_of (length coords) nX nY lx hx ly hy)) (tiled_topo topo (length coords) nX nY)).
  set (C := tiled_coords coords (x1 - x0) (y1 - y0) nX nY).
  assert (HT : forall m, used T m -> (m < length C)%nat).
  { intros m U. apply (joined_used coords topo lx hx ly hy nX nY HU) in U. destruct U as (i & j & r & Hi & Hj & Hr & ->). unfold C, tiled_coords. rewrite stack_length, seq_length. apply HU in Hr. change (length coords) with 4%nat in *.
    assert (A : forall i' j' s, (i' < nX)%nat -> (j' < nY)%nat -> (s < 4)%nat -> (s + (i' * nY + j') * 4 < nX * nY * 4)%nat) by (intros; assert (i' * nY + j' < nX * nY)%nat by nia; lia).
    unfold target. destruct (Nat.ltb_spec 0 j); [destruct (partner ly hy r) as [s|] eqn:E|]; [apply A; try lia|destruct (Nat.ltb_spec 0 i); [destruct (partner lx hx r) as [s|] eqn:E'|]; apply A; try lia|destruct (Nat.ltb_spec 0 i); [destruct (partner lx hx r) as [s|] eqn:E'|]; apply A; try lia];
      (destruct r as [|[|[|[|r]]]]; [..|lia]); try (vm_compute in E; first [discriminate E|injection E as <-; lia]); vm_compute in E'; first [discriminate E'|injection E' as <-; lia]. }
  destruct (detach_bulk_ok C T HT) as (c & t & inds & E & HUL & HL & HC). rewrite E.
  assert (J : forall k s r, entry topo 0 k s -> (r < 4)%nat -> partner ly hy s = Some r -> exists m, entry t 1 k m /\ nth_error c m = Some (moved coords (x1 - x0) (y1 - y0) 0 0 r)).
  { intros k s r He Hr Hp. destruct (proj2 HL 1%nat k r) as (m & H1 & H2).
    - apply (joined_entry coords topo lx hx ly hy nX nY HU). exists 0%nat, 1%nat, 0%nat, s. split; [lia|]. split; [lia|]. split; [reflexivity|]. split; [exact He|]. unfold target. cbn [Nat.ltb Nat.leb]. rewrite Hp. cbn. lia.
    - exists m. split; [exact H1|]. destruct (take_nth _ _ _ _ _ HC H2) as (x & H3 & H4). rewrite H3, <- H4. replace r with ((0 * nY + 0) * length coords + r)%nat at 1 by (cbn; lia). apply tiled_coords_nth; [lia|lia|exact Hr]. }
  destruct (J 0%nat 0%nat 2%nat) as (m & M1 & M2); [exists [0; 1; 2; 3]%nat; split; reflexivity|lia|reflexivity|]. destruct (J 1%nat 1%nat 3%nat) as (m' & M1' & M2'); [exists [0; 1; 2; 3]%nat; split; reflexivity|lia|reflexivity|].
  exists c, t, m, m'. split; [reflexivity|]. split; [exact M1|]. split; [exact M1'|]. rewrite M2, M2'. unfold moved, coords, rectangle, coord. cbn [nth INR]. split; f_equal; f_equal; try ring; f_equal; ring.
Qed.
