(** * Proofs about [LocModel.v], part 2: locating positions in simplices *)
From Coq Require Import Reals Lra Lia List Permutation.
From Verif Require Import LocModel LocSpec BaseFacts TrProofs TriProofs TriProofs2 TriProofs6 LocProofs.
Import ListNotations.
Local Open Scope nat_scope.

(** [nats]: for every position and candidate the weights *)
Definition row_ok (nd : nat) (ecs : list (list (list R))) (p : list R) (cand : list nat) (row : list (list R)) : Prop :=
  Forall2 (fun j l => exists ec, nth_error ecs j = Some ec /\ weights_of nd l ec p /\ forall l', weights_of nd l' ec p -> l' = l) cand row.
Definition rows_ok (nd : nat) ecs (x : list (list R)) (cands : list (list nat)) (nats : list (list (list R))) : Prop :=
  length nats = length x /\ forall i p c, nth_error x i = Some p -> nth_error cands i = Some c ->
    exists row, nth_error nats i = Some row /\ row_ok nd ecs p c row.
(** the candidates *)
Definition candidates (n : nat) (x : list (list R)) (nbrs : option (list (list nat))) : list (list nat) :=
  match nbrs with None => repeat (seq 0 n) (length x) | Some nb => nb end.

Lemma existsb_hit : forall pips i, existsb (fun b => b) (nth i pips []) = true <-> exists k, hit pips i k.
Proof.
  intros pips i. rewrite existsb_exists. split.
  - intros (b & Hb & ->). apply In_nth_error in Hb. destruct Hb as (k & Hk). exists k.
    destruct (nth_error pips i) as [row|] eqn:E.
    + exists row. split; [assumption|]. now rewrite (nth_error_nth _ _ _ E) in Hk.
    + apply nth_error_None in E. rewrite nth_overflow in Hk by assumption. destruct k; discriminate Hk.
  - intros (k & row & H1 & H2). exists true. split; [|reflexivity]. rewrite (nth_error_nth _ _ _ H1). now apply nth_error_In with k.
Qed.
Lemma filter_sorted : forall (f : nat -> bool) n a b i j, nth_error (filter f (seq 0 n)) a = Some i -> nth_error (filter f (seq 0 n)) b = Some j -> a < b -> i < j.
Proof.
  intros f n. generalize (seq_sorted n 0). generalize (seq 0 n). intros l HS.
  assert (HF : Sorted.StronglySorted lt (filter f l)).
  { induction HS as [|y l HS IH Hy]; [constructor|]. cbn [filter]. destruct (f y); [|assumption]. constructor; [assumption|].
    rewrite Forall_forall in *. intros z Hz. apply filter_In in Hz. apply Hy. tauto. }
  clear HS. induction HF as [|y l' HF IH Hy]; intros a b i j Ha Hb Hab; [destruct a; discriminate Ha|].
  destruct b as [|b]; [lia|]. destruct a as [|a]; cbn [nth_error] in *.
  - injection Ha as <-. rewrite Forall_forall in Hy. apply Hy. now apply nth_error_In with b.
  - apply (IH a b); auto. lia.
Qed.


Section Core.
  Context (sched : nat -> nat -> list (nat * nat)) (Hs : any_order sched).
  Context (g : list R -> list (list R) -> res (list R)) (nn nd : nat) (good : list (list R) -> Prop).
  Context (lcoords : list (list R)) (smap : list (list nat)).
  Hypothesis g_ok : forall ec p, good ec -> dim nd p -> exists l, g p ec = Ok l /\ weights_of nd l ec p /\ forall l', weights_of nd l' ec p -> l' = l.
  Hypothesis good_length : forall ec, good ec -> length ec = nn.
  Hypothesis comb_ok : forall sub l, In sub smap -> length l = nn ->
    exists v, foldM (fun acc j => do node <- get sub j; do lc <- get lcoords node; do w <- get l j; vadd acc (vscale w lc)) (seq 0 nn) (repeat 0%R nd) = Ok v /\
      dim nd v /\ forall d, d < nd -> at_ d v = weighted l (pick sub lcoords) d.
  Hypothesis smap_length : forall q, In q smap -> length q = nn.
  Context (ecs : list (list (list R))) (Hecs : Forall good ecs) (x : list (list R)) (Hx : Forall (dim nd) x).

  Lemma row_knn : forall p c, dim nd p -> Forall (fun j => j < length ecs) c ->
    exists row, mapM (fun j => do ec <- get ecs j; g p ec) c = Ok row /\ row_ok nd ecs p c row.
  Proof using Hecs g_ok.
    intros p c Hp Hc. induction Hc as [|j c Hj Hc (row & E & F)]; [exists []; split; [reflexivity|constructor]|].
    destruct (nth_error_lt ecs j Hj) as (ec & Hec). destruct (g_ok ec p) as (l & El & Hl & Hu); [|assumption|].
    { rewrite Forall_forall in Hecs. apply Hecs. now apply nth_error_In with j. }
    exists (l :: row). cbn [mapM]. unfold get at 1. rewrite Hec. cbn [bind]. rewrite El. cbn [bind]. rewrite E. split; [reflexivity|].
    constructor; [|assumption]. exists ec. auto.
  Qed.
  Lemma row_all : forall p, dim nd p -> exists row, mapM (fun ec => g p ec) ecs = Ok row /\ row_ok nd ecs p (seq 0 (length ecs)) row.
  Proof using Hecs g_ok.
    intros p Hp. destruct (mapM_total (fun ec => g p ec) ecs) as (row & E).
    { intros ec Hec. rewrite Forall_forall in Hecs. destruct (g_ok ec p (Hecs _ Hec) Hp) as (l & El & _). eauto. }
    exists row. split; [assumption|]. unfold row_ok. pose proof (mapM_length _ _ _ E) as HL.
    assert (K : forall (l : list nat) (r : list (list R)) (P : nat -> list R -> Prop), length l = length r -> (forall i a b, nth_error l i = Some a -> nth_error r i = Some b -> P a b) -> Forall2 P l r).
    { clear. induction l as [|a l IH]; intros [|b r] P HL H; try discriminate HL; constructor; [now apply (H 0)|].
      apply IH; [now injection HL|]. intros i. apply (H (S i)). }
    apply K; [rewrite seq_length; congruence|]. intros i a b Ha Hb. apply nth_error_seq_some in Ha. destruct Ha as (-> & Hi). cbn [plus].
    destruct (nth_error_lt _ _ Hi) as (ec & Hec). exists ec. split; [assumption|].
    destruct (mapM_nth_error _ _ _ _ _ E Hec) as (l & Hl & El). rewrite Forall_forall in Hecs.
    destruct (g_ok ec p (Hecs _ (nth_error_In _ _ Hec)) Hp) as (l' & El' & HW & HU). rewrite Hb in Hl. injection Hl as <-. rewrite El in El'. injection El' as <-. auto.
  Qed.
  Lemma nats_ok : forall nbrs, length (candidates (length ecs) x nbrs) = length x ->
    Forall (Forall (fun j => j < length ecs)) (candidates (length ecs) x nbrs) ->
    exists nats, nat_coordinates g x ecs nbrs = Ok nats /\ rows_ok nd ecs x (candidates (length ecs) x nbrs) nats.
  Proof using Hecs Hx g_ok.
    intros [nb|]; cbn [candidates nat_coordinates].
    - unfold nat_bulk_knn. revert nb. induction Hx as [|p x' Hp Hx' IH]; intros [|c nb] HL HF; try discriminate HL.
      { exists []. split; [reflexivity|]. split; [reflexivity|]. intros [|i] ? ? H; discriminate H. }
      inversion HF as [|? ? Hc HF']; subst. destruct (row_knn p c Hp Hc) as (row & Er & Fr). injection HL as HL.
      destruct (IH Hx' nb HL HF') as (nats & E & EL & F). cbn [map2 bind].
      destruct (map2 _ x' nb) as [rs|e] eqn:Em; [|discriminate E]. cbn [bind] in *. exists (row :: nats). cbn [mapM]. rewrite Er. cbn [bind]. rewrite E.
      split; [reflexivity|]. split; [cbn [length]; congruence|]. intros [|i] p' c' H1 H2; cbn [nth_error] in *; [injection H1 as <-; injection H2 as <-; eauto|eauto].
    - intros _ _. destruct (mapM_total (fun p => mapM (fun ec => g p ec) ecs) x) as (nats & E).
      { intros p Hp. rewrite Forall_forall in Hx. destruct (row_all p (Hx p Hp)) as (row & Er & _). eauto. }
      exists nats. split; [assumption|]. split; [now apply mapM_length in E|]. intros i p c Hp Hc.
      apply nth_error_repeat_inv in Hc. destruct Hc as (-> & _). destruct (mapM_nth_error _ _ _ _ _ E Hp) as (row & Hrow & Er).
      exists row. split; [assumption|]. rewrite Forall_forall in Hx. destruct (row_all p (Hx p (nth_error_In _ _ Hp))) as (row' & Er' & F). congruence.
  Qed.

  Context (tol : R) (nbrs : option (list (list nat))) (m : nat).
  Context (cands : list (list nat)) (cands_def : candidates (length ecs) x nbrs = cands).
  Hypothesis cands_length : length cands = length x.
  Hypothesis cands_range : Forall (Forall (fun j => j < length ecs)) cands.
  Hypothesis cands_rect : rect m cands.

  (** position [i] is in the simplex with number [j], one of its candidates *)
  Definition cand_hit (i j : nat) (l : list R) : Prop :=
    exists p c ec, nth_error x i = Some p /\ nth_error cands i = Some c /\ In j c /\ nth_error ecs j = Some ec /\
      weights_of nd l ec p /\ Forall (fun w => - tol < w < 1 + tol)%R l.

  Lemma pips_hit : forall nats i k, rows_ok nd ecs x cands nats -> hit (pip_of_nat tol nats) i k ->
    exists j l c row, nth_error cands i = Some c /\ nth_error c k = Some j /\ nth_error nats i = Some row /\ nth_error row k = Some l /\ cand_hit i j l.
  Proof using cands_length.
    intros nats i k (HL & HR) (brow & H1 & H2). unfold pip_of_nat in H1. apply nth_error_map_some in H1. destruct H1 as (row & Hrow & ->).
    apply nth_error_map_some in H2. destruct H2 as (l & Hl & Hin). symmetry in Hin. apply inside_spec in Hin.
    pose proof (nth_error_Some_lt _ _ _ Hrow) as Hi. destruct (nth_error_lt x i ltac:(lia)) as (p & Hp). destruct (nth_error_lt cands i ltac:(lia)) as (c & Hc).
    destruct (HR i p c Hp Hc) as (row' & Hrow' & HF). assert (row' = row) as -> by congruence.
    destruct (Forall2_nth_error_r _ _ _ _ _ HF Hl) as (j & Hj & ec & Hec & HW & HU).
    exists j, l, c, row. repeat (split; [assumption|]). exists p, c, ec. repeat (split; [assumption|]). split; [now apply nth_error_In with k|]. auto.
  Qed.
  Lemma hit_pips : forall nats i j l, rows_ok nd ecs x cands nats -> cand_hit i j l -> exists k, hit (pip_of_nat tol nats) i k.
  Proof using.
    intros nats i j l (HL & HR) (p & c & ec & Hp & Hc & Hj & Hec & HW & Hin).
    destruct (HR i p c Hp Hc) as (row & Hrow & HF). apply In_nth_error in Hj. destruct Hj as (k & Hk).
    destruct (Forall2_nth_error _ _ _ _ _ HF Hk) as (l' & Hl' & ec' & Hec' & HW' & HU). assert (ec' = ec) as -> by congruence.
    exists k. exists (map (inside tol) row). split; [unfold pip_of_nat; now apply map_nth_error|].
    rewrite (map_nth_error _ _ _ Hl'). f_equal. apply inside_spec. now rewrite <- (HU l HW).
  Qed.
  Lemma pips_rect : forall nats, rows_ok nd ecs x cands nats -> rect m (pip_of_nat tol nats).
  Proof using cands_length cands_rect.
    intros nats (HL & HR). apply Forall_forall. intros brow Hb. apply In_nth_error in Hb. destruct Hb as (i & Hb).
    unfold pip_of_nat in Hb. apply nth_error_map_some in Hb. destruct Hb as (row & Hrow & ->). rewrite map_length.
    pose proof (nth_error_Some_lt _ _ _ Hrow) as Hi. destruct (nth_error_lt x i ltac:(lia)) as (p & Hp). destruct (nth_error_lt cands i ltac:(lia)) as (c & Hc).
    destruct (HR i p c Hp Hc) as (row' & Hrow' & HF). assert (row' = row) as -> by congruence.
    rewrite <- (rect_nth _ _ _ _ cands_rect Hc). symmetry. clear - HF. induction HF; cbn [length]; congruence.
  Qed.

  (** the part of locate that follows the search for neighbours *)
  Definition core (tiles : nat) : res (list nat * list nat * list (list R)) :=
    do nats <- nat_coordinates g x ecs nbrs;
    let pips := pip_of_nat tol nats in
    let i_source := filter (fun i => existsb (fun b => b) (nth i pips [])) (seq 0 (length pips)) in
    do pips_source <- take pips i_source;
    let its := sched (length pips_source) (ncols pips_source) in
    do hits <- match nbrs with
               | None => find_first_hits_in its pips_source
               | Some nb => do nb_source <- take nb i_source; find_first_hits_knn_in its pips_source nb_source
               end;
    do i_target <- take (map (fun i => Nat.div i (length smap)) (seq 0 (length ecs))) (fst hits);
    do cell_indices <- take (concat (repeat (seq 0 (length smap)) tiles)) (fst hits);
    do nat_source <- take nats i_source;
    do locations <- simplex_to_loc nn nd lcoords nat_source smap cell_indices (snd hits);
    Ok (i_source, i_target, locations).

  Lemma core_ok : forall tiles, length ecs = tiles * length smap ->
    exists src tgt locs, core tiles = Ok (src, tgt, locs) /\ length tgt = length src /\ length locs = length src /\
    (forall a b i j, nth_error src a = Some i -> nth_error src b = Some j -> a < b -> i < j) /\
    (forall i, In i src <-> exists j l, cand_hit i j l) /\
    forall s i, nth_error src s = Some i -> exists j l loc q, cand_hit i j l /\ nth_error smap (j mod length smap) = Some q /\
      nth_error tgt s = Some (j / length smap) /\ nth_error locs s = Some loc /\ weights_of nd l (pick q lcoords) loc /\ dim nd loc.
  Proof using Hecs Hs Hx cands_def cands_length cands_range cands_rect comb_ok g_ok good_length smap_length.
    intros tiles HT. destruct (nats_ok nbrs) as (nats & E & HR); [now rewrite cands_def|now rewrite cands_def|]. rewrite cands_def in HR.
    unfold core. rewrite E. cbn [bind]. cbv zeta. pose proof (pips_rect nats HR) as HRect. pose proof HR as (HL & _).
    set (pips := pip_of_nat tol nats) in *. assert (HLp : length pips = length x) by (unfold pips, pip_of_nat; rewrite map_length; exact HL).
    set (src := filter _ _).
    assert (Hsrc : forall i, In i src <-> exists k, hit pips i k).
    { intros i. unfold src. rewrite filter_In, in_seq, existsb_hit. split; [tauto|]. intros (k & Hk). split; [|eauto].
      destruct Hk as (row & Hrow & _). apply nth_error_Some_lt in Hrow. lia. }
    destruct (take_ok pips src) as (ps & Eps).
    { intros i Hi. apply Hsrc in Hi. destruct Hi as (k & row & Hrow & _). now apply nth_error_Some_lt in Hrow. }
    rewrite Eps. cbn [bind]. pose proof (take_length _ _ _ Eps) as HLs.
    assert (Hps : rect m ps).
    { apply Forall_forall. intros r Hr. apply In_nth_error in Hr. destruct Hr as (s & Hr). pose proof (nth_error_Some_lt _ _ _ Hr) as Hs'.
      destruct (nth_error_lt src s ltac:(lia)) as (i & Hi). destruct (take_nth _ _ _ _ _ Eps Hi) as (r' & Hr1 & Hr2). assert (r' = r) as -> by congruence.
      now apply (rect_nth _ _ _ _ HRect Hr2). }
    assert (Hits : all_entries (sched (length ps) (ncols ps)) (length ps) m).
    { destruct (ncols_cases m ps Hps) as [->| ->]; [apply Hs|]. exact (Hs 0 0). }
    set (its := sched _ _) in *.
    assert (Hhit : forall s i k, nth_error src s = Some i -> hit ps s k <-> hit pips i k).
    { intros s i k Hi. destruct (take_nth _ _ _ _ _ Eps Hi) as (r & Hr1 & Hr2). unfold hit. rewrite Hr1, Hr2. reflexivity. }
    (* the hits *)
    assert (HH : exists gg rr, (match nbrs with
               | None => find_first_hits_in its ps
               | Some nb => do nb_source <- take nb src; find_first_hits_knn_in its ps nb_source end) = Ok (gg, rr) /\
        length gg = length src /\ length rr = length src /\
        forall s i, nth_error src s = Some i -> exists k j c, hit pips i k /\ nth_error cands i = Some c /\ nth_error c k = Some j /\
          nth_error rr s = Some k /\ nth_error gg s = Some j).
    { assert (K : forall target, (forall s k, hit ps s k -> exists t, target s k = Ok t) ->
        (forall s i k t, nth_error src s = Some i -> hit pips i k -> target s k = Ok t -> exists c, nth_error cands i = Some c /\ nth_error c k = Some t) ->
        exists gg rr, find_hits_in its ps target = Ok (gg, rr) /\ length gg = length src /\ length rr = length src /\
        forall s i, nth_error src s = Some i -> exists k j c, hit pips i k /\ nth_error cands i = Some c /\ nth_error c k = Some j /\
          nth_error rr s = Some k /\ nth_error gg s = Some j).
      { intros target Ht1 Ht2. destruct (find_hits_correct ps target its m Hps Hits Ht1) as (gg & rr & Ef & Lg & Lr & Ff).
        exists gg, rr. split; [assumption|]. split; [congruence|]. split; [congruence|]. intros s i Hi. pose proof (nth_error_Some_lt _ _ _ Hi) as Hlt.
        destruct (Ff s ltac:(lia)) as [(k & t & its1 & its2 & E1 & E2 & E3 & E4 & E5 & E6)|(N & _)].
        - apply (Hhit _ _ _ Hi) in E2. destruct (Ht2 _ _ _ _ Hi E2 E5) as (c & Hc & Hk). exists k, t, c. auto.
        - exfalso. pose proof (proj1 (Hsrc i) (nth_error_In _ _ Hi)) as (k & Hk). apply (N k). now apply (Hhit _ _ _ Hi). }
      destruct nbrs as [nb|] eqn:En.
      - assert (Hnb : cands = nb) by (symmetry; exact cands_def). destruct (take_ok nb src) as (nbs & Enb).
        { intros i Hi. apply Hsrc in Hi. destruct Hi as (k & row & Hrow & _). apply nth_error_Some_lt in Hrow. rewrite <- Hnb. lia. }
        rewrite Enb. cbn [bind]. apply K.
        + intros s k Hk. assert (Hsl : s < length src) by (destruct Hk as (r & Hr & _); apply nth_error_Some_lt in Hr; lia).
          destruct (nth_error_lt _ _ Hsl) as (i & Hi). apply (Hhit _ _ _ Hi) in Hk. destruct (pips_hit nats i k HR Hk) as (j & l & c & row & H1 & H2 & _).
          destruct (take_nth _ _ _ _ _ Enb Hi) as (c' & Hc1 & Hc2). exists j. apply get2_Ok. exists c'. split; [assumption|]. rewrite Hnb in H1. congruence.
        + intros s i k t Hi Hk Ht. apply get2_Ok in Ht. destruct Ht as (c & Hc & Hk'). destruct (take_nth _ _ _ _ _ Enb Hi) as (c' & Hc1 & Hc2).
          exists c. rewrite Hnb. split; [congruence|assumption].
      - apply K; [eauto|]. intros s i k t Hi Hk [= <-]. destruct (pips_hit nats i k HR Hk) as (j & l & c & row & H1 & H2 & _).
        exists c. split; [assumption|]. rewrite <- cands_def in H1. unfold candidates in H1. apply nth_error_repeat_inv in H1. destruct H1 as (-> & _).
        apply nth_error_seq_some in H2. destruct H2 as (-> & H2). now rewrite nth_error_seq. }
    destruct HH as (gg & rr & Eh & Lg & Lr & HH). rewrite Eh. cbn [bind fst snd]. clear Eh.
    (* the numbers of simplices are in range *)
    assert (HT0 : forall j, j < length ecs -> 0 < length smap) by (intros; nia).
    assert (Hgr : forall j, In j gg -> j < length ecs).
    { intros j Hj. apply In_nth_error in Hj. destruct Hj as (s & Hj). pose proof (nth_error_Some_lt _ _ _ Hj). destruct (nth_error_lt src s ltac:(lia)) as (i & Hi).
      destruct (HH s i Hi) as (k & j' & c & _ & Hc & Hk & _ & Hg). assert (j' = j) as -> by congruence.
      rewrite Forall_forall in cands_range. specialize (cands_range c (nth_error_In _ _ Hc)). rewrite Forall_forall in cands_range.
      apply cands_range. now apply nth_error_In with k. }
    destruct (take_ok (map (fun i => i / length smap) (seq 0 (length ecs))) gg) as (tgt & Etgt).
    { intros j Hj. rewrite map_length, seq_length. auto. }
    rewrite Etgt. cbn [bind].
    assert (HLC : length (concat (repeat (seq 0 (length smap)) tiles)) = length ecs).
    { rewrite (length_concat_rect (length smap)); [rewrite repeat_length; lia|]. apply Forall_forall. intros r Hr. apply repeat_spec in Hr. subst r. apply seq_length. }
    destruct (take_ok (concat (repeat (seq 0 (length smap)) tiles)) gg) as (ci & Eci).
    { intros j Hj. rewrite HLC. auto. }
    rewrite Eci. cbn [bind].
    destruct (take_ok nats src) as (ns & Ens).
    { intros i Hi. apply Hsrc in Hi. destruct Hi as (k & row & Hrow & _). apply nth_error_Some_lt in Hrow. lia. }
    rewrite Ens. cbn [bind].
    (* the locations *)
    assert (HD : forall s i, nth_error src s = Some i -> exists k j l c row q, cand_hit i j l /\ length l = nn /\ nth_error smap (j mod length smap) = Some q /\
       nth_error rr s = Some k /\ nth_error gg s = Some j /\ nth_error ns s = Some row /\ nth_error row k = Some l /\
       nth_error tgt s = Some (j / length smap) /\ nth_error ci s = Some (j mod length smap) /\ c = j).
    { intros s i Hi. destruct (HH s i Hi) as (k & j & c & Hk & Hc & Hck & Hr & Hg).
      destruct (pips_hit nats i k HR Hk) as (j' & l & c' & row & H1 & H2 & H3 & H4 & H5). assert (c' = c) as -> by congruence. assert (j' = j) as -> by congruence.
      assert (Hj : j < length ecs) by (apply Hgr; now apply nth_error_In with s). pose proof (HT0 j Hj) as H0.
      destruct (nth_error_lt smap (j mod length smap)) as (q & Hq); [apply Nat.mod_upper_bound; lia|].
      exists k, j, l, j, row, q. split; [assumption|]. split.
      { destruct H5 as (p & c0 & ec & _ & _ & _ & Hec & (HLl & _) & _). rewrite HLl. apply good_length. rewrite Forall_forall in Hecs. apply Hecs. now apply nth_error_In with j. }
      split; [assumption|]. split; [assumption|]. split; [assumption|]. split.
      { destruct (take_nth _ _ _ _ _ Ens Hi) as (r & Hr1 & Hr2). congruence. }
      split; [assumption|]. split.
      { destruct (take_nth _ _ _ _ _ Etgt Hg) as (t & Ht1 & Ht2). rewrite (map_nth_error _ _ _ (nth_error_seq 0 _ _ Hj)) in Ht2. cbn [plus] in Ht2. congruence. }
      split; [|reflexivity].
      destruct (take_nth _ _ _ _ _ Eci Hg) as (t & Ht1 & Ht2). apply (nth_error_concat_rect_inv (length smap)) in Ht2.
      - destruct Ht2 as (_ & r & Hr1 & Hr2). apply nth_error_repeat_inv in Hr1. destruct Hr1 as (-> & _). apply nth_error_seq_some in Hr2. destruct Hr2 as (-> & _). exact Ht1.
      - apply Forall_forall. intros r0 Hr0. apply repeat_spec in Hr0. subst r0. apply seq_length. }
    unfold simplex_to_loc.
    match goal with |- context [mapM ?f (seq 0 (length rr))] => set (F := f) end.
    assert (HF : forall s i, nth_error src s = Some i -> exists j l q loc, cand_hit i j l /\ nth_error smap (j mod length smap) = Some q /\
       nth_error tgt s = Some (j / length smap) /\ F s = Ok loc /\ weights_of nd l (pick q lcoords) loc /\ dim nd loc).
    { intros s i Hi. destruct (HD s i Hi) as (k & j & l & c & row & q & H1 & HLl & H2 & H3 & H4 & H5 & H6 & H7 & H8 & _).
      destruct (comb_ok q l (nth_error_In _ _ H2) HLl) as (v & Ev & Dv & Wv). exists j, l, q, v. split; [assumption|]. split; [assumption|]. split; [assumption|].
      split; [|split; [|assumption]].
      - unfold F. rewrite (proj2 (get_Ok _ _ _) H3). cbn [bind]. rewrite (proj2 (get2_Ok _ _ _ _) (ex_intro _ row (conj H5 H6))). cbn [bind].
        rewrite (proj2 (get_Ok _ _ _) H8). cbn [bind]. rewrite (proj2 (get_Ok _ _ _) H2). cbn [bind]. exact Ev.
      - destruct H1 as (p & c0 & ec & _ & _ & _ & _ & (_ & HS1 & _) & _). split; [|split; [assumption|assumption]].
        unfold pick. rewrite map_length, HLl. symmetry. apply smap_length. now apply nth_error_In with (j mod length smap). }
    destruct (mapM_total F (seq 0 (length rr))) as (locs & El).
    { intros s Hsr. apply in_seq in Hsr. destruct (nth_error_lt src s ltac:(lia)) as (i & Hi). destruct (HF s i Hi) as (j & l & q & loc & _ & _ & _ & Hl & _). eauto. }
    rewrite El. cbn [bind]. exists src, tgt, locs. split; [reflexivity|].
    split; [rewrite (take_length _ _ _ Etgt); congruence|]. split; [rewrite (mapM_length _ _ _ El), seq_length; congruence|].
    split; [intros a b i j; apply filter_sorted|]. split.
    - intros i. rewrite Hsrc. split.
      + intros (k & Hk). destruct (pips_hit nats i k HR Hk) as (j & l & c & row & _ & _ & _ & _ & H). eauto.
      + intros (j & l & H). now apply (hit_pips nats i j l HR).
    - intros s i Hi. destruct (HF s i Hi) as (j & l & q & loc & H1 & H2 & H3 & H4 & H5 & H6). exists j, l, loc, q. split; [assumption|]. split; [assumption|]. split; [assumption|].
      split; [|split; assumption]. pose proof (nth_error_Some_lt _ _ _ Hi) as Hlt.
      destruct (mapM_nth_error _ _ _ _ _ El (nth_error_seq 0 (length rr) s ltac:(lia))) as (loc' & Hl1 & Hl2). cbn [plus] in Hl2. congruence.
  Qed.
  Lemma core_pip : exists b, (do nats <- nat_coordinates g x ecs nbrs; Ok (map (existsb (fun b => b)) (pip_of_nat tol nats))) = Ok b /\
    length b = length x /\ forall i v, nth_error b i = Some v -> (v = true <-> exists j l, cand_hit i j l).
  Proof using Hecs Hx cands_def cands_length cands_range g_ok.
    destruct (nats_ok nbrs) as (nats & E & HR); [now rewrite cands_def|now rewrite cands_def|]. rewrite cands_def in HR. rewrite E. cbn [bind]. eexists. split; [reflexivity|].
    split; [rewrite map_length; unfold pip_of_nat; rewrite map_length; apply HR|]. intros i v Hv. apply nth_error_map_some in Hv. destruct Hv as (row & Hrow & ->).
    rewrite <- (nth_error_nth _ _ [] Hrow), existsb_hit. split.
    - intros (k & Hk). destruct (pips_hit nats i k HR Hk) as (j & l & c & row' & _ & _ & _ & _ & H). eauto.
    - intros (j & l & H). now apply (hit_pips nats i j l HR).
  Qed.
End Core.
