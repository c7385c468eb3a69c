(** * Proofs about [LocModel.v], part 3: locating positions in meshes *)
From Coq Require Import Reals Lra Lia List Permutation.
From Verif Require Import LocModel LocSpec BaseFacts TopoProofs5 TrProofs TriProofs TriProofs2 TriProofs6 LocProofs LocProofs2.
Import ListNotations.
Local Open Scope R_scope.

(** ** combinations of local coordinates *)
Lemma comb_3d : forall lcoords smap, Forall (dim 3) lcoords ->
  pieces 4 (length lcoords) smap ->
  forall sub l, In sub smap -> length l = 4%nat ->
  exists v, foldM (fun acc j => do node <- get sub j; do lc <- get lcoords node; do w <- get l j; vadd acc (vscale w lc)) (seq 0 4) (repeat 0 3) = Ok v /\
    dim 3 v /\ forall d, (d < 3)%nat -> at_ d v = weighted l (pick sub lcoords) d.
Proof.
  intros lcoords smap HD HS sub l Hs Hl. unfold pieces in HS; rewrite Forall_forall in HS. destruct (HS sub Hs) as (HL & HK).
  destruct sub as [|k0 [|k1 [|k2 [|k3 [|]]]]]; try discriminate HL. destruct l as [|l0 [|l1 [|l2 [|l3 [|]]]]]; try discriminate Hl. clear HL Hl.
  rewrite Forall_forall in HK. rewrite Forall_forall in HD.
  assert (P : forall k, In k [k0; k1; k2; k3] -> exists x y z, nth_error lcoords k = Some [x; y; z] /\ nth k lcoords [] = [x; y; z]).
  { intros k Hk. destruct (nth_error_lt lcoords k (HK k Hk)) as (p & Hp). destruct (dim3 p (HD p (nth_error_In _ _ Hp))) as (x & y & z & ->).
    exists x, y, z. split; [assumption|]. now apply nth_error_nth. }
  destruct (P k0) as (x0 & y0 & z0 & E0 & F0); [cbn; auto|]. destruct (P k1) as (x1 & y1 & z1 & E1 & F1); [cbn; auto|].
  destruct (P k2) as (x2 & y2 & z2 & E2 & F2); [cbn; auto|]. destruct (P k3) as (x3 & y3 & z3 & E3 & F3); [cbn; auto|].
  unfold get. cbn [seq foldM nth_error bind]. rewrite E0, E1, E2, E3. cbn [bind vscale map vadd map2 repeat].
  eexists. split; [reflexivity|]. split; [reflexivity|]. intros d Hd. unfold pick. cbn [map]. rewrite F0, F1, F2, F3.
  unfold weighted, at_. cbn [combine map fold_right fst snd]. destruct d as [|[|[|d]]]; [..|lia]; cbn [nth]; cbn [kadd kmul NumBase.NumR]; ring.
Qed.
Lemma comb_2d : forall lcoords smap, Forall (dim 2) lcoords ->
  pieces 3 (length lcoords) smap ->
  forall sub l, In sub smap -> length l = 3%nat ->
  exists v, foldM (fun acc j => do node <- get sub j; do lc <- get lcoords node; do w <- get l j; vadd acc (vscale w lc)) (seq 0 3) (repeat 0 2) = Ok v /\
    dim 2 v /\ forall d, (d < 2)%nat -> at_ d v = weighted l (pick sub lcoords) d.
Proof.
  intros lcoords smap HD HS sub l Hs Hl. unfold pieces in HS; rewrite Forall_forall in HS. destruct (HS sub Hs) as (HL & HK).
  destruct sub as [|k0 [|k1 [|k2 [|]]]]; try discriminate HL. destruct l as [|l0 [|l1 [|l2 [|]]]]; try discriminate Hl. clear HL Hl.
  rewrite Forall_forall in HK. rewrite Forall_forall in HD.
  assert (P : forall k, In k [k0; k1; k2] -> exists x y, nth_error lcoords k = Some [x; y] /\ nth k lcoords [] = [x; y]).
  { intros k Hk. destruct (nth_error_lt lcoords k (HK k Hk)) as (p & Hp). destruct (dim2 p (HD p (nth_error_In _ _ Hp))) as (x & y & ->).
    exists x, y. split; [assumption|]. now apply nth_error_nth. }
  destruct (P k0) as (x0 & y0 & E0 & F0); [cbn; auto|]. destruct (P k1) as (x1 & y1 & E1 & F1); [cbn; auto|].
  destruct (P k2) as (x2 & y2 & E2 & F2); [cbn; auto|].
  unfold get. cbn [seq foldM nth_error bind]. rewrite E0, E1, E2. cbn [bind vscale map vadd map2 repeat].
  eexists. split; [reflexivity|]. split; [reflexivity|]. intros d Hd. unfold pick. cbn [map]. rewrite F0, F1, F2.
  unfold weighted, at_. cbn [combine map fold_right fst snd]. destruct d as [|[|d]]; [..|lia]; cbn [nth]; cbn [kadd kmul NumBase.NumR]; ring.
Qed.

(** ** the tetrahedra of a mesh *)
Lemma nodes_mapM : forall coords ns ec, nodes_at coords ns ec <-> mapM (get coords) ns = Ok ec.
Proof.
  intros coords ns. induction ns as [|n ns IH]; intros ec; cbn [mapM].
  - split; [intros H; inversion H; reflexivity|intros [= <-]; constructor].
  - split.
    + intros H. inversion H as [|? p ? ec' Hp Hr]; subst. apply IH in Hr. rewrite (proj2 (get_Ok _ _ _) Hp), Hr. reflexivity.
    + intros H. apply bind_Ok in H. destruct H as (p & Hp & H). apply bind_Ok in H. destruct H as (r & Hr & [= <-]). constructor; [now apply get_Ok|now apply IH].
Qed.
Lemma mesh_mapM : forall coords topo ecs, mesh_at coords topo ecs <-> cells_coords coords topo = Ok ecs.
Proof.
  intros coords topo. unfold cells_coords. induction topo as [|c topo IH]; intros ecs; cbn [mapM].
  - split; [intros H; inversion H; reflexivity|intros [= <-]; constructor].
  - split.
    + intros H. inversion H as [|? p ? ec' Hp Hr]; subst. apply IH in Hr. apply nodes_mapM in Hp. rewrite Hp, Hr. reflexivity.
    + intros H. apply bind_Ok in H. destruct H as (p & Hp & H). apply bind_Ok in H. destruct H as (r & Hr & [= <-]). constructor; [now apply nodes_mapM|now apply IH].
Qed.
Lemma nodes_length : forall coords ns ec, nodes_at coords ns ec -> length ec = length ns.
Proof. intros coords ns ec H. induction H; cbn [length]; congruence. Qed.
Lemma take_pick : forall coords cell ec p row, nodes_at coords cell ec -> take cell p = Ok row -> nodes_at coords row (pick p ec).
Proof.
  intros coords cell ec p. induction p as [|k p IH]; intros row H E; unfold take in *; cbn [mapM] in E.
  - injection E as <-. constructor.
  - apply bind_Ok in E. destruct E as (n & Hn & E). apply bind_Ok in E. destruct E as (r & Hr & [= <-]). cbn [pick map]. constructor; [|now apply IH].
    apply get_Ok in Hn. destruct (Forall2_nth_error _ _ _ _ _ H Hn) as (q & Hq & Hc). now rewrite (nth_error_nth _ _ _ Hq).
Qed.
Lemma tet_mesh : forall coords topo ecs smap w n, mesh_at coords topo ecs -> rect w topo ->
  pieces n w smap ->
  exists tets, transform_topology_ 0%nat topo smap = Ok tets /\ cells_coords coords tets = Ok (simplices smap ecs) /\ length (simplices smap ecs) = (length topo * length smap)%nat.
Proof.
  intros coords topo ecs smap w n HM HR HS.
  assert (HV : valid_path w smap).
  { split; [exists n; apply Forall_forall; intros q Hq; unfold pieces in HS; rewrite Forall_forall in HS; apply (HS q Hq)|].
    intros p q Hp Hq. unfold pieces in HS; rewrite Forall_forall in HS. destruct (HS p Hp) as (_ & H). rewrite Forall_forall in H. auto. }
  destruct (transform_value 0%nat w topo smap HR HV) as (tets & E & E'). exists tets. split; [assumption|].
  assert (HL : length ecs = length topo) by (clear - HM; induction HM; cbn [length]; congruence).
  split; [|unfold simplices; rewrite map_length, prod_length; congruence].
  apply mesh_mapM. unfold tr_value in E. unfold simplices. clear HV HR E' HL HS. revert tets E. induction HM as [|c ec topo ecs Hc HM IH]; intros tets E.
  - injection E as <-. constructor.
  - cbn [list_prod] in *. rewrite mapM_app in E. apply bind_Ok in E. destruct E as (t1 & E1 & E). apply bind_Ok in E. destruct E as (t2 & E2 & [= <-]). rewrite map_app. apply Forall2_app; [|now apply IH].
    clear - E1 Hc. revert t1 E1. induction smap as [|q smap IH]; intros t1 E1; cbn [map mapM fst snd] in *.
    + injection E1 as <-. constructor.
    + apply bind_Ok in E1. destruct E1 as (row & Hrow & E1). apply bind_Ok in E1. destruct E1 as (r & Hr & [= <-]). constructor; [|now apply IH].
      now apply take_pick with c.
Qed.
Lemma simplices_nth : forall smap ecs j ec, nth_error (simplices smap ecs) j = Some ec ->
  exists e q, nth_error ecs (j / length smap) = Some e /\ nth_error smap (j mod length smap) = Some q /\ ec = pick q e.
Proof.
  intros smap ecs j ec H. unfold simplices in H. apply nth_error_map_some in H. destruct H as ((e & q) & H & ->). cbn [fst snd]. exists e, q.
  revert j H. induction ecs as [|e0 ecs IH]; intros j H; [destruct j; discriminate H|]. cbn [list_prod] in H.
  destruct (le_lt_dec (length smap) j) as [Hj|Hj].
  - rewrite nth_error_app2 in H by (rewrite map_length; assumption). rewrite map_length in H. destruct (Nat.eq_dec (length smap) 0) as [H0|H0].
    { destruct smap; [|discriminate H0]. exfalso. clear - H. revert H. generalize (j - @length (list nat) [])%nat. induction ecs as [|e1 ecs IHe]; intros k H; [destruct k; discriminate H|apply (IHe _ H)]. }
    destruct (IH _ H) as (H1 & H2 & _). pose proof (Nat.div_add (j - length smap) 1 (length smap) H0) as D. pose proof (Nat.mod_add (j - length smap) 1 (length smap) H0) as M.
    replace (j - length smap + 1 * length smap)%nat with j in D, M by lia. rewrite D, M, Nat.add_1_r. auto.
  - rewrite nth_error_app1 in H by (rewrite map_length; assumption). rewrite Nat.div_small, Nat.mod_small by assumption.
    apply nth_error_map_some in H. destruct H as (q' & H & [= <- <-]). auto.
Qed.
Lemma simplices_at : forall smap ecs e q a b, nth_error ecs a = Some e -> nth_error smap b = Some q ->
  nth_error (simplices smap ecs) (a * length smap + b) = Some (pick q e).
Proof. intros. unfold simplices. now rewrite (map_nth_error _ _ _ (nth_error_list_prod _ _ _ _ _ _ H H0)). Qed.
Lemma simplices_In : forall smap ecs ec, In ec (simplices smap ecs) -> exists e q, In e ecs /\ In q smap /\ ec = pick q e.
Proof.
  intros smap ecs ec H. unfold simplices in H. apply in_map_iff in H. destruct H as ((e & q) & <- & H). apply in_prod_iff in H. exists e, q. tauto.
Qed.

(** ** what locate and pip compute, for any candidates *)
Section Simplices.
  Context (query : list (list R) -> list R -> nat -> option R -> list nat).
  Context (sched : nat -> nat -> list (nat * nat)) (Hsched : any_order sched).
  Context (g : list R -> list (list R) -> res (list R)) (nn nd : nat) (good : list (list R) -> Prop).
  Context (lcoords : list (list R)) (smap : list (list nat)).
  Hypothesis g_ok : forall ec p, good ec -> dim nd p -> exists l, g p ec = Ok l /\ weights_of nd l ec p /\ forall l', weights_of nd l' ec p -> l' = l.
  Hypothesis good_length : forall ec, good ec -> length ec = nn.
  Hypothesis comb_ok : forall sub l, In sub smap -> length l = nn ->
    exists v, foldM (fun acc j => do node <- get sub j; do lc <- get lcoords node; do w <- get l j; vadd acc (vscale w lc)) (seq 0 nn) (repeat 0%R nd) = Ok v /\
      dim nd v /\ forall d, (d < nd)%nat -> at_ d v = weighted l (pick sub lcoords) d.
  Hypothesis smap_length : forall q, In q smap -> length q = nn.
  Context (ecs : list (list (list R))) (Hgood : forall ec q, In ec ecs -> In q smap -> good (pick q ec)) (x : list (list R)) (Hx : Forall (dim nd) x).
  Context (tol : R).

  Lemma goods : Forall good (simplices smap ecs).
  Proof using Hgood. apply Forall_forall. intros ec H. apply simplices_In in H. destruct H as (e & q & H1 & H2 & ->). auto. Qed.

  (** [cands]: for each position the numbers of the simplices that are examined *)
  Lemma cand_hit_iff : forall cands i j l, cand_hit nd (simplices smap ecs) x tol cands i j l <->
    exists p c ec q, nth_error x i = Some p /\ nth_error cands i = Some c /\ In j c /\ nth_error ecs (j / length smap) = Some ec /\
      nth_error smap (j mod length smap) = Some q /\ weights_of nd l (pick q ec) p /\ Forall (fun w => - tol < w < 1 + tol) l.
  Proof using.
    intros cands i j l. split.
    - intros (p & c & ec & H1 & H2 & H3 & H4 & H5 & H6). destruct (simplices_nth _ _ _ _ H4) as (e & q & H7 & H8 & ->). exists p, c, e, q. auto 10.
    - intros (p & c & ec & q & H1 & H2 & H3 & H4 & H5 & H6 & H7). exists p, c, (pick q ec). repeat (split; [assumption|]). split; [|auto].
      pose proof (simplices_at _ _ _ _ _ _ H4 H5) as H. rewrite Nat.mul_comm in H. 
      assert (length smap <> 0)%nat by (apply nth_error_Some_lt in H5; lia).
      now rewrite <- Nat.div_mod in H.
  Qed.

  Lemma eager_ok : exists src tgt locs, locate_simplices query sched g nn nd lcoords smap (length ecs) (simplices smap ecs) false 0 tol x = Ok (src, tgt, locs) /\
    located_all x (length ecs) (fun p => exists ec, In ec ecs /\ near_cell nd tol smap ec p)
      (fun e p loc => exists ec, nth_error ecs e = Some ec /\ located nd tol smap lcoords ec p loc) src tgt locs.
  Proof using Hgood Hsched Hx comb_ok g_ok good_length smap_length.
    set (cands := repeat (seq 0 (length (simplices smap ecs))) (length x)).
    destruct (core_ok sched Hsched g nn nd good lcoords smap g_ok good_length comb_ok smap_length (simplices smap ecs) goods x Hx tol None (length (simplices smap ecs)) cands) with (tiles := length ecs)
      as (src & tgt & locs & E & H1 & H2 & H3 & H4 & H5).
    - reflexivity.
    - unfold cands. apply repeat_length.
    - apply Forall_forall. intros c Hc. apply repeat_spec in Hc. subst c. apply Forall_forall. intros j Hj. apply in_seq in Hj. lia.
    - apply Forall_forall. intros c Hc. apply repeat_spec in Hc. subst c. apply seq_length.
    - unfold simplices. rewrite map_length, prod_length. reflexivity.
    - exists src, tgt, locs. split; [exact E|]. split; [assumption|]. split; [assumption|]. split; [assumption|]. split.
      + intros i p Hp. rewrite H4. split.
        * intros (j & l & Hh). apply cand_hit_iff in Hh. destruct Hh as (p' & c & ec & q & G1 & G2 & G3 & G4 & G5 & G6 & G7). assert (p' = p) as -> by congruence.
          exists ec. split; [now apply nth_error_In with (j / length smap)%nat|]. exists q. split; [now apply nth_error_In with (j mod length smap)|]. now exists l.
        * intros (ec & Hec & q & Hq & l & HW & HF). apply In_nth_error in Hec, Hq. destruct Hec as (a & Ha), Hq as (b & Hb).
          pose proof (nth_error_Some_lt _ _ _ Hb) as Hlt. exists (a * length smap + b)%nat, l. apply cand_hit_iff. exists p, (seq 0 (length (simplices smap ecs))), ec, q.
          split; [assumption|]. split; [unfold cands; apply nth_error_repeat; now apply nth_error_Some_lt in Hp|]. split.
          { apply in_seq. pose proof (nth_error_Some_lt _ _ _ (simplices_at _ _ _ _ _ _ Ha Hb)). lia. }
          replace ((a * length smap + b) / length smap)%nat with a by (rewrite Nat.div_add_l, Nat.div_small; lia).
          replace ((a * length smap + b) mod length smap)%nat with b by (rewrite Nat.add_comm, Nat.mod_add, Nat.mod_small; lia). auto.
      + intros s i e loc Hi He Hl. destruct (H5 s i Hi) as (j & l & loc' & q & Hh & Hq & Ht & Hl' & HW & HD).
        apply cand_hit_iff in Hh. destruct Hh as (p & c & ec & q' & G1 & G2 & G3 & G4 & G5 & G6 & G7). assert (q' = q) as -> by congruence.
        assert (loc' = loc) as -> by congruence. rewrite He in Ht. injection Ht as ->. exists p. split; [assumption|]. split; [now apply nth_error_Some_lt in G4|].
        exists ec. split; [assumption|]. exists q, l. split; [now apply nth_error_In with (j mod length smap)|]. auto.
  Qed.
  Lemma eager_k : forall k, locate_simplices query sched g nn nd lcoords smap (length ecs) (simplices smap ecs) false k tol x =
    locate_simplices query sched g nn nd lcoords smap (length ecs) (simplices smap ecs) false 0 tol x.
  Proof using. reflexivity. Qed.
  Lemma eager_pip : forall k, exists b, pip_simplices query g (simplices smap ecs) false k tol x = Ok b /\
    Forall2 (fun p v => v = true <-> exists ec, In ec ecs /\ near_cell nd tol smap ec p) x b.
  Proof using Hgood Hx g_ok.
    intros k. set (cands := repeat (seq 0 (length (simplices smap ecs))) (length x)).
    destruct (core_pip g nd good g_ok (simplices smap ecs) goods x Hx tol None cands) as (b & E & HL & H).
    - reflexivity.
    - unfold cands. apply repeat_length.
    - apply Forall_forall. intros c Hc. apply repeat_spec in Hc. subst c. apply Forall_forall. intros j Hj. apply in_seq in Hj. lia.
    - exists b. split; [exact E|]. clear E.
      assert (K : forall (l : list (list R)) (r : list bool) (P : list R -> bool -> Prop), length r = length l -> (forall i a b, nth_error l i = Some a -> nth_error r i = Some b -> P a b) -> Forall2 P l r).
      { clear. induction l as [|a l IH]; intros [|b r] P HL H; try discriminate HL; constructor; [now apply (H 0%nat)|].
        apply IH; [now injection HL|]. intros i. apply (H (S i)). }
      apply K; [assumption|]. intros i p v Hp Hv. rewrite (H i v Hv). split.
      + intros (j & l & Hh). apply cand_hit_iff in Hh. destruct Hh as (p' & c & ec & q & G1 & G2 & G3 & G4 & G5 & G6 & G7). assert (p' = p) as -> by congruence.
        exists ec. split; [now apply nth_error_In with (j / length smap)%nat|]. exists q. split; [now apply nth_error_In with (j mod length smap)|]. now exists l.
      + intros (ec & Hec & q & Hq & l & HW & HF). apply In_nth_error in Hec, Hq. destruct Hec as (a & Ha), Hq as (b' & Hb).
        pose proof (nth_error_Some_lt _ _ _ Hb) as Hlt. exists (a * length smap + b')%nat, l. apply cand_hit_iff. exists p, (seq 0 (length (simplices smap ecs))), ec, q.
        split; [assumption|]. split; [unfold cands; apply nth_error_repeat; now apply nth_error_Some_lt in Hp|]. split.
        { apply in_seq. pose proof (nth_error_Some_lt _ _ _ (simplices_at _ _ _ _ _ _ Ha Hb)). lia. }
        replace ((a * length smap + b') / length smap)%nat with a by (rewrite Nat.div_add_l, Nat.div_small; lia).
        replace ((a * length smap + b') mod length smap)%nat with b' by (rewrite Nat.add_comm, Nat.mod_add, Nat.mod_small; lia). auto.
  Qed.

  (** ** with neighbours *)
  Context (Hq : nearest_query query) (k : nat) (centers : list (list R)).
  Hypothesis Hcenters : mapM vmean (simplices smap ecs) = Ok centers.
  Hypothesis Hmany : (2 <= Nat.min k (length ecs * length smap))%nat.

  Lemma simplices_length : length (simplices smap ecs) = (length ecs * length smap)%nat.
  Proof using. unfold simplices. now rewrite map_length, prod_length. Qed.
  Lemma centers_length : length centers = (length ecs * length smap)%nat.
  Proof using Hcenters. now rewrite (mapM_length _ _ _ Hcenters), simplices_length. Qed.
  (** the number of neighbours *)
  Context (kk : nat) (Hkk : kk = Nat.min k (length ecs * length smap)).
  Lemma neighbours_value : neighbours_if query true (simplices smap ecs) x k = Ok (Some (map (fun y => query centers y kk None) x)).
  Proof using Hcenters Hmany Hkk.
    unfold neighbours_if, neighbours_of. rewrite Hcenters. cbn [bind]. unfold k_nearest_neighbours. rewrite centers_length, <- Hkk.
    replace (Nat.eqb kk 1) with false by (symmetry; apply Nat.eqb_neq; lia). reflexivity.
  Qed.
  Definition nb := map (fun y => query centers y kk None) x.
  Lemma nb_range : Forall (Forall (fun j => (j < length (simplices smap ecs))%nat)) nb.
  Proof using Hcenters Hmany Hq Hkk.
    apply Forall_forall. intros c Hc. apply in_map_iff in Hc. destruct Hc as (y & <- & _).
    destruct (Hq centers y kk) as (_ & _ & H & _); [rewrite centers_length; lia|]. rewrite centers_length in H. now rewrite simplices_length.
  Qed.
  Lemma nb_rect : rect kk nb.
  Proof using Hcenters Hmany Hq Hkk.
    apply Forall_forall. intros c Hc. apply in_map_iff in Hc. destruct Hc as (y & <- & _).
    destruct (Hq centers y kk) as (H & _); [rewrite centers_length; lia|]. exact H.
  Qed.
  (** the position is in one of the examined simplices *)
  Definition lazily (p : list R) : Prop :=
    exists j ec q, In j (query centers p kk None) /\ nth_error ecs (j / length smap) = Some ec /\ nth_error smap (j mod length smap) = Some q /\ near_hull nd tol (pick q ec) p.
  Lemma lazy_hit : forall i p, nth_error x i = Some p -> ((exists j l, cand_hit nd (simplices smap ecs) x tol nb i j l) <-> lazily p).
  Proof using.
    intros i p Hp. split.
    - intros (j & l & Hh). apply cand_hit_iff in Hh. destruct Hh as (p' & c & ec & q & G1 & G2 & G3 & G4 & G5 & G6 & G7). assert (p' = p) as -> by congruence.
      unfold nb in G2. rewrite (map_nth_error _ _ _ Hp) in G2. injection G2 as <-. exists j, ec, q. repeat (split; [assumption|]). now exists l.
    - intros (j & ec & q & H1 & H2 & H3 & l & HW & HF). exists j, l. apply cand_hit_iff. exists p, (query centers p kk None), ec, q.
      split; [assumption|]. split; [exact (map_nth_error (fun y => query centers y kk None) _ _ Hp)|]. auto.
  Qed.
  Lemma lazy_ok : exists src tgt locs, locate_simplices query sched g nn nd lcoords smap (length ecs) (simplices smap ecs) true k tol x = Ok (src, tgt, locs) /\
    located_all x (length ecs) lazily (fun e p loc => exists ec, nth_error ecs e = Some ec /\ located nd tol smap lcoords ec p loc) src tgt locs.
  Proof using Hgood Hsched Hx comb_ok g_ok good_length smap_length Hcenters Hmany Hq Hkk.
    destruct (core_ok sched Hsched g nn nd good lcoords smap g_ok good_length comb_ok smap_length (simplices smap ecs) goods x Hx tol (Some nb) kk nb) with (tiles := length ecs)
      as (src & tgt & locs & E & H1 & H2 & H3 & H4 & H5).
    - reflexivity.
    - unfold nb. apply map_length.
    - apply nb_range.
    - apply nb_rect.
    - apply simplices_length.
    - exists src, tgt, locs. split; [unfold locate_simplices; rewrite neighbours_value; exact E|]. split; [assumption|]. split; [assumption|]. split; [assumption|]. split.
      + intros i p Hp. rewrite H4. now apply lazy_hit.
      + intros s i e loc Hi He Hl. destruct (H5 s i Hi) as (j & l & loc' & q & Hh & Hq' & Ht & Hl' & HW & HD).
        apply cand_hit_iff in Hh. destruct Hh as (p & c & ec & q' & G1 & G2 & G3 & G4 & G5 & G6 & G7). assert (q' = q) as -> by congruence.
        assert (loc' = loc) as -> by congruence. rewrite He in Ht. injection Ht as ->. exists p. split; [assumption|]. split; [now apply nth_error_Some_lt in G4|].
        exists ec. split; [assumption|]. exists q, l. split; [now apply nth_error_In with (j mod length smap)|]. auto.
  Qed.
  Lemma lazy_pip : exists b, pip_simplices query g (simplices smap ecs) true k tol x = Ok b /\ Forall2 (fun p v => v = true <-> lazily p) x b.
  Proof using Hgood Hx g_ok Hcenters Hmany Hq Hkk.
    destruct (core_pip g nd good g_ok (simplices smap ecs) goods x Hx tol (Some nb) nb) as (b & E & HL & H).
    - reflexivity.
    - unfold nb. apply map_length.
    - apply nb_range.
    - exists b. split; [unfold pip_simplices; rewrite neighbours_value; exact E|]. clear E.
      assert (K : forall (l : list (list R)) (r : list bool) (P : list R -> bool -> Prop), length r = length l -> (forall i a b, nth_error l i = Some a -> nth_error r i = Some b -> P a b) -> Forall2 P l r).
      { clear. induction l as [|a l IH]; intros [|b r] P HL H; try discriminate HL; constructor; [now apply (H 0%nat)|].
        apply IH; [now injection HL|]. intros i. apply (H (S i)). }
      apply K; [assumption|]. intros i p v Hp Hv. rewrite (H i v Hv). now apply lazy_hit.
  Qed.
  Lemma lazily_near : forall p, lazily p -> exists ec, In ec ecs /\ near_cell nd tol smap ec p.
  Proof using.
    intros p (j & ec & q & H1 & H2 & H3 & H4). exists ec. split; [now apply nth_error_In with (j / length smap)%nat|]. exists q. split; [now apply nth_error_In with (j mod length smap)|assumption].
  Qed.
End Simplices.

(** one simplex only, or one neighbour: the query answers with a list of numbers *)
Lemma lazy_one : forall query sched g nn nd lcoords smap tiles ecs centers k tol x, mapM vmean ecs = Ok centers -> Nat.min k (length ecs) = 1%nat ->
  locate_simplices query sched g nn nd lcoords smap tiles ecs true k tol x = Err TypeError /\ pip_simplices query g ecs true k tol x = Err TypeError.
Proof.
  intros query sched g nn nd lcoords smap tiles ecs centers k tol x HC Hk.
  unfold locate_simplices, pip_simplices, neighbours_if, neighbours_of. rewrite HC. cbn [bind]. unfold k_nearest_neighbours. rewrite (mapM_length _ _ _ HC), Hk. split; reflexivity.
Qed.
