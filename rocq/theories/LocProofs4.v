(** * Proofs about [LocModel.v], part 4: locate and pip for meshes of solids *)
From Coq Require Import Reals Lra Lia List Permutation.
From Verif Require Import LocModel LocSpec QuadSpec BaseFacts TopoProofs5 TrProofs ShapeProofs4 TriProofs TriProofs2 TriProofs6 LocProofs LocProofs2 LocProofs3.
Import ListNotations.
Local Open Scope R_scope.

Lemma solid_length : forall ec, solid_tet ec -> length ec = 4%nat.
Proof. intros ec (a & b & c & d & -> & _). reflexivity. Qed.
Lemma pieces_length : forall n w smap, pieces n w smap -> forall q, In q smap -> length q = n.
Proof. intros n w smap H q Hq. unfold pieces in H. rewrite Forall_forall in H. apply (H q Hq). Qed.
Lemma mesh_length : forall coords topo ecs, mesh_at coords topo ecs -> length ecs = length topo.
Proof. intros coords topo ecs H. induction H; cbn [length]; congruence. Qed.

Section Solids.
  Context (query : list (list R) -> list R -> nat -> option R -> list nat) (sched : nat -> nat -> list (nat * nat)).
  Context (lcoords : list (list R)) (smap : list (list nat)) (coords : list (list R)) (topo : list (list nat)) (ecs : list (list (list R))).
  Context (Hlc : Forall (dim 3) lcoords) (Hp : pieces 4 (length lcoords) smap) (Hm : mesh_at coords topo ecs) (Hr : rect (length lcoords) topo).
  Context (Hsolid : forall ec q, In ec ecs -> In q smap -> solid_tet (pick q ec)).
  Context (tol : R) (x : list (list R)) (Hx : Forall (dim 3) x).

  Lemma locate_eager : any_order sched -> forall k,
    exists src tgt locs, locate query sched lcoords (Ok smap) coords topo false k tol x = Ok (src, tgt, locs) /\
    located_all x (length topo) (fun p => exists ec, In ec ecs /\ near_cell 3 tol smap ec p)
      (fun e p loc => exists ec, nth_error ecs e = Some ec /\ located 3 tol smap lcoords ec p loc) src tgt locs.
  Proof.
    intros Hs k. destruct (tet_mesh coords topo ecs smap _ 4 Hm Hr Hp) as (tets & E1 & E2 & _).
    destruct (eager_ok query sched Hs glob_to_nat_tet 4 3 solid_tet lcoords smap nat_solid_tet solid_length (comb_3d _ _ Hlc Hp)
      (pieces_length _ _ _ Hp) ecs Hsolid x Hx tol) as (src & tgt & locs & E & H).
    exists src, tgt, locs. rewrite (mesh_length _ _ _ Hm) in E, H. split; [|exact H].
    unfold locate, to_tetrahedra. cbn [bind]. rewrite E1. cbn [bind]. rewrite E2. exact E.
  Qed.
  Lemma pip_eager : forall k, exists b, pip_3d query (Ok smap) coords topo false k tol x = Ok b /\
    Forall2 (fun p v => v = true <-> exists ec, In ec ecs /\ near_cell 3 tol smap ec p) x b.
  Proof.
    intros k. destruct (tet_mesh coords topo ecs smap _ 4 Hm Hr Hp) as (tets & E1 & E2 & _).
    destruct (eager_pip query glob_to_nat_tet 3 solid_tet smap nat_solid_tet ecs Hsolid x Hx tol k) as (b & E & H).
    exists b. split; [|exact H]. unfold pip_3d, to_tetrahedra. cbn [bind]. rewrite E1. cbn [bind]. rewrite E2. exact E.
  Qed.

  (** ** lazily *)
  Lemma mean_tet : forall ec, solid_tet ec -> exists c, vmean ec = Ok c /\ centre 3 ec c.
  Proof.
    intros ec (a & b & c & d & -> & Ha & Hb & Hc & Hd & _).
    destruct (dim3 _ Ha) as (x0 & y0 & z0 & ->), (dim3 _ Hb) as (x1 & y1 & z1 & ->), (dim3 _ Hc) as (x2 & y2 & z2 & ->), (dim3 _ Hd) as (x3 & y3 & z3 & ->).
    eexists. split; [reflexivity|]. split; [reflexivity|]. split; [reflexivity|].
    assert (E : INR 4 = 4) by (cbn; lra). cbn [length repeat]. rewrite E. split; [cbn [fold_right]; lra|].
    intros k Hk. unfold weighted, at_. cbn [combine map fold_right fst snd]. cbn [map length vsum vadd Z.of_nat Pos.of_succ_nat Pos.succ]. numR. destruct k as [|[|[|k]]]; [..|lia]; cbn [nth]; lra.
  Qed.
  Lemma means : exists centers, mapM vmean (simplices smap ecs) = Ok centers /\ Forall2 (centre 3) (simplices smap ecs) centers.
  Proof.
    assert (H : Forall solid_tet (simplices smap ecs)) by (apply Forall_forall; intros ec H; apply simplices_In in H; destruct H as (e & q & H1 & H2 & ->); auto).
    induction H as [|ec l He Hl (cs & E & F)]; [exists []; split; [reflexivity|constructor]|].
    destruct (mean_tet ec He) as (c & Ec & Hc). exists (c :: cs). cbn [mapM]. rewrite Ec. cbn [bind]. rewrite E. split; [reflexivity|now constructor].
  Qed.
  Lemma lazily_spec : forall centers kk p, lazily query 3 smap ecs tol centers kk p <->
    exists j tet, In j (query centers p kk None) /\ nth_error (simplices smap ecs) j = Some tet /\ near_hull 3 tol tet p.
  Proof.
    intros centers kk p. split.
    - intros (j & ec & q & H1 & H2 & H3 & H4). exists j, (pick q ec). split; [assumption|]. split; [|assumption].
      pose proof (simplices_at _ _ _ _ _ _ H2 H3) as H. rewrite Nat.mul_comm in H.
      assert (length smap <> 0)%nat by (apply nth_error_Some_lt in H3; lia). now rewrite <- Nat.div_mod in H.
    - intros (j & tet & H1 & H2 & H3). destruct (simplices_nth _ _ _ _ H2) as (e & q & H4 & H5 & ->). exists j, e, q. auto.
  Qed.
  Lemma locate_lazy : any_order sched -> nearest_query query -> forall k n, n = Nat.min k (length topo * length smap) -> (2 <= n)%nat ->
    exists centers, Forall2 (centre 3) (simplices smap ecs) centers /\
    exists src tgt locs, locate query sched lcoords (Ok smap) coords topo true k tol x = Ok (src, tgt, locs) /\
    located_all x (length topo) (fun p => exists j tet, In j (query centers p n None) /\ nth_error (simplices smap ecs) j = Some tet /\ near_hull 3 tol tet p)
      (fun e p loc => exists ec, nth_error ecs e = Some ec /\ located 3 tol smap lcoords ec p loc) src tgt locs.
  Proof.
    intros Hs Hq k n Hn H2. destruct (tet_mesh coords topo ecs smap _ 4 Hm Hr Hp) as (tets & E1 & E2 & _). destruct means as (centers & Ec & Fc).
    exists centers. split; [assumption|]. rewrite <- (mesh_length _ _ _ Hm) in Hn.
    destruct (lazy_ok query sched Hs glob_to_nat_tet 4 3 solid_tet lcoords smap nat_solid_tet solid_length (comb_3d _ _ Hlc Hp)
      (pieces_length _ _ _ Hp) ecs Hsolid x Hx tol Hq k centers Ec ltac:(lia) n Hn) as (src & tgt & locs & E & H).
    exists src, tgt, locs. rewrite (mesh_length _ _ _ Hm) in E, H. split.
    - unfold locate, to_tetrahedra. cbn [bind]. rewrite E1. cbn [bind]. rewrite E2. exact E.
    - destruct H as (G1 & G2 & G3 & G4 & G5). split; [assumption|]. split; [assumption|]. split; [assumption|]. split; [|assumption].
      intros i p Hi. now rewrite (G4 i p Hi), lazily_spec.
  Qed.
  Lemma pip_lazy : nearest_query query -> forall k n, n = Nat.min k (length topo * length smap) -> (2 <= n)%nat ->
    exists centers, Forall2 (centre 3) (simplices smap ecs) centers /\
    exists b, pip_3d query (Ok smap) coords topo true k tol x = Ok b /\
    Forall2 (fun p v => v = true <-> exists j tet, In j (query centers p n None) /\ nth_error (simplices smap ecs) j = Some tet /\ near_hull 3 tol tet p) x b.
  Proof.
    intros Hq k n Hn H2. destruct (tet_mesh coords topo ecs smap _ 4 Hm Hr Hp) as (tets & E1 & E2 & _). destruct means as (centers & Ec & Fc).
    exists centers. split; [assumption|]. rewrite <- (mesh_length _ _ _ Hm) in Hn.
    destruct (lazy_pip query glob_to_nat_tet 3 solid_tet smap nat_solid_tet ecs Hsolid x Hx tol Hq k centers Ec ltac:(lia) n Hn) as (b & E & H).
    exists b. split.
    - unfold pip_3d, to_tetrahedra. cbn [bind]. rewrite E1. cbn [bind]. rewrite E2. exact E.
    - clear E. induction H as [|p v x' b' H H' IH]; constructor; [now rewrite H, lazily_spec|]. apply IH. now inversion Hx.
  Qed.

  (** all the tetrahedra are examined *)
  Lemma all_nearest : nearest_query query -> forall centers n p, length centers = n -> forall j, (j < n)%nat -> In j (query centers p n None).
  Proof.
    intros Hq centers n p HL j Hj. destruct (Hq centers p n ltac:(lia)) as (H1 & H2 & H3 & _).
    destruct (in_dec Nat.eq_dec j (query centers p n None)) as [Hi|Hi]; [assumption|]. exfalso.
    assert (HN : NoDup (j :: query centers p n None)) by (constructor; assumption).
    assert (HI : incl (j :: query centers p n None) (seq 0 n)).
    { intros i [->|Hi']; apply in_seq; [lia|]. rewrite Forall_forall in H3. specialize (H3 i Hi'). lia. }
    pose proof (NoDup_incl_length HN HI) as H. cbn [length] in H. rewrite seq_length in H. lia.
  Qed.
  Lemma lazy_all : nearest_query query -> forall centers, Forall2 (centre 3) (simplices smap ecs) centers -> forall p,
    (exists j tet, In j (query centers p (length topo * length smap) None) /\ nth_error (simplices smap ecs) j = Some tet /\ near_hull 3 tol tet p) <->
    exists ec, In ec ecs /\ near_cell 3 tol smap ec p.
  Proof.
    intros Hq centers Hc p. assert (HL : length centers = (length topo * length smap)%nat).
    { rewrite <- (mesh_length _ _ _ Hm), <- (simplices_length smap ecs). clear - Hc. induction Hc; cbn [length]; congruence. }
    split.
    - intros (j & tet & H1 & H2 & H3). destruct (simplices_nth _ _ _ _ H2) as (e & q & H4 & H5 & ->).
      exists e. split; [now apply nth_error_In with (j / length smap)%nat|]. exists q. split; [now apply nth_error_In with (j mod length smap)|assumption].
    - intros (ec & He & q & Hq' & HN). apply In_nth_error in He, Hq'. destruct He as (a & Ha), Hq' as (b & Hb).
      pose proof (simplices_at _ _ _ _ _ _ Ha Hb) as H. exists (a * length smap + b)%nat, (pick q ec). split; [|auto].
      apply all_nearest; [assumption|assumption|]. rewrite <- (mesh_length _ _ _ Hm), <- (simplices_length smap ecs). now apply nth_error_Some_lt in H.
  Qed.
End Solids.

(** strictly increasing lists with the same entries are the same *)
Lemma sorted_lists : forall l l' : list nat,
  (forall a b i j, nth_error l a = Some i -> nth_error l b = Some j -> (a < b)%nat -> (i < j)%nat) ->
  (forall a b i j, nth_error l' a = Some i -> nth_error l' b = Some j -> (a < b)%nat -> (i < j)%nat) ->
  (forall i, In i l <-> In i l') -> l = l'.
Proof.
  induction l as [|y l IH]; intros [|y' l'] H H' HE.
  - reflexivity.
  - destruct (proj2 (HE y') (or_introl eq_refl)).
  - destruct (proj1 (HE y) (or_introl eq_refl)).
  - assert (M : forall i, In i l -> (y < i)%nat) by (intros i Hi; apply In_nth_error in Hi; destruct Hi as (n & Hn); exact (H 0%nat (S n) y i eq_refl Hn ltac:(lia))).
    assert (M' : forall i, In i l' -> (y' < i)%nat) by (intros i Hi; apply In_nth_error in Hi; destruct Hi as (n & Hn); exact (H' 0%nat (S n) y' i eq_refl Hn ltac:(lia))).
    assert (y = y') as <-.
    { destruct (proj1 (HE y) (or_introl eq_refl)) as [E|E]; [congruence|]. destruct (proj2 (HE y') (or_introl eq_refl)) as [E'|E']; [congruence|].
      specialize (M _ E'). specialize (M' _ E). lia. }
    f_equal. apply IH.
    + intros a b i j Ha Hb Hab. apply (H (S a) (S b) i j); [assumption|assumption|lia].
    + intros a b i j Ha Hb Hab. apply (H' (S a) (S b) i j); [assumption|assumption|lia].
    + intros i. specialize (HE i). cbn [In] in HE. split; intros Hi.
      * destruct (proj1 HE (or_intror Hi)) as [->|]; [|assumption]. specialize (M _ Hi). lia.
      * destruct (proj2 HE (or_intror Hi)) as [->|]; [|assumption]. specialize (M' _ Hi). lia.
Qed.
Lemma located_src : forall x n found good src tgt locs, located_all x n found good src tgt locs -> forall i, In i src -> exists p, nth_error x i = Some p.
Proof.
  intros x n found good src tgt locs (H1 & H2 & _ & _ & H) i Hi. apply In_nth_error in Hi. destruct Hi as (s & Hs).
  pose proof (nth_error_Some_lt _ _ _ Hs) as Hlt. destruct (nth_error_lt tgt s ltac:(lia)) as (e & He). destruct (nth_error_lt locs s ltac:(lia)) as (l & Hl).
  destruct (H s i e l Hs He Hl) as (p & Hp & _). eauto.
Qed.
Lemma same_src : forall x n found found' good good' src tgt locs src' tgt' locs',
  located_all x n found good src tgt locs -> located_all x n found' good' src' tgt' locs' -> (forall p, found p <-> found' p) -> src = src'.
Proof.
  intros x n found found' good good' src tgt locs src' tgt' locs' H H' HE. apply sorted_lists; [apply H|apply H'|]. intros i. split; intros Hi.
  - destruct (located_src _ _ _ _ _ _ _ H i Hi) as (p & Hp). apply (proj1 (proj2 (proj2 (proj2 H'))) i p Hp). apply HE. now apply (proj1 (proj2 (proj2 (proj2 H))) i p Hp).
  - destruct (located_src _ _ _ _ _ _ _ H' i Hi) as (p & Hp). apply (proj1 (proj2 (proj2 (proj2 H))) i p Hp). apply HE. now apply (proj1 (proj2 (proj2 (proj2 H'))) i p Hp).
Qed.

(** ** lazy evaluation with all the tetrahedra *)
Lemma lazy_same : forall query sched lcoords smap coords topo ecs tol x k, any_order sched -> nearest_query query ->
  Forall (dim 3) lcoords -> pieces 4 (length lcoords) smap -> mesh_at coords topo ecs -> rect (length lcoords) topo ->
  (forall ec q, In ec ecs -> In q smap -> solid_tet (pick q ec)) -> Forall (dim 3) x ->
  (2 <= length topo * length smap <= k)%nat ->
  exists src tgt locs tgt' locs', locate query sched lcoords (Ok smap) coords topo false k tol x = Ok (src, tgt, locs) /\
    locate query sched lcoords (Ok smap) coords topo true k tol x = Ok (src, tgt', locs') /\
    located_all x (length topo) (fun p => exists ec, In ec ecs /\ near_cell 3 tol smap ec p)
      (fun e p loc => exists ec, nth_error ecs e = Some ec /\ located 3 tol smap lcoords ec p loc) src tgt' locs'.
Proof.
  intros query sched lcoords smap coords topo ecs tol x k Hs Hq Hlc Hp Hm Hr Hsolid Hx Hk.
  destruct (locate_eager query sched lcoords smap coords topo ecs Hlc Hp Hm Hr Hsolid tol x Hx Hs k) as (src & tgt & locs & E & H).
  destruct (locate_lazy query sched lcoords smap coords topo ecs Hlc Hp Hm Hr Hsolid tol x Hx Hs Hq k (length topo * length smap) ltac:(lia) ltac:(lia))
    as (centers & Fc & src' & tgt' & locs' & E' & H').
  pose proof (lazy_all query smap coords topo ecs Hm tol Hq centers Fc) as HA.
  assert (src = src') as <-.
  { apply (same_src _ _ _ _ _ _ _ _ _ _ _ _ H H'). intros p. symmetry. apply HA. }
  exists src, tgt, locs, tgt', locs'. split; [assumption|]. split; [assumption|].
  destruct H' as (G1 & G2 & G3 & G4 & G5). split; [assumption|]. split; [assumption|]. split; [assumption|]. split; [|assumption].
  intros i p Hi. rewrite (G4 i p Hi). apply HA.
Qed.
Lemma lazy_same_pip : forall query smap coords topo ecs w tol x k, nearest_query query ->
  pieces 4 w smap -> mesh_at coords topo ecs -> rect w topo ->
  (forall ec q, In ec ecs -> In q smap -> solid_tet (pick q ec)) -> Forall (dim 3) x ->
  (2 <= length topo * length smap <= k)%nat ->
  exists b, pip_3d query (Ok smap) coords topo false k tol x = Ok b /\ pip_3d query (Ok smap) coords topo true k tol x = Ok b.
Proof.
  intros query smap coords topo ecs w tol x k Hq Hp Hm Hr Hsolid Hx Hk.
  assert (HW : w = length (repeat (@nil R) w)) by now rewrite repeat_length. rewrite HW in Hp, Hr.
  destruct (pip_eager query (repeat [] w) smap coords topo ecs Hp Hm Hr Hsolid tol x Hx k) as (b & E & H).
  destruct (pip_lazy query (repeat [] w) smap coords topo ecs Hp Hm Hr Hsolid tol x Hx Hq k (length topo * length smap) ltac:(lia) ltac:(lia)) as (centers & Fc & b' & E' & H').
  exists b. split; [assumption|]. rewrite E'. f_equal. pose proof (lazy_all query smap coords topo ecs Hm tol Hq centers Fc) as HA. clear - H H' HA.
  revert b' H'. induction H as [|p v x b H Hr IH]; intros b' H'; inversion H' as [|? v' ? b'' Hv Hr']; subst; [reflexivity|].
  f_equal; [|now apply IH]. apply Bool.eq_iff_eq_true. now rewrite H, Hv, HA.
Qed.
(** lazy results are right, if incomplete *)
Lemma lazy_sound : forall query sched lcoords smap coords topo ecs tol x k, any_order sched -> nearest_query query ->
  Forall (dim 3) lcoords -> pieces 4 (length lcoords) smap -> mesh_at coords topo ecs -> rect (length lcoords) topo ->
  (forall ec q, In ec ecs -> In q smap -> solid_tet (pick q ec)) -> Forall (dim 3) x ->
  (2 <= Nat.min k (length topo * length smap))%nat ->
  exists src tgt locs src' tgt' locs', locate query sched lcoords (Ok smap) coords topo false k tol x = Ok (src, tgt, locs) /\
    locate query sched lcoords (Ok smap) coords topo true k tol x = Ok (src', tgt', locs') /\ incl src' src /\
    forall s i e loc, nth_error src' s = Some i -> nth_error tgt' s = Some e -> nth_error locs' s = Some loc ->
      exists p ec, nth_error x i = Some p /\ nth_error ecs e = Some ec /\ located 3 tol smap lcoords ec p loc.
Proof.
  intros query sched lcoords smap coords topo ecs tol x k Hs Hq Hlc Hp Hm Hr Hsolid Hx Hk.
  destruct (locate_eager query sched lcoords smap coords topo ecs Hlc Hp Hm Hr Hsolid tol x Hx Hs k) as (src & tgt & locs & E & H).
  destruct (locate_lazy query sched lcoords smap coords topo ecs Hlc Hp Hm Hr Hsolid tol x Hx Hs Hq k _ eq_refl Hk)
    as (centers & Fc & src' & tgt' & locs' & E' & H').
  exists src, tgt, locs, src', tgt', locs'. split; [assumption|]. split; [assumption|]. split.
  - intros i Hi. destruct (located_src _ _ _ _ _ _ _ H' i Hi) as (p & Hpp). apply (proj1 (proj2 (proj2 (proj2 H))) i p Hpp).
    apply (proj1 (proj2 (proj2 (proj2 H'))) i p Hpp) in Hi. destruct Hi as (j & tet & H1 & H2 & H3). destruct (simplices_nth _ _ _ _ H2) as (e & q & H4 & H5 & ->).
    exists e. split; [now apply nth_error_In with (j / length smap)%nat|]. exists q. split; [now apply nth_error_In with (j mod length smap)|assumption].
  - intros s i e loc Hi He Hl. destruct (proj2 (proj2 (proj2 (proj2 H'))) s i e loc Hi He Hl) as (p & H1 & _ & ec & H2 & H3). exists p, ec. auto.
Qed.
(** a mesh with one tetrahedron *)
Lemma lazy_single : forall query sched coords cell ec tol x k, mesh_at coords [cell] [ec] -> length cell = 4%nat -> solid_tet ec -> (1 <= k)%nat ->
  locate query sched (lcoords_TET4 (K := R)) (Ok tetmap_TET4) coords [cell] true k tol x = Err TypeError /\
  pip_3d query (Ok tetmap_TET4) coords [cell] true k tol x = Err TypeError.
Proof.
  intros query sched coords cell ec tol x k Hm HL Hs Hk.
  assert (Hp : pieces 4 4 tetmap_TET4) by (repeat constructor).
  destruct (tet_mesh coords [cell] [ec] tetmap_TET4 4 4 Hm ltac:(repeat constructor; assumption) Hp) as (tets & E1 & E2 & HN).
  assert (Hsolid : forall e q, In e [ec] -> In q tetmap_TET4 -> solid_tet (pick q e)).
  { intros e q [<-|[]] [<-|[]]. destruct Hs as (a & b & c & d & -> & H). exists a, b, c, d. auto. }
  destruct (means tetmap_TET4 [ec] Hsolid) as (centers & Ec & _).
  unfold locate, pip_3d, to_tetrahedra. cbn [bind]. rewrite E1. cbn [bind]. rewrite E2. cbn [bind].
  apply (lazy_one query sched glob_to_nat_tet 4 3 (lcoords_TET4 (K := R)) tetmap_TET4 _ _ centers k tol x Ec). rewrite HN. cbn [length tetmap_TET4]. lia.
Qed.
