(** * Triangles: point location, interpolation at points *)
From Coq Require Import Reals Lra Lia List.
From Verif Require Import TriModel TriSpec TriProofs BaseFacts ShapeProofs4.
Import ListNotations.
Local Open Scope R_scope.

Lemma inside_spec : forall tol l, inside tol l = true <-> Forall (fun x => - tol < x < 1 + tol) l.
Proof.
  intros tol l. unfold inside. rewrite Bool.andb_true_iff, !forallb_forall, Forall_forall. cbn.
  split.
  - intros [H1 H2] x Hx. specialize (H1 x Hx). specialize (H2 x Hx).
    destruct (Rlt_dec (- tol) x); [|discriminate]. destruct (Rlt_dec x (1 + tol)); [|discriminate]. lra.
  - intros H. split; intros x Hx; specialize (H x Hx).
    + destruct (Rlt_dec (- tol) x); [reflexivity|lra].
    + destruct (Rlt_dec x (1 + tol)); [reflexivity|lra].
Qed.
(** the natural coordinates of a cell with positive orientation *)
Lemma nat_ccw_cell : forall ec p, ccw_cell ec -> has_dim 2 p ->
  exists l, glob_to_nat_tri Floating p ec = Ok l /\ weights_of 2 l ec p /\ forall l', weights_of 2 l' ec p -> l' = l.
Proof.
  intros ec p (a & b & c & -> & Ha & Hb & Hc & H) Hp.
  assert (H0 : signed_area a b c <> 0) by (unfold ccw in H; lra).
  exists (bary a b c p). split; [now apply nat_ccw|]. split; [now apply bary_weights|]. intros. now apply weights_unique.
Qed.
Lemma inside_near : forall dim tol ec p l, weights_of dim l ec p -> (forall l', weights_of dim l' ec p -> l' = l) ->
  (inside tol l = true <-> near_hull dim tol ec p).
Proof.
  intros dim tol ec p l HW HU. rewrite inside_spec. split.
  - intros H. now exists l.
  - intros (l' & HW' & H). now rewrite <- (HU l' HW').
Qed.
Lemma in_hull_near : forall dim tol ec p, 0 < tol -> in_hull dim ec p -> near_hull dim tol ec p.
Proof.
  intros dim tol ec p Ht (l & HW & HF). exists l. split; [assumption|].
  destruct HW as (_ & HS & _). rewrite Forall_forall in *. intros x Hx. specialize (HF x Hx) as H0. cut (x <= 1); [lra|].
  rewrite <- HS. clear - Hx HF.
  assert (G : forall l, (forall x, In x l -> 0 <= x) -> 0 <= fold_right Rplus 0 l).
  { clear. intros l H. induction l; cbn [fold_right]; [lra|]. pose proof (H a (or_introl eq_refl)).
    assert (0 <= fold_right Rplus 0 l) by (apply IHl; intros; apply H; now right). lra. }
  induction l; [contradiction|]. cbn [fold_right].
  assert (0 <= a) by (apply HF; now left). assert (0 <= fold_right Rplus 0 l) by (apply G; intros; apply HF; now right).
  destruct Hx as [->|Hx]; [lra|]. assert (x <= fold_right Rplus 0 l) by (apply IHl; [intros; apply HF; now right|assumption]). lra.
Qed.
Lemma near_all_in_hull : forall dim ec p l, weights_of dim l ec p -> (forall l', weights_of dim l' ec p -> l' = l) ->
  (forall tol, 0 < tol -> near_hull dim tol ec p) -> in_hull dim ec p.
Proof.
  intros dim ec p l HW HU H. exists l. split; [assumption|]. rewrite Forall_forall. intros x Hx.
  apply Rnot_lt_le. intros Hneg. destruct (H (- x) ltac:(lra)) as (l' & HW' & HF). rewrite (HU l' HW') in HF.
  rewrite Forall_forall in HF. specialize (HF x Hx). lra.
Qed.
Lemma closed_triangle : forall ec p, ccw_cell ec -> has_dim 2 p ->
  ((forall tol, 0 < tol -> near_hull 2 tol ec p) <-> in_hull 2 ec p).
Proof.
  intros ec p H Hp. destruct (nat_ccw_cell ec p H Hp) as (l & _ & HW & HU). split.
  - now apply near_all_in_hull with l.
  - intros Hh tol Ht. now apply in_hull_near.
Qed.

Lemma pip_row : forall tol p ecs, has_dim 2 p -> Forall ccw_cell ecs ->
  exists r, mapM (fun ec => glob_to_nat_tri Floating p ec) ecs = Ok r /\
    Forall2 (fun ec b => b = true <-> near_hull 2 tol ec p) ecs (map (inside tol) r).
Proof.
  intros tol p ecs Hp H. induction H as [|ec ecs H Hr IH].
  - exists []. split; [reflexivity|constructor].
  - destruct IH as (r & E & F). destruct (nat_ccw_cell ec p H Hp) as (l & El & HW & HU).
    exists (l :: r). cbn [mapM]. rewrite El. cbn [bind]. rewrite E. cbn [bind map]. split; [reflexivity|]. constructor; [|assumption].
    now apply inside_near.
Qed.
Lemma pip_tri_correct : forall points ecs tol, Forall (has_dim 2) points -> Forall ccw_cell ecs ->
  exists M, pip_tri_bulk Floating points ecs tol = Ok M /\
    Forall2 (fun p row => Forall2 (fun ec b => b = true <-> near_hull 2 tol ec p) ecs row) points M.
Proof.
  intros points ecs tol HP HE. unfold pip_tri_bulk, glob_to_nat_tri_bulk.
  cut (exists nat, mapM (fun p => mapM (fun ec => glob_to_nat_tri Floating p ec) ecs) points = Ok nat /\
    Forall2 (fun p row => Forall2 (fun ec b => b = true <-> near_hull 2 tol ec p) ecs row) points (pip_of_nat tol nat)).
  { intros (nat & E & F). rewrite E. cbn [bind]. eexists. split; [reflexivity|exact F]. }
  induction HP as [|p points Hp HP IH].
  - exists []. split; [reflexivity|constructor].
  - destruct IH as (nat & E & F). destruct (pip_row tol p ecs Hp HE) as (r & Er & Fr).
    exists (r :: nat). cbn [mapM]. rewrite Er. cbn [bind]. rewrite E. split; [reflexivity|]. constructor; assumption.
Qed.
(** only the neighbours *)
Lemma knn_gen : forall (tol : R) (g : list R -> list (list R) -> res (list R)) (near : list (list R) -> list R -> Prop) ecs points neighbours,
  (forall p j ec, In p points -> nth_error ecs j = Some ec -> exists l, g p ec = Ok l /\ (inside tol l = true <-> near ec p)) ->
  length neighbours = length points -> Forall (Forall (fun j => (j < length ecs)%nat)) neighbours ->
  exists nat, nat_bulk_knn g points ecs neighbours = Ok nat /\
    Forall2 (fun pk row => Forall2 (fun j b => exists ec, nth_error ecs j = Some ec /\ (b = true <-> near ec (fst pk))) (snd pk) row)
      (combine points neighbours) (pip_of_nat tol nat).
Proof.
  intros tol g near ecs points. unfold nat_bulk_knn.
  induction points as [|p points IH]; intros [|knn neighbours] HG HL HN; try discriminate HL.
  - exists []. split; [reflexivity|constructor].
  - inversion HN as [|? ? Hk Hr]; subst. injection HL as HL.
    destruct (IH neighbours) as (nat & E & F); [intros p0 j0 ec0 Hp0 Hj0; apply (HG p0 j0 ec0); [now right|assumption]|assumption|assumption|].
    assert (G : exists r, mapM (fun j => do ec <- get ecs j; g p ec) knn = Ok r /\
       Forall2 (fun j b => exists ec, nth_error ecs j = Some ec /\ (b = true <-> near ec p)) knn (map (inside tol) r)).
    { clear - Hk HG. induction Hk as [|j knn Hj Hk IH]; [exists []; split; [reflexivity|constructor]|].
      destruct IH as (r & E & F). destruct (nth_error ecs j) as [ec|] eqn:Ej; [|apply nth_error_None in Ej; lia].
      destruct (HG p j ec (or_introl eq_refl) Ej) as (l & El & Hl). exists (l :: r). cbn [mapM]. unfold get at 1. rewrite Ej. cbn [bind]. rewrite El. cbn [bind].
      rewrite E. split; [reflexivity|]. constructor; [|assumption]. now exists ec. }
    destruct G as (r & Er & Fr). exists (r :: nat). cbn [map2 bind].
    destruct (map2 (fun p0 knn0 => mapM (fun j => do ec <- get ecs j; g p0 ec) knn0) points neighbours) as [rs|] eqn:Em; [|discriminate E].
    cbn [bind] in E |- *. cbn [mapM]. rewrite Er. cbn [bind]. rewrite E. split; [reflexivity|]. constructor; assumption.
Qed.
Lemma pip_tri_knn_correct : forall points ecs neighbours tol, Forall (has_dim 2) points -> Forall ccw_cell ecs ->
  length neighbours = length points -> Forall (Forall (fun j => (j < length ecs)%nat)) neighbours ->
  exists M, pip_tri_bulk_knn Floating points ecs neighbours tol = Ok M /\
    Forall2 (fun pk row => Forall2 (fun j b => exists ec, nth_error ecs j = Some ec /\ (b = true <-> near_hull 2 tol ec (fst pk))) (snd pk) row)
      (combine points neighbours) M.
Proof.
  intros points ecs neighbours tol HP HE HL HN.
  destruct (knn_gen tol (glob_to_nat_tri Floating) (near_hull 2 tol) ecs points neighbours) as (nat & E & F); [|assumption|assumption|].
  - intros p j ec Hp Hj. rewrite Forall_forall in HP, HE.
    destruct (nat_ccw_cell ec p) as (l & El & HW & HU); [apply HE; now apply nth_error_In with j|now apply HP|].
    exists l. split; [assumption|]. now apply inside_near.
  - unfold pip_tri_bulk_knn, glob_to_nat_tri_bulk_knn. rewrite E. eexists. split; [reflexivity|assumption].
Qed.
Lemma nat_clockwise_of : forall a b c p l0 l1 l2, has_dim 2 a -> has_dim 2 b -> has_dim 2 c -> has_dim 2 p -> clockwise a b c ->
  weights_of 2 [l0; l1; l2] [a; b; c] p -> glob_to_nat_tri Floating p [a; b; c] = Ok [- l0; - l1; 1 + l0 + l1].
Proof.
  intros a b c p l0 l1 l2 Ha Hb Hc Hp H HW. assert (H0 : signed_area a b c <> 0) by (unfold clockwise in H; lra).
  destruct (nat_clockwise a b c p Ha Hb Hc Hp H) as (m0 & m1 & m2 & HM & EM).
  pose proof (weights_unique _ _ _ _ _ H0 HM) as G1. rewrite <- (weights_unique _ _ _ _ _ H0 HW) in G1. injection G1 as -> -> ->. exact EM.
Qed.
(** clockwise triangles: the points inside are not found *)
Lemma pip_clockwise_wrong : forall a b c tol, has_dim 2 a -> has_dim 2 b -> has_dim 2 c -> clockwise a b c -> 0 < tol <= 1 / 3 ->
  exists p, in_hull 2 [a; b; c] p /\ pip_tri_bulk Floating [p] [[a; b; c]] tol = Ok [[false]].
Proof.
  intros a b c tol Ha Hb Hc H Ht.
  set (p := [weighted [1/3; 1/3; 1/3] [a; b; c] 0; weighted [1/3; 1/3; 1/3] [a; b; c] 1]).
  assert (HW : weights_of 2 [1/3; 1/3; 1/3] [a; b; c] p).
  { split; [reflexivity|]. split; [cbn [fold_right]; lra|]. intros d Hd. destruct d as [|[|]]; [reflexivity|reflexivity|lia]. }
  exists p. split; [exists [1/3; 1/3; 1/3]; split; [assumption|repeat constructor; lra]|].
  assert (E : glob_to_nat_tri Floating p [a; b; c] = Ok [- (1/3); - (1/3); 1 + 1/3 + 1/3])
    by (apply (nat_clockwise_of a b c p (1/3) (1/3) (1/3)); try assumption; unfold has_dim, p; cbn; lia).
  unfold pip_tri_bulk, glob_to_nat_tri_bulk. cbn [mapM]. rewrite E. cbn [bind].
  destruct (inside tol [- (1/3); - (1/3); 1 + 1/3 + 1/3]) eqn:Ei.
  - apply inside_spec in Ei. inversion Ei as [|? ? G]. lra.
  - unfold pip_of_nat. cbn [map]. rewrite Ei. reflexivity.
Qed.
