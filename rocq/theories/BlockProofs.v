(** * Proofs about [BlockModel.v]: points of selected cells *)
From Coq Require Import Reals Lra Lia List Arith.
From Verif Require Import BlockModel BlockSpec BaseFacts TrModel TrProofs CellsModel LocProofs3 LocProofs4 LocProofs9.
Import ListNotations.
Local Open Scope R_scope.

Lemma isin_filter cells ids : isin cells ids = filter (fun c => if in_dec Nat.eq_dec c ids then true else false) cells.
Proof.
  unfold isin. apply filter_ext. intros c. destruct (in_dec Nat.eq_dec c ids) as [H|H].
  - apply existsb_exists. exists c. split; [assumption|apply Nat.eqb_refl].
  - destruct (existsb (Nat.eqb c) ids) eqn:E; [|reflexivity]. apply existsb_exists in E. destruct E as (y & Hy & E). apply Nat.eqb_eq in E. now subst.
Qed.
Lemma isin_In c cells ids : In c (isin cells ids) <-> In c cells /\ In c ids.
Proof. rewrite isin_filter, filter_In. destruct (in_dec Nat.eq_dec c ids); intuition discriminate. Qed.

Lemma pcoords_n shp ecoords : pcoords_to_coords_n (length shp) ecoords shp = pcoords_to_coords ecoords shp.
Proof.
  unfold pcoords_to_coords_n, pcoords_to_coords. apply mapM_ext. intros ec _.
  set (f := fun s => foldM (fun acc iNE => do p <- get ec iNE; do w <- get s iNE; vadd acc (vscale w p)) (seq 0 (length ec)) (repeat 0 (ncols ec))).
  change (mapM (fun iP => do s <- get shp iP; f s) (seq 0 (length shp)) = mapM f shp). clearbody f.
  assert (G : forall pre, mapM (fun iP => do s <- get (pre ++ shp) iP; f s) (seq (length pre) (length shp)) = mapM f shp).
  { induction shp as [|s shp IH]; intros pre; [reflexivity|]. cbn [length seq mapM].
    assert (E : get (pre ++ s :: shp) (length pre) = Ok s) by (apply get_Ok; rewrite nth_error_app2, Nat.sub_diag by lia; reflexivity).
    rewrite E. cbn [bind]. specialize (IH (pre ++ [s])). rewrite <- app_assoc in IH. cbn [app] in IH. rewrite app_length, Nat.add_1_r in IH. now rewrite IH. }
  exact (G []).
Qed.
Lemma rows_chosen coords topo ecs ids cells :
  mesh_at coords topo ecs -> numbered topo ids ->
  exists t r, mapM (get topo) (isin cells ids) = Ok t /\ mesh_at coords t r /\ chosen ids cells ecs r.
Proof.
  intros HM HN. unfold chosen. rewrite <- isin_filter.
  assert (G : forall l, (forall c, In c l -> (c < length topo)%nat) -> exists t r, mapM (get topo) l = Ok t /\ mesh_at coords t r /\ Forall2 (fun c ec => nth_error ecs c = Some ec) l r).
  { induction l as [|c l IH]; intros Hl; [exists [], []; repeat split; constructor|]. destruct IH as (t & r & E & Ht & Hr); [intros x Hx; apply Hl; now right|].
    destruct (nth_error_lt topo c) as (ns & Hns); [apply Hl; now left|]. destruct (Forall2_nth_error _ _ _ _ _ HM Hns) as (ec & Hec & HD).
    exists (ns :: t), (ec :: r). cbn [mapM]. rewrite (proj2 (get_Ok _ _ _) Hns). cbn [bind]. rewrite E. split; [reflexivity|]. split; constructor; assumption. }
  destruct (G (isin cells ids)) as (t & r & E & Ht & Hr). { intros c Hc. apply isin_In in Hc. now apply HN. }
  exists t, r. split; [assumption|]. split; [assumption|]. exists (isin cells ids). auto.
Qed.
Lemma selection_some ids cells : Exists (fun c => In c ids) cells -> selection ids (Some cells) = Ok (Some (isin cells ids)).
Proof.
  intros H. unfold selection. apply Exists_exists in H. destruct H as (c & Hc & Hi). assert (HI : In c (isin cells ids)) by now apply isin_In.
  destruct (isin cells ids) as [|x l]; [easy|reflexivity].
Qed.

(** all cells *)
Lemma points_all : forall shpfnc coords topo ecs ids x n d, mesh_at coords topo ecs -> rect n topo -> rect d coords -> (0 < n)%nat ->
  (forall p, In p x -> exists N, shpfnc p = Ok N /\ length N = n) ->
  points_of_cells shpfnc coords topo ids None None = Ok ecs /\
  exists r, points_of_cells shpfnc coords topo ids (Some x) None = Ok r /\
    Forall2 (fun ec rows => Forall2 (fun p v => dim d v /\ forall a, (a < d)%nat -> at_ a v = position shpfnc ec a p) x rows) ecs r.
Proof.
  intros shpfnc coords topo ecs ids x n d HM Hn Hd H0 HS. unfold points_of_cells. cbn [selection picked_rows bind]. rewrite (proj1 (mesh_mapM _ _ _) HM). split; [reflexivity|].
  destruct (points_at_correct shpfnc coords topo ecs x n d HM Hn Hd H0 HS) as (r & E & F). exists r. split; [|exact F].
  unfold points_of_cells_at in E. rewrite (proj1 (mesh_mapM _ _ _) HM) in E. cbn [bind] in *. destruct (mapM shpfnc x) as [shp|e] eqn:Es; [|discriminate]. cbn [bind] in *.
  rewrite <- (mapM_length _ _ _ Es). destruct (Nat.eqb (length shp) 3); cbn [bind]; now rewrite pcoords_n.
Qed.
(** selected cells *)
Lemma points_cells : forall shpfnc coords topo ecs ids cells, mesh_at coords topo ecs -> numbered topo ids -> Exists (fun c => In c ids) cells ->
  exists r, points_of_cells shpfnc coords topo ids None (Some cells) = Ok r /\ chosen ids cells ecs r.
Proof.
  intros shpfnc coords topo ecs ids cells HM HN HE. destruct (rows_chosen coords topo ecs ids cells HM HN) as (t & r & E & Ht & Hr). exists r. split; [|assumption].
  unfold points_of_cells. rewrite selection_some by assumption. cbn [picked_rows bind]. rewrite E. cbn [bind]. now rewrite (proj1 (mesh_mapM _ _ _) Ht).
Qed.
Lemma points_cells_at : forall shpfnc coords topo ecs ids cells x n d, mesh_at coords topo ecs -> rect n topo -> rect d coords -> (0 < n)%nat ->
  numbered topo ids -> Exists (fun c => In c ids) cells -> (forall p, In p x -> exists N, shpfnc p = Ok N /\ length N = n) -> length x <> 3%nat ->
  exists sel r, points_of_cells shpfnc coords topo ids (Some x) (Some cells) = Ok r /\ chosen ids cells ecs sel /\
    Forall2 (fun ec rows => Forall2 (fun p v => dim d v /\ forall a, (a < d)%nat -> at_ a v = position shpfnc ec a p) x rows) sel r.
Proof.
  intros shpfnc coords topo ecs ids cells x n d HM Hn Hd H0 HN HE HS Hx. destruct (rows_chosen coords topo ecs ids cells HM HN) as (t & sel & E & Ht & Hr).
  assert (Hnt : rect n t). { apply Forall_forall. intros ns Hns. apply In_nth_error in Hns. destruct Hns as (i & Hi). destruct (mapM_nth_error_r _ _ _ _ _ E Hi) as (c & _ & Ec). apply get_Ok in Ec. unfold rect in Hn. rewrite Forall_forall in Hn. apply Hn. now apply nth_error_In with c. }
  destruct (points_at_correct shpfnc coords t sel x n d Ht Hnt Hd H0 HS) as (r & Er & F). exists sel, r. split; [|split; assumption].
  unfold points_of_cells. rewrite selection_some by assumption. cbn [picked_rows bind]. rewrite E. cbn [bind]. unfold points_of_cells_at in Er.
  rewrite (proj1 (mesh_mapM _ _ _) Ht) in *. cbn [bind] in *. destruct (mapM shpfnc x) as [shp|e] eqn:Es; [|discriminate]. cbn [bind] in *.
  pose proof (mapM_length _ _ _ Es) as HL. replace (Nat.eqb (length shp) 3) with false by (symmetry; apply Nat.eqb_neq; congruence). cbn [bind]. rewrite <- HL. now rewrite pcoords_n.
Qed.
Lemma points_unknown : forall shpfnc coords topo ids cells points, Forall (fun c => ~ In c ids) cells ->
  points_of_cells shpfnc coords topo ids points (Some cells) = Err AssertionError.
Proof.
  intros shpfnc coords topo ids cells points HF. unfold points_of_cells, selection. assert (E : isin cells ids = []).
  { destruct (isin cells ids) as [|c l] eqn:E; [reflexivity|]. assert (H : In c (isin cells ids)) by (rewrite E; now left). apply isin_In in H. rewrite Forall_forall in HF. destruct H as [H1 H2]. now apply HF in H1. }
  rewrite E. reflexivity.
Qed.
(** the index of a cell is used as a position *)
Lemma points_position : forall shpfnc coords topo ecs ids c, mesh_at coords topo ecs -> In c ids ->
  points_of_cells shpfnc coords topo ids None (Some [c]) = match nth_error ecs c with Some ec => Ok [ec] | None => Err IndexError end.
Proof.
  intros shpfnc coords topo ecs ids c HM Hc. unfold points_of_cells. rewrite selection_some by (now constructor). cbn [picked_rows bind]. unfold isin. cbn [filter].
  replace (existsb (Nat.eqb c) ids) with true by (symmetry; apply existsb_exists; exists c; split; [assumption|apply Nat.eqb_refl]). cbn [mapM]. unfold get at 1.
  destruct (nth_error topo c) as [ns|] eqn:E.
  - destruct (Forall2_nth_error _ _ _ _ _ HM E) as (ec & Hec & HD). rewrite Hec. cbn [bind]. unfold cells_coords. cbn [mapM]. rewrite (proj1 (nodes_mapM _ _ _) HD). reflexivity.
  - cbn [bind]. destruct (nth_error ecs c) eqn:E2; [|reflexivity]. assert (H1 : (length topo <= c)%nat) by now apply nth_error_None. assert (H2 : (c < length ecs)%nat) by (apply nth_error_Some; congruence). rewrite (mesh_length _ _ _ HM) in H2. lia.
Qed.
(** cells that belong to a larger mesh: their indices start at another number *)
Lemma points_ids : exists coords topo ecs ids, mesh_at coords topo ecs /\ length ids = length topo /\ NoDup ids /\
  forall shpfnc : list R -> res (list R), nth_error ids 0 = Some 1%nat /\ points_of_cells shpfnc coords topo ids None (Some [1%nat]) = Ok [nth 1 ecs []] /\ nth 1 ecs [] <> nth 0 ecs [] /\
    nth_error ids 1 = Some 2%nat /\ points_of_cells shpfnc coords topo ids None (Some [2%nat]) = Err IndexError.
Proof.
  exists [[0]; [1]; [3]], [[0; 1]; [1; 2]]%nat, [[[0]; [1]]; [[1]; [3]]], [1; 2]%nat.
  assert (HM : mesh_at [[0]; [1]; [3]] [[0; 1]; [1; 2]]%nat [[[0]; [1]]; [[1]; [3]]]) by (repeat constructor).
  split; [exact HM|]. split; [reflexivity|]. split; [repeat constructor; cbn; intuition lia|]. intros shpfnc.
  split; [reflexivity|]. split; [rewrite (points_position _ _ _ _ _ _ HM) by (cbn; auto); reflexivity|]. split; [cbn; intros E; injection E; intros; lra|]. split; [reflexivity|].
  rewrite (points_position _ _ _ _ _ _ HM) by (cbn; auto). reflexivity.
Qed.
(** three positions: rows of the values of the shape functions are selected like the cells *)
Lemma get_err {A} (l : list A) is e : mapM (get l) is = Err e -> e = IndexError.
Proof.
  induction is as [|i is IH]; cbn [mapM]; [discriminate|]. unfold get at 1. destruct (nth_error l i); cbn [bind]; [|now intros [= <-]].
  destruct (mapM (get l) is); cbn [bind]; [discriminate|]. intros [= ->]. now apply IH.
Qed.
Lemma points_three_few : forall shpfnc coords topo ecs ids cells x n d, mesh_at coords topo ecs -> rect n topo -> rect d coords -> (0 < n)%nat ->
  numbered topo ids -> Exists (fun c => In c ids) cells -> (forall p, In p x -> exists N, shpfnc p = Ok N /\ length N = n) ->
  length x = 3%nat -> (length cells < 3)%nat -> points_of_cells shpfnc coords topo ids (Some x) (Some cells) = Err IndexError.
Proof.
  intros shpfnc coords topo ecs ids cells x n d HM Hn Hd H0 HN HE HS Hx Hk. destruct (rows_chosen coords topo ecs ids cells HM HN) as (t & sel & E & Ht & (kept & Hsel & Ek)). rewrite <- isin_filter in Ek. subst kept.
  assert (Hk' : (length (isin cells ids) < 3)%nat). { assert (G : forall l, (length (isin l ids) <= length l)%nat) by (intros l; unfold isin; induction l as [|y l IH]; cbn [filter length]; [lia|]; destruct (existsb (Nat.eqb y) ids); cbn [length]; lia). specialize (G cells). lia. }
  unfold points_of_cells. rewrite selection_some by assumption. cbn [picked_rows bind]. rewrite E. cbn [bind]. rewrite (proj1 (mesh_mapM _ _ _) Ht). cbn [bind].
  destruct (mapM_total shpfnc x) as (shp & Es). { intros p Hp. destruct (HS p Hp) as (N & EN & _). eauto. }
  rewrite Es. cbn [bind]. pose proof (mapM_length _ _ _ Es) as HLs. rewrite HLs, Hx. cbn [Nat.eqb].
  assert (HI : isin cells ids <> []). { apply Exists_exists in HE. destruct HE as (c & H1 & H2). assert (H : In c (isin cells ids)) by now apply isin_In. intros G. now rewrite G in H. }
  destruct (mapM (get shp) (isin cells ids)) as [rows|e] eqn:Er; cbn [bind]; [|now rewrite (get_err _ _ _ Er)].
  assert (Hr : length rows = length (isin cells ids)) by (eapply mapM_length; eauto).
  assert (HR : Forall (fun N => length N = n) rows).
  { apply Forall_forall. intros N HNn. apply In_nth_error in HNn. destruct HNn as (i & Hi). destruct (mapM_nth_error_r _ _ _ _ _ Er Hi) as (c & _ & Ec). apply get_Ok in Ec. destruct (mapM_nth_error_r _ _ _ _ _ Es Ec) as (p & Hp & EN).
    destruct (HS p (nth_error_In _ _ Hp)) as (N' & EN' & L). congruence. }
  unfold pcoords_to_coords_n. inversion Hsel as [Hz Hz'|c ec kept sel' Hc Hsel' Hz Hz']; [congruence|]. cbn [mapM].
  assert (Hec : In ec ecs) by now apply nth_error_In with c. destruct (mesh_cells _ _ _ _ _ HM Hd Hn ec Hec) as (HL & HRe). assert (HNe : ec <> []) by (intros ->; cbn in HL; lia).
  assert (V : forall N, length N = n -> exists v, foldM (fun acc iNE => do p <- get ec iNE; do w <- get N iNE; vadd acc (vscale w p)) (seq 0 (length ec)) (repeat 0 (ncols ec)) = Ok v).
  { intros N HNn. destruct (comb_value d ec N ltac:(congruence) HRe HNe) as (v & Ev & _). eauto. }
  destruct rows as [|N0 [|N1 [|N2 rows]]]; cbn [length] in Hr; try lia.
  - destruct (isin cells ids); [easy|discriminate].
  - inversion HR as [|? ? L0 HR']; subst. destruct (V N0 L0) as (v0 & E0). cbn [seq mapM]. unfold get at 1. cbn [nth_error bind]. rewrite E0. reflexivity.
  - inversion HR as [|? ? L0 HR']; subst. inversion HR' as [|? ? L1 HR'']; subst. destruct (V N0 L0) as (v0 & E0). destruct (V N1 L1) as (v1 & E1).
    cbn [seq mapM]. unfold get at 1. cbn [nth_error bind]. rewrite E0. cbn [bind]. unfold get at 1. cbn [nth_error bind]. rewrite E1. reflexivity.
Qed.
(** three cells: the positions are taken in another order *)
Lemma points_three_swapped : exists coords topo ecs ids cells x r, mesh_at coords topo ecs /\ rect 3 topo /\ rect 2 coords /\ numbered topo ids /\ length x = 3%nat /\
  points_of_cells (shp_T3 (K := R)) coords topo ids (Some x) (Some cells) = Ok r /\
  exists ec rows v, nth_error r 0 = Some rows /\ (exists c, nth_error cells 0 = Some c /\ nth_error ecs c = Some ec) /\ nth_error rows 0 = Some v /\
    at_ 0 v <> position (shp_T3 (K := R)) ec 0 (nth 0 x []).
Proof.
  exists [[0; 0]; [1; 0]; [0; 1]], [[0; 1; 2]; [0; 1; 2]; [0; 1; 2]]%nat, (repeat [[0; 0]; [1; 0]; [0; 1]] 3), [0; 1; 2]%nat, [1; 0; 2]%nat, [[0; 0]; [1; 0]; [0; 1]].
  eexists. split; [repeat constructor|]. split; [repeat constructor|]. split; [repeat constructor|]. split; [intros i; cbn; lia|]. split; [reflexivity|]. split.
  - unfold points_of_cells, selection, isin. cbn [filter existsb Nat.eqb orb length Nat.ltb Nat.leb guard bind picked_rows mapM get nth_error cells_coords shp_T3].
    lazy -[Rplus Rmult Ropp Rminus IZR]. reflexivity.
  - do 3 eexists. split; [reflexivity|]. split; [exists 1%nat; split; reflexivity|]. split; [reflexivity|]. unfold position, at_. lazy -[Rplus Rmult Ropp Rminus IZR]. lra.
Qed.
