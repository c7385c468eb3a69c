(** * Proofs about [BlockModel.v], part 3: determinants of the Jacobian, points of blocks, simplices *)
From Coq Require Import Reals Lra Lia List Arith Sorting.Sorted.
From Verif Require Import QuadProofs4 QuadProofs2 NodalProofs8 TopoProofs3 TopoProofs5.
From Verif Require Import BaseFacts TrModel TrProofs TriProofs TriProofs2 TriProofs3 TriProofs6 LocProofs3 LocProofs4 LocProofs9 LocProofs10 ShapeProofs2 ShapeProofs3 ShapeProofs4 QuadProofs5 NodalProofs4 SpaceProofs ShapeProofs BlockModel BlockSpec BlockProofs BlockProofs2.
Import ListNotations.
Local Open Scope R_scope.

(** ** the matrices *)
Lemma list_at (v : list R) n f : length v = n -> (forall a, at_ a v = f a) -> v = map f (seq 0 n).
Proof.
  intros L H. apply (nth_ext _ _ 0 0); [now rewrite map_length, seq_length|]. intros a Ha. rewrite L in Ha. rewrite (nth_indep (map f (seq 0 n)) 0 (f 0%nat)) by (rewrite map_length, seq_length; assumption).
  rewrite map_nth, seq_nth by assumption. apply H.
Qed.
Definition matrix (nD : nat) (D ec : list (list R)) : list (list R) := map (fun d => map (fun a => dot (column D d) (column ec a)) (seq 0 nD)) (seq 0 nD).
Lemma matrices nD n ds ecs : (0 < n)%nat -> Forall (fun D => length D = n /\ rect nD D) ds -> Forall (fun ec => length ec = n /\ rect nD ec) ecs ->
  jacobian_matrix_bulk nD ds ecs = Ok (map (fun ec => map (fun D => matrix nD D ec) ds) ecs).
Proof.
  intros Hn HD HE. unfold jacobian_matrix_bulk. apply mapM_map. intros ec Hec. rewrite Forall_forall in HE. destruct (HE ec Hec) as [Le Re]. assert (HN : ec <> []) by (intros ->; cbn in Le; lia).
  apply mapM_map. intros D HDi. rewrite Forall_forall in HD. destruct (HD D HDi) as [LD RD]. apply mapM_map. intros d Hd. apply in_seq in Hd. rewrite (rect_ncols nD ec Re HN), Nat.eqb_refl. cbn [guard bind].
  rewrite (get_column D nD) by (assumption || lia). cbn [bind]. destruct (vecmat_value nD (column D d) ec) as (v & Ev & Lv & Nv); [unfold column; rewrite map_length; congruence|assumption|assumption|].
  rewrite Ev. f_equal. apply list_at; [assumption|]. exact Nv.
Qed.
(** combinations of the coordinates for an axis *)
Lemma dot_part e c : forall (w : list R) (ec : list (list R)), length w = length ec ->
  dot w (map (part e c) ec) = px e * dot w (column ec 0) + py e * dot w (column ec 1) + pz e * dot w (column ec 2) - (px e * px c + py e * py c + pz e * pz c) * rsum w.
Proof.
  induction w as [|x w IH]; intros [|p ec] H; try discriminate H; [unfold dot, rsum; cbn; ring|]. injection H as H. specialize (IH ec H). unfold dot, column, rsum in *. cbn [map combine fold_right fst snd]. rewrite IH. unfold part, px, py, pz, at_. ring.
Qed.
Lemma column_local fr c ec k e : nth_error fr k = Some e -> column (map (local_at fr c) ec) k = map (part e c) ec.
Proof. intros H. unfold column. rewrite map_map. apply map_ext. intros p. unfold local_at. apply nth_error_nth. now rewrite nth_error_map, H. Qed.
Lemma column_first2 rows k : (k < 2)%nat -> column (map (firstn 2) rows) k = column rows k.
Proof. intros H. unfold column. rewrite map_map. apply map_ext. intros p. destruct p as [|x [|y p]], k as [|[|]]; try reflexivity; lia. Qed.
Definition slope (D ec : list (list R)) (d : nat) : list R := [dot (column D d) (column ec 0); dot (column D d) (column ec 1); dot (column D d) (column ec 2)].
Lemma slope_at D ec d a : (a < 3)%nat -> at_ a (slope D ec d) = dot (column D d) (column ec a).
Proof. destruct a as [|[|[|]]]; [reflexivity|reflexivity|reflexivity|lia]. Qed.
Lemma dot_axis D ec d e c : length D = length ec -> rsum (column D d) = 0 ->
  dot (column D d) (map (part e c) ec) = px e * px (slope D ec d) + py e * py (slope D ec d) + pz e * pz (slope D ec d).
Proof. intros HL H0. rewrite dot_part by (unfold column; rewrite map_length; assumption). rewrite H0. unfold px, py, pz. rewrite !slope_at by lia. ring. Qed.
Lemma det_solid D ec a b n c : length D = length ec -> right_handed a b n -> (forall d, (d < 3)%nat -> rsum (column D d) = 0) ->
  det (matrix 3 D (map (local_at [a; b; n] c) ec)) = Ok (map_det (slope D ec 0) (slope D ec 1) (slope D ec 2)).
Proof.
  intros HL HR H0. unfold matrix. cbn [seq map]. rewrite (column_local _ c ec 0 a), (column_local _ c ec 1 b), (column_local _ c ec 2 n) by reflexivity. rewrite !dot_axis by (assumption || (apply H0; lia)).
  cbn [det]. f_equal. destruct HR as (_ & _ & _ & _ & _ & _ & _ & _ & _ & HD). generalize (slope D ec 0), (slope D ec 1), (slope D ec 2). intros u v w.
  transitivity (map_det a b n * map_det u v w); [|rewrite HD; ring]. unfold map_det. ring.
Qed.
Lemma det_surface D ec a b n c : length D = length ec -> right_handed a b n -> (forall d, (d < 2)%nat -> rsum (column D d) = 0) ->
  det (matrix 2 D (map (firstn 2) (map (local_at [a; b; n] c) ec))) = Ok (map_det n (slope D ec 0) (slope D ec 1)).
Proof.
  intros HL HR H0. unfold matrix. cbn [seq map]. rewrite !column_first2 by lia. rewrite (column_local _ c ec 0 a), (column_local _ c ec 1 b) by reflexivity. rewrite !dot_axis by (assumption || (apply H0; lia)).
  cbn [det]. f_equal. destruct (rh_cross _ _ _ HR) as [HX _]. unfold cross3 in HX. generalize (slope D ec 0), (slope D ec 1). intros u v. subst n. unfold map_det, px, py, pz, at_. cbn [nth]. ring.
Qed.
Lemma derivs dim n shp dshp pts ds : differentiates dim n shp dshp -> derivatives_cancel dim dshp -> rect dim pts -> mapM dshp pts = Ok ds ->
  Forall (fun D => length D = n /\ rect dim D /\ forall d, (d < dim)%nat -> rsum (column D d) = 0) ds.
Proof.
  intros HD HB HP E. apply Forall_forall. intros D HDi. apply In_nth_error in HDi. destruct HDi as (i & Hi). destruct (mapM_nth_error_r _ _ _ _ _ E Hi) as (p & Hp & Ep).
  assert (Lp : length p = dim) by (unfold rect in HP; rewrite Forall_forall in HP; apply HP; now apply nth_error_In with i).
  destruct (HD p Lp) as (D1 & E1 & L1 & R1 & _). destruct (HB p Lp) as (D2 & E2 & B2). rewrite Ep in E1, E2. injection E1 as <-. injection E2 as <-. auto.
Qed.
Lemma cells_len coords topo ecs n ec : mesh_at coords topo ecs -> rect 3 coords -> rect n topo -> In ec ecs -> length ec = n /\ rect 3 ec.
Proof.
  intros HM HC HT Hi. apply In_nth_error in Hi. destruct Hi as (i & Hi). destruct (Forall2_nth_error_r _ _ _ _ _ HM Hi) as (ns & Hns & HD). split.
  - unfold rect in HT. rewrite Forall_forall in HT. rewrite <- (HT ns) by now apply nth_error_In with i. symmetry. exact (Forall2_len _ _ _ HD).
  - apply Forall_forall. intros p Hp. apply In_nth_error in Hp. destruct Hp as (j & Hj). destruct (Forall2_nth_error_r _ _ _ _ _ HD Hj) as (m & _ & Hnp). unfold rect in HC. rewrite Forall_forall in HC. apply HC. now apply nth_error_In with m.
Qed.
Lemma rect_some n (topo : list (list nat)) : (0 < n)%nat -> rect n topo -> Forall (fun ns => ns <> []) topo.
Proof. intros Hn HT. eapply Forall_impl; [|exact HT]. cbn. intros ns H ->. cbn in H. lia. Qed.
Definition turned (fr : list (list R)) : Prop := exists a b c, fr = [a; b; c] /\ right_handed a b c.
Lemma turned_axes fr : turned fr -> solid_axes fr.
Proof. intros (a & b & c & -> & Ha & Hb & Hc & _). split; [reflexivity|]. repeat constructor; assumption. Qed.
Lemma mapM_mapM_det f (F : list (list R) -> list (list R) -> list (list R)) ds (ecs : list (list (list R))) :
  (forall ec D, In ec ecs -> In D ds -> det (F ec D) = Ok (f ec D)) -> mapM (mapM det) (map (fun ec => map (F ec) ds) ecs) = Ok (map (fun ec => map (f ec) ds) ecs).
Proof.
  intros H. induction ecs as [|ec ecs IH]; [reflexivity|]. cbn [map mapM]. assert (E : mapM det (map (F ec) ds) = Ok (map (f ec) ds)).
  { clear IH. assert (G : forall D, In D ds -> det (F ec D) = Ok (f ec D)) by (intros; apply H; [now left|assumption]). clear H. induction ds as [|D ds IH]; [reflexivity|]. cbn [map mapM]. rewrite G by now left. cbn [bind]. rewrite IH by (intros; apply G; now right). reflexivity. }
  rewrite E. cbn [bind]. rewrite IH by (intros; apply H; [now right|assumption]). reflexivity.
Qed.
Lemma solid_value n shp dshp pts ds coords topo ecs frames : differentiates 3 n shp dshp -> derivatives_cancel 3 dshp -> (0 < n)%nat -> rect 3 pts -> mapM dshp pts = Ok ds ->
  mesh_at coords topo ecs -> rect 3 coords -> rect n topo -> Forall turned frames -> length frames = length topo ->
  jacobian 3 (block_coordinates coords topo (PerCell frames)) None (Some ds) = Ok (map (fun ec => map (fun D => map_det (slope D ec 0) (slope D ec 1) (slope D ec 2)) ds) ecs).
Proof.
  intros HD HB Hn HP Hds HM HC HT HF HL. pose proof (derivs _ _ _ _ _ _ HD HB HP Hds) as HV. rewrite Forall_forall in HV.
  assert (HS : Forall solid_axes frames) by (eapply Forall_impl; [|exact HF]; apply turned_axes).
  unfold jacobian. rewrite (local_of coords topo ecs frames HM HC (rect_some n topo Hn HT) HS HL). cbn [bind].
  rewrite (matrices 3 n); [|assumption|apply Forall_forall; intros D Hi; destruct (HV D Hi) as (H1 & H2 & _); auto|].
  2:{ apply Forall_forall. intros rows Hr. apply in_map_iff in Hr. destruct Hr as ((fr & ec) & <- & Hi). cbn [fst snd]. pose proof (in_combine_l _ _ _ _ Hi) as Hif. apply in_combine_r in Hi. destruct (cells_len _ _ _ _ _ HM HC HT Hi) as [Le _]. split; [now rewrite map_length|].
      apply Forall_forall. intros q Hq. apply in_map_iff in Hq. destruct Hq as (p & <- & _). unfold local_at. rewrite map_length. rewrite Forall_forall in HS. exact (proj1 (HS fr Hif)). }
  cbn [bind]. rewrite map_map. pose proof (fun ec => cells_len _ _ _ n ec HM HC HT) as HCL. assert (HLe : length frames = length ecs) by (rewrite (mesh_length _ _ _ HM); assumption). clear HM HC HT HL HS Hds HP. revert frames HF HLe.
  induction ecs as [|ec ecs IH]; intros [|fr frames] HF HLe; try discriminate HLe; [reflexivity|]. inversion HF as [|? ? (a & b & c & -> & Hrh) HF']; subst. injection HLe as HLe. cbn [combine map mapM fst snd].
  assert (E : mapM det (map (fun D => matrix 3 D (map (local_at [a; b; c] (means 3 ec)) ec)) ds) = Ok (map (fun D => map_det (slope D ec 0) (slope D ec 1) (slope D ec 2)) ds)).
  { generalize (means 3 ec). intros o. destruct (HCL ec (or_introl eq_refl)) as [Le _]. clear - HV Hrh Le. induction ds as [|D ds IH]; [reflexivity|]. cbn [map mapM]. destruct (HV D (or_introl eq_refl)) as (H1 & _ & H3). rewrite det_solid by (congruence || assumption). cbn [bind]. rewrite IH by (intros; apply HV; now right). reflexivity. }
  rewrite E. cbn [bind]. rewrite IH; [reflexivity|intros; apply HCL; [now right]|assumption|assumption].
Qed.
Lemma surface_value n shp dshp pts ds coords topo ecs frames : differentiates 2 n shp dshp -> derivatives_cancel 2 dshp -> (0 < n)%nat -> rect 2 pts -> mapM dshp pts = Ok ds ->
  mesh_at coords topo ecs -> rect 3 coords -> rect n topo -> Forall turned frames -> length frames = length topo ->
  jacobian 2 (block_coordinates_2d coords topo (PerCell frames)) None (Some ds) = Ok (map (fun fe => map (fun D => map_det (nth 2 (fst fe) []) (slope D (snd fe) 0) (slope D (snd fe) 1)) ds) (combine frames ecs)).
Proof.
  intros HD HB Hn HP Hds HM HC HT HF HL. pose proof (derivs _ _ _ _ _ _ HD HB HP Hds) as HV. rewrite Forall_forall in HV.
  assert (HS : Forall solid_axes frames) by (eapply Forall_impl; [|exact HF]; apply turned_axes).
  unfold jacobian, block_coordinates_2d. rewrite (local_of coords topo ecs frames HM HC (rect_some n topo Hn HT) HS HL). cbn [bind].
  rewrite (matrices 2 n); [|assumption|apply Forall_forall; intros D Hi; destruct (HV D Hi) as (H1 & H2 & _); auto|].
  2:{ apply Forall_forall. intros rows Hr. rewrite map_map in Hr. apply in_map_iff in Hr. destruct Hr as ((fr & ec) & <- & Hi). cbn [fst snd]. pose proof (in_combine_l _ _ _ _ Hi) as Hif. apply in_combine_r in Hi. destruct (cells_len _ _ _ _ _ HM HC HT Hi) as [Le _]. split; [now rewrite !map_length|].
      apply Forall_forall. intros q Hq. rewrite map_map in Hq. apply in_map_iff in Hq. destruct Hq as (p & <- & _). rewrite firstn_length. unfold local_at. rewrite map_length. rewrite Forall_forall in HS. rewrite (proj1 (HS fr Hif)). reflexivity. }
  cbn [bind]. rewrite !map_map. pose proof (fun ec => cells_len _ _ _ n ec HM HC HT) as HCL. assert (HLe : length frames = length ecs) by (rewrite (mesh_length _ _ _ HM); assumption). clear HM HC HT HL HS Hds HP. revert frames HF HLe.
  induction ecs as [|ec ecs IH]; intros [|fr frames] HF HLe; try discriminate HLe; [reflexivity|]. inversion HF as [|? ? (a & b & c & -> & Hrh) HF']; subst. injection HLe as HLe. cbn [combine map mapM fst snd].
  assert (E : mapM det (map (fun D => matrix 2 D (map (firstn 2) (map (local_at [a; b; c] (means 3 ec)) ec))) ds) = Ok (map (fun D => map_det (nth 2 [a; b; c] []) (slope D ec 0) (slope D ec 1)) ds)).
  { generalize (means 3 ec). intros o. destruct (HCL ec (or_introl eq_refl)) as [Le _]. clear - HV Hrh Le. induction ds as [|D ds IH]; [reflexivity|]. cbn [map mapM]. destruct (HV D (or_introl eq_refl)) as (H1 & _ & H3). rewrite det_surface by (congruence || assumption). cbn [bind]. rewrite IH by (intros; apply HV; now right). reflexivity. }
  rewrite E. cbn [bind]. rewrite IH; [reflexivity|intros; apply HCL; [now right]|assumption|assumption].
Qed.
Lemma slope_tangent dim n shp dshp ec p D d a : differentiates dim n shp dshp -> length ec = n -> length p = dim -> dshp p = Ok D -> (d < dim)%nat -> (a < 3)%nat ->
  derivable_pt_lim (fun x => position shp ec a (replace_nth d x p)) (nth d p 0) (at_ a (slope D ec d)).
Proof.
  intros HD Le Lp E Hd Ha. rewrite slope_at by assumption. pose proof (position_diff dim n shp dshp ec p a d HD Le Lp Hd) as PD. unfold QuadProofs4.entry, dvalues in PD. rewrite E in PD. rewrite dot_comm. exact PD.
Qed.
Lemma jacobian_solid : forall n shp dshp pts ds coords topo ecs frames, differentiates 3 n shp dshp -> derivatives_cancel 3 dshp -> (0 < n)%nat -> rect 3 pts -> mapM dshp pts = Ok ds ->
  mesh_at coords topo ecs -> rect 3 coords -> rect n topo -> Forall (fun fr => exists a b c, fr = [a; b; c] /\ right_handed a b c) frames -> length frames = length topo ->
  exists rows, jacobian 3 (block_coordinates coords topo (PerCell frames)) None (Some ds) = Ok rows /\
    Forall2 (fun ec row => Forall2 (fun p x => exists u v w, tangents3 shp ec p u v w /\ x = map_det u v w) pts row) ecs rows.
Proof.
  intros n shp dshp pts ds coords topo ecs frames HD HB Hn HP Hds HM HC HT HF HL. eexists. split; [exact (solid_value n shp dshp pts ds coords topo ecs frames HD HB Hn HP Hds HM HC HT HF HL)|].
  pose proof (fun ec => cells_len _ _ _ n ec HM HC HT) as HCL. clear HM HC HT HF HL. induction ecs as [|ec ecs IH]; constructor; [|apply IH; intros; apply HCL; now right].
  destruct (HCL ec (or_introl eq_refl)) as [Le _]. apply mapM_Ok in Hds. clear - HD HP Hds Le. induction Hds as [|p D pts ds E Hds IH]; constructor; inversion HP as [|? ? Hp HP']; subst; [|now apply IH].
  exists (slope D ec 0), (slope D ec 1), (slope D ec 2). split; [|reflexivity]. split; [split; [reflexivity|]; split; [reflexivity|]; intros a Ha; split|split; [reflexivity|]; intros a Ha]; eapply slope_tangent; eauto.
Qed.
Lemma jacobian_surface : forall n shp dshp pts ds coords topo ecs frames, differentiates 2 n shp dshp -> derivatives_cancel 2 dshp -> (0 < n)%nat -> rect 2 pts -> mapM dshp pts = Ok ds ->
  mesh_at coords topo ecs -> rect 3 coords -> rect n topo -> Forall (fun fr => exists a b c, fr = [a; b; c] /\ right_handed a b c) frames -> length frames = length topo ->
  exists rows, jacobian 2 (block_coordinates_2d coords topo (PerCell frames)) None (Some ds) = Ok rows /\ length rows = length topo /\
    forall i ec a b n row, nth_error ecs i = Some ec -> nth_error frames i = Some [a; b; n] -> nth_error rows i = Some row ->
      Forall2 (fun p x => exists u v, tangents shp ec p u v /\ x = map_det n u v /\
        ((exists h, in_plane n h ec) -> x * x = sprod u u * sprod v v - sprod u v * sprod u v)) pts row.
Proof.
  intros n shp dshp pts ds coords topo ecs frames HD HB Hn HP Hds HM HC HT HF HL. eexists. split; [exact (surface_value n shp dshp pts ds coords topo ecs frames HD HB Hn HP Hds HM HC HT HF HL)|].
  split; [rewrite map_length, combine_length, (mesh_length _ _ _ HM); lia|]. intros i ec a b m row Hec Hfr Hrow.
  rewrite nth_error_map, (combine_nth_error _ _ _ _ _ Hfr Hec) in Hrow. cbn [option_map fst snd nth] in Hrow. injection Hrow as <-.
  destruct (cells_len _ _ _ n ec HM HC HT (nth_error_In _ _ Hec)) as [Le Re]. assert (Hrh : right_handed a b m). { rewrite Forall_forall in HF. destruct (HF _ (nth_error_In _ _ Hfr)) as (a' & b' & m' & E & H). injection E as <- <- <-. exact H. }
  pose proof (derivs _ _ _ _ _ _ HD HB HP Hds) as HV. apply mapM_Ok in Hds. clear - HD HP Hds Le Re Hrh HV. induction Hds as [|p D pts ds E Hds IH]; constructor; inversion HP as [|? ? Hp HP']; inversion HV as [|? ? HV1 HV']; subst; [|now apply IH].
  exists (slope D ec 0), (slope D ec 1). split; [split; [reflexivity|]; split; [reflexivity|]; intros k Hk; split; eapply slope_tangent; eauto|]. split; [reflexivity|].
  intros (h & HI). destruct HV1 as (LD & _ & H0).
  assert (Z : forall d, (d < 2)%nat -> sprod m (slope D ec d) = 0).
  { intros d Hd. assert (Dm : dim 3 m) by (destruct Hrh as (_ & _ & H & _); exact H). assert (E' : dot (column D d) (map (fun q => sprod m q) ec) = sprod m (slope D ec d)).
    { pose proof (dot_axis D ec d m [0; 0; 0] ltac:(congruence) (H0 d Hd)) as X. transitivity (dot (column D d) (map (part m [0; 0; 0]) ec)).
      - f_equal. apply map_ext_in. intros q Hq. unfold rect in Re. rewrite Forall_forall in Re. destruct (dim3 _ Dm) as (m0 & m1 & m2 & ->), (dim3 _ (Re q Hq)) as (q0 & q1 & q2 & ->). unfold sprod, part, px, py, pz, at_. cbn [combine map fold_right fst snd nth]. ring.
      - rewrite X. destruct (dim3 _ Dm) as (m0 & m1 & m2 & ->). unfold slope, sprod, px, py, pz, at_. cbn [combine map fold_right fst snd nth]. ring. }
    rewrite <- E'. rewrite (map_ext_in _ (fun _ => h)) by (intros q Hq; now apply HI). specialize (H0 d Hd). assert (Lc : length (column D d) = length ec) by (unfold column; rewrite map_length; congruence). clear - H0 Lc.
    assert (G : forall (w : list R) (l : list (list R)), length w = length l -> dot w (map (fun _ => h) l) = h * rsum w). { induction w as [|x w IH]; intros [|y l] H; try discriminate H; [unfold dot, rsum; cbn; ring|]. injection H as H. specialize (IH l H). unfold dot, rsum in *. cbn [map combine fold_right fst snd]. rewrite IH. ring. }
    rewrite G by assumption. rewrite H0. ring. }
  pose proof (Z 0%nat ltac:(lia)) as Zu. pose proof (Z 1%nat ltac:(lia)) as Zv. clear Z. set (u := slope D ec 0) in *. set (v := slope D ec 1) in *. assert (Du : dim 3 u) by reflexivity. assert (Dv : dim 3 v) by reflexivity. clearbody u v.
  assert (HCt : cartesian [a; b; m]) by (destruct Hrh as (?&?&?&?&?&?&?&?&?&?); exists a, b, m; repeat split; assumption).
  assert (P : forall x y, dim 3 x -> dim 3 y -> sprod x y = sprod a x * sprod a y + sprod b x * sprod b y + sprod m x * sprod m y).
  { intros x y Hx Hy. pose proof (cart_expand a b m x HCt Hx) as X. pose proof (X 0%nat ltac:(lia)) as X0. pose proof (X 1%nat ltac:(lia)) as X1. pose proof (X 2%nat ltac:(lia)) as X2. clear X. destruct Hrh as (Ha & Hb & Hm & _).
    set (sa := sprod a x) in *. set (sb := sprod b x) in *. set (sm := sprod m x) in *. clearbody sa sb sm.
    destruct (dim3 _ Ha) as (a0 & a1 & a2 & ->), (dim3 _ Hb) as (b0 & b1 & b2 & ->), (dim3 _ Hm) as (m0 & m1 & m2 & ->), (dim3 _ Hx) as (x0 & x1 & x2 & ->), (dim3 _ Hy) as (y0 & y1 & y2 & ->).
    unfold sprod, at_ in *. cbn [combine map fold_right fst snd nth] in *. rewrite X0, X1, X2. ring. }
  rewrite (P u u Du Du), (P v v Dv Dv), (P u v Du Dv), Zu, Zv. destruct (rh_cross _ _ _ Hrh) as [HX _].
  assert (E1 : map_det m u v = sprod a u * sprod b v - sprod b u * sprod a v).
  { destruct Hrh as (Ha & Hb & _). rewrite HX. unfold cross3. clear P HX Zu Zv. destruct (dim3 _ Ha) as (a0 & a1 & a2 & ->), (dim3 _ Hb) as (b0 & b1 & b2 & ->), (dim3 _ Du) as (u0 & u1 & u2 & ->), (dim3 _ Dv) as (v0 & v1 & v2 & ->). unfold map_det, sprod, px, py, pz, at_. cbn [combine map fold_right fst snd nth]. ring. }
  rewrite E1. ring.
Qed.
(** triangles and tetrahedra *)
Lemma const_derivs {A B} (D : B) (pts : list A) : mapM (fun _ => Ok D) pts = Ok (map (fun _ => D) pts).
Proof. induction pts as [|p pts IH]; [reflexivity|]. cbn [mapM map bind]. now rewrite IH. Qed.
Lemma three_nodes {A} (l : list A) : length l = 3%nat -> exists a b c, l = [a; b; c].
Proof. destruct l as [|a [|b [|c [|d l]]]]; intros H; try discriminate H. now exists a, b, c. Qed.
Lemma four_nodes {A} (l : list A) : length l = 4%nat -> exists a b c d, l = [a; b; c; d].
Proof. destruct l as [|a [|b [|c [|d [|e l]]]]]; intros H; try discriminate H. now exists a, b, c, d. Qed.
Lemma jacobian_T3 : forall pts ds coords topo ecs frames, rect 2 pts -> mapM dshp_T3 pts = Ok ds ->
  mesh_at coords topo ecs -> rect 3 coords -> rect 3 topo -> Forall (fun fr => exists a b c, fr = [a; b; c] /\ right_handed a b c) frames -> length frames = length topo ->
  exists rows, jacobian 2 (block_coordinates_2d coords topo (PerCell frames)) None (Some ds) = Ok rows /\ length rows = length topo /\
    forall i ec a b n row, nth_error ecs i = Some ec -> nth_error frames i = Some [a; b; n] -> nth_error rows i = Some row ->
      row = map (fun _ => 2 * loop_area n ec) pts.
Proof.
  intros pts ds coords topo ecs frames HP Hds HM HC HT HF HL. eexists. split; [exact (surface_value 3 shp_T3 dshp_T3 pts ds coords topo ecs frames diff_T3 cancel_T3 ltac:(lia) HP Hds HM HC HT HF HL)|].
  split; [rewrite map_length, combine_length, (mesh_length _ _ _ HM); lia|]. intros i ec a b n row Hec Hfr Hrow.
  rewrite nth_error_map, (combine_nth_error _ _ _ _ _ Hfr Hec) in Hrow. cbn [option_map fst snd nth] in Hrow. injection Hrow as <-.
  destruct (cells_len _ _ _ 3 ec HM HC HT (nth_error_In _ _ Hec)) as [Le Re]. unfold dshp_T3 in Hds. rewrite const_derivs in Hds. injection Hds as <-. rewrite map_map. apply map_ext. intros _.
  destruct (three_nodes _ Le) as (p & q & r & ->). unfold loop_area, map_det, slope, column, dot, rsum, px, py, pz, at_. cbn [tl firstn app combine map fold_right fst snd nth]. numR. field.
Qed.
Lemma jacobian_TET4 : forall pts ds coords topo ecs frames, rect 3 pts -> mapM dshp_TET4 pts = Ok ds ->
  mesh_at coords topo ecs -> rect 3 coords -> rect 4 topo -> Forall (fun fr => exists a b c, fr = [a; b; c] /\ right_handed a b c) frames -> length frames = length topo ->
  exists rows, jacobian 3 (block_coordinates coords topo (PerCell frames)) None (Some ds) = Ok rows /\
    Forall2 (fun ec row => exists p q r s, ec = [p; q; r; s] /\ row = map (fun _ => 6 * signed_volume p q r s) pts) ecs rows.
Proof.
  intros pts ds coords topo ecs frames HP Hds HM HC HT HF HL. eexists. split; [exact (solid_value 4 shp_TET4 dshp_TET4 pts ds coords topo ecs frames diff_TET4 cancel_TET4 ltac:(lia) HP Hds HM HC HT HF HL)|].
  pose proof (fun ec => cells_len _ _ _ 4 ec HM HC HT) as HCL. unfold dshp_TET4 in Hds. rewrite const_derivs in Hds. injection Hds as <-. clear HM HC HT HF HL.
  induction ecs as [|ec ecs IH]; constructor; [|apply IH; intros; apply HCL; now right]. destruct (HCL ec (or_introl eq_refl)) as [Le Re]. destruct (four_nodes _ Le) as (p & q & r & s & ->). exists p, q, r, s. split; [reflexivity|].
  rewrite map_map. apply map_ext. intros _. unfold signed_volume, map_det, slope, column, dot, rsum, px, py, pz, at_. cbn [combine map fold_right fst snd nth]. numR. field.
Qed.
(** given matrices are used; derivatives are needed otherwise *)
Lemma jacobian_given : forall nD local dshp jac rows, Forall2 (Forall2 (fun J x => det J = Ok x)) jac rows -> jacobian nD local (Some jac) dshp = Ok rows.
Proof. intros nD local dshp jac rows H. unfold jacobian. cbn [bind]. apply mapM_Ok. induction H as [|j row jac rows H1 H2 IH]; constructor; [|exact IH]. now apply mapM_Ok. Qed.
Lemma jacobian_missing : forall nD ec, jacobian nD (Ok ec) None None = Err TypeError.
Proof. reflexivity. Qed.
(** lines: the derivatives are ignored, without matrices there is no result *)
Lemma line_given : forall nP ecs dshp d, Forall (fun ec => rect d ec /\ ec <> []) ecs ->
  exists jac rows, jacobian_matrix_bulk_1d nP ecs = Ok jac /\ line_jacobian (Some jac) dshp = Ok rows /\ Forall2 (fun ec row => exists x, NodalSpec.chord ec x /\ row = repeat (x / 2) nP) ecs rows.
Proof. intros nP ecs dshp d H. exact (NodalProofs8.det_1d_value nP d ecs H). Qed.
Lemma line_missing : forall dshp, line_jacobian None dshp = Err TypeError.
Proof. reflexivity. Qed.

(** ** points of a block *)
Lemma unique_used : forall topo, TopoSpec.used_list topo (unique_indices topo).
Proof. intros topo. apply TopoProofs5.np_unique_used. Qed.
Lemma involved_detached : forall coords topo, (forall n, TopoSpec.used topo n -> (n < length coords)%nat) ->
  exists pts topo', points_involved coords topo = Ok pts /\ detach_points_cells coords topo = Ok (pts, topo') /\
    TopoSpec.located_in (unique_indices topo) topo topo' /\ Forall2 (fun n p => nth_error coords n = Some p) (unique_indices topo) pts /\
    forall i j n p, TopoSpec.entry topo i j n -> nth_error coords n = Some p -> exists k, TopoSpec.entry topo' i j k /\ nth_error pts k = Some p.
Proof.
  intros coords topo HU. destruct (TopoProofs5.detach_bulk_ok coords topo HU) as (c & t' & inds & E & H1 & H2 & H3).
  assert (Ei : inds = unique_indices topo). { pose proof (unique_used topo) as [S1 U1]. destruct H1 as [S2 U2]. symmetry. unfold unique_indices, IncidenceModel.unique. apply np_unique_ext; [assumption|]. intros n. rewrite U2. apply TopoProofs3.entry_in_concat. }
  subst inds. exists c, t'. unfold points_involved. assert (Ep : mapM (get coords) (unique_indices topo) = Ok c) by exact H3.
  assert (HF : Forall2 (fun n p => nth_error coords n = Some p) (unique_indices topo) c). { apply mapM_Ok in Ep. clear - Ep. induction Ep as [|n p ns ps H Ep IH]; constructor; [|exact IH]. now apply get_Ok. }
  split; [exact Ep|]. split; [exact E|]. split; [exact H2|]. split; [exact HF|].
  intros i j n p He Hp. destruct H2 as [_ H2]. destruct (H2 i j n He) as (k & Hk & Hn). exists k. split; [assumption|]. destruct (Forall2_nth_error _ _ _ _ _ HF Hn) as (q & Hq & Hq'). congruence.
Qed.

(** ** simplices *)
Lemma simplices_2d : forall depth tri tet t, tri = Ok t -> to_simplices (S depth) 2 tri tet = Ok (Some t).
Proof. intros depth tri tet t ->. reflexivity. Qed.
Lemma simplices_3d : forall depth tri tet t, tet = Ok t -> to_simplices (S depth) 3 tri tet = Ok (Some t).
Proof. intros depth tri tet t ->. reflexivity. Qed.
Lemma simplices_1d : forall depth tri tet, to_simplices depth 1 tri tet = Err RuntimeError.
Proof. induction depth as [|d IH]; intros tri tet; [reflexivity|]. apply IH. Qed.
