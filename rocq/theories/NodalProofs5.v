(** * Proofs about [NodalModel.v]: moving the centre to the origin, averages, grids *)
From Coq Require Import Reals Lra Lia List Permutation String.
From Verif Require Import NodalModel NodalSpec BaseFacts FillFacts TopoProofs TrModel TrProofs ElevProofs ShapeProofs2 ShapeProofs3 ShapeProofs4 EvalProofs TriProofs3 LocProofs3 LocProofs9 NodalProofs NodalProofs2 NodalProofs3 NodalProofs4.
From Verif Require GridModel.
Import ListNotations.
Local Open Scope R_scope.

Lemma moved_mean_zero d r rows : rows <> [] -> rect d rows -> Forall2 (moved_by (map Ropp (means d rows))) r rows -> mean_row d r (repeat 0 d).
Proof.
  intros HN HR HM. assert (HNr : r <> []) by (intros ->; inversion HM; congruence).
  pose proof (mean_moved d r rows _ _ _ HN HR HM (means_mean d r HNr) (means_mean d rows HN)) as [_ H].
  split; [unfold dim; apply repeat_length|]. intros a Ha. unfold at_ at 1. rewrite nth_repeat. destruct (means_mean d r HNr) as [_ V]. rewrite <- (V a Ha).
  assert (L : length (means d rows) = d) by (unfold means; now rewrite map_length, seq_length). rewrite L in H. rewrite (H a Ha).
  assert (E : at_ a (map Ropp (means d rows)) = - at_ a (means d rows)). { unfold at_. rewrite <- (map_nth Ropp). f_equal. lra. } rewrite E. lra.
Qed.
Lemma moved_zero t d : forall r rows, rect d rows -> (forall a, (a < d)%nat -> at_ a t = 0) -> Forall2 (moved_by t) r rows -> r = rows.
Proof.
  intros r rows HR Ht H. induction H as [|p q r rows [H1 H2] H IH]; [reflexivity|]. inversion HR as [|? ? Hq HR']; subst. f_equal; [|now apply IH]. apply (nth_ext p q 0 0); [assumption|]. intros a Ha. rewrite H1 in Ha. change (at_ a p = at_ a q). rewrite (H2 a Ha), (Ht a Ha). lra.
Qed.
(** the mean becomes zero, all points are moved by the same vector *)
Lemma centralize_correct : forall d rows, (d = 2 \/ d = 3)%nat -> rows <> [] -> rect d rows ->
  exists r t, centralize Floating rows = Ok r /\ Forall2 (moved_by t) r rows /\ mean_row d r (repeat 0 d).
Proof.
  intros d rows Hd HN HR. destruct (centralize_value d rows Hd HN HR) as (r & E & _ & HM). exists r, (map Ropp (means d rows)). split; [exact E|]. split; [exact HM|]. now apply (moved_mean_zero d r rows).
Qed.
Lemma centralize_again : forall d rows r, (d = 2 \/ d = 3)%nat -> rows <> [] -> rect d rows -> centralize Floating rows = Ok r -> centralize Floating r = Ok r.
Proof.
  intros d rows r Hd HN HR E. destruct (centralize_value d rows Hd HN HR) as (r' & E' & HRr & HM). rewrite E in E'. injection E' as <-.
  assert (HNr : r <> []) by (intros ->; inversion HM; congruence). destruct (centralize_value d r Hd HNr HRr) as (s & Es & _ & HMs). rewrite Es. f_equal. apply (moved_zero (map Ropp (means d r)) d); [assumption| |exact HMs].
  intros a Ha. destruct (moved_mean_zero d r rows HN HR HM) as [_ V]. specialize (V a Ha). unfold at_ at 1 in V. rewrite nth_repeat in V.
  assert (Eo : at_ a (map Ropp (means d r)) = - at_ a (means d r)). { unfold at_. rewrite <- (map_nth Ropp). f_equal. lra. }
  rewrite Eo, means_nth by assumption. rewrite <- V. unfold Rdiv. ring.
Qed.
(** clouds on a line *)
Lemma centralize_line : forall rows, rows <> [] -> rect 1 rows -> centralize Floating rows = Err IndexError.
Proof.
  intros rows HN HR. unfold centralize, center_of_points. rewrite (cell_center_value 1 rows HN HR). cbn [bind]. unfold means. cbn [seq map get nth_error bind].
  destruct (sub_column_value 1 rows 0 (rsum (map (at_ 0) rows) / INR (length rows)) HR) as (r & E & _); [lia|]. rewrite E. reflexivity.
Qed.
Lemma centralize_integral : exists rows r, rows <> [] /\ rect 2 rows /\ (forall p, In p rows -> exists z, p = map IZR z) /\ centralize Integral rows = Ok r /\ r = rows /\ ~ mean_row 2 r (repeat 0 2).
Proof.
  exists [[0; 0]; [1; 0]], [[0; 0]; [1; 0]]. split; [discriminate|]. split; [repeat constructor|]. split; [|split; [|split; [reflexivity|]]].
  - intros p [<-|[<-|[]]]; [exists [0; 0]%Z|exists [1; 0]%Z]; reflexivity.
  - unfold centralize, center_of_points, cell_center. cbn - [INR store]. unfold store. rewrite !truncate_small; [|simpl INR; lra|simpl INR; lra]. cbn. repeat f_equal; lra.
  - intros [_ H]. assert (H0 : (0 < 2)%nat) by lia. specialize (H 0%nat H0). unfold at_, rsum in H. cbn in H. lra.
Qed.

(** ** averages over the nodes of the cells *)
Lemma foldM_rows {A B C} (f : A -> C -> res A) (g : B -> res C) : forall l rows a, mapM g l = Ok rows -> foldM (fun acc n => do r <- g n; f acc r) l a = foldM f rows a.
Proof.
  induction l as [|x l IH]; intros rows a H; cbn [mapM] in H; [injection H as <-; reflexivity|]. destruct (g x) as [y|] eqn:E; [|discriminate]. cbn [bind] in H. destruct (mapM g l) as [ys|] eqn:E2; [|discriminate]. injection H as <-.
  cbn [foldM]. rewrite E. cbn [bind]. destruct (f a y); [|reflexivity]. cbn [bind]. now apply IH.
Qed.
Lemma avg_value d data nodes rows : data <> [] -> rect d data -> nodes <> [] -> nodes_at data nodes rows -> exists c, avg_cell data nodes = Ok c /\ mean_row d rows c.
Proof.
  intros HD HR HN HA. assert (HRr : rect d rows).
  { apply Forall_forall. intros r Hr. apply In_nth_error in Hr. destruct Hr as (j & Hj). destruct (Forall2_nth_error_r _ _ _ _ _ HA Hj) as (n & _ & Hn). exact (rect_nth d data n r HR Hn). }
  assert (HL : length rows = length nodes) by (symmetry; exact (Forall2_len _ _ _ HA)).
  unfold avg_cell. rewrite (foldM_rows vadd (get data) nodes rows).
  2:{ apply mapM_Ok. apply (Forall2_weak (fun n p => nth_error data n = Some p)); [|exact HA]. intros n p Hp. now apply get_Ok. }
  rewrite (rect_ncols d data HR HD). destruct (vsum_R d rows (repeat 0 d)) as (s & E & L & V); [apply repeat_length|exact HRr|]. rewrite E. cbn [bind]. eexists. split; [reflexivity|]. split; [unfold dim; now rewrite map_length|].
  intros a Ha. assert (E2 : at_ a (map (fun x => x / INR (length nodes)) s) = nth a s 0 / INR (length nodes)).
  { unfold at_. destruct (nth_error_lt s a) as [x Hx]; [lia|]. rewrite (nth_error_nth s a 0 Hx). apply nth_error_nth. rewrite nth_error_map, Hx. reflexivity. }
  rewrite E2, V, nth_repeat, HL. change (rsum (map (fun r => nth a r 0) rows)) with (rsum (map (at_ a) rows)). field. now apply len_pos.
Qed.
Lemma avg_correct : forall d data topo rows, data <> [] -> rect d data -> Forall (fun nodes => nodes <> []) topo -> mesh_at data topo rows ->
  exists r, avg_cell_data (Rank2 data) topo = Ok r /\ Forall2 (mean_row d) rows r.
Proof.
  intros d data topo rows HD HR HN HM. unfold avg_cell_data, avg_cell_data_bulk. induction HM as [|nodes row topo rows H HM IH]; [exists []; split; [reflexivity|constructor]|].
  inversion HN as [|? ? H1 H2]; subst. destruct (avg_value d data nodes row HD HR H1 H) as (c & Ec & Hc). destruct (IH H2) as (r & Er & Hr). exists (c :: r). cbn [mapM]. rewrite Ec. cbn [bind]. rewrite Er. split; [reflexivity|now constructor].
Qed.
(** values of affine functions: the average is the value at the centre *)
Lemma affine_mean : forall d rows c (g : list R) k, rows <> [] -> rect d rows -> mean_row d rows c -> length g = d ->
  rsum (map (fun p => sprod g p + k) rows) / INR (length rows) = sprod g c + k.
Proof.
  intros d rows c g k HN HR HM HG. assert (G : forall g q, length g = length q -> sprod g q = rsum (map (fun a => at_ a g * at_ a q) (seq 0 (length g)))).
  { clear. induction g as [|x g IH]; intros [|y q] H; try discriminate; [reflexivity|]. cbn [length seq map]. rewrite rsum_cons, <- seq_shift, map_map. unfold sprod. cbn [combine map fold_right fst snd].
    injection H as H. pose proof (IH q H) as E. unfold sprod in E. rewrite E. reflexivity. }
  assert (GL : forall l : list nat, (forall a, In a l -> (a < d)%nat) -> rsum (map (fun p => rsum (map (fun a => at_ a g * at_ a p) l)) rows) = rsum (map (fun a => at_ a g * at_ a c) l) * INR (length rows)).
  { intros l. induction l as [|a l IH]; intros Hl; cbn [map].
    - unfold rsum at 2. cbn. clear. induction rows; cbn [map]; rewrite ?rsum_cons; [cbn; lra|]. rewrite IHrows. cbn. lra.
    - rewrite rsum_cons, Rmult_plus_distr_r, <- IH by (intros; apply Hl; now right). destruct HM as [_ HM]. specialize (HM a (Hl a (or_introl eq_refl))). rewrite Rmult_assoc, HM.
      clear. induction rows as [|p rows IH]; cbn [map]; rewrite ?rsum_cons; [cbn; lra|]. rewrite IH. lra. }
  pose proof (len_pos rows HN) as HI. apply (Rmult_eq_reg_r (INR (length rows))); [|assumption]. unfold Rdiv. rewrite Rmult_assoc, Rinv_l, Rmult_1_r by assumption.
  rewrite Rmult_plus_distr_r, (G g c) by (destruct HM as [HM _]; unfold dim in HM; congruence). rewrite <- (GL (seq 0 (length g))) by (intros a Ha; apply in_seq in Ha; lia).
  clear - G HR HG. unfold rect in HR. rewrite Forall_forall in HR. induction rows as [|p rows IH]; [cbn; lra|]. cbn [map length]. rewrite !rsum_cons, S_INR, IH by (intros; apply HR; now right). rewrite (G g p) by (rewrite (HR p); [congruence|now left]). lra.
Qed.
(** sums over the nodes of the cells divided by a measure of the cell *)
Lemma homogenize_value : forall d data measure, length data = length measure -> Forall (fun rows => rows <> [] /\ rect d rows) data -> (forall m, In m measure -> m <> 0) ->
  exists r, homogenize data measure = Ok r /\ length r = length data /\
    forall i rows m, nth_error data i = Some rows -> nth_error measure i = Some m -> exists row, nth_error r i = Some row /\ dim d row /\ forall a, (a < d)%nat -> at_ a row * m = rsum (map (at_ a) rows).
Proof.
  intros d data measure HL HF HM. unfold homogenize. set (f := fun ir : nat * list (list R) => _).
  assert (G : forall ir, In ir (enum data) -> exists row, f ir = Ok row /\ dim d row /\ forall m, nth_error measure (fst ir) = Some m -> forall a, (a < d)%nat -> at_ a row * m = rsum (map (at_ a) (snd ir))).
  { intros (i & rows) Hin. apply enum_in in Hin. unfold f. cbn [fst snd]. pose proof (proj1 (Forall_forall _ _) HF rows (nth_error_In _ _ Hin)) as [HN HR]. rewrite (rect_ncols d rows HR HN).
    destruct (nth_error_lt measure i) as [m Hm]; [rewrite <- HL; eapply nth_error_Some_lt; eauto|].
    rewrite (mapM_map _ (fun a => rsum (map (at_ a) rows) / m)).
    - eexists. split; [reflexivity|]. split; [unfold dim; now rewrite map_length, seq_length|]. intros m' Hm' a Ha. rewrite Hm in Hm'. injection Hm' as <-. unfold at_ at 1. rewrite (nth_error_nth _ a 0 (x := rsum (map (at_ a) rows) / m)); [|now rewrite nth_error_map, nth_error_seq].
      field. apply HM. eapply nth_error_In; eauto.
    - intros a Ha. apply in_seq in Ha. rewrite (col_value d rows a HR) by lia. cbn [bind]. rewrite (proj2 (get_Ok _ _ _) Hm). cbn [bind]. unfold div. destruct (Req_EM_T m 0) as [H0|_]; [exfalso; apply (HM m); [eapply nth_error_In; eauto|exact H0]|]. now rewrite ksum_rsum. }
  destruct (mapM_total f (enum data)) as [r Er]. { intros ir Hir. destruct (G ir Hir) as (row & E & _). eauto. }
  exists r. split; [exact Er|]. split; [rewrite (mapM_length _ _ _ Er); unfold enum; apply enum_from_length|].
  intros i rows m Hi Hm. assert (Hie : nth_error (enum data) i = Some (i, rows)) by (rewrite nth_error_enum, Hi; reflexivity). destruct (mapM_nth_error _ _ _ _ _ Er Hie) as (row & Hrow & E). exists row. split; [exact Hrow|].
  destruct (G (i, rows) (nth_error_In _ _ Hie)) as (row' & E' & Hd & HV). rewrite E in E'. injection E' as <-. split; [exact Hd|]. now apply HV.
Qed.

Lemma tail_centralize a tuple eshape shift nD c t c' : GridModel.grid_tail (with_centralize false a) tuple eshape shift nD = Ok (c, t) -> GridModel.grid_centralize c = Ok c' ->
  GridModel.grid_tail (with_centralize true a) tuple eshape shift nD = Ok (c', t).
Proof.
  unfold GridModel.grid_tail. cbn [with_centralize GridModel.a_size GridModel.a_shape GridModel.a_shift GridModel.a_start GridModel.a_bins GridModel.a_cast GridModel.a_centralize GridModel.a_path].
  match goal with |- context [bind ?x _] => destruct x as [(c0 & t0)|] eqn:E0 end; [|discriminate]. cbn [bind]. intros H Hc. destruct (GridModel.a_path a) as [p|].
  - destruct (transform_topology 0%nat t0 (P1 p) DNone) as [td|] eqn:Et; [|discriminate]. cbn [bind] in *. injection H as -> <-. rewrite Hc. reflexivity.
  - cbn [bind] in *. injection H as -> <-. rewrite Hc. reflexivity.
Qed.

Lemma grid_centralize_tail : forall a e c t c', GridModel.grid (with_centralize false a) e = Ok (c, t) -> GridModel.grid_centralize c = Ok c' -> GridModel.grid (with_centralize true a) e = Ok (c', t).
Proof.
  intros a e c t c' H Hc. unfold GridModel.grid in *. change (GridModel.grid_dim (with_centralize true a)) with (GridModel.grid_dim a). change (GridModel.grid_dim (with_centralize false a)) with (GridModel.grid_dim a) in H.
  destruct (GridModel.grid_dim a) as [nD|] eqn:ED; [|discriminate]. cbn [bind] in *.
  change (GridModel.grid_shift (with_centralize true a) nD) with (GridModel.grid_shift a nD). change (GridModel.grid_shift (with_centralize false a) nD) with (GridModel.grid_shift a nD) in H.
  cbn [with_centralize GridModel.a_size GridModel.a_shape GridModel.a_shift GridModel.a_start GridModel.a_bins GridModel.a_cast GridModel.a_centralize GridModel.a_path] in H |- *.
  set (a' := {| GridModel.a_size := GridModel.a_size a; GridModel.a_shape := GridModel.a_shape a; GridModel.a_shift := Some (GridModel.grid_shift a nD); GridModel.a_start := GridModel.a_start a;
     GridModel.a_bins := GridModel.a_bins a; GridModel.a_cast := GridModel.a_cast a; GridModel.a_centralize := true; GridModel.a_path := None |}).
  change {| GridModel.a_size := GridModel.a_size a; GridModel.a_shape := GridModel.a_shape a; GridModel.a_shift := Some (GridModel.grid_shift a nD); GridModel.a_start := GridModel.a_start a;
     GridModel.a_bins := GridModel.a_bins a; GridModel.a_cast := GridModel.a_cast a; GridModel.a_centralize := false; GridModel.a_path := None |} with (with_centralize false a') in H.
  change a' with (with_centralize true a').
  assert (HNm : forall es path, GridModel.grid_named es path (with_centralize false a') = Ok (c, t) -> GridModel.grid_named es path (with_centralize true a') = Ok (c', t)).
  { intros es path. unfold GridModel.grid_named, GridModel.grid_tuple. change (GridModel.grid_dim (with_centralize true a')) with (GridModel.grid_dim a'). change (GridModel.grid_dim (with_centralize false a')) with (GridModel.grid_dim a').
    destruct (GridModel.grid_dim a') as [m|]; [|discriminate]. cbn [bind]. change (GridModel.grid_shift (with_centralize true a') m) with (GridModel.grid_shift a' m). change (GridModel.grid_shift (with_centralize false a') m) with (GridModel.grid_shift a' m).
    destruct (GridModel.grid_tail (with_centralize false a') true es (GridModel.grid_shift a' m) m) as [(c0 & t0)|] eqn:E; [|discriminate]. cbn [bind fst snd]. destruct (transform_topology 0%nat t0 (P1 path) DNone) as [td|] eqn:Et; [|discriminate]. cbn [bind].
    intros H'. injection H' as -> <-. rewrite (tail_centralize _ _ _ _ _ _ _ _ E Hc). cbn [bind fst snd]. rewrite Et. reflexivity. }
  destruct e as [|s|l|l].
  - now apply (tail_centralize a _ _ _ _ c).
  - destruct (String.eqb s "Q4"); [now apply HNm|]. destruct (String.eqb s "Q9"); [now apply HNm|]. destruct (String.eqb s "H8"); [now apply HNm|]. destruct (String.eqb s "H27"); [now apply HNm|]. discriminate.
  - now apply (tail_centralize a _ _ _ _ c).
  - now apply (tail_centralize a _ _ _ _ c).
Qed.
Lemma vsub_R d (a b : list R) : length a = d -> length b = d -> exists r, vsub a b = Ok r /\ length r = d /\ forall k, (k < d)%nat -> at_ k r = at_ k a - at_ k b.
Proof.
  intros Ha Hb. destruct (map2_Ok ksub a b) as [r [H1 [H2 H3]]]; [congruence|]. exists r. split; [exact H1|]. split; [congruence|]. intros k Hk.
  destruct (nth_error_lt a k) as [x Hx]; [lia|]. destruct (nth_error_lt b k) as [y Hy]; [lia|]. unfold at_. rewrite (nth_error_nth a k 0 Hx), (nth_error_nth b k 0 Hy). apply nth_error_nth. exact (H3 k x y Hx Hy).
Qed.
Lemma grid_centralized : forall a e c t d, GridModel.grid (with_centralize false a) e = Ok (c, t) -> c <> [] -> rect d c ->
  exists c' v, GridModel.grid (with_centralize true a) e = Ok (c', t) /\ Forall2 (moved_by v) c' c /\ mean_row d c' (repeat 0 d).
Proof.
  intros a e c t d H HN HR. assert (L : length (means d c) = d) by (unfold means; now rewrite map_length, seq_length).
  destruct (mapM_Forall2 (fun r => vsub r (means d c)) (fun q p => length p = d /\ forall a, (a < d)%nat -> at_ a p = at_ a q - at_ a (means d c)) c) as (c' & E & HF).
  { intros q Hq. unfold rect in HR. rewrite Forall_forall in HR. destruct (vsub_R d q (means d c) (HR q Hq) L) as (r & Er & Lr & Vr). exists r. auto. }
  assert (HM : Forall2 (moved_by (map Ropp (means d c))) c' c).
  { apply (moved_opp d); [unfold rect in HR; now rewrite Forall_forall in HR|]. clear - HF. revert HF. generalize (means d c). intros m HF. induction HF; constructor; auto. }
  exists c', (map Ropp (means d c)). split; [|split; [exact HM|now apply (moved_mean_zero d c' c)]].
  apply (grid_centralize_tail a e c t c' H). unfold GridModel.grid_centralize, GridModel.center_of_points. rewrite (vmean_means d c HN HR). exact E.
Qed.
