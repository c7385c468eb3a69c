(** * Proofs about [NodalModel.v]: neighbouring points *)
From Coq Require Import Reals Lra Lia List Permutation Sorted.
From Verif Require Import NodalModel NodalSpec BaseFacts FillFacts TopoProofs2 ElevProofs ShapeProofs3 TriProofs3 LocProofs9 NodalProofs NodalProofs2 NodalProofs4 NodalProofs5.
Import ListNotations.
Local Open Scope R_scope.

(** ** distances *)
Lemma dot_map {A} (f : A -> R) l : dot (map f l) (map f l) = rsum (map (fun x => f x * f x) l).
Proof. unfold dot. induction l as [|x l IH]; [reflexivity|]. cbn [map combine]. rewrite !rsum_cons, IH. reflexivity. Qed.
Lemma norm_dist (p c : list R) : length p = length c -> exists v, vsub p c = Ok v /\ norm v = Ok (dist p c).
Proof.
  intros H. unfold vsub. rewrite map2_combine by assumption. eexists. split; [reflexivity|]. unfold norm. rewrite vdot_dot by reflexivity. cbn [bind]. f_equal. unfold dist. f_equal. rewrite dot_map. reflexivity.
Qed.
Lemma dist_self p : dist p p = 0.
Proof.
  unfold dist. replace (dist2 p p) with 0; [apply sqrt_0|]. unfold dist2. induction p as [|x p IH]; [reflexivity|]. cbn [combine map fold_right fst snd]. rewrite <- IH. lra.
Qed.
Lemma dist_sym : forall p q, length p = length q -> dist p q = dist q p.
Proof.
  intros p q H. unfold dist. f_equal. unfold dist2. revert q H. induction p as [|x p IH]; intros [|y q] H; try discriminate; [reflexivity|]. cbn [combine map fold_right fst snd]. injection H as H. rewrite (IH q H). ring.
Qed.

(** ** the points within a distance *)
Lemma filter_enum_sorted {A} (f : nat * A -> bool) : forall l k, StronglySorted lt (map fst (filter f (enum_from k l))) /\ Forall (le k) (map fst (filter f (enum_from k l))).
Proof.
  induction l as [|x l IH]; intros k; [split; constructor|]. cbn [enum_from filter]. destruct (IH (S k)) as [IH1 IH2]. assert (IH2' : Forall (le k) (map fst (filter f (enum_from (S k) l)))).
  { apply Forall_forall. intros y Hy. rewrite Forall_forall in IH2. specialize (IH2 y Hy). lia. }
  destruct (f (k, x)); cbn [map]; [|auto]. split; constructor; auto.
Qed.
Lemma within_spec : forall d pts c r, rect d pts -> length c = d -> exists row, within pts c r = Ok row /\ neighbours_in pts c r row.
Proof.
  intros d pts c r HR Hc. unfold within.
  destruct (mapM_Forall2 (fun p => vsub p c) (fun p v => norm v = Ok (dist p c)) pts) as (vs & E & HF).
  { intros p Hp. unfold rect in HR. rewrite Forall_forall in HR. destruct (norm_dist p c) as (v & H1 & H2); [rewrite (HR p Hp); congruence|]. exists v. auto. }
  rewrite E. cbn [bind]. assert (En : norms vs = Ok (map (fun p => dist p c) pts)).
  { unfold norms. clear E HR. induction HF as [|p v pts vs H HF IH]; [reflexivity|]. cbn [mapM map]. rewrite H. cbn [bind]. rewrite IH. reflexivity. }
  rewrite En. cbn [bind]. eexists. split; [reflexivity|]. split; [apply (filter_enum_sorted _ _ 0%nat)|]. intros j. rewrite in_map_iff. split.
  - intros ((i & x) & <- & Hin). apply filter_In in Hin. destruct Hin as [Hin Hx]. apply enum_in in Hin. cbn [fst snd] in *. rewrite nth_error_map in Hin. destruct (nth_error pts i) as [p|] eqn:Ep; [|discriminate]. injection Hin as <-. exists p. split; [reflexivity|]. destruct (Rle_dec (dist p c) r); [assumption|discriminate].
  - intros (p & Hp & Hd). exists (j, dist p c). split; [reflexivity|]. apply filter_In. split; [apply enum_in; now rewrite nth_error_map, Hp|]. cbn [snd]. destruct (Rle_dec (dist p c) r); [reflexivity|contradiction].
Qed.
Lemma cells_ST : forall d pts r, rect d pts -> exists rows, cells_around_ST pts r = Ok (rows, map (@length nat) rows) /\ Forall2 (fun c row => neighbours_in pts c r row) pts rows.
Proof.
  intros d pts r HR. unfold cells_around_ST. destruct (mapM_Forall2 (fun c => within pts c r) (fun c row => neighbours_in pts c r row) pts) as (rows & E & HF).
  { intros c Hc. apply (within_spec d); [assumption|]. unfold rect in HR. rewrite Forall_forall in HR. auto. }
  exists rows. rewrite E. split; [reflexivity|exact HF].
Qed.
Lemma skipn_zeros (a n : nat) : skipn a (zeros 0%nat n) = repeat 0%nat (n - a).
Proof. unfold zeros. revert n. induction a as [|a IH]; intros n; [now rewrite Nat.sub_0_r|]. destruct n; [reflexivity|]. exact (IH n). Qed.
(** every row is filled up with zeros *)
Lemma cells_MT : forall d pts r n_max, rect d pts -> exists rows, cells_around_MT pts r n_max = Ok (rows, map (@length nat) rows) /\ rect n_max rows /\
  Forall2 (fun c row => exists close, neighbours_in pts c r close /\ row = firstn n_max close ++ repeat 0%nat (n_max - length close)) pts rows.
Proof.
  intros d pts r n_max HR. unfold cells_around_MT.
  destruct (mapM_Forall2 (fun c => do inds <- within pts c r; if Nat.leb (length inds) n_max then Ok (inds ++ skipn (length inds) (zeros 0%nat n_max)) else Ok (firstn n_max inds))
    (fun c row => exists close, neighbours_in pts c r close /\ row = firstn n_max close ++ repeat 0%nat (n_max - length close)) pts) as (rows & E & HF).
  { intros c Hc. unfold rect in HR. rewrite Forall_forall in HR. destruct (within_spec d pts c r) as (inds & Ei & Hi); [now apply Forall_forall|auto|]. rewrite Ei. cbn [bind]. destruct (Nat.leb_spec (length inds) n_max) as [HL|HL].
    - eexists. split; [reflexivity|]. exists inds. split; [assumption|]. now rewrite firstn_all2, skipn_zeros by assumption.
    - eexists. split; [reflexivity|]. exists inds. split; [assumption|]. replace (n_max - length inds)%nat with 0%nat by lia. now rewrite app_nil_r. }
  exists rows. rewrite E. split; [reflexivity|]. split; [|exact HF]. apply Forall_forall. intros row Hrow. apply In_nth_error in Hrow. destruct Hrow as (i & Hi). destruct (Forall2_nth_error_r _ _ _ _ _ HF Hi) as (c & _ & close & _ & ->).
  rewrite app_length, repeat_length, firstn_length. lia.
Qed.

(** ** the three formats *)
Lemma dict_value : forall rows : list (list nat), cells_data_to_dict rows (map (@length nat) rows) = Ok (enum rows).
Proof.
  intros rows. unfold cells_data_to_dict. assert (G : forall rest pre, rows = pre ++ rest ->
    foldM (fun (d : dict (list nat)) iw => do row <- get rows (fst iw); Ok (dset d (fst iw) (firstn (snd iw) row))) (enum_from (length pre) (map (@length nat) rest)) (enum pre) = Ok (enum rows)).
  { induction rest as [|row rest IH]; intros pre Hp; [cbn; now rewrite Hp, app_nil_r|]. cbn [map enum_from foldM fst snd]. rewrite (proj2 (get_Ok rows (length pre) row)) by (subst rows; rewrite nth_error_app2, Nat.sub_diag by lia; reflexivity).
    cbn [bind]. rewrite firstn_all. assert (E : dset (enum pre) (length pre) row = enum (pre ++ [row])).
    { unfold enum. assert (H : forall (l : list (list nat)) k, dset (enum_from k l) (k + length l) row = enum_from k (l ++ [row])).
      { clear. induction l as [|x l IH]; intros k; [cbn; now rewrite Nat.add_0_r|]. cbn [enum_from dset app length]. replace (Nat.eqb (k + S (length l)) k) with false by (symmetry; apply Nat.eqb_neq; lia). f_equal. rewrite <- IH. f_equal. lia. }
      exact (H pre 0%nat). }
    rewrite E. specialize (IH (pre ++ [row])). rewrite app_length, Nat.add_1_r in IH. apply IH. rewrite <- app_assoc. exact Hp. }
  exact (G rows [] eq_refl).
Qed.
Lemma jagged_value : forall rows : list (list nat), cells_data_to_jagged rows (map (@length nat) rows) = Ok rows.
Proof.
  intros rows. unfold cells_data_to_jagged. assert (E : mapM (fun iw => do row <- get rows (fst iw); Ok (firstn (snd iw) row)) (enum (map (@length nat) rows)) = Ok rows).
  { apply mapM_Ok. unfold enum. assert (G : forall rest k, (forall i row, nth_error rest i = Some row -> nth_error rows (k + i) = Some row) ->
      Forall2 (fun iw row => (do row <- get rows (fst iw); Ok (firstn (snd iw) row)) = Ok row) (enum_from k (map (@length nat) rest)) rest).
    { induction rest as [|row rest IH]; intros k H; [constructor|]. cbn [map enum_from]. constructor.
      - cbn [fst snd]. pose proof (H 0%nat row eq_refl) as H0. rewrite Nat.add_0_r in H0. rewrite (proj2 (get_Ok _ _ _) H0). cbn [bind]. now rewrite firstn_all.
      - apply IH. intros i r Hr. rewrite Nat.add_succ_comm. now apply (H (S i)). }
    apply (G rows 0%nat). auto. }
  rewrite E. cbn [bind]. rewrite scatter_ok. cbn [bind]. now rewrite split_by_concat.
Qed.
Lemma set_mid {A} (a : list A) x y b : set (a ++ x :: b) (length a) y = Ok (a ++ y :: b).
Proof. induction a as [|z a IH]; [reflexivity|]. cbn [app length set]. rewrite IH. reflexivity. Qed.
Lemma run_writes_slice {A} : forall (v a b c : list A), length v = length b -> run_writes (slice_writes (length a) v) (a ++ b ++ c) = Ok (a ++ v ++ c).
Proof.
  unfold slice_writes, enum. assert (G : forall (v b a c : list A) k, length v = length b -> (k <= length a)%nat -> run_writes (map (fun kv => (length a - k + fst kv, snd kv)%nat) (enum_from k v)) (a ++ b ++ c) = Ok (a ++ v ++ c)).
  { induction v as [|x v IH]; intros b a c k HL Hk; destruct b as [|y b]; try discriminate; [reflexivity|]. cbn [enum_from map fst snd]. unfold run_writes. cbn [foldM]. cbn [app fst snd]. replace (length a - k + k)%nat with (length a) by lia. rewrite set_mid. cbn [bind].
    specialize (IH b (a ++ [x]) c (S k)). rewrite app_length in IH. cbn [length] in IH. rewrite <- !app_assoc in IH. cbn [app] in IH. replace (length a + 1 - S k)%nat with (length a - k)%nat in IH by lia. apply IH; [cbn in HL; lia|lia]. }
  intros v a b c HL. specialize (G v b a c 0%nat HL). rewrite Nat.sub_0_r in G. apply G. lia.
Qed.
Lemma slice_set_mid {A} (v a b c : list A) : length v = length b -> slice_set (a ++ b ++ c) (length a) (length a + length b) v = Ok (a ++ v ++ c).
Proof.
  intros HL. unfold slice_set, slice. rewrite skipn_app, skipn_all, Nat.sub_diag. cbn [skipn app]. replace (length a + length b - length a)%nat with (length b) by lia. rewrite firstn_app, firstn_all, Nat.sub_diag. cbn [firstn]. rewrite app_nil_r, HL, Nat.eqb_refl. cbn [guard bind]. now apply run_writes_slice.
Qed.
Lemma zeros_app (a b : nat) : zeros 0%nat (a + b) = zeros 0%nat a ++ zeros 0%nat b.
Proof. unfold zeros. apply repeat_app. Qed.
Lemma indptr_snoc : forall w x, indptr (w ++ [x]) = indptr w ++ [(np_sum w + x)%nat].
Proof.
  intros w x. unfold indptr. assert (G : forall w s, indptr_from s (w ++ [x]) = indptr_from s w ++ [(s + np_sum w + x)%nat]).
  { clear w. induction w as [|y w IH]; intros s; [cbn [app indptr_from]; rewrite np_sum_nil, Nat.add_0_r; reflexivity|]. cbn [app indptr_from]. rewrite IH, np_sum_cons. do 3 f_equal. lia. }
  exact (G w 0%nat).
Qed.
Lemma dget_enum {A} : forall (l : list A) i x k, nth_error l i = Some x -> dget (enum_from k l) (k + i) = Ok x.
Proof.
  induction l as [|y l IH]; intros [|i] x k H; try discriminate; cbn [enum_from dget].
  - rewrite Nat.add_0_r, Nat.eqb_refl. cbn in H. congruence.
  - replace (Nat.eqb (k + S i) k) with false by (symmetry; apply Nat.eqb_neq; lia). rewrite <- Nat.add_succ_comm. now apply IH.
Qed.
Lemma spdata_value : forall rows : list (list nat), dict_to_spdata (enum rows) (map (@length nat) rows) =
  Ok (concat rows, columns rows, indptr (map (@length nat) rows), (length rows, list_max (map (@length nat) rows))).
Proof.
  intros rows. unfold dict_to_spdata. rewrite map_length. replace (length (enum rows)) with (length rows) by (symmetry; apply enum_from_length). set (f := fun (st : _) (i : nat) => _).
  assert (G : forall rest pre, rows = pre ++ rest -> foldM f (seq (length pre) (length rest))
      (concat pre ++ zeros 0%nat (np_sum (map (@length nat) rest)), columns pre ++ zeros 0%nat (np_sum (map (@length nat) rest)), indptr (map (@length nat) pre) ++ zeros 0%nat (length rest), np_sum (map (@length nat) pre), list_max (map (@length nat) pre))
      = Ok (concat rows, columns rows, indptr (map (@length nat) rows), np_sum (map (@length nat) rows), list_max (map (@length nat) rows))).
  { induction rest as [|row rest IH]; intros pre Hp.
    - cbn [length seq foldM map]. rewrite np_sum_nil. unfold zeros. cbn [repeat]. now rewrite Hp, !app_nil_r.
    - cbn [length seq foldM]. unfold f at 1.
      assert (Hrow : nth_error rows (length pre) = Some row) by (subst rows; rewrite nth_error_app2, Nat.sub_diag by lia; reflexivity).
      rewrite (proj2 (get_Ok (map (@length nat) rows) (length pre) (length row))) by (now rewrite nth_error_map, Hrow). cbn [bind].
      pose proof (dget_enum rows (length pre) row 0 Hrow) as Hd. cbn [Nat.add] in Hd. change (enum_from 0 rows) with (enum rows) in Hd. rewrite Hd. cbn [bind map]. rewrite !np_sum_cons, zeros_app.
      assert (L1 : np_sum (map (@length nat) pre) = length (concat pre)) by (symmetry; apply length_concat).
      assert (L2 : np_sum (map (@length nat) pre) = length (columns pre)).
      { unfold columns. rewrite length_concat, map_map. f_equal. apply map_ext. intros; now rewrite seq_length. }
      assert (Lz : length (zeros 0%nat (length row)) = length row) by apply repeat_length.
      assert (S1 : slice_set (concat pre ++ zeros 0%nat (length row) ++ zeros 0%nat (np_sum (map (@length nat) rest))) (np_sum (map (@length nat) pre)) (np_sum (map (@length nat) pre) + length row) row = Ok (concat pre ++ row ++ zeros 0%nat (np_sum (map (@length nat) rest)))).
      { rewrite L1. rewrite <- Lz at 2. apply slice_set_mid. now rewrite Lz. }
      assert (S2 : slice_set (columns pre ++ zeros 0%nat (length row) ++ zeros 0%nat (np_sum (map (@length nat) rest))) (np_sum (map (@length nat) pre)) (np_sum (map (@length nat) pre) + length row) (seq 0 (length row)) = Ok (columns pre ++ seq 0 (length row) ++ zeros 0%nat (np_sum (map (@length nat) rest)))).
      { rewrite L2. rewrite <- Lz at 2. apply slice_set_mid. now rewrite Lz, seq_length. }
      rewrite S1. cbn [bind]. rewrite S2. cbn [bind].
      assert (S3 : set (indptr (map (@length nat) pre) ++ zeros 0%nat (S (length rest))) (length pre + 1) (np_sum (map (@length nat) pre) + length row)%nat = Ok (indptr (map (@length nat) (pre ++ [row])) ++ zeros 0%nat (length rest))).
      { replace (length pre + 1)%nat with (length (indptr (map (@length nat) pre))) by (rewrite indptr_length, map_length; lia). change (zeros 0%nat (S (length rest))) with (0%nat :: zeros 0%nat (length rest)). rewrite set_mid. rewrite map_app. cbn [map]. rewrite indptr_snoc, <- app_assoc. reflexivity. }
      rewrite S3. cbn [bind]. specialize (IH (pre ++ [row])). rewrite <- IH by (rewrite <- app_assoc; exact Hp).
      rewrite app_length, Nat.add_1_r. f_equal. rewrite concat_app. cbn [concat]. rewrite app_nil_r, <- app_assoc.
      assert (Ec : columns (pre ++ [row]) = columns pre ++ seq 0 (length row)) by (unfold columns; rewrite map_app, concat_app; cbn; now rewrite app_nil_r). rewrite Ec, <- app_assoc.
      rewrite !map_app, np_sum_app, list_max_app. cbn [map list_max fold_right]. rewrite np_sum_cons, np_sum_nil, Nat.add_0_r, Nat.max_0_r.
      f_equal. destruct (Nat.ltb_spec (list_max (map (@length nat) pre)) (length row)); f_equal; lia. }
  specialize (G rows [] eq_refl). cbn [app concat columns map length] in G. replace (length rows + 1)%nat with (S (length rows)) by lia. unfold columns at 1 in G. cbn [map concat app] in G. change (indptr []) with [0%nat] in G. cbn [app] in G. rewrite np_sum_nil in G.
  change (zeros 0%nat (S (length rows))) with (0%nat :: zeros 0%nat (length rows)). change (list_max []) with 0%nat in G. rewrite G. reflexivity.
Qed.
Lemma around_value : forall d pts r n_max, rect d pts -> exists rows, padded pts r n_max rows /\
  points_around pts r FmtDict true n_max = Ok (NbDict (enum rows)) /\
  points_around pts r FmtJagged true n_max = Ok (NbJagged rows) /\
  (exists inds ptr n m, points_around pts r FmtCsr true n_max = Ok (NbCsr (concat rows) inds ptr (n, m)) /\ csr_of rows ptr (concat rows) /\ inds = columns rows /\ n = length rows /\ (pts <> [] -> m = n_max)) /\
  points_around pts r FmtOther true n_max = Err RuntimeError /\
  forall fmt, points_around pts r fmt false n_max = Err NotImplementedError.
Proof.
  intros d pts r n_max HR. destruct (cells_MT d pts r n_max HR) as (rows & E & HL & HF). exists rows. split; [exact HF|]. unfold points_around. rewrite E. cbn [bind]. rewrite dict_value, jagged_value. cbn [bind]. rewrite spdata_value.
  split; [reflexivity|]. split; [reflexivity|]. split; [|split; [reflexivity|intros []; reflexivity]].
  do 4 eexists. split; [reflexivity|]. split; [split; reflexivity|]. split; [reflexivity|]. split; [reflexivity|]. intros HN. rewrite (map_length_repeat _ _ HL).
  assert (Hn : length rows <> 0%nat) by (rewrite <- (Forall2_len _ _ _ HF); destruct pts; [easy|discriminate]). destruct (length rows) as [|k]; [easy|]. clear. induction k as [|k IH]; [cbn; lia|]. cbn [repeat list_max fold_right] in *. cbn in IH. lia.
Qed.
(** two points far from each other: point 0 is listed as a neighbour of point 1 *)
Lemma around_wrong : exists pts r n_max row, rect 2 pts /\ points_around pts r FmtJagged true n_max = Ok (NbJagged row) /\
  exists cells p q, nth_error row 1 = Some cells /\ In 0%nat cells /\ nth_error pts 1 = Some p /\ nth_error pts 0 = Some q /\ ~ dist q p <= r.
Proof.
  set (pts := [[0; 0]; [3; 4]]). assert (HR : rect 2 pts) by repeat constructor. destruct (around_value 2 pts 1 2 HR) as (rows & HP & _ & E & _). exists pts, 1, 2%nat, rows. split; [assumption|]. split; [exact E|].
  assert (D : dist [0; 0] [3; 4] = 5). { unfold dist, dist2. cbn [combine map fold_right fst snd]. replace ((0 - 3) * (0 - 3) + ((0 - 4) * (0 - 4) + 0)) with (5 * 5) by ring. apply sqrt_square. lra. }
  destruct (Forall2_nth_error _ _ _ 1%nat [3; 4] HP eq_refl) as (row & Hrow & close & [Hs Hc] & ->). exists (firstn 2 close ++ repeat 0%nat (2 - length close)), [3; 4], [0; 0]. split; [exact Hrow|]. split; [|split; [reflexivity|split; [reflexivity|rewrite D; lra]]].
  assert (HA : forall j, In j close -> j = 1%nat).
  { intros j Hj. apply Hc in Hj. destruct Hj as (p & Hp & Hd). destruct j as [|[|j]]; [|reflexivity|destruct j; discriminate]. injection Hp as <-. rewrite D in Hd. lra. }
  destruct close as [|a [|b close]]; [cbn; auto|cbn; auto|]. exfalso. inversion Hs as [|? ? _ Hf]; subst. inversion Hf as [|? ? Hab _]; subst. rewrite (HA a), (HA b) in Hab by (cbn; auto). lia.
Qed.
(** exact when every point has exactly [n_max] points in its reach *)
Lemma padded_exact : forall pts r n_max rows i c row, padded pts r n_max rows -> nth_error pts i = Some c -> nth_error rows i = Some row ->
  exists close, neighbours_in pts c r close /\ (forall j, In j close -> In j row \/ (n_max < length close)%nat) /\ (forall j, In j row -> In j close \/ (j = 0%nat /\ (length close < n_max)%nat)) /\ (length close = n_max -> row = close).
Proof.
  intros pts r n_max rows i c row HP Hc Hr. destruct (Forall2_nth_error _ _ _ _ _ HP Hc) as (row' & Hr' & close & HN & E). rewrite Hr in Hr'. injection Hr' as <-. exists close. split; [assumption|]. split; [|split].
  - intros j Hj. destruct (Nat.le_gt_cases (length close) n_max) as [H|H]; [left|right; exact H]. rewrite E, firstn_all2 by assumption. apply in_or_app. now left.
  - intros j Hj. rewrite E in Hj. apply in_app_or in Hj. destruct Hj as [Hj|Hj]; [left; rewrite <- (firstn_skipn n_max close); apply in_or_app; now left|]. right. pose proof (repeat_spec _ _ _ Hj). split; [assumption|]. destruct (n_max - length close)%nat eqn:Ed; [contradiction|lia].
  - intros H. rewrite E, H, Nat.sub_diag, <- H, firstn_all. cbn. now rewrite app_nil_r.
Qed.
