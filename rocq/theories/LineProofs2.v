(** * Proofs about [LineModel.v], part 2: segments *)
From Coq Require Import Reals Lra Lia List Permutation.
From Verif Require Import BaseFacts FillFacts TrModel TrSpec TrProofs TopoSpec TopoProofs GridProofs2 LineModel LineSpec ExtrudeProofs LineProofs.
Import ListNotations.
Local Open Scope R_scope.

Lemma flat_map_nth {A B} (f : A -> list B) m : forall l, (forall x, In x l -> length (f x) = m) -> forall i k x, nth_error l i = Some x -> (k < m)%nat -> nth_error (flat_map f l) (i * m + k) = nth_error (f x) k.
Proof.
  induction l as [|y l IH]; intros H i k x Hx Hk; [destruct i; discriminate|]. cbn [flat_map]. pose proof (H y (or_introl eq_refl)) as Hy. destruct i as [|i].
  - injection Hx as ->. cbn [Nat.mul Nat.add]. rewrite nth_error_app1 by lia. reflexivity.
  - cbn in Hx. rewrite nth_error_app2 by (rewrite Hy; cbn; lia). rewrite Hy. replace (S i * m + k - m)%nat with (i * m + k)%nat by (cbn; lia). apply IH; auto. intros z Hz. apply H. now right.
Qed.
Lemma flat_map_len {A B} (f : A -> list B) m l : (forall x, In x l -> length (f x) = m) -> length (flat_map f l) = (length l * m)%nat.
Proof. induction l as [|x l IH]; intros H; [reflexivity|]. cbn. rewrite app_length, H by now left. rewrite IH by (intros; apply H; now right). reflexivity. Qed.

Lemma enum_len {A} (l : list A) : length (enum l) = length l.
Proof. unfold enum. generalize 0%nat. induction l; intros n; cbn; auto. Qed.

Section lines.
Variables (coords : list (list R)) (topo : list (list nat)) (N d : nat) (dt : dtype).
Hypothesis HN : (1 <= N)%nat.
Hypothesis HR : rect d coords.
Hypothesis HO : Forall (line_ok (length coords)) topo.
Let C := coords ++ flat_map (new_points dt coords N) topo.
Let nP := length coords.

Lemma line_len : length C = (nP + length topo * (N - 1))%nat.
Proof. unfold C. rewrite app_length, (flat_map_len _ (N - 1)%nat) by (intros; apply new_points_length). reflexivity. Qed.
Lemma line_new i row k : nth_error topo i = Some row -> (1 <= k < N)%nat -> nth_error C (nP + i * (N - 1) + k - 1) = Some (map (store dt) (point_between (nth (first_node row) coords []) (nth (last_node row) coords []) (INR k / INR N))).
Proof.
  intros Hi Hk. unfold C. rewrite nth_error_app2 by (fold nP; generalize (i * (N - 1))%nat; intros; lia). fold nP. replace (nP + i * (N - 1) + k - 1 - nP)%nat with (i * (N - 1) + (k - 1))%nat by (generalize (i * (N - 1))%nat; intros; lia).
  rewrite (flat_map_nth _ (N - 1)%nat topo (fun x _ => new_points_length dt coords N x) i (k - 1)%nat row Hi) by lia. unfold new_points. rewrite nth_error_map, nth_error_seq by lia. cbn [option_map]. do 4 f_equal. f_equal. lia.
Qed.
Lemma line_old n : (n < nP)%nat -> nth_error C n = nth_error coords n.
Proof. intros H. unfold C. now apply nth_error_app1. Qed.

Lemma line_ends row : In row topo -> ends row (first_node row) (last_node row) /\ (first_node row < nP)%nat /\ (last_node row < nP)%nat.
Proof.
  intros H. destruct (proj1 (Forall_forall _ _) HO row H) as (H0 & HA & HB). assert (0 < length row)%nat by (destruct row; [congruence|cbn; lia]). split; [|split; assumption]. split; apply nth_error_nth'; lia.
Qed.

Lemma cells_nth i t : nth_error (line_cells nP N topo) i = Some t <-> exists row, nth_error topo i = Some row /\ t = chain N (first_node row) (last_node row) (nP + i * (N - 1)).
Proof.
  unfold line_cells. rewrite nth_error_map, nth_error_enum. destruct (nth_error topo i) as [row|]; cbn; split.
  - intros E. injection E as <-. eauto.
  - intros (r & E & ->). now injection E as <-.
  - discriminate.
  - intros (r & E & _). discriminate.
Qed.
Lemma row_range i (row : list nat) : nth_error topo i = Some row -> (i * (N - 1) + (N - 1) <= length topo * (N - 1))%nat.
Proof. intros H. apply nth_error_Some_lt in H. generalize (N - 1)%nat. intros. nia. Qed.

(** node numbers *)
Lemma chain_used i row n : nth_error topo i = Some row -> used (chain N (first_node row) (last_node row) (nP + i * (N - 1))) n ->
  (n < length C)%nat /\ ((n < nP)%nat \/ (nP + i * (N - 1) <= n < nP + i * (N - 1) + (N - 1))%nat).
Proof.
  intros Hi (k & l & H). apply chain_entry in H. destruct H as (Hk & H). rewrite line_len. pose proof (row_range i row Hi) as RR. destruct (line_ends row (nth_error_In _ _ Hi)) as (_ & HA & HB). revert H RR. generalize (i * (N - 1))%nat (length topo * (N - 1))%nat. intros u v H RR.
  destruct H as [[-> ->]|[-> ->]]; [destruct (Nat.eqb_spec k 0)|destruct (Nat.eqb_spec k (N - 1))]; lia.
Qed.
Lemma chain_covers i row n : nth_error topo i = Some row -> (nP + i * (N - 1) <= n < nP + i * (N - 1) + (N - 1))%nat -> used (chain N (first_node row) (last_node row) (nP + i * (N - 1))) n.
Proof.
  intros Hi. generalize (i * (N - 1))%nat. intros u Hn. exists (n - (nP + u))%nat, 1%nat. apply chain_entry. split; [lia|]. right. split; [reflexivity|]. destruct (Nat.eqb_spec (n - (nP + u)) (N - 1)); lia.
Qed.
Lemma new_once n : (nP <= n < length C)%nat -> exists i, (exists t, nth_error (line_cells nP N topo) i = Some t /\ used t n) /\ forall j, (exists t, nth_error (line_cells nP N topo) j = Some t /\ used t n) -> j = i.
Proof.
  rewrite line_len. intros Hn. assert (HM : (0 < N - 1)%nat) by (destruct (N - 1)%nat; [rewrite Nat.mul_0_r in Hn; lia|lia]). set (i := ((n - nP) / (N - 1))%nat). pose proof (Nat.div_mod (n - nP) (N - 1) ltac:(lia)) as DM. pose proof (Nat.mod_upper_bound (n - nP) (N - 1) ltac:(lia)) as MB. fold i in DM.
  assert (Hi : (i < length topo)%nat) by (apply Nat.div_lt_upper_bound; lia). destruct (nth_error_lt topo i Hi) as [row Hrow]. rewrite (Nat.mul_comm (N - 1) i) in DM. exists i. split.
  - exists (chain N (first_node row) (last_node row) (nP + i * (N - 1))). split; [apply cells_nth; eauto|]. apply (chain_covers i row n Hrow). revert DM. generalize (i * (N - 1))%nat. intros. lia.
  - intros j (t & Ht & U). apply cells_nth in Ht. destruct Ht as (row' & Hr' & ->). destruct (chain_used j row' n Hr' U) as (_ & [L|L]); [lia|].
    assert (E : (j * (N - 1) + (n - nP - j * (N - 1)) = i * (N - 1) + (n - nP) mod (N - 1))%nat) by (revert L DM; generalize (j * (N - 1))%nat (i * (N - 1))%nat; intros; lia).
    assert (L2 : (n - nP - j * (N - 1) < N - 1)%nat) by (revert L; generalize (j * (N - 1))%nat; intros; lia). revert E L2 MB HM. generalize (N - 1)%nat ((n - nP) mod (N - 1))%nat (n - nP - j * (N - 1))%nat. intros m a b E L2 MB HM. nia.
Qed.
End lines.

(** the place of the nodes *)
Lemma between_nth p q s x : length p = length q -> nth x (point_between p q s) 0 = nth x p 0 * (1 - s) + nth x q 0 * s.
Proof.
  unfold point_between. revert q x. induction p as [|a p IH]; intros [|b q] x E; try discriminate; cbn; [destruct x; ring|]. destruct x as [|x]; [reflexivity|]. apply IH. now injection E.
Qed.
Lemma chain_place coords topo N d i row k l n x : (1 <= N)%nat -> rect d coords -> Forall (line_ok (length coords)) topo -> nth_error topo i = Some row ->
  entry (chain N (first_node row) (last_node row) (length coords + i * (N - 1))) k l n ->
  coord (coords ++ flat_map (new_points Floating coords N) topo) n x = coord coords (first_node row) x + INR (k + l) / INR N * (coord coords (last_node row) x - coord coords (first_node row) x).
Proof.
  intros HN HR HO Hi H. apply chain_entry in H. destruct H as (Hk & H). destruct (line_ends coords topo N HN HO row (nth_error_In _ _ Hi)) as (_ & HA & HB). pose proof (INR_pos N HN) as PN.
  assert (OLD : forall m, (m < length coords)%nat -> coord (coords ++ flat_map (new_points Floating coords N) topo) m x = coord coords m x) by (intros m Hm; unfold coord; now rewrite app_nth1).
  assert (NEW : forall m j, (1 <= j < N)%nat -> m = (length coords + i * (N - 1) + j - 1)%nat -> coord (coords ++ flat_map (new_points Floating coords N) topo) m x = coord coords (first_node row) x + INR j / INR N * (coord coords (last_node row) x - coord coords (first_node row) x)).
  { intros m j Hj ->. unfold coord at 1. rewrite (nth_error_nth _ _ [] (line_new coords topo N Floating HN i row j Hi Hj)). rewrite map_ext with (g := fun y => y) by reflexivity. rewrite map_id, between_nth.
    - unfold coord. field. lra.
    - rewrite !(proj1 (Forall_forall _ _) HR) by (apply nth_In; assumption). reflexivity. }
  destruct H as [[-> ->]|[-> ->]].
  - rewrite Nat.add_0_r. destruct (Nat.eqb_spec k 0) as [->|Nk]; [rewrite OLD by assumption; cbn [INR]; field; lra|]. apply NEW; [lia|reflexivity].
  - destruct (Nat.eqb_spec k (N - 1)) as [->|Nk]; [rewrite OLD by assumption; replace (N - 1 + 1)%nat with N by lia; field; lra|]. apply NEW; [lia|generalize (i * (N - 1))%nat; intros; lia].
Qed.

Lemma segments {F} its coords topo N d (frames : list F) : (1 <= N)%nat -> Permutation (list_prod (seq 1 N) (seq 1 2)) its -> rect d coords ->
  (forall row, In row topo -> exists a b, ends row a b /\ (a < length coords)%nat /\ (b < length coords)%nat) -> length frames = length topo ->
  exists c ts, mesh1d_core its Floating coords topo 2 N frames = Ok (c, ts, map (fun f => repeat f N) frames) /\
    length c = (length coords + length topo * (N - 1))%nat /\ (forall n, (n < length coords)%nat -> nth_error c n = nth_error coords n) /\ length ts = length topo /\
    (forall i row t a b, nth_error topo i = Some row -> ends row a b -> nth_error ts i = Some t ->
      length t = N /\ (forall s, In s t -> length s = 2%nat) /\ (forall n, used t n -> (n < length c)%nat) /\ entry t 0 0 a /\ entry t (N - 1) 1 b /\
      (forall k n, entry t k 1 n -> (k + 1 < N)%nat -> entry t (k + 1) 0 n) /\
      (forall k n m x, entry t k 0 n -> entry t k 1 m -> coord c m x - coord c n x = (coord coords b x - coord coords a x) / INR N)) /\
    (forall n, (length coords <= n < length c)%nat -> exists i, (exists t, nth_error ts i = Some t /\ used t n) /\ forall j, (exists t, nth_error ts j = Some t /\ used t n) -> j = i).
Proof.
  intros HN HP HR HE HF.
  assert (EE : forall row a b, ends row a b -> row <> [] /\ first_node row = a /\ last_node row = b).
  { intros row a b [H1 H2]. split; [intros ->; discriminate|]. unfold first_node, last_node. split; [exact (nth_error_nth _ _ 0%nat H1)|exact (nth_error_nth _ _ 0%nat H2)]. }
  assert (HO : Forall (line_ok (length coords)) topo). { apply Forall_forall. intros row H. destruct (HE row H) as (a & b & H1 & H2 & H3). destruct (EE row a b H1) as (H4 & <- & <-). split; auto. }
  exists (coords ++ flat_map (new_points Floating coords N) topo), (line_cells (length coords) N topo).
  split; [rewrite (mesh1d_value its Floating coords topo N frames HN HP HO) by lia; now rewrite <- HF, firstn_all|].
  split; [apply line_len|]. split; [intros n Hn; now apply line_old|]. split; [unfold line_cells; rewrite map_length; apply enum_len|]. split; [|intros n Hn; now apply (new_once coords topo N Floating HN HO)].
  intros i row t a b Hi Hab Ht. apply cells_nth in Ht. destruct Ht as (row' & Hr & ->). rewrite Hi in Hr. injection Hr as <-. destruct (EE row a b Hab) as (_ & <- & <-).
  split; [unfold chain; now rewrite map_length, seq_length|]. split; [intros s Hs; unfold chain in Hs; apply in_map_iff in Hs; destruct Hs as (k & <- & _); reflexivity|]. split; [intros n U; exact (proj1 (chain_used coords topo N Floating HN HO i row n Hi U))|].
  split; [apply chain_entry; split; [lia|]; left; auto|]. split; [apply chain_entry; split; [lia|]; right; now rewrite Nat.eqb_refl|]. split.
  - intros k n H Hk. apply chain_entry in H. destruct H as (_ & [[? _]|[_ ->]]); [discriminate|]. apply chain_entry. split; [exact Hk|]. left. split; [reflexivity|]. destruct (Nat.eqb_spec k (N - 1)); [lia|]. destruct (Nat.eqb_spec (k + 1) 0); [lia|]. generalize (i * (N - 1))%nat. intros. lia.
  - intros k n m x H1 H2. rewrite (chain_place coords topo N d i row k 0 n x HN HR HO Hi H1), (chain_place coords topo N d i row k 1 m x HN HR HO Hi H2). rewrite Nat.add_0_r, Nat.add_1_r, S_INR. pose proof (INR_pos N HN). field. lra.
Qed.

(** integers *)
Lemma truncate_small x : 0 <= x < 1 -> truncate x = 0.
Proof. intros H. unfold truncate. destruct (Rle_dec 0 x); [|lra]. replace (Int_part x) with 0%Z; [reflexivity|]. unfold Int_part. assert (up x = 1%Z); [|lia]. symmetry. apply tech_up; cbn; lra. Qed.
Lemma segments_integral {F} its N (f : F) : (2 <= N)%nat -> Permutation (list_prod (seq 1 N) (seq 1 2)) its ->
  exists c ts fr, mesh1d_core its Integral [[0]; [1]] [[0; 1]%nat] 2 N [f] = Ok (c, ts, fr) /\ length c = (N + 1)%nat /\ forall n, (2 <= n < N + 1)%nat -> nth_error c n = Some [0].
Proof.
  intros HN HP. eexists. eexists. eexists. split; [apply mesh1d_value; [lia|exact HP|repeat constructor; (discriminate || cbn; lia)|cbn; lia]|]. split; [rewrite line_len; cbn [length]; lia|].
  intros n Hn. pose proof (line_new [[0]; [1]] [[0; 1]%nat] N Integral ltac:(lia) 0 [0; 1]%nat (n - 1) eq_refl ltac:(lia)) as L. match type of L with nth_error _ ?m = _ => replace m with n in L by (cbn [length]; lia) end. rewrite L. clear L. cbn [first_node last_node nth length Nat.sub point_between combine map fst snd store]. f_equal. f_equal.
  apply truncate_small. pose proof (INR_pos N ltac:(lia)). assert (0 <= INR (n - 1) < INR N) by (split; [apply pos_INR|apply lt_INR; lia]). assert (0 <= INR (n - 1) / INR N < 1); [|lra]. split; [apply Rmult_le_pos; [lra|left; now apply Rinv_0_lt_compat]|apply (Rmult_lt_reg_r (INR N)); [lra|]; unfold Rdiv; rewrite Rmult_assoc, Rinv_l, Rmult_1_r by lra; lra].
Qed.

(** cells with more nodes *)
Lemma line_points_end dt p1 p2 sc : forall js c cN c' cN', line_points dt p1 p2 sc js (c, cN) = Ok (c', cN') -> length c' = length c /\ cN' = (cN + length js)%nat /\ (js <> [] -> (cN' <= length c)%nat).
Proof.
  unfold line_points. induction js as [|j js IH]; intros c cN c' cN' H; cbn [foldM] in H; [injection H as <- <-; cbn; split; [reflexivity|split; [lia|congruence]]|].
  destruct (get2 sc j 0) as [s|]; [|discriminate]. cbn [bind] in H. destruct (set c cN _) as [c1|] eqn:E; [|discriminate]. cbn [bind] in H. pose proof (set_length _ _ _ _ E) as L. pose proof (set_Ok_lt _ _ _ _ E) as B. destruct (IH _ _ _ _ H) as (I1 & I2 & I3). split; [congruence|]. cbn [length]. split; [lia|]. intros _. destruct js as [|j' js]; [cbn in I2; lia|]. rewrite <- L. apply I3. discriminate.
Qed.
Lemma line_fold_end dt coords sc st : (3 <= length sc)%nat -> forall topo c cN ts c' cN' ts', foldM (line_step dt coords sc st) topo (c, cN, ts) = Ok (c', cN', ts') -> length c' = length c /\ cN' = (cN + length topo * (length sc - 2))%nat /\ (topo <> [] -> (cN' <= length c)%nat).
Proof.
  intros HS. induction topo as [|row topo IH]; intros c cN ts c' cN' ts' H; [cbn [foldM] in H; injection H as <- <- <-; cbn; split; [reflexivity|split; [lia|congruence]]|]. cbn [foldM] in H.
  destruct (line_step dt coords sc st (c, cN, ts) row) as [[[c1 cN1] ts1]|] eqn:E; [|discriminate]. cbn [bind] in H. unfold line_step in E. repeat match type of E with (do _ <- ?x; _) = _ => destruct x eqn:?; [|discriminate E]; cbn [bind] in E end.
  match goal with Q : line_points _ _ _ _ _ _ = Ok ?p |- _ => destruct p as [c2 cN2] end. injection E as <- <- <-. match goal with Q : line_points _ _ _ _ _ _ = _ |- _ => destruct (line_points_end _ _ _ _ _ _ _ _ _ Q) as (L1 & L2 & L3) end. rewrite seq_length in L2. destruct (IH _ _ _ _ _ _ H) as (I1 & I2 & I3). split; [congruence|]. cbn [length]. split; [lia|]. intros _. destruct topo as [|row' topo]; [|rewrite <- L1; apply I3; discriminate].
  cbn in I2. rewrite I2, Nat.add_0_r. apply L3. intros Q. apply (f_equal (@length nat)) in Q. rewrite seq_length in Q. cbn in Q. lia.
Qed.
Lemma segments_more {F} its dt coords topo e N (frames : list F) : (1 <= N)%nat -> (3 <= e)%nat -> topo <> [] -> Permutation (list_prod (seq 1 N) (seq 1 e)) its ->
  forall r, mesh1d_core its dt coords topo e N frames <> Ok r.
Proof.
  intros HN He HT HP r H. unfold mesh1d_core in H. rewrite (rgrid1_ok its N e HN ltac:(lia) HP) in H. cbn [bind] in H. destruct (run_writes _ _) as [c|] eqn:E; [|discriminate]. cbn [bind] in H. pose proof (run_writes_length _ _ _ E) as L. rewrite repeat_length in L.
  destruct (foldM _ topo _) as [[[c' cN'] ts']|] eqn:EF; [|discriminate]. assert (LS : length (sub_coords N (e - 1)) = (N * (e - 1) + 1)%nat) by (unfold sub_coords; now rewrite map_length, seq_length).
  assert (LT : (1 <= length topo)%nat) by (destruct topo; [congruence|cbn; lia]).
  destruct (line_fold_end _ _ _ _ ltac:(rewrite LS; nia) _ _ _ _ _ _ _ EF) as (_ & I2 & I3). specialize (I3 HT). rewrite LS in I2. rewrite L in I3. assert (N * (e - 1) + 1 - 2 >= N)%nat by nia. nia.
Qed.
