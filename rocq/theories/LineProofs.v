(** * Proofs about [LineModel.v] *)
From Coq Require Import Reals Lra Lia List Permutation.
From Verif Require Import BaseFacts FillFacts TrModel TrSpec TrProofs TopoSpec TopoProofs GridProofs2 LineModel ExtrudeProofs.
Import ListNotations.
Local Open Scope R_scope.

(** ** the grid *)
Lemma map_const {A B} (c : B) (l : list A) : map (fun _ => c) l = repeat c (length l).
Proof. induction l; cbn; congruence. Qed.
Definition line_iterations (ndivX nNodeX : nat) : list (nat * nat) := list_prod (seq 1 ndivX) (seq 1 nNodeX).
Lemma line_iterations_In N e i j : In (i, j) (line_iterations N e) <-> (1 <= i <= N)%nat /\ (1 <= j <= e)%nat.
Proof. unfold line_iterations. rewrite in_prod_iff, !in_seq. lia. Qed.

Definition sub_coords (N w : nat) : list (list R) := map (fun n => [INR n / INR (w * N)]) (seq 0 (N * w + 1)).
Definition sub_topo (N w : nat) : list (list nat) := map (fun i => map (fun j => w * i + j)%nat (seq 0 (w + 1))) (seq 0 N).

Lemma rgrid1_ok its N e : (1 <= N)%nat -> (2 <= e)%nat -> Permutation (line_iterations N e) its ->
  rgrid1_in its 1 N e 0 0 = Ok (sub_coords N (e - 1), sub_topo N (e - 1)).
Proof.
  intros HN He HP. unfold rgrid1_in. rewrite (divn_ok _ N) by lia. cbn [bind]. rewrite divn_ok by lia. cbn [bind].
  set (w := (e - 1)%nat) in *. assert (Ew : e = (w + 1)%nat) by (unfold w; lia). assert (Hw : (1 <= w)%nat) by lia. clearbody w. subst e.
  assert (IT : forall i j, In (i, j) its <-> (1 <= i <= N)%nat /\ (1 <= j <= w + 1)%nat) by (intros i j; rewrite <- line_iterations_In; split; apply Permutation_in; [now apply Permutation_sym|exact HP]).
  pose proof (INR_pos N HN) as PN. pose proof (INR_pos w Hw) as PW.
  assert (V : forall i j, (1 <= i)%nat -> (1 <= j)%nat -> 0 + 1 / INR N * INR (i - 1) + 1 / INR N / INR w * INR (j - 1) = INR (w * (i - 1) + (j - 1)) / INR (w * N)).
  { intros i j Hi Hj. rewrite plus_INR, !mult_INR. field. lra. }
  rewrite (run_writes2_fill _ _ (sub_coords N w)).
  - cbn [bind]. rewrite (run_writes2_fill _ _ (map (map S) (sub_topo N w))).
    + cbn [bind]. unfold add_start1. rewrite map_map. do 2 f_equal. rewrite <- map_id. apply map_ext. intros row. rewrite map_map, <- map_id. apply map_ext. intros n. lia.
    + rewrite shape2_zeros2. unfold sub_topo, shape2. rewrite !map_map. rewrite (map_ext _ (fun _ => (w + 1)%nat)) by (intros i; now rewrite !map_length, seq_length). now rewrite map_const, seq_length.
    + intros r c x Hin. apply in_map_iff in Hin. destruct Hin as ([i j] & E & Hin). injection E as <- <- <-. cbn [fst snd] in *. apply IT in Hin. unfold get2o, sub_topo. rewrite !nth_error_map, nth_error_seq by lia. cbn [option_map Nat.add]. rewrite !nth_error_map, nth_error_seq by lia. cbn [option_map Nat.add]. f_equal. lia.
    + intros r c x Hg. unfold get2o, sub_topo in Hg. rewrite !nth_error_map in Hg. destruct (nth_error (seq 0 N) r) as [i|] eqn:Ei; [|discriminate]. apply nth_error_seq_some in Ei. destruct Ei as [-> Hr]. cbn in Hg. rewrite !nth_error_map in Hg. destruct (nth_error (seq 0 (w + 1)) c) as [j|] eqn:Ej; [|discriminate]. apply nth_error_seq_some in Ej. destruct Ej as [-> Hc].
      eexists. apply in_map_iff. exists (S r, S c). cbn [fst snd]. split; [replace (S r - 1)%nat with r by lia; replace (S c - 1)%nat with c by lia; reflexivity|apply IT; lia].
  - rewrite shape2_zeros2. unfold sub_coords, shape2. rewrite map_map. cbn [length]. now rewrite map_const, seq_length.
  - intros r c x Hin. apply in_map_iff in Hin. destruct Hin as ([i j] & E & Hin). injection E as <- <- <-. cbn [fst snd] in *. apply IT in Hin. unfold get2o, sub_coords. rewrite nth_error_map, nth_error_seq by nia. cbn [option_map nth_error]. f_equal. rewrite V by lia. f_equal. f_equal. destruct Hin as [_ Hin]. generalize (w * (i - 1))%nat. intros u. lia.
  - intros r c x Hg. unfold get2o, sub_coords in Hg. rewrite nth_error_map in Hg. destruct (nth_error (seq 0 (N * w + 1)) r) as [n|] eqn:En; [|discriminate]. apply nth_error_seq_some in En. destruct En as [-> Hr]. cbn in Hg. destruct c as [|c]; [|destruct c; discriminate].
    assert (exists i j, (i < N)%nat /\ (j < w + 1)%nat /\ r = (w * i + j)%nat) as (i & j & Hi & Hj & ->).
    { destruct (Nat.eq_dec r (N * w)) as [->|Nr]; [exists (N - 1)%nat, w; repeat split; nia|]. exists (r / w)%nat, (r mod w)%nat. split; [apply Nat.div_lt_upper_bound; nia|]. split; [pose proof (Nat.mod_upper_bound r w); lia|apply Nat.div_mod; lia]. }
    eexists. apply in_map_iff. exists (S i, S j). cbn [fst snd]. split; [replace (w * (S i - 1) + S j - 1)%nat with (w * i + j)%nat by nia; reflexivity|apply IT; lia].
Qed.

(** ** the points of a line *)
Lemma set_app {A} (l r : list A) x v : set (l ++ x :: r) (length l) v = Ok (l ++ v :: r).
Proof. induction l as [|y l IH]; cbn; [reflexivity|]. now rewrite IH. Qed.

Lemma line_points_ok dt p1 p2 sc (s : nat -> R) : forall js pre z, (forall j, In j js -> get2 sc j 0 = Ok (s j)) -> (length js <= length z)%nat ->
  line_points dt p1 p2 sc js (pre ++ z, length pre) = Ok (pre ++ map (fun j => map (store dt) (point_between p1 p2 (s j))) js ++ skipn (length js) z, (length pre + length js)%nat).
Proof.
  induction js as [|j js IH]; intros pre z HS HL; cbn [line_points foldM]; [cbn; now rewrite Nat.add_0_r|].
  unfold line_points in *. cbn [foldM]. rewrite (HS j) by now left. cbn [bind]. destruct z as [|z0 z]; [cbn in HL; lia|]. rewrite set_app. cbn [bind].
  specialize (IH (pre ++ [map (store dt) (point_between p1 p2 (s j))]) z). rewrite <- !app_assoc, app_length in IH. cbn [length app] in IH. rewrite IH by (try (intros; apply HS; now right); cbn in HL; lia).
  cbn [map app length skipn]. f_equal. f_equal. lia.
Qed.

(** ** the cells of a line *)
Definition chain (N a b cN : nat) : list (list nat) := map (fun k => [if Nat.eqb k 0 then a else cN + k - 1; if Nat.eqb k (N - 1) then b else cN + k]%nat) (seq 0 N).
Lemma chain_entry N a b cN k l n : entry (chain N a b cN) k l n <-> (k < N)%nat /\ ((l = 0%nat /\ n = if Nat.eqb k 0 then a else cN + k - 1)%nat \/ (l = 1%nat /\ n = if Nat.eqb k (N - 1) then b else cN + k)%nat).
Proof.
  unfold entry, chain. split.
  - intros (r & H1 & H2). rewrite nth_error_map in H1. destruct (nth_error (seq 0 N) k) as [x|] eqn:E; [|discriminate]. apply nth_error_seq_some in E. destruct E as [-> Hk]. injection H1 as <-. split; [exact Hk|]. destruct l as [|[|l]]; [left|right|destruct l; discriminate]; injection H2 as <-; auto.
  - intros (Hk & H). eexists. rewrite nth_error_map, nth_error_seq by exact Hk. split; [reflexivity|]. destruct H as [[-> ->]|[-> ->]]; reflexivity.
Qed.
Lemma chain_ok N a b cN : (1 <= N)%nat ->
  (do sub <- set2 (map (map (fun n => n + cN - 1)%nat) (sub_topo N 1)) 0 0 a; do lastrow <- get sub (last_pos sub); set2 sub (last_pos sub) (last_pos lastrow) b) = Ok (chain N a b cN).
Proof.
  intros HN. set (s0 := map _ _). assert (S0 : shape2 s0 = repeat 2%nat N) by (unfold s0, sub_topo, shape2; rewrite !map_map; rewrite (map_ext _ (fun _ => 2%nat)) by (intros; now rewrite !map_length); now rewrite map_const, seq_length).
  assert (SN : forall k, (k < N)%nat -> nth_error (repeat 2%nat N) k = Some 2%nat) by (intros k Hk; rewrite (nth_error_nth' _ 2%nat) by (now rewrite repeat_length); now rewrite nth_repeat).
  destruct (proj2 (set2_Ok_iff s0 0 0 a)) as [s1 E1]; [exists 2%nat; rewrite S0; split; [apply SN; lia|lia]|]. rewrite E1. cbn [bind].
  pose proof (set2_shape _ _ _ _ _ E1) as S1. rewrite S0 in S1.
  assert (L1 : length s1 = N) by (rewrite <- (map_length (@length nat) s1); fold (shape2 s1); now rewrite S1, repeat_length). unfold last_pos at 1. rewrite L1.
  destruct (nth_error_lt s1 (N - 1)) as [lr Elr]; [lia|]. rewrite (proj2 (get_Ok _ _ _) Elr). cbn [bind].
  assert (Llr : length lr = 2%nat). { pose proof (SN (N - 1)%nat ltac:(lia)) as Q. rewrite <- S1 in Q. unfold shape2 in Q. rewrite nth_error_map, Elr in Q. cbn in Q. congruence. }
  unfold last_pos. rewrite L1, Llr. cbn [Nat.sub].
  destruct (proj2 (set2_Ok_iff s1 (N - 1) 1 b)) as [s2 E2]; [exists 2%nat; rewrite S1; split; [apply SN; lia|lia]|]. rewrite E2. f_equal.
  apply get2o_ext.
  - rewrite (set2_shape _ _ _ _ _ E2), S1. unfold chain, shape2. rewrite map_map. cbn [length]. now rewrite map_const, seq_length.
  - intros k l. rewrite (set2_get2o _ _ _ _ _ k l E2), (set2_get2o _ _ _ _ _ k l E1). unfold get2o, s0, chain, sub_topo. rewrite !nth_error_map. destruct (lt_dec k N) as [Hk|Hk].
    + rewrite nth_error_seq by exact Hk. cbn [option_map Nat.add seq map]. destruct l as [|[|l]].
      * rewrite !Bool.andb_false_r, Bool.andb_true_r. cbn [nth_error]. destruct (Nat.eqb_spec k 0); [reflexivity|]. f_equal. lia.
      * rewrite Bool.andb_false_r, Bool.andb_true_r. cbn [nth_error]. destruct (Nat.eqb_spec k (N - 1)); [reflexivity|]. f_equal. lia.
      * rewrite !Bool.andb_false_r. destruct l; reflexivity.
    + destruct (Nat.eqb_spec k (N - 1)); [lia|]. destruct (Nat.eqb_spec k 0); [lia|]. cbn. replace (nth_error (seq 0 N) k) with (@None nat) by (symmetry; apply nth_error_None; rewrite seq_length; lia). reflexivity.
Qed.

(** ** all lines *)
Definition first_node (row : list nat) : nat := nth 0 row 0%nat.
Definition last_node (row : list nat) : nat := nth (length row - 1) row 0%nat.
Definition new_points (dt : dtype) (coords : list (list R)) (N : nat) (row : list nat) : list (list R) :=
  map (fun k => map (store dt) (point_between (nth (first_node row) coords []) (nth (last_node row) coords []) (INR k / INR N))) (seq 1 (N - 1)).
Definition line_ok (nP : nat) (row : list nat) : Prop := row <> [] /\ (first_node row < nP)%nat /\ (last_node row < nP)%nat.
Definition line_cells (nP N : nat) (topo : list (list nat)) : list (list (list nat)) :=
  map (fun ir => chain N (first_node (snd ir)) (last_node (snd ir)) (nP + fst ir * (N - 1))) (enum topo).

Lemma line_step_ok dt coords N pre z ts row : (1 <= N)%nat -> line_ok (length coords) row -> (N - 1 <= length z)%nat ->
  line_step dt coords (sub_coords N 1) (sub_topo N 1) (pre ++ z, length pre, ts) row =
  Ok (pre ++ new_points dt coords N row ++ skipn (N - 1) z, (length pre + (N - 1))%nat, ts ++ [chain N (first_node row) (last_node row) (length pre)]).
Proof.
  intros HN (H0 & HA & HB) HZ. unfold line_step. assert (LR : (0 < length row)%nat) by (destruct row; [congruence|cbn; lia]).
  rewrite (proj2 (get_Ok row 0 (first_node row))) by (now apply nth_error_nth'). cbn [bind]. rewrite (proj2 (get_Ok row (last_pos row) (last_node row))) by (unfold last_pos, last_node; apply nth_error_nth'; lia).
  pose proof (chain_ok N (first_node row) (last_node row) (length pre) HN) as CH. destruct (set2 _ 0 0 (first_node row)) as [sub|]; [|discriminate]. cbn [bind] in *. destruct (get sub (last_pos sub)) as [lr|]; [|discriminate]. cbn [bind] in *. rewrite CH. cbn [bind].
  rewrite (proj2 (get_Ok coords (first_node row) (nth (first_node row) coords []))) by (now apply nth_error_nth'). cbn [bind]. rewrite (proj2 (get_Ok coords (last_node row) (nth (last_node row) coords []))) by (now apply nth_error_nth'). cbn [bind].
  assert (LS : (length (sub_coords N 1) - 2 = N - 1)%nat) by (unfold sub_coords; rewrite map_length, seq_length; lia). rewrite LS.
  rewrite (line_points_ok dt _ _ _ (fun j => INR j / INR N)).
  - rewrite seq_length. reflexivity.
  - intros j Hj. apply in_seq in Hj. apply get2o_get2. unfold get2o, sub_coords. rewrite nth_error_map, nth_error_seq by lia. cbn [option_map nth_error Nat.add]. now rewrite Nat.mul_1_l.
  - rewrite seq_length. exact HZ.
Qed.
Lemma new_points_length dt coords N row : length (new_points dt coords N row) = (N - 1)%nat.
Proof. unfold new_points. now rewrite map_length, seq_length. Qed.
Lemma line_fold dt coords N : (1 <= N)%nat -> forall topo pre z ts i, Forall (line_ok (length coords)) topo -> length pre = (length coords + i * (N - 1))%nat -> length z = (length topo * (N - 1))%nat ->
  exists n, foldM (line_step dt coords (sub_coords N 1) (sub_topo N 1)) topo (pre ++ z, length pre, ts) =
    Ok (pre ++ flat_map (new_points dt coords N) topo, n, ts ++ map (fun ir => chain N (first_node (snd ir)) (last_node (snd ir)) (length coords + fst ir * (N - 1))) (enum_from i topo)).
Proof.
  intros HN. induction topo as [|row topo IH]; intros pre z ts i HF HP HZ.
  - exists (length pre). cbn in *. destruct z; [|discriminate]. now rewrite !app_nil_r.
  - inversion HF as [|? ? H1 H2]; subst. cbn [foldM]. cbn [length] in HZ. assert (HZ' : (N - 1 <= length z)%nat) by (rewrite HZ; generalize (N - 1)%nat; intros; nia). rewrite (line_step_ok dt coords N pre z ts row HN H1 HZ'). cbn [bind].
    destruct (IH (pre ++ new_points dt coords N row) (skipn (N - 1) z) (ts ++ [chain N (first_node row) (last_node row) (length pre)]) (S i) H2) as (n & E).
    { rewrite app_length, new_points_length, HP. generalize (N - 1)%nat. intros. lia. } { rewrite skipn_length, HZ. generalize (N - 1)%nat. intros. lia. }
    exists n. rewrite <- app_assoc, app_length, new_points_length in E. rewrite E. cbn [flat_map enum_from map fst snd]. rewrite <- !app_assoc. cbn [app]. rewrite HP. reflexivity.
Qed.

Lemma copy_ok (coords : list (list R)) m z : run_writes (enum coords) (repeat z (length coords + m)) = Ok (coords ++ repeat z m).
Proof.
  unfold enum. assert (Q : forall pre, run_writes (enum_from (length pre) coords) (pre ++ repeat z (length coords + m)) = Ok (pre ++ coords ++ repeat z m)); [|exact (Q [])].
  induction coords as [|p coords IH]; intros pre; [reflexivity|]. unfold run_writes in *. cbn [enum_from foldM fst snd length Nat.add repeat]. rewrite set_app. cbn [bind]. specialize (IH (pre ++ [p])). rewrite app_length in IH. cbn [length] in IH. rewrite Nat.add_1_r in IH. rewrite <- !app_assoc in IH. cbn [app] in IH. exact IH.
Qed.

Lemma mesh1d_value {F} its dt coords topo N (frames : list F) : (1 <= N)%nat -> Permutation (line_iterations N 2) its -> Forall (line_ok (length coords)) topo -> (length topo <= length frames)%nat ->
  mesh1d_core its dt coords topo 2 N frames = Ok (coords ++ flat_map (new_points dt coords N) topo, line_cells (length coords) N topo, map (fun f => repeat f N) (firstn (length topo) frames)).
Proof.
  intros HN HP HF HL. unfold mesh1d_core. rewrite (rgrid1_ok its N 2 HN ltac:(lia) HP). cbn [bind Nat.sub]. rewrite copy_ok. cbn [bind].
  destruct (line_fold dt coords N HN topo coords (repeat (repeat 0 (ncols coords)) (length topo * (N - 1))) [] 0 HF ltac:(lia) ltac:(now rewrite repeat_length)) as (n & E). rewrite E. cbn [bind app].
  assert (M : forall k (fs : list F), (k <= length fs)%nat -> mapM (fun i => do f <- get fs i; Ok (repeat f N)) (seq 0 k) = Ok (map (fun f => repeat f N) (firstn k fs))).
  { clear. intros k fs. revert fs. assert (Q : forall k o (fs : list F), (o + k <= length fs)%nat -> mapM (fun i => do f <- get fs i; Ok (repeat f N)) (seq o k) = Ok (map (fun f => repeat f N) (firstn k (skipn o fs)))); [|intros fs H; apply (Q k 0%nat fs H)].
    clear k. induction k as [|k IH]; intros o fs H; [reflexivity|]. cbn [seq mapM]. destruct (nth_error_lt fs o) as [f Hf]; [lia|]. rewrite (proj2 (get_Ok _ _ _) Hf). cbn [bind]. rewrite (IH (S o) fs) by lia. cbn [bind]. f_equal.
    assert (skipn o fs = f :: skipn (S o) fs) as ->; [|reflexivity]. clear - Hf. revert fs Hf. induction o; intros [|g fs] Hf; try discriminate; [injection Hf as <-; reflexivity|]. cbn [skipn]. now apply IHo. }
  rewrite M by exact HL. reflexivity.
Qed.
