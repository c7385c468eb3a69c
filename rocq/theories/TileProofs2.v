(** * Proofs about [TileModel.v], part 2: the arrays before nodes are joined *)
From Coq Require Import Reals Lra Lia List Permutation Sorted.
From Verif Require Import BaseFacts FillFacts TrModel TrProofs TopoProofs TopoProofs3 TopoProofs4 TopoProofs5 TileModel TileSpec ExtrudeProofs TileProofs.
Import ListNotations.
Local Open Scope R_scope.

Definition blocks (nX nY : nat) : list (nat * nat) := list_prod (seq 0 nX) (seq 0 nY).
Lemma blocks_In nX nY i j : In (i, j) (blocks nX nY) <-> (i < nX)%nat /\ (j < nY)%nat.
Proof. unfold blocks. rewrite in_prod_iff, !in_seq. lia. Qed.
Lemma blocks_length nX nY : length (blocks nX nY) = (nX * nY)%nat.
Proof. unfold blocks. now rewrite prod_length, !seq_length. Qed.
Lemma blocks_nth nX nY i j : (i < nX)%nat -> (j < nY)%nat -> nth_error (blocks nX nY) (i * nY + j) = Some (i, j).
Proof.
  intros Hi Hj. unfold blocks. pose proof (nth_error_list_prod (seq 0 nX) (seq 0 nY) i j i j) as H. rewrite seq_length in H. apply H; rewrite nth_error_seq; auto.
Qed.
Lemma blocks_NoDup nX nY : NoDup (blocks nX nY).
Proof.
  apply NoDup_nth_error. intros a b Ha E. rewrite blocks_length in Ha.
  destruct (nth_error (blocks nX nY) a) as [[i j]|] eqn:Ea; [|apply nth_error_None in Ea; rewrite blocks_length in Ea; lia]. symmetry in E.
  unfold blocks in Ea, E. apply nth_error_list_prod_inv in Ea, E. rewrite seq_length in *. destruct Ea as (i1 & j1 & -> & A1 & A2). destruct E as (i2 & j2 & -> & B1 & B2). apply nth_error_seq_some in A1, A2, B1, B2. lia.
Qed.

(** rows of blocks *)
Definition stack {A B} (nX nY : nat) (f : nat -> nat -> A -> B) (l : list A) : list B := map (fun br => f (fst (fst br)) (snd (fst br)) (snd br)) (list_prod (blocks nX nY) l).
Lemma stack_length {A B} nX nY (f : nat -> nat -> A -> B) l : length (stack nX nY f l) = (nX * nY * length l)%nat.
Proof. unfold stack. now rewrite map_length, prod_length, blocks_length. Qed.
Lemma stack_nth {A B} nX nY (f : nat -> nat -> A -> B) l i j r x : (i < nX)%nat -> (j < nY)%nat -> nth_error l r = Some x -> nth_error (stack nX nY f l) ((i * nY + j) * length l + r) = Some (f i j x).
Proof. intros Hi Hj Hr. unfold stack. rewrite nth_error_map, (nth_error_list_prod _ _ _ _ (i, j) x); [reflexivity|now apply blocks_nth|exact Hr]. Qed.
Lemma stack_inv {A B} nX nY (f : nat -> nat -> A -> B) l n y : nth_error (stack nX nY f l) n = Some y -> exists i j r x, (i < nX)%nat /\ (j < nY)%nat /\ nth_error l r = Some x /\ n = ((i * nY + j) * length l + r)%nat /\ y = f i j x.
Proof.
  unfold stack. rewrite nth_error_map. destruct (nth_error (list_prod (blocks nX nY) l) n) as [[[i j] x]|] eqn:E; [|discriminate]. intros H. injection H as <-. apply nth_error_list_prod_inv in E. destruct E as (b & r & -> & H1 & H2).
  pose proof (proj1 (blocks_In nX nY i j) (nth_error_In _ _ H1)) as [Hi Hj]. pose proof (blocks_nth nX nY i j Hi Hj) as H3.
  assert (b = (i * nY + j)%nat). { apply (proj1 (NoDup_nth_error (blocks nX nY)) (blocks_NoDup nX nY)); [now apply nth_error_Some_lt in H1|congruence]. } subst b. exists i, j, r, x. auto.
Qed.
Lemma block_inj nP b r b' r' : (r < nP)%nat -> (r' < nP)%nat -> (b * nP + r = b' * nP + r')%nat -> b = b' /\ r = r'.
Proof. intros H1 H2 E. assert (b = b') by nia. subst. lia. Qed.
Lemma block_inj2 nY i j i' j' : (j < nY)%nat -> (j' < nY)%nat -> (i * nY + j = i' * nY + j')%nat -> i = i' /\ j = j'.
Proof. apply block_inj. Qed.

(** ** coordinates *)
Definition moved (coords : list (list R)) (sx sy : R) (i j r : nat) : list R := [coord coords r 0 + INR i * sx; coord coords r 1 + INR j * sy; coord coords r 2].
Definition tiled_coords (coords : list (list R)) (sx sy : R) (nX nY : nat) : list (list R) := stack nX nY (moved coords sx sy) (seq 0 (length coords)).
Lemma tiled_coords_nth coords sx sy nX nY i j r : (i < nX)%nat -> (j < nY)%nat -> (r < length coords)%nat ->
  nth_error (tiled_coords coords sx sy nX nY) ((i * nY + j) * length coords + r) = Some (moved coords sx sy i j r).
Proof. intros Hi Hj Hr. pose proof (stack_nth nX nY (moved coords sx sy) (seq 0 (length coords)) i j r r Hi Hj) as H. rewrite seq_length in H. apply H. now rewrite nth_error_seq. Qed.
Lemma tiled_coords_inv coords sx sy nX nY n p : nth_error (tiled_coords coords sx sy nX nY) n = Some p ->
  exists i j r, (i < nX)%nat /\ (j < nY)%nat /\ (r < length coords)%nat /\ n = ((i * nY + j) * length coords + r)%nat /\ p = moved coords sx sy i j r.
Proof. intros H. apply stack_inv in H. rewrite seq_length in H. destruct H as (i & j & r & x & Hi & Hj & Hx & -> & ->). apply nth_error_seq_some in Hx. destruct Hx as [-> Hx]. exists i, j, r. auto 7. Qed.

Lemma coords_ok coords sx sy nX nY its : rect 3 coords -> coords <> [] -> Permutation (blocks nX nY) its ->
  run_writes2 (flat_map (tile_coord_writes (length coords) nY sx sy (column coords 0) (column coords 1) (column coords 2)) its) (zeros2 0 (nX * nY * length coords) (ncols coords)) = Ok (tiled_coords coords sx sy nX nY).
Proof.
  intros HR HN HP. assert (NC : ncols coords = 3%nat) by (destruct coords as [|p coords]; [congruence|inversion HR; assumption]). rewrite NC.
  assert (CI : forall d k x, In (k, x) (enum (column coords d)) <-> (k < length coords)%nat /\ x = coord coords k d).
  { intros d k x. rewrite enum_In. split; [intros H|intros [H ->]; now apply column_nth]. assert (L : (k < length coords)%nat) by (apply nth_error_Some_lt in H; unfold column in H; now rewrite map_length in H). rewrite (column_nth coords d k L) in H. injection H as <-. now split. }
  assert (RC : rect 3 (tiled_coords coords sx sy nX nY)) by (apply Forall_forall; intros p Hp; apply In_nth_error in Hp; destruct Hp as (n & Hn); apply tiled_coords_inv in Hn; destruct Hn as (i & j & r & _ & _ & _ & _ & ->); reflexivity).
  assert (LC : length (tiled_coords coords sx sy nX nY) = (nX * nY * length coords)%nat) by (unfold tiled_coords; now rewrite stack_length, seq_length).
  apply run_writes2_fill.
  - rewrite shape2_zeros2, (shape2_rect 3 _ RC), LC. reflexivity.
  - intros n c x Hw. apply in_flat_map in Hw. destruct Hw as ([i j] & Hij & Hw). apply (Permutation_in _ (Permutation_sym HP)) in Hij. apply blocks_In in Hij. destruct Hij as [Hi Hj]. cbn [tile_coord_writes] in Hw. rewrite !in_app_iff, !in_map_iff in Hw. unfold get2o.
    destruct Hw as [([k v] & E & H)|[([k v] & E & H)|([k v] & E & H)]]; apply CI in H; destruct H as [Hk ->]; cbn [fst snd] in E; injection E as <- <- <-; rewrite (tiled_coords_nth coords sx sy nX nY i j k Hi Hj Hk); reflexivity.
  - intros n c x Hg. unfold get2o in Hg. destruct (nth_error (tiled_coords coords sx sy nX nY) n) as [p|] eqn:E; [|discriminate]. apply tiled_coords_inv in E. destruct E as (i & j & r & Hi & Hj & Hr & -> & ->).
    exists x. apply in_flat_map. exists (i, j). split; [apply (Permutation_in _ HP); now apply blocks_In|]. cbn [tile_coord_writes]. rewrite !in_app_iff, !in_map_iff.
    destruct c as [|[|[|c]]]; cbn in Hg; [injection Hg as <-|injection Hg as <-|injection Hg as <-|destruct c; discriminate]; [left|right; left|right; right]; eexists (r, _); (split; [cbn [fst snd]; reflexivity|apply CI; split; [exact Hr|reflexivity]]).
Qed.

(** ** nodes of cells *)
Definition shifted (nP nY i j : nat) (row : list nat) : list nat := map (fun n => n + (i * nY + j) * nP)%nat row.
Definition tiled_topo (topo : list (list nat)) (nP nX nY : nat) : list (list nat) := stack nX nY (shifted nP nY) topo.

Lemma topo_ok topo nP nX nY its : rect (ncols topo) topo -> Permutation (blocks nX nY) its ->
  run_writes2 (flat_map (tile_topo_writes nP nY (length topo) topo) its) (zeros2 0%nat (nX * nY * length topo) (ncols topo)) = Ok (tiled_topo topo nP nX nY).
Proof.
  intros HR HP. assert (RC : rect (ncols topo) (tiled_topo topo nP nX nY)).
  { apply Forall_forall. intros p Hp. apply In_nth_error in Hp. destruct Hp as (n & Hn). apply stack_inv in Hn. destruct Hn as (i & j & r & x & _ & _ & Hx & _ & ->). unfold shifted. rewrite map_length. exact (proj1 (Forall_forall _ _) HR _ (nth_error_In _ _ Hx)). }
  assert (LC : length (tiled_topo topo nP nX nY) = (nX * nY * length topo)%nat) by apply stack_length.
  assert (EI : forall r c n, In (r, c, n) (entries topo) <-> entry topo r c n).
  { intros r c n. rewrite entry_get2o. apply entries_in. }
  apply run_writes2_fill.
  - rewrite shape2_zeros2, (shape2_rect _ _ RC), LC. reflexivity.
  - intros n c x Hw. apply in_flat_map in Hw. destruct Hw as ([i j] & Hij & Hw). apply (Permutation_in _ (Permutation_sym HP)) in Hij. apply blocks_In in Hij. destruct Hij as [Hi Hj]. cbn [tile_topo_writes] in Hw. rewrite in_map_iff in Hw. destruct Hw as ([[r k] m] & E & H). injection E as <- <- <-.
    apply EI in H. destruct H as (row & Hr & Hk). unfold get2o, tiled_topo. rewrite (stack_nth nX nY (shifted nP nY) topo i j r row Hi Hj Hr). cbn. unfold shifted. now rewrite nth_error_map, Hk.
  - intros n c x Hg. unfold get2o, tiled_topo in Hg. destruct (nth_error (stack nX nY (shifted nP nY) topo) n) as [p|] eqn:E; [|discriminate]. apply stack_inv in E. destruct E as (i & j & r & row & Hi & Hj & Hr & -> & ->). cbn in Hg. unfold shifted in Hg. rewrite nth_error_map in Hg. destruct (nth_error row c) as [m|] eqn:Em; [|discriminate].
    exists (m + (i * nY + j) * nP)%nat. apply in_flat_map. exists (i, j). split; [apply (Permutation_in _ HP); now apply blocks_In|]. cbn [tile_topo_writes]. apply in_map_iff. exists (r, c, m). split; [reflexivity|]. apply EI. exists row. auto.
Qed.

(** ** the map of the nodes *)
Definition partner (lo hi : list nat) (r : nat) : option nat := last_write (combine lo hi) r.
Definition target (nP nY : nat) (lx hx ly hy : list nat) (i j r : nat) : nat :=
  (let x := if Nat.ltb 0 i then match partner lx hx r with Some s => s + ((i - 1) * nY + j) * nP | None => r + (i * nY + j) * nP end else r + (i * nY + j) * nP in
  if Nat.ltb 0 j then match partner ly hy r with Some s => s + (i * nY + (j - 1)) * nP | None => x end else x)%nat.

Lemma last_write_shift (lo hi : list nat) a b r : last_write (combine (map (fun n => n + a)%nat lo) (map (fun n => n + b)%nat hi)) (r + a) = option_map (fun s => s + b)%nat (partner lo hi r).
Proof.
  unfold partner. revert hi. induction lo as [|x lo IH]; intros [|y hi]; try reflexivity. cbn [map combine]. change (?w :: ?ws) with ([w] ++ ws). rewrite last_write_app, IH. change ((x, y) :: combine lo hi) with ([(x, y)] ++ combine lo hi). rewrite last_write_app.
  destruct (last_write (combine lo hi) r); [reflexivity|]. cbn. destruct (Nat.eqb_spec x r) as [->|N]; [now rewrite Nat.eqb_refl|]. destruct (Nat.eqb_spec (x + a) (r + a)); [lia|reflexivity].
Qed.

Lemma map_ok nP nX nY lx hx ly hy its : (forall n, In n lx -> (n < nP)%nat) -> (forall n, In n ly -> (n < nP)%nat) -> length lx = length hx -> length ly = length hy -> Permutation (blocks nX nY) its ->
  exists ws, mapM (tile_map_writes nP nY lx hx ly hy) its = Ok ws /\ run_writes (concat ws) (seq 0 (nX * nY * nP)) = Ok (stack nX nY (target nP nY lx hx ly hy) (seq 0 nP)).
Proof.
  intros Lx Ly Ex Ey HP.
  set (f := fun ij : nat * nat => let (i, j) := ij in
    (if Nat.ltb 0 i then combine (map (fun n => n + (i * nY + j) * nP)%nat lx) (map (fun n => n + ((i - 1) * nY + j) * nP)%nat hx) else []) ++
    (if Nat.ltb 0 j then combine (map (fun n => n + (i * nY + j) * nP)%nat ly) (map (fun n => n + (i * nY + (j - 1)) * nP)%nat hy) else [])).
  assert (E : mapM (tile_map_writes nP nY lx hx ly hy) its = Ok (map f its)).
  { apply mapM_map. intros [i j] _. unfold tile_map_writes, f, tile_side_writes. rewrite (proj2 (Nat.eqb_eq _ _) Ex), (proj2 (Nat.eqb_eq _ _) Ey). cbn [guard bind]. destruct (Nat.ltb 0 i); cbn [bind]; destruct (Nat.ltb 0 j); reflexivity. }
  exists (map f its). split; [exact E|]. rewrite <- flat_map_concat_map.
  assert (FI : forall i j n v, In (n, v) (f (i, j)) -> exists r, (r < nP)%nat /\ n = ((i * nY + j) * nP + r)%nat).
  { intros i j n v H. unfold f in H. rewrite in_app_iff in H. destruct H as [H|H]; [destruct (Nat.ltb 0 i)|destruct (Nat.ltb 0 j)]; try contradiction; apply in_combine_l in H; apply in_map_iff in H; destruct H as (r & <- & Hr); exists r; (split; [auto|lia]). }
  assert (IB : forall i j, In (i, j) its <-> (i < nX)%nat /\ (j < nY)%nat). { intros i j. rewrite <- blocks_In. split; apply Permutation_in; [now apply Permutation_sym|exact HP]. }
  destruct (proj2 (run_writes_in_range (flat_map f its) (seq 0 (nX * nY * nP)))) as [a Ha].
  { intros n v H. apply in_flat_map in H. destruct H as ([i j] & Hij & H). apply IB in Hij. destruct (FI i j n v H) as (r & Hr & ->). rewrite seq_length. assert (i * nY + j < nX * nY)%nat by nia. nia. }
  rewrite Ha. f_equal. pose proof (run_writes_length _ _ _ Ha) as LA. rewrite seq_length in LA.
  assert (Q : forall i j r, (i < nX)%nat -> (j < nY)%nat -> (r < nP)%nat -> nth_error a ((i * nY + j) * nP + r) = Some (target nP nY lx hx ly hy i j r)).
  { intros i j r Hi Hj Hr. rewrite (run_writes_last _ _ _ Ha). rewrite (last_write_iter f its _ (i, j)).
    - unfold f. rewrite last_write_app. unfold target. assert (B : (i * nY + j < nX * nY)%nat) by nia. assert (S0 : nth_error (seq 0 (nX * nY * nP)) ((i * nY + j) * nP + r) = Some (r + (i * nY + j) * nP)%nat) by (rewrite nth_error_seq; [f_equal; lia|nia]).
      rewrite (Nat.add_comm ((i * nY + j) * nP) r) in *. destruct (Nat.ltb 0 j); [rewrite last_write_shift; destruct (partner ly hy r); cbn [option_map]; [reflexivity|]|cbn [last_write fold_left]];
        (destruct (Nat.ltb 0 i); [rewrite last_write_shift; destruct (partner lx hx r); cbn [option_map]; [reflexivity|exact S0]|exact S0]).
    - apply (Permutation_NoDup HP), blocks_NoDup.
    - intros [i' j'] v Hij H. apply IB in Hij. destruct (FI i' j' _ v H) as (r' & Hr' & E2). destruct (block_inj nP _ _ _ _ Hr Hr' E2) as [E3 _]. destruct (block_inj2 nY i j i' j' Hj ltac:(tauto) E3) as [-> ->]. reflexivity.
    - now apply IB. }
  apply nth_error_ext. intros n. destruct (nth_error (stack nX nY (target nP nY lx hx ly hy) (seq 0 nP)) n) as [y|] eqn:En.
  - apply stack_inv in En. rewrite seq_length in En. destruct En as (i & j & r & x & Hi & Hj & Hx & -> & ->). apply nth_error_seq_some in Hx. destruct Hx as [-> Hx]. now apply Q.
  - apply nth_error_None. apply nth_error_None in En. rewrite stack_length, seq_length in En. lia.
Qed.
