(** * Proofs about [GridModel.v], part 6: named grids and the arguments of grid *)
From Coq Require Import Reals Lra String.
From Verif Require Export GridProofs5 CellsModel EvalModel.
From Verif Require Import TrProofs.
Local Open Scope R_scope.
#[local] Arguments coord : simpl never.

Lemma reorder_ok w topo path : rect w topo -> Forall (fun q => (q < w)%nat) path ->
  exists t, transform_topology 0%nat topo (P1 path) DNone = Ok (t, DNone) /\ reordered path topo t.
Proof.
  intros Hr Hp. assert (Hv : valid_path w [path]).
  { split; [exists (length path); constructor; auto|]. intros p q [<-|[]] Hq. rewrite Forall_forall in Hp. auto. }
  destruct (transform_split 0%nat w _ topo [path] Hr Hv (Permutation_refl _)) as (r & E & Hl & H).
  exists r. unfold transform_topology, transform_topology_. cbn [path_rows]. rewrite E. cbn [bind]. split; auto.
  split; [rewrite Hl; cbn [length]; lia|].
  intros c cell Hc. destruct (H c 0%nat cell path Hc eq_refl) as (row & Hrow & Hlr & Hj). exists row.
  cbn [length] in Hrow. replace (c * 1 + 0)%nat with c in Hrow by lia. auto.
Qed.
Lemma reordered_perm path topo topo' c cell cell' : reordered path topo topo' -> Permutation path (seq 0 (length cell)) ->
  nth_error topo c = Some cell -> nth_error topo' c = Some cell' -> Permutation cell cell'.
Proof.
  intros [_ H] Hp Hc Hc'. destruct (H _ _ Hc) as (row & Hr & Hl & Hj). rewrite Hc' in Hr. injection Hr as <-.
  replace cell' with (map (fun q => nth q cell 0%nat) path).
  - rewrite Hp. replace (map (fun q => nth q cell 0%nat) (seq 0 (length cell))) with cell; auto.
    apply nth_error_ext. intros i. rewrite nth_error_map.
    destruct (Nat.lt_ge_cases i (length cell)) as [Hi|Hi].
    + rewrite nth_error_seq by auto. cbn. apply nth_error_nth'. auto.
    + rewrite !(proj2 (nth_error_None _ _)); auto. rewrite seq_length. auto.
  - apply nth_error_ext. intros i. rewrite nth_error_map. destruct (nth_error path i) as [q|] eqn:E.
    + rewrite (Hj _ _ E). cbn. symmetry. apply nth_error_nth'.
      assert (In q (seq 0 (length cell))) by (rewrite <- Hp; eapply nth_error_In; eauto). apply in_seq in H0. lia.
    + cbn. symmetry. apply nth_error_None. apply nth_error_None in E. lia.
Qed.

(** ** The positions named by a path *)
Definition path_table2 (w : nat) (path : list nat) (lcoords : list (list R)) : Prop :=
  length path = length lcoords /\ forall k q, nth_error lcoords k = Some q -> exists a b, (a <= w)%nat /\ (b <= w)%nat /\
    nth_error path k = Some (a * (w + 1) + b)%nat /\ nth 0 q 0 = 2 * INR a / INR w - 1 /\ nth 1 q 0 = 2 * INR b / INR w - 1.
Definition path_table3 (w : nat) (path : list nat) (lcoords : list (list R)) : Prop :=
  length path = length lcoords /\ forall k q, nth_error lcoords k = Some q -> exists a b c, (a <= w)%nat /\ (b <= w)%nat /\ (c <= w)%nat /\
    nth_error path k = Some ((a * (w + 1) + b) * (w + 1) + c)%nat /\
    nth 0 q 0 = 2 * INR a / INR w - 1 /\ nth 1 q 0 = 2 * INR b / INR w - 1 /\ nth 2 q 0 = 2 * INR c / INR w - 1.

Ltac solve_pt2 w path :=
  lazymatch goal with |- context[nth_error path ?k] =>
    let e := eval cbv in (nth k path 0%nat) in
    let a := eval cbv in (Nat.div e (w + 1)) in
    let b := eval cbv in (Nat.modulo e (w + 1)) in
    exists a, b; split; [lia|]; split; [lia|]; split; [reflexivity|]; cbn [nth kofZ NumR]; simpl INR; split; lra end.
Ltac solve_pt3 w path :=
  lazymatch goal with |- context[nth_error path ?k] =>
    let e := eval cbv in (nth k path 0%nat) in
    let a := eval cbv in (Nat.div (Nat.div e (w + 1)) (w + 1)) in
    let b := eval cbv in (Nat.modulo (Nat.div e (w + 1)) (w + 1)) in
    let c := eval cbv in (Nat.modulo e (w + 1)) in
    exists a, b, c; split; [lia|]; split; [lia|]; split; [lia|]; split; [reflexivity|]; cbn [nth kofZ NumR]; simpl INR;
    split; [|split]; lra end.
Ltac each_k k tac :=
  repeat (destruct k as [|k]; [let H := fresh in intros H; cbn [nth_error] in H; injection H as <-; tac|]);
  let H := fresh in intros H; destruct k; discriminate H.
Lemma table_Q4 : path_table2 1 path_Q4 (lcoords_Q4 (K := R)).
Proof. split; [reflexivity|]. intros k q. unfold lcoords_Q4. each_k k ltac:(idtac; solve_pt2 1%nat path_Q4). Qed.
Lemma table_Q9 : path_table2 2 path_Q9 (lcoords_Q9 (K := R)).
Proof. split; [reflexivity|]. intros k q. unfold lcoords_Q9. each_k k ltac:(idtac; solve_pt2 2%nat path_Q9). Qed.
Lemma table_H8 : path_table3 1 path_H8 (lcoords_H8 (K := R)).
Proof. split; [reflexivity|]. intros k q. unfold lcoords_H8. each_k k ltac:(idtac; solve_pt3 1%nat path_H8). Qed.
Lemma table_H27 : path_table3 2 path_H27 (lcoords_H27 (K := R)).
Proof. split; [reflexivity|]. intros k q. unfold lcoords_H27. each_k k ltac:(idtac; solve_pt3 2%nat path_H27). Qed.

Lemma placed2 nx ny w start X Y coords topo topo' path lcoords (lox hx loy hy : nat -> R) :
  (1 <= w)%nat -> lattice2 nx ny w w start X Y coords topo -> path_table2 w path lcoords -> reordered path topo topo' ->
  (forall i k, X i k = lox i + hx i / INR w * INR k) -> (forall i k, Y i k = loy i + hy i / INR w * INR k) ->
  forall i j, (i < nx)%nat -> (j < ny)%nat -> exists cell, nth_error topo' (i * ny + j) = Some cell /\
    box_placed 2 start coords cell lcoords (fun d => nth d [lox i; loy j] 0) (fun d => nth d [hx i; hy j] 0).
Proof.
  intros Hw (_ & _ & HL) [Hlp Ht] [_ HR] HX HY i j Hi Hj. pose proof (INR_pos w Hw).
  destruct (HL i j Hi Hj) as (cell & Hc & Hlen & Hkm). destruct (HR _ _ Hc) as (cell' & Hc' & Hl' & Hp).
  exists cell'. split; auto. split; [lia|]. intros k q Hq d Hd.
  destruct (Ht k q Hq) as (a & b & Ha & Hb & Hpk & H0 & H1). destruct (Hkm a b Ha Hb) as [Hn Hco].
  specialize (Hp _ _ Hpk). rewrite Hn in Hp. rewrite (nth_error_nth cell' k 0%nat Hp).
  match goal with |- coord _ (start + ?p - start) _ = _ => replace (start + p - start)%nat with p by lia end.
  unfold coord. rewrite (nth_error_nth _ _ [] Hco).
  destruct d as [|[|d]]; [| |lia]; cbn [nth]; rewrite ?H0, ?H1, ?HX, ?HY; field; lra.
Qed.
Lemma placed3 nx ny nz w start X Y Z coords topo topo' path lcoords (lox hx loy hy loz hz : nat -> R) :
  (1 <= w)%nat -> lattice3 nx ny nz w w w start X Y Z coords topo -> path_table3 w path lcoords -> reordered path topo topo' ->
  (forall i k, X i k = lox i + hx i / INR w * INR k) -> (forall i k, Y i k = loy i + hy i / INR w * INR k) ->
  (forall i k, Z i k = loz i + hz i / INR w * INR k) ->
  forall i j l, (i < nx)%nat -> (j < ny)%nat -> (l < nz)%nat -> exists cell, nth_error topo' ((i * ny + j) * nz + l) = Some cell /\
    box_placed 3 start coords cell lcoords (fun d => nth d [lox i; loy j; loz l] 0) (fun d => nth d [hx i; hy j; hz l] 0).
Proof.
  intros Hw (_ & _ & HL) [Hlp Ht] [_ HR] HX HY HZ i j l Hi Hj Hl. pose proof (INR_pos w Hw).
  destruct (HL i j l Hi Hj Hl) as (cell & Hc & Hlen & Hkm). destruct (HR _ _ Hc) as (cell' & Hc' & Hl' & Hp).
  exists cell'. split; auto. split; [lia|]. intros k q Hq d Hd.
  destruct (Ht k q Hq) as (a & b & c & Ha & Hb & Hcc & Hpk & H0 & H1 & H2). destruct (Hkm a b c Ha Hb Hcc) as [Hn Hco].
  specialize (Hp _ _ Hpk). rewrite Hn in Hp. rewrite (nth_error_nth cell' k 0%nat Hp).
  match goal with |- coord _ (start + ?p - start) _ = _ => replace (start + p - start)%nat with p by lia end.
  unfold coord. rewrite (nth_error_nth _ _ [] Hco).
  destruct d as [|[|[|d]]]; [| | |lia]; cbn [nth]; rewrite ?H0, ?H1, ?H2, ?HX, ?HY, ?HZ; field; lra.
Qed.

(** ** grid *)
Lemma grid_uniform_tuple size shape shift start es :
  grid (uargs size shape shift start) (ETuple es) = rgridMT size shape es shift start.
Proof. unfold grid, grid_tail. cbn. destruct (rgridMT size shape es shift start) as [[c t]|e]; reflexivity. Qed.
Lemma grid_bins2 xb yb shift start es (e : eshape_arg) : e = ETuple es \/ e = ESeq es ->
  grid (bargs [xb; yb] shift start) e = grid_2d_bins xb yb es shift start.
Proof. intros [->| ->]; unfold grid, grid_tail; cbn; destruct (grid_2d_bins xb yb es shift start) as [[c t]|x]; reflexivity. Qed.
Lemma grid_bins3 xb yb zb shift start es (e : eshape_arg) : e = ETuple es \/ e = ESeq es ->
  grid (bargs [xb; yb; zb] shift start) e = grid_3d_bins (fun x => x) xb yb zb es shift start.
Proof. intros [->| ->]; unfold grid, grid_tail; cbn; destruct (grid_3d_bins (fun x => x) xb yb zb es shift start) as [[c t]|x]; reflexivity. Qed.

Definition named (a : grid_args (K := R)) (name : String.string) (es path : list nat) : Prop :=
  forall coords topo w, grid a (ETuple es) = Ok (coords, topo) -> rect w topo -> Forall (fun q => (q < w)%nat) path ->
    exists topo', grid a (EName name) = Ok (coords, topo') /\ reordered path topo topo'.
Lemma named_ok a name es path : a_path a = None -> (exists s, a_shift a = Some s) ->
  (forall b, a_path b = None -> a_size b = a_size a -> a_shape b = a_shape a -> a_shift b = a_shift a -> a_start b = a_start a ->
     a_bins b = a_bins a -> a_cast b = a_cast a -> a_centralize b = a_centralize a -> a = b ->
     grid a (EName name) = (do _ <- grid_dim a; grid_named es path b)) ->
  named a name es path.
Proof.
  intros Hp [s Hs] H coords topo w E Hr Hf.
  rewrite (H a) by auto. clear H. unfold grid in E.
  destruct (grid_dim a) as [n|] eqn:Ed; cbn [bind] in *; [|discriminate].
  unfold grid_named, grid_tuple. rewrite Ed. cbn [bind]. rewrite E. cbn [bind snd fst].
  destruct (reorder_ok w topo path Hr Hf) as (t & -> & Hre). cbn [bind fst]. eauto.
Qed.
Lemma args_eta (a : grid_args (K := R)) s : a_path a = None -> a_shift a = Some s ->
  {| a_size := a_size a; a_shape := a_shape a; a_shift := Some s; a_start := a_start a;
     a_bins := a_bins a; a_cast := a_cast a; a_centralize := a_centralize a; a_path := None |} = a.
Proof. destruct a. cbn. intros -> ->. reflexivity. Qed.
Ltac named_tac :=
  intros a s Hp Hs; apply named_ok; eauto; intros b _ _ _ _ _ _ _ _ <-; unfold grid;
  destruct (grid_dim a) as [n|]; cbn [bind]; [|reflexivity];
  unfold grid_shift; rewrite Hs; cbn [String.eqb Ascii.eqb Bool.eqb]; rewrite args_eta by auto; reflexivity.
Lemma named_Q4 : forall a s, a_path a = None -> a_shift a = Some s -> named a "Q4"%string [2; 2]%nat path_Q4.
Proof. named_tac. Qed.
Lemma named_Q9 : forall a s, a_path a = None -> a_shift a = Some s -> named a "Q9"%string [3; 3]%nat path_Q9.
Proof. named_tac. Qed.
Lemma named_H8 : forall a s, a_path a = None -> a_shift a = Some s -> named a "H8"%string [2; 2; 2]%nat path_H8.
Proof. named_tac. Qed.
Lemma named_H27 : forall a s, a_path a = None -> a_shift a = Some s -> named a "H27"%string [3; 3; 3]%nat path_H27.
Proof. named_tac. Qed.
