(** * Proofs about [TileModel.v], part 3: the mesh of the tiles *)
From Coq Require Import Reals Lra Lia List Permutation Sorted.
From Verif Require Import BaseFacts FillFacts TrModel TrProofs TopoProofs TopoProofs3 TopoProofs4 TopoProofs5 TileModel TileSpec ExtrudeProofs TileProofs TileProofs2.
Import ListNotations.
Local Open Scope R_scope.

(** ** sides *)
Lemma Forall2_len {A B} (P : A -> B -> Prop) l k : Forall2 P l k -> length l = length k.
Proof. induction 1; cbn; auto. Qed.
Lemma Forall2_combine {A B} (P : A -> B -> Prop) l k : Forall2 P l k -> forall a b, In (a, b) (combine l k) -> P a b.
Proof. induction 1; cbn; [contradiction|]. intros a b [E|H1]; [injection E as <- <-; assumption|auto]. Qed.
Lemma sorted_NoDup l : StronglySorted lt l -> NoDup l.
Proof. induction 1 as [|x l HS IH HF]; constructor; [|exact IH]. intros H. pose proof (proj1 (Forall_forall _ _) HF x H). lia. Qed.
Lemma combine_fun {A B} : forall (l : list A) (k : list B) a b b', NoDup l -> In (a, b) (combine l k) -> In (a, b') (combine l k) -> b = b'.
Proof.
  induction l as [|x l IH]; intros [|y k] a b b' ND H1 H2; cbn in *; try contradiction. inversion ND; subst. destruct H1 as [E1|H1], H2 as [E2|H2].
  - congruence.
  - injection E1 as -> ->. apply in_combine_l in H2. contradiction.
  - injection E2 as -> ->. apply in_combine_l in H1. contradiction.
  - eauto.
Qed.
Lemma partner_some lo hi r s : NoDup lo -> In (r, s) (combine lo hi) -> partner lo hi r = Some s.
Proof. intros ND H. apply last_write_once; [exact H|]. intros w Hw. exact (combine_fun lo hi r w s ND Hw H). Qed.
Lemma combine_total {A B} : forall (l : list A) (k : list B), length l = length k -> forall a, In a l -> exists b, In (a, b) (combine l k) /\ In b k.
Proof.
  induction l as [|x l IH]; intros [|y k] E a H; cbn in *; try contradiction; try discriminate. injection E as E. destruct H as [<-|H]; [exists y; auto|]. destruct (IH k E a H) as (b & H1 & H2). exists b; auto.
Qed.
Lemma partner_spec lo hi r : NoDup lo -> length lo = length hi ->
  match partner lo hi r with Some s => In (r, s) (combine lo hi) /\ In s hi | None => ~ In r lo end.
Proof.
  intros ND E. destruct (in_dec Nat.eq_dec r lo) as [H|H].
  - destruct (combine_total lo hi E r H) as (s & H1 & H2). rewrite (partner_some lo hi r s ND H1). auto.
  - unfold partner. rewrite last_write_none; [exact H|]. intros v Hv. apply in_combine_l in Hv. contradiction.
Qed.

Definition image (nP nX nY : nat) (lx hx ly hy : list nat) : list nat := stack nX nY (target nP nY lx hx ly hy) (seq 0 nP).
Lemma image_nth nP nX nY lx hx ly hy i j r : (i < nX)%nat -> (j < nY)%nat -> (r < nP)%nat -> nth_error (image nP nX nY lx hx ly hy) ((i * nY + j) * nP + r) = Some (target nP nY lx hx ly hy i j r).
Proof. intros Hi Hj Hr. pose proof (stack_nth nX nY (target nP nY lx hx ly hy) (seq 0 nP) i j r r Hi Hj) as H. rewrite seq_length in H. apply H. now rewrite nth_error_seq. Qed.
Definition image_of (nP nX nY : nat) (lx hx ly hy : list nat) (n : nat) : nat := nth n (image nP nX nY lx hx ly hy) 0%nat.
Lemma image_of_at nP nX nY lx hx ly hy i j r : (i < nX)%nat -> (j < nY)%nat -> (r < nP)%nat -> image_of nP nX nY lx hx ly hy (r + (i * nY + j) * nP) = target nP nY lx hx ly hy i j r.
Proof. intros Hi Hj Hr. unfold image_of. rewrite Nat.add_comm. exact (nth_error_nth _ _ _ (image_nth nP nX nY lx hx ly hy i j r Hi Hj Hr)). Qed.

Lemma tiled_entry topo nP nX nY n c m : entry (tiled_topo topo nP nX nY) n c m <->
  exists i j e r, (i < nX)%nat /\ (j < nY)%nat /\ n = ((i * nY + j) * length topo + e)%nat /\ entry topo e c r /\ m = (r + (i * nY + j) * nP)%nat.
Proof.
  split.
  - intros (row & H1 & H2). apply stack_inv in H1. destruct H1 as (i & j & e & row0 & Hi & Hj & He & -> & ->). unfold shifted in H2. rewrite nth_error_map in H2. destruct (nth_error row0 c) as [r|] eqn:Er; [|discriminate]. injection H2 as <-. exists i, j, e, r. repeat split; auto. exists row0; auto.
  - intros (i & j & e & r & Hi & Hj & -> & (row0 & H1 & H2) & ->). exists (shifted nP nY i j row0). split; [now apply stack_nth|]. unfold shifted. now rewrite nth_error_map, H2.
Qed.
Lemma map_map_entry (f : nat -> nat) t i j m : entry (map (map f) t) i j m <-> exists n, entry t i j n /\ m = f n.
Proof.
  split.
  - intros (row & H1 & H2). rewrite nth_error_map in H1. destruct (nth_error t i) as [r|] eqn:E; [|discriminate]. injection H1 as <-. rewrite nth_error_map in H2. destruct (nth_error r j) as [n|] eqn:En; [|discriminate]. injection H2 as <-. exists n. split; [exists r; auto|reflexivity].
  - intros (n & (r & H1 & H2) & ->). exists (map f r). split; [now rewrite nth_error_map, H1|]. now rewrite nth_error_map, H2.
Qed.

(** ** what is computed *)
Definition sides (coords : list (list R)) (tol sx sy : R) (lx hx ly hy : list nat) : Prop :=
  rect 3 coords /\ exists xmin xmax ymin ymax, bounds coords 0 xmin xmax /\ bounds coords 1 ymin ymax /\ sx = xmax - xmin /\ sy = ymax - ymin /\
    nodes_near coords 0 xmin tol lx /\ nodes_near coords 0 xmax tol hx /\ nodes_near coords 1 ymin tol ly /\ nodes_near coords 1 ymax tol hy /\ length lx = length hx /\ length ly = length hy.
Lemma cell_sides coords tol sx sy lx hx ly hy : tile_cell coords tol sx sy lx hx ly hy -> sides coords tol sx sy lx hx ly hy.
Proof.
  intros (HR & x0 & x1 & y0 & y1 & BX & BY & EX & EY & LX & HX & LY & HY & MX & MY). split; [exact HR|]. exists x0, x1, y0, y1. repeat (split; [assumption|]). split; [exact (Forall2_len _ _ _ MX)|exact (Forall2_len _ _ _ MY)].
Qed.
Lemma tile_value_sides its coords topo nX nY tol sx sy lx hx ly hy : sides coords tol sx sy lx hx ly hy -> rect (ncols topo) topo -> (forall n, used topo n -> (n < length coords)%nat) -> Permutation (blocks nX nY) its ->
  tile2d_in its coords topo nX nY tol = detach_mesh_bulk (tiled_coords coords sx sy nX nY) (map (map (image_of (length coords) nX nY lx hx ly hy)) (tiled_topo topo (length coords) nX nY)).
Proof.
  intros (HR & x0 & x1 & y0 & y1 & BX & BY & -> & -> & LX & HX & LY & HY & MX & MY) HT HU HP.
  assert (HN : coords <> []) by (destruct BX as ((n & Hn & _) & _); destruct coords; [cbn in Hn; lia|discriminate]).
  unfold tile2d_in. rewrite !column_ok by (auto; lia). cbn [bind]. rewrite (minmax_bounds _ _ _ _ BX), (minmax_bounds _ _ _ _ BY). cbn [bind fst snd].
  rewrite (near_where _ _ _ _ _ LX), (near_where _ _ _ _ _ HX), (near_where _ _ _ _ _ LY), (near_where _ _ _ _ _ HY).
  rewrite (coords_ok coords _ _ nX nY its HR HN HP), (topo_ok topo (length coords) nX nY its HT HP). cbn [bind].
  destruct (map_ok (length coords) nX nY lx hx ly hy its (fun n H => proj1 (proj1 (proj2 LX n) H)) (fun n H => proj1 (proj1 (proj2 LY n) H)) MX MY HP) as (ws & E1 & E2).
  rewrite E1. cbn [bind]. rewrite E2. cbn [bind]. rewrite (remap_topo_ok _ _ (image_of (length coords) nX nY lx hx ly hy)); [reflexivity|].
  intros n (a & b & H). apply tiled_entry in H. destruct H as (i & j & e & r & Hi & Hj & _ & He & ->). assert (Hr : (r < length coords)%nat) by (apply HU; exists e, b; exact He).
  rewrite image_of_at by assumption. cbn [mlookup]. apply get_Ok. rewrite Nat.add_comm. now apply image_nth.
Qed.
Lemma tile_value its coords topo nX nY tol sx sy lx hx ly hy : tile_cell coords tol sx sy lx hx ly hy -> rect (ncols topo) topo -> (forall n, used topo n -> (n < length coords)%nat) -> Permutation (blocks nX nY) its ->
  tile2d_in its coords topo nX nY tol = detach_mesh_bulk (tiled_coords coords sx sy nX nY) (map (map (image_of (length coords) nX nY lx hx ly hy)) (tiled_topo topo (length coords) nX nY)).
Proof. intros H. apply tile_value_sides, cell_sides, H. Qed.

(** ** places of the nodes *)
Section places.
Variables (coords : list (list R)) (tol sx sy : R) (lx hx ly hy : list nat) (nX nY : nat).
Hypothesis HT : tile_cell coords tol sx sy lx hx ly hy.
Let nP := length coords.

Lemma target_cases i j r : (i < nX)%nat -> (j < nY)%nat -> (r < nP)%nat -> exists i' j' s, (i' < nX)%nat /\ (j' < nY)%nat /\ (s < nP)%nat /\ target nP nY lx hx ly hy i j r = (s + (i' * nY + j') * nP)%nat /\ moved coords sx sy i' j' s = moved coords sx sy i j r /\
  ((0 < j /\ In (r, s) (combine ly hy) /\ i' = i /\ j' = j - 1)%nat \/ ((j = 0 \/ ~ In r ly) /\ 0 < i /\ In (r, s) (combine lx hx) /\ i' = i - 1 /\ j' = j)%nat \/ ((j = 0 \/ ~ In r ly) /\ (i = 0 \/ ~ In r lx) /\ s = r /\ i' = i /\ j' = j)%nat).
Proof.
  intros Hi Hj Hr. destruct HT as (HR & x0 & x1 & y0 & y1 & BX & BY & EX & EY & LX & HX & LY & HY & MX & MY).
  pose proof (partner_spec lx hx r (sorted_NoDup _ (proj1 LX)) (Forall2_len _ _ _ MX)) as PX. pose proof (partner_spec ly hy r (sorted_NoDup _ (proj1 LY)) (Forall2_len _ _ _ MY)) as PY.
  assert (QY : forall s, (0 < j)%nat -> In (r, s) (combine ly hy) -> moved coords sx sy i (j - 1) s = moved coords sx sy i j r).
  { intros s H0 H. destruct (Forall2_combine _ _ _ MY r s H) as [E1 E2]. unfold moved. rewrite E1, (E2 0%nat), (E2 2%nat) by lia. replace (INR j) with (INR (j - 1) + 1) by (rewrite <- S_INR; f_equal; lia). f_equal. f_equal. ring. }
  assert (QX : forall s, (0 < i)%nat -> In (r, s) (combine lx hx) -> moved coords sx sy (i - 1) j s = moved coords sx sy i j r).
  { intros s H0 H. destruct (Forall2_combine _ _ _ MX r s H) as [E1 E2]. unfold moved. rewrite E1, (E2 1%nat), (E2 2%nat) by lia. replace (INR i) with (INR (i - 1) + 1) by (rewrite <- S_INR; f_equal; lia). f_equal. ring. }
  unfold target. destruct (Nat.ltb_spec 0 j) as [H0j|H0j].
  - destruct (partner ly hy r) as [s|].
    + exists i, (j - 1)%nat, s. destruct PY as [PY1 PY2]. apply (proj2 HY) in PY2. fold nP in PY2. split; [lia|]. split; [lia|]. split; [tauto|]. split; [lia|]. split; [now apply QY|]. left. auto.
    + destruct (Nat.ltb_spec 0 i) as [H0i|H0i]; [destruct (partner lx hx r) as [s|]|].
      * exists (i - 1)%nat, j, s. destruct PX as [PX1 PX2]. apply (proj2 HX) in PX2. fold nP in PX2. split; [lia|]. split; [lia|]. split; [tauto|]. split; [lia|]. split; [now apply QX|]. right. left. auto 7.
      * exists i, j, r. split; [lia|]. split; [lia|]. split; [lia|]. split; [lia|]. split; [reflexivity|]. right. right. auto 7.
      * exists i, j, r. split; [lia|]. split; [lia|]. split; [lia|]. split; [lia|]. split; [reflexivity|]. right. right. assert (i = 0)%nat by lia. auto 7.
  - assert (j = 0)%nat by lia. destruct (Nat.ltb_spec 0 i) as [H0i|H0i]; [destruct (partner lx hx r) as [s|]|].
    + exists (i - 1)%nat, j, s. destruct PX as [PX1 PX2]. apply (proj2 HX) in PX2. fold nP in PX2. split; [lia|]. split; [lia|]. split; [tauto|]. split; [lia|]. split; [now apply QX|]. right. left. auto 7.
    + exists i, j, r. split; [lia|]. split; [lia|]. split; [lia|]. split; [lia|]. split; [reflexivity|]. right. right. auto 7.
    + exists i, j, r. split; [lia|]. split; [lia|]. split; [lia|]. split; [lia|]. split; [reflexivity|]. right. right. assert (i = 0)%nat by lia. auto 7.
Qed.
Lemma target_place i j r : (i < nX)%nat -> (j < nY)%nat -> (r < nP)%nat -> nth_error (tiled_coords coords sx sy nX nY) (target nP nY lx hx ly hy i j r) = Some (moved coords sx sy i j r).
Proof. intros Hi Hj Hr. destruct (target_cases i j r Hi Hj Hr) as (i' & j' & s & Hi' & Hj' & Hs & -> & <- & _). rewrite Nat.add_comm. now apply tiled_coords_nth. Qed.

(** the node of block (i', j') that block (i, j) refers to *)
Definition canonical (i j s : nat) : Prop := (j = 0%nat \/ ~ In s ly) /\ (i = 0%nat \/ ~ In s lx \/ (In s hy /\ (S j < nY)%nat)).
Lemma target_canonical i j r : sharp coords 0 tol -> sharp coords 1 tol -> 0 < tol -> (i < nX)%nat -> (j < nY)%nat -> (r < nP)%nat ->
  exists i' j' s, (i' < nX)%nat /\ (j' < nY)%nat /\ (s < nP)%nat /\ target nP nY lx hx ly hy i j r = (s + (i' * nY + j') * nP)%nat /\ moved coords sx sy i' j' s = moved coords sx sy i j r /\ canonical i' j' s.
Proof.
  intros SX SY HT0 Hi Hj Hr. destruct (target_cases i j r Hi Hj Hr) as (i' & j' & s & Hi' & Hj' & Hs & E & M & C). exists i', j', s. repeat (split; [assumption|]).
  destruct HT as (HR & x0 & x1 & y0 & y1 & BX & BY & EX & EY & LX & HX & LY & HY & MX & MY). destruct (SX x0 x1 BX) as [DX TX]. destruct (SY y0 y1 BY) as [DY TY]. fold nP in TX, TY.
  assert (AX : forall n, In n hx -> ~ In n lx).
  { intros n H1 H2. apply (proj2 HX) in H1. apply (proj2 LX) in H2. fold nP in H1, H2. destruct H1 as [H1 H1'], H2 as [_ H2]. destruct (TX n H1) as [T1 T2]. specialize (T1 H2). specialize (T2 H1'). lra. }
  assert (AY : forall n, In n hy -> ~ In n ly).
  { intros n H1 H2. apply (proj2 HY) in H1. apply (proj2 LY) in H2. fold nP in H1, H2. destruct H1 as [H1 H1'], H2 as [_ H2]. destruct (TY n H1) as [T1 T2]. specialize (T1 H2). specialize (T2 H1'). lra. }
  destruct C as [(H0 & HI & -> & ->)|[(HN & H0 & HI & -> & ->)|(HN1 & HN2 & -> & -> & ->)]].
  - pose proof (in_combine_r _ _ _ _ HI) as HI'. split; [right; now apply AY|]. right. right. split; [exact HI'|lia].
  - pose proof (in_combine_r _ _ _ _ HI) as HI'. split; [|right; left; now apply AX]. destruct HN as [HN|HN]; [now left|]. right. intros H. apply HN. apply (proj2 LY). fold nP. split; [exact Hr|]. apply (proj2 LY) in H. destruct (Forall2_combine _ _ _ MX r s HI) as [_ E2]. rewrite <- (E2 1%nat) by lia. exact (proj2 H).
  - split; [exact HN1|]. tauto.
Qed.
End places.
