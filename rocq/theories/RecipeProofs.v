(** * Proofs about [RecipeModel.v], part 1: boxes of a grid, selected by their centres *)
From Coq Require Import Reals Lra Lia Permutation.
From Verif Require Export RecipeModel RecipeSpec.
From Verif Require Import GridProofs7 TopoProofs5 NodalProofs4 ShapeProofs4.
Import ListNotations.
Local Open Scope R_scope.

(** the cells of [topo] are the boxes between the positions [xs], [ys], [zs], conforming *)
Definition corner (xs ys zs : nat -> R) (i j l d : nat) : R := nth d [xs i; ys j; zs l] 0.
Definition side (xs ys zs : nat -> R) (i j l d : nat) : R := nth d [xs (i + 1)%nat - xs i; ys (j + 1)%nat - ys j; zs (l + 1)%nat - zs l] 0.
Definition grid_boxes (lcoords coords : list (list R)) (topo : list (list nat)) (nx ny nz : nat) (xs ys zs : nat -> R) : Prop :=
  rect 3 coords /\ points_differ coords /\ (forall n, used topo n -> (n < length coords)%nat) /\ length topo = (nx * ny * nz)%nat /\
  (forall c cell, nth_error topo c = Some cell -> exists i j l, (i < nx)%nat /\ (j < ny)%nat /\ (l < nz)%nat /\ c = ((i * ny + j) * nz + l)%nat /\
     box_placed 3 0 coords cell lcoords (corner xs ys zs i j l) (side xs ys zs i j l)) /\
  (forall cell i j l cell' n, (i < nx)%nat -> (j < ny)%nat -> (l < nz)%nat -> In cell topo -> nth_error topo ((i * ny + j) * nz + l) = Some cell' -> In n cell ->
     (In n cell' <-> forall d, (d < 3)%nat -> corner xs ys zs i j l d <= coord coords n d <= corner xs ys zs i j l d + side xs ys zs i j l d)).

Lemma lattice_boxes nx ny nz w X Y Z xs ys zs coords topo topo' path lcoords :
  (1 <= nx)%nat -> (1 <= ny)%nat -> (1 <= nz)%nat -> (1 <= w)%nat ->
  lattice3 nx ny nz w w w 0 X Y Z coords topo -> path_table3 w path lcoords -> reordered path topo topo' ->
  rect (length path) topo -> Permutation path (seq 0 (length path)) ->
  (forall i k, X i k = xs i + (xs (i + 1)%nat - xs i) / INR w * INR k) ->
  (forall i k, Y i k = ys i + (ys (i + 1)%nat - ys i) / INR w * INR k) ->
  (forall i k, Z i k = zs i + (zs (i + 1)%nat - zs i) / INR w * INR k) ->
  (forall i, (i < nx)%nat -> xs i < xs (i + 1)%nat) -> (forall i, (i < ny)%nat -> ys i < ys (i + 1)%nat) -> (forall i, (i < nz)%nat -> zs i < zs (i + 1)%nat) ->
  grid_boxes lcoords coords topo' nx ny nz xs ys zs.
Proof.
  intros Hnx Hny Hnz Hw HL Htab Hre Hr Hp HX HY HZ Ix Iy Iz. pose proof (INR_pos w Hw) as Pw.
  assert (J : forall V vs n, (forall i k, V i k = vs i + (vs (i + 1)%nat - vs i) / INR w * INR k) -> joined V w n).
  { intros V vs n HV i _. rewrite !HV. replace (S i) with (i + 1)%nat by lia. simpl (INR 0). field. lra. }
  assert (L : forall V vs n, (forall i k, V i k = vs i + (vs (i + 1)%nat - vs i) / INR w * INR k) -> (forall i, (i < n)%nat -> vs i < vs (i + 1)%nat) -> axis_lt V w n).
  { intros V vs n HV HI i k Hi Hk. rewrite !HV, S_INR. specialize (HI i Hi). assert (0 < (vs (i + 1)%nat - vs i) / INR w) by (apply Rmult_lt_0_compat; [lra|apply Rinv_0_lt_compat; auto]). lra. }
  pose proof (J X xs nx HX) as JX. pose proof (J Y ys ny HY) as JY. pose proof (J Z zs nz HZ) as JZ. pose proof (L X xs nx HX Ix) as LX. pose proof (L Y ys ny HY Iy) as LY. pose proof (L Z zs nz HZ Iz) as LZ.
  assert (NO : numbering_ok 0 (length coords) topo) by (eapply lattice3_numbering; [..|exact HL]; auto).
  assert (NO' : numbering_ok 0 (length coords) topo') by (eapply reordered_numbering; eauto).
  assert (PC : forall c cell cell', nth_error topo c = Some cell -> nth_error topo' c = Some cell' -> Permutation cell cell').
  { intros c cell cell' H1 H2. eapply reordered_perm; eauto. rewrite (proj1 (Forall_forall _ _) Hr cell (nth_error_In _ _ H1)). exact Hp. }
  assert (BK : forall c cell', nth_error topo' c = Some cell' -> exists cell, nth_error topo c = Some cell /\ Permutation cell cell').
  { intros c cell' H. pose proof (proj1 Hre) as Hlen. pose proof (nth_error_Some_lt _ _ _ H) as B. rewrite Hlen in B. destruct (nth_error topo c) as [cell|] eqn:E; [|apply nth_error_None in E; lia]. exists cell. split; auto. eapply PC; eauto. }
  split; [|split; [|split; [|split; [|split]]]].
  - apply Forall_forall. intros row Hrow. apply In_nth_error in Hrow. destruct Hrow as [p Hrow]. destruct (proj2 NO p ltac:(eapply nth_error_Some_lt; eauto)) as (cell & Hc & Hin). apply In_nth_error in Hc. destruct Hc as [c Hc]. apply In_nth_error in Hin. destruct Hin as [e Hin].
    destruct (lattice3_inv _ _ _ _ _ _ _ _ _ _ _ _ _ _ HL Hc) as (i & j & l & Hi & Hj & Hl & _ & _ & _ & HI). destruct (HI e _ Hin) as (k & m & r & Hk & Hm & Hrr & _ & En). cbn [Nat.add] in En. rewrite En, (node3_at nx ny nz w w w 0 X Y Z coords topo HL) in Hrow by auto. now injection Hrow as <-.
  - eapply lattice3_points_differ; try exact HL; auto.
  - intros n (c & k & row & Hc & Hk). apply nth_error_In in Hc. apply nth_error_In in Hk. apply (proj1 NO' row Hc) in Hk. lia.
  - destruct Hre as [-> _]. apply HL.
  - intros c cell' Hc. destruct (BK c cell' Hc) as (cell & H1 & H2). destruct (lattice3_inv _ _ _ _ _ _ _ _ _ _ _ _ _ _ HL H1) as (i & j & l & Hi & Hj & Hl & -> & _).
    exists i, j, l. do 4 (split; auto).
    destruct (placed3 nx ny nz w 0 X Y Z coords topo topo' path lcoords xs (fun i => xs (i + 1)%nat - xs i) ys (fun i => ys (i + 1)%nat - ys i) zs (fun i => zs (i + 1)%nat - zs i) Hw HL Htab Hre HX HY HZ i j l Hi Hj Hl) as (cell'' & E & B). rewrite Hc in E. injection E as <-. exact B.
  - intros cell' i j l cell'' n Hi Hj Hl Hin Hc'' Hn. apply In_nth_error in Hin. destruct Hin as [c Hc]. destruct (BK c cell' Hc) as (cell & H1 & H2). destruct (BK _ cell'' Hc'') as (celk & H3 & H4).
    assert (Hn' : In n cell) by (eapply Permutation_in; [symmetry; exact H2|exact Hn]).
    pose proof (lattice3_shares nx ny nz w w w 0 X Y Z coords topo HL Hnx Hny Hnz Hw Hw Hw JX JY JZ LX LY LZ cell celk n (nth_error_In _ _ H1) (nth_error_In _ _ H3) Hn') as SF.
    assert (E : In n cell'' <-> In n celk) by (split; apply Permutation_in; [symmetry|]; exact H4). rewrite E, SF. clear E SF.
    destruct (cell3_corners nx ny nz w w w 0 X Y Z coords topo HL _ _ H3) as (i' & j' & l' & Hi' & Hj' & Hl' & E & Hlo & Hhi & _).
    apply pos_inj in E; auto. destruct E as [E <-]. apply pos_inj in E; auto. destruct E as [<- <-].
    assert (W : forall u, u / INR w * INR w = u) by (intros; field; lra).
    unfold in_cell_box. split; intros H d Hd; specialize (H d Hd); rewrite Hlo, Hhi, Nat.sub_0_r in *; fold (coord coords n d) in *; unfold corner, side in *;
      rewrite !HX, !HY, !HZ in *; (destruct d as [|[|[|d]]]; [| | |lia]); cbn [nth] in *; simpl (INR 0) in *; rewrite ?W in *; lra.
Qed.
