(** * Proofs about [ProbeModel.v]: local coordinates from monomials *)
From Coq Require Import Reals List Lia Lra.
From Verif Require Import BaseFacts TrModel TrProofs ShapeProofs3 ShapeProofs4 LocSpec LocProofs9 ClassProofs.
From Verif Require Export ProbeSpec.
Import ListNotations.
Local Open Scope R_scope.

(** ** The weights *)
Definition weights (n : nat) (C : list (list R)) (m : list R) : list R := map (fun j => dot (ShapeProofs3.column C j) m) (seq 0 n).
Lemma column_length C j : length (ShapeProofs3.column C j) = length C.
Proof. unfold ShapeProofs3.column. apply map_length. Qed.
Lemma column_nth C j k : (k < length C)%nat -> nth k (ShapeProofs3.column C j) 0 = nth j (nth k C []) 0.
Proof.
  intros H. unfold ShapeProofs3.column. rewrite (nth_indep _ 0 (nth j [] 0)); [|now rewrite map_length].
  now rewrite (map_nth (fun row => nth j row 0)).
Qed.
Lemma rect_nth n (C : list (list R)) k : rect n C -> (k < length C)%nat -> length (nth k C []) = n.
Proof. intros H Hk. unfold rect in H. rewrite Forall_forall in H. apply H, nth_In, Hk. Qed.
Lemma transpose_value n C : (0 < n)%nat -> length C = n -> rect n C -> transpose C = Ok (map (ShapeProofs3.column C) (seq 0 n)).
Proof.
  intros Hn Hl Hr. unfold transpose. replace (ncols C) with n.
  - apply mapM_map. intros j Hj. apply in_seq in Hj. apply (get_column C n); [exact Hr|lia].
  - destruct C as [|r C]; [cbn in Hl; lia|]. symmetry. exact (Forall_inv Hr).
Qed.
Lemma glob_value inv n d (lcoords M : list (list R)) m : (0 < n)%nat -> length (inv M) = n -> rect n (inv M) -> length m = n ->
  length lcoords = n -> rect d lcoords ->
  exists v, glob_to_loc_monoms inv lcoords M m = Ok v /\ length v = d /\
    forall a, nth a v 0 = dot (weights n (inv M) m) (map (fun p => nth a p 0) lcoords).
Proof.
  intros Hn Hl Hr Hm Hc Hd. unfold glob_to_loc_monoms. rewrite (transpose_value n) by assumption. cbn [bind].
  assert (E : matvec (map (ShapeProofs3.column (inv M)) (seq 0 n)) m = Ok (weights n (inv M) m)).
  { unfold matvec, weights. rewrite ShapeProofs2.mapM_map_compose. apply mapM_map. intros j _. apply vdot_dot. rewrite column_length. lia. }
  rewrite E. cbn [bind].
  destruct (vecmat_value d (weights n (inv M) m) lcoords) as [v [Ev [Lv Nv]]].
  - unfold weights. rewrite map_length, seq_length. lia.
  - intros ->. cbn in Hc. lia.
  - exact Hd.
  - exists v. split; [exact Ev|]. split; [exact Lv|]. exact Nv.
Qed.
(** sums of monomials are reproduced *)
Lemma weights_span n C M m c : length C = n -> rect n C -> right_inverse n C M -> length m = n -> length c = n ->
  dot (weights n C m) (map (fun row => dot row c) M) = dot m c.
Proof.
  intros HC HrC [HM [HrM H]] Hm Hc.
  rewrite (dot_sumn n) by (unfold weights; rewrite ?map_length, ?seq_length; lia).
  rewrite (sumn_ext n _ (fun j => sumn n (fun k => sumn n (fun l => nth k m 0 * nth l c 0 * (nth j (nth k C []) 0 * nth l (nth j M []) 0))))).
  2:{ intros j Hj. unfold weights. rewrite nth_map_seq by exact Hj. rewrite (dot_sumn n) by (rewrite ?column_length; lia).
      rewrite (nth_indep _ 0 (dot [] c)) by (rewrite map_length; lia). rewrite (map_nth (fun row => dot row c)).
      rewrite (dot_sumn n (nth j M []) c); [|apply rect_nth; [exact HrM|lia]|exact Hc].
      rewrite Rmult_comm, <- sumn_scale. apply sumn_ext. intros k Hk. rewrite column_nth by lia.
      rewrite Rmult_comm, <- sumn_scale. apply sumn_ext. intros l Hl. ring. }
  rewrite sumn_swap. rewrite (sumn_ext n _ (fun k => nth k m 0 * nth k c 0)).
  - symmetry. apply dot_sumn; assumption.
  - intros k Hk. rewrite sumn_swap.
    rewrite (sumn_ext n _ (fun l => nth k m 0 * nth l c 0 * (if Nat.eqb l k then 1 else 0))).
    + rewrite (sumn_delta n k (fun l => nth k m 0 * nth l c 0)) by exact Hk. reflexivity.
    + intros l Hl. rewrite sumn_scale. f_equal. rewrite (Nat.eqb_sym l k), <- (H k l Hk Hl).
      rewrite (dot_sumn n); [|apply rect_nth; [exact HrC|lia]|rewrite map_length; lia].
      apply sumn_ext. intros j Hj. f_equal.
      change (map (fun row => nth l row 0) M) with (ShapeProofs3.column M l). rewrite column_nth by lia. reflexivity.
Qed.
(** at a node: that node *)
Lemma weights_node n C M j : right_inverse n M C -> length M = n -> rect n M -> (j < n)%nat ->
  weights n C (nth j M []) = map (fun i => if Nat.eqb j i then 1 else 0) (seq 0 n).
Proof.
  intros [HC [HrC H]] HM HrM Hj. unfold weights. apply map_ext_in. intros i Hi. apply in_seq in Hi. rewrite <- (H j i) by lia.
  change (map (fun row => nth i row 0) C) with (ShapeProofs3.column C i).
  rewrite (dot_sumn n), (dot_sumn n (nth j M [])); try (rewrite ?column_length; lia); try (apply rect_nth; [exact HrM|lia]).
  apply sumn_ext. intros k _. ring.
Qed.
Lemma dot_delta n j (l : list R) : length l = n -> (j < n)%nat -> dot (map (fun i => if Nat.eqb j i then 1 else 0) (seq 0 n)) l = nth j l 0.
Proof.
  intros Hl Hj. rewrite (dot_sumn n) by (rewrite ?map_length, ?seq_length; lia).
  rewrite (sumn_ext n _ (fun i => nth i l 0 * (if Nat.eqb i j then 1 else 0))).
  - apply (sumn_delta n j (fun i => nth i l 0) Hj).
  - intros i Hi. rewrite nth_map_seq by exact Hi. rewrite (Nat.eqb_sym i j). ring.
Qed.

(** ** Monomials of the classes *)
Lemma solid_monoms k p : In k solids -> length p = 3%nat -> exists m, monoms_of k p = Ok m /\ length m = nodes_of k.
Proof.
  intros Hk Hp. destruct p as [|x [|y [|z [|? ?]]]]; try discriminate Hp.
  destruct Hk as [<-|[<-|[<-|[<-|[<-|[]]]]]]; eexists; split; reflexivity.
Qed.
Lemma solid_affine k a0 a1 a2 a3 : In k solids -> exists c, length c = nodes_of k /\
  forall x y z m, monoms_of k [x; y; z] = Ok m -> dot m c = a1 * x + a2 * y + a3 * z + a0.
Proof.
  intros Hk. destruct Hk as [<-|[<-|[<-|[<-|[<-|[]]]]]].
  - exists (a0 :: a1 :: a2 :: a3 :: repeat 0 6); split; [reflexivity|]; intros x y z m H; injection H as <-; unfold dot, rsum; cbn [repeat combine map fst snd fold_right]; numR; ring.
  - exists (a0 :: a1 :: a2 :: a3 :: repeat 0 4); split; [reflexivity|]; intros x y z m H; injection H as <-; unfold dot, rsum; cbn [repeat combine map fst snd fold_right]; numR; ring.
  - exists (a0 :: a1 :: a2 :: a3 :: repeat 0 23); split; [reflexivity|]; intros x y z m H; injection H as <-; unfold dot, rsum; cbn [repeat combine map fst snd fold_right]; numR; ring.
  - exists (a0 :: a1 :: a2 :: a3 :: repeat 0 2); split; [reflexivity|]; intros x y z m H; injection H as <-; unfold dot, rsum; cbn [repeat combine map fst snd fold_right]; numR; ring.
  - exists (a0 :: a1 :: a2 :: 0 :: 0 :: 0 :: a3 :: repeat 0 11). split; [reflexivity|]. intros x y z m H; injection H as <-; unfold dot, rsum; cbn [repeat combine map fst snd fold_right]; numR; ring.
Qed.

