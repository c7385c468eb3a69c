(** * Proofs about [TrModel.v], part 11: elevated cells agree with the reference elements *)
From Coq Require Import Reals Lra.
From Verif Require Export SplitProofs.
Local Open Scope R_scope.
Arguments coord : simpl never.

(** a node of an elevated cell is the mean of some nodes of its parent *)
Definition kind_locals (w : nat) (kind : node_kind) : list nat :=
  match kind with Corner c => [c] | Shared ls => ls | Own => seq 0 w end.

(** shape functions [N] average the values at the local nodes [ls] *)
Definition averages (w : nat) (N : list R) (ls : list nat) : Prop :=
  length N = w /\ forall x : nat -> R,
    rsum (map (fun Nj => fst Nj * x (snd Nj)) (combine N (seq 0 w))) = rsum (map x ls) / INR (length ls).

Lemma take_locals (cell : list nat) ls ns (x : nat -> R) :
  take cell ls = Ok ns -> map x ns = map (fun k => x (nth k cell O)) ls.
Proof. intros H. apply take_reorder in H. subst ns. unfold reorder. rewrite map_map. auto. Qed.

Lemma combine_locals {A} (N : list R) (cell : list nat) (f : R -> nat -> A) : length N = length cell ->
  map (fun p => f (fst p) (snd p)) (combine N cell)
  = map (fun p => f (fst p) (nth (snd p) cell O)) (combine N (seq 0 (length cell))).
Proof.
  intros Hl. apply nth_error_ext. intros k. rewrite !nth_error_map.
  destruct (nth_error (combine N cell) k) as [[a n]|] eqn:E.
  - apply nth_error_combine in E. destruct E as [Ea En].
    assert (Hk : nth_error (seq 0 (length cell)) k = Some k).
    { rewrite nth_error_seq'. apply nth_error_Some_lt in En. apply Nat.ltb_lt in En. rewrite En; auto. }
    rewrite (proj2 (nth_error_combine N (seq 0 (length cell)) k a k) (conj Ea Hk)).
    simpl. rewrite (nth_error_nth _ _ _ En). auto.
  - rewrite (nth_error_ge (combine N (seq 0 (length cell)))); auto.
    apply nth_error_None in E. rewrite combine_length in *. rewrite seq_length. lia.
Qed.

Lemma matches_of_plan dim w plan shp lcoords coords topo coords' topo' :
  is_mesh w dim coords topo -> elevated dim plan coords topo coords' topo' ->
  Forall2 (fun xi kind => exists N, shp xi = Ok N /\ averages w N (kind_locals w kind)) lcoords plan ->
  matches_reference dim shp lcoords coords topo coords' topo'.
Proof.
  intros [_ [Hr Hrange]] He Hf i cell cell' k xi d Hi Hi' Hk Hd.
  destruct (Forall2_nth_error _ _ _ _ _ Hf Hk) as [kind [Hkind [N [HN [HlN Hav]]]]].
  destruct (el_nodes _ _ _ _ _ _ He i cell Hi) as [c'' [Hc'' [Hlen Hnodes]]].
  assert (c'' = cell') by congruence. subst c''.
  destruct (Hnodes k kind Hkind) as [n [Hn Hpl]]. exists n. split; auto.
  assert (Hw : length cell = w) by (eapply rect_nth; eauto).
  exists N. split; [auto|]. split; [congruence|].
  rewrite (combine_locals N cell (fun a m => a * coord coords m d)) by congruence.
  rewrite Hw. rewrite (Hav (fun q => coord coords (nth q cell O) d)).
  destruct (el_points _ _ _ _ _ _ He) as [new Hnew].
  destruct kind as [c|ls|]; simpl in *.
  - rewrite (nth_error_nth _ _ _ Hpl). unfold coord at 1. rewrite Hnew.
    assert (Hlt : (n < length coords)%nat).
    { eapply Hrange; eapply nth_error_In; eauto. }
    rewrite app_nth1 by auto. unfold rsum; simpl. unfold coord. field.
  - destruct Hpl as [Hge [ns [P [Hns [HP [HlP Hm]]]]]]. unfold coord at 1. rewrite (nth_error_nth _ _ _ HP).
    rewrite (Hm d Hd). rewrite (take_locals cell ls ns (fun n => coord coords n d) Hns).
    apply mapM_length in Hns. rewrite Hns. auto.
  - destruct Hpl as [Hge [P [HP [HlP Hm]]]]. unfold coord at 1. rewrite (nth_error_nth _ _ _ HP).
    rewrite (Hm d Hd). rewrite seq_length, Hw. f_equal. f_equal. rewrite <- Hw.
    apply nth_error_ext. intros q. rewrite !nth_error_map, nth_error_seq'.
    destruct (q <? length cell)%nat eqn:E.
    + apply Nat.ltb_lt in E. destruct (nth_error_lt _ _ E) as [m Hm']. rewrite Hm'. simpl.
      rewrite (nth_error_nth _ _ _ Hm'); auto.
    + apply Nat.ltb_ge in E. rewrite nth_error_ge by auto. auto.
Qed.

Ltac averages_each :=
  repeat (apply Forall2_cons || apply Forall2_nil);
  (eexists; split; [reflexivity|]; split; [reflexivity|]; intros x; simpl; unfold rsum;
   cbn [kofZ kadd ksub kmul kdiv kopp NumR kind_locals map combine seq fold_right fst snd length];
   simpl INR; simpl; field).

Section Reference.
  Context (dim : nat) (coords : list (list R)) (topo : list (list nat)).

  Lemma L3_matches coords' topo' : is_mesh 2 dim coords topo -> elevated dim xplan_L3 coords topo coords' topo' ->
    matches_reference dim shp_L2 lcoords_L3 coords topo coords' topo'.
  Proof. intros Hm He. eapply matches_of_plan; eauto. averages_each. Qed.
  Lemma T6_matches coords' topo' : is_mesh 3 dim coords topo -> elevated dim xplan_T6 coords topo coords' topo' ->
    matches_reference dim shp_T3 lcoords_T6 coords topo coords' topo'.
  Proof. intros Hm He. eapply matches_of_plan; eauto. averages_each. Qed.
  Lemma Q9_matches coords' topo' : is_mesh 4 dim coords topo -> elevated dim xplan_Q9 coords topo coords' topo' ->
    matches_reference dim shp_Q4 lcoords_Q9 coords topo coords' topo'.
  Proof. intros Hm He. eapply matches_of_plan; eauto. averages_each. Qed.
  Lemma TET10_matches coords' topo' : is_mesh 4 dim coords topo -> elevated dim xplan_TET10 coords topo coords' topo' ->
    matches_reference dim shp_TET4 lcoords_TET10 coords topo coords' topo'.
  Proof. intros Hm He. eapply matches_of_plan; eauto. averages_each. Qed.
  Lemma H27_matches coords' topo' : is_mesh 8 dim coords topo -> elevated dim xplan_H27 coords topo coords' topo' ->
    matches_reference dim shp_H8 lcoords_H27 coords topo coords' topo'.
  Proof. intros Hm He. eapply matches_of_plan; eauto. averages_each. Qed.
End Reference.

Section Functions.
  Context (dim : nat) (coords : list (list R)) (topo : list (list nat)) (coords' : list (list R)) (topo' : list (list nat)).
  Lemma L2_to_L3_reference : is_mesh 2 dim coords topo -> L2_to_L3 coords topo = Ok (coords', topo') ->
    matches_reference dim shp_L2 lcoords_L3 coords topo coords' topo'.
  Proof. intros Hm H. destruct (L2_to_L3_ok dim coords topo Hm) as [c [t [E He]]]. rewrite E in H. injection H as <- <-. apply L3_matches; auto. Qed.
  Lemma T3_to_T6_reference : is_mesh 3 dim coords topo -> T3_to_T6 coords topo = Ok (coords', topo') ->
    matches_reference dim shp_T3 lcoords_T6 coords topo coords' topo'.
  Proof. intros Hm H. destruct (T3_to_T6_ok dim coords topo Hm) as [c [t [E He]]]. rewrite E in H. injection H as <- <-. apply T6_matches; auto. Qed.
  Lemma Q4_to_Q9_reference : is_mesh 4 dim coords topo -> Q4_to_Q9 coords topo = Ok (coords', topo') ->
    matches_reference dim shp_Q4 lcoords_Q9 coords topo coords' topo'.
  Proof. intros Hm H. destruct (Q4_to_Q9_ok dim coords topo Hm) as [c [t [E He]]]. rewrite E in H. injection H as <- <-. apply Q9_matches; auto. Qed.
  Lemma TET4_to_TET10_reference : is_mesh 4 dim coords topo -> TET4_to_TET10 coords topo = Ok (coords', topo') ->
    matches_reference dim shp_TET4 lcoords_TET10 coords topo coords' topo'.
  Proof. intros Hm H. destruct (TET4_to_TET10_ok dim coords topo Hm) as [c [t [E He]]]. rewrite E in H. injection H as <- <-. apply TET10_matches; auto. Qed.
  Lemma H8_to_H27_reference : is_mesh 8 dim coords topo -> H8_to_H27 coords topo = Ok (coords', topo') ->
    matches_reference dim shp_H8 lcoords_H27 coords topo coords' topo'.
  Proof. intros Hm H. destruct (H8_to_H27_ok dim coords topo Hm) as [c [t [E He]]]. rewrite E in H. injection H as <- <-. apply H27_matches; auto. Qed.
End Functions.
