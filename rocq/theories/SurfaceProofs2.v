(** * Proofs about [SurfaceModel.v]: one block, a tool that meets the specification, and refutations *)
From Coq Require Import Reals ZArith List Lia Lra Permutation Bool.
From Verif Require SpaceModel LocSpec.
From Verif Require Import BaseFacts FrameProofs MeshProofs MeshProofs2 MeshProofs3 MeshProofs4 MeshProofs5 MeshProofs7 QueryProofs QueryProofs2 QueryProofs3 SurfaceSpec SurfaceProofs.
Import ListNotations.

Lemma surface_block query tool attached m p T k : LocSpec.nearest_query query -> finds_surface tool -> rooted m p T -> plain_frame T -> px p <> [] -> NoDup (px p) ->
  cell_arrays m = [k] -> tetrahedra (length (px p)) (nodes k) ->
  exists s k', mesh_surface query tool attached m = Ok s /\ coords_of top s None = Ok (px p) /\ cell_arrays s = [k'] /\ covers_boundary (nodes k) (nodes k').
Proof.
  intros HQ HT Hr Hf Hne Hd Hk Htet. destruct (surface_blocks query tool attached m p T HQ HT Hr Hf Hne Hd) as (s & k' & E & Ec & Ek & H); [rewrite Hk; discriminate|rewrite Hk; repeat constructor; exact Htet|].
  exists s, k'. split; [exact E|]. split; [exact Ec|]. split; [exact Ek|]. intros t. rewrite H, Hk. split; [intros (k0 & [<- | []] & Ht); exact Ht|intros Ht; exists k; split; [now left|exact Ht]].
Qed.
Lemma surface_none query tool attached m p T : rooted m p T -> orthonormal (axes T) -> cell_arrays m = [] -> mesh_surface query tool attached m = Err ValueError.
Proof.
  intros Hr Ho Hk. pose proof (rooted_coords m p T Hr Ho) as Ec. unfold mesh_surface, the_source. destruct Hr as (Hp & Ha & HfT). cbn [source_path]. rewrite Hp. cbn [bind block_at fst snd]. rewrite Ec. cbn [bind]. unfold the_frame. rewrite enter_frame. cbn [frame_here top]. rewrite HfT. cbn [bind].
  rewrite <- cell_paths_arrays in Hk. apply map_eq_nil in Hk. rewrite Hk. reflexivity.
Qed.

(** ** A tool that finds the surface of tetrahedra: the faces counted once *)
Definition faces (r : list nat) : list (list nat) := match r with [a; b; c; d] => [[a; b; c]; [a; b; d]; [a; c; d]; [b; c; d]] | _ => [] end.
Definition has_face (t r : list nat) : bool := forallb (fun i => existsb (Nat.eqb i) r) t.
Definition face_tool : surface_tool := fun x topo =>
  (x, filter (fun t => forallb (fun i => Nat.ltb i (length x)) t && Nat.eqb (length (filter (has_face t) topo)) 1) (flat_map faces topo)).
Lemma has_face_incl t r : has_face t r = true <-> incl t r.
Proof.
  unfold has_face. rewrite forallb_forall. split; intros H i Hi.
  - specialize (H i Hi). apply existsb_exists in H as (j & Hj & E). apply Nat.eqb_eq in E. now subst.
  - apply existsb_exists. exists i. split; [now apply H|apply Nat.eqb_refl].
Qed.
Lemma filter_one {A} (f : A -> bool) l i x : nth_error l i = Some x -> f x = true -> (length (filter f l) = 1 <-> forall j y, nth_error l j = Some y -> f y = true -> j = i).
Proof.
  revert i. induction l as [|a l IH]; intros [|i] Hi Hx; cbn [nth_error] in Hi; try discriminate.
  - injection Hi as ->. cbn [filter]. rewrite Hx. cbn [length]. split.
    + intros E [|j] y Hj Hy; [reflexivity|]. cbn [nth_error] in Hj. assert (In y (filter f l)) by (apply filter_In; split; [now apply nth_error_In in Hj|assumption]). destruct (filter f l); [contradiction|discriminate E].
    + intros H. destruct (filter f l) as [|y t] eqn:E; [reflexivity|]. exfalso. assert (Hy : In y (filter f l)) by (rewrite E; now left). apply filter_In in Hy as [Hy Hf]. apply In_nth_error in Hy as [j Hj]. discriminate (H (S j) y Hj Hf).
  - cbn [filter]. destruct (f a) eqn:Ea.
    + cbn [length]. split; [|intros H; discriminate (H 0 a eq_refl Ea)]. intros E. exfalso. assert (In x (filter f l)) by (apply filter_In; split; [now apply nth_error_In in Hi|assumption]). destruct (filter f l); [contradiction|discriminate E].
    + rewrite (IH i Hi Hx). split; intros H.
      * intros [|j] y Hj Hy; cbn [nth_error] in Hj; [injection Hj as <-; congruence|f_equal; now apply (H j y)].
      * intros j y Hj Hy. specialize (H (S j) y Hj Hy). now injection H.
Qed.
Lemma faces_face t r : length r = 4 -> NoDup r -> In t (faces r) -> face_of t r.
Proof.
  intros Hl Hd Ht. destruct r as [|a [|b [|c [|d [|? ?]]]]]; try discriminate Hl. repeat match goal with H : NoDup (_ :: _) |- _ => inversion H; clear H; subst end. cbn [In] in *.
  destruct Ht as [<- |[<- |[<- |[<- |[]]]]]; (split; [reflexivity|]; split; [repeat constructor; cbn [In]; intuition congruence|intros u; cbn [In]; tauto]).
Qed.
Lemma face_faces t r : length r = 4 -> face_of t r -> exists t', In t' (faces r) /\ Permutation t' t.
Proof.
  intros Hl (H3 & Hd & Hi). destruct r as [|a [|b [|c [|d [|? ?]]]]]; try discriminate Hl. destruct t as [|u [|v [|w [|? ?]]]]; try discriminate H3. cbn [faces].
  repeat match goal with H : NoDup (_ :: _) |- _ => inversion H; clear H; subst end. pose proof (Hi u (or_introl eq_refl)) as Hu. pose proof (Hi v (or_intror (or_introl eq_refl))) as Hv. pose proof (Hi w (or_intror (or_intror (or_introl eq_refl)))) as Hw. clear Hi Hl H3. cbn [In] in *.
  assert (S3 : forall p q s : nat, Permutation [p; q; s] [p; q; s] /\ Permutation [p; q; s] [p; s; q] /\ Permutation [p; q; s] [q; p; s] /\ Permutation [p; q; s] [q; s; p] /\ Permutation [p; q; s] [s; p; q] /\ Permutation [p; q; s] [s; q; p]).
  { intros p q s. repeat split; [reflexivity|apply perm_skip, perm_swap|apply perm_swap|..].
    - apply perm_trans with [q; p; s]; [apply perm_swap|apply perm_skip, perm_swap].
    - apply perm_trans with [p; s; q]; [apply perm_skip, perm_swap|apply perm_swap].
    - apply perm_trans with [q; p; s]; [apply perm_swap|]. apply perm_trans with [q; s; p]; [apply perm_skip, perm_swap|apply perm_swap]. }
  assert (E : forall p q s, In [p; q; s] [[a; b; c]; [a; b; d]; [a; c; d]; [b; c; d]] -> (Permutation [p; q; s] [u; v; w]) -> exists t', In t' [[a; b; c]; [a; b; d]; [a; c; d]; [b; c; d]] /\ Permutation t' [u; v; w]) by (intros p q s; eexists; split; eassumption).
  destruct Hu as [<- |[<- |[<- |[<- |[]]]]], Hv as [<- |[<- |[<- |[<- |[]]]]], Hw as [<- |[<- |[<- |[<- |[]]]]]; try (exfalso; tauto);
    first [apply (E a b c); [cbn [In]; tauto|apply S3] | apply (E a b d); [cbn [In]; tauto|apply S3] | apply (E a c d); [cbn [In]; tauto|apply S3] | apply (E b c d); [cbn [In]; tauto|apply S3]].
Qed.
Lemma renamed_seq n ts ts' : renamed (seq 0 n) ts ts' -> ts' = ts.
Proof.
  intros H. induction H as [|t t' ts ts' Ht _ IH]; [reflexivity|]. f_equal; [|exact IH]. induction Ht as [|i j t t' Hi _ IHt]; [reflexivity|]. f_equal; [|exact IHt].
  assert (i < n) by (rewrite <- (seq_length n 0); apply nth_error_Some; congruence). rewrite (nth_error_nth' _ 0) in Hi by (now rewrite seq_length). rewrite seq_nth in Hi by assumption. now injection Hi.
Qed.
Lemma seq_points (x : list vec) : Forall2 (fun q i => nth_error x i = Some q) x (seq 0 (length x)).
Proof.
  cut (forall pre l, x = pre ++ l -> Forall2 (fun q i => nth_error x i = Some q) l (seq (length pre) (length l))); [intros H; exact (H [] x eq_refl)|].
  intros pre l. revert pre. induction l as [|q l IH]; intros pre E; cbn [length seq]; constructor; [rewrite E; apply nth_error_mid|]. specialize (IH (pre ++ [q])). rewrite app_length, Nat.add_1_r in IH. apply IH. now rewrite <- app_assoc.
Qed.
Lemma face_tool_finds : finds_surface face_tool.
Proof.
  intros x topo. exists (seq 0 (length x)). split.
  - split; cbn [fst snd face_tool].
    + apply seq_points.
    + apply Forall_forall. intros t Ht. apply filter_In in Ht as [_ Ht]. apply andb_prop in Ht as [Ht _]. rewrite forallb_forall in Ht. apply Forall_forall. intros i Hi. apply Nat.ltb_lt. now apply Ht.
  - intros Htet ts Hr. apply renamed_seq in Hr. subst ts. cbn [snd face_tool]. unfold tetrahedra in Htet. rewrite Forall_forall in Htet. intros t. split.
    + intros (t' & Ht' & Hp). apply filter_In in Ht' as [Hf Ht']. apply andb_prop in Ht' as [_ Hc]. apply Nat.eqb_eq in Hc. apply in_flat_map in Hf as (r & Hr & Hf). destruct (Htet r Hr) as (Hl & Hd & _).
      pose proof (faces_face t' r Hl Hd Hf) as (H3 & Hd' & Hi). assert (HF : forall r', face_of t r' <-> incl t' r').
      { intros r'. split; [intros (_ & _ & H) i Hi'; apply H; now apply (Permutation_in _ Hp)|]. intros H. split; [now rewrite <- (Permutation_length Hp)|]. split; [now apply (Permutation_NoDup Hp)|]. intros i Hi'. apply H. now apply (Permutation_in _ (Permutation_sym Hp)). }
      apply In_nth_error in Hr as [i Er]. exists i, r. split; [exact Er|]. split; [now apply HF|]. intros j r' Ej Hr'. rewrite (filter_one (has_face t') topo i r Er) in Hc by now apply has_face_incl. apply (Hc j r' Ej). apply has_face_incl. now apply HF.
    + intros (i & r & Er & Hf & Hu). destruct (Htet r (nth_error_In _ _ Er)) as (Hl & Hd & Hn). destruct (face_faces t r Hl Hf) as (t' & Ht' & Hp). exists t'. split; [|exact Hp]. apply filter_In. split; [apply in_flat_map; exists r; split; [now apply nth_error_In in Er|exact Ht']|].
      pose proof (faces_face t' r Hl Hd Ht') as (_ & _ & Hi). apply andb_true_intro. split.
      * apply forallb_forall. intros a Ha. apply Nat.ltb_lt. rewrite Forall_forall in Hn. apply Hn. now apply Hi.
      * apply Nat.eqb_eq. apply (filter_one (has_face t') topo i r Er); [now apply has_face_incl|]. intros j r' Ej Hj. apply (Hu j r' Ej). apply has_face_incl in Hj. destruct Hf as (H3 & Hdt & _). split; [exact H3|]. split; [exact Hdt|]. intros a Ha. apply Hj. now apply (Permutation_in _ (Permutation_sym Hp)).
Qed.
