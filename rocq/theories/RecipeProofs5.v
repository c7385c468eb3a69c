(** * Proofs about [RecipeModel.v], part 5: plates of tetrahedra *)
From Coq Require Import Reals Lra Lia String.
From Verif Require Export RecipeProofs4.
From Verif Require Import SplitProofs7 GridProofs7 ShapeProofs4.
Import ListNotations.
Local Open Scope R_scope.

(** ** The first four nodes decide *)
Lemma bary_rest coords (l rest : list nat) q l0 l1 l2 l3 : length l = 4%nat -> (barycentric coords (l ++ rest) q l0 l1 l2 l3 <-> barycentric coords l q l0 l1 l2 l3).
Proof.
  intros H. destruct l as [|a [|b [|c [|e [|]]]]]; try discriminate H. unfold barycentric. cbn [app]. split; intros [Hs (a' & b' & c' & e' & r' & [= <- <- <- <- E] & B)]; (split; [exact Hs|]); do 5 eexists; (split; [reflexivity|]); exact B.
Qed.
Lemma in_tet_rest coords (l rest : list nat) q : length l = 4%nat -> (in_tet coords (l ++ rest) q <-> in_tet coords l q).
Proof. intros H. unfold in_tet. split; intros (l0 & l1 & l2 & l3 & B & P); exists l0, l1, l2, l3; (split; [|exact P]); apply (bary_rest coords l rest q l0 l1 l2 l3 H) in B || apply (bary_rest coords l rest q l0 l1 l2 l3 H); exact B. Qed.
Lemma inside_tet_rest coords (l rest : list nat) q : length l = 4%nat -> (inside_tet coords (l ++ rest) q <-> inside_tet coords l q).
Proof. intros H. unfold inside_tet. split; intros (l0 & l1 & l2 & l3 & B & P); exists l0, l1, l2, l3; (split; [|exact P]); apply (bary_rest coords l rest q l0 l1 l2 l3 H) in B || apply (bary_rest coords l rest q l0 l1 l2 l3 H); exact B. Qed.
Lemma volume_rest coords (l rest : list nat) : length l = 4%nat -> tet_nodes_volume coords (l ++ rest) = tet_nodes_volume coords l.
Proof. intros H. destruct l as [|a [|b [|c [|e [|]]]]]; try discriminate H. reflexivity. Qed.

(** ** Boxes as affine cells *)
Definition axis (h : nat -> R) (a d : nat) : R := if Nat.eqb a d then h d / 2 else 0.
Definition mid_of (lo h : nat -> R) (d : nat) : R := lo d + h d / 2.
Lemma box_affine lc coords cell lo h : lc = lcoords_H8 (K := R) \/ lc = lcoords_H27 -> box_placed 3 0 coords cell lc lo h ->
  affine_at lcoords_H8 coords (firstn 8 cell) (mid_of lo h) (axis h 0) (axis h 1) (axis h 2) /\
  (lc = lcoords_H27 -> affine_at lcoords_H27 coords cell (mid_of lo h) (axis h 0) (axis h 1) (axis h 2)).
Proof.
  intros HL [HC HP].
  assert (G : affine_at lc coords cell (mid_of lo h) (axis h 0) (axis h 1) (axis h 2)).
  { intros c r s t Hc. pose proof (nth_error_Some_lt _ _ _ Hc) as B. rewrite <- HC in B. exists (nth c cell 0%nat). split; [now apply nth_error_nth'|]. intros d Hd. rewrite <- (Nat.sub_0_r (nth c cell 0%nat)), (HP c _ Hc d Hd). unfold image, mid_of, axis. destruct d as [|[|[|d]]]; [| | |lia]; cbn [Nat.eqb nth]; field. }
  destruct HL as [-> | ->].
  - split; [|intros E; apply (f_equal (@length _)) in E; discriminate E]. rewrite firstn_all2; [exact G|rewrite HC; reflexivity].
  - split; [apply H27_corners; exact G|intros _; exact G].
Qed.
Lemma box_det h : det_uvw (axis h 0) (axis h 1) (axis h 2) = h 0%nat * h 1%nat * h 2%nat / 8.
Proof. unfold det_uvw, axis. cbn [Nat.eqb]. field. Qed.
Lemma box_cell lo h q : (forall d, (d < 3)%nat -> 0 < h d) -> (in_cell cube (mid_of lo h) (axis h 0) (axis h 1) (axis h 2) q <-> forall d, (d < 3)%nat -> lo d <= q d <= lo d + h d).
Proof.
  intros HP. split.
  - intros (r & s & t & [H1 [H2 H3]] & HQ) d Hd. rewrite (HQ d Hd). pose proof (HP d Hd) as P. unfold image, mid_of, axis. destruct d as [|[|[|d]]]; [| | |lia]; cbn [Nat.eqb]; nra.
  - intros H. exists (2 * (q 0%nat - lo 0%nat) / h 0%nat - 1), (2 * (q 1%nat - lo 1%nat) / h 1%nat - 1), (2 * (q 2%nat - lo 2%nat) / h 2%nat - 1).
    assert (G : forall d, (d < 3)%nat -> -1 <= 2 * (q d - lo d) / h d - 1 <= 1).
    { intros d Hd. specialize (HP d Hd). specialize (H d Hd). assert (E : 2 * (q d - lo d) / h d = 2 * (q d - lo d) * / h d) by reflexivity. assert (I : 0 < / h d) by now apply Rinv_0_lt_compat. assert (J : h d * / h d = 1) by (apply Rinv_r; lra). split; [nra|]. assert ((q d - lo d) * / h d <= 1) by nra. nra. }
    split; [unfold cube; split; [apply G; lia|]; split; apply G; lia|]. intros d Hd. pose proof (HP 0%nat ltac:(lia)). pose proof (HP 1%nat ltac:(lia)). pose proof (HP 2%nat ltac:(lia)). unfold image, mid_of, axis. destruct d as [|[|[|d]]]; [| | |lia]; cbn [Nat.eqb]; field; repeat split; lra.
Qed.
Lemma open_cell lo h k p coords cell q : (forall d, (d < 3)%nat -> 0 < h d) -> affine_at lcoords_H8 coords cell (mid_of lo h) (axis h 0) (axis h 1) (axis h 2) ->
  nth_error path_H8_to_TET4 k = Some p -> inside_tet coords (reorder p cell) q -> forall d, (d < 3)%nat -> lo d < q d < lo d + h d.
Proof.
  intros HP HA Hk Hin d Hd. destruct (H8_open _ _ _ _ _ _ HA k p q Hk Hin) as (r & s & t & HO & HQ).
  assert (C : -1 < r < 1 /\ -1 < s < 1 /\ -1 < t < 1).
  { pose proof (nth_error_Some_lt _ _ _ Hk) as B. cbn in B. unfold open_region, cut in HO. destruct k as [|[|[|[|[|k]]]]]; try (decompose [and] HO; auto; fail).
    pose proof (HO 0%nat ltac:(lia)). pose proof (HO 1%nat ltac:(lia)). pose proof (HO 2%nat ltac:(lia)). pose proof (HO 3%nat ltac:(lia)). cbn [nth] in *. lra. }
  rewrite (HQ d Hd). specialize (HP d Hd). unfold image, mid_of, axis. destruct d as [|[|[|d]]]; [| | |lia]; cbn [Nat.eqb]; nra.
Qed.

(** ** The tetrahedra of the rows *)
Definition tet_path (order : nat) := if Nat.eqb order 1 then path_H8_to_TET4 else path_H27_to_TET10.
Definition hexa (order : nat) : list (list R) := if Nat.eqb order 1 then lcoords_H8 else lcoords_H27.
Lemma hexa_cases order : hexa order = lcoords_H8 (K := R) \/ hexa order = lcoords_H27.
Proof. unfold hexa. destruct (Nat.eqb order 1); auto. Qed.
Lemma tet_rows order (coords : list (list R)) rows : rect (length (hexa order)) rows ->
  exists t, (if Nat.eqb order 1 then do r <- H8_to_TET4 0%nat coords rows DNone PNone; Ok (fst r, fst (snd r), "TET4"%string)
             else do r <- H27_to_TET10 0%nat coords rows DNone PNone; Ok (fst r, fst (snd r), "TET10"%string)) = Ok (coords, t, if Nat.eqb order 1 then "TET4"%string else "TET10"%string) /\
    length t = (length rows * 5)%nat /\
    forall i cell k, nth_error rows i = Some cell -> (k < 5)%nat -> exists p q rest, nth_error t (i * 5 + k) = Some (reorder q cell) /\
      nth_error path_H8_to_TET4 k = Some p /\ nth_error (tet_path order) k = Some q /\ reorder q cell = reorder p (firstn 8 cell) ++ rest /\ length (reorder p (firstn 8 cell)) = 4%nat.
Proof.
  intros HR. unfold hexa, tet_path in *. destruct (Nat.eqb order 1).
  - destruct (split_rows 0%nat coords rows 8 path_H8_to_TET4 4 None PNone eq_refl HR ltac:(check_path)) as [t [T [L H]]].
    exists t. unfold H8_to_TET4. rewrite T. cbn [bind fst snd]. split; [reflexivity|]. split; [exact L|]. intros i cell k Hi Hk. destruct (nth_error path_H8_to_TET4 k) as [p|] eqn:E; [|apply nth_error_None in E; cbn in E; lia].
    exists p, p, []. split; [exact (H i cell k p Hi E)|]. do 2 (split; [reflexivity|]). pose proof (proj1 (Forall_forall _ _) HR cell (nth_error_In _ _ Hi)) as W. rewrite firstn_all2 by (rewrite W; cbn; lia). rewrite app_nil_r. split; [reflexivity|].
    unfold reorder. rewrite map_length. unfold path_H8_to_TET4 in E. do 5 (destruct k as [|k]; [now injection E as <-|]). lia.
  - destruct (split_rows 0%nat coords rows 27 path_H27_to_TET10 10 None PNone eq_refl HR ltac:(check_path)) as [t [T [L H]]].
    exists t. unfold H27_to_TET10. rewrite T. cbn [bind fst snd]. split; [reflexivity|]. split; [exact L|]. intros i cell k Hi Hk. destruct (nth_error path_H27_to_TET10 k) as [q|] eqn:E; [|apply nth_error_None in E; cbn in E; lia].
    pose proof (proj1 (Forall_forall _ _) HR cell (nth_error_In _ _ Hi)) as W. destruct (TET10_tets coords cell q k (fun _ => 0) E ltac:(rewrite W; cbn; lia)) as (p & Hp & rest & ER & _). exists p, q, rest. split; [exact (H i cell k q Hi E)|]. split; [exact Hp|]. split; [reflexivity|]. split; [exact ER|].
    unfold reorder. rewrite map_length. unfold path_H8_to_TET4 in Hp. do 5 (destruct k as [|k]; [now injection Hp as <-|]). lia.
Qed.

(** ** Detached tetrahedra *)
Lemma bary_detached (c coords : list (list R)) (inds tet' tet : list nat) q l0 l1 l2 l3 : (forall k n, nth_error inds k = Some n -> nth k c [] = nth n coords []) -> length tet' = length tet ->
  (forall k n', nth_error tet' k = Some n' <-> exists n, nth_error tet k = Some n /\ nth_error inds n' = Some n) ->
  (barycentric c tet' q l0 l1 l2 l3 <-> barycentric coords tet q l0 l1 l2 l3).
Proof.
  intros HC HL HE. assert (F : forall k n' n, nth_error tet' k = Some n' -> nth_error tet k = Some n -> forall d, coord c n' d = coord coords n d).
  { intros k n' n H1 H2 d. apply HE in H1. destruct H1 as (m & M1 & M2). rewrite H2 in M1. injection M1 as <-. unfold coord. now rewrite (HC _ _ M2). }
  assert (L4 : forall (l : list nat) (k : nat), (k < length l)%nat -> exists n, nth_error l k = Some n) by (intros l k H; destruct (nth_error l k) eqn:E; [eauto|apply nth_error_None in E; lia]).
  assert (G : forall (c1 c2 : list (list R)) (t1 t2 : list nat), length t1 = length t2 -> (forall k n' n, nth_error t1 k = Some n' -> nth_error t2 k = Some n -> forall d, coord c1 n' d = coord c2 n d) -> barycentric c1 t1 q l0 l1 l2 l3 -> barycentric c2 t2 q l0 l1 l2 l3).
  { intros c1 c2 t1 t2 LL FF [Hs (a & b & e & f & r & -> & B)]. split; [exact Hs|]. destruct t2 as [|a' [|b' [|e' [|f' r']]]]; try discriminate LL. exists a', b', e', f', r'. split; [reflexivity|]. intros d Hd. rewrite (B d Hd).
    rewrite (FF 0%nat a a' eq_refl eq_refl d), (FF 1%nat b b' eq_refl eq_refl d), (FF 2%nat e e' eq_refl eq_refl d), (FF 3%nat f f' eq_refl eq_refl d). reflexivity. }
  split; apply G; auto. intros k n' n H1 H2 d. symmetry. eauto.
Qed.
