(** * Proofs about [NodalModel.v]: orientation of polygons *)
From Coq Require Import Reals Lra Lia List Permutation.
From Verif Require Import NodalModel NodalSpec BaseFacts ShapeProofs2 NodalProofs NodalProofs4.
Import ListNotations.
Local Open Scope R_scope.

Definition cross (ab : list R * list R) : R := px (fst ab) * py (snd ab) - px (snd ab) * py (fst ab).
(** the edges of an open and of a closed polygon *)
Definition chain (l : list (list R)) : list (list R * list R) := combine l (tl l).
Definition edges (ps : list (list R)) : list (list R * list R) := combine ps (tl ps ++ firstn 1 ps).
Lemma combine_more {A B} : forall (l : list A) (r : list B) x, length l = length r -> combine (l ++ [x]) r = combine l r.
Proof. induction l as [|y l IH]; intros [|z r] x H; try discriminate; [reflexivity|]. cbn. f_equal. apply IH. now injection H. Qed.
Lemma last_any {A} (l : list A) x d d' : last (x :: l) d = last (x :: l) d'.
Proof. revert x. induction l as [|y l IH]; intros x; [reflexivity|]. exact (IH y). Qed.
Lemma chain_cons a b p : chain (a :: b :: p) = (a, b) :: chain (b :: p).
Proof. reflexivity. Qed.
Lemma edges_chain a p : edges (a :: p) = chain (a :: p ++ [a]).
Proof. unfold edges, chain. cbn [tl firstn]. rewrite app_comm_cons. rewrite (combine_more (a :: p)); [reflexivity|]. rewrite app_length. cbn. lia. Qed.
Lemma chain_app : forall l x r, chain (l ++ x :: r) = chain (l ++ [x]) ++ chain (x :: r).
Proof.
  induction l as [|y l IH]; intros x r; [reflexivity|]. specialize (IH x r). destruct l as [|z l]; [reflexivity|]. cbn [app] in *. unfold chain in *. cbn [tl combine app] in *. f_equal. exact IH.
Qed.
Lemma fan_edges o ps : fan_area o ps = rsum (map (fun ab => signed_area o (fst ab) (snd ab)) (edges ps)).
Proof. reflexivity. Qed.
Lemma sum_ends (g : list R -> R) : forall a p, rsum (map (fun ab => g (snd ab) - g (fst ab)) (chain (a :: p))) = g (last (a :: p) a) - g a.
Proof.
  intros a p. revert a. induction p as [|b p IH]; intros a; [cbn; lra|]. rewrite chain_cons. cbn [map]. rewrite rsum_cons, IH. cbn [fst snd].
  change (last (a :: b :: p) a) with (last (b :: p) a). rewrite (last_any p b b a). lra.
Qed.
Lemma rsum_plus {A} (f g : A -> R) l : rsum (map (fun x => f x + g x) l) = rsum (map f l) + rsum (map g l).
Proof. induction l as [|x l IH]; [cbn; lra|]. cbn [map]. rewrite !rsum_cons, IH. lra. Qed.
Lemma last_snoc {A} (l : list A) x d : last (l ++ [x]) d = x.
Proof. induction l as [|y l IH]; [reflexivity|]. cbn [app]. destruct (l ++ [x]) eqn:E; [now destruct l|]. exact IH. Qed.
Lemma fan_cross o ps : fan_area o ps = rsum (map cross (edges ps)) / 2.
Proof.
  rewrite fan_edges. destruct ps as [|a p]; [cbn; lra|]. rewrite edges_chain.
  set (g := fun q => px q * py o - px o * py q).
  transitivity (rsum (map (fun ab => cross ab + (g (snd ab) - g (fst ab))) (chain (a :: p ++ [a]))) / 2).
  - unfold Rdiv. rewrite Rmult_comm. generalize (chain (a :: p ++ [a])). intros l. induction l as [|[u v] l IH]; [cbn; lra|]. cbn [map]. rewrite !rsum_cons, IH. unfold signed_area, cross, g. cbn [fst snd]. lra.
  - rewrite rsum_plus, sum_ends. rewrite app_comm_cons, last_snoc. lra.
Qed.
Lemma fan_any o o' ps : fan_area o ps = fan_area o' ps.
Proof. now rewrite !fan_cross. Qed.

Lemma foldM_sum {A} (f : R -> A -> res R) (e : A -> R) : forall l a, (forall acc x, In x l -> f acc x = Ok (acc + e x)) -> foldM f l a = Ok (a + rsum (map e l)).
Proof.
  induction l as [|x l IH]; intros a H; [cbn; f_equal; lra|]. cbn [foldM map]. rewrite H by now left. cbn [bind]. rewrite IH by (intros; apply H; now right). rewrite rsum_cons. f_equal. lra.
Qed.
Lemma edge_nth ps i : (i < length ps)%nat -> nth_error (edges ps) i = Some (nth i ps [], nth ((i + 1) mod length ps) ps []).
Proof.
  intros Hi. destruct ps as [|a p]; [cbn in Hi; lia|]. unfold edges. cbn [tl firstn]. assert (G : forall (l : list (list R)) (r : list (list R)) k, (k < length l)%nat -> length l = length r -> nth_error (combine l r) k = Some (nth k l [], nth k r [])).
  { induction l as [|x l IH]; intros [|y r] [|k] H1 H2; cbn in *; try lia; [reflexivity|]. apply IH; lia. }
  rewrite G; [|assumption|rewrite app_length; cbn; lia]. do 2 f_equal. destruct (Nat.eq_dec (i + 1) (length (a :: p))) as [E|E].
  - rewrite E, Nat.mod_same by (cbn; lia). rewrite app_nth2 by (cbn in E; lia). cbn in E. replace (i - length p)%nat with 0%nat by lia. reflexivity.
  - rewrite Nat.mod_small by (cbn in *; lia). rewrite app_nth1 by (cbn in *; lia). rewrite Nat.add_1_r. reflexivity.
Qed.
Lemma edges_length ps : length (edges ps) = length ps.
Proof. unfold edges. rewrite combine_length, app_length. destruct ps; [reflexivity|]. cbn [tl firstn length]. lia. Qed.
Lemma is_cw_value ps : Forall (has_dim 2) ps -> is_cw ps = Ok (if Rlt_dec (rsum (map cross (edges ps))) 0 then true else false).
Proof.
  intros HD. unfold is_cw. set (n := length ps).
  assert (HG : forall i a, (i < n)%nat -> (a < 2)%nat -> get2 ps i a = Ok (at_ a (nth i ps []))).
  { intros i a Hi Ha. destruct (nth_error_lt ps i Hi) as [p Hp]. rewrite Forall_forall in HD. pose proof (HD p (nth_error_In _ _ Hp)) as Hd. unfold has_dim in Hd. destruct (nth_error_lt p a) as [x Hx]; [lia|].
    rewrite (nth_error_nth ps i [] Hp). unfold at_. rewrite (nth_error_nth p a 0 Hx). apply get2_Ok. exists p. auto. }
  rewrite (foldM_sum _ (fun i => cross (nth i ps [], nth ((i + 1) mod n) ps []))).
  - cbn [bind]. rewrite Rplus_0_l. replace (map (fun i => cross (nth i ps [], nth ((i + 1) mod n) ps [])) (seq 0 n)) with (map cross (edges ps)); [reflexivity|].
    apply nth_error_ext. intros i. rewrite !nth_error_map. destruct (Nat.lt_ge_cases i n) as [Hi|Hi].
    + rewrite edge_nth, nth_error_seq by assumption. reflexivity.
    + rewrite !nth_error_ge; [reflexivity| |]; [rewrite seq_length; assumption|rewrite edges_length; assumption].
  - intros acc i Hi. apply in_seq in Hi. assert (H1 : (i < n)%nat) by lia. assert (H2 : ((i + 1) mod n < n)%nat) by (apply Nat.mod_upper_bound; lia). rewrite !HG by (assumption || lia). reflexivity.
Qed.
(** orientation and area *)
Lemma orientation : forall ps, Forall (has_dim 2) ps -> exists b, is_cw ps = Ok b /\ is_ccw ps = Ok (negb b) /\ forall o, (b = true <-> fan_area o ps < 0) /\ (b = false <-> 0 <= fan_area o ps).
Proof.
  intros ps HD. eexists. split; [now apply is_cw_value|]. split; [unfold is_ccw; now rewrite is_cw_value|]. intros o. rewrite fan_cross. destruct (Rlt_dec (rsum (map cross (edges ps))) 0) as [H|H]; split; split; intros; try reflexivity; try discriminate; try lra.
Qed.
Lemma moved_dim t ps qs : Forall2 (moved_by t) ps qs -> Forall (has_dim 2) qs -> Forall (has_dim 2) ps.
Proof. intros H. induction H as [|p q ps qs [HL _] H IH]; intros HF; [constructor|]. inversion HF; subst. constructor; [unfold has_dim in *; lia|auto]. Qed.
Lemma area_moved : forall t ps qs o, Forall2 (moved_by t) ps qs -> Forall (has_dim 2) qs -> fan_area o ps = fan_area o qs.
Proof.
  intros t ps qs o H HD. rewrite !fan_cross. assert (G : forall a p b q, moved_by t a b -> has_dim 2 b -> Forall2 (moved_by t) p q -> Forall (has_dim 2) q ->
     rsum (map cross (chain (a :: p))) = rsum (map cross (chain (b :: q))) + (px t * (py (last (b :: q) b) - py b) - py t * (px (last (b :: q) b) - px b))).
  { intros a p. revert a. induction p as [|c p IH]; intros a b q Hab Hb Hpq Hq; inversion Hpq as [|? d ? q' Hcd Hpq']; subst; [unfold chain; cbn [last tl combine map]; ring|]. inversion Hq as [|? ? Hd Hq']; subst.
    rewrite !chain_cons. cbn [map]. rewrite !rsum_cons. rewrite (IH c d q' Hcd Hd Hpq' Hq').
    change (last (b :: d :: q') b) with (last (d :: q') b). rewrite (last_any q' d b d).
    assert (E : forall u v, moved_by t u v -> has_dim 2 v -> px u = px v + px t /\ py u = py v + py t).
    { intros u v [_ HM] Hv. unfold has_dim in Hv. split; [apply (HM 0%nat)|apply (HM 1%nat)]; lia. }
    destruct (E a b Hab Hb) as [E1 E2]. destruct (E c d Hcd Hd) as [E3 E4]. unfold cross. cbn [fst snd]. rewrite E1, E2, E3, E4. ring. }
  inversion H as [|a b p q Hab Hpq]; subst; [reflexivity|]. inversion HD as [|? ? Hb Hq]; subst. rewrite !edges_chain. f_equal.
  rewrite (G a (p ++ [a]) b (q ++ [b])); [|assumption|assumption|apply Forall2_app; [assumption|constructor; [assumption|constructor]]|apply Forall_app; split; [assumption|repeat constructor; assumption]].
  rewrite app_comm_cons, last_snoc. lra.
Qed.
Lemma area_rotated : forall o ps qs, fan_area o (qs ++ ps) = fan_area o (ps ++ qs).
Proof.
  intros o ps qs. rewrite !fan_cross. f_equal. destruct ps as [|a p]; [now rewrite app_nil_r|]. destruct qs as [|b q]; [now rewrite app_nil_r|]. cbn [app]. rewrite !edges_chain. rewrite <- !app_assoc. cbn [app].
  pose proof (chain_app (b :: q) a (p ++ [b])) as E1. pose proof (chain_app (a :: p) b (q ++ [a])) as E2. cbn [app] in E1, E2. rewrite E1, E2. rewrite !map_app, !rsum_app. apply Rplus_comm.
Qed.
Lemma chain_rev : forall l, rsum (map cross (chain (rev l))) = - rsum (map cross (chain l)).
Proof.
  induction l as [|a l IH]; [cbn; lra|]. cbn [rev]. destruct l as [|b l]; [cbn; lra|]. cbn [rev] in *. rewrite <- app_assoc. cbn [app]. rewrite chain_app, map_app, rsum_app, IH. rewrite !chain_cons. cbn [map]. rewrite !rsum_cons. replace (rsum (map cross (chain [a]))) with 0 by reflexivity. unfold cross at 2 3. cbn [fst snd]. lra.
Qed.
Lemma area_reversed : forall o ps, fan_area o (rev ps) = - fan_area o ps.
Proof.
  intros o ps. destruct ps as [|a p]; [cbn; lra|]. cbn [rev]. rewrite area_rotated, !fan_cross. cbn [app]. rewrite !edges_chain. change (a :: rev p ++ [a]) with ([a] ++ rev p ++ [a]).
  replace ([a] ++ rev p ++ [a]) with (rev (a :: p ++ [a])); [rewrite chain_rev; lra|]. cbn [rev]. rewrite rev_app_distr. reflexivity.
Qed.
Lemma chain_nth : forall l u v, In (u, v) (chain l) -> exists i, nth_error l i = Some u /\ nth_error l (S i) = Some v.
Proof.
  induction l as [|a l IH]; intros u v H; [contradiction|]. destruct l as [|b l]; [contradiction|]. rewrite chain_cons in H. destruct H as [H|H]; [injection H as <- <-; exists 0%nat; auto|].
  destruct (IH u v H) as (i & H1 & H2). exists (S i). auto.
Qed.
Lemma rsum_nonneg l : (forall x, In x l -> 0 < x) -> l <> [] -> 0 < rsum l.
Proof.
  induction l as [|x l IH]; intros H HN; [easy|]. rewrite rsum_cons. pose proof (H x (or_introl eq_refl)). destruct l as [|y l]; [cbn; lra|]. assert (0 < rsum (y :: l)) by (apply IH; [intros; apply H; now right|discriminate]). lra.
Qed.
Lemma area_convex : forall o ps, (3 <= length ps)%nat -> convex_ccw ps -> 0 < fan_area o ps.
Proof.
  intros o ps HL HC. destruct ps as [|a [|b [|c l]]]; try (cbn in HL; lia). rewrite (fan_any o a), fan_edges, edges_chain. cbn [app]. set (p := c :: l) in *. change (c :: l ++ [a]) with (p ++ [a]).
  assert (E : chain (a :: b :: p ++ [a]) = (a, b) :: chain (b :: p) ++ [(last (b :: p) b, a)]).
  { rewrite chain_cons. f_equal. assert (HS : exists m z, b :: p = m ++ [z]) by (destruct (exists_last (l := b :: p)) as (m & z & Hz); [discriminate|eauto]).
    destruct HS as (m & z & Hz). rewrite app_comm_cons, Hz, <- app_assoc. cbn [app]. rewrite chain_app, last_snoc. reflexivity. }
  rewrite E. cbn [map]. rewrite rsum_cons, map_app, rsum_app. cbn [map fst snd].
  assert (Z1 : signed_area a a b = 0) by (unfold signed_area; lra). assert (Z2 : signed_area a (last (b :: p) b) a = 0) by (unfold signed_area; lra). rewrite Z1, Z2.
  assert (H : 0 < rsum (map (fun ab => signed_area a (fst ab) (snd ab)) (chain (b :: p)))); [|cbn; cbn in H; lra].
  apply rsum_nonneg; [|unfold p, chain; discriminate]. intros x Hx. apply in_map_iff in Hx. destruct Hx as ((u & v) & <- & Huv). cbn [fst snd]. destruct (chain_nth _ _ _ Huv) as (i & Hi & Hi').
  apply (HC 0%nat (S i) (S (S i))); [lia|reflexivity|exact Hi|exact Hi'].
Qed.

(** consequences *)
Lemma cw_moved : forall t ps qs, Forall2 (moved_by t) ps qs -> Forall (has_dim 2) qs -> is_cw ps = is_cw qs.
Proof.
  intros t ps qs H HD. destruct (orientation ps (moved_dim t ps qs H HD)) as (b & E & _ & Hb). destruct (orientation qs HD) as (b' & E' & _ & Hb'). rewrite E, E'. f_equal. destruct (Hb []) as [H1 H2]. destruct (Hb' []) as [H1' H2']. rewrite (area_moved t ps qs [] H HD) in H1, H2.
  destruct b, b'; try reflexivity; exfalso; [assert (false = true) as Hx by (apply H1', H1; reflexivity)|assert (false = true) as Hx by (apply H1, H1'; reflexivity)]; discriminate.
Qed.
Lemma cw_rotated : forall ps qs, Forall (has_dim 2) (ps ++ qs) -> is_cw (qs ++ ps) = is_cw (ps ++ qs).
Proof.
  intros ps qs HD. assert (HD' : Forall (has_dim 2) (qs ++ ps)) by (apply Forall_app in HD; apply Forall_app; tauto). rewrite !is_cw_value by assumption.
  pose proof (area_rotated [] ps qs) as E. rewrite !fan_cross in E. replace (rsum (map cross (edges (qs ++ ps)))) with (rsum (map cross (edges (ps ++ qs)))) by lra. reflexivity.
Qed.
Lemma cw_reversed : forall ps b, Forall (has_dim 2) ps -> fan_area [] ps <> 0 -> is_cw ps = Ok b -> is_cw (rev ps) = Ok (negb b).
Proof.
  intros ps b HD HN H. assert (HD' : Forall (has_dim 2) (rev ps)) by (now apply Forall_rev). rewrite is_cw_value in * by assumption. pose proof (area_reversed [] ps) as E. rewrite !fan_cross in E. rewrite fan_cross in HN. injection H as <-. f_equal.
  destruct (Rlt_dec (rsum (map cross (edges ps))) 0), (Rlt_dec (rsum (map cross (edges (rev ps)))) 0); try reflexivity; exfalso; [lra|]. apply HN. lra.
Qed.
Lemma ccw_convex : forall ps, (3 <= length ps)%nat -> Forall (has_dim 2) ps -> convex_ccw ps -> is_ccw ps = Ok true /\ is_cw (rev ps) = Ok true.
Proof.
  intros ps HL HD HC. pose proof (area_convex [] ps HL HC) as HA. destruct (orientation ps HD) as (b & E & E' & Hb). destruct (Hb []) as [H1 H2]. assert (b = false) by (apply H2; lra). subst b. split; [exact E'|]. apply (cw_reversed ps false HD); [lra|exact E].
Qed.
