(** * Proofs about [IndexModel.v], part 1: one index manager *)
From Coq Require Import ZArith Lia List Permutation.
From Verif Require Import BaseFacts IndexModel IndexSpec.
Import ListNotations.
Local Open Scope Z_scope.

Lemma zrange_In a b v : In v (zrange a b) <-> a <= v < b.
Proof. unfold zrange. rewrite in_map_iff. split; [intros (k & <- & Hk); apply in_seq in Hk; lia|intros H; exists (Z.to_nat (v - a)); split; [lia|apply in_seq; lia]]. Qed.
Lemma zrange_NoDup a b : NoDup (zrange a b).
Proof. unfold zrange. apply FinFun.Injective_map_NoDup; [intros x y; lia|apply seq_NoDup]. Qed.
Lemma zrange_length a b : length (zrange a b) = Z.to_nat (b - a).
Proof. unfold zrange. now rewrite map_length, seq_length. Qed.
Lemma zrange_1 a : zrange a (a + 1) = [a].
Proof. unfold zrange. replace (Z.to_nat (a + 1 - a)) with 1%nat by lia. cbn [seq map]. f_equal. lia. Qed.
Lemma zrange_app a b c : a <= b <= c -> zrange a c = zrange a b ++ zrange b c.
Proof.
  intros H. unfold zrange. replace (Z.to_nat (c - a)) with (Z.to_nat (b - a) + Z.to_nat (c - b))%nat by lia. rewrite seq_app, map_app. f_equal. cbn [plus].
  rewrite <- (Nat.add_0_r (Z.to_nat (b - a))) at 1. generalize 0%nat as s. generalize (Z.to_nat (c - b)) as k. induction k as [|k IH]; intros s; cbn [seq map]; [reflexivity|]. f_equal; [lia|]. rewrite <- IH. f_equal. f_equal. lia.
Qed.
Lemma pop_app l : l <> [] -> l = snd (pop l) ++ [fst (pop l)].
Proof. intros H. unfold pop. cbn. now apply app_removelast_last. Qed.

(** what a fitting request does *)
Lemma generate_fits n m g m' : fits n m -> generate n m = (g, m') -> length g = n /\ next m <= next m' /\ Permutation (g ++ queue m') (queue m ++ zrange (next m) (next m')).
Proof.
  intros HF HG. unfold generate in HG. destruct (Nat.ltb_spec 0 (length (queue m))) as [HQ|HQ].
  - assert (NE : queue m <> []) by (intros E; rewrite E in HQ; cbn in HQ; lia). destruct (Nat.eqb_spec n 1) as [->|N1].
    + unfold pop in HG. injection HG as <- <-. cbn [queue next length]. split; [reflexivity|]. split; [lia|]. replace (zrange (next m) (next m)) with (@nil Z) by (unfold zrange; now rewrite Z.sub_diag). rewrite app_nil_r.
      pose proof (pop_app (queue m) NE) as EP. unfold pop in EP. cbn [fst snd] in EP. transitivity (removelast (queue m) ++ [last (queue m) 0]); [apply Permutation_app_comm|rewrite <- EP; apply Permutation_refl].
    + destruct HF as [HF|[HF|HF]]; [congruence|congruence|]. destruct (Nat.leb_spec n (length (queue m))) as [L|L].
      * assert (E : length (queue m) = n) by lia. injection HG as <- <-. cbn [queue next]. rewrite E, Z.sub_diag, Z.add_0_r. replace (zrange (next m) (next m)) with (@nil Z) by (unfold zrange; now rewrite Z.sub_diag).
        split; [rewrite firstn_length; lia|]. split; [lia|]. rewrite firstn_skipn, app_nil_r. apply Permutation_refl.
      * injection HG as <- <-. cbn [queue next]. split; [rewrite app_length, zrange_length; lia|]. split; [lia|]. rewrite app_nil_r, Z.add_sub_assoc. apply Permutation_refl.
  - assert (E : queue m = []) by (destruct (queue m); [reflexivity|cbn in HQ; lia]). destruct (Nat.eqb_spec n 1) as [->|N1].
    + injection HG as <- <-. cbn [queue next length]. split; [reflexivity|]. split; [lia|]. rewrite E. cbn [app]. change (Z.of_nat 1) with 1. rewrite zrange_1. apply Permutation_refl.
    + injection HG as <- <-. cbn [queue next]. split; [rewrite zrange_length; lia|]. split; [lia|]. rewrite E, app_nil_r. apply Permutation_refl.
Qed.

Lemma fitting_exact k : forall os s s', fitting s os s' -> k <= next (fst s) -> Permutation (snd s ++ queue (fst s)) (zrange k (next (fst s))) -> k <= next (fst s') /\ Permutation (snd s' ++ queue (fst s')) (zrange k (next (fst s'))).
Proof.
  intros os s s' H. induction H as [s|m live n s1 os s2 HF HU _ IH|s ids s1 os s2 HU _ IH]; intros Hk HP; [auto| |].
  - apply IH; clear IH; inversion HU as [? ? ? g m' HG|]; subst; cbn [fst snd] in *; destruct (generate_fits n m g m' HF HG) as (_ & L & P); [lia|].
    rewrite <- app_assoc, P, app_assoc, HP. rewrite <- zrange_app by lia. apply Permutation_refl.
  - apply IH; clear IH; inversion HU as [|? ? ? ? HQ]; subst; cbn [fst snd recycle queue next] in *; [lia|].
    rewrite <- HP, HQ. rewrite <- app_assoc. rewrite (Permutation_app_comm ids). rewrite <- app_assoc. apply Permutation_refl.
Qed.

Lemma numbers_unique : forall k os m live, fitting (new_manager k, []) os (m, live) -> NoDup live /\ Permutation (live ++ queue m) (zrange k (next m)).
Proof.
  intros k os m live H. destruct (fitting_exact k os _ _ H) as [_ P]; cbn; [lia|unfold zrange; now rewrite Z.sub_diag|]. cbn [fst snd] in P. split; [|exact P].
  pose proof (Permutation_NoDup (Permutation_sym P) (zrange_NoDup _ _)) as ND. clear - ND. induction live as [|x live IH]; [constructor|]. inversion ND; subst. constructor; [intros HI; apply H1, in_or_app; now left|now apply IH].
Qed.

(** numbers that are never given back *)
Lemma gets_fit : forall ns m live s, queue m = [] -> uses (m, live) (map Get ns) s -> fitting (m, live) (map Get ns) s /\ queue (fst s) = [] /\ snd s = live ++ zrange (next m) (next m + Z.of_nat (fold_right Nat.add 0%nat ns)).
Proof.
  induction ns as [|n ns IH]; intros m live s HQ HU.
  - inversion HU; subst. cbn [map fst snd fold_right]. split; [constructor|]. split; [exact HQ|]. rewrite Z.add_0_r. unfold zrange. rewrite Z.sub_diag. cbn. now rewrite app_nil_r.
  - cbn [map] in HU. inversion HU as [|? ? s1 ? ? HG HR]; subst. inversion HG as [? ? ? g m' HE|]; subst.
    assert (E : g = zrange (next m) (next m + Z.of_nat n) /\ m' = {| queue := []; next := next m + Z.of_nat n |}).
    { unfold generate in HE. rewrite HQ in HE. cbn [length Nat.ltb Nat.leb] in HE. destruct (Nat.eqb_spec n 1) as [->|]; injection HE as <- <-; split; auto. change (Z.of_nat 1) with 1. now rewrite zrange_1. }
    destruct E as [-> ->]. destruct (IH {| queue := []; next := next m + Z.of_nat n |} _ s eq_refl HR) as (F & Q & S). split; [|split; [exact Q|]].
    + cbn [map]. eapply fit_get; [right; now left|exact HG|exact F].
    + rewrite S. cbn [next fold_right]. rewrite <- app_assoc. f_equal. rewrite Nat2Z.inj_add, Z.add_assoc. symmetry. apply zrange_app. lia.
Qed.
Lemma numbers_in_order : forall k ns m live, uses (new_manager k, []) (map Get ns) (m, live) -> live = zrange k (k + Z.of_nat (fold_right Nat.add 0%nat ns)).
Proof. intros k ns m live H. destruct (gets_fit ns (new_manager k) [] (m, live) eq_refl H) as (_ & _ & S). exact S. Qed.

(** a request that does not fit *)
Lemma drain : forall q m live, (length (queue m) = q)%nat -> exists live', uses (m, live) (repeat (Get 1) q) ({| queue := []; next := next m |}, live') /\ Permutation live' (live ++ queue m).
Proof.
  induction q as [|q IH]; intros m live HL.
  - exists live. destruct m as [Q N]. destruct Q; [|discriminate]. cbn. split; [constructor|rewrite app_nil_r; apply Permutation_refl].
  - assert (NE : queue m <> []) by (intros E; rewrite E in HL; discriminate). pose proof (pop_app _ NE) as EP. unfold pop in EP. cbn [fst snd] in EP.
    destruct (IH {| queue := removelast (queue m); next := next m |} (live ++ [last (queue m) 0])) as (live' & U & P).
    { cbn [queue]. apply (f_equal (@length Z)) in EP. rewrite app_length in EP. cbn in EP. lia. }
    exists live'. split.
    + cbn [repeat]. eapply uses_more; [|exact U]. constructor. unfold generate. destruct (Nat.ltb_spec 0 (length (queue m))); [reflexivity|lia].
    + rewrite P. cbn [queue]. rewrite <- app_assoc. apply Permutation_app_head. transitivity (removelast (queue m) ++ [last (queue m) 0]); [apply Permutation_app_comm|rewrite <- EP; apply Permutation_refl].
Qed.

Lemma uses_app : forall os s s1 os' s2, uses s os s1 -> uses s1 os' s2 -> uses s (os ++ os') s2.
Proof. intros os s s1 os' s2 H. induction H; intros H2; cbn; [exact H2|]. econstructor; eauto. Qed.

Lemma number_twice : forall k os m live n, fitting (new_manager k, []) os (m, live) -> ~ fits n m ->
  exists os' m' live', uses (m, live) (Get n :: os') (m', live') /\ ~ NoDup live'.
Proof.
  intros k os m live n HF HN. destruct (fitting_exact k os _ _ HF) as [Hk P]; cbn; [lia|unfold zrange; now rewrite Z.sub_diag|]. cbn [fst snd] in Hk, P.
  assert (N1 : n <> 1%nat) by (intros E; apply HN; now left). assert (NE : queue m <> []) by (intros E; apply HN; right; now left). assert (NL : (n < length (queue m))%nat) by (destruct (Nat.lt_ge_cases n (length (queue m))); [assumption|exfalso; apply HN; right; now right]).
  set (m1 := {| queue := skipn n (queue m); next := next m + (Z.of_nat n - Z.of_nat (length (queue m))) |}).
  assert (G : generate n m = (firstn n (queue m), m1)).
  { unfold generate. destruct (Nat.ltb_spec 0 (length (queue m))); [|lia]. destruct (Nat.eqb_spec n 1); [contradiction|]. destruct (Nat.leb_spec n (length (queue m))); [reflexivity|lia]. }
  destruct (drain (length (queue m1)) m1 (live ++ firstn n (queue m)) eq_refl) as (live1 & U & P1).
  assert (PL : Permutation live1 (zrange k (next m))). { rewrite P1. cbn [queue m1]. rewrite <- app_assoc, firstn_skipn. exact P. }
  exists (repeat (Get 1) (length (queue m1)) ++ [Get 1]), {| queue := []; next := next m1 + 1 |}, (live1 ++ [next m1]). split.
  - econstructor; [econstructor; exact G|]. eapply uses_app; [exact U|]. econstructor; [|constructor]. constructor. reflexivity.
  - intros ND. apply Permutation_length in P. rewrite app_length, zrange_length in P.
    assert (HI : In (next m1) live1) by (apply (Permutation_in _ (Permutation_sym PL)), zrange_In; cbn [next m1]; lia).
    apply NoDup_remove_2 in ND. apply ND. now rewrite app_nil_r.
Qed.
