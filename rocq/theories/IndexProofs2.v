(** * Proofs about [IndexModel.v], part 2: blocks *)
From Coq Require Import ZArith Lia List Permutation.
From Verif Require Import BaseFacts IndexModel IndexSpec IndexProofs.
Import ListNotations.
Local Open Scope Z_scope.

Lemma upd_nth s b f x : nth_error (upd s b f) x = option_map (fun X => if Nat.eqb x b then f X else X) (nth_error s x).
Proof.
  unfold upd. rewrite nth_error_map, nth_error_enum. destruct (nth_error s x); reflexivity.
Qed.
Lemma upd_length s b f : length (upd s b f) = length s.
Proof. unfold upd, enum. rewrite map_length. generalize 0%nat. induction s; intros k; cbn; auto. Qed.

Lemma root_fun s x r : root_of s x r -> forall r', root_of s x r' -> r = r'.
Proof.
  induction 1 as [b B Hb Hp|b B p r Hb Hp _ IH]; intros r' H'; inversion H' as [? B' Hb' Hp'|? B' p' ? Hb' Hp' H2]; subst; try congruence.
  rewrite Hb in Hb'. injection Hb' as <-. rewrite Hp in Hp'. injection Hp' as <-. auto.
Qed.
Lemma root_is_root s x r : root_of s x r -> exists R, nth_error s r = Some R /\ parent R = None.
Proof. induction 1; eauto. Qed.

(** states that differ in the parent of one block without children *)
Definition agree (s s' : state) (b : nat) : Prop := forall x, x <> b -> option_map parent (nth_error s x) = option_map parent (nth_error s' x).
Lemma root_agree s s' b : agree s s' b -> childless s b -> forall x r, root_of s x r -> x <> b -> root_of s' x r.
Proof.
  intros HA HC x r H. induction H as [x X Hx Hp|x X p r Hx Hp H IH]; intros NE.
  - specialize (HA x NE). rewrite Hx in HA. cbn in HA. destruct (nth_error s' x) as [X'|] eqn:E; [|discriminate]. cbn in HA. injection HA as HA. eapply root_here; [exact E|congruence].
  - pose proof (HA x NE) as Q. rewrite Hx in Q. cbn in Q. destruct (nth_error s' x) as [X'|] eqn:E; [|discriminate]. cbn in Q. injection Q as Q. eapply root_up; [exact E|rewrite <- Q; exact Hp|]. apply IH. intros ->. apply (HC _ _ Hx Hp).
Qed.
Lemma agree_sym s s' b : agree s s' b -> agree s' s b.
Proof. intros H x N. symmetry. now apply H. Qed.
Lemma childless_agree s s' b : agree s s' b -> (forall B', nth_error s' b = Some B' -> parent B' <> Some b) -> childless s b -> childless s' b.
Proof.
  intros HA HB HC x X' HX HP. destruct (Nat.eq_dec x b) as [->|NE]; [exact (HB _ HX HP)|]. specialize (HA x NE). rewrite HX in HA. cbn in HA. destruct (nth_error s x) as [X|] eqn:E; [|discriminate]. cbn in HA. injection HA as HA. apply (HC x X E). congruence.
Qed.

(** ** the numbers of all blocks *)
Definition sound (m : manager) : Prop := NoDup (queue m) /\ forall v, In v (queue m) -> v < next m.
Record good (s : state) : Prop := {
  g_sound : forall x X, nth_error s x = Some X -> sound (cim X);
  g_ids : forall x X r R l, nth_error s x = Some X -> root_of s x r -> nth_error s r = Some R -> cids X = Some l ->
          NoDup l /\ forall v, In v l -> v < next (cim R) /\ ~ In v (queue (cim R));
  g_apart : forall x y X Y r lx ly v, x <> y -> nth_error s x = Some X -> nth_error s y = Some Y -> root_of s x r -> root_of s y r ->
          cids X = Some lx -> cids Y = Some ly -> In v lx -> ~ In v ly;
  g_cells : forall x X, nth_error s x = Some X -> ncells X = None -> cids X = None;
  g_self : forall x X, nth_error s x = Some X -> parent X <> Some x }.

Lemma nodup_apart {A} : forall (l k : list A) v, NoDup (l ++ k) -> In v l -> ~ In v k.
Proof. induction l as [|x l IH]; intros k v ND Hv HI; [contradiction|]. cbn in ND. inversion ND; subst. destruct Hv as [->|Hv]; [apply H1, in_or_app; now right|exact (IH k v H2 Hv HI)]. Qed.
Lemma generate_sound n m g m' : fits n m -> sound m -> generate n m = (g, m') ->
  sound m' /\ NoDup g /\ next m <= next m' /\ (forall v, In v (queue m') -> In v (queue m)) /\ forall v, In v g -> v < next m' /\ ~ In v (queue m') /\ (In v (queue m) \/ next m <= v).
Proof.
  intros HF [ND LT] HG. destruct (generate_fits n m g m' HF HG) as (HL & HN & P).
  assert (ND2 : NoDup (g ++ queue m')).
  { apply (Permutation_NoDup (Permutation_sym P)). clear P. assert (Q : forall v, In v (queue m) -> ~ In v (zrange (next m) (next m'))) by (intros v Hv Hz; apply zrange_In in Hz; specialize (LT v Hv); lia).
    revert ND Q. clear LT. induction (queue m) as [|x q IH]; intros ND Q; [apply zrange_NoDup|]. cbn. inversion ND; subst. constructor; [|apply IH; [assumption|intros v Hv; apply Q; now right]]. intros HI. apply in_app_or in HI. destruct HI as [HI|HI]; [contradiction|]. apply (Q x); [now left|exact HI]. }
  assert (SQ : forall v, In v (queue m') -> In v (queue m)).
  { intros v Hv. unfold generate in HG. destruct (Nat.ltb 0 (length (queue m))) eqn:E0; [|destruct (Nat.eqb n 1); injection HG as <- <-; exact Hv].
    destruct (Nat.eqb n 1); [unfold pop in HG; injection HG as <- <-; cbn in Hv|].
    - assert (NE : queue m <> []) by (intros E; rewrite E in E0; discriminate). rewrite (app_removelast_last 0 NE). apply in_or_app. now left.
    - destruct (Nat.leb n (length (queue m))); injection HG as <- <-; cbn in Hv; [|contradiction]. rewrite <- (firstn_skipn n (queue m)). apply in_or_app. now right. }
  assert (A : forall v, In v g -> ~ In v (queue m') /\ (In v (queue m) \/ next m <= v < next m')).
  { intros v Hv. split.
    - exact (nodup_apart _ _ v ND2 Hv).
    - assert (In v (queue m ++ zrange (next m) (next m'))) by (apply (Permutation_in _ P), in_or_app; now left). apply in_app_or in H. destruct H as [H|H]; [now left|right; now apply zrange_In]. }
  split; [|split; [|split; [exact HN|split; [exact SQ|]]]].
  - split; [|intros v Hv; specialize (LT v (SQ v Hv)); lia]. clear - ND2. induction g as [|x g IH]; [exact ND2|]. cbn in ND2. inversion ND2; subst. auto.
  - clear - ND2. induction g as [|x g IH]; [constructor|]. cbn in ND2. inversion ND2; subst. constructor; [intros HI; apply H1, in_or_app; now left|auto].
  - intros v Hv. destruct (A v Hv) as [A1 A2]. split; [|split; [exact A1|]].
    + destruct A2 as [A2|A2]; [specialize (LT v A2); lia|lia].
    + destruct A2 as [A2|A2]; [now left|right; lia].
Qed.

Lemma good_unique s : good s -> unique_cells s.
Proof.
  intros G x y X Y r i j v lx ly Rx Ry Hx Hy Ex Ey Hi Hj. destruct (Nat.eq_dec x y) as [->|NE].
  - split; [reflexivity|]. rewrite Hx in Hy. injection Hy as <-. rewrite Ex in Ey. injection Ey as <-. destruct (root_is_root _ _ _ Rx) as (R & HR & _). destruct (g_ids _ G y X r R lx Hx Rx HR Ex) as [ND _].
    apply (proj1 (NoDup_nth_error lx) ND); [apply nth_error_Some; congruence|congruence].
  - exfalso. exact (g_apart _ G x y X Y r lx ly v NE Hx Hy Rx Ry Ex Ey (nth_error_In _ _ Hi) (nth_error_In _ _ Hj)).
Qed.

Lemma sound_new n g m : generate n (new_manager 0) = (g, m) -> sound m /\ NoDup g /\ forall v, In v g -> v < next m /\ ~ In v (queue m).
Proof.
  intros E. assert (S0 : sound (new_manager 0)) by (split; [constructor|intros v []]). assert (F : fits n (new_manager 0)) by (right; left; reflexivity). destruct (generate_sound n _ g m F S0 E) as (A & B & _ & _ & D). split; [exact A|]. split; [exact B|]. intros v Hv. destruct (D v Hv) as (D1 & D2 & _). now split.
Qed.

Lemma new_block_facts np nc : let B := new_block np nc in parent B = None /\ ncells B = nc /\ sound (cim B) /\
  (nc = None -> cids B = None) /\ forall l, cids B = Some l -> NoDup l /\ forall v, In v l -> v < next (cim B) /\ ~ In v (queue (cim B)).
Proof.
  unfold new_block. destruct (match np with Some n => _ | None => _ end) as [pi pm]. destruct nc as [n|].
  - destruct (generate n (new_manager 0)) as [g m] eqn:E. cbn. destruct (sound_new n g m E) as (A & B & C). split; [reflexivity|]. split; [reflexivity|]. split; [exact A|]. split; [discriminate|]. intros l H. injection H as <-. now split.
  - cbn. split; [reflexivity|]. split; [reflexivity|]. split; [split; [constructor|intros v []]|]. split; [reflexivity|discriminate].
Qed.

Lemma root_lt s x r : root_of s x r -> (x < length s)%nat /\ (r < length s)%nat.
Proof. induction 1 as [b B Hb Hp|b B p r Hb Hp H IH]; [apply nth_error_Some_lt in Hb; auto|apply nth_error_Some_lt in Hb; tauto]. Qed.
Lemma root_app s B x r : root_of s x r -> root_of (s ++ [B]) x r.
Proof. induction 1 as [b X Hb Hp|b X p r Hb Hp H IH]; [eapply root_here|eapply root_up; [|exact Hp|exact IH]]; try (rewrite nth_error_app1 by (now apply nth_error_Some_lt in Hb); exact Hb); exact Hp. Qed.
(** parents exist *)
Definition bounded (s : state) : Prop := forall x X p, nth_error s x = Some X -> parent X = Some p -> (p < length s)%nat.
Lemma root_app_inv s B x r : bounded s -> parent B = None -> root_of (s ++ [B]) x r -> root_of s x r \/ x = length s /\ r = length s.
Proof.
  intros HB HP H. induction H as [b X Hb Hp|b X p r Hb Hp H IH].
  - destruct (Nat.lt_ge_cases b (length s)) as [L|L]; [left; rewrite nth_error_app1 in Hb by exact L; eapply root_here; eauto|]. right. apply nth_error_Some_lt in Hb. rewrite app_length in Hb. cbn in Hb. lia.
  - destruct (Nat.lt_ge_cases b (length s)) as [L|L].
    + rewrite nth_error_app1 in Hb by exact L. destruct IH as [IH|[-> _]]; [left; eapply root_up; eauto|]. specialize (HB _ _ _ Hb Hp). lia.
    + exfalso. rewrite nth_error_app2 in Hb by exact L. destruct (b - length s)%nat as [|k]; cbn in Hb; [injection Hb as <-; congruence|destruct k; discriminate].
Qed.

Lemma good_create s np nc : good s -> bounded s -> good (s ++ [new_block np nc]) /\ bounded (s ++ [new_block np nc]).
Proof.
  intros G HB. destruct (new_block_facts np nc) as (P & NC & S & C0 & C). set (B := new_block np nc) in *. clearbody B. subst nc.
  assert (N : forall x X, nth_error (s ++ [B]) x = Some X -> nth_error s x = Some X \/ x = length s /\ X = B).
  { intros x X H. destruct (Nat.lt_ge_cases x (length s)) as [L|L]; [rewrite nth_error_app1 in H by exact L; auto|]. rewrite nth_error_app2 in H by exact L. destruct (x - length s)%nat as [|k] eqn:E; cbn in H; [injection H as <-; right; split; [lia|reflexivity]|destruct k; discriminate]. }
  split; [constructor|].
  - intros x X H. destruct (N x X H) as [H'|[-> ->]]; [exact (g_sound _ G _ _ H')|exact S].
  - intros x X r R l H HR HRR Hl. destruct (root_app_inv s B x r HB P HR) as [HR'|[-> ->]].
    + destruct (root_lt _ _ _ HR') as [L1 L2]. rewrite nth_error_app1 in H by exact L1. rewrite nth_error_app1 in HRR by exact L2. exact (g_ids _ G x X r R l H HR' HRR Hl).
    + rewrite H in HRR. injection HRR as <-. destruct (N _ _ H) as [H'|[_ ->]]; [apply nth_error_Some_lt in H'; lia|]. auto.
  - intros x y X Y r lx ly v NE HX HY Rx Ry. destruct (root_app_inv s B x r HB P Rx) as [Rx'|[-> ->]]; destruct (root_app_inv s B y _ HB P Ry) as [Ry'|[-> E]].
    + destruct (root_lt _ _ _ Rx') as [L1 _]. destruct (root_lt _ _ _ Ry') as [L2 _]. rewrite nth_error_app1 in HX by exact L1. rewrite nth_error_app1 in HY by exact L2. exact (g_apart _ G x y X Y r lx ly v NE HX HY Rx' Ry').
    + subst r. apply root_lt in Rx'. lia.
    + apply root_lt in Ry'. lia.
    + congruence.
  - intros x X H HN. destruct (N x X H) as [H'|[-> ->]]; [exact (g_cells _ G _ _ H' HN)|auto].
  - intros x X H. destruct (N x X H) as [H'|[-> ->]]; [exact (g_self _ G _ _ H')|congruence].
  - intros x X p H HP. rewrite app_length. cbn. destruct (N x X H) as [H'|[-> ->]]; [specialize (HB _ _ _ H' HP); lia|congruence].
Qed.
