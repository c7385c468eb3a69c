(** * Proofs about [LocModel.v], part 1: the search for hits *)
From Coq Require Import Reals Lia List Permutation Sorting.Sorted.
From Verif Require Import LocModel LocSpec BaseFacts TrProofs.
Import ListNotations.
Local Open Scope nat_scope.

Definition hit_step (pips : list (list bool)) (target : nat -> nat -> res nat) (gr : list nat * list nat) (ij : nat * nat) : res (list nat * list nat) :=
  do b <- get2 pips (fst ij) (snd ij);
  if b : bool then
    do t <- target (fst ij) (snd ij);
    do g <- set (fst gr) (fst ij) t;
    do r <- set (snd gr) (fst ij) (snd ij);
    Ok (g, r)
  else Ok gr.

Lemma hit_get2 : forall pips i j, hit pips i j <-> get2 pips i j = Ok true.
Proof.
  intros. unfold hit. rewrite get2_Ok. reflexivity.
Qed.

Lemma find_fold : forall pips target its n g0 r0, length g0 = n -> length r0 = n ->
  (forall i j, In (i, j) its -> i < n /\ exists b, get2 pips i j = Ok b /\ (b = true -> exists t, target i j = Ok t)) ->
  exists g r, foldM (hit_step pips target) its (g0, r0) = Ok (g, r) /\ length g = n /\ length r = n /\
  forall i, i < n ->
    (exists j t its1 its2, its = its1 ++ (i, j) :: its2 /\ get2 pips i j = Ok true /\ (forall j', In (i, j') its2 -> get2 pips i j' <> Ok true) /\
       nth_error r i = Some j /\ target i j = Ok t /\ nth_error g i = Some t) \/
    ((forall j, In (i, j) its -> get2 pips i j <> Ok true) /\ nth_error g i = nth_error g0 i /\ nth_error r i = nth_error r0 i).
Proof.
  intros pips target its n. induction its as [|[a b] its IH]; intros g0 r0 Hg Hr H.
  - exists g0, r0. split; [reflexivity|]. split; [assumption|]. split; [assumption|]. intros i Hi. right. split; [intros j []|]. split; reflexivity.
  - destruct (H a b (or_introl eq_refl)) as (Ha & v & Hv & Ht).
    assert (HI : forall i j, In (i, j) its -> i < n /\ exists b, get2 pips i j = Ok b /\ (b = true -> exists t, target i j = Ok t)) by (intros i j Hij; apply H; now right).
    cbn [foldM]. unfold hit_step at 1. cbn [fst snd]. rewrite Hv. cbn [bind]. destruct v.
    + destruct (Ht eq_refl) as (t & Et). rewrite Et. cbn [bind].
      destruct (proj2 (set_Ok_iff g0 a t)) as (g1 & Eg); [lia|]. destruct (proj2 (set_Ok_iff r0 a b)) as (r1 & Er); [lia|].
      rewrite Eg. cbn [bind]. rewrite Er. cbn [bind].
      destruct (IH g1 r1) as (g & r & E & Lg & Lr & F); [rewrite (set_length _ _ _ _ Eg); assumption|rewrite (set_length _ _ _ _ Er); assumption|assumption|].
      exists g, r. split; [exact E|]. split; [assumption|]. split; [assumption|]. intros i Hi.
      destruct (F i Hi) as [(j & t' & its1 & its2 & E1 & E2 & E3 & E4 & E5 & E6)|(N & Ng & Nr)].
      * left. exists j, t', ((a, b) :: its1), its2. rewrite E1. repeat split; assumption.
      * destruct (Nat.eq_dec i a) as [->|Hne].
        -- left. exists b, t, [], its. split; [reflexivity|]. split; [assumption|]. split; [assumption|].
           rewrite Nr, Ng, (set_nth_error _ _ _ _ _ Er), (set_nth_error _ _ _ _ _ Eg).
           rewrite Nat.eqb_refl. repeat split; assumption.
        -- right. rewrite Nr, Ng, (set_nth_error _ _ _ _ _ Er), (set_nth_error _ _ _ _ _ Eg).
           destruct (Nat.eqb_spec a i); [congruence|]. destruct (Nat.eqb_spec i a); [congruence|].
           split; [|split; reflexivity]. intros j [[= <- <-]|Hj]; [congruence|now apply N].
    + destruct (IH g0 r0 Hg Hr HI) as (g & r & E & Lg & Lr & F). exists g, r. split; [exact E|]. split; [assumption|]. split; [assumption|].
      intros i Hi. destruct (F i Hi) as [(j & t' & its1 & its2 & E1 & E2 & E3 & E4 & E5 & E6)|(N & Ng & Nr)].
      * left. exists j, t', ((a, b) :: its1), its2. rewrite E1. repeat split; assumption.
      * right. split; [|split; assumption]. intros j [[= <- <-]|Hj]; [congruence|now apply N].
Qed.

Lemma all_in : forall its n m, all_entries its n m -> forall i j, In (i, j) its <-> i < n /\ j < m.
Proof.
  intros its n m H i j. split.
  - intros Hi. apply (Permutation_in _ (Permutation_sym H)) in Hi. apply in_prod_iff in Hi. rewrite !in_seq in Hi. lia.
  - intros Hi. apply (Permutation_in _ H). apply in_prod_iff. rewrite !in_seq. lia.
Qed.

Lemma find_hits_correct : forall pips target its m, rect m pips -> all_entries its (length pips) m ->
  (forall i j, hit pips i j -> exists t, target i j = Ok t) ->
  exists g r, find_hits_in its pips target = Ok (g, r) /\ length g = length pips /\ length r = length pips /\
  forall i, i < length pips ->
    (exists j t its1 its2, its = its1 ++ (i, j) :: its2 /\ hit pips i j /\ (forall j', In (i, j') its2 -> ~ hit pips i j') /\
       nth_error r i = Some j /\ target i j = Ok t /\ nth_error g i = Some t) \/
    ((forall j, ~ hit pips i j) /\ nth_error g i = Some 0 /\ nth_error r i = Some 0).
Proof.
  intros pips target its m Hm Hits Ht.
  destruct (find_fold pips target its (length pips) (zeros 0 (length pips)) (zeros 0 (length pips))) as (g & r & E & Lg & Lr & F).
  - apply repeat_length.
  - apply repeat_length.
  - intros i j Hij. apply (all_in _ _ _ Hits) in Hij. destruct Hij as (Hi & Hj). split; [assumption|].
    destruct (nth_error_lt _ _ Hi) as (row & Hrow). pose proof (rect_nth _ _ _ _ Hm Hrow) as HL.
    destruct (nth_error_lt row j) as (b & Hb); [lia|]. exists b. split; [apply get2_Ok; now exists row|].
    intros ->. apply Ht. now exists row.
  - exists g, r. split; [exact E|]. split; [assumption|]. split; [assumption|]. intros i Hi.
    destruct (F i Hi) as [(j & t & its1 & its2 & E1 & E2 & E3 & E4 & E5 & E6)|(N & Ng & Nr)].
    + left. exists j, t, its1, its2. split; [assumption|]. split; [now apply hit_get2|]. split; [|repeat split; assumption].
      intros j' Hj' Hh. apply hit_get2 in Hh. now apply (E3 j').
    + right. split; [|rewrite Ng, Nr; split; apply nth_error_repeat; assumption].
      intros j Hh. pose proof (proj1 (hit_get2 _ _ _) Hh) as Hg. apply (N j); [|assumption].
      apply (all_in _ _ _ Hits). split; [assumption|]. destruct Hh as (row & Hrow & Hj). rewrite <- (rect_nth _ _ _ _ Hm Hrow). now apply nth_error_Some_lt with true.
Qed.

Lemma first_hits : forall pips its m, rect m pips -> all_entries its (length pips) m ->
  exists g, find_first_hits_in its pips = Ok (g, g) /\ length g = length pips /\
  forall i, i < length pips ->
    (exists j its1 its2, its = its1 ++ (i, j) :: its2 /\ hit pips i j /\ (forall j', In (i, j') its2 -> ~ hit pips i j') /\ nth_error g i = Some j) \/
    ((forall j, ~ hit pips i j) /\ nth_error g i = Some 0).
Proof.
  intros pips its m Hm Hits. destruct (find_hits_correct pips (fun _ j => Ok j) its m Hm Hits) as (g & r & E & Lg & Lr & F); [eauto|].
  assert (g = r) as ->.
  { apply nth_error_ext. intros i. destruct (le_lt_dec (length pips) i) as [Hi|Hi].
    - rewrite !nth_error_ge by lia. reflexivity.
    - destruct (F i Hi) as [(j & t & its1 & its2 & E1 & E2 & E3 & E4 & [= ->] & E6)|(N & Ng & Nr)]; congruence. }
  exists r. split; [exact E|]. split; [assumption|]. intros i Hi.
  destruct (F i Hi) as [(j & t & its1 & its2 & E1 & E2 & E3 & E4 & [= ->] & E6)|(N & Ng & Nr)]; [left|right]; eauto 10.
Qed.

(** in the order of the sequential loops the last hit remains *)
Definition lex_lt (a b : nat * nat) : Prop := fst a < fst b \/ (fst a = fst b /\ snd a < snd b).
Lemma ss_app {A} (R : A -> A -> Prop) l1 l2 : StronglySorted R l1 -> StronglySorted R l2 -> (forall x y, In x l1 -> In y l2 -> R x y) -> StronglySorted R (l1 ++ l2).
Proof.
  intros H1 H2 H. induction H1 as [|x l1 H1 IH Hx]; [assumption|]. cbn [app]. constructor.
  - apply IH. intros a b Ha Hb. apply H; [now right|assumption].
  - apply Forall_app. split; [assumption|]. apply Forall_forall. intros y Hy. apply H; [now left|assumption].
Qed.
Lemma ss_app_inv {A} (R : A -> A -> Prop) l1 x l2 : StronglySorted R (l1 ++ x :: l2) -> forall y, In y l1 -> R y x.
Proof.
  induction l1 as [|z l1 IH]; intros H y; [intros []|]. cbn [app] in H. inversion H as [|? ? H' Hz]; subst. intros [->|Hy]; [|now apply IH].
  rewrite Forall_forall in Hz. apply Hz. apply in_or_app. right. now left.
Qed.
Lemma seq_sorted : forall n a, StronglySorted lt (seq a n).
Proof.
  induction n as [|n IH]; intros a; cbn [seq]; constructor; [apply IH|]. apply Forall_forall. intros x Hx. apply in_seq in Hx. lia.
Qed.
Lemma prod_sorted : forall n a m, StronglySorted lex_lt (list_prod (seq a n) (seq 0 m)).
Proof.
  induction n as [|n IH]; intros a m; cbn [seq list_prod]; [constructor|]. apply ss_app; [|apply IH|].
  - generalize (seq_sorted m 0). induction (seq 0 m) as [|x l IHl]; intros Hs; cbn [map]; constructor.
    + apply IHl. now inversion Hs.
    + inversion Hs as [|? ? _ Hx]; subst. rewrite Forall_forall in *. intros y Hy. apply in_map_iff in Hy. destruct Hy as (z & <- & Hz). right. cbn. auto.
  - intros x y Hx Hy. apply in_map_iff in Hx. destruct Hx as (z & <- & _). destruct y as (p, q). apply in_prod_iff in Hy. destruct Hy as (Hp & _).
    apply in_seq in Hp. left. cbn. lia.
Qed.
Lemma sequential_hits : forall pips m, rect m pips ->
  exists g, find_first_hits pips = Ok (g, g) /\ length g = length pips /\
  forall i, i < length pips ->
    (exists j, hit pips i j /\ (forall j', j < j' -> ~ hit pips i j') /\ nth_error g i = Some j) \/
    ((forall j, ~ hit pips i j) /\ nth_error g i = Some 0).
Proof.
  intros pips m Hm. destruct pips as [|row pips].
  { exists []. split; [reflexivity|]. split; [reflexivity|]. intros i Hi. cbn in Hi. lia. }
  assert (HN : ncols (row :: pips) = m) by (apply rect_ncols; [assumption|discriminate]).
  unfold find_first_hits. rewrite HN. remember (row :: pips) as M.
  destruct (first_hits M (hit_iterations (length M) m) m Hm (Permutation_refl _)) as (g & E & Lg & F).
  exists g. split; [exact E|]. split; [assumption|]. intros i Hi. destruct (F i Hi) as [(j & its1 & its2 & E1 & E2 & E3 & E4)|N]; [left|now right].
  exists j. split; [assumption|]. split; [|assumption]. intros j' Hj' Hh.
  pose proof (prod_sorted (length M) 0 m) as HS. unfold hit_iterations in E1. rewrite E1 in HS.
  assert (Hin : In (i, j') (its1 ++ (i, j) :: its2)).
  { rewrite <- E1. apply in_prod_iff. rewrite !in_seq. destruct Hh as (r & Hr & Hj). pose proof (rect_nth _ _ _ _ Hm Hr). apply nth_error_Some_lt in Hj. lia. }
  apply in_app_or in Hin. destruct Hin as [Hin|[Hin|Hin]].
  - apply (ss_app_inv _ _ _ _ HS) in Hin. unfold lex_lt in Hin. cbn in Hin. lia.
  - injection Hin as Hin. lia.
  - now apply (E3 j').
Qed.
