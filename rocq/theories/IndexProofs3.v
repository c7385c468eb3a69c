(** * Proofs about [IndexModel.v], part 3: joining and leaving *)
From Coq Require Import ZArith Lia List Permutation.
From Verif Require Import BaseFacts IndexModel IndexSpec IndexProofs IndexProofs2.
Import ListNotations.
Local Open Scope Z_scope.

Lemma no_loop s b B r : nth_error s b = Some B -> parent B = Some b -> ~ root_of s b r.
Proof. intros Hb Hp H. remember b as x eqn:E in H. induction H as [x X Hx HP|x X p r Hx HP H IH]; subst x; [congruence|]. apply IH. congruence. Qed.

(** one block gets another parent and other numbers, the manager of one root changes *)
Record change (s s' : state) (b r : nat) (B B' R R' : block) : Prop := {
  c_len : length s' = length s;
  c_other : forall x, x <> b -> x <> r -> nth_error s' x = nth_error s x;
  c_b : nth_error s b = Some B; c_b' : nth_error s' b = Some B';
  c_r : nth_error s r = Some R; c_r' : nth_error s' r = Some R';
  c_rb : r <> b;
  c_cim : cim B' = cim B; c_cells : ncells B' = ncells B;
  c_parent : parent R' = parent R; c_cids : cids R' = cids R; c_rcells : ncells R' = ncells R }.

Lemma change_agree s s' b r B B' R R' : change s s' b r B B' R R' -> agree s s' b.
Proof.
  intros C x NE. destruct (Nat.eq_dec x r) as [->|NR]; [|now rewrite (c_other _ _ _ _ _ _ _ _ C x NE NR)]. rewrite (c_r _ _ _ _ _ _ _ _ C), (c_r' _ _ _ _ _ _ _ _ C). cbn. f_equal. symmetry. apply (c_parent _ _ _ _ _ _ _ _ C).
Qed.
Lemma change_nth s s' b r B B' R R' x X : change s s' b r B B' R R' -> nth_error s' x = Some X ->
  x = b /\ X = B' \/ x <> b /\ exists X0, nth_error s x = Some X0 /\ parent X = parent X0 /\ cids X = cids X0 /\ ncells X = ncells X0 /\ (x = r /\ X = R' /\ X0 = R \/ x <> r /\ X = X0).
Proof.
  intros C H. destruct (Nat.eq_dec x b) as [->|NE]; [left; split; [reflexivity|]; rewrite (c_b' _ _ _ _ _ _ _ _ C) in H; congruence|]. right. split; [exact NE|].
  destruct (Nat.eq_dec x r) as [->|NR].
  - rewrite (c_r' _ _ _ _ _ _ _ _ C) in H. injection H as <-. exists R. split; [apply (c_r _ _ _ _ _ _ _ _ C)|]. split; [apply (c_parent _ _ _ _ _ _ _ _ C)|]. split; [apply (c_cids _ _ _ _ _ _ _ _ C)|]. split; [apply (c_rcells _ _ _ _ _ _ _ _ C)|]. now left.
  - rewrite (c_other _ _ _ _ _ _ _ _ C x NE NR) in H. exists X. repeat split; auto.
Qed.

Lemma change_good s s' b r B B' R R' : change s s' b r B B' R R' -> good s -> bounded s -> childless s b ->
  parent B' <> Some b -> (forall p, parent B' = Some p -> (p < length s)%nat) ->
  (forall q, root_of s' b q -> q = r \/ cids B' = None) ->
  sound (cim R') -> (ncells B' = None -> cids B' = None) ->
  (* the other blocks below r keep their numbers *)
  (forall x X l v, x <> b -> root_of s x r -> nth_error s x = Some X -> cids X = Some l -> In v l -> v < next (cim R') /\ ~ In v (queue (cim R'))) ->
  (forall l, cids B' = Some l -> NoDup l /\ forall v, In v l -> v < next (cim R') /\ ~ In v (queue (cim R')) /\
     forall x X k, x <> b -> root_of s x r -> nth_error s x = Some X -> cids X = Some k -> ~ In v k) ->
  good s' /\ bounded s'.
Proof.
  intros C G HB HC P1 P2 RB SR CN HO HN. pose proof (change_agree _ _ _ _ _ _ _ _ C) as A.
  assert (HC' : childless s' b). { apply (childless_agree s s' b A); [|exact HC]. intros B0 E. rewrite (c_b' _ _ _ _ _ _ _ _ C) in E. injection E as <-. exact P1. }
  assert (BACK : forall x q, x <> b -> root_of s' x q -> root_of s x q) by (intros x q NE H; exact (root_agree s' s b (agree_sym _ _ _ A) HC' x q H NE)).
  assert (QB : forall x q, x <> b -> root_of s x q -> q <> b).
  { intros x q NE H E. subst q. remember b as z eqn:Ez in H. induction H as [x X Hx HP|x X p q Hx HP H IH]; subst; [congruence|]. apply IH; [|reflexivity]. intros ->. exact (HC _ _ Hx HP). }
  split; [constructor|].
  - intros x X H. destruct (change_nth _ _ _ _ _ _ _ _ x X C H) as [[-> ->]|(NE & X0 & H0 & _ & _ & _ & [(-> & -> & _)|(_ & ->)])]; [|exact SR|exact (g_sound _ G _ _ H0)].
    rewrite (c_cim _ _ _ _ _ _ _ _ C). exact (g_sound _ G _ _ (c_b _ _ _ _ _ _ _ _ C)).
  - intros x X q Q l H HR HQ Hl. destruct (change_nth _ _ _ _ _ _ _ _ x X C H) as [[-> ->]|(NE & X0 & H0 & _ & EC & _ & _)].
    + destruct (RB q HR) as [->|E]; [|congruence]. rewrite (c_r' _ _ _ _ _ _ _ _ C) in HQ. injection HQ as <-. destruct (HN l Hl) as [N1 N2]. split; [exact N1|]. intros v Hv. destruct (N2 v Hv) as (N3 & N4 & _). now split.
    + rewrite EC in Hl. pose proof (BACK x q NE HR) as HR0. destruct (root_is_root _ _ _ HR0) as (Q0 & HQ0 & _). destruct (g_ids _ G x X0 q Q0 l H0 HR0 HQ0 Hl) as [N1 N2]. split; [exact N1|]. intros v Hv.
      destruct (Nat.eq_dec q r) as [->|NR]; [rewrite (c_r' _ _ _ _ _ _ _ _ C) in HQ; injection HQ as <-; exact (HO x X0 l v NE HR0 H0 Hl Hv)|].
      rewrite (c_other _ _ _ _ _ _ _ _ C q (QB _ _ NE HR0) NR) in HQ. rewrite HQ0 in HQ. injection HQ as <-. auto.
  - intros x y X Y q lx ly v NE HX HY Rx Ry Ex Ey Hx Hy.
    destruct (change_nth _ _ _ _ _ _ _ _ x X C HX) as [[-> ->]|(NX & X0 & HX0 & _ & EX & _ & _)]; destruct (change_nth _ _ _ _ _ _ _ _ y Y C HY) as [[-> ->]|(NY & Y0 & HY0 & _ & EY & _ & _)]; [congruence| | |].
    + rewrite EY in Ey. destruct (RB q Rx) as [->|E]; [|congruence]. destruct (HN lx Ex) as [_ N2]. destruct (N2 v Hx) as (_ & _ & N3). exact (N3 y Y0 ly NY (BACK y r NY Ry) HY0 Ey Hy).
    + rewrite EX in Ex. destruct (RB q Ry) as [->|E]; [|congruence]. destruct (HN ly Ey) as [_ N2]. destruct (N2 v Hy) as (_ & _ & N3). exact (N3 x X0 lx NX (BACK x r NX Rx) HX0 Ex Hx).
    + rewrite EX in Ex. rewrite EY in Ey. exact (g_apart _ G x y X0 Y0 q lx ly v NE HX0 HY0 (BACK x q NX Rx) (BACK y q NY Ry) Ex Ey Hx Hy).
  - intros x X H HE. destruct (change_nth _ _ _ _ _ _ _ _ x X C H) as [[-> ->]|(NE & X0 & H0 & _ & EC & EN & _)]; [auto|]. rewrite EC. apply (g_cells _ G _ _ H0). congruence.
  - intros x X H. destruct (change_nth _ _ _ _ _ _ _ _ x X C H) as [[-> ->]|(NE & X0 & H0 & EP & _)]; [exact P1|]. rewrite EP. exact (g_self _ G _ _ H0).
  - intros x X p H HP. rewrite (c_len _ _ _ _ _ _ _ _ C). destruct (change_nth _ _ _ _ _ _ _ _ x X C H) as [[-> ->]|(NE & X0 & H0 & EP & _)]; [auto|]. rewrite EP in HP. exact (HB _ _ _ H0 HP).
Qed.

Ltac upds := repeat (rewrite ?upd_nth, ?Nat.eqb_refl; cbn [option_map]).
Ltac neq H := let E := fresh in assert (E := proj2 (Nat.eqb_neq _ _) H).

Lemma join_good s b p s' : good s -> bounded s -> childless s b -> (forall r R B n, root_of s p r -> nth_error s r = Some R -> nth_error s b = Some B -> ncells B = Some n -> fits n (cim R)) ->
  step s (Join b p) s' -> good s' /\ bounded s'.
Proof.
  intros G HB HC HF H. inversion H as [|? ? B r R1 Hb Hp Lp Hr HR1| |]; subst. clear H. set (s1 := upd s b (with_parent (Some p))) in *.
  assert (Hb1 : nth_error s1 b = Some (with_parent (Some p) B)) by (unfold s1; upds; now rewrite Hb; upds).
  assert (NP : p <> b) by (intros ->; exact (no_loop s1 b _ r Hb1 eq_refl Hr)).
  assert (NR : r <> b). { intros ->. destruct (root_is_root _ _ _ Hr) as (Z & HZ & PZ). rewrite Hb1 in HZ. injection HZ as <-. discriminate. }
  assert (A : agree s s1 b). { intros x NE. unfold s1. rewrite upd_nth. rewrite (proj2 (Nat.eqb_neq _ _) NE). now destruct (nth_error s x). }
  assert (HC1 : childless s1 b). { apply (childless_agree s s1 b A); [|exact HC]. intros B0 E. rewrite Hb1 in E. injection E as <-. cbn. congruence. }
  assert (Hrp : root_of s p r). { inversion Hr as [? ? E1 E2|? ? p' ? E1 E2 E3]; subst; rewrite Hb1 in E1; injection E1 as <-; cbn in E2; [discriminate|]. injection E2 as <-. exact (root_agree s1 s b (agree_sym _ _ _ A) HC1 p r E3 NP). }
  assert (HR : nth_error s r = Some R1). { unfold s1 in HR1. rewrite upd_nth, (proj2 (Nat.eqb_neq _ _) NR) in HR1. now destruct (nth_error s r). }
  pose proof (g_sound _ G _ _ HR) as SR.
  destruct (ncells B) as [n|] eqn:NC.
  - destruct (generate n (cim R1)) as [g m] eqn:EG. destruct (generate_sound n _ g m (HF r R1 B n Hrp HR Hb NC) SR EG) as (S1 & S2 & S3 & S4 & S5).
    assert (RB' : nth_error (upd (upd s1 r (with_cim m)) b (with_cids (Some g))) b = Some (with_cids (Some g) (with_parent (Some p) B))).
    { rewrite upd_nth, Nat.eqb_refl, upd_nth, Hb1. cbn [option_map]. now rewrite (proj2 (Nat.eqb_neq b r) (fun E => NR (eq_sym E))). }
    assert (CH : change s (upd (upd s1 r (with_cim m)) b (with_cids (Some g))) b r B (with_cids (Some g) (with_parent (Some p) B)) R1 (with_cim m R1)).
    { constructor; auto.
      - unfold s1. now rewrite !upd_length.
      - intros x N1 N2. rewrite upd_nth, (proj2 (Nat.eqb_neq _ _) N1), upd_nth, (proj2 (Nat.eqb_neq _ _) N2). unfold s1. rewrite upd_nth, (proj2 (Nat.eqb_neq _ _) N1). now destruct (nth_error s x).
      - rewrite upd_nth, (proj2 (Nat.eqb_neq _ _) NR), upd_nth, Nat.eqb_refl. unfold s1. rewrite upd_nth, (proj2 (Nat.eqb_neq _ _) NR), HR. reflexivity. }
    apply (change_good _ _ _ _ _ _ _ _ CH G HB HC); cbn [parent with_cids with_parent cids ncells cim with_cim].
    + congruence.
    + intros q E. injection E as <-. exact Lp.
    + intros q Hq. left. pose proof (change_agree _ _ _ _ _ _ _ _ CH) as A2. inversion Hq as [? ? E1 E2|? ? p' ? E1 E2 E3]; subst; rewrite RB' in E1; injection E1 as <-; cbn in E2; [discriminate|]. injection E2 as <-.
      assert (HC2 : childless (upd (upd s1 r (with_cim m)) b (with_cids (Some g))) b) by (apply (childless_agree s _ b A2); [intros B0 E; rewrite RB' in E; injection E as <-; cbn; congruence|exact HC]).
      exact (root_fun s p q (root_agree _ s b (agree_sym _ _ _ A2) HC2 p q E3 NP) r Hrp).
    + exact S1.
    + congruence.
    + intros x X l v NE Rx Hx Hl Hv. destruct (g_ids _ G x X r R1 l Hx Rx HR Hl) as [_ Q]. destruct (Q v Hv) as [Q1 Q2]. split; [lia|]. intros HI. apply Q2, S4, HI.
    + intros l E. injection E as <-. split; [exact S2|]. intros v Hv. destruct (S5 v Hv) as (Q1 & Q2 & Q3). split; [exact Q1|]. split; [exact Q2|]. intros x X k NE Rx Hx Hk HI. destruct (g_ids _ G x X r R1 k Hx Rx HR Hk) as [_ Q]. destruct (Q v HI) as [W1 W2]. destruct Q3 as [Q3|Q3]; [contradiction|lia].
  - assert (CH : change s s1 b r B (with_parent (Some p) B) R1 R1).
    { constructor; auto.
      - unfold s1. now rewrite !upd_length.
      - intros x N1 N2. unfold s1. rewrite upd_nth, (proj2 (Nat.eqb_neq _ _) N1). now destruct (nth_error s x). }
    pose proof (g_cells _ G _ _ Hb NC) as CN.
    apply (change_good _ _ _ _ _ _ _ _ CH G HB HC); cbn [parent with_cids with_parent cids ncells cim with_cim].
    + congruence.
    + intros q E. injection E as <-. exact Lp.
    + intros q _. now right.
    + exact SR.
    + auto.
    + intros x X l v NE Rx Hx Hl Hv. destruct (g_ids _ G x X r R1 l Hx Rx HR Hl) as [_ Q]. auto.
    + intros l E. congruence.
Qed.

Lemma leave_good s b s' : good s -> bounded s -> childless s b -> step s (Leave b) s' -> good s' /\ bounded s'.
Proof.
  intros G HB HC H. inversion H as [| |? B p r R s2 Hb Hp Hr HR HS|]; subst. clear H.
  assert (NR : r <> b). { intros ->. destruct (root_is_root _ _ _ Hr) as (Z & HZ & PZ). congruence. }
  pose proof (g_sound _ G _ _ HR) as SR. destruct (ncells B) as [n|] eqn:NC.
  - destruct HS as (ids & HI & ->). destruct (g_ids _ G b B r R ids Hb Hr HR HI) as [ND HV].
    set (s' := upd (upd (upd s r (with_cim (recycle ids (cim R)))) b (with_cids None)) b (with_parent None)).
    assert (RB' : nth_error s' b = Some (with_parent None (with_cids None B))).
    { unfold s'. rewrite upd_nth, Nat.eqb_refl, upd_nth, Nat.eqb_refl, upd_nth, Hb. cbn [option_map]. now rewrite (proj2 (Nat.eqb_neq b r) (fun E => NR (eq_sym E))). }
    assert (CH : change s s' b r B (with_parent None (with_cids None B)) R (with_cim (recycle ids (cim R)) R)).
    { unfold s'. constructor; auto.
      - now rewrite !upd_length.
      - intros x N1 N2. rewrite upd_nth, (proj2 (Nat.eqb_neq _ _) N1), upd_nth, (proj2 (Nat.eqb_neq _ _) N1), upd_nth, (proj2 (Nat.eqb_neq _ _) N2). now destruct (nth_error s x).
      - rewrite upd_nth, (proj2 (Nat.eqb_neq _ _) NR), upd_nth, (proj2 (Nat.eqb_neq _ _) NR), upd_nth, Nat.eqb_refl, HR. reflexivity. }
    apply (change_good _ _ _ _ _ _ _ _ CH G HB HC); cbn [parent with_cids with_parent cids ncells cim with_cim recycle queue next]; try congruence; try discriminate.
    + intros q _. now right.
    + destruct SR as [N1 N2]. split; cbn [queue next recycle].
      * clear - N1 ND HV. induction (queue (cim R)) as [|x q IH] in N1, HV |- *; [exact ND|]. cbn. inversion N1; subst. constructor; [|apply IH; [assumption|intros v Hv; destruct (HV v Hv) as [W1 W2]; split; [exact W1|intros HQ; apply W2; now right]]].
        intros HI. apply in_app_or in HI. destruct HI as [HI|HI]; [contradiction|]. destruct (HV x HI) as [_ W]. apply W. now left.
      * intros v Hv. apply in_app_or in Hv. destruct Hv as [Hv|Hv]; [auto|apply HV; exact Hv].
    + intros x X l v NE Rx Hx Hl Hv. destruct (g_ids _ G x X r R l Hx Rx HR Hl) as [_ Q]. destruct (Q v Hv) as [Q1 Q2]. split; [exact Q1|]. intros HQ. apply in_app_or in HQ. destruct HQ as [HQ|HQ]; [contradiction|]. exact (g_apart _ G x b X B r l ids v NE Hx Hb Rx Hr Hl HI Hv HQ).
  - subst s'. set (s' := upd s b (with_parent None)).
    assert (CH : change s s' b r B (with_parent None B) R R).
    { unfold s'. constructor; auto.
      - now rewrite !upd_length.
      - intros x N1 N2. rewrite upd_nth, (proj2 (Nat.eqb_neq _ _) N1). now destruct (nth_error s x).
      - rewrite upd_nth, Nat.eqb_refl, Hb. reflexivity.
      - rewrite upd_nth, (proj2 (Nat.eqb_neq _ _) NR), HR. reflexivity. }
    pose proof (g_cells _ G _ _ Hb NC) as CN.
    apply (change_good _ _ _ _ _ _ _ _ CH G HB HC); cbn [parent with_cids with_parent cids ncells cim with_cim recycle queue next]; try congruence; try discriminate.
    + intros q _. now right.
    + intros x X l v NE Rx Hx Hl Hv. destruct (g_ids _ G x X r R l Hx Rx HR Hl) as [_ Q]. auto.
Qed.

Lemma careful_good s os s' : careful s os s' -> good s -> bounded s -> good s' /\ bounded s'.
Proof.
  induction 1 as [s|s np nc os s1 s2 HS _ IH|s b p os s1 s2 HC HF HS _ IH|s b os s1 s2 HC HS _ IH]; intros G HB; [now split| | |].
  - inversion HS; subst. destruct (good_create s np nc G HB) as [G1 B1]. auto.
  - destruct (join_good s b p s1 G HB HC HF HS) as [G1 B1]. auto.
  - destruct (leave_good s b s1 G HB HC HS) as [G1 B1]. auto.
Qed.
Lemma good_nil : good [] /\ bounded [].
Proof. split; [constructor|]; intros x; intros; destruct x; discriminate. Qed.

Lemma cells_unique : forall os s, careful [] os s -> unique_cells s.
Proof. intros os s H. destruct good_nil as [G B]. destruct (careful_good _ _ _ H G B) as [G1 _]. now apply good_unique. Qed.
