(** * Proofs about [IndexModel.v], part 4: histories with repeated numbers *)
From Coq Require Import ZArith Lia List Permutation.
From Verif Require Import BaseFacts IndexModel IndexSpec IndexProofs IndexProofs2 IndexProofs3.
Import ListNotations.
Local Open Scope Z_scope.

Lemma generate_new n k : generate n (new_manager k) = (zrange k (k + Z.of_nat n), new_manager (k + Z.of_nat n)).
Proof. unfold generate, new_manager. cbn [queue next length Nat.ltb Nat.leb]. destruct (Nat.eqb_spec n 1) as [->|]; [change (Z.of_nat 1) with 1; now rewrite zrange_1|reflexivity]. Qed.
Lemma zrange_first k n : (0 < n)%nat -> nth_error (zrange k (k + Z.of_nat n)) 0 = Some k.
Proof. intros H. unfold zrange. rewrite nth_error_map. replace (Z.to_nat (k + Z.of_nat n - k)) with n by lia. destruct n; [lia|]. cbn [seq nth_error option_map Z.of_nat]. f_equal. lia. Qed.

Ltac roots := repeat first [eapply root_here; [reflexivity|reflexivity]|eapply root_up; [reflexivity|reflexivity|]].

Ltac norm := match goal with |- steps ?s _ _ => let t := eval vm_compute in s in change s with t end.
(** blocks without children leave and join *)
Lemma cells_twice : exists os s, steps [] os s /\ Forall (fun o => match o with Join b p => p = 0%nat /\ b <> 0%nat | Leave b => b <> 0%nat | Copy _ => False | Create _ _ => True end) os /\ ~ unique_cells s.
Proof.
  exists [Create None None; Create None (Some 3%nat); Join 1 0; Create None (Some 2%nat); Join 2 0; Leave 1; Create None (Some 2%nat); Join 3 0; Create None (Some 2%nat); Join 4 0].
  eexists. split; [|split].
  - repeat (eapply steps_more; [first [apply step_create|eapply step_join; [reflexivity|reflexivity|cbn; lia|roots|reflexivity]|eapply step_leave; [reflexivity|reflexivity|roots|reflexivity|eexists; split; reflexivity]]|norm]); apply steps_none.
  - repeat constructor; lia.
  - intros U. assert (E : 2%nat = 4%nat /\ 1%nat = 1%nat); [|lia]. eapply (U 2%nat 4%nat _ _ 0%nat 1%nat 1%nat 4); first [reflexivity|roots|idtac].
Qed.

(** a block with children joins *)
Lemma subtree_twice : forall n k, (0 < n)%nat -> (0 < k)%nat -> exists s, steps [] [Create None None; Create None None; Create None (Some n); Create None (Some k); Join 2 1; Join 3 0; Join 1 0] s /\ ~ unique_cells s.
Proof.
  intros n k Hn Hk. eexists. split.
  - eapply steps_more; [apply step_create|]. eapply steps_more; [apply step_create|]. eapply steps_more; [apply step_create|]. eapply steps_more; [apply step_create|]. unfold new_block. rewrite !generate_new. cbn [app].
    eapply steps_more; [eapply step_join; [reflexivity|reflexivity|cbn; lia|roots|reflexivity]|]. cbn [ncells cim upd with_parent enum enum_from map fst snd Nat.eqb nth_error]. rewrite generate_new. cbn [map upd with_parent with_cim with_cids enum enum_from fst snd Nat.eqb parent ncells cids pids cim pim].
    eapply steps_more; [eapply step_join; [reflexivity|reflexivity|cbn; lia|roots|reflexivity]|]. cbn [ncells cim upd with_parent enum enum_from map fst snd Nat.eqb nth_error]. rewrite generate_new. cbn [map upd with_parent with_cim with_cids enum enum_from fst snd Nat.eqb parent ncells cids pids cim pim].
    eapply steps_more; [eapply step_join; [reflexivity|reflexivity|cbn; lia|roots|reflexivity]|]. apply steps_none.
  - intros U. assert (E : 2%nat = 3%nat /\ 0%nat = 0%nat); [|lia]. eapply (U 2%nat 3%nat _ _ 0%nat 0%nat 0%nat 0); first [reflexivity|roots|idtac]; apply zrange_first; assumption.
Qed.

(** a copy of a block with cells gets another block *)
Lemma copy_twice : forall n k, (0 < n)%nat -> (0 < k)%nat -> exists s, steps [] [Create None (Some n); Copy 0; Create None (Some k); Join 2 1] s /\ ~ unique_cells s.
Proof.
  intros n k Hn Hk. eexists. split.
  - eapply steps_more; [apply step_create|]. unfold new_block. rewrite !generate_new. cbn [app].
    eapply steps_more; [eapply step_copy; [reflexivity|intros [|[|x]] X E; try discriminate; injection E as <-; discriminate]|]. cbn [app ncells cids pids].
    eapply steps_more; [apply step_create|]. unfold new_block. rewrite !generate_new. cbn [app].
    eapply steps_more; [eapply step_join; [reflexivity|reflexivity|cbn; lia|roots|reflexivity]|]. cbn [ncells cim upd with_parent enum enum_from map fst snd Nat.eqb nth_error]. rewrite generate_new. cbn [map upd with_parent with_cim with_cids enum enum_from fst snd Nat.eqb parent ncells cids pids cim pim].
    apply steps_none.
  - intros U. assert (E : 1%nat = 2%nat /\ 0%nat = 0%nat); [|lia]. eapply (U 1%nat 2%nat _ _ 1%nat 0%nat 0%nat 0); first [reflexivity|roots|idtac]; apply zrange_first; assumption.
Qed.

(** two blocks with points *)
Lemma points_twice : forall n k, (0 < n)%nat -> (0 < k)%nat -> exists s, careful [] [Create None None; Create (Some n) None; Create (Some k) None; Join 1 0; Join 2 0] s /\ ~ unique_points s.
Proof.
  intros n k Hn Hk. eexists. split.
  - eapply careful_create; [apply step_create|]. eapply careful_create; [apply step_create|]. eapply careful_create; [apply step_create|]. unfold new_block. rewrite !generate_new. cbn [app].
    eapply careful_join.
    + intros [|[|[|x]]] X E; try (destruct x; discriminate); injection E as <-; discriminate.
    + intros r R B m _ _ E EN. injection E as <-. discriminate.
    + eapply step_join; [reflexivity|reflexivity|cbn; lia|roots|reflexivity].
    + cbn [ncells upd with_parent enum enum_from map fst snd Nat.eqb parent cids pids cim pim].
      eapply careful_join; [| | |apply careful_none].
      * intros [|[|[|x]]] X E; try (destruct x; discriminate); injection E as <-; discriminate.
      * intros r R B m _ _ E EN. injection E as <-. discriminate.
      * eapply step_join; [reflexivity|reflexivity|cbn; lia|roots|reflexivity].
  - intros U. assert (E : 1%nat = 2%nat /\ 0%nat = 0%nat); [|lia]. eapply (U 1%nat 2%nat _ _ 0%nat 0%nat 0%nat 0); first [reflexivity|roots|idtac]; apply zrange_first; assumption.
Qed.

(** ** The numbers of points never change *)
Lemma upd_pids s b f : (forall B, pids (f B) = pids B) -> map pids (upd s b f) = map pids s.
Proof.
  intros H. unfold upd. rewrite map_map. transitivity (map pids (map snd (enum s))).
  - rewrite map_map. apply map_ext. intros [k B]. cbn [fst snd]. destruct (Nat.eqb k b); [apply H|reflexivity].
  - f_equal. unfold enum. generalize 0%nat. induction s as [|B s IH]; intros n; cbn [enum_from map snd]; [reflexivity|]. f_equal. apply IH.
Qed.
Lemma points_kept s o s' : step s o s' -> exists new, map pids s' = map pids s ++ new.
Proof.
  intros H. inversion H as [np nc| b p B r R HB HP Hp Hr HR|b B p r R s2 HB HP Hr HR Hs|b B HB Hc]; subst.
  - exists [pids (new_block np nc)]. now rewrite map_app.
  - exists []. rewrite app_nil_r. destruct (ncells B) as [n|]; [destruct (generate n (cim R)) as [g m]|]; now rewrite !upd_pids.
  - exists []. rewrite app_nil_r. destruct (ncells B) as [n|]; [destruct Hs as (ids & _ & ->)|subst s']; now rewrite !upd_pids.
  - eexists. rewrite map_app. reflexivity.
Qed.
Lemma points_keep_numbers s os s' : steps s os s' -> forall x X, nth_error s x = Some X -> exists X', nth_error s' x = Some X' /\ pids X' = pids X.
Proof.
  induction 1 as [s|s o s1 os s2 H1 H2 IH]; intros x X E; [eauto|]. destruct (points_kept _ _ _ H1) as (new & En).
  assert (E1 : nth_error (map pids s1) x = Some (pids X)). { rewrite En, nth_error_app1; [now apply map_nth_error|]. rewrite map_length. apply nth_error_Some. congruence. }
  rewrite nth_error_map in E1. destruct (nth_error s1 x) as [X1|] eqn:EX; [|discriminate]. cbn in E1. injection E1 as E1.
  destruct (IH x X1 EX) as (X' & H3 & H4). exists X'. split; [assumption|congruence].
Qed.
