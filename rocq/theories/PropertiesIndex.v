(** * Properties C52, C53: numbers of points and cells *)
From Coq Require Import ZArith Lia List Permutation.
From Verif Require Import BaseFacts IndexModel IndexSpec IndexProofs IndexProofs2 IndexProofs3 IndexProofs4.
Import ListNotations.
Local Open Scope Z_scope.

(** ** C52 Index managers *)

(** Numbers in use are different after every history of requests that fit; those in use and those that wait are all numbers handed out, none is lost. *)
Theorem C52_partial :
  forall k os m live, fitting (new_manager k, []) os (m, live) -> NoDup live /\ Permutation (live ++ queue m) (zrange k (next m)).
Proof. exact numbers_unique. Qed.
Print Assumptions C52_partial.
(** Any request that does not fit leads to a number that is in use twice. *)
Theorem C52_refuted :
  forall k os m live n, fitting (new_manager k, []) os (m, live) -> ~ fits n m ->
  exists os' m' live', uses (m, live) (Get n :: os') (m', live') /\ ~ NoDup live'.
Proof. exact number_twice. Qed.
Print Assumptions C52_refuted.
(** Without recycling numbers are consecutive, whatever is asked for. *)
Theorem C52_no_recycling :
  forall k ns m live, uses (new_manager k, []) (map Get ns) (m, live) -> live = zrange k (k + Z.of_nat (fold_right Nat.add 0%nat ns)).
Proof. exact numbers_in_order. Qed.
Print Assumptions C52_no_recycling.
Example C52_ex : fitting (new_manager 0, []) [Get 2; Get 1; Put [1]; Get 3] ({| queue := []; next := 5 |}, [0; 2; 1; 3; 4]).
Proof.
  eapply fit_get; [right; left; reflexivity|constructor; reflexivity|]. eapply fit_get; [now left|constructor; reflexivity|].
  eapply fit_put; [apply (use_put _ _ [1] [0; 2]); vm_compute; apply perm_swap|]. eapply fit_get; [right; right; cbn; lia|constructor; reflexivity|]. apply fit_none.
Qed.
Example C52_refuted_ex : fitting (new_manager 0, []) [Get 5; Put [0; 1; 2]] ({| queue := [0; 1; 2]; next := 5 |}, [3; 4]) /\ ~ fits 2 {| queue := [0; 1; 2]; next := 5 |}.
Proof.
  split.
  - eapply fit_get; [right; left; reflexivity|constructor; reflexivity|]. eapply fit_put; [constructor; apply Permutation_refl|]. apply fit_none.
  - intros [H|[H|H]]; cbn in H; [lia|discriminate|lia].
Qed.

(** ** C53 Blocks *)

(** Cells below the same root have different numbers after every history in which blocks without children are joined or leave and all requests fit. *)
Theorem C53_partial :
  forall os s, careful [] os s -> unique_cells s.
Proof. exact cells_unique. Qed.
Print Assumptions C53_partial.
(** Requests that do not fit: blocks join and leave the root, and two cells have the same number. *)
Theorem C53_refuted :
  exists os s, steps [] os s /\ Forall (fun o => match o with Join b p => p = 0%nat /\ b <> 0%nat | Leave b => b <> 0%nat | Copy _ => False | Create _ _ => True end) os /\ ~ unique_cells s.
Proof. exact cells_twice. Qed.
Print Assumptions C53_refuted.
(** A block that has children joins: the cells of the children keep the numbers given to them by the former root. *)
Theorem C53_subtree_refuted :
  forall n k, (0 < n)%nat -> (0 < k)%nat -> exists s, steps [] [Create None None; Create None None; Create None (Some n); Create None (Some k); Join 2 1; Join 3 0; Join 1 0] s /\ ~ unique_cells s.
Proof. exact subtree_twice. Qed.
Print Assumptions C53_subtree_refuted.
(** The copy of a mesh starts counting from 0, though its cells keep their numbers. *)
Theorem C53_copy_refuted :
  forall n k, (0 < n)%nat -> (0 < k)%nat -> exists s, steps [] [Create None (Some n); Copy 0; Create None (Some k); Join 2 1] s /\ ~ unique_cells s.
Proof. exact copy_twice. Qed.
Print Assumptions C53_copy_refuted.
(** Whatever is done to the blocks, the points of a block keep their numbers. *)
Theorem C53_points_keep :
  forall s os s', steps s os s' -> forall x X, nth_error s x = Some X -> exists X', nth_error s' x = Some X' /\ pids X' = pids X.
Proof. exact points_keep_numbers. Qed.
Print Assumptions C53_points_keep.
(** Points are not given new numbers at all. *)
Theorem C53_points_refuted :
  forall n k, (0 < n)%nat -> (0 < k)%nat -> exists s, careful [] [Create None None; Create (Some n) None; Create (Some k) None; Join 1 0; Join 2 0] s /\ ~ unique_points s.
Proof. exact points_twice. Qed.
Print Assumptions C53_points_refuted.
Example C53_ex : exists s, careful [] [Create None (Some 2%nat); Create None (Some 1%nat); Join 1 0; Leave 1; Join 1 0] s /\ length s = 2%nat.
Proof.
  eexists. split.
  - eapply careful_create; [apply step_create|]. eapply careful_create; [apply step_create|]. cbn [app].
    eapply careful_join; [intros [|[|x]] X E; try (destruct x; discriminate); injection E as <-; discriminate| |eapply step_join; [reflexivity|reflexivity|cbn; lia|roots|reflexivity]|].
    { intros r R B n _ _ E EN. injection E as <-. injection EN as <-. now left. }
    eapply careful_leave; [intros [|[|x]] X E; try (destruct x; discriminate); injection E as <-; discriminate|eapply step_leave; [reflexivity|reflexivity|roots|reflexivity|eexists; split; reflexivity]|].
    eapply careful_join; [intros [|[|x]] X E; try (destruct x; discriminate); injection E as <-; discriminate| |eapply step_join; [reflexivity|reflexivity|cbn; lia|roots|reflexivity]|].
    { intros r R B n _ _ E EN. injection E as <-. injection EN as <-. now left. }
    apply careful_none.
  - reflexivity.
Qed.
