(** * Proofs about quadrature rules, part 2: the rules of gauss.py *)
From Coq Require Import Reals Lra Psatz.
From Verif Require Export QuadProofs.
Local Open Scope R_scope.

Lemma zero_triangle : integral_triangle (fun _ => 0) 0.
Proof. exists (fun _ => 0). split; intros; apply integral1_zero. Qed.
Lemma zero_tetrahedron : integral_tetrahedron (fun _ => 0) 0.
Proof. exists (fun _ => 0). split; intros; [apply integral1_zero|apply zero_triangle]. Qed.
Lemma zero_wedge : integral_wedge (fun _ => 0) 0.
Proof. exists (fun _ => 0). split; intros; [apply integral1_zero|apply zero_triangle]. Qed.
Lemma integral_tetrahedron_val f v v' : v = v' -> integral_tetrahedron f v -> integral_tetrahedron f v'.
Proof. intros ->. auto. Qed.
Lemma integral_wedge_val f v v' : v = v' -> integral_wedge f v -> integral_wedge f v'.
Proof. intros ->. auto. Qed.

Lemma exact_triangle n q :
  (forall i j, (i + j <= n)%nat -> beta j 0 * beta i (j + 1) = quad q (monomial [i; j])) ->
  forall terms, total_degree 2 n terms -> integral_triangle (poly terms) (quad q (poly terms)).
Proof.
  intros H. apply (exact_poly integral_triangle (fun e => length e = 2%nat /\ (fold_right plus 0 e <= n)%nat)); [apply integral_triangle_lin|apply zero_triangle|].
  intros e [Hl Hd]. destruct e as [|i [|j [|]]]; simpl in Hl; try discriminate. simpl in Hd.
  eapply integral_triangle_val; [|apply triangle_monomial]. apply H. lia.
Qed.
Lemma exact_tetrahedron n q :
  (forall i j k, (i + j + k <= n)%nat -> beta k 0 * (beta j (k + 1) * beta i (j + (k + 1) + 1)) = quad q (monomial [i; j; k])) ->
  forall terms, total_degree 3 n terms -> integral_tetrahedron (poly terms) (quad q (poly terms)).
Proof.
  intros H. apply (exact_poly integral_tetrahedron (fun e => length e = 3%nat /\ (fold_right plus 0 e <= n)%nat)); [apply integral_tetrahedron_lin|apply zero_tetrahedron|].
  intros e [Hl Hd]. destruct e as [|i [|j [|k [|]]]]; simpl in Hl; try discriminate. simpl in Hd.
  eapply integral_tetrahedron_val; [|apply tetrahedron_monomial]. apply H. lia.
Qed.
Lemma exact_wedge n m q :
  (forall i j k, (i + j <= n)%nat -> (k <= m)%nat ->
     (1 - (-1) ^ S k) / INR (S k) * (beta j 0 * beta i (j + 1)) = quad q (monomial [i; j; k])) ->
  forall terms, wedge_degree n m terms -> integral_wedge (poly terms) (quad q (poly terms)).
Proof.
  intros H terms Hd. 
  apply (exact_poly integral_wedge (fun e => exists i j k, e = [i; j; k] /\ (i + j <= n)%nat /\ (k <= m)%nat));
    [apply integral_wedge_lin|apply zero_wedge| |exact Hd].
  intros e (i & j & k & -> & Hij & Hk). eapply integral_wedge_val; [|apply wedge_monomial]. apply H; auto.
Qed.

Ltac small n := repeat (destruct n as [|n]; [|try (exfalso; lia)]); try (exfalso; lia).
Ltac numbers := unfold quad, monomial; cbn [combine fst snd map rsum fold_right pow beta plus repeat app flat_map];
  repeat match goal with |- context [INR ?n] => let v := eval cbv in (Z.of_nat n) in replace (INR n) with (IZR v) by (simpl; lra) end.

Lemma exact_Tri_1 terms : total_degree 2 1 terms -> integral_triangle (poly terms) (quad Gauss_Legendre_Tri_1 (poly terms)).
Proof. apply exact_triangle. intros i j H. small i; small j; unfold Gauss_Legendre_Tri_1; numbers; lra. Qed.
Lemma exact_Tri_3a terms : total_degree 2 2 terms -> integral_triangle (poly terms) (quad Gauss_Legendre_Tri_3a (poly terms)).
Proof. apply exact_triangle. intros i j H. small i; small j; unfold Gauss_Legendre_Tri_3a; numbers; lra. Qed.
Lemma exact_Tri_3b terms : total_degree 2 2 terms -> integral_triangle (poly terms) (quad Gauss_Legendre_Tri_3b (poly terms)).
Proof. apply exact_triangle. intros i j H. small i; small j; unfold Gauss_Legendre_Tri_3b; numbers; lra. Qed.
Lemma exact_Tet_1 terms : total_degree 3 1 terms -> integral_tetrahedron (poly terms) (quad Gauss_Legendre_Tet_1 (poly terms)).
Proof. apply exact_tetrahedron. intros i j k H. small i; small j; small k; unfold Gauss_Legendre_Tet_1; numbers; lra. Qed.
Lemma exact_Tet_4 terms : total_degree 3 2 terms -> integral_tetrahedron (poly terms) (quad Gauss_Legendre_Tet_4 (poly terms)).
Proof.
  apply exact_tetrahedron. intros i j k H. assert (Hq : sqrt 5 * sqrt 5 = 5) by (apply sqrt_sqrt; lra).
  small i; small j; small k; unfold Gauss_Legendre_Tet_4; numbers; generalize dependent (sqrt 5); intros q Hq; nra.
Qed.
Lemma exact_Tet_5 terms : total_degree 3 3 terms -> integral_tetrahedron (poly terms) (quad Gauss_Legendre_Tet_5 (poly terms)).
Proof. apply exact_tetrahedron. intros i j k H. small i; small j; small k; unfold Gauss_Legendre_Tet_5; numbers; lra. Qed.
