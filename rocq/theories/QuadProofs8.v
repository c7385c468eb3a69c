(** * Quadrature: named rules for quadrilaterals, repaired rules for tetrahedra and wedges *)
From Coq Require Import Reals Lra Lia.
From Verif Require Import QuadSpec QuadProofs QuadProofs2 QuadProofs3.
Local Open Scope R_scope.

Lemma exact_Quad_1 : exists q, Gauss_Legendre_Quad_1 = Ok q /\
  forall terms, each_degree 2 1 terms -> integral_square (poly terms) (quad q (poly terms)).
Proof. eexists. split; [reflexivity|]. intros terms. now apply (exact_square_poly 1). Qed.
Lemma exact_Quad_4 : exists q, Gauss_Legendre_Quad_4 = Ok q /\
  forall terms, each_degree 2 3 terms -> integral_square (poly terms) (quad q (poly terms)).
Proof. eexists. split; [reflexivity|]. intros terms. now apply (exact_square_poly 2). Qed.
Lemma exact_Quad_9 : exists q, Gauss_Legendre_Quad_9 = Ok q /\
  forall terms, each_degree 2 5 terms -> integral_square (poly terms) (quad q (poly terms)).
Proof. eexists. split; [reflexivity|]. intros terms. now apply (exact_square_poly 3). Qed.

Lemma Wedge_3x2_repaired : exists q, Gauss_Legendre_Wedge_3x2 = Ok q /\
  forall terms, wedge_degree 2 3 terms -> integral_wedge (poly terms) (quad (mirrored_from 3 q) (poly terms)).
Proof.
  eexists. split; [reflexivity|]. apply exact_wedge. intros i j k Hij Hk.
  unfold mirrored_from. cbn [fst snd map app firstn skipn nth].
  assert (Hq : sqrt (1 / 3) * sqrt (1 / 3) = 1 / 3) by (apply sqrt_sqrt; lra).
  generalize dependent (sqrt (1 / 3)); intros q Hq. rewrite !Ropp_involutive.
  assert (H1 : forall x, q * (q * x) = 1 / 3 * x) by (intros; rewrite <- Rmult_assoc, Hq; reflexivity).
  assert (H2 : forall x, - q * (- q * x) = 1 / 3 * x) by (intros; rewrite <- H1; ring).
  small i; small j; small k; numbers; rewrite ?H1, ?H2; lra.
Qed.

Lemma root_above : 1 / 2 < sqrt (5 / 15).
Proof. rewrite <- (sqrt_square (1 / 2)) by lra. apply sqrt_lt_1_alt. lra. Qed.
Lemma root_below : sqrt (5 / 15) < 3 / 5.
Proof. rewrite <- (sqrt_square (3 / 5)) by lra. apply sqrt_lt_1_alt. lra. Qed.
Lemma root14_below : sqrt (5 / 14) < 1.
Proof. rewrite <- sqrt_1. apply sqrt_lt_1_alt. lra. Qed.
Lemma Tet_11_outside : exists p, In p (fst Gauss_Legendre_Tet_11) /\ ~ in_tetrahedron p.
Proof.
  exists [(1 + 3 * sqrt (5 / 15)) / 4; (1 + 3 * sqrt (5 / 15)) / 4; (1 - sqrt (5 / 14)) / 4].
  split; [unfold Gauss_Legendre_Tet_11; cbn [fst In]; auto 10|].
  intros [_ H]. unfold rsum in H. cbn [fold_right] in H.
  pose proof root_above. pose proof root14_below. lra.
Qed.
Lemma Tet_11_repaired terms : total_degree 3 4 terms ->
  integral_tetrahedron (poly terms)
    (quad (with_coordinate ((1 + 3 * sqrt (5 / 15)) / 4) ((1 + sqrt (5 / 14)) / 4) Gauss_Legendre_Tet_11) (poly terms)).
Proof.
  set (a := (1 + 3 * sqrt (5 / 15)) / 4). set (a' := (1 + sqrt (5 / 14)) / 4).
  set (b := (1 - sqrt (5 / 14)) / 4).
  replace (with_coordinate a a' Gauss_Legendre_Tet_11) with
    ([[1 / 4; 1 / 4; 1 / 4];
      [11 / 14; 1 / 14; 1 / 14]; [1 / 14; 11 / 14; 1 / 14]; [1 / 14; 1 / 14; 11 / 14]; [1 / 14; 1 / 14; 1 / 14];
      [a'; a'; b]; [a'; b; a']; [a'; b; b]; [b; a'; a']; [b; a'; b]; [b; b; a']],
     [-74 / 5625; 343 / 45000; 343 / 45000; 343 / 45000; 343 / 45000;
      56 / 2250; 56 / 2250; 56 / 2250; 56 / 2250; 56 / 2250; 56 / 2250]).
  - apply exact_tetrahedron. intros i j k H. subst a' b. clear a.
    assert (Hq : sqrt (5 / 14) * sqrt (5 / 14) = 5 / 14) by (apply sqrt_sqrt; lra).
    generalize dependent (sqrt (5 / 14)). intros q Hq.
    assert (Q2 : q ^ 2 = 5 / 14) by (cbn [pow]; lra).
    assert (Q3 : q ^ 3 = 5 / 14 * q) by (replace (q ^ 3) with (q * q * q) by ring; rewrite Hq; ring).
    assert (Q4 : q ^ 4 = 25 / 196) by (replace (q ^ 4) with (q * q * (q * q)) by ring; rewrite Hq; field).
    small i; small j; small k; numbers; lra.
  - pose proof root_above as H1. pose proof root_below as H2. pose proof root14_below as H3.
    pose proof (sqrt_pos (5 / 14)) as H4.
    unfold with_coordinate, Gauss_Legendre_Tet_11. cbn [fst snd map]. fold a b.
    assert (E1 : forall x, x <> a -> (if Req_EM_T x a then a' else x) = x) by (intros x Hx; destruct (Req_EM_T x a); [contradiction|reflexivity]).
    assert (E2 : (if Req_EM_T a a then a' else a) = a') by (destruct (Req_EM_T a a); [reflexivity|contradiction]).
    rewrite E2, !(E1 b), !(E1 (1 / 4)), !(E1 (11 / 14)), !(E1 (1 / 14)); [reflexivity| | | |]; subst a b; lra.
Qed.
