(** * Gauss rules with different numbers of points in the directions *)
From Coq Require Import Reals Lra Lia.
From Verif Require Import BaseFacts QuadSpec QuadProofs QuadProofs2 QuadProofs3.
Local Open Scope R_scope.

Lemma exact_square_mixed n m q f : gauss_square n m = Ok q ->
  (forall x, pol (2 * m - 1) (fun y => f [x; y])) -> (forall y, pol (2 * n - 1) (fun x => f [x; y])) ->
  integral_square f (quad q f) /\ length (fst q) = length (snd q).
Proof.
  unfold gauss_square, gauss_line_rule. intros H Hy Hx. destruct (gauss_line n) as [g|] eqn:Eg; cbn [bind] in H; [|discriminate].
  destruct (gauss_line m) as [h|] eqn:Eh; cbn [bind] in H; [|discriminate]. injection H as <-.
  pose proof (gauss_line_exact n g Eg) as He. pose proof (gauss_line_length n g Eg) as Hl.
  pose proof (gauss_line_exact m h Eh) as He'. pose proof (gauss_line_length m h Eh) as Hl'.
  split; [|apply times_length; simpl; rewrite ?map_length; auto].
  rewrite quad_times by (simpl; rewrite ?map_length; auto).
  rewrite quad_line. exists (fun p => line_sum h (fun y => f (p ++ [y]))). split.
  - intros x. simpl. apply He'. apply Hy.
  - unfold integral_line. apply He. apply (line_sum_pol _ _ (fun x y => f ([x] ++ [y]))). intros z. simpl. apply Hx.
Qed.
Lemma exact_cube_mixed n m k q f : gauss_cube n m k = Ok q ->
  (forall x y, pol (2 * k - 1) (fun z => f [x; y; z])) -> (forall x z, pol (2 * m - 1) (fun y => f [x; y; z])) ->
  (forall y z, pol (2 * n - 1) (fun x => f [x; y; z])) -> integral_cube f (quad q f).
Proof.
  unfold gauss_cube. intros H Hz Hy Hx. destruct (gauss_square n m) as [s|] eqn:Es; cbn [bind] in H; [|discriminate].
  destruct (gauss_line k) as [g|] eqn:Eg; cbn [bind] in H; [|discriminate]. injection H as <-.
  pose proof (gauss_line_exact k g Eg) as He. pose proof (gauss_line_length k g Eg) as Hl.
  destruct (exact_square_mixed n m s (fun p => line_sum g (fun z => f (p ++ [z]))) Es) as [Hs Hls].
  - intros x. apply (line_sum_pol _ _ (fun y z => f [x; y; z])). intros. apply Hy.
  - intros y. apply (line_sum_pol _ _ (fun x z => f [x; y; z])). intros. apply Hx.
  - rewrite quad_times by auto. exists (fun p => line_sum g (fun z => f (p ++ [z]))). split; [|exact Hs].
    intros x y. simpl. apply He. apply Hz.
Qed.
Lemma poly_degrees2 n m terms : degrees [n; m] terms ->
  (forall x, pol m (fun y => poly terms [x; y])) /\ (forall y, pol n (fun x => poly terms [x; y])).
Proof.
  intros H. unfold degrees in H. rewrite Forall_forall in H.
  split; intros u; unfold poly; [apply (pol_rsum m (fun ce v => fst ce * monomial (snd ce) _))|apply (pol_rsum n (fun ce v => fst ce * monomial (snd ce) _))]; intros [c e] Hin;
    pose proof (H _ Hin) as Hd; cbn [snd] in Hd; inversion Hd as [|i ? e1 ? Hi Hd1]; subst; inversion Hd1 as [|j ? e2 ? Hj Hd2]; subst; inversion Hd2; subst; cbn [fst snd]; apply pol_scale.
  - eapply pol_ext; [intros v; symmetry; apply mono2|]. apply pol_scale, pol_pow. auto.
  - eapply pol_ext; [|apply (pol_scale n (fun v => v ^ i) (u ^ j)), (pol_pow n i)]; auto. intros v. rewrite mono2. simpl. ring.
Qed.
Lemma poly_degrees3 n m l terms : degrees [n; m; l] terms ->
  (forall x y, pol l (fun z => poly terms [x; y; z])) /\ (forall x z, pol m (fun y => poly terms [x; y; z])) /\
  (forall y z, pol n (fun x => poly terms [x; y; z])).
Proof.
  intros H. unfold degrees in H. rewrite Forall_forall in H.
  split; [|split]; intros u u'; unfold poly; [apply (pol_rsum l (fun ce v => fst ce * monomial (snd ce) _))|apply (pol_rsum m (fun ce v => fst ce * monomial (snd ce) _))|apply (pol_rsum n (fun ce v => fst ce * monomial (snd ce) _))]; intros [c e] Hin;
    pose proof (H _ Hin) as Hd; cbn [snd] in Hd; inversion Hd as [|i ? e1 ? Hi Hd1]; subst; inversion Hd1 as [|j ? e2 ? Hj Hd2]; subst; inversion Hd2 as [|k ? e3 ? Hk Hd3]; subst; inversion Hd3; subst; cbn [fst snd]; apply pol_scale.
  - eapply pol_ext; [intros v; symmetry; apply mono3|]. apply pol_scale, pol_pow. auto.
  - eapply pol_ext; [|apply (pol_scale m (fun v => v ^ j) (u ^ i * u' ^ k)), (pol_pow m j)]; auto. intros v. rewrite mono3. simpl. ring.
  - eapply pol_ext; [|apply (pol_scale n (fun v => v ^ i) (u ^ j * u' ^ k)), (pol_pow n i)]; auto. intros v. rewrite mono3. simpl. ring.
Qed.
Lemma square_mixed_poly n m q terms : gauss_square n m = Ok q -> degrees [(2 * n - 1)%nat; (2 * m - 1)%nat] terms ->
  integral_square (poly terms) (quad q (poly terms)).
Proof. intros H Hd. destruct (poly_degrees2 _ _ _ Hd). now apply (exact_square_mixed n m). Qed.
Lemma cube_mixed_poly n m k q terms : gauss_cube n m k = Ok q -> degrees [(2 * n - 1)%nat; (2 * m - 1)%nat; (2 * k - 1)%nat] terms ->
  integral_cube (poly terms) (quad q (poly terms)).
Proof. intros H Hd. destruct (poly_degrees3 _ _ _ _ Hd) as (? & ? & ?). now apply (exact_cube_mixed n m k). Qed.
