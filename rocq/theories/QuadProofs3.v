(** * Proofs about quadrature rules, part 3: products of Gauss-Legendre rules, wedges *)
From Coq Require Import Reals Lra Psatz.
From Verif Require Import ShapeProofs2.
From Verif Require Export QuadProofs2.
Local Open Scope R_scope.

(** ** Polynomials in one variable *)
Definition pol (m : nat) (f : R -> R) : Prop :=
  exists ts : list (R * nat), Forall (fun t => (snd t <= m)%nat) ts /\ forall x, f x = rsum (map (fun t => fst t * x ^ snd t) ts).
Lemma pol_ext m f g : (forall x, f x = g x) -> pol m f -> pol m g.
Proof. intros H (ts & Ht & E). exists ts. split; auto. intros x. rewrite <- H. auto. Qed.
Lemma pol_le m m' f : (m <= m')%nat -> pol m f -> pol m' f.
Proof. intros H (ts & Ht & E). exists ts. split; auto. eapply Forall_impl; [|exact Ht]. simpl. intros; lia. Qed.
Lemma pol_const m c : pol m (fun _ => c).
Proof. exists [(c, 0%nat)]. split; [constructor; auto; simpl; lia|]. intros x. simpl. ring. Qed.
Lemma pol_id m : (1 <= m)%nat -> pol m (fun x => x).
Proof. intros H. exists [(1, 1%nat)]. split; [constructor; auto|]. intros x. simpl. ring. Qed.
Lemma pol_pow m k : (k <= m)%nat -> pol m (fun x => x ^ k).
Proof. intros H. exists [(1, k)]. split; [constructor; auto|]. intros x. simpl. ring. Qed.
Lemma pol_add m f g : pol m f -> pol m g -> pol m (fun x => f x + g x).
Proof.
  intros (ts & Ht & E) (us & Hu & E'). exists (ts ++ us). split; [apply Forall_app; auto|].
  intros x. rewrite map_app, rsum_app, E, E'. reflexivity.
Qed.
Lemma pol_scale m f c : pol m f -> pol m (fun x => c * f x).
Proof.
  intros (ts & Ht & E). exists (map (fun t => (c * fst t, snd t)) ts). split.
  - rewrite Forall_map. exact Ht.
  - intros x. rewrite E, map_map. simpl. clear. induction ts as [|t ts IH]; simpl; [ring|]. rewrite <- IH. ring.
Qed.
Lemma pol_mul a b m f g : pol a f -> pol b g -> (a + b <= m)%nat -> pol m (fun x => f x * g x).
Proof.
  intros (ts & Ht & E) Hg Hm. apply (pol_ext m (fun x => rsum (map (fun t => fst t * x ^ snd t) ts) * g x)); [intros x; rewrite E; reflexivity|]. clear E.
  induction ts as [|t ts IH]; cbn [map rsum fold_right].
  - apply (pol_ext m (fun _ => 0)); [intros; ring|apply pol_const].
  - inversion Ht; subst. destruct Hg as (us & Hu & E').
    apply (pol_ext m (fun x => fst t * x ^ snd t * g x + rsum (map (fun t => fst t * x ^ snd t) ts) * g x)); [intros x; unfold rsum; simpl; ring|].
    apply pol_add; [|apply IH; auto].
    + exists (map (fun u => (fst t * fst u, (snd t + snd u)%nat)) us). split.
      * rewrite Forall_map. eapply Forall_impl; [|exact Hu]. simpl. intros; lia.
      * intros x. rewrite E', map_map. simpl. clear. induction us as [|u us IH]; simpl; [ring|]. rewrite <- IH, pow_add. ring.
Qed.
Lemma pol_sub m f g : pol m f -> pol m g -> pol m (fun x => f x - g x).
Proof. intros Hf Hg. eapply pol_ext; [|apply pol_add; [exact Hf|apply (pol_scale m g (-1)); exact Hg]]. intros; simpl; ring. Qed.
Lemma pol_rsum {A} m (F : A -> R -> R) l : (forall a, In a l -> pol m (F a)) -> pol m (fun x => rsum (map (fun a => F a x) l)).
Proof.
  induction l as [|a l IH]; intros H; simpl.
  - apply pol_const.
  - apply pol_add; [apply H; left; auto|apply IH; intros; apply H; right; auto].
Qed.

(** ** Rules on a line *)
Definition line_sum (g : list R * list R) (f : R -> R) : R :=
  rsum (map (fun xw => snd xw * f (fst xw)) (combine (fst g) (snd g))).
Definition line_exact (m : nat) (g : list R * list R) : Prop := forall f, pol m f -> integral1 (-1) 1 f (line_sum g f).
Lemma line_exact_from m g : (forall k, (k <= m)%nat -> (1 - (-1) ^ S k) / INR (S k) = line_sum g (fun x => x ^ k)) -> line_exact m g.
Proof.
  intros H f (ts & Ht & E).
  assert (Hs : line_sum g f = line_sum g (fun x => rsum (map (fun t => fst t * x ^ snd t) ts))).
  { unfold line_sum. f_equal. apply map_ext. intros. rewrite E. reflexivity. }
  rewrite Hs. eapply integral1_ext; [intros x; symmetry; apply E|]. clear Hs E.
  induction ts as [|[c k] ts IH]; simpl.
  - assert (H0 : line_sum g (fun _ => 0) = 0).
    { unfold line_sum. induction (combine (fst g) (snd g)) as [|xw l IHl]; simpl; [ring|]. rewrite IHl. ring. }
    rewrite H0. apply integral1_zero.
  - inversion Ht; subst. simpl in *.
    assert (Hl : line_sum g (fun x => c * x ^ k + rsum (map (fun t => fst t * x ^ snd t) ts)) =
      c * line_sum g (fun x => x ^ k) + line_sum g (fun x => rsum (map (fun t => fst t * x ^ snd t) ts))).
    { unfold line_sum. induction (combine (fst g) (snd g)) as [|xw l IHl]; simpl; [ring|]. rewrite IHl. ring. }
    rewrite Hl. apply integral1_lin; [|apply IH; auto]. rewrite <- H by auto.
    eapply integral1_val; [|apply integral1_pow]. rewrite pow1. reflexivity.
Qed.
Ltac nums := unfold line_sum; cbn [combine fst snd map rsum fold_right pow];
  repeat match goal with |- context [INR ?n] => let v := eval cbv in (Z.of_nat n) in replace (INR n) with (IZR v) by (simpl; lra) end.
Lemma gauss_line_exact n g : gauss_line n = Ok g -> line_exact (2 * n - 1) g.
Proof.
  intros H. apply line_exact_from. intros k Hk.
  destruct n as [|[|[|[|]]]]; try discriminate H; injection H as <-; simpl in Hk.
  - small k; nums; lra.
  - assert (Hq : sqrt (1 / 3) * sqrt (1 / 3) = 1 / 3) by (apply sqrt_sqrt; lra).
    generalize dependent (sqrt (1 / 3)); intros q Hq. small k; nums; try lra; nra.
  - assert (Hq : sqrt (3 / 5) * sqrt (3 / 5) = 3 / 5) by (apply sqrt_sqrt; lra).
    generalize dependent (sqrt (3 / 5)); intros q Hq. small k; nums; try lra; try nra.
Qed.
Lemma quad_line (g : list R * list R) f : quad (map (fun x => [x]) (fst g), snd g) f = line_sum g (fun x => f [x]).
Proof.
  unfold quad, line_sum. simpl. revert f. generalize (snd g). induction (fst g) as [|x xs IH]; intros [|w ws] f; simpl; auto.
  rewrite IH. reflexivity.
Qed.
Lemma quad_times a b f : length (fst a) = length (snd a) -> length (fst b) = length (snd b) ->
  quad (times_line a b) f = quad a (fun p => line_sum b (fun x => f (p ++ [x]))).
Proof.
  intros Ha Hb. unfold times_line, quad. simpl. revert Ha. generalize (snd a). induction (fst a) as [|p ps IH]; intros [|w ws] Ha; simpl in *; try discriminate; auto.
  rewrite combine_app by (rewrite !map_length; auto). rewrite map_app, rsum_app, IH by (injection Ha; auto). f_equal.
  unfold line_sum. clear -Hb. revert Hb. generalize (snd b). induction (fst b) as [|x xs IH]; intros [|v vs] Hb; simpl in *; try discriminate; try ring.
  rewrite IH by (injection Hb; auto). ring.
Qed.
Lemma gauss_line_length n g : gauss_line n = Ok g -> length (fst g) = length (snd g).
Proof. intros H. destruct n as [|[|[|[|]]]]; try discriminate H; injection H as <-; reflexivity. Qed.
Lemma times_length a b : length (fst a) = length (snd a) -> length (fst b) = length (snd b) ->
  length (fst (times_line a b)) = length (snd (times_line a b)).
Proof.
  intros Ha Hb. unfold times_line. simpl. revert Ha. generalize (snd a). induction (fst a) as [|p ps IH]; intros [|w ws] Ha; simpl in *; try discriminate; auto.
  rewrite !app_length, !map_length, (IH ws), Hb by (injection Ha; auto). reflexivity.
Qed.
Lemma line_sum_pol m g (F : R -> R -> R) : (forall z, pol m (fun x => F x z)) -> pol m (fun x => line_sum g (F x)).
Proof.
  intros H. unfold line_sum. apply (pol_rsum m (fun xw x => snd xw * F x (fst xw))). intros a _. apply pol_scale. apply H.
Qed.
Lemma exact_square n q f : gauss_square n n = Ok q ->
  (forall x, pol (2 * n - 1) (fun y => f [x; y])) -> (forall y, pol (2 * n - 1) (fun x => f [x; y])) ->
  integral_square f (quad q f).
Proof.
  unfold gauss_square, gauss_line_rule. intros H Hy Hx. destruct (gauss_line n) as [g|] eqn:Eg; cbn [bind] in H; [|discriminate]. injection H as <-.
  pose proof (gauss_line_exact n g Eg) as He. pose proof (gauss_line_length n g Eg) as Hl.
  rewrite quad_times by (simpl; rewrite ?map_length; auto).
  rewrite quad_line. exists (fun p => line_sum g (fun y => f (p ++ [y]))). split.
  - intros x. simpl. apply He. apply Hy.
  - unfold integral_line. apply He. apply (line_sum_pol _ _ (fun x y => f ([x] ++ [y]))). intros z. simpl. apply Hx.
Qed.
Lemma exact_cube n q f : gauss_cube n n n = Ok q ->
  (forall x y, pol (2 * n - 1) (fun z => f [x; y; z])) -> (forall x z, pol (2 * n - 1) (fun y => f [x; y; z])) ->
  (forall y z, pol (2 * n - 1) (fun x => f [x; y; z])) -> integral_cube f (quad q f).
Proof.
  unfold gauss_cube. intros H Hz Hy Hx. destruct (gauss_square n n) as [s|] eqn:Es; cbn [bind] in H; [|discriminate].
  destruct (gauss_line n) as [g|] eqn:Eg; cbn [bind] in H; [|discriminate]. injection H as <-.
  pose proof (gauss_line_exact n g Eg) as He. pose proof (gauss_line_length n g Eg) as Hl.
  assert (Hs : length (fst s) = length (snd s)).
  { unfold gauss_square, gauss_line_rule in Es. rewrite Eg in Es. cbn [bind] in Es. injection Es as <-.
    apply times_length; simpl; rewrite ?map_length; auto. }
  rewrite quad_times by auto. exists (fun p => line_sum g (fun z => f (p ++ [z]))). split.
  - intros x y. simpl. apply He. apply Hz.
  - apply (exact_square n s); auto; intros; simpl; apply (line_sum_pol _ _ (fun x z => f (_ x ++ [z]))) || idtac.
    + apply (line_sum_pol _ _ (fun y z => f [x; y; z])). intros. apply Hy.
    + apply (line_sum_pol _ _ (fun x z => f [x; y; z])). intros. apply Hx.
Qed.
(** polynomials are polynomials in each variable *)
Lemma poly_pol2 n terms : each_degree 2 n terms ->
  (forall x, pol n (fun y => poly terms [x; y])) /\ (forall y, pol n (fun x => poly terms [x; y])).
Proof.
  intros H. unfold each_degree in H. rewrite Forall_forall in H.
  split; intros u; unfold poly; apply (pol_rsum n (fun ce v => fst ce * monomial (snd ce) _)); intros [c e] Hin;
    destruct (H _ Hin) as [Hl Hd]; simpl in *; destruct e as [|i [|j [|]]]; try discriminate; apply pol_scale;
    inversion Hd as [|? ? Hi Hd']; subst; inversion Hd' as [|? ? Hj _]; subst.
  - eapply pol_ext; [intros v; symmetry; apply mono2|]. apply pol_scale, pol_pow. auto.
  - eapply pol_ext; [|apply (pol_scale n (fun v => v ^ i) (u ^ j)), (pol_pow n i)]; auto. intros v. rewrite mono2. simpl. ring.
Qed.
Lemma poly_pol3 n terms : each_degree 3 n terms ->
  (forall x y, pol n (fun z => poly terms [x; y; z])) /\ (forall x z, pol n (fun y => poly terms [x; y; z])) /\
  (forall y z, pol n (fun x => poly terms [x; y; z])).
Proof.
  intros H. unfold each_degree in H. rewrite Forall_forall in H.
  split; [|split]; intros u u'; unfold poly; apply (pol_rsum n (fun ce v => fst ce * monomial (snd ce) _)); intros [c e] Hin;
    destruct (H _ Hin) as [Hl Hd]; simpl in *; destruct e as [|i [|j [|k [|]]]]; try discriminate; apply pol_scale;
    inversion Hd as [|? ? Hi Hd']; subst; inversion Hd' as [|? ? Hj Hd'']; subst; inversion Hd'' as [|? ? Hk _]; subst.
  - eapply pol_ext; [intros v; symmetry; apply mono3|]. apply pol_scale, pol_pow. auto.
  - eapply pol_ext; [|apply (pol_scale n (fun v => v ^ j) (u ^ i * u' ^ k)), (pol_pow n j)]; auto. intros v. rewrite mono3. simpl. ring.
  - eapply pol_ext; [|apply (pol_scale n (fun v => v ^ i) (u ^ j * u' ^ k)), (pol_pow n i)]; auto. intros v. rewrite mono3. simpl. ring.
Qed.
Lemma exact_square_poly n q terms : gauss_square n n = Ok q -> each_degree 2 (2 * n - 1) terms ->
  integral_square (poly terms) (quad q (poly terms)).
Proof. intros H Hd. destruct (poly_pol2 _ _ Hd). apply (exact_square n); auto. Qed.
Lemma exact_cube_poly n q terms : gauss_cube n n n = Ok q -> each_degree 3 (2 * n - 1) terms ->
  integral_cube (poly terms) (quad q (poly terms)).
Proof. intros H Hd. destruct (poly_pol3 _ _ Hd) as (? & ? & ?). apply (exact_cube n); auto. Qed.
Lemma exact_line_poly n q terms : gauss_line_rule n = Ok q -> each_degree 1 (2 * n - 1) terms ->
  integral_line (poly terms) (quad q (poly terms)).
Proof.
  unfold gauss_line_rule. intros H Hd. destruct (gauss_line n) as [g|] eqn:Eg; cbn [bind] in H; [|discriminate]. injection H as <-.
  rewrite quad_line. apply (gauss_line_exact n g Eg). unfold each_degree in Hd. rewrite Forall_forall in Hd.
  unfold poly. apply (pol_rsum _ (fun ce v => fst ce * monomial (snd ce) [v])). intros [c e] Hin.
  destruct (Hd _ Hin) as [Hl Hf]. simpl in *. destruct e as [|i [|]]; try discriminate. inversion Hf; subst.
  apply pol_scale. eapply pol_ext; [|apply (pol_pow _ i); auto]. intros v. unfold monomial. simpl. ring.
Qed.

(** ** Wedges *)
Lemma exact_Wedge_3x3 : exists q, Gauss_Legendre_Wedge_3x3 = Ok q /\
  forall terms, wedge_degree 2 5 terms -> integral_wedge (poly terms) (quad q (poly terms)).
Proof.
  eexists. split; [reflexivity|]. apply exact_wedge. intros i j k Hij Hk.
  assert (Hq : sqrt (3 / 5) * sqrt (3 / 5) = 3 / 5) by (apply sqrt_sqrt; lra).
  generalize dependent (sqrt (3 / 5)); intros q Hq.
  assert (H1 : forall x, q * (q * x) = 3 / 5 * x) by (intros; rewrite <- Rmult_assoc, Hq; reflexivity).
  assert (H2 : forall x, - q * (- q * x) = 3 / 5 * x) by (intros; rewrite <- H1; ring).
  small i; small j; small k; numbers; rewrite ?H1, ?H2; lra.
Qed.
Lemma Wedge_3x2_volume : exists q, Gauss_Legendre_Wedge_3x2 = Ok q /\ forall c, integral_wedge (fun _ => c) (quad q (fun _ => c)).
Proof.
  eexists. split; [reflexivity|]. intros c. unfold quad. cbn [combine fst snd map rsum fold_right app].
  assert (H : wedge_degree 2 5 [(c, [0; 0; 0]%nat)]).
  { constructor; [|constructor]. exists 0%nat, 0%nat, 0%nat. repeat split; lia. }
  destruct exact_Wedge_3x3 as (q' & E & He). specialize (He _ H). injection E as <-.
  assert (Ef : forall x y z, poly [(c, [0; 0; 0]%nat)] [x; y; z] = c).
  { intros. unfold poly. simpl. rewrite mono3. simpl. ring. }
  destruct He as (g & Hg & Hv). exists g. split.
  - intros x y. eapply integral1_ext; [|apply Hg]. intros z. apply Ef.
  - eapply integral_triangle_val; [|exact Hv]. unfold quad. cbn [combine fst snd map rsum fold_right app flat_map].
    rewrite !Ef. lra.
Qed.
Lemma Wedge_3x2_wrong : exists q, Gauss_Legendre_Wedge_3x2 = Ok q /\
  ~ integral_wedge (monomial [0; 0; 1]%nat) (quad q (monomial [0; 0; 1]%nat)).
Proof.
  eexists. split; [reflexivity|]. intros H.
  pose proof (integral_wedge_unique _ _ _ H (wedge_monomial 0 0 1)) as E.
  assert (Hq : 0 < sqrt (1 / 3)) by (apply sqrt_lt_R0; lra).
  revert E Hq. numbers. generalize (sqrt (1 / 3)). intros q E Hq. lra.
Qed.

Lemma Tet_11_volume c : integral_tetrahedron (fun _ => c) (quad Gauss_Legendre_Tet_11 (fun _ => c)).
Proof.
  pose proof (exact_Tet_1 [(c, [0; 0; 0]%nat)]) as H.
  assert (Hd : total_degree 3 1 [(c, [0; 0; 0]%nat)]) by (constructor; [simpl; split; lia|constructor]).
  specialize (H Hd).
  assert (Ef : forall x y z, poly [(c, [0; 0; 0]%nat)] [x; y; z] = c).
  { intros. unfold poly. simpl. rewrite mono3. simpl. ring. }
  destruct H as (g & Hg & Hv). exists g. split.
  - intros x y. eapply integral1_ext; [|apply Hg]. intros z. apply Ef.
  - eapply integral_triangle_val; [|exact Hv]. unfold quad, Gauss_Legendre_Tet_1, Gauss_Legendre_Tet_11. 
    cbn [combine fst snd map rsum fold_right app flat_map]. rewrite !Ef. lra.
Qed.
Lemma Tet_11_wrong : ~ integral_tetrahedron (monomial [1; 0; 0]%nat) (quad Gauss_Legendre_Tet_11 (monomial [1; 0; 0]%nat)).
Proof.
  intros H. pose proof (integral_tetrahedron_unique _ _ _ H (tetrahedron_monomial 1 0 0)) as E.
  assert (H1 : 1 / 2 < sqrt (5 / 15)).
  { rewrite <- (sqrt_square (1 / 2)) by lra. apply sqrt_lt_1_alt. lra. }
  assert (H2 : sqrt (5 / 14) < 1).
  { rewrite <- sqrt_1. apply sqrt_lt_1_alt. lra. }
  revert E H1 H2. unfold Gauss_Legendre_Tet_11. numbers. generalize (sqrt (5 / 15)) (sqrt (5 / 14)). intros; lra.
Qed.
