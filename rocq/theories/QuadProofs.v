(** * Proofs about quadrature rules *)
From Coq Require Import Reals Lra Psatz.
From Verif Require Import ShapeProofs5.
From Verif Require Export QuadSpec.
Local Open Scope R_scope.

(** ** Integrals *)
Lemma dlim_ext f g x l : (forall y, f y = g y) -> derivable_pt_lim f x l -> derivable_pt_lim g x l.
Proof. intros H Hf e He. destruct (Hf e He) as [d Hd]. exists d. intros h Hh Hl. rewrite <- !H. auto. Qed.
Lemma integral1_ext a b f g v : (forall x, f x = g x) -> integral1 a b f v -> integral1 a b g v.
Proof. intros H (F & HF & E). exists F. split; auto. intros x. rewrite <- H. auto. Qed.
Lemma integral1_val a b f v v' : v = v' -> integral1 a b f v -> integral1 a b f v'.
Proof. intros ->. auto. Qed.
Lemma integral1_lin a b f g v w c : integral1 a b f v -> integral1 a b g w -> integral1 a b (fun x => c * f x + g x) (c * v + w).
Proof.
  intros (F & HF & EF) (G & HG & EG). exists (fun x => c * F x + G x). split; [|rewrite <- EF, <- EG; ring].
  intros x. apply (derivable_pt_lim_plus (fun x => c * F x) G); auto. apply derivable_pt_lim_scal. auto.
Qed.
Lemma integral1_scale a b f v c : integral1 a b f v -> integral1 a b (fun x => c * f x) (c * v).
Proof. intros (F & HF & EF). exists (fun x => c * F x). split; [|rewrite <- EF; ring]. intros x. apply derivable_pt_lim_scal. auto. Qed.
Lemma integral1_zero a b : integral1 a b (fun _ => 0) 0.
Proof. exists (fun _ => 0). split; [|lra]. intros x. apply derivable_pt_lim_const. Qed.
Lemma integral1_pow a b n : integral1 a b (fun x => x ^ n) ((b ^ S n - a ^ S n) / INR (S n)).
Proof.
  exists (fun x => / INR (S n) * x ^ S n). split.
  - intros x. replace (x ^ n) with (/ INR (S n) * (INR (S n) * x ^ n)).
    + apply derivable_pt_lim_scal. exact (derivable_pt_lim_pow x (S n)).
    + field. apply not_0_INR. lia.
  - unfold Rdiv. ring.
Qed.

(** integral of y^j (c - y)^m from 0 to c *)
Fixpoint beta (i k : nat) : R :=
  match k with O => 1 / INR (i + 1) | S k' => INR (k' + 1) / INR (i + 1) * beta (S i) k' end.
Lemma INR_pos1 n : INR (n + 1) <> 0.
Proof. apply not_0_INR. lia. Qed.
Lemma integral1_beta c : forall k i, integral1 0 c (fun y => y ^ i * (c - y) ^ k) (c ^ (i + k + 1) * beta i k).
Proof.
  induction k as [|k IH]; intros i.
  - eapply integral1_ext; [|eapply integral1_val; [|apply (integral1_pow 0 c i)]].
    + intros x. simpl. ring.
    + simpl beta. replace (i + 0 + 1)%nat with (S i) by lia. replace (i + 1)%nat with (S i) by lia.
      rewrite (pow_i (S i)) by lia. field. apply not_0_INR. lia.
  - destruct (IH (S i)) as (F & HF & EF).
    exists (fun y => / INR (i + 1) * y ^ (i + 1) * (c - y) ^ S k + INR (k + 1) / INR (i + 1) * F y). split.
    + intros y.
      replace (y ^ i * (c - y) ^ S k) with
        ((/ INR (i + 1) * (INR (i + 1) * y ^ i)) * (c - y) ^ S k +
         (/ INR (i + 1) * y ^ (i + 1)) * (INR (k + 1) * (c - y) ^ k * (0 - 1)) +
         INR (k + 1) / INR (i + 1) * (y ^ S i * (c - y) ^ k)).
      * apply (derivable_pt_lim_plus (fun y => / INR (i + 1) * y ^ (i + 1) * (c - y) ^ S k) (fun y => INR (k + 1) / INR (i + 1) * F y)).
        -- apply (derivable_pt_lim_mult (fun y => / INR (i + 1) * y ^ (i + 1)) (fun y => (c - y) ^ S k)).
           ++ apply derivable_pt_lim_scal. replace (i + 1)%nat with (S i) by lia. exact (derivable_pt_lim_pow y (S i)).
           ++ apply (derivable_pt_lim_comp (fun y => c - y) (fun z => z ^ S k)).
              ** apply (derivable_pt_lim_minus (fun _ => c) (fun y => y)); [apply derivable_pt_lim_const|apply derivable_pt_lim_id].
              ** replace (k + 1)%nat with (S k) by lia. exact (derivable_pt_lim_pow _ (S k)).
        -- apply derivable_pt_lim_scal. apply HF.
      * replace (i + 1)%nat with (S i) by lia. rewrite <- !tech_pow_Rmult. field. apply not_0_INR. lia.
    + simpl beta. replace (i + S k + 1)%nat with (S i + k + 1)%nat by lia.
      replace (c - c) with 0 by ring. replace (0 ^ (i + 1)) with 0 by (rewrite pow_i; [reflexivity|lia]).
      replace (0 ^ S k) with 0 by (rewrite pow_i; [reflexivity|lia]). 
      transitivity (INR (k + 1) / INR (i + 1) * (F c - F 0)); [ring|]. rewrite EF. ring.
Qed.

(** Newton's integral is unique and agrees with Riemann's *)
Lemma integral1_unique a b f v w : integral1 a b f v -> integral1 a b f w -> v = w.
Proof.
  intros (F & HF & EF) (G & HG & EG).
  assert (H : forall x, derivable_pt_lim (fun x => F x - G x) x 0).
  { intros x. replace 0 with (f x - f x) by ring. apply (derivable_pt_lim_minus F G); auto. }
  set (D := fun x => F x - G x) in *.
  assert (pr : derivable D) by (intros x; exists 0; apply H).
  assert (E : forall a b, a < b -> D b = D a).
  { intros c d Hn. destruct (MVT_cor1 D c d pr) as (e & Hc & _); [lra|].
    rewrite (derive_pt_eq_0 D e 0 (pr e) (H e)) in Hc. lra. }
  assert (E' : D b = D a) by (destruct (Rtotal_order a b) as [L|[->|L]]; auto; symmetry; auto).
  unfold D in E'. lra.
Qed.
Lemma integral_triangle_unique f v w : integral_triangle f v -> integral_triangle f w -> v = w.
Proof.
  intros (g & Hg & Hv) (h & Hh & Hw). apply (integral1_unique 0 1 g); auto.
  eapply integral1_ext; [|apply Hw]. intros x. eapply integral1_unique; [apply Hh|apply Hg].
Qed.
Lemma integral_triangle_same f g v : (forall x y, f [x; y] = g [x; y]) -> integral_triangle f v -> integral_triangle g v.
Proof. intros H (F & HF & E). exists F. split; auto. intros x. eapply integral1_ext; [|apply HF]. intros y. apply H. Qed.
Lemma integral_wedge_unique f v w : integral_wedge f v -> integral_wedge f w -> v = w.
Proof.
  intros (g & Hg & Hv) (h & Hh & Hw). apply (integral_triangle_unique g); auto.
  eapply integral_triangle_same; [|apply Hw]. intros x y. eapply integral1_unique; [apply Hh|apply Hg].
Qed.
Lemma integral_tetrahedron_unique f v w : integral_tetrahedron f v -> integral_tetrahedron f w -> v = w.
Proof.
  intros (g & Hg & Hv) (h & Hh & Hw). apply (integral_triangle_unique g); auto.
  eapply integral_triangle_same; [|apply Hw]. intros x y. eapply integral1_unique; [apply Hh|apply Hg].
Qed.
Lemma integral1_riemann a b f v (Hc : continuity f) (Hab : a <= b) : integral1 a b f v ->
  RiemannInt (continuity_implies_RiemannInt Hab (fun x _ => Hc x)) = v.
Proof.
  intros (F & HF & EF).
  assert (d : derivable F) by (intros x; exists (f x); apply HF).
  assert (Ed : forall x, derive F d x = f x).
  { intros x. unfold derive. apply derive_pt_eq_0. apply HF. }
  assert (cont : continuity (derive F d)).
  { intros x e He. destruct (Hc x e He) as (dl & Hd & HH). exists dl. split; auto. intros y Hy. rewrite !Ed. apply HH; auto. }
  rewrite <- EF.
  set (C := {| c1 := F; diff0 := d; cont1 := cont |}).
  assert (pr2 : Riemann_integrable (derive C (diff0 C)) a b) by (apply continuity_implies_RiemannInt; auto).
  change (F b - F a) with (C b - C a). rewrite <- (FTC_Riemann C pr2).
  apply RiemannInt_P18; auto.
Qed.

(** ** Linearity over the reference cells *)
Lemma integral_line_lin f g v w c : integral_line f v -> integral_line g w -> integral_line (fun p => c * f p + g p) (c * v + w).
Proof. apply integral1_lin. Qed.
Lemma integral_square_lin f g v w c : integral_square f v -> integral_square g w -> integral_square (fun p => c * f p + g p) (c * v + w).
Proof.
  intros (F & HF & EF) (G & HG & EG). exists (fun p => c * F p + G p). split.
  - intros x. apply (integral1_lin _ _ (fun y => f [x; y]) (fun y => g [x; y])); auto.
  - apply integral_line_lin; auto.
Qed.
Lemma integral_cube_lin f g v w c : integral_cube f v -> integral_cube g w -> integral_cube (fun p => c * f p + g p) (c * v + w).
Proof.
  intros (F & HF & EF) (G & HG & EG). exists (fun p => c * F p + G p). split.
  - intros x y. apply (integral1_lin _ _ (fun z => f [x; y; z]) (fun z => g [x; y; z])); auto.
  - apply integral_square_lin; auto.
Qed.
Lemma integral_triangle_lin f g v w c : integral_triangle f v -> integral_triangle g w -> integral_triangle (fun p => c * f p + g p) (c * v + w).
Proof.
  intros (F & HF & EF) (G & HG & EG). exists (fun p => c * F p + G p). split.
  - intros x. apply (integral1_lin _ _ (fun y => f [x; y]) (fun y => g [x; y])); auto.
  - apply integral1_lin; auto.
Qed.
Lemma integral_tetrahedron_lin f g v w c :
  integral_tetrahedron f v -> integral_tetrahedron g w -> integral_tetrahedron (fun p => c * f p + g p) (c * v + w).
Proof.
  intros (F & HF & EF) (G & HG & EG). exists (fun p => c * F p + G p). split.
  - intros x y. apply (integral1_lin _ _ (fun z => f [x; y; z]) (fun z => g [x; y; z])); auto.
  - apply integral_triangle_lin; auto.
Qed.
Lemma integral_wedge_lin f g v w c : integral_wedge f v -> integral_wedge g w -> integral_wedge (fun p => c * f p + g p) (c * v + w).
Proof.
  intros (F & HF & EF) (G & HG & EG). exists (fun p => c * F p + G p). split.
  - intros x y. apply (integral1_lin _ _ (fun z => f [x; y; z]) (fun z => g [x; y; z])); auto.
  - apply integral_triangle_lin; auto.
Qed.

(** a rule which is exact for the monomials of a class is exact for its polynomials *)
Lemma quad_lin q f g c : quad q (fun p => c * f p + g p) = c * quad q f + quad q g.
Proof.
  unfold quad. induction (combine (fst q) (snd q)) as [|[p w] l IH]; simpl; [ring|]. rewrite IH. ring.
Qed.
Lemma quad_zero q : quad q (fun _ => 0) = 0.
Proof. unfold quad. induction (combine (fst q) (snd q)) as [|[p w] l IH]; simpl; [ring|]. rewrite IH. ring. Qed.
Lemma exact_poly (I : (list R -> R) -> R -> Prop) (ok : list nat -> Prop) q :
  (forall f g v w c, I f v -> I g w -> I (fun p => c * f p + g p) (c * v + w)) ->
  I (fun _ => 0) 0 ->
  (forall e, ok e -> I (monomial e) (quad q (monomial e))) ->
  forall terms, Forall (fun ce => ok (snd ce)) terms -> I (poly terms) (quad q (poly terms)).
Proof.
  intros Hlin H0 Hm. induction terms as [|[c e] ts IH]; intros Hok.
  - change (poly []) with (fun _ : list R => 0). rewrite quad_zero. auto.
  - inversion Hok; subst. change (poly ((c, e) :: ts)) with (fun p => c * monomial e p + poly ts p).
    rewrite quad_lin. apply Hlin; auto.
Qed.

(** ** Monomials *)
Lemma mono2 i j x y : monomial [i; j] [x; y] = x ^ i * y ^ j.
Proof. unfold monomial. simpl. ring. Qed.
Lemma mono3 i j k x y z : monomial [i; j; k] [x; y; z] = x ^ i * y ^ j * z ^ k.
Proof. unfold monomial. simpl. ring. Qed.
Lemma integral_triangle_val f v v' : v = v' -> integral_triangle f v -> integral_triangle f v'.
Proof. intros ->. auto. Qed.
Lemma triangle_beta i j k :
  integral_triangle (fun p => nth 0 p 0 ^ i * nth 1 p 0 ^ j * (1 - nth 0 p 0 - nth 1 p 0) ^ k) (beta j k * beta i (j + k + 1)).
Proof.
  exists (fun x => beta j k * (x ^ i * (1 - x) ^ (j + k + 1))). split.
  - intros x. simpl.
    eapply integral1_ext; [|eapply integral1_val; [|apply (integral1_scale 0 (1 - x) _ _ (x ^ i) (integral1_beta (1 - x) k j))]].
    + intros y. simpl. ring.
    + ring.
  - eapply integral1_val; [|apply integral1_scale; apply integral1_beta]. rewrite pow1. ring.
Qed.
Lemma integral_triangle_ext f g v : (forall x y, f [x; y] = g [x; y]) -> integral_triangle f v -> integral_triangle g v.
Proof.
  intros H (F & HF & E). exists F. split; auto. intros x. eapply integral1_ext; [|apply HF]. intros y. apply H.
Qed.
Lemma triangle_monomial i j : integral_triangle (monomial [i; j]) (beta j 0 * beta i (j + 1)).
Proof.
  eapply integral_triangle_ext; [|eapply integral_triangle_val; [|apply (triangle_beta i j 0)]].
  - intros x y. rewrite mono2. simpl. ring.
  - replace (j + 0 + 1)%nat with (j + 1)%nat by lia. reflexivity.
Qed.
Lemma tetrahedron_monomial i j k : integral_tetrahedron (monomial [i; j; k]) (beta k 0 * (beta j (k + 1) * beta i (j + (k + 1) + 1))).
Proof.
  exists (fun p => beta k 0 * (nth 0 p 0 ^ i * nth 1 p 0 ^ j * (1 - nth 0 p 0 - nth 1 p 0) ^ (k + 1))). split.
  - intros x y. eapply integral1_ext; [|eapply integral1_val; [|apply (integral1_scale 0 (1 - x - y) _ _ (x ^ i * y ^ j) (integral1_beta (1 - x - y) 0 k))]].
    + intros z. rewrite mono3. simpl. ring.
    + simpl nth. replace (k + 0 + 1)%nat with (k + 1)%nat by lia. ring.
  - pose proof (integral_triangle_lin _ (fun _ => 0) _ 0 (beta k 0) (triangle_beta i j (k + 1))) as H.
    eapply integral_triangle_ext; [|eapply integral_triangle_val; [|apply H]].
    + intros x y. simpl. ring.
    + ring.
    + exists (fun _ => 0). split; intros; apply integral1_zero.
Qed.
Lemma wedge_monomial i j k : integral_wedge (monomial [i; j; k]) ((1 - (-1) ^ S k) / INR (S k) * (beta j 0 * beta i (j + 1))).
Proof.
  exists (fun p => (1 - (-1) ^ S k) / INR (S k) * monomial [i; j] p). split.
  - intros x y. eapply integral1_ext; [|eapply integral1_val; [|apply (integral1_scale (-1) 1 _ _ (x ^ i * y ^ j) (integral1_pow (-1) 1 k))]].
    + intros z. rewrite mono3. simpl. ring.
    + rewrite mono2, pow1. unfold Rdiv. ring.
  - pose proof (integral_triangle_lin _ (fun _ => 0) _ 0 ((1 - (-1) ^ S k) / INR (S k)) (triangle_monomial i j)) as H.
    eapply integral_triangle_ext; [|eapply integral_triangle_val; [|apply H]].
    + intros x y. simpl. ring.
    + ring.
    + exists (fun _ => 0). split; intros; apply integral1_zero.
Qed.
