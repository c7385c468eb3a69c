(** * Proofs about [CellsModel.v], part 1: shape functions *)
From Coq Require Import Reals Lra.
From Verif Require Export ShapeSpec BaseFacts.
Local Open Scope R_scope.

Ltac list_cases l H :=
  match type of H with
  | length l = 1%nat => destruct l as [|? [|? ?]]; try discriminate H
  | length l = 2%nat => destruct l as [|? [|? [|? ?]]]; try discriminate H
  | length l = 3%nat => destruct l as [|? [|? [|? [|? ?]]]]; try discriminate H
  end.
Ltac numR := cbn [kofZ kadd ksub kmul kdiv kopp kleb kltb NumR kpow].
Ltac simplR := cbn [kofZ kadd ksub kmul kdiv kopp kleb kltb NumR kpow map combine fst snd rsum fold_right app monomial pow nth firstn skipn replace_nth fold_left].

Ltac node_values :=
  let k := fresh "k" in let p := fresh "p" in let H := fresh in
  intros k p H;
  repeat (destruct k as [|k];
    [injection H as <-; eexists; split; [reflexivity|]; split; [reflexivity|];
     let j := fresh "j" in let Hj := fresh in intros j Hj;
     simpl in Hj;
     repeat (first [exfalso; lia | destruct j as [|j]; [cbn [nth Nat.eqb map]; numR; lra|]])
    |]);
  destruct k; discriminate H.

Lemma nodes_L2 : interpolates_nodes shp_L2 lcoords_L2.
Proof. node_values. Qed.
Lemma nodes_T3 : interpolates_nodes shp_T3 lcoords_T3.
Proof. node_values. Qed.
Lemma nodes_T6 : interpolates_nodes shp_T6 lcoords_T6.
Proof. node_values. Qed.
Lemma nodes_Q4 : interpolates_nodes shp_Q4 lcoords_Q4.
Proof. node_values. Qed.
Lemma nodes_Q9 : interpolates_nodes shp_Q9 lcoords_Q9.
Proof. node_values. Qed.
Lemma nodes_TET4 : interpolates_nodes shp_TET4 lcoords_TET4.
Proof. node_values. Qed.
Lemma nodes_H8 : interpolates_nodes shp_H8 lcoords_H8.
Proof. node_values. Qed.

(** ** H27: products of quadratic polynomials *)

(** value at [x] of the quadratic polynomial that is 1 at the node [c] (-1, 0 or 1) and 0 at the others *)
Definition lag (c x : R) : R := (1 - c * c) * (1 - x * x) + c * c * (x * (x + c)) / 2.
Definition lag3 (r s t : R) (q : list R) : R := lag (nth 0 q 0) r * lag (nth 1 q 0) s * lag (nth 2 q 0) t.

Ltac list_eq tac :=
  repeat match goal with
  | |- _ :: _ = _ :: _ => apply f_equal2; [tac|]
  | |- @eq (list _) nil nil => reflexivity
  end.
Lemma H27_product r s t : shp_H27 [r; s; t] = Ok (map (lag3 r s t) lcoords_H27).
Proof.
  unfold shp_H27, lcoords_H27. cbn [map]. apply f_equal.
  list_eq ltac:(unfold lag3, lag; cbn [nth]; numR; field).
Qed.

Lemma lag_node c d : In c [-1; 0; 1] -> In d [-1; 0; 1] -> lag c d = if Req_EM_T c d then 1 else 0.
Proof.
  intros Hc Hd. destruct (Req_EM_T c d) as [<-|Hn].
  - destruct Hc as [<-|[<-|[<-|[]]]]; unfold lag; lra.
  - destruct Hc as [<-|[<-|[<-|[]]]]; destruct Hd as [<-|[<-|[<-|[]]]]; unfold lag; lra.
Qed.
Lemma H27_nodes_coords q : In q (lcoords_H27 (K := R)) ->
  exists a b c, q = [a; b; c] /\ In a [-1; 0; 1] /\ In b [-1; 0; 1] /\ In c [-1; 0; 1].
Proof.
  intros H. unfold lcoords_H27 in H. cbn [kofZ NumR] in H.
  repeat (destruct H as [<-|H]; [do 3 eexists; split; [reflexivity|]; split; [|split]; simpl; tauto|]). contradiction.
Qed.
Lemma lcoords_H27_nodup : NoDup (lcoords_H27 (K := R)).
Proof.
  assert (E : lcoords_H27 (K := R) = map (map IZR)
   [[-1;-1;-1];[1;-1;-1];[1;1;-1];[-1;1;-1];[-1;-1;1];[1;-1;1];[1;1;1];[-1;1;1];
    [0;-1;-1];[1;0;-1];[0;1;-1];[-1;0;-1];[0;-1;1];[1;0;1];[0;1;1];[-1;0;1];
    [-1;-1;0];[1;-1;0];[1;1;0];[-1;1;0];
    [-1;0;0];[1;0;0];[0;-1;0];[0;1;0];[0;0;-1];[0;0;1];[0;0;0]]%Z) by reflexivity.
  rewrite E. apply FinFun.Injective_map_NoDup.
  - intros a b. revert b. induction a as [|x a IH]; intros [|y b] H; try discriminate; auto.
    injection H as H1 H2. apply eq_IZR in H1. subst. f_equal. auto.
  - repeat (apply NoDup_cons; [simpl; intuition discriminate|]). apply NoDup_nil.
Qed.
Lemma nodes_H27 : interpolates_nodes shp_H27 lcoords_H27.
Proof.
  intros k p Hp.
  destruct (H27_nodes_coords p (nth_error_In _ _ Hp)) as (a & b & c & -> & Ha & Hb & Hc).
  exists (map (lag3 a b c) lcoords_H27). split; [apply H27_product|]. split; [apply map_length|].
  intros j Hj. destruct (nth_error (lcoords_H27 (K := R)) j) as [q|] eqn:Eq.
  2: { apply nth_error_None in Eq. exfalso; exact (Nat.lt_irrefl _ (Nat.lt_le_trans _ _ _ Hj Eq)). }
  rewrite (nth_error_nth _ _ _ (x := lag3 a b c q)) by (rewrite nth_error_map, Eq; reflexivity).
  destruct (H27_nodes_coords q (nth_error_In _ _ Eq)) as (a' & b' & c' & -> & Ha' & Hb' & Hc').
  unfold lag3. cbn [nth]. rewrite !lag_node by auto.
  destruct (Nat.eqb_spec j k) as [->|Hn].
  - rewrite Hp in Eq. injection Eq as -> -> ->.
    repeat (destruct Req_EM_T; [|contradiction]). lra.
  - assert (Hne : [a'; b'; c'] <> [a; b; c]).
    { intros E. apply Hn. rewrite E in Eq. apply (proj1 (NoDup_nth_error lcoords_H27) lcoords_H27_nodup); auto. congruence. }
    destruct (Req_EM_T a' a), (Req_EM_T b' b), (Req_EM_T c' c); subst; try lra. congruence.
Qed.

(** ** Reproduction of polynomials *)

Lemma reproduces_ext dim shp lcoords f g : rect dim lcoords ->
  (forall p, length p = dim -> f p = g p) -> reproduces dim shp lcoords f -> reproduces dim shp lcoords g.
Proof.
  intros Hr E H p Hp. destruct (H p Hp) as [N [H1 [H2 H3]]]. exists N. split; [auto|]. split; [auto|].
  rewrite <- E, <- H3 by auto. f_equal. apply map_ext_in. intros [n q] Hq. apply in_combine_r in Hq.
  unfold rect in Hr. rewrite Forall_forall in Hr. simpl. rewrite E; auto.
Qed.
Lemma rsum_lin {A} (f g : A -> R) a b l : rsum (map (fun x => a * f x + b * g x) l) = a * rsum (map f l) + b * rsum (map g l).
Proof. induction l as [|x l IH]; simpl; [ring|]. rewrite IH. ring. Qed.
Lemma reproduces_lin dim shp lcoords f g a b :
  reproduces dim shp lcoords f -> reproduces dim shp lcoords g -> reproduces dim shp lcoords (fun p => a * f p + b * g p).
Proof.
  intros Hf Hg p Hp. destruct (Hf p Hp) as [N [H1 [H2 H3]]]. destruct (Hg p Hp) as [N' [H1' [_ H3']]].
  rewrite H1 in H1'. injection H1' as <-. exists N. split; [auto|]. split; [auto|].
  rewrite <- H3, <- H3', <- rsum_lin. f_equal. apply map_ext. intros. ring.
Qed.

Ltac reproduce :=
  let p := fresh "p" in let H := fresh in
  intros p H; list_cases p H; eexists; split; [reflexivity|]; split; [reflexivity|];
  unfold monomial, lcoords_L2, lcoords_T3, lcoords_T6, lcoords_Q4, lcoords_Q9, lcoords_TET4, lcoords_H8;
  simplR; field.
Ltac upto2 n := destruct n as [|[|[|n]]]; [..|exfalso; lia].

Lemma poly_L2 a : (a <= 1)%nat -> reproduces 1 shp_L2 lcoords_L2 (monomial [a]).
Proof. intros H. upto2 a; try (exfalso; lia); reproduce. Qed.
Lemma poly_T3 a b : (a + b <= 1)%nat -> reproduces 2 shp_T3 lcoords_T3 (monomial [a; b]).
Proof. intros H. upto2 a; upto2 b; try (exfalso; lia); reproduce. Qed.
Lemma poly_T6 a b : (a + b <= 2)%nat -> reproduces 2 shp_T6 lcoords_T6 (monomial [a; b]).
Proof. intros H. upto2 a; upto2 b; try (exfalso; lia); reproduce. Qed.
Lemma poly_Q4 a b : (a <= 1)%nat -> (b <= 1)%nat -> reproduces 2 shp_Q4 lcoords_Q4 (monomial [a; b]).
Proof. intros H H'. upto2 a; upto2 b; try (exfalso; lia); reproduce. Qed.
Lemma poly_Q9 a b : (a <= 2)%nat -> (b <= 2)%nat -> reproduces 2 shp_Q9 lcoords_Q9 (monomial [a; b]).
Proof. intros H H'. upto2 a; upto2 b; try (exfalso; lia); reproduce. Qed.
Lemma poly_TET4 a b c : (a + b + c <= 1)%nat -> reproduces 3 shp_TET4 lcoords_TET4 (monomial [a; b; c]).
Proof. intros H. upto2 a; upto2 b; upto2 c; try (exfalso; lia); reproduce. Qed.
Lemma poly_H8 a b c : (a <= 1)%nat -> (b <= 1)%nat -> (c <= 1)%nat -> reproduces 3 shp_H8 lcoords_H8 (monomial [a; b; c]).
Proof. intros H H' H''. upto2 a; upto2 b; upto2 c; try (exfalso; lia); reproduce. Qed.

Lemma lag_sum a x : (a <= 2)%nat -> lag (-1) x * (-1) ^ a + lag 0 x * 0 ^ a + lag 1 x * 1 ^ a = x ^ a.
Proof. intros H. upto2 a; unfold lag; simpl; field. Qed.
Lemma poly_H27 a b c : (a <= 2)%nat -> (b <= 2)%nat -> (c <= 2)%nat ->
  reproduces 3 shp_H27 lcoords_H27 (monomial [a; b; c]).
Proof.
  intros Ha Hb Hc p Hp. list_cases p Hp. rename r into x, r0 into y, r1 into z.
  exists (map (lag3 x y z) lcoords_H27). split; [apply H27_product|]. split; [apply map_length|].
  transitivity ((lag (-1) x * (-1) ^ a + lag 0 x * 0 ^ a + lag 1 x * 1 ^ a)
    * (lag (-1) y * (-1) ^ b + lag 0 y * 0 ^ b + lag 1 y * 1 ^ b)
    * (lag (-1) z * (-1) ^ c + lag 0 z * 0 ^ c + lag 1 z * 1 ^ c)).
  2: { rewrite !lag_sum by auto. unfold monomial. simpl. ring. }
  unfold monomial, lcoords_H27, lag3. cbn [kofZ NumR map combine fst snd rsum fold_right nth].
  generalize (lag (-1) x) (lag 0 x) (lag 1 x) (lag (-1) y) (lag 0 y) (lag 1 y) (lag (-1) z) (lag 0 z) (lag 1 z).
  generalize ((-1) ^ a) (0 ^ a) (1 ^ a) ((-1) ^ b) (0 ^ b) (1 ^ b) ((-1) ^ c) (0 ^ c) (1 ^ c).
  intros. ring.
Qed.

Lemma affine_1 shp lcoords : rect 1 lcoords ->
  (forall a, (a <= 1)%nat -> reproduces 1 shp lcoords (monomial [a])) ->
  forall a0 a, length a = 1%nat -> reproduces 1 shp lcoords (affine a0 a).
Proof.
  intros Hr H a0 a Ha. list_cases a Ha.
  apply (reproduces_ext 1 shp lcoords (fun p => a0 * monomial [O] p + r * monomial [1%nat] p)); auto.
  - intros p Hp. list_cases p Hp. unfold affine, monomial. simpl. ring.
  - apply reproduces_lin; apply H; lia.
Qed.
Lemma affine_2 shp lcoords : rect 2 lcoords ->
  (forall a b, (a + b <= 1)%nat -> reproduces 2 shp lcoords (monomial [a; b])) ->
  forall a0 a, length a = 2%nat -> reproduces 2 shp lcoords (affine a0 a).
Proof.
  intros Hr H a0 a Ha. list_cases a Ha.
  apply (reproduces_ext 2 shp lcoords
    (fun p => 1 * (a0 * monomial [0;0]%nat p + r * monomial [1;0]%nat p) + r0 * monomial [0;1]%nat p)); auto.
  - intros p Hp. list_cases p Hp. unfold affine, monomial. simpl. ring.
  - apply reproduces_lin; [apply reproduces_lin|]; apply H; lia.
Qed.
Lemma affine_3 shp lcoords : rect 3 lcoords ->
  (forall a b c, (a + b + c <= 1)%nat -> reproduces 3 shp lcoords (monomial [a; b; c])) ->
  forall a0 a, length a = 3%nat -> reproduces 3 shp lcoords (affine a0 a).
Proof.
  intros Hr H a0 a Ha. list_cases a Ha.
  apply (reproduces_ext 3 shp lcoords
    (fun p => 1 * (1 * (a0 * monomial [0;0;0]%nat p + r * monomial [1;0;0]%nat p) + r0 * monomial [0;1;0]%nat p)
              + r1 * monomial [0;0;1]%nat p)); auto.
  - intros p Hp. list_cases p Hp. unfold affine, monomial. simpl. ring.
  - apply reproduces_lin; [apply reproduces_lin; [apply reproduces_lin|]|]; apply H; lia.
Qed.
Lemma lin_L2 a0 a : length a = 1%nat -> reproduces 1 shp_L2 lcoords_L2 (affine a0 a).
Proof. apply affine_1; [repeat constructor|]. apply poly_L2. Qed.
Lemma lin_T3 a0 a : length a = 2%nat -> reproduces 2 shp_T3 lcoords_T3 (affine a0 a).
Proof. apply affine_2; [repeat constructor|]. intros; apply poly_T3; lia. Qed.
Lemma lin_T6 a0 a : length a = 2%nat -> reproduces 2 shp_T6 lcoords_T6 (affine a0 a).
Proof. apply affine_2; [repeat constructor|]. intros; apply poly_T6; lia. Qed.
Lemma lin_Q4 a0 a : length a = 2%nat -> reproduces 2 shp_Q4 lcoords_Q4 (affine a0 a).
Proof. apply affine_2; [repeat constructor|]. intros; apply poly_Q4; lia. Qed.
Lemma lin_Q9 a0 a : length a = 2%nat -> reproduces 2 shp_Q9 lcoords_Q9 (affine a0 a).
Proof. apply affine_2; [repeat constructor|]. intros; apply poly_Q9; lia. Qed.
Lemma lin_TET4 a0 a : length a = 3%nat -> reproduces 3 shp_TET4 lcoords_TET4 (affine a0 a).
Proof. apply affine_3; [repeat constructor|]. intros; apply poly_TET4; lia. Qed.
Lemma lin_H8 a0 a : length a = 3%nat -> reproduces 3 shp_H8 lcoords_H8 (affine a0 a).
Proof. apply affine_3; [repeat constructor|]. intros; apply poly_H8; lia. Qed.
Lemma lin_H27 a0 a : length a = 3%nat -> reproduces 3 shp_H27 lcoords_H27 (affine a0 a).
Proof. apply affine_3; [repeat constructor|]. intros; apply poly_H27; lia. Qed.

Lemma unity dim shp lcoords : (forall a, length a = dim -> reproduces dim shp lcoords (affine 1 a)) ->
  forall p, length p = dim -> exists N, shp p = Ok N /\ length N = length lcoords /\ rsum N = 1.
Proof.
  intros H p Hp. destruct (H (repeat 0 dim) (repeat_length _ _) p Hp) as [N [H1 [H2 H3]]].
  exists N. split; [auto|]. split; [auto|].
  assert (E : forall q n, affine 1 (repeat 0 n) q = 1).
  { intros q n. unfold affine. assert (Z : forall n q, rsum (map (fun ax => fst ax * snd ax) (combine (repeat 0 n) q)) = 0).
    { clear. induction n; intros [|x q]; simpl; auto. rewrite IHn. ring. }
    rewrite Z. ring. }
  rewrite E in H3. rewrite <- H3. clear - H2 E. revert lcoords H2. induction N as [|x N IH]; intros [|q l] H2; try discriminate; auto.
  simpl. rewrite E. injection H2 as H2. rewrite (IH l H2). ring.
Qed.

(** ** Derivatives *)

(** a function of degree two: its difference quotient is linear *)
Lemma quadratic_derivative f x d :
  (forall h, f (x + h) - f x = h * d + h * h * (f (x + 1) - f x - d)) -> derivable_pt_lim f x d.
Proof.
  intros H eps He. set (e := f (x + 1) - f x - d) in *.
  assert (Hp : 0 < eps / (Rabs e + 1)).
  { apply Rdiv_lt_0_compat; auto. pose proof (Rabs_pos e). lra. }
  exists (mkposreal _ Hp). intros h Hh Hlt. rewrite H. simpl in Hlt.
  replace ((h * d + h * h * e) / h - d) with (h * e) by (field; auto).
  rewrite Rabs_mult. pose proof (Rabs_pos e) as He0. pose proof (Rabs_pos h).
  apply Rle_lt_trans with (Rabs h * (Rabs e + 1)); [apply Rmult_le_compat_l; lra|].
  apply Rmult_lt_reg_r with (/ (Rabs e + 1)); [apply Rinv_0_lt_compat; lra|].
  rewrite Rmult_assoc, Rinv_r by lra. rewrite Rmult_1_r. exact Hlt.
Qed.

Ltac differentiate :=
  let p := fresh "p" in let H := fresh in
  intros p H; list_cases p H; eexists; split; [reflexivity|]; split; [reflexivity|]; split; [once (repeat constructor)|];
  let j := fresh "j" in let d := fresh "d" in let Hj := fresh in let Hd := fresh in
  intros j d Hj Hd; apply quadratic_derivative; intros h; unfold along, replace_nth, shp_L2, shp_T3, shp_T6, shp_Q4, shp_Q9, shp_TET4, shp_H8, shp_H27;
  repeat (first [exfalso; lia | destruct d as [|d]; [
    cbn [firstn skipn app nth];
    repeat (first [exfalso; lia | destruct j as [|j]; [cbn [nth map]; numR; field|]])|]]).
Lemma diff_L2 : differentiates 1 2 shp_L2 dshp_L2.
Proof. differentiate. Qed.
Lemma diff_T3 : differentiates 2 3 shp_T3 dshp_T3.
Proof. differentiate. Qed.
Lemma diff_T6 : differentiates 2 6 shp_T6 dshp_T6.
Proof. differentiate. Qed.
Lemma diff_Q4 : differentiates 2 4 shp_Q4 dshp_Q4.
Proof. differentiate. Qed.
Lemma diff_Q9 : differentiates 2 9 shp_Q9 dshp_Q9.
Proof. differentiate. Qed.
Lemma diff_TET4 : differentiates 3 4 shp_TET4 dshp_TET4.
Proof. differentiate. Qed.
Lemma diff_H8 : differentiates 3 8 shp_H8 dshp_H8.
Proof. differentiate. Qed.
Lemma diff_H27 : differentiates 3 27 shp_H27 dshp_H27.
Proof. differentiate. Qed.
