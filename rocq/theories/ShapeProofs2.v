(** * Proofs about [CellsModel.v], part 2: sums of derivatives, shape function matrices *)
From Coq Require Import Reals Lra.
From Verif Require Export ShapeProofs.
Local Open Scope R_scope.

Ltac cancel :=
  let p := fresh "p" in let H := fresh in
  intros p H; list_cases p H; eexists; split; [reflexivity|];
  let d := fresh "d" in let Hd := fresh in intros d Hd;
  repeat (first [exfalso; lia | destruct d as [|d]; [cbn [map nth rsum fold_right]; numR; field|]]).
Lemma cancel_L2 : derivatives_cancel 1 dshp_L2.
Proof. cancel. Qed.
Lemma cancel_T3 : derivatives_cancel 2 dshp_T3.
Proof. cancel. Qed.
Lemma cancel_T6 : derivatives_cancel 2 dshp_T6.
Proof. cancel. Qed.
Lemma cancel_Q4 : derivatives_cancel 2 dshp_Q4.
Proof. cancel. Qed.
Lemma cancel_Q9 : derivatives_cancel 2 dshp_Q9.
Proof. cancel. Qed.
Lemma cancel_TET4 : derivatives_cancel 3 dshp_TET4.
Proof. cancel. Qed.
Lemma cancel_H8 : derivatives_cancel 3 dshp_H8.
Proof. cancel. Qed.
Lemma cancel_H27 : derivatives_cancel 3 dshp_H27.
Proof. cancel. Qed.

(** ** Shape function matrices *)

Definition unit_row (ndof a : nat) (x : R) : list R := map (fun b => if Nat.eqb a b then 1 * x else 0 * x) (seq 0 ndof).
Definition matrix_row (ndof a : nat) (N : list R) : list R := flat_map (unit_row ndof a) N.
Lemma unit_row_length ndof a x : length (unit_row ndof a x) = ndof.
Proof. unfold unit_row. rewrite map_length, seq_length. auto. Qed.
Lemma matrix_row_length ndof a N : length (matrix_row ndof a N) = (ndof * length N)%nat.
Proof. induction N as [|x N IH]; simpl; [lia|]. rewrite app_length, unit_row_length. change (flat_map (unit_row ndof a) N) with (matrix_row ndof a N). rewrite IH. lia. Qed.
Lemma combine_map_map {A B C} (f : A -> B) (g : A -> C) l : combine (map f l) (map g l) = map (fun x => (f x, g x)) l.
Proof. induction l; simpl; f_equal; auto. Qed.
Lemma mapM_map_compose {A B C} (f : B -> res C) (g : A -> B) l : mapM f (map g l) = mapM (fun x => f (g x)) l.
Proof. induction l as [|x l IH]; simpl; [auto|]. rewrite IH. reflexivity. Qed.
Lemma skipn_repeat {A} (x : A) n k : skipn k (repeat x n) = repeat x (n - k).
Proof. revert k. induction n; intros [|k]; simpl; auto. Qed.

Lemma matrix_value n ndof shp p N : shp p = Ok N -> length N = n ->
  shape_function_matrix_ n ndof shp p ndof = Ok (map (fun a => matrix_row ndof a N) (seq 0 ndof)).
Proof.
  intros HN Hl. unfold shape_function_matrix_. rewrite HN. cbn [bind]. subst n.
  set (state i := map (fun a => matrix_row ndof a (firstn i N) ++ repeat 0 (ndof * (length N - i))) (seq 0 ndof)).
  assert (H0 : zeros2 (kofZ (K := R) 0) ndof (ndof * length N) = state 0%nat).
  { unfold state, zeros2, zeros. simpl. rewrite Nat.sub_0_r.
    transitivity (map (fun _ : nat => repeat 0 (ndof * length N)) (seq 0 ndof)); [|reflexivity].
    generalize (repeat 0 (ndof * length N)). intros l. clear. generalize 0%nat. induction ndof; intros s; simpl; f_equal; auto. }
  rewrite H0.
  assert (Hstep : forall i, (i < length N)%nat ->
    (do x <- get N i; set_columns (state i) (i * ndof) ndof (eye_times ndof x)) = Ok (state (S i))).
  { intros i Hi. destruct (nth_error N i) as [x|] eqn:Ex. 2: { apply nth_error_None in Ex. lia. }
    assert (E : firstn (S i) N = firstn i N ++ [x]).
    { clear - Ex. revert N Ex. induction i; intros [|y N] Ex; try discriminate; simpl in *.
      - injection Ex as ->. reflexivity.
      - rewrite <- (IHi N Ex). reflexivity. }
    unfold get. rewrite Ex. cbn [bind]. unfold set_columns, eye_times, state. rewrite E.
    rewrite !map_length, !seq_length, Nat.eqb_refl. cbn [guard bind].
    rewrite combine_map_map.
    rewrite mapM_map_compose.
    apply mapM_map. intros a Ha. cbn [fst snd]. rewrite map_length, seq_length, Nat.eqb_refl. cbn [guard bind].
    f_equal. assert (Hlen : length (matrix_row ndof a (firstn i N)) = (i * ndof)%nat).
    { rewrite matrix_row_length, firstn_length. rewrite Nat.min_l by lia. lia. }
    rewrite firstn_app, <- Hlen, Nat.sub_diag, firstn_all. simpl firstn. rewrite app_nil_r.
    rewrite skipn_app. rewrite skipn_all2 by lia. simpl app at 2.
    replace (length (matrix_row ndof a (firstn i N)) + ndof - length (matrix_row ndof a (firstn i N)))%nat with ndof by lia.
    rewrite skipn_repeat.
    replace (ndof * (length N - i) - ndof)%nat with (ndof * (length N - S i))%nat by nia.
    rewrite app_assoc. f_equal.
    unfold matrix_row. rewrite flat_map_app. simpl. rewrite app_nil_r. reflexivity. }
  assert (Hall : forall k, (k <= length N)%nat ->
    foldM (fun res i => do x <- get N i; set_columns res (i * ndof) ndof (eye_times ndof x)) (seq 0 k) (state 0%nat) = Ok (state k)).
  { induction k; intros Hk; [reflexivity|]. rewrite seq_S, foldM_app, IHk by lia. cbn [bind foldM]. simpl plus.
    rewrite Hstep by lia. reflexivity. }
  rewrite Hall by lia. f_equal. unfold state. apply map_ext. intros a. rewrite firstn_all, Nat.sub_diag, Nat.mul_0_r. simpl. apply app_nil_r.
Qed.

Lemma unit_row_dot ndof a x v : length v = ndof -> (a < ndof)%nat ->
  rsum (map (fun mx => fst mx * snd mx) (combine (unit_row ndof a x) v)) = x * nth a v 0.
Proof.
  intros Hl Ha. unfold unit_row.
  assert (H : forall s v, rsum (map (fun mx => fst mx * snd mx)
     (combine (map (fun b => if Nat.eqb a b then 1 * x else 0 * x) (seq s (length v))) v))
     = if (s <=? a)%nat then x * nth (a - s) v 0 else 0).
  { clear. intros s v. revert s. induction v as [|y v IH]; intros s.
    - simpl. destruct (s <=? a)%nat; [destruct (a - s)%nat; simpl|]; ring.
    - cbn [length seq map combine rsum fold_right fst snd]. change (fold_right Rplus 0) with rsum in *.
      unfold rsum in IH. unfold rsum. rewrite IH.
      destruct (Nat.eqb_spec a s) as [->|Hn].
      + rewrite Nat.leb_refl, Nat.sub_diag. rewrite (proj2 (Nat.leb_gt (S s) s)) by lia. simpl. ring.
      + destruct (Nat.leb_spec (S s) a).
        * rewrite (proj2 (Nat.leb_le s a)) by lia. replace (a - s)%nat with (S (a - S s)) by lia. simpl. ring.
        * rewrite (proj2 (Nat.leb_gt s a)) by lia. ring. }
  specialize (H 0%nat v). rewrite Hl in H. rewrite H. simpl. rewrite Nat.sub_0_r. reflexivity.
Qed.
Lemma rsum_app a b : rsum (a ++ b) = rsum a + rsum b.
Proof. unfold rsum. induction a; simpl; [ring|]. rewrite IHa. ring. Qed.
Lemma combine_app {A B} (a a' : list A) (b b' : list B) : length a = length b -> combine (a ++ a') (b ++ b') = combine a b ++ combine a' b'.
Proof. revert b. induction a; intros [|y b] H; try discriminate; simpl; auto. f_equal. auto. Qed.

Lemma matrix_interpolates dim n ndof shp : (forall p, length p = dim -> exists N, shp p = Ok N /\ length N = n) ->
  interpolates_vectors dim n ndof shp (fun p nd => shape_function_matrix_ n nd shp p nd).
Proof.
  intros H p Hp. destruct (H p Hp) as [N [HN Hl]].
  exists N. eexists. split; [exact HN|]. split; [apply (matrix_value n ndof shp p N HN Hl)|].
  split; [rewrite map_length, seq_length; auto|]. split.
  - unfold rect. rewrite Forall_forall. intros r Hr. apply in_map_iff in Hr. destruct Hr as [a [<- _]].
    rewrite matrix_row_length, Hl. auto.
  - intros u a Hu Hr Ha.
    rewrite (nth_indep _ [] (matrix_row ndof 0 N)) by (rewrite map_length, seq_length; lia).
    rewrite (map_nth (fun a => matrix_row ndof a N)). rewrite seq_nth by lia. simpl plus.
    clear HN H. subst n. revert u Hu Hr. induction N as [|x N IH]; intros [|v u] Hu Hr; try discriminate; [reflexivity|].
    injection Hu as Hu. inversion Hr; subst. cbn [matrix_row flat_map concat combine map].
    rewrite combine_app by (rewrite unit_row_length; auto). rewrite map_app, rsum_app, unit_row_dot by auto.
    change (flat_map (unit_row (length v) a) N) with (matrix_row (length v) a N). rewrite (IH u) by (unfold rect; auto). reflexivity.
Qed.

Ltac shape_count := let p := fresh in let H := fresh in intros p H; list_cases p H; eexists; split; reflexivity.
Lemma matrix_L2 ndof : interpolates_vectors 1 2 ndof shp_L2 shape_function_matrix_L2.
Proof. apply (matrix_interpolates 1 2 ndof shp_L2). shape_count. Qed.
Lemma matrix_T3 ndof : interpolates_vectors 2 3 ndof shp_T3 shape_function_matrix_T3.
Proof. apply (matrix_interpolates 2 3 ndof shp_T3). shape_count. Qed.
Lemma matrix_T6 ndof : interpolates_vectors 2 6 ndof shp_T6 shape_function_matrix_T6.
Proof. apply (matrix_interpolates 2 6 ndof shp_T6). shape_count. Qed.
Lemma matrix_Q4 ndof : interpolates_vectors 2 4 ndof shp_Q4 shape_function_matrix_Q4.
Proof. apply (matrix_interpolates 2 4 ndof shp_Q4). shape_count. Qed.
Lemma matrix_Q9 ndof : interpolates_vectors 2 9 ndof shp_Q9 shape_function_matrix_Q9.
Proof. apply (matrix_interpolates 2 9 ndof shp_Q9). shape_count. Qed.
Lemma matrix_TET4 ndof : interpolates_vectors 3 4 ndof shp_TET4 shape_function_matrix_TET4.
Proof. apply (matrix_interpolates 3 4 ndof shp_TET4). shape_count. Qed.
Lemma matrix_H27 ndof : interpolates_vectors 3 27 ndof shp_H27 shape_function_matrix_H27.
Proof. apply (matrix_interpolates 3 27 ndof shp_H27). shape_count. Qed.
Lemma matrix_H8 : interpolates_vectors 3 8 3 shp_H8 shape_function_matrix_H8.
Proof. apply (matrix_interpolates 3 8 3 shp_H8). shape_count. Qed.
(** every other number of unknowns per node fails *)
Lemma matrix_H8_fails p ndof : length p = 3%nat -> ndof <> 3%nat -> shape_function_matrix_H8 (K := R) p ndof = Err ValueError.
Proof.
  intros Hp Hn.
  assert (H : exists x N, shp_H8 p = Ok (x :: N)) by (list_cases p Hp; do 2 eexists; reflexivity).
  destruct H as [x [N HN]].
  unfold shape_function_matrix_H8, shape_function_matrix_. rewrite HN. cbn [bind].
  change (seq 0 8) with (0 :: seq 1 7)%nat. cbn [foldM get nth_error bind].
  assert (E : forall a, length a = ndof -> set_columns a (0 * ndof) ndof (eye_times 3 x) = Err ValueError).
  { intros a Ha. unfold set_columns, eye_times. rewrite map_length, seq_length, Ha.
    destruct (Nat.eqb_spec ndof 3); [contradiction|]. reflexivity. }
  rewrite E; [reflexivity|]. unfold zeros2. apply repeat_length.
Qed.
