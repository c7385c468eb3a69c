(** * Proofs about [CellsModel.v], part 3: generated shape functions *)
From Coq Require Import Reals Lra.
From Verif Require Export ShapeProofs2.
Local Open Scope R_scope.

(** ** Finite sums *)
Definition sumn (n : nat) (f : nat -> R) : R := rsum (map f (seq 0 n)).
Lemma sumn_ext n f g : (forall i, (i < n)%nat -> f i = g i) -> sumn n f = sumn n g.
Proof. intros H. unfold sumn. f_equal. apply map_ext_in. intros i Hi. apply in_seq in Hi. apply H. lia. Qed.
Lemma sumn_S n f : sumn (S n) f = sumn n f + f n.
Proof. unfold sumn. rewrite seq_S, map_app, rsum_app. simpl. ring. Qed.
Lemma sumn_scale n f a : sumn n (fun i => a * f i) = a * sumn n f.
Proof. induction n; [unfold sumn; simpl; ring|]. rewrite !sumn_S, IHn. ring. Qed.
Lemma sumn_add n f g : sumn n (fun i => f i + g i) = sumn n f + sumn n g.
Proof. induction n; [unfold sumn; simpl; ring|]. rewrite !sumn_S, IHn. ring. Qed.
Lemma sumn_swap n m f : sumn n (fun i => sumn m (fun j => f i j)) = sumn m (fun j => sumn n (fun i => f i j)).
Proof.
  induction n.
  - unfold sumn at 1. simpl. induction m; [reflexivity|]. rewrite sumn_S, <- IHm. unfold sumn. simpl. ring.
  - rewrite sumn_S, IHn, <- sumn_add. apply sumn_ext. intros j _. rewrite sumn_S. reflexivity.
Qed.
Lemma sumn_delta n k f : (k < n)%nat -> sumn n (fun i => f i * (if Nat.eqb i k then 1 else 0)) = f k.
Proof.
  intros H. assert (Z : forall m, (m <= k)%nat -> sumn m (fun i => f i * (if Nat.eqb i k then 1 else 0)) = 0).
  { induction m; intros Hm; [reflexivity|]. rewrite sumn_S, IHm by lia.
    destruct (Nat.eqb_spec m k); [lia|]. ring. }
  induction n; [lia|]. rewrite sumn_S. destruct (Nat.eqb_spec n k) as [->|Hn].
  - rewrite Z by lia. ring.
  - rewrite IHn by lia. ring.
Qed.
Lemma dot_sumn n a b : length a = n -> length b = n -> dot a b = sumn n (fun i => nth i a 0 * nth i b 0).
Proof.
  revert a b. induction n; intros a b Ha Hb.
  - destruct a, b; try discriminate. reflexivity.
  - destruct a as [|x a], b as [|y b]; try discriminate. injection Ha as Ha. injection Hb as Hb.
    unfold dot in *. simpl. rewrite (IHn a b Ha Hb). unfold sumn. simpl. rewrite <- seq_shift, map_map. reflexivity.
Qed.
Lemma ksum_rsum (l : list R) : ksum l = rsum l.
Proof.
  unfold ksum. cbn [kofZ kadd NumR].
  assert (H : forall l a, fold_left Rplus l a = a + rsum l).
  { clear. induction l; intros x; simpl; [ring|]. rewrite IHl. unfold rsum. simpl. ring. }
  rewrite H. ring.
Qed.
Lemma map2_combine {A B C} (f : A -> B -> C) a b : length a = length b ->
  map2 f a b = Ok (map (fun xy => f (fst xy) (snd xy)) (combine a b)).
Proof. revert b. induction a; intros [|y b] H; try discriminate; cbn [map2]; auto. injection H as H. rewrite (IHa b H). reflexivity. Qed.
Lemma vdot_dot a b : length a = length b -> vdot (K := R) a b = Ok (dot a b).
Proof. intros H. unfold vdot. rewrite map2_combine by auto. cbn [bind]. rewrite ksum_rsum. reflexivity. Qed.

(** ** Monomials *)
Lemma kpow_pow (x : R) n : kpow x n = x ^ n.
Proof.
  induction n as [|n IH]; [reflexivity|]. destruct n as [|n]; [simpl; ring|].
  change (kpow x (S (S n))) with (x * kpow x (S n)). rewrite IH. reflexivity.
Qed.
Lemma meval_monomial e p : meval (K := R) e p = monomial e p.
Proof.
  unfold meval, monomial. cbn [kofZ NumR].
  assert (H : forall l a, fold_left (kmul (K := R)) l a = a * fold_right Rmult 1 l).
  { clear. induction l; intros x; simpl; [ring|]. rewrite IHl. cbn [kmul NumR]. ring. }
  rewrite H, Rmult_1_l. f_equal. apply map_ext. intros. apply kpow_pow.
Qed.
Lemma monomial_app e e' p p' : length e = length p -> monomial (e ++ e') (p ++ p') = monomial e p * monomial e' p'.
Proof.
  intros H. unfold monomial. rewrite combine_app by auto. rewrite map_app.
  generalize (map (fun ex => snd ex ^ fst ex) (combine e p)) as l. induction l; simpl; [ring|]. rewrite IHl. ring.
Qed.
Lemma split_nth {A} d (l : list A) z : (d < length l)%nat -> l = firstn d l ++ nth d l z :: skipn (S d) l.
Proof. revert d. induction l; intros [|d] H; simpl in *; try lia; auto. f_equal. apply IHl. lia. Qed.
Lemma monomial_replace e p d x : length e = length p -> (d < length p)%nat ->
  monomial e (replace_nth d x p) = x ^ (nth d e 0%nat) * (monomial (firstn d e) (firstn d p) * monomial (skipn (S d) e) (skipn (S d) p)).
Proof.
  intros Hl Hd. unfold replace_nth. rewrite (split_nth d e 0%nat) at 1 by lia.
  rewrite monomial_app by (rewrite !firstn_length; lia).
  change (nth d e 0%nat :: skipn (S d) e) with ([nth d e 0%nat] ++ skipn (S d) e).
  change (x :: skipn (S d) p) with ([x] ++ skipn (S d) p).
  rewrite (monomial_app [_] _ [_]) by reflexivity. unfold monomial at 2. simpl. ring.
Qed.
Lemma replace_same d (p : list R) : (d < length p)%nat -> replace_nth d (nth d p 0) p = p.
Proof. intros H. unfold replace_nth. symmetry. apply split_nth. auto. Qed.
Lemma monomial_derivative e p d : length e = length p -> (d < length p)%nat ->
  derivable_pt_lim (fun x => monomial e (replace_nth d x p)) (nth d p 0) (mdiff e d p).
Proof.
  intros Hl Hd. set (B := monomial (firstn d e) (firstn d p) * monomial (skipn (S d) e) (skipn (S d) p)).
  assert (E : mdiff (K := R) e d p = INR (nth d e 0%nat) * nth d p 0 ^ pred (nth d e 0%nat) * B).
  { unfold mdiff. destruct (nth d e 0%nat) as [|k] eqn:Ek; [simpl; ring|].
    rewrite meval_monomial. cbn [kofZ kmul NumR pred].
    rewrite <- INR_IZR_INZ.
    rewrite <- (replace_same d p Hd) at 1. unfold replace_nth. rewrite monomial_app by (rewrite !firstn_length; lia).
    change (k :: skipn (S d) e) with ([k] ++ skipn (S d) e).
    change (nth d p 0 :: skipn (S d) p) with ([nth d p 0] ++ skipn (S d) p).
    rewrite (monomial_app [_] _ [_]) by reflexivity. unfold monomial at 2. cbn [combine map fst snd fold_right]. unfold B. ring. }
  rewrite E. clear E.
  intros eps He. destruct (derivable_pt_lim_scal (fun x => x ^ nth d e 0%nat) B (nth d p 0) _ (derivable_pt_lim_pow (nth d p 0) (nth d e 0%nat)) eps He) as [del Hdel].
  exists del. intros h Hh Hlt. specialize (Hdel h Hh Hlt). unfold mult_real_fct in Hdel.
  rewrite !(monomial_replace e p d) by auto. fold B.
  replace (INR (nth d e 0%nat) * nth d p 0 ^ Init.Nat.pred (nth d e 0%nat) * B)
    with (B * (INR (nth d e 0%nat) * nth d p 0 ^ Init.Nat.pred (nth d e 0%nat))) by ring.
  rewrite !(Rmult_comm _ B). exact Hdel.
Qed.

(** ** The generated functions *)
Definition column (C : list (list R)) (j : nat) : list R := map (fun row => nth j row 0) C.
Lemma get_column C n j : rect n C -> (j < n)%nat -> mapM (fun row => get row j) C = Ok (column C j).
Proof.
  intros Hr Hj. apply mapM_map. intros row Hrow. unfold rect in Hr. rewrite Forall_forall in Hr. specialize (Hr row Hrow).
  unfold get. rewrite (nth_error_nth' row 0) by lia. reflexivity.
Qed.
Lemma gen_shp_value C monoms n p : length C = n -> rect n C -> length monoms = n ->
  gen_shp C monoms p = Ok (map (fun j => dot (column C j) (map (fun m => meval m p) monoms)) (seq 0 n)).
Proof.
  intros HC Hr Hm. unfold gen_shp. rewrite Hm. apply mapM_map. intros j Hj. apply in_seq in Hj.
  rewrite (get_column C n j) by (auto; lia). cbn [bind]. apply vdot_dot. unfold column. rewrite !map_length. lia.
Qed.
Lemma gen_dshp_value nD C monoms n p : length C = n -> rect n C -> length monoms = n ->
  gen_dshp nD C monoms p =
  Ok (map (fun j => map (fun d => dot (column C j) (map (fun m => mdiff m d p) monoms)) (seq 0 nD)) (seq 0 n)).
Proof.
  intros HC Hr Hm. unfold gen_dshp. rewrite Hm. apply mapM_map. intros j Hj. apply in_seq in Hj.
  rewrite (get_column C n j) by (auto; lia). cbn [bind]. apply mapM_map. intros d Hd.
  apply vdot_dot. unfold column. rewrite !map_length. lia.
Qed.

Lemma nth_map_seq (f : nat -> R) n j : (j < n)%nat -> nth j (map f (seq 0 n)) 0 = f j.
Proof.
  intros H. rewrite (nth_indep _ 0 (f 0%nat)) by (rewrite map_length, seq_length; auto).
  rewrite map_nth, seq_nth by auto. reflexivity.
Qed.

(** derivatives, whatever the coefficients are *)
Lemma gen_differentiates dim n C monoms : length C = n -> rect n C -> length monoms = n -> rect dim monoms ->
  differentiates dim n (gen_shp C monoms) (gen_dshp dim C monoms).
Proof.
  intros HC Hr Hm Hrm p Hp. eexists. split; [apply (gen_dshp_value dim C monoms n p HC Hr Hm)|].
  split; [rewrite map_length, seq_length; auto|]. split.
  - unfold rect. rewrite Forall_forall. intros r Hin. apply in_map_iff in Hin. destruct Hin as [j [<- _]].
    rewrite map_length, seq_length. auto.
  - intros j d Hj Hd.
    rewrite (nth_indep _ [] (map (fun d => dot (column C 0) (map (fun m => mdiff m d p) monoms)) (seq 0 dim)))
      by (rewrite map_length, seq_length; auto).
    rewrite (map_nth (fun j => map (fun d => dot (column C j) (map (fun m => mdiff m d p) monoms)) (seq 0 dim))).
    rewrite seq_nth by auto. rewrite nth_map_seq by auto. simpl plus.
    assert (E : forall x, along (gen_shp C monoms) p d j x = dot (column C j) (map (fun m => monomial m (replace_nth d x p)) monoms)).
    { intros x. unfold along. rewrite (gen_shp_value C monoms n _ HC Hr Hm). rewrite nth_map_seq by auto.
      f_equal. apply map_ext. intros. apply meval_monomial. }
    assert (G : derivable_pt_lim (fun x => dot (column C j) (map (fun m => monomial m (replace_nth d x p)) monoms))
                (nth d p 0) (dot (column C j) (map (fun m => mdiff m d p) monoms))).
    { assert (Hlc : length (column C j) = length monoms) by (unfold column; rewrite map_length; lia).
      revert Hlc. generalize (column C j) as c. clear E Hm. induction monoms as [|m monoms IH]; intros [|x c] Hlc; try discriminate.
      - unfold dot. simpl. apply derivable_pt_lim_const.
      - injection Hlc as Hlc. inversion Hrm; subst. 
        apply (derivable_pt_lim_plus (fun y => x * monomial m (replace_nth d y p))
           (fun y => dot c (map (fun m => monomial m (replace_nth d y p)) monoms))).
        + apply (derivable_pt_lim_scal (fun y => monomial m (replace_nth d y p)) x).
          apply monomial_derivative; auto; lia.
        + apply IH; auto. }
    intros eps He. destruct (G eps He) as [del Hdel]. exists del. intros h Hh Hlt. rewrite !E. apply (Hdel h Hh Hlt).
Qed.

(** functions that reproduce the monomials are the ones generated from an inverse *)
Lemma gen_matrix_value n dim (lcoords : list (list R)) monoms : length monoms = n -> length lcoords = n ->
  rect dim lcoords -> hd [] monoms = repeat 0%nat dim -> (0 < n)%nat ->
  gen_matrix n lcoords monoms = Ok (map (fun q => map (fun m => meval m q) monoms) lcoords).
Proof.
  intros Hm Hl Hr H0 Hn. unfold gen_matrix. rewrite Hm, Hl, Nat.eqb_refl. cbn [andb guard bind]. f_equal.
  apply map_ext_in. intros q Hq. destruct monoms as [|m0 ms]; [simpl in Hm; lia|]. simpl in *. f_equal.
  unfold rect in Hr. rewrite Forall_forall in Hr. specialize (Hr q Hq). subst dim m0.
  rewrite meval_monomial. unfold monomial. clear. induction q; simpl; auto. rewrite <- IHq. cbn [kofZ NumR]. ring.
Qed.
Lemma gen_is_shape n dim lcoords monoms (shape : list R -> list R) M C :
  length monoms = n -> length lcoords = n -> rect dim lcoords -> hd [] monoms = repeat 0%nat dim -> (0 < n)%nat ->
  (forall m, In m monoms -> reproduces dim (fun p => Ok (shape p)) lcoords (monomial m)) ->
  gen_matrix n lcoords monoms = Ok M -> right_inverse n M C ->
  forall p, length p = dim -> gen_shp C monoms p = Ok (shape p).
Proof.
  intros Hm Hl Hr H0 Hn Hrep HM [HC [HrC Hinv]] p Hp.
  rewrite (gen_matrix_value n dim) in HM by auto. injection HM as <-.
  assert (Hs : length (shape p) = n).
  { destruct monoms as [|m0 ms]; [simpl in Hm; lia|]. destruct (Hrep m0 (or_introl eq_refl) p Hp) as [N [E [HN _]]].
    injection E as <-. lia. }
  rewrite (gen_shp_value C monoms n p HC HrC Hm). f_equal.
  apply nth_ext with (d := 0) (d' := 0); [rewrite map_length, seq_length; auto|].
  rewrite map_length, seq_length. intros j Hj. rewrite nth_map_seq by auto.
  assert (Hcol : length (column C j) = n) by (unfold column; rewrite map_length; auto).
  rewrite (dot_sumn n) by (auto; rewrite map_length; auto).
  transitivity (sumn n (fun k => nth k (column C j) 0 * sumn n (fun i => nth i (shape p) 0 * monomial (nth k monoms []) (nth i lcoords [])))).
  { apply sumn_ext. intros k Hk. f_equal.
    destruct (Hrep (nth k monoms []) ltac:(apply nth_In; lia) p Hp) as [N [E [HN Hsum]]]. injection E as <-.
    rewrite (nth_indep _ 0 (meval [] p)) by (rewrite map_length; lia).
    rewrite (map_nth (fun m => meval m p)), meval_monomial, <- Hsum.
    generalize (nth k monoms []) as m. intros m. rewrite Hl in HN. clear - HN Hl.
    revert lcoords HN Hl. generalize (shape p) as N. induction n; intros N lcoords HN Hl.
    - destruct N; [|discriminate]. reflexivity.
    - destruct N as [|x N], lcoords as [|q l]; try discriminate. injection HN as HN. injection Hl as Hl.
      cbn [combine map]. unfold rsum at 1. cbn [fold_right]. fold (rsum (map (fun Nq => fst Nq * monomial m (snd Nq)) (combine N l))).
      rewrite (IHn N l HN Hl). unfold sumn. simpl. rewrite <- seq_shift, map_map. reflexivity. }
  transitivity (sumn n (fun i => nth i (shape p) 0 * sumn n (fun k => monomial (nth k monoms []) (nth i lcoords []) * nth k (column C j) 0))).
  { transitivity (sumn n (fun k => sumn n (fun i => nth i (shape p) 0 * (monomial (nth k monoms []) (nth i lcoords []) * nth k (column C j) 0)))).
    - apply sumn_ext. intros k Hk. rewrite <- sumn_scale. apply sumn_ext. intros. ring.
    - rewrite sumn_swap. apply sumn_ext. intros i Hi. rewrite <- sumn_scale. reflexivity. }
  transitivity (sumn n (fun i => nth i (shape p) 0 * (if Nat.eqb i j then 1 else 0))).
  2: { apply sumn_delta. auto. }
  apply sumn_ext. intros i Hi. f_equal. rewrite <- (Hinv i j Hi Hj).
  rewrite (nth_indep (map (fun q => map (fun m => meval m q) monoms) lcoords) [] (map (fun m => meval m []) monoms)) by (rewrite map_length; lia).
  rewrite (map_nth (fun q => map (fun m => meval m q) monoms)).
  rewrite (dot_sumn n) by (rewrite ?map_length; auto).
  apply sumn_ext. intros k Hk. f_equal.
  rewrite (nth_indep (map (fun m => meval m (nth i lcoords [])) monoms) 0 (meval [] (nth i lcoords []))) by (rewrite map_length; lia).
  rewrite (map_nth (fun m => meval m (nth i lcoords []))). symmetry. apply meval_monomial.
Qed.

(** an inverse exists *)
Lemma inverse_ok n dim lcoords monoms (shape : list R -> list R) M C :
  length monoms = n -> length lcoords = n -> rect dim lcoords -> hd [] monoms = repeat 0%nat dim -> (0 < n)%nat ->
  interpolates_nodes (fun p => Ok (shape p)) lcoords ->
  length C = n -> rect n C ->
  (forall p j, length p = dim -> (j < n)%nat -> dot (map (fun m => monomial m p) monoms) (column C j) = nth j (shape p) 0) ->
  gen_matrix n lcoords monoms = Ok M -> right_inverse n M C.
Proof.
  intros Hm Hl Hr H0 Hn Hk HC HrC Hc HM. rewrite (gen_matrix_value n dim) in HM by auto. injection HM as <-.
  split; [auto|]. split; [auto|]. intros i j Hi Hj.
  destruct (nth_error lcoords i) as [q|] eqn:Eq. 2: { apply nth_error_None in Eq. lia. }
  rewrite (nth_error_nth _ _ _ (x := map (fun m => meval m q) monoms)) by (rewrite nth_error_map, Eq; reflexivity).
  assert (Hq : length q = dim) by (apply (rect_nth dim lcoords i q); auto).
  rewrite (map_ext _ (fun m => monomial m q)) by (intros; apply meval_monomial).
  change (map (fun row : list R => nth j row 0) C) with (column C j). rewrite (Hc q j Hq Hj). destruct (Hk i q Eq) as [N [E [HN Hd]]]. injection E as <-.
  rewrite Hd by lia. destruct (Nat.eqb_spec i j), (Nat.eqb_spec j i); congruence || reflexivity.
Qed.
