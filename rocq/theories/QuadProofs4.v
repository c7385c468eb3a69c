(** * Proofs about quadrature, part 4: areas and volumes of cells *)
From Coq Require Import Reals Lra Psatz.
From Verif Require Import ShapeProofs4.
From Verif Require Export QuadProofs3.
Local Open Scope R_scope.

(** ** What the loops compute *)
Definition entry (cell D : list (list R)) (a d : nat) : R := dot (column cell a) (column D d).
Definition Jdet (nD : nat) (cell D : list (list R)) : R :=
  match nD with
  | 2%nat => entry cell D 0 0 * entry cell D 1 1 - entry cell D 0 1 * entry cell D 1 0
  | _ => det_uvw (entry cell D 0) (entry cell D 1) (entry cell D 2)
  end.
Lemma cell_jacobian_value nD cell D : rect nD cell -> rect nD D -> length cell = length D ->
  cell_jacobian nD nD cell D = Ok (map (fun a => map (fun d => entry cell D a d) (seq 0 nD)) (seq 0 nD)).
Proof.
  intros Hc HD Hl. unfold cell_jacobian. apply mapM_map. intros a Ha. apply mapM_map. intros d Hd.
  apply in_seq in Ha, Hd. rewrite (get_column cell nD) by (auto; lia). rewrite (get_column D nD) by (auto; lia). cbn [bind].
  apply vdot_dot. unfold column. rewrite !map_length. auto.
Qed.
Lemma jac_value nD cell D : nD = 2%nat \/ nD = 3%nat -> rect nD cell -> rect nD D -> length cell = length D ->
  (do jac <- cell_jacobian nD nD cell D; det jac) = Ok (Jdet nD cell D).
Proof.
  intros Hn Hc HD Hl. rewrite cell_jacobian_value by auto. cbn [bind].
  destruct Hn as [-> | ->]; cbn [seq map det Jdet]; reflexivity.
Qed.
Lemma volumes_value nD n cells ds ws : nD = 2%nat \/ nD = 3%nat ->
  Forall (fun c => length c = n /\ rect nD c) cells -> Forall (fun D => length D = n /\ rect nD D) ds ->
  volumes nD cells ds ws = Ok (map (fun c => rsum (map (fun dw => snd dw * Jdet nD c (fst dw)) (combine ds ws))) cells).
Proof.
  intros Hn Hc Hd. unfold volumes.
  assert (G : forall l (acc : list (list R) -> R), Forall (fun dw => length (fst dw) = n /\ rect nD (fst dw)) l ->
     foldM (quad_step nD cells) l (map acc cells)
     = Ok (map (fun c => acc c + rsum (map (fun dw => snd dw * Jdet nD c (fst dw)) l)) cells)).
  { induction l as [|[D w] l IH]; intros acc Hl; cbn [foldM].
    - f_equal. apply map_ext. intros. simpl. ring.
    - inversion Hl as [|? ? [HD1 HD2] Hl']; subst. cbn [fst] in *.
      assert (E : quad_step nD cells (map acc cells) (D, w) = Ok (map (fun c => acc c + w * Jdet nD c D) cells)).
      { unfold quad_step. cbn [fst snd].
        assert (E : combine cells (map acc cells) = map (fun c => (c, acc c)) cells).
        { clear. induction cells; simpl; [auto|]. f_equal. auto. }
        rewrite E, mapM_map_compose. apply mapM_map. intros c Hin. cbn [fst snd].
        rewrite Forall_forall in Hc. destruct (Hc c Hin) as [H1 H2].
        pose proof (jac_value nD c D Hn H2 HD2 ltac:(congruence)) as Hj.
        apply bind_Ok in Hj. destruct Hj as [jac [Hj Hk]]. rewrite Hj. cbn [bind]. rewrite Hk. reflexivity. }
      rewrite E. cbn [bind]. rewrite IH by auto. f_equal. apply map_ext. intros c. simpl. unfold rsum. simpl. ring. }
  assert (R0 : forall l : list (list (list R)), repeat 0 (length l) = map (fun _ => 0) l) by (induction l; simpl; congruence).
  rewrite R0. rewrite G.
  - f_equal. apply map_ext. intros. ring.
  - apply Forall_forall. intros [D w] Hin. apply in_combine_l in Hin. rewrite Forall_forall in Hd. apply Hd; auto.
Qed.
Definition dvalues (dshp : list R -> res (list (list R))) (p : list R) : list (list R) :=
  match dshp p with Ok D => D | Err _ => [] end.
Lemma quad_volumes_value nD n shp dshp q cells : nD = 2%nat \/ nD = 3%nat -> differentiates nD n shp dshp -> rect nD (fst q) ->
  Forall (fun c => length c = n /\ rect nD c) cells ->
  quad_volumes nD dshp q cells = Ok (map (fun c => quad q (fun p => Jdet nD c (dvalues dshp p))) cells).
Proof.
  intros Hn Hd Hq Hc. unfold quad_volumes. unfold rect in Hq. rewrite Forall_forall in Hq.
  rewrite (mapM_map _ (dvalues dshp)).
  2: { intros p Hp. destruct (Hd p (Hq p Hp)) as (D & E & _). unfold dvalues. rewrite E. reflexivity. }
  cbn [bind]. rewrite (volumes_value nD n).
  - f_equal. apply map_ext. intros c. unfold quad. f_equal.
    generalize (snd q). generalize (fst q). clear. induction l as [|p l IH]; intros [|w ws]; simpl; auto. f_equal. apply IH.
  - auto.
  - auto.
  - rewrite Forall_map. apply Forall_forall. intros p Hp. destruct (Hd p (Hq p Hp)) as (D & E & H1 & H2 & _).
    unfold dvalues. rewrite E. auto.
Qed.

(** ** The entries are derivatives of the positions *)
Lemma deriv_rsum {A} (F : A -> R -> R) (G : A -> R) x l : (forall j, In j l -> derivable_pt_lim (F j) x (G j)) ->
  derivable_pt_lim (fun y => rsum (map (fun j => F j y) l)) x (rsum (map G l)).
Proof.
  induction l as [|j l IH]; intros H; simpl.
  - apply derivable_pt_lim_const.
  - apply (derivable_pt_lim_plus (F j) (fun y => rsum (map (fun j => F j y) l))).
    + apply H. left; auto.
    + apply IH. intros; apply H; right; auto.
Qed.
Lemma dot_short (N c : list R) : dot N c = sumn (length c) (fun j => nth j N 0 * nth j c 0).
Proof.
  revert N. induction c as [|x c IH]; intros [|y N]; unfold dot, sumn; simpl; auto.
  - rewrite <- seq_shift, map_map. simpl. clear. generalize (seq 0 (length c)). induction l; simpl; [ring|]. lra.
  - unfold dot in IH. rewrite IH. unfold sumn. rewrite <- seq_shift, map_map. reflexivity.
Qed.
Lemma dot_comm a b : dot a b = dot b a.
Proof. unfold dot. revert b. induction a; intros [|y b]; simpl; auto. rewrite IHa. ring. Qed.
Lemma position_diff dim n shp dshp cell p a d : differentiates dim n shp dshp -> length cell = n -> length p = dim -> (d < dim)%nat ->
  derivable_pt_lim (fun x => position shp cell a (replace_nth d x p)) (nth d p 0) (entry cell (dvalues dshp p) a d).
Proof.
  intros Hd Hc Hp Hlt. destruct (Hd p Hp) as (D & E & H1 & H2 & H3). unfold dvalues. rewrite E.
  assert (Hcl : length (column cell a) = n) by (unfold column; rewrite map_length; auto).
  apply (dlim_ext (fun x => rsum (map (fun j => along shp p d j x * nth j (column cell a) 0) (seq 0 n)))).
  - intros x. unfold position, along. destruct (shp (replace_nth d x p)) as [N|].
    + fold (column cell a). rewrite dot_short, Hcl. reflexivity.
    + clear. generalize (seq 0 n). induction l; simpl; [ring|]. lra.
  - unfold entry. rewrite dot_comm, dot_short, Hcl. unfold sumn.
    apply (deriv_rsum (fun j x => along shp p d j x * nth j (column cell a) 0)).
    intros j Hj. apply in_seq in Hj.
    apply (dlim_ext (fun x => nth j (column cell a) 0 * along shp p d j x)); [intros; ring|].
    rewrite Rmult_comm. apply (derivable_pt_lim_scal (along shp p d j)).
    replace (nth j (column D d) 0) with (nth d (nth j D []) 0).
    + apply H3; lia.
    + unfold column. symmetry. rewrite (nth_indep _ 0 ((fun row => nth d row 0) [])) by (rewrite map_length; lia).
      rewrite (map_nth (fun row => nth d row 0) D []). reflexivity.
Qed.
Lemma jacobian_values dim n shp dshp cell : differentiates dim n shp dshp -> length cell = n ->
  is_jacobian dim shp cell (fun p a d => entry cell (dvalues dshp p) a d).
Proof. intros Hd Hc p a d Hp Ha Hd'. eapply position_diff; eauto. Qed.

(** ** Affine cells *)
Lemma affine_column dim lcoords cell b A a : (a < dim)%nat ->
  cell = map (fun q => map (fun a => affine (nth a b 0) (nth a A []) q) (seq 0 dim)) lcoords ->
  column cell a = map (affine (nth a b 0) (nth a A [])) lcoords.
Proof.
  intros Ha ->. unfold column. rewrite map_map. apply map_ext. intros q.
  apply (nth_map_seq (fun a => affine (nth a b 0) (nth a A []) q)). auto.
Qed.
Lemma affine_derivative dim b0 a p d : length a = dim -> length p = dim -> (d < dim)%nat ->
  derivable_pt_lim (fun x => affine b0 a (replace_nth d x p)) (nth d p 0) (nth d a 0).
Proof.
  intros Ha Hp Hd. apply quadratic_derivative. intros h.
  assert (G : forall x, affine b0 a (replace_nth d x p) = affine b0 a (replace_nth d 0 p) + nth d a 0 * x).
  { intros x. unfold affine. rewrite Rplus_assoc. f_equal. subst dim. revert p d Hp Hd. clear.
    induction a as [|y a IH]; intros [|z p] d Hp Hd; simpl in *; try lia.
    destruct d as [|d]; unfold replace_nth, rsum; simpl; [ring|].
    unfold replace_nth, rsum in IH. simpl in IH. rewrite IH by lia. ring. }
  rewrite (G (nth d p 0 + h)), (G (nth d p 0)), (G (nth d p 0 + 1)). ring.
Qed.
Lemma reproduces_position dim shp lcoords cell b0 a c : reproduces dim shp lcoords (affine b0 a) ->
  column cell c = map (affine b0 a) lcoords -> forall p, length p = dim -> position shp cell c p = affine b0 a p.
Proof.
  intros H Hc p Hp. destruct (H p Hp) as (N & E & Hl & Hs). unfold position. rewrite E. fold (column cell c). rewrite Hc, <- Hs.
  unfold dot. f_equal. clear. revert N. induction lcoords as [|q l IH]; intros [|x N]; simpl; auto. f_equal; auto.
Qed.
Lemma affine_entry dim n shp dshp lcoords cell b A a d p : differentiates dim n shp dshp -> length lcoords = n -> length A = dim -> rect dim A ->
  (forall a0 a, length a = dim -> reproduces dim shp lcoords (affine a0 a)) ->
  cell = map (fun q => map (fun a => affine (nth a b 0) (nth a A []) q) (seq 0 dim)) lcoords ->
  length p = dim -> (a < dim)%nat -> (d < dim)%nat -> entry cell (dvalues dshp p) a d = nth d (nth a A []) 0.
Proof.
  intros Hd Hn HA HrA Hr Hc Hp Ha Hlt.
  assert (Hrow : length (nth a A []) = dim).
  { unfold rect in HrA. rewrite Forall_forall in HrA. apply HrA, nth_In. lia. }
  assert (Hlen : length cell = n) by (rewrite Hc, map_length; auto).
  pose proof (position_diff dim n shp dshp cell p a d Hd Hlen Hp Hlt) as D1.
  pose proof (affine_derivative dim (nth a b 0) (nth a A []) p d Hrow Hp Hlt) as D2.
  eapply uniqueness_limite; [exact D1|].
  eapply dlim_ext; [|exact D2]. intros x. symmetry. apply (reproduces_position dim shp lcoords).
  - apply Hr; auto.
  - eapply affine_column; eauto.
  - unfold replace_nth. rewrite app_length, firstn_length. cbn [length]. rewrite skipn_length. lia.
Qed.
Definition A2 (A : list (list R)) := nth 0 (nth 0 A []) 0 * nth 1 (nth 1 A []) 0 - nth 1 (nth 0 A []) 0 * nth 0 (nth 1 A []) 0.
Definition A3 (A : list (list R)) := det_uvw (fun d => nth d (nth 0 A []) 0) (fun d => nth d (nth 1 A []) 0) (fun d => nth d (nth 2 A []) 0).
Lemma affine_quad2 n shp dshp q lcoords cell b A : differentiates 2 n shp dshp -> length lcoords = n -> length A = 2%nat -> rect 2 A -> rect 2 (fst q) ->
  (forall a0 a, length a = 2%nat -> reproduces 2 shp lcoords (affine a0 a)) ->
  cell = map (fun q => map (fun a => affine (nth a b 0) (nth a A []) q) (seq 0 2)) lcoords ->
  quad q (fun p => Jdet 2 cell (dvalues dshp p)) = quad q (fun _ => A2 A).
Proof.
  intros Hd Hn HA HrA Hq Hr Hc. unfold quad. f_equal. apply map_ext_in. intros [p w] Hin. cbn [fst snd]. f_equal.
  unfold rect in Hq. rewrite Forall_forall in Hq. specialize (Hq p (in_combine_l _ _ _ _ Hin)).
  unfold Jdet, A2. rewrite !(affine_entry 2 n shp dshp lcoords cell b A) by (auto; lia). reflexivity.
Qed.
Lemma affine_quad3 n shp dshp q lcoords cell b A : differentiates 3 n shp dshp -> length lcoords = n -> length A = 3%nat -> rect 3 A -> rect 3 (fst q) ->
  (forall a0 a, length a = 3%nat -> reproduces 3 shp lcoords (affine a0 a)) ->
  cell = map (fun q => map (fun a => affine (nth a b 0) (nth a A []) q) (seq 0 3)) lcoords ->
  quad q (fun p => Jdet 3 cell (dvalues dshp p)) = quad q (fun _ => A3 A).
Proof.
  intros Hd Hn HA HrA Hq Hr Hc. unfold quad. f_equal. apply map_ext_in. intros [p w] Hin. cbn [fst snd]. f_equal.
  unfold rect in Hq. rewrite Forall_forall in Hq. specialize (Hq p (in_combine_l _ _ _ _ Hin)).
  unfold Jdet, A3, det_uvw. rewrite !(affine_entry 3 n shp dshp lcoords cell b A) by (auto; lia). reflexivity.
Qed.
