(** * Proofs about [ClassModel.v] *)
From Coq Require Import Reals List Lia Lra.
From Verif Require Import ShapeProofs4 EvalProofs.
From Verif Require Export ClassSpec.
Import ListNotations.
Local Open Scope R_scope.

(** ** States *)
Definition reachable (inv : list (list R) -> list (list R)) (e : element) (st : attributes) : Prop :=
  st = AsDefined \/ exists C, coefficients inv e = Ok C /\ st = Generated C.
Lemma generate_reachable inv e u st : reachable inv e st -> reachable inv e (snd (generate inv e u st)).
Proof.
  intros H. unfold generate. destruct (coefficients inv e) as [C|] eqn:E; cbn [snd]; [|exact H].
  destruct u; [|exact H]. right. exists C. auto.
Qed.
Lemma prepare_reachable inv e st : reachable inv e st -> reachable inv e (snd (prepare inv e st)).
Proof.
  intros H. unfold prepare. destruct st; [|exact H]. destruct (e_formulas e); [exact H|].
  pose proof (generate_reachable inv e true AsDefined H) as G. destruct (generate inv e true AsDefined) as [r st']. exact G.
Qed.
Lemma method_state {A} inv e st (f : formulas -> res A) g : snd (method inv e st f g) = snd (prepare inv e st).
Proof. unfold method. destruct (prepare inv e st). reflexivity. Qed.
Lemma call_reachable inv e st c : reachable inv e st -> reachable inv e (after_call inv e st c).
Proof.
  intros H. destruct c; cbn [after_call]; [| | |apply generate_reachable, H];
  unfold class_values, class_derivatives, class_matrix; rewrite method_state; apply prepare_reachable, H.
Qed.
Lemma calls_reachable inv e cs : reachable inv e (after_calls inv e cs).
Proof.
  unfold after_calls. assert (G : forall st, reachable inv e st -> reachable inv e (fold_left (after_call inv e) cs st)).
  { induction cs as [|c cs IH]; cbn [fold_left]; auto. intros st H. apply IH, call_reachable, H. }
  apply G. left. reflexivity.
Qed.
(** what a method does in such a state *)
Lemma method_cases {A} inv e st (f : formulas -> res A) g : reachable inv e st ->
  (exists fs, e_formulas e = Some fs /\ fst (method inv e st f g) = f fs) \/
  (exists C, coefficients inv e = Ok C /\ fst (method inv e st f g) = g C) \/
  (e_formulas e = None /\ exists x, coefficients inv e = Err x).
Proof.
  intros [->|[C [HC ->]]]; unfold method, prepare.
  - destruct (e_formulas e) as [fs|] eqn:F.
    + left. exists fs. split; [reflexivity|]. cbn [fst dispatch]. rewrite F. reflexivity.
    + unfold generate. destruct (coefficients inv e) as [C|x] eqn:E.
      * right. left. exists C. auto.
      * right. right. split; [reflexivity|]. exists x. reflexivity.
  - right. left. exists C. auto.
Qed.

(** ** The tables *)
Lemma element_dim k : e_dim (element_of k) = dim_of k.
Proof. destruct k; reflexivity. Qed.
Lemma element_nodes k : e_nodes (element_of k) = nodes_of k.
Proof. destruct k; reflexivity. Qed.
Lemma generates_of k : k <> KTET4 ->
  generates (nodes_of k) (dim_of k) (e_lcoords (element_of k)) (e_monoms (element_of k)) (shape_of k).
Proof.
  intros H. destruct k; cbn [nodes_of dim_of element_of e_lcoords e_monoms shape_of].
  - exact gen_L2. - exact gen_L3. - exact gen_T3. - exact gen_T6. - exact gen_Q4. - exact gen_Q9. - contradiction.
  - exact gen_TET10. - exact gen_H8. - exact gen_H27. - exact gen_W6. - exact gen_W18.
Qed.
Lemma TET4_no_coefficients inv : coefficients inv (element_of KTET4) = Err ValueError.
Proof. unfold coefficients. cbn [element_of e_nodes e_lcoords e_monoms]. rewrite gen_TET4_fails. reflexivity. Qed.
Lemma generated_ok inv k C : inverts inv k -> coefficients inv (element_of k) = Ok C ->
  (forall p, length p = dim_of k -> gen_shp C (e_monoms (element_of k)) p = Ok (shape_of k p)) /\
  differentiates (dim_of k) (nodes_of k) (gen_shp C (e_monoms (element_of k))) (gen_dshp (dim_of k) C (e_monoms (element_of k))).
Proof.
  intros Hi HC. assert (Hk : k <> KTET4) by (intros ->; rewrite TET4_no_coefficients in HC; discriminate).
  destruct (generates_of k Hk) as [M [HM [_ G]]]. unfold coefficients in HC. rewrite element_nodes, HM in HC. cbn [bind] in HC.
  injection HC as <-. apply G. apply Hi. rewrite element_nodes. exact HM.
Qed.
Lemma coefficients_exist inv k : k <> KTET4 -> exists C, coefficients inv (element_of k) = Ok C.
Proof.
  intros Hk. destruct (generates_of k Hk) as [M [HM _]]. exists (inv M). unfold coefficients. rewrite element_nodes, HM. reflexivity.
Qed.
Lemma formulas_ok k fs p : e_formulas (element_of k) = Some fs -> length p = dim_of k -> f_shp fs p = Ok (shape_of k p).
Proof.
  intros H Hp. destruct k; cbn [element_of e_formulas] in H; try discriminate; injection H as <-; cbn [f_shp shape_of]; cbn [dim_of] in Hp;
  list_cases p Hp; reflexivity.
Qed.
Lemma formulas_diff k fs : e_formulas (element_of k) = Some fs -> differentiates (dim_of k) (nodes_of k) (f_shp fs) (f_dshp fs).
Proof.
  intros H. destruct k; cbn [element_of e_formulas] in H; try discriminate; injection H as <-; cbn [f_shp f_dshp dim_of nodes_of].
  - exact diff_L2. - exact diff_T3. - exact diff_T6. - exact diff_Q4. - exact diff_Q9. - exact diff_TET4. - exact diff_H8. - exact diff_H27.
Qed.
Lemma formulas_matrix k fs n : e_formulas (element_of k) = Some fs -> (k = KH8 -> n = 3%nat) ->
  interpolates_vectors (dim_of k) (nodes_of k) n (f_shp fs) (f_shpm fs).
Proof.
  intros H Hn. destruct k; cbn [element_of e_formulas] in H; try discriminate; injection H as <-; cbn [f_shp f_shpm dim_of nodes_of].
  - exact (matrix_L2 n). - exact (matrix_T3 n). - exact (matrix_T6 n). - exact (matrix_Q4 n). - exact (matrix_Q9 n). - exact (matrix_TET4 n).
  - rewrite (Hn eq_refl). exact matrix_H8.
  - exact (matrix_H27 n).
Qed.
Lemma shape_length k p : length p = dim_of k -> length (shape_of k p) = nodes_of k.
Proof. intros Hp. destruct k; cbn [dim_of] in Hp; list_cases p Hp; reflexivity. Qed.

Lemma kind_eq_TET4 (k : kind) : k = KTET4 \/ k <> KTET4.
Proof. destruct k; first [left; reflexivity | right; discriminate]. Qed.

(** ** Points *)
Lemma formula_points_ok k pts : k <> KL2 -> k <> KL3 -> formula_points (e_dim (element_of k)) (P2 pts) = Ok pts.
Proof. destruct k; intros; try contradiction; reflexivity. Qed.
Lemma generated_points_ok k pts : rect (dim_of k) pts -> pts <> [] -> generated_points (e_dim (element_of k)) (P2 pts) = Ok pts.
Proof.
  intros Hr Hn. rewrite element_dim. unfold generated_points. destruct pts as [|p pts]; [contradiction|].
  replace (forallb _ (p :: pts)) with true; [reflexivity|]. symmetry. apply forallb_forall. intros x Hx.
  unfold rect in Hr. rewrite Forall_forall in Hr. apply Nat.eqb_eq, Hr, Hx.
Qed.
Lemma mapM_all {A B} (f : A -> res B) g l : (forall x, In x l -> f x = Ok (g x)) -> mapM f l = Ok (map g l).
Proof.
  induction l as [|x l IH]; intros H; [reflexivity|]. cbn [mapM map]. rewrite (H x (or_introl eq_refl)). cbn [bind].
  rewrite IH; [reflexivity|]. intros y Hy. apply H. right. exact Hy.
Qed.
Lemma mapM_exists {A B} (f : A -> res B) (P : A -> B -> Prop) l : (forall x, In x l -> exists y, f x = Ok y /\ P x y) ->
  exists r, mapM f l = Ok r /\ Forall2 P l r.
Proof.
  induction l as [|x l IH]; intros H; [exists []; split; [reflexivity|constructor]|].
  destruct (H x (or_introl eq_refl)) as [y [E Hy]]. destruct IH as [r [Er Hr]]; [intros z Hz; apply H; right; exact Hz|].
  exists (y :: r). cbn [mapM]. rewrite E. cbn [bind]. rewrite Er. split; [reflexivity|]. constructor; auto.
Qed.
Lemma rect_in {A} n (l : list (list A)) x : rect n l -> In x l -> length x = n.
Proof. unfold rect. rewrite Forall_forall. auto. Qed.

(** ** C139 *)
Lemma values_after : forall inv k calls pts,
  inverts inv k -> k <> KL2 -> rect (dim_of k) pts -> pts <> [] ->
  fst (class_values inv (element_of k) (after_calls inv (element_of k) calls) Floating (P2 pts)) = Ok (map (shape_of k) pts).
Proof.
  intros inv k calls pts Hi Hk Hr Hn. unfold class_values. cbv zeta. cbn [allow_one].
  destruct (method_cases inv (element_of k) (after_calls inv (element_of k) calls) (fun f => formula_values (element_of k) f Floating (P2 pts))
    (fun C => generated_values (element_of k) C (P2 pts)) (calls_reachable _ _ _)) as [[fs [F E]]|[[C [F E]]|[F [x G]]]].
  - rewrite E. unfold formula_values. rewrite formula_points_ok; [|exact Hk|intros ->; discriminate F]. cbn [bind].
    change (shape_function_values (f_shp fs) Floating pts = Ok (map (shape_of k) pts)). rewrite values_floating.
    apply mapM_all. intros p Hp. apply formulas_ok; [exact F|]. apply (rect_in _ _ _ Hr Hp).
  - rewrite E. unfold generated_values. rewrite generated_points_ok by auto. cbn [bind]. apply mapM_all. intros p Hp.
    apply (generated_ok inv k C Hi F). apply (rect_in _ _ _ Hr Hp).
  - destruct (coefficients_exist inv k) as [C HC]; [intros ->; discriminate F|]. rewrite HC in G. discriminate.
Qed.
Lemma replace_nth_length {A} d (x : A) l : (d < length l)%nat -> length (replace_nth d x l) = length l.
Proof. intros H. unfold replace_nth. rewrite app_length, firstn_length. cbn [length]. rewrite skipn_length. lia. Qed.
Lemma gradients_from k shp p D : (forall q, length q = dim_of k -> shp q = Ok (shape_of k q)) -> length p = dim_of k ->
  length D = nodes_of k -> rect (dim_of k) D ->
  (forall j d, (j < nodes_of k)%nat -> (d < dim_of k)%nat -> derivable_pt_lim (along shp p d j) (nth d p 0) (nth d (nth j D []) 0)) ->
  gradients_at (dim_of k) (nodes_of k) (shape_of k) p D.
Proof.
  intros Hs Hp Hl Hr H. split; [exact Hl|]. split; [exact Hr|]. intros j d Hj Hd. apply derivable_pt_lim_ext with (f := along shp p d j).
  - intros z. unfold along. rewrite Hs; [reflexivity|]. rewrite replace_nth_length; lia.
  - apply H; assumption.
Qed.
Lemma derivatives_after : forall inv k calls pts,
  inverts inv k -> k <> KL2 -> rect (dim_of k) pts -> pts <> [] ->
  exists Ds, fst (class_derivatives inv (element_of k) (after_calls inv (element_of k) calls) Floating (P2 pts)) = Ok (D3 Ds) /\
    Forall2 (gradients_at (dim_of k) (nodes_of k) (shape_of k)) pts Ds.
Proof.
  intros inv k calls pts Hi Hk Hr Hn. unfold class_derivatives. cbv zeta. cbn [allow_one].
  destruct (method_cases inv (element_of k) (after_calls inv (element_of k) calls) (fun f => formula_derivatives (element_of k) f Floating (P2 pts))
    (fun C => generated_derivatives (element_of k) C (P2 pts)) (calls_reachable _ _ _)) as [[fs [F E]]|[[C [F E]]|[F [x G]]]].
  - rewrite E. unfold formula_derivatives.
    replace (if f_constant fs then Ok (any_points (P2 pts)) else formula_points (e_dim (element_of k)) (P2 pts)) with (Ok pts).
    2:{ destruct (f_constant fs); [reflexivity|]. symmetry. apply formula_points_ok; [exact Hk|intros ->; discriminate F]. }
    cbn [bind]. change (dshp_multi (f_dshp fs) Floating pts) with (shape_function_derivatives (f_dshp fs) Floating pts). rewrite derivatives_floating.
    destruct (mapM_exists (f_dshp fs) (gradients_at (dim_of k) (nodes_of k) (shape_of k)) pts) as [Ds [EDs HDs]].
    { intros p Hp. pose proof (rect_in _ _ _ Hr Hp) as Hl. destruct (formulas_diff k fs F p Hl) as [D [HD [H1 [H2 H3]]]].
      exists D. split; [exact HD|]. apply (gradients_from k (f_shp fs)); auto. intros q Hq. apply formulas_ok; assumption. }
    exists Ds. rewrite EDs. cbn [bind]. split; [|exact HDs].
    replace (Nat.eqb (e_dim (element_of k)) 1) with false; [reflexivity|]. destruct k; try reflexivity; [contradiction|discriminate F].
  - rewrite E. unfold generated_derivatives. rewrite generated_points_ok by auto. cbn [bind]. rewrite element_dim.
    destruct (generated_ok inv k C Hi F) as [G1 G2].
    destruct (mapM_exists (gen_dshp (dim_of k) C (e_monoms (element_of k))) (gradients_at (dim_of k) (nodes_of k) (shape_of k)) pts) as [Ds [EDs HDs]].
    { intros p Hp. pose proof (rect_in _ _ _ Hr Hp) as Hl. destruct (G2 p Hl) as [D [HD [H1 [H2 H3]]]].
      exists D. split; [exact HD|]. apply (gradients_from k (gen_shp C (e_monoms (element_of k)))); auto. }
    exists Ds. rewrite EDs. cbn [bind]. auto.
  - destruct (coefficients_exist inv k) as [C HC]; [intros ->; discriminate F|]. rewrite HC in G. discriminate.
Qed.
Lemma interpolation_from k n shp shpm p : (forall q, length q = dim_of k -> shp q = Ok (shape_of k q)) ->
  interpolates_vectors (dim_of k) (nodes_of k) n shp shpm -> length p = dim_of k ->
  exists M, shpm p n = Ok M /\ interpolation_matrix (nodes_of k) n (shape_of k) p M.
Proof.
  intros Hs H Hp. destruct (H p Hp) as [N [M [HN [HM [H1 [H2 H3]]]]]]. rewrite Hs in HN by exact Hp. injection HN as <-.
  exists M. split; [exact HM|]. split; [exact H1|]. split; [exact H2|]. intros u a Hu Hru Ha.
  unfold dot. rewrite H3 by auto. f_equal. revert Hu. generalize (nodes_of k) as m. generalize (shape_of k p) as w. clear.
  intros w m _. revert u. induction w as [|x w IH]; intros [|y u]; cbn [combine map]; try reflexivity. f_equal. apply IH.
Qed.
Lemma matrices_after : forall inv k calls pts n,
  inverts inv k -> k <> KL2 -> (k = KH8 -> n = 2%nat) -> rect (dim_of k) pts -> pts <> [] ->
  exists Ms, fst (class_matrix inv (element_of k) (after_calls inv (element_of k) calls) Floating (P2 pts) (Some (S n))) = Ok Ms /\
    Forall2 (interpolation_matrix (nodes_of k) (S n) (shape_of k)) pts Ms.
Proof.
  intros inv k calls pts n Hi Hk H8 Hr Hn. unfold class_matrix. cbv zeta. cbn [allow_one].
  destruct (method_cases inv (element_of k) (after_calls inv (element_of k) calls) (fun f => formula_matrix (element_of k) f Floating (P2 pts) (S n))
    (fun C => generated_matrix (element_of k) C (P2 pts) (S n)) (calls_reachable _ _ _)) as [[fs [F E]]|[[C [F E]]|[F [x G]]]].
  - rewrite E. unfold formula_matrix. rewrite formula_points_ok; [|exact Hk|intros ->; discriminate F]. cbn [bind].
    apply mapM_exists. intros p Hp. pose proof (rect_in _ _ _ Hr Hp) as Hl.
    destruct (interpolation_from k (S n) (f_shp fs) (f_shpm fs) p) as [M [HM G]].
    + intros q Hq. apply formulas_ok; assumption.
    + apply formulas_matrix; [exact F|]. intros HK. rewrite (H8 HK). reflexivity.
    + exact Hl.
    + exists M. rewrite HM. cbn [bind]. split; [|exact G]. f_equal. rewrite <- (map_id M) at 2. apply map_ext. apply map_store_floating.
  - rewrite E. unfold generated_matrix. rewrite generated_points_ok by auto. cbn [bind]. rewrite element_nodes.
    destruct (generated_ok inv k C Hi F) as [G1 _]. apply mapM_exists. intros p Hp. pose proof (rect_in _ _ _ Hr Hp) as Hl.
    apply (interpolation_from k (S n) (gen_shp C (e_monoms (element_of k)))
      (fun r nd => shape_function_matrix_ (nodes_of k) nd (gen_shp C (e_monoms (element_of k))) r nd)); [exact G1| |exact Hl].
    apply matrix_interpolates. intros q Hq. exists (shape_of k q). split; [apply G1, Hq|]. apply shape_length, Hq.
  - destruct (coefficients_exist inv k) as [C HC]; [intros ->; discriminate F|]. rewrite HC in G. discriminate.
Qed.
