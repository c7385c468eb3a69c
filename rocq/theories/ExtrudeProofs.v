(** * Proofs about [ExtrudeModel.v], part 1: the arrays *)
From Coq Require Import Reals Lra Lia List.
From Verif Require Import BaseFacts FillFacts TrModel TrProofs EvalProofs ShapeProofs4 TriProofs ExtrudeModel ExtrudeSpec.
Import ListNotations.
Local Open Scope R_scope.

(** a write list whose writes agree with [r0] produces [r0] if [r0] agrees with the array elsewhere *)
Lemma run_writes2_result {A} (ws : list (nat * nat * A)) a r0 :
  shape2 a = shape2 r0 ->
  (forall i j x, In (i, j, x) ws -> get2o r0 i j = Some x) ->
  (forall i j, (forall x, ~ In (i, j, x) ws) -> get2o r0 i j = get2o a i j) ->
  run_writes2 ws a = Ok r0.
Proof.
  intros Hs Hw Hc.
  destruct (proj2 (run_writes2_in_range ws a)) as [r Hr].
  { intros i j v Hin. unfold in_shape. rewrite Hs. apply get2o_shape. exists v; auto. }
  rewrite Hr. f_equal.
  assert (Hcons : consistent2 ws) by (intros i j v v' H1 H2; apply Hw in H1, H2; congruence).
  pose proof (run_writes2_shape _ _ _ Hr) as Hsr.
  apply get2o_ext; [congruence|]. intros i j.
  destruct (existsb (fun w => Nat.eqb (fst (fst w)) i && Nat.eqb (snd (fst w)) j) ws) eqn:E.
  - apply existsb_exists in E. destruct E as [[[i' j'] x] [Hin E]]. cbn in E. apply andb_prop in E. destruct E as [E1 E2]. apply Nat.eqb_eq in E1, E2. subst i' j'.
    rewrite (run_writes2_written _ _ _ _ _ _ Hr Hcons Hin). symmetry. now apply Hw.
  - assert (Hn : forall x, ~ In (i, j, x) ws).
    { intros x Hin. apply Bool.not_true_iff_false in E. apply E. apply existsb_exists. exists (i, j, x). split; [exact Hin|]. cbn. now rewrite !Nat.eqb_refl. }
    rewrite (run_writes2_untouched _ _ _ _ _ Hr Hn). symmetry. now apply Hc.
Qed.

(** ** Coordinates *)

Definition xy (p : list R) : R * R := (nth 0 p 0, nth 1 p 0).
Definition layer_z (dt : dtype) (h : R) (zres l : nat) : R := match l with 0 => 0 | _ => store dt (h * INR l / INR zres) end.
Definition layers (dt : dtype) (points : list (list R)) (h : R) (zres : nat) : list (list R) :=
  map (fun lp => [fst (xy (snd lp)); snd (xy (snd lp)); layer_z dt h zres (fst lp)]) (list_prod (seq 0 (zres + 1)) points).

Lemma layers_nth dt points h zres l r p : (l <= zres)%nat -> nth_error points r = Some p ->
  nth_error (layers dt points h zres) (length points * l + r) = Some [fst (xy p); snd (xy p); layer_z dt h zres l].
Proof.
  intros Hl Hr. unfold layers. rewrite nth_error_map, (Nat.mul_comm (length points)).
  rewrite (nth_error_list_prod _ _ l r l p); [reflexivity| |exact Hr]. rewrite nth_error_seq; [reflexivity|lia].
Qed.

Lemma enum_In {A} (l : list A) i x : In (i, x) (enum l) <-> nth_error l i = Some x.
Proof.
  split.
  - intros H. apply In_nth_error in H. destruct H as [k Hk]. rewrite nth_error_enum in Hk. destruct (nth_error l k) eqn:E; [|discriminate]. injection Hk as <- <-. exact E.
  - intros H. apply (nth_error_In _ i). rewrite nth_error_enum, H. reflexivity.
Qed.

Lemma layer_xy_ok points l : plane_points points -> exists ws, layer_xy points l = Ok ws /\
  forall i j x, In (i, j, x) ws <-> exists r p, nth_error points r = Some p /\ i = (length points * l + r)%nat /\ ((j = 0%nat /\ x = fst (xy p)) \/ (j = 1%nat /\ x = snd (xy p))).
Proof.
  intros HP. unfold layer_xy.
  rewrite (mapM_map _ (fun rp => [((length points * l + fst rp)%nat, 0%nat, fst (xy (snd rp))); ((length points * l + fst rp)%nat, 1%nat, snd (xy (snd rp)))])).
  2: { intros [r p] Hin. apply enum_In in Hin. cbn [fst snd]. assert (Hl : (2 <= length p)%nat) by (eapply (proj1 (Forall_forall _ _) HP); eapply nth_error_In; eauto).
    destruct p as [|x [|y p]]; cbn in Hl; try lia. reflexivity. }
  cbn [bind]. eexists. split; [reflexivity|]. intros i j x. rewrite in_concat. split.
  - intros [w [Hw Hin]]. apply in_map_iff in Hw. destruct Hw as [[r p] [<- Hr]]. apply enum_In in Hr. exists r, p. split; [exact Hr|]. cbn [fst snd] in Hin.
    destruct Hin as [Hin|[Hin|[]]]; injection Hin as <- <- <-; (split; [reflexivity|]); auto.
  - intros (r & p & Hr & -> & H). exists [((length points * l + r)%nat, 0%nat, fst (xy p)); ((length points * l + r)%nat, 1%nat, snd (xy p))]. split.
    + apply in_map_iff. exists (r, p). split; [reflexivity|now apply enum_In].
    + destruct H as [[-> ->]|[-> ->]]; cbn; auto.
Qed.

Lemma layer_writes_ok dt points h zres i : plane_points points -> (i < zres)%nat -> exists ws, layer_writes dt points h zres i = Ok ws /\
  forall n j x, In (n, j, x) ws <-> exists r p, nth_error points r = Some p /\ n = (length points * (i + 1) + r)%nat /\
    ((j = 0%nat /\ x = fst (xy p)) \/ (j = 1%nat /\ x = snd (xy p)) \/ (j = 2%nat /\ x = layer_z dt h zres (i + 1))).
Proof.
  intros HP Hi. destruct (layer_xy_ok points (i + 1) HP) as (ws & E & H). unfold layer_writes. rewrite E. cbn [bind]. rewrite div_ok by (apply not_0_INR; lia). cbn [bind]. eexists. split; [reflexivity|].
  assert (Z : layer_z dt h zres (i + 1) = store dt (h * INR (i + 1) / INR zres)) by (replace (i + 1)%nat with (S i) by lia; reflexivity). rewrite Z.
  intros n j x. rewrite in_app_iff, H, in_map_iff. split.
  - intros [(r & p & Hr & -> & O)|(r & Er & Hr)].
    + exists r, p. split; [exact Hr|]. split; [reflexivity|]. tauto.
    + apply in_seq in Hr. destruct (nth_error_lt points r) as [p Hp]; [lia|]. injection Er as <- <- <-. exists r, p. auto 7.
  - intros (r & p & Hr & -> & O). destruct O as [O|[O|[-> ->]]]; [left; exists r, p; auto|left; exists r, p; auto|right]. exists r. split; [reflexivity|]. apply in_seq. apply nth_error_Some_lt in Hr. lia.
Qed.

Lemma coord_writes_ok dt points h zres : plane_points points -> exists ws, extrude_coord_writes dt points h zres = Ok ws /\
  forall n j x, In (n, j, x) ws <-> exists l r p, (l <= zres)%nat /\ nth_error points r = Some p /\ n = (length points * l + r)%nat /\
    ((j = 0%nat /\ x = fst (xy p)) \/ (j = 1%nat /\ x = snd (xy p)) \/ (j = 2%nat /\ l <> 0%nat /\ x = layer_z dt h zres l)).
Proof.
  intros HP. destruct (layer_xy_ok points 0 HP) as (w0 & E0 & H0). unfold extrude_coord_writes. rewrite E0. cbn [bind].
  destruct (mapM_total (layer_writes dt points h zres) (seq 0 zres)) as [ws Ews].
  { intros i Hi. apply in_seq in Hi. destruct (layer_writes_ok dt points h zres i HP) as (w & E & _); [lia|eauto]. }
  rewrite Ews. cbn [bind]. eexists. split; [reflexivity|]. intros n j x. rewrite in_app_iff, H0, in_concat. split.
  - intros [(r & p & Hr & -> & O)|(w & Hw & Hin)].
    + exists 0%nat, r, p. split; [lia|]. split; [exact Hr|]. split; [reflexivity|]. tauto.
    + apply (mapM_In _ _ _ _ Ews) in Hw. destruct Hw as (i & Hi & Ei). apply in_seq in Hi. destruct (layer_writes_ok dt points h zres i HP) as (w' & E & H); [lia|]. rewrite Ei in E. injection E as <-.
      apply H in Hin. destruct Hin as (r & p & Hr & -> & O). exists (i + 1)%nat, r, p. split; [lia|]. split; [exact Hr|]. split; [reflexivity|]. destruct O as [O|[O|[-> ->]]]; auto. right; right. repeat split; lia || auto.
  - intros (l & r & p & Hl & Hr & -> & O). destruct l as [|i].
    + left. exists r, p. split; [exact Hr|]. split; [reflexivity|]. destruct O as [O|[O|(_ & O & _)]]; auto; lia.
    + right. destruct (layer_writes_ok dt points h zres i HP) as (w & E & H); [lia|]. exists w. split; [apply (mapM_In _ _ _ _ Ews); exists i; split; [apply in_seq; lia|exact E]|].
      apply H. exists r, p. split; [exact Hr|]. replace (i + 1)%nat with (S i) by lia. split; [reflexivity|]. destruct O as [O|[O|(-> & _ & ->)]]; auto.
Qed.

Lemma layers_shape dt points h zres : shape2 (layers dt points h zres) = repeat 3%nat (length points * (zres + 1)).
Proof.
  rewrite (shape2_rect 3); [unfold layers; now rewrite map_length, prod_length, seq_length, Nat.mul_comm|].
  unfold layers. apply Forall_forall. intros r Hr. apply in_map_iff in Hr. destruct Hr as (lp & <- & _). reflexivity.
Qed.

Lemma layers_inv dt points h zres n row : nth_error (layers dt points h zres) n = Some row ->
  exists l r p, (l <= zres)%nat /\ nth_error points r = Some p /\ n = (length points * l + r)%nat /\ row = [fst (xy p); snd (xy p); layer_z dt h zres l].
Proof.
  unfold layers. rewrite nth_error_map. destruct (nth_error (list_prod _ _) n) as [[l p]|] eqn:E; [|discriminate]. intros H. injection H as <-.
  apply nth_error_list_prod_inv in E. destruct E as (l' & r & -> & El & Er). apply nth_error_seq_some in El. destruct El as [-> Hl]. exists l', r, p. split; [lia|]. split; [exact Er|]. split; [lia|]. reflexivity.
Qed.

(** in whatever order the assignments are made *)
Lemma coords_schedule dt points h zres : plane_points points -> exists ws, extrude_coord_writes dt points h zres = Ok ws /\
  forall ws', Permutation ws ws' -> run_writes2 ws' (zeros2 0 (length points * (zres + 1)) 3) = Ok (layers dt points h zres).
Proof.
  intros HP. destruct (coord_writes_ok dt points h zres HP) as (ws & E & H). exists ws. split; [exact E|]. intros ws' Hp.
  assert (H' : forall n j x, In (n, j, x) ws' <-> In (n, j, x) ws) by (intros n j x; split; intros Hin; [apply (Permutation_in _ (Permutation_sym Hp) Hin)|apply (Permutation_in _ Hp Hin)]).
  apply run_writes2_result.
  - rewrite shape2_zeros2, layers_shape. reflexivity.
  - intros n j x Hin. apply H', H in Hin. destruct Hin as (l & r & p & Hl & Hr & -> & O). unfold get2o. rewrite (layers_nth _ _ _ _ _ _ _ Hl Hr). destruct O as [[-> ->]|[[-> ->]|(-> & _ & ->)]]; reflexivity.
  - intros n j Hn. unfold get2o at 1. destruct (nth_error (layers dt points h zres) n) as [row|] eqn:En.
    + destruct (layers_inv _ _ _ _ _ _ En) as (l & r & p & Hl & Hr & -> & ->).
      assert (Hlt : (length points * l + r < length points * (zres + 1))%nat) by (apply nth_error_Some_lt in Hr; nia).
      assert (Z : nth_error (zeros2 0 (length points * (zres + 1)) 3) (length points * l + r) = Some (repeat 0 3)) by (unfold zeros2; apply nth_error_repeat; exact Hlt).
      unfold get2o. rewrite Z. destruct j as [|[|[|j]]]; cbn.
      * exfalso. apply (Hn (fst (xy p))). apply H', H. exists l, r, p. auto 6.
      * exfalso. apply (Hn (snd (xy p))). apply H', H. exists l, r, p. auto 7.
      * destruct l as [|l]; [reflexivity|]. exfalso. apply (Hn (layer_z dt h zres (S l))). apply H', H. exists (S l), r, p. repeat (split; auto).
      * destruct j; reflexivity.
    + assert (Hge : (length points * (zres + 1) <= n)%nat).
      { apply nth_error_None in En. unfold layers in En. rewrite map_length, prod_length, seq_length in En. lia. }
      unfold get2o. rewrite (nth_error_ge (zeros2 _ _ _)); [reflexivity|]. unfold zeros2. rewrite repeat_length. exact Hge.
Qed.

Lemma coords_value dt points h zres : plane_points points -> extrude_coords dt points h zres = Ok (layers dt points h zres).
Proof.
  intros HP. destruct (coords_schedule dt points h zres HP) as (ws & E & H). unfold extrude_coords. rewrite E. cbn [bind]. apply H. apply Permutation_refl.
Qed.

Lemma layers_layered points h zres : (0 < zres)%nat -> layered points h zres (layers Floating points h zres).
Proof.
  intros Hz. split; [unfold layers; rewrite map_length, prod_length, seq_length; lia|]. split.
  { unfold layers. apply Forall_forall. intros r Hr. apply in_map_iff in Hr. destruct Hr as (lp & <- & _). reflexivity. }
  intros l r Hl Hr. destruct (nth_error_lt points r Hr) as [p Hp]. pose proof (layers_nth Floating points h zres l r p Hl Hp) as E.
  unfold coord. rewrite (nth_error_nth _ _ _ E), (nth_error_nth _ _ _ Hp). cbn. repeat split. destruct l; [cbn|reflexivity]. unfold Rdiv. now rewrite !Rmult_0_r, Rmult_0_l.
Qed.

(** ** Cells *)

Definition lift (nP l : nat) (n : nat) : nat := (n + l * nP)%nat.
(** the rows of the three tetrahedra and of the wedge *)
Definition tet_rows (nP i : nat) (t : list nat) (k : nat) : list nat :=
  match t with
  | [a; b; c] => let lo := lift nP i in let hi := lift nP (i + 1) in
      match k with 0 => [lo a; lo b; lo c; hi c] | 1 => [lo a; lo b; hi c; hi b] | _ => [lo a; hi b; hi c; hi a] end
  | _ => []
  end.
Definition wedge_row (nP i : nat) (t : list nat) : list nat := map (lift nP i) t ++ map (lift nP (i + 1)) t.
Definition tets (nP : nat) (triangles : list (list nat)) (zres : nat) : list (list nat) :=
  map (fun x => tet_rows nP (fst (fst x)) (snd (fst x)) (snd x)) (list_prod (list_prod (seq 0 zres) triangles) (seq 0 3)).
Definition wedges (nP : nat) (triangles : list (list nat)) (zres : nat) : list (list nat) :=
  map (fun x => wedge_row nP (fst x) (snd x)) (list_prod (seq 0 zres) triangles).

Lemma row_writes_In r vals i j x : In (i, j, x) (row_writes r vals) <-> i = r /\ nth_error vals j = Some x.
Proof.
  unfold row_writes. rewrite in_map_iff. split.
  - intros [[k v] [E Hin]]. cbn in E. injection E as <- <- <-. apply enum_In in Hin. auto.
  - intros [-> H]. exists (j, x). split; [reflexivity|now apply enum_In].
Qed.

Lemma three t n : length t = 3%nat /\ Forall (fun k => (k < n)%nat) t -> exists a b c, t = [a; b; c] /\ (a < n)%nat /\ (b < n)%nat /\ (c < n)%nat.
Proof.
  intros [HL HF]. destruct t as [|a [|b [|c [|d t]]]]; try discriminate. exists a, b, c. inversion HF as [|? ? Ha H1]; subst. inversion H1 as [|? ? Hb H2]; subst. inversion H2 as [|? ? Hc H3]; subst. auto.
Qed.

Lemma tets_nth nP triangles zres i j t k : (i < zres)%nat -> nth_error triangles j = Some t -> (k < 3)%nat ->
  nth_error (tets nP triangles zres) ((i * length triangles + j) * 3 + k) = Some (tet_rows nP i t k).
Proof.
  intros Hi Hj Hk. unfold tets. rewrite nth_error_map. rewrite (nth_error_list_prod _ (seq 0 3) (i * length triangles + j) k (i, t) k); [reflexivity| |now rewrite nth_error_seq].
  apply nth_error_list_prod; [now rewrite nth_error_seq|exact Hj].
Qed.
Lemma tets_inv nP triangles zres n row : nth_error (tets nP triangles zres) n = Some row ->
  exists i j t k, (i < zres)%nat /\ nth_error triangles j = Some t /\ (k < 3)%nat /\ n = ((i * length triangles + j) * 3 + k)%nat /\ row = tet_rows nP i t k.
Proof.
  unfold tets. rewrite nth_error_map. destruct (nth_error (list_prod _ _) n) as [[[i t] k]|] eqn:E; [|discriminate]. intros H. injection H as <-.
  apply nth_error_list_prod_inv in E. destruct E as (m & k' & -> & Em & Ek). apply nth_error_seq_some in Ek. destruct Ek as [-> Hk].
  apply nth_error_list_prod_inv in Em. destruct Em as (i' & j & -> & Ei & Ej). apply nth_error_seq_some in Ei. destruct Ei as [-> Hi]. exists i', j, t, k'. cbn. repeat split; auto.
Qed.
Lemma wedges_nth nP triangles zres i j t : (i < zres)%nat -> nth_error triangles j = Some t -> nth_error (wedges nP triangles zres) (i * length triangles + j) = Some (wedge_row nP i t).
Proof. intros Hi Hj. unfold wedges. rewrite nth_error_map, (nth_error_list_prod _ _ i j i t); [reflexivity|now rewrite nth_error_seq|exact Hj]. Qed.
Lemma wedges_inv nP triangles zres n row : nth_error (wedges nP triangles zres) n = Some row ->
  exists i j t, (i < zres)%nat /\ nth_error triangles j = Some t /\ n = (i * length triangles + j)%nat /\ row = wedge_row nP i t.
Proof.
  unfold wedges. rewrite nth_error_map. destruct (nth_error (list_prod _ _) n) as [[i t]|] eqn:E; [|discriminate]. intros H. injection H as <-.
  apply nth_error_list_prod_inv in E. destruct E as (i' & j & -> & Ei & Ej). apply nth_error_seq_some in Ei. destruct Ei as [-> Hi]. exists i', j, t. auto.
Qed.

Lemma tet_writes_ok nP triangles i j t : triangles_of nP triangles -> nth_error triangles j = Some t -> exists ws, tet_writes nP triangles (i, j) = Ok ws /\
  forall n c x, In (n, c, x) ws <-> exists k, (k < 3)%nat /\ n = ((i * length triangles + j) * 3 + k)%nat /\ nth_error (tet_rows nP i t k) c = Some x.
Proof.
  intros HT Hj. assert (Ht : exists a b c, t = [a; b; c] /\ (a < nP)%nat /\ (b < nP)%nat /\ (c < nP)%nat) by (apply three; apply (proj1 (Forall_forall _ _) HT); eapply nth_error_In; eauto).
  destruct Ht as (a & b & c & -> & _). unfold tet_writes. rewrite (proj2 (get_Ok _ _ _) Hj). cbn [bind map]. eexists. split; [reflexivity|]. intros n col x. rewrite !in_app_iff, !row_writes_In.
  split.
  - intros [[-> H]|[[-> H]|[-> H]]]; [exists 0%nat|exists 1%nat|exists 2%nat]; (split; [lia|]; split; [lia|exact H]).
  - intros (k & Hk & -> & H). destruct k as [|[|[|k]]]; [left|right; left|right; right|lia]; (split; [lia|exact H]).
Qed.
Lemma wedge_writes_ok nP triangles i j t : triangles_of nP triangles -> nth_error triangles j = Some t -> exists ws, wedge_writes nP triangles (i, j) = Ok ws /\
  forall n c x, In (n, c, x) ws <-> n = (i * length triangles + j)%nat /\ nth_error (wedge_row nP i t) c = Some x.
Proof.
  intros HT Hj. assert (Ht : exists a b c, t = [a; b; c] /\ (a < nP)%nat /\ (b < nP)%nat /\ (c < nP)%nat) by (apply three; apply (proj1 (Forall_forall _ _) HT); eapply nth_error_In; eauto).
  destruct Ht as (a & b & c & -> & _). unfold wedge_writes. rewrite (proj2 (get_Ok _ _ _) Hj). cbn [bind map]. eexists. split; [reflexivity|]. intros n col x. rewrite row_writes_In. reflexivity.
Qed.

Lemma tet_rows_length nP i t k : length t = 3%nat -> length (tet_rows nP i t k) = 4%nat.
Proof. destruct t as [|a [|b [|c [|d t]]]]; try discriminate. intros _. destruct k as [|[|k]]; reflexivity. Qed.

Lemma tets_schedule nP triangles zres : triangles_of nP triangles -> exists ws, extrude_tet_writes nP triangles zres = Ok ws /\
  forall ws', Permutation ws ws' -> run_writes2 ws' (zeros2 0%nat (length triangles * zres * 3) 4) = Ok (tets nP triangles zres).
Proof.
  intros HT. unfold extrude_tet_writes.
  destruct (mapM_total (tet_writes nP triangles) (list_prod (seq 0 zres) (seq 0 (length triangles)))) as [ws Ews].
  { intros [i j] Hin. apply in_list_prod_r in Hin. destruct Hin as [_ Hj]. apply in_seq in Hj. destruct (nth_error_lt triangles j) as [t Ht]; [lia|]. destruct (tet_writes_ok nP triangles i j t HT Ht) as (w & E & _). eauto. }
  rewrite Ews. cbn [bind]. eexists. split; [reflexivity|]. intros ws' Hp. apply run_writes2_fill.
  - rewrite shape2_zeros2. rewrite (shape2_rect 4).
    + f_equal. unfold tets. rewrite map_length, !prod_length, !seq_length. lia.
    + unfold tets. apply Forall_forall. intros r Hr. apply in_map_iff in Hr. destruct Hr as ([[i t] k] & <- & Hin). apply in_list_prod_r in Hin. destruct Hin as [Hin _]. apply in_list_prod_r in Hin. destruct Hin as [_ Hin]. apply tet_rows_length. apply (proj1 (Forall_forall _ _) HT _ Hin).
  - intros n c x Hin. apply (Permutation_in _ (Permutation_sym Hp)) in Hin. apply in_concat in Hin. destruct Hin as (w & Hw & Hin). apply (mapM_In _ _ _ _ Ews) in Hw. destruct Hw as ([i j] & Hij & Ew). apply in_list_prod_r in Hij. destruct Hij as [Hi Hj]. apply in_seq in Hi, Hj.
    destruct (nth_error_lt triangles j) as [t Ht]; [lia|]. destruct (tet_writes_ok nP triangles i j t HT Ht) as (w' & E & H). rewrite Ew in E. injection E as <-. apply H in Hin. destruct Hin as (k & Hk & -> & Hx).
    unfold get2o. rewrite (tets_nth nP triangles zres i j t k); auto; lia.
  - intros n c x Hx. unfold get2o in Hx. destruct (nth_error (tets nP triangles zres) n) as [row|] eqn:En; [|discriminate]. destruct (tets_inv _ _ _ _ _ En) as (i & j & t & k & Hi & Hj & Hk & -> & ->). exists x.
    apply (Permutation_in _ Hp). destruct (tet_writes_ok nP triangles i j t HT Hj) as (w & E & H). apply in_concat. exists w. split.
    + apply (mapM_In _ _ _ _ Ews). exists (i, j). split; [|exact E]. apply in_list_prod_r. split; apply in_seq; [lia|]. apply nth_error_Some_lt in Hj. lia.
    + apply H. exists k. auto.
Qed.
Lemma wedges_schedule nP triangles zres : triangles_of nP triangles -> exists ws, extrude_wedge_writes nP triangles zres = Ok ws /\
  forall ws', Permutation ws ws' -> run_writes2 ws' (zeros2 0%nat (length triangles * zres) 6) = Ok (wedges nP triangles zres).
Proof.
  intros HT. unfold extrude_wedge_writes.
  destruct (mapM_total (wedge_writes nP triangles) (list_prod (seq 0 zres) (seq 0 (length triangles)))) as [ws Ews].
  { intros [i j] Hin. apply in_list_prod_r in Hin. destruct Hin as [_ Hj]. apply in_seq in Hj. destruct (nth_error_lt triangles j) as [t Ht]; [lia|]. destruct (wedge_writes_ok nP triangles i j t HT Ht) as (w & E & _). eauto. }
  rewrite Ews. cbn [bind]. eexists. split; [reflexivity|]. intros ws' Hp. apply run_writes2_fill.
  - rewrite shape2_zeros2. rewrite (shape2_rect 6).
    + f_equal. unfold wedges. rewrite map_length, !prod_length, !seq_length. lia.
    + unfold wedges. apply Forall_forall. intros r Hr. apply in_map_iff in Hr. destruct Hr as ([i t] & <- & Hin). apply in_list_prod_r in Hin. destruct Hin as [_ Hin]. unfold wedge_row. rewrite app_length, !map_length. cbn. destruct (proj1 (Forall_forall _ _) HT _ Hin) as [-> _]. reflexivity.
  - intros n c x Hin. apply (Permutation_in _ (Permutation_sym Hp)) in Hin. apply in_concat in Hin. destruct Hin as (w & Hw & Hin). apply (mapM_In _ _ _ _ Ews) in Hw. destruct Hw as ([i j] & Hij & Ew). apply in_list_prod_r in Hij. destruct Hij as [Hi Hj]. apply in_seq in Hi, Hj.
    destruct (nth_error_lt triangles j) as [t Ht]; [lia|]. destruct (wedge_writes_ok nP triangles i j t HT Ht) as (w' & E & H). rewrite Ew in E. injection E as <-. apply H in Hin. destruct Hin as (-> & Hx).
    unfold get2o. rewrite (wedges_nth nP triangles zres i j t); auto; lia.
  - intros n c x Hx. unfold get2o in Hx. destruct (nth_error (wedges nP triangles zres) n) as [row|] eqn:En; [|discriminate]. destruct (wedges_inv _ _ _ _ _ En) as (i & j & t & Hi & Hj & -> & ->). exists x.
    apply (Permutation_in _ Hp). destruct (wedge_writes_ok nP triangles i j t HT Hj) as (w & E & H). apply in_concat. exists w. split.
    + apply (mapM_In _ _ _ _ Ews). exists (i, j). split; [|exact E]. apply in_list_prod_r. split; apply in_seq; [lia|]. apply nth_error_Some_lt in Hj. lia.
    + apply H. auto.
Qed.

Lemma tet4_value dt points triangles h zres : plane_points points -> triangles_of (length points) triangles ->
  extrude_T3_TET4 dt points triangles h zres = Ok (layers dt points h zres, tets (length points) triangles zres).
Proof.
  intros HP HT. unfold extrude_T3_TET4. rewrite (coords_value _ _ _ _ HP). cbn [bind]. destruct (tets_schedule (length points) triangles zres HT) as (ws & E & H). rewrite E. cbn [bind]. rewrite (H ws (Permutation_refl _)). reflexivity.
Qed.
Lemma w6_value dt points triangles h zres : plane_points points -> triangles_of (length points) triangles ->
  extrude_T3_W6 dt points triangles h zres = Ok (layers dt points h zres, wedges (length points) triangles zres).
Proof.
  intros HP HT. unfold extrude_T3_W6. rewrite (coords_value _ _ _ _ HP). cbn [bind]. destruct (wedges_schedule (length points) triangles zres HT) as (ws & E & H). rewrite E. cbn [bind]. rewrite (H ws (Permutation_refl _)). reflexivity.
Qed.
