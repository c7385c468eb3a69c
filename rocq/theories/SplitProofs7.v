(** * Proofs about [TrModel.v], part 11: nine-node quadrilaterals into triangles; packaging *)
From Coq Require Import Reals Lra.
From Verif Require Export SplitProofs6 TrProofs3.
Local Open Scope R_scope.
Arguments coord : simpl never.

Definition t6_area (coords : list (list R)) (ns : list nat) : R := polygon_area coords (reorder loop_T6 ns).

Lemma Q9_to_T6_grid_area coords topo : rect 9 topo ->
  exists t, Q9_to_T6 coords topo None = Ok (coords, t) /\ length t = (length topo * 2)%nat /\
    forall i cell, nth_error topo i = Some cell ->
      pieces_add_up 2 (t6_area coords) t i (polygon_area coords (reorder loop_Q9_grid cell)).
Proof.
  intros Hr.
  destruct (Q9_to_T6_value coords topo path_Q9_to_T6 Hr ltac:(check_path) ltac:(repeat constructor) eq_refl None eq_refl) as [t [V T]].
  exists t. split; auto. split.
  { apply mapM_length in V. rewrite V, prod_length; auto. }
  intros i cell Hi. unfold pieces_add_up. pose proof (pieces_map topo path_Q9_to_T6 t i cell (t6_area coords) V Hi) as E.
  simpl length in E. rewrite E. clear E.
  pose proof (rect_nth _ _ _ _ Hr Hi) as Hl. explode Hl.
  unfold t6_area, reorder, rsum, polygon_area, loop_T6, loop_Q9_grid, path_Q9_to_T6. simpl. unfold cross2. field.
Qed.

(** the order produced by Q4_to_Q9: the second triangle is turned over *)
Definition unit_square : list (list R) := [[0;0];[1;0];[1;1];[0;1]].
Lemma Q9_to_T6_standard_area :
  exists coords' topo' t, Q4_to_Q9 unit_square [[0;1;2;3]%nat] = Ok (coords', topo') /\
    Q9_to_T6 coords' topo' None = Ok (coords', t) /\
    rsum (map (t6_area coords') t) <> 1 /\ polygon_area unit_square [0;1;2;3]%nat = 1.
Proof.
  do 3 eexists. split; [reflexivity|]. split; [reflexivity|].
  split.
  - unfold not. cbv -[Rplus Rmult Rminus Ropp Rdiv Rinv IZR]. intros E. lra.
  - unfold polygon_area, shoelace, cross2, coord, unit_square. simpl. lra.
Qed.

(** ** Results per splitting function *)

Lemma nth_error_skipn' {A} (l : list A) n k : nth_error (skipn n l) k = nth_error l (n + k).
Proof. revert l; induction n as [|n IH]; intros [|x l]; simpl; auto. destruct k; auto. Qed.


Lemma split_rows {A} (z : A) (coords : list (list R)) topo w path n grid p :
  choose_path n path grid p = Ok path -> rect w topo -> valid_path w path ->
  exists t, split_cells z n path grid coords topo DNone p = Ok (coords, (t, DNone)) /\
    length t = (length topo * length path)%nat /\
    forall i cell k q, nth_error topo i = Some cell -> nth_error path k = Some q ->
      nth_error t (i * length path + k) = Some (reorder q cell).
Proof.
  intros Hp Hw Hv. destruct (split_cells_value z n path grid coords w topo p path Hp Hw Hv) as [t [V T]].
  exists t. split; auto. split.
  { apply mapM_length in V. rewrite V, prod_length; auto. }
  intros i cell k q Hi Hq.
  destruct (tr_value_get _ _ _ _ _ _ _ V Hi Hq) as [row [H1 H2]]. apply take_reorder in H2. subst row. auto.
Qed.

(** piece [k] of cell [i] after splitting every cell into [n] *)
Section Results.
  Context {A : Type} (z : A) (coords : list (list R)) (topo : list (list nat)).

  Lemma H8_volumes : rect 8 topo ->
    exists t, H8_to_TET4 z coords topo DNone PNone = Ok (coords, (t, DNone)) /\ length t = (length topo * 5)%nat /\
    forall i cell o u v w, nth_error topo i = Some cell -> affine_at lcoords_H8 coords cell o u v w ->
      enclosed_volume hull_H8 coords cell = 8 * det_uvw u v w /\
      forall k, (k < 5)%nat -> exists tet, nth_error t (i * 5 + k) = Some tet /\
        tet_nodes_volume coords tet = nth k [4/3; 4/3; 4/3; 4/3; 8/3] 0 * det_uvw u v w.
  Proof.
    intros Hr. destruct (split_rows z coords topo 8 path_H8_to_TET4 4 None PNone eq_refl Hr ltac:(check_path)) as [t [T [L H]]].
    exists t. split; auto. split; auto. intros i cell o u v w Hi Haff. pose proof (rect_nth _ _ _ _ Hr Hi) as Hl.
    split; [eapply H8_det; eauto|]. intros k Hk. destruct (nth_error_lt path_H8_to_TET4 k Hk) as [q Hq].
    exists (reorder q cell). split; [apply H; auto|]. eapply H8_tets; eauto.
  Qed.

  Lemma W6_volumes : rect 6 topo ->
    exists t, W6_to_TET4 z coords topo DNone PNone = Ok (coords, (t, DNone)) /\ length t = (length topo * 3)%nat /\
    forall i cell o u v w, nth_error topo i = Some cell -> affine_at lcoords_W6 coords cell o u v w ->
      enclosed_volume hull_W6 coords cell = det_uvw u v w /\
      forall k, (k < 3)%nat -> exists tet, nth_error t (i * 3 + k) = Some tet /\
        tet_nodes_volume coords tet = 1/3 * det_uvw u v w.
  Proof.
    intros Hr. destruct (split_rows z coords topo 6 path_W6_to_TET4 4 None PNone eq_refl Hr ltac:(check_path)) as [t [T [L H]]].
    exists t. split; auto. split; auto. intros i cell o u v w Hi Haff. pose proof (rect_nth _ _ _ _ Hr Hi) as Hl.
    split; [eapply W6_det; eauto|]. intros k Hk. destruct (nth_error_lt path_W6_to_TET4 k Hk) as [q Hq].
    exists (reorder q cell). split; [apply H; auto|]. eapply W6_tets; eauto.
  Qed.

  Lemma H27_volumes : rect 27 topo ->
    exists t, H27_to_H8 z true coords topo DNone PNone = Ok (coords, (t, DNone)) /\ length t = (length topo * 8)%nat /\
    forall i cell o u v w, nth_error topo i = Some cell -> affine_at lcoords_H27 coords cell o u v w ->
      enclosed_volume hull_H27 coords cell = 8 * det_uvw u v w /\
      forall k, (k < 8)%nat -> exists hex m, nth_error t (i * 8 + k) = Some hex /\ nth_error octants k = Some m /\
        mapped_at lcoords_H8 coords hex o u v w m /\ enclosed_volume hull_H8 coords hex = det_uvw u v w.
  Proof.
    intros Hr. destruct (split_rows z coords topo 27 path_H27_to_H8 8 None PNone eq_refl Hr ltac:(check_path)) as [t [T [L H]]].
    exists t. split; auto. split; auto. intros i cell o u v w Hi Haff.
    assert (HP : forall k, (k < 8)%nat -> exists hex m, nth_error t (i * 8 + k) = Some hex /\ nth_error octants k = Some m /\
        mapped_at lcoords_H8 coords hex o u v w m /\ enclosed_volume hull_H8 coords hex = det_uvw u v w).
    { intros k Hk. destruct (nth_error_lt path_H27_to_H8 k Hk) as [q Hq].
      destruct (H27_pieces coords cell o u v w k q Haff Hq) as [m [H1 [H2 H3]]].
      exists (reorder q cell), m. split; [apply H; auto|]. auto. }
    split; auto.
    destruct (H27_to_H8_volume coords topo z Hr) as [t' [T' [_ Hs]]].
    unfold H27_to_H8 in T'. rewrite T in T'. injection T' as <-.
    specialize (Hs i cell Hi). unfold pieces_add_up in Hs. rewrite <- Hs. unfold rsum.
    cbn [seq map fold_right].
    repeat match goal with |- context [nth (i * 8 + ?k) t []] =>
      let hex := fresh in let m := fresh in let E := fresh in let V := fresh in
      destruct (HP k ltac:(lia)) as [hex [m [E [_ [_ V]]]]]; rewrite (nth_error_nth _ _ [] E), V; clear E V end.
    ring.
  Qed.

  Lemma W18_volumes : rect 18 topo ->
    exists t, W18_to_W6 z true coords topo DNone PNone = Ok (coords, (t, DNone)) /\ length t = (length topo * 8)%nat /\
    forall i cell o u v w, nth_error topo i = Some cell -> affine_at lcoords_W18 coords cell o u v w ->
      enclosed_volume hull_W18 coords cell = det_uvw u v w /\
      forall k, (k < 8)%nat -> exists wedge m, nth_error t (i * 8 + k) = Some wedge /\ nth_error subprisms k = Some m /\
        mapped_at lcoords_W6 coords wedge o u v w m /\ enclosed_volume hull_W6 coords wedge = det_uvw u v w / 8.
  Proof.
    intros Hr. destruct (split_rows z coords topo 18 path_W18_to_W6 6 None PNone eq_refl Hr ltac:(check_path)) as [t [T [L H]]].
    exists t. split; auto. split; auto. intros i cell o u v w Hi Haff.
    assert (HP : forall k, (k < 8)%nat -> exists wedge m, nth_error t (i * 8 + k) = Some wedge /\ nth_error subprisms k = Some m /\
        mapped_at lcoords_W6 coords wedge o u v w m /\ enclosed_volume hull_W6 coords wedge = det_uvw u v w / 8).
    { intros k Hk. destruct (nth_error_lt path_W18_to_W6 k Hk) as [q Hq].
      destruct (W18_pieces coords cell o u v w k q Haff Hq) as [m [H1 [H2 H3]]].
      exists (reorder q cell), m. split; [apply H; auto|]. auto. }
    split; auto.
    destruct (W18_to_W6_volume coords topo z Hr) as [t' [T' [_ Hs]]].
    unfold W18_to_W6 in T'. rewrite T in T'. injection T' as <-.
    specialize (Hs i cell Hi). unfold pieces_add_up in Hs. rewrite <- Hs. unfold rsum.
    cbn [seq map fold_right].
    repeat match goal with |- context [nth (i * 8 + ?k) t []] =>
      let hex := fresh in let m := fresh in let E := fresh in let V := fresh in
      destruct (HP k ltac:(lia)) as [hex [m [E [_ [_ V]]]]]; rewrite (nth_error_nth _ _ [] E), V; clear E V end.
    field.
  Qed.

  Lemma TET10_volumes : rect 27 topo ->
    exists t, H27_to_TET10 z coords topo DNone PNone = Ok (coords, (t, DNone)) /\ length t = (length topo * 5)%nat /\
    forall i cell o u v w, nth_error topo i = Some cell -> affine_at lcoords_H27 coords cell o u v w ->
      forall k, (k < 5)%nat -> exists tet, nth_error t (i * 5 + k) = Some tet /\ length tet = 10%nat /\
        tet_nodes_volume coords tet = nth k [4/3; 4/3; 4/3; 4/3; 8/3] 0 * det_uvw u v w /\
        forall e a b, nth_error tetrahedron_edges e = Some [a; b] ->
          exists na nb nm, nth_error tet a = Some na /\ nth_error tet b = Some nb /\ nth_error tet (4 + e) = Some nm /\
            forall d, (d < 3)%nat -> coord coords nm d = (coord coords na d + coord coords nb d) / 2.
  Proof.
    intros Hr. destruct (split_rows z coords topo 27 path_H27_to_TET10 10 None PNone eq_refl Hr ltac:(check_path)) as [t [T [L H]]].
    exists t. split; auto. split; auto. intros i cell o u v w Hi Haff. pose proof (rect_nth _ _ _ _ Hr Hi) as Hl.
    intros k Hk. destruct (nth_error_lt path_H27_to_TET10 k Hk) as [q Hq].
    exists (reorder q cell). split; [apply H; auto|]. split.
    { unfold reorder. rewrite map_length. unfold path_H27_to_TET10 in Hq. each_piece Hq; reflexivity. }
    split; [eapply H27_tets; eauto|].
    intros e a b He. eapply TET10_midpoints; eauto. eapply nth_error_In; eauto.
  Qed.

  (** ** Pieces tile the cell *)
  Lemma H8_tiling : rect 8 topo ->
    exists t, H8_to_TET4 z coords topo DNone PNone = Ok (coords, (t, DNone)) /\
    forall i cell o u v w, nth_error topo i = Some cell -> affine_at lcoords_H8 coords cell o u v w ->
      (forall q, in_cell cube o u v w q -> exists k tet, (k < 5)%nat /\ nth_error t (i * 5 + k) = Some tet /\ in_tet coords tet q) /\
      (forall k tet q, (k < 5)%nat -> nth_error t (i * 5 + k) = Some tet -> in_tet coords tet q -> in_cell cube o u v w q) /\
      (det_uvw u v w <> 0 -> forall k k' tet tet' q, (k < 5)%nat -> (k' < 5)%nat ->
         nth_error t (i * 5 + k) = Some tet -> nth_error t (i * 5 + k') = Some tet' ->
         inside_tet coords tet q -> inside_tet coords tet' q -> k = k').
  Proof.
    intros Hr. destruct (split_rows z coords topo 8 path_H8_to_TET4 4 None PNone eq_refl Hr ltac:(check_path)) as [t [T [L H]]].
    exists t. split; auto. intros i cell o u v w Hi Haff.
    assert (Hrow : forall k tet, (k < 5)%nat -> nth_error t (i * 5 + k) = Some tet ->
       exists q, nth_error path_H8_to_TET4 k = Some q /\ tet = reorder q cell).
    { intros k tet Hk Ht. destruct (nth_error_lt path_H8_to_TET4 k Hk) as [q Hq]. exists q. split; auto.
      specialize (H i cell k q Hi Hq). simpl in H. congruence. }
    split; [|split].
    - intros q (r & s & t' & Hc & Hq). destruct (H8_cover coords cell o u v w Haff r s t' Hc) as (k & p & Hk & Hin).
      exists k, (reorder p cell). split; [apply nth_error_Some_lt in Hk; exact Hk|]. split; [apply H; auto|].
      destruct Hin as (l0 & l1 & l2 & l3 & [Hs (a & b & c & e & rest & E & Hb)] & Hp).
      exists l0, l1, l2, l3. split; auto. split; auto. exists a, b, c, e, rest. split; auto.
      intros d Hd. rewrite (Hq d Hd). auto.
    - intros k tet q Hk Ht Hin. destruct (Hrow k tet Hk Ht) as [p [Hp ->]].
      exact (H8_within coords cell o u v w Haff k p q Hp Hin).
    - intros HD k k' tet tet' q Hk Hk' Ht Ht' Hin Hin'.
      destruct (Hrow k tet Hk Ht) as [p [Hp ->]], (Hrow k' tet' Hk' Ht') as [p' [Hp' ->]].
      exact (H8_disjoint coords cell o u v w Haff k k' p p' q HD Hp Hp' Hin Hin').
  Qed.

  Lemma TET10_tiling : rect 27 topo ->
    exists t, H27_to_TET10 z coords topo DNone PNone = Ok (coords, (t, DNone)) /\
    forall i cell o u v w, nth_error topo i = Some cell -> affine_at lcoords_H27 coords cell o u v w ->
      (forall q, in_cell cube o u v w q -> exists k tet, (k < 5)%nat /\ nth_error t (i * 5 + k) = Some tet /\ in_tet coords tet q) /\
      (forall k tet q, (k < 5)%nat -> nth_error t (i * 5 + k) = Some tet -> in_tet coords tet q -> in_cell cube o u v w q) /\
      (det_uvw u v w <> 0 -> forall k k' tet tet' q, (k < 5)%nat -> (k' < 5)%nat ->
         nth_error t (i * 5 + k) = Some tet -> nth_error t (i * 5 + k') = Some tet' ->
         inside_tet coords tet q -> inside_tet coords tet' q -> k = k').
  Proof.
    intros Hr. destruct (split_rows z coords topo 27 path_H27_to_TET10 10 None PNone eq_refl Hr ltac:(check_path)) as [t [T [L H]]].
    exists t. split; auto. intros i cell o u v w Hi Haff27. pose proof (H27_corners _ _ _ _ _ _ Haff27) as Haff.
    pose proof (rect_nth _ _ _ _ Hr Hi) as Hl.
    assert (Hrow : forall k tet q, (k < 5)%nat -> nth_error t (i * 5 + k) = Some tet ->
       exists p, nth_error path_H8_to_TET4 k = Some p /\
         (in_tet coords tet q <-> in_tet coords (reorder p (firstn 8 cell)) q) /\
         (inside_tet coords tet q <-> inside_tet coords (reorder p (firstn 8 cell)) q)).
    { intros k tet q Hk Ht. destruct (nth_error_lt path_H27_to_TET10 k Hk) as [p Hp].
      pose proof (H i cell k p Hi Hp) as E. simpl in E. assert (tet = reorder p cell) by congruence. subst tet.
      destruct (TET10_tets coords cell p k q Hp ltac:(lia)) as (p4 & H1 & rest & _ & H2 & H3). exists p4. auto. }
    split; [|split].
    - intros q (r & s & t' & Hc & Hq). destruct (H8_cover coords (firstn 8 cell) o u v w Haff r s t' Hc) as (k & p & Hk & Hin).
      assert (Hk5 : (k < 5)%nat) by (apply nth_error_Some_lt in Hk; exact Hk).
      destruct (nth_error_lt path_H27_to_TET10 k Hk5) as [p10 Hp10].
      exists k, (reorder p10 cell). split; auto. pose proof (H i cell k p10 Hi Hp10) as E. split; auto.
      destruct (Hrow k _ q Hk5 E) as [p' [Hp' [Hiff _]]]. assert (p' = p) by congruence. subst p'. apply Hiff.
      destruct Hin as (l0 & l1 & l2 & l3 & [Hs (a & b & c & e & rest & E' & Hb)] & Hp).
      exists l0, l1, l2, l3. split; auto. split; auto. exists a, b, c, e, rest. split; auto.
      intros d Hd. rewrite (Hq d Hd). auto.
    - intros k tet q Hk Ht Hin. destruct (Hrow k tet q Hk Ht) as [p [Hp [Hiff _]]].
      apply Hiff in Hin. exact (H8_within coords _ o u v w Haff k p q Hp Hin).
    - intros HD k k' tet tet' q Hk Hk' Ht Ht' Hin Hin'.
      destruct (Hrow k tet q Hk Ht) as [p [Hp [_ E]]], (Hrow k' tet' q Hk' Ht') as [p' [Hp' [_ E']]].
      apply E in Hin. apply E' in Hin'.
      exact (H8_disjoint coords _ o u v w Haff k k' p p' q HD Hp Hp' Hin Hin').
  Qed.

  Lemma W6_no_tiling : rect 6 topo ->
    exists t, W6_to_TET4 z coords topo DNone PNone = Ok (coords, (t, DNone)) /\
    forall i cell o u v w, nth_error topo i = Some cell -> affine_at lcoords_W6 coords cell o u v w -> det_uvw u v w <> 0 ->
      (exists q, in_cell open_prism o u v w q /\
         forall k tet, (k < 3)%nat -> nth_error t (i * 3 + k) = Some tet -> ~ in_tet coords tet q) /\
      (exists q k k' tet tet', (k < 3)%nat /\ (k' < 3)%nat /\ k <> k' /\
         nth_error t (i * 3 + k) = Some tet /\ nth_error t (i * 3 + k') = Some tet' /\
         inside_tet coords tet q /\ inside_tet coords tet' q).
  Proof.
    intros Hr. destruct (split_rows z coords topo 6 path_W6_to_TET4 4 None PNone eq_refl Hr ltac:(check_path)) as [t [T [L H]]].
    exists t. split; auto. intros i cell o u v w Hi Haff HD. split.
    - exists (image o u v w (1/10) (1/10) 0). split.
      { exists (1/10), (1/10), 0. split; [unfold open_prism; lra|auto]. }
      intros k tet Hk Ht. destruct (nth_error_lt path_W6_to_TET4 k Hk) as [p Hp].
      pose proof (H i cell k p Hi Hp) as E. simpl in E. assert (tet = reorder p cell) by congruence. subst tet.
      apply W6_gap; auto. eapply nth_error_In; eauto.
    - destruct (W6_overlap coords cell o u v w Haff) as [H1 H2].
      exists (image o u v w (1/10) (8/10) 0), 1%nat, 2%nat, (reorder [3;5;4;2]%nat cell), (reorder [2;5;0;4]%nat cell).
      repeat split; auto; try lia; apply (H i cell _ _ Hi); reflexivity.
  Qed.

  Lemma H8_cell_conforming : rect 8 topo ->
    exists t, H8_to_TET4 z coords topo DNone PNone = Ok (coords, (t, DNone)) /\
    forall i cell o u v w, nth_error topo i = Some cell -> affine_at lcoords_H8 coords cell o u v w -> det_uvw u v w <> 0 ->
      conforming coords (firstn 5 (skipn (i * 5) t)).
  Proof.
    intros Hr. destruct (split_rows z coords topo 8 path_H8_to_TET4 4 None PNone eq_refl Hr ltac:(check_path)) as [t [T [L H]]].
    exists t. split; auto. intros i cell o u v w Hi Haff HD.
    assert (Hin : forall a, In a (firstn 5 (skipn (i * 5) t)) -> exists p, In p path_H8_to_TET4 /\ a = reorder p cell).
    { intros a Ha. apply In_nth_error in Ha. destruct Ha as [k Hk].
      assert (Hk5 : (k < 5)%nat).
      { apply nth_error_Some_lt in Hk. rewrite firstn_length in Hk. lia. }
      destruct (nth_error_lt path_H8_to_TET4 k Hk5) as [p Hp]. exists p. split; [eapply nth_error_In; eauto|].
      specialize (H i cell k p Hi Hp). simpl in H.
      assert (E : nth_error (firstn 5 (skipn (i * 5) t)) k = nth_error t (i * 5 + k)); [|congruence].
      clear - Hk5. rewrite <- nth_error_skipn'. revert Hk5. generalize (skipn (i * 5) t). generalize 5%nat.
      induction k as [|k IH]; intros [|m] [|x l] Hlt; simpl; auto; try lia. apply IH; lia. }
    intros a b q Ha Hb HA HB. destruct (Hin a Ha) as [p [Hp ->]], (Hin b Hb) as [p' [Hp' ->]].
    eapply H8_conforming_cell; eauto.
  Qed.
End Results.
