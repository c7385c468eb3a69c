(** * Proofs about [TrModel.v], part 5: splitting of cells, reference numbering *)
From Coq Require Import Reals Lra.
From Verif Require Export ElevProofs2 SplitSpec.
Local Open Scope R_scope.
Arguments coord : simpl never.

Lemma take_reorder cell p row : take cell p = Ok row -> row = reorder p cell.
Proof.
  unfold take, reorder. revert row; induction p as [|q p IH]; intros row H; simpl in H; inv_ok; auto.
  simpl. f_equal; auto. apply get_Ok in Hok. symmetry. apply nth_error_nth; auto.
Qed.

Lemma pieces_map topo path t i cell (f : list nat -> R) :
  tr_value topo path = Ok t -> nth_error topo i = Some cell ->
  map (fun k => f (nth (i * length path + k) t [])) (seq 0 (length path)) = map (fun p => f (reorder p cell)) path.
Proof.
  intros Ht Hi. apply nth_error_ext. intros k. rewrite !nth_error_map, nth_error_seq'.
  destruct (k <? length path)%nat eqn:E.
  - apply Nat.ltb_lt in E. destruct (nth_error_lt _ _ E) as [p Hp]. rewrite Hp. simpl.
    destruct (tr_value_get _ _ _ _ _ _ _ Ht Hi Hp) as [row [H1 H2]].
    rewrite (nth_error_nth _ _ _ H1). f_equal. f_equal. apply take_reorder; auto.
  - apply Nat.ltb_ge in E. rewrite nth_error_ge by auto. auto.
Qed.

(** the values of a splitting function with a fixed path *)
Lemma split_cells_value {C A} (z : A) n dflt grid (coords : C) w topo p path :
  choose_path n dflt grid p = Ok path -> rect w topo -> valid_path w path ->
  exists t, tr_value topo path = Ok t /\ split_cells z n dflt grid coords topo DNone p = Ok (coords, (t, DNone)).
Proof.
  intros Hp Hw Hv. destruct (transform_value 0%nat w topo path Hw Hv) as [t [V T]].
  exists t. split; auto. unfold split_cells. rewrite Hp. cbn [bind]. unfold transform_topology. cbn [path_rows].
  rewrite T. reflexivity.
Qed.

Lemma piece_nth topo path t i k cell p :
  tr_value topo path = Ok t -> nth_error topo i = Some cell -> nth_error path k = Some p ->
  nth (i * length path + k) t [] = reorder p cell.
Proof.
  intros Ht Hi Hk. destruct (tr_value_get _ _ _ _ _ _ _ Ht Hi Hk) as [row [H1 H2]].
  rewrite (nth_error_nth _ _ _ H1). apply take_reorder; auto.
Qed.

Ltac check_path :=
  split; [eexists; repeat constructor|];
  let p := fresh in let q := fresh in let H := fresh in intros p q H; simpl in H;
  repeat (destruct H as [<-|H]; [let H' := fresh in intros H'; simpl in H'; repeat (destruct H' as [<-|H']; [lia|]); contradiction|]);
  contradiction.

Ltac open_cell cell H :=
  repeat match type of H with
  | length cell = S _ => fail 1
  | length ?c = S _ => destruct c; simpl in H; [discriminate|injection H as H]
  | length ?c = O => destruct c; [|discriminate]; clear H
  end.

Ltac explode Hl :=
  repeat match type of Hl with
  | length ?c = S _ => destruct c; simpl in Hl; [discriminate|injection Hl as Hl]
  | length ?c = O => destruct c; [|discriminate]; clear Hl
  end.

Lemma split_pieces {C A} (z : A) n dflt grid (coords : C) w topo p path f m :
  choose_path n dflt grid p = Ok path -> rect w topo -> valid_path w path ->
  (forall cell, length cell = w -> rsum (map (fun p => f (reorder p cell)) path) = m cell) ->
  exists t, split_cells z n dflt grid coords topo DNone p = Ok (coords, (t, DNone)) /\
    length t = (length topo * length path)%nat /\
    forall i cell, nth_error topo i = Some cell -> pieces_add_up (length path) f t i (m cell).
Proof.
  intros Hp Hw Hv Hf. destruct (split_cells_value z n dflt grid coords w topo p path Hp Hw Hv) as [t [V T]].
  exists t. split; auto. split.
  { apply mapM_length in V. rewrite V, prod_length; auto. }
  intros i cell Hi. unfold pieces_add_up. rewrite (pieces_map topo path t i cell f V Hi).
  apply Hf. eapply rect_nth; eauto.
Qed.

Ltac area_identity :=
  intros cell Hl; explode Hl;
  unfold reorder, rsum, polygon_area, loop_T3, loop_Q4, loop_T6, loop_Q8, loop_Q4_grid, loop_Q9_grid;
  simpl; unfold cross2; field.

Section Plane.
  Context (coords : list (list R)) (topo : list (list nat)).

  Lemma Q4_to_T3_area {A} (z : A) : rect 4 topo ->
    exists t, Q4_to_T3 z coords topo DNone PNone = Ok (coords, (t, DNone)) /\ length t = (length topo * 2)%nat /\
      forall i cell, nth_error topo i = Some cell ->
        pieces_add_up 2 (polygon_area coords) t i (polygon_area coords (reorder loop_Q4 cell)).
  Proof. intros Hr. apply (split_pieces z 3 _ _ coords 4 topo PNone path_Q4_to_T3 _ (fun cell => polygon_area coords (reorder loop_Q4 cell))); auto; [check_path|]. area_identity. Qed.

  Lemma Q4_to_T3_grid_area {A} (z : A) : rect 4 topo ->
    exists t, Q4_to_T3 z coords topo DNone PGrid = Ok (coords, (t, DNone)) /\ length t = (length topo * 2)%nat /\
      forall i cell, nth_error topo i = Some cell ->
        pieces_add_up 2 (polygon_area coords) t i (polygon_area coords (reorder loop_Q4_grid cell)).
  Proof. intros Hr. apply (split_pieces z 3 _ _ coords 4 topo PGrid path_Q4_to_T3_grid _ (fun cell => polygon_area coords (reorder loop_Q4_grid cell))); auto; [check_path|]. area_identity. Qed.

  Lemma T6_to_T3_area {A} (z : A) : rect 6 topo ->
    exists t, T6_to_T3 z true coords topo DNone PNone = Ok (coords, (t, DNone)) /\ length t = (length topo * 4)%nat /\
      forall i cell, nth_error topo i = Some cell ->
        pieces_add_up 4 (polygon_area coords) t i (polygon_area coords (reorder loop_T6 cell)).
  Proof. intros Hr. apply (split_pieces z 3 _ _ coords 6 topo PNone path_T6_to_T3 _ (fun cell => polygon_area coords (reorder loop_T6 cell))); auto; [check_path|]. area_identity. Qed.

  Lemma T6_to_T3_corner_area {A} (z : A) : rect 6 topo ->
    exists t, T6_to_T3 z false coords topo DNone PNone = Ok (coords, (t, DNone)) /\ length t = (length topo * 1)%nat /\
      forall i cell, nth_error topo i = Some cell ->
        pieces_add_up 1 (polygon_area coords) t i (polygon_area coords (reorder loop_T3 cell)).
  Proof. intros Hr. apply (split_pieces z 3 _ _ coords 6 topo PNone [[0;1;2]]%nat _ (fun cell => polygon_area coords (reorder loop_T3 cell))); auto; [check_path|]. area_identity. Qed.

  Lemma Q8_to_T3_area {A} (z : A) : rect 8 topo ->
    exists t, Q8_to_T3 z coords topo DNone PNone = Ok (coords, (t, DNone)) /\ length t = (length topo * 6)%nat /\
      forall i cell, nth_error topo i = Some cell ->
        pieces_add_up 6 (polygon_area coords) t i (polygon_area coords (reorder loop_Q8 cell)).
  Proof. intros Hr. apply (split_pieces z 3 _ _ coords 8 topo PNone path_Q8_to_T3 _ (fun cell => polygon_area coords (reorder loop_Q8 cell))); auto; [check_path|]. area_identity. Qed.

  Lemma Q9_to_Q4_area {A} (z : A) : rect 9 topo ->
    exists t, Q9_to_Q4 z coords topo DNone PNone = Ok (coords, (t, DNone)) /\ length t = (length topo * 4)%nat /\
      forall i cell, nth_error topo i = Some cell ->
        pieces_add_up 4 (polygon_area coords) t i (polygon_area coords (reorder loop_Q8 cell)).
  Proof. intros Hr. apply (split_pieces z 4 _ _ coords 9 topo PNone path_Q9_to_Q4 _ (fun cell => polygon_area coords (reorder loop_Q8 cell))); auto; [check_path|]. area_identity. Qed.

  Lemma Q9_to_Q4_grid_area {A} (z : A) : rect 9 topo ->
    exists t, Q9_to_Q4 z coords topo DNone PGrid = Ok (coords, (t, DNone)) /\ length t = (length topo * 4)%nat /\
      forall i cell, nth_error topo i = Some cell ->
        pieces_add_up 4 (polygon_area coords) t i (polygon_area coords (reorder loop_Q9_grid cell)).
  Proof. intros Hr. apply (split_pieces z 4 _ _ coords 9 topo PGrid path_Q9_to_Q4_grid _ (fun cell => polygon_area coords (reorder loop_Q9_grid cell))); auto; [check_path|]. area_identity. Qed.
End Plane.
