(** * Proofs about [TrModel.v], part 6: splitting of solids *)
From Coq Require Import Reals Lra.
From Verif Require Export SplitProofs.
Local Open Scope R_scope.
Arguments coord : simpl never.

Ltac volume_unfold :=
  unfold reorder, rsum, enclosed_volume, face_cone, hull_H8, hull_H27, hull_W6, hull_W18, hull_H8_tri; simpl;
  unfold reorder; simpl; unfold rsum; simpl; unfold quad_cone, tri_cone, tet_nodes_volume, tet_volume, det3.

Section Space.
  Context (coords : list (list R)) (topo : list (list nat)).

  Lemma H27_to_H8_volume {A} (z : A) : rect 27 topo ->
    exists t, H27_to_H8 z true coords topo DNone PNone = Ok (coords, (t, DNone)) /\ length t = (length topo * 8)%nat /\
      forall i cell, nth_error topo i = Some cell ->
        pieces_add_up 8 (enclosed_volume hull_H8 coords) t i (enclosed_volume hull_H27 coords cell).
  Proof.
    intros Hr. apply (split_pieces z 8 _ _ coords 27 topo PNone path_H27_to_H8 _ (fun cell => enclosed_volume hull_H27 coords cell)); auto; [check_path|].
    intros cell Hl; explode Hl. volume_unfold. field.
  Qed.

  Lemma W18_to_W6_volume {A} (z : A) : rect 18 topo ->
    exists t, W18_to_W6 z true coords topo DNone PNone = Ok (coords, (t, DNone)) /\ length t = (length topo * 8)%nat /\
      forall i cell, nth_error topo i = Some cell ->
        pieces_add_up 8 (enclosed_volume hull_W6 coords) t i (enclosed_volume hull_W18 coords cell).
  Proof.
    intros Hr. apply (split_pieces z 6 _ _ coords 18 topo PNone path_W18_to_W6 _ (fun cell => enclosed_volume hull_W18 coords cell)); auto; [check_path|].
    intros cell Hl; explode Hl. volume_unfold. field.
  Qed.

  Lemma H8_to_TET4_volume {A} (z : A) : rect 8 topo ->
    exists t, H8_to_TET4 z coords topo DNone PNone = Ok (coords, (t, DNone)) /\ length t = (length topo * 5)%nat /\
      forall i cell, nth_error topo i = Some cell ->
        pieces_add_up 5 (tet_nodes_volume coords) t i (enclosed_volume hull_H8_tri coords cell).
  Proof.
    intros Hr. apply (split_pieces z 4 _ _ coords 8 topo PNone path_H8_to_TET4 _ (fun cell => enclosed_volume hull_H8_tri coords cell)); auto; [check_path|].
    intros cell Hl; explode Hl. volume_unfold. field.
  Qed.
End Space.

