(** * Proofs about [TrModel.v], part 7: pieces of affine solids *)
From Coq Require Import Reals Lra.
From Verif Require Export SplitProofs.
Local Open Scope R_scope.
Arguments coord : simpl never.

(** ** Affine cells: the volume of every single piece *)

(** the nodes of an affine cell, one by one *)
Ltac affine_nodes H c :=
  lazymatch type of H with
  | forall k r s t, nth_error ?L k = Some [r; s; t] -> _ =>
      let L' := eval cbv in (length L) in
      lazymatch L' with
      | c => idtac
      | _ =>
        let n := fresh "n" in let Hn := fresh "Hn" in let Hc := fresh "Hc" in
        destruct (H c _ _ _ eq_refl) as [n [Hn Hc]]; simpl in Hn; injection Hn as <-;
        affine_nodes H (S c)
      end
  end.


Ltac volume_unfold :=
  unfold reorder, rsum, enclosed_volume, face_cone, hull_H8, hull_H27, hull_W6, hull_W18, hull_H8_tri; simpl;
  unfold reorder; simpl; unfold rsum; simpl; unfold quad_cone, tri_cone, tet_nodes_volume, tet_volume, det3.

Ltac affine_volume Hl Haff :=
  unfold affine_at, image in Haff; explode Hl;
  affine_nodes Haff O; clear Haff; volume_unfold;
  repeat match goal with H : forall d, (d < 3)%nat -> coord _ ?n d = _ |- _ =>
    rewrite ?(H 0%nat), ?(H 1%nat), ?(H 2%nat) by lia; clear H end;
  unfold det_uvw; cbn [kofZ kdiv NumR]; field.
Ltac each_piece Hk :=
  repeat match type of Hk with
  | nth_error (?x :: _) ?k = Some _ => destruct k as [|k]; [injection Hk as <-|simpl in Hk]
  | nth_error [] ?k = _ => destruct k; discriminate
  end.

Local Open Scope R_scope.
Section Affine.
  Context (coords : list (list R)) (cell : list nat) (o u v w : nat -> R).
  Local Notation D := (det_uvw u v w).

  Lemma H8_det : length cell = 8%nat -> affine_at lcoords_H8 coords cell o u v w ->
    enclosed_volume hull_H8 coords cell = 8 * D.
  Proof. intros Hl Haff. affine_volume Hl Haff. Qed.
  Lemma H8_tets : length cell = 8%nat -> affine_at lcoords_H8 coords cell o u v w ->
    forall k p, nth_error path_H8_to_TET4 k = Some p ->
    tet_nodes_volume coords (reorder p cell) = nth k [4/3; 4/3; 4/3; 4/3; 8/3] 0 * D.
  Proof. intros Hl Haff k p Hk. unfold path_H8_to_TET4 in Hk. each_piece Hk; simpl nth; affine_volume Hl Haff. Qed.

  Lemma W6_det : length cell = 6%nat -> affine_at lcoords_W6 coords cell o u v w ->
    enclosed_volume hull_W6 coords cell = D.
  Proof. intros Hl Haff. affine_volume Hl Haff. Qed.
  Lemma W6_tets : length cell = 6%nat -> affine_at lcoords_W6 coords cell o u v w ->
    forall k p, nth_error path_W6_to_TET4 k = Some p ->
    tet_nodes_volume coords (reorder p cell) = 1/3 * D.
  Proof. intros Hl Haff k p Hk. unfold path_W6_to_TET4 in Hk. each_piece Hk; affine_volume Hl Haff. Qed.

  Lemma H27_tets : length cell = 27%nat -> affine_at lcoords_H27 coords cell o u v w ->
    forall k p, nth_error path_H27_to_TET10 k = Some p ->
    tet_nodes_volume coords (reorder p cell) = nth k [4/3; 4/3; 4/3; 4/3; 8/3] 0 * D.
  Proof. intros Hl Haff k p Hk. unfold path_H27_to_TET10 in Hk. each_piece Hk; simpl nth; affine_volume Hl Haff. Qed.

End Affine.
