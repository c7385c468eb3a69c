(** * Proofs about [ExtrudeModel.v], part 5: neighbours with different diagonals; extruding triangle meshes *)
From Coq Require Import Reals Lra Lia List Psatz.
From Verif Require Import BaseFacts FillFacts TrModel TrProofs EvalProofs ShapeProofs2 ShapeProofs4 TriProofs NodalProofs4 ExtrudeModel ExtrudeSpec ExtrudeProofs ExtrudeProofs2 ExtrudeProofs3 ExtrudeProofs4.
Import ListNotations.
Local Open Scope R_scope.

(** the diagonal of the face above the edge from [u] to [v] *)
Lemma diagonal points h m coords n t u v p : layered points h m coords -> (n < m)%nat -> h <> 0 -> length t = 3%nat /\ Forall (fun k => (k < length points)%nat) t -> tri_area points t <> 0 -> before u v t ->
  (forall d, (d < 2)%nat -> p d = (coord points u d + coord points v d) / 2) -> p 2%nat = z_at h m n + / 2 * (h / INR m) ->
  exists kk, (kk < 3)%nat /\ in_tet coords (tet_rows (length points) n t kk) p /\
    ~ (In (lift (length points) n v) (tet_rows (length points) n t kk) /\ In (lift (length points) (n + 1) u) (tet_rows (length points) n t kk)) /\
    forall l0 l1 l2 l3, barycentric coords (tet_rows (length points) n t kk) p l0 l1 l2 l3 ->
      (exists pos l, nth_error [l0; l1; l2; l3] pos = Some l /\ l <> 0 /\ nth_error (tet_rows (length points) n t kk) pos = Some (lift (length points) n u)) /\
      (exists pos l, nth_error [l0; l1; l2; l3] pos = Some l /\ l <> 0 /\ nth_error (tet_rows (length points) n t kk) pos = Some (lift (length points) (n + 1) v)).
Proof.
  intros HL Hn Hh Ht HA HB Hp Hz. destruct (three _ _ Ht) as (i & j & k & -> & Hi & Hj & Hk). destruct (area_nodup _ _ _ _ HA) as (D1 & D2 & D3).
  assert (Ln : forall x y, (x < length points)%nat -> (y < length points)%nat -> lift (length points) n x = lift (length points) (n + 1) y -> False) by (unfold lift; intros; nia).
  assert (Ls : forall l x y, lift (length points) l x = lift (length points) l y -> x = y) by (unfold lift; intros; lia).
  destruct (before3 _ _ _ _ _ HB) as [[-> ->]|[[-> ->]|[-> ->]]].
  - exists 1%nat. split; [lia|]. assert (HW : tri_weights points [i; j; k] p (/ 2) (/ 2) 0) by (split; [lra|]; exists i, j, k; split; [reflexivity|]; intros d Hd; rewrite (Hp d Hd); field).
    pose proof (tri_bary points h m coords HL n [i; j; k] 1 p _ _ _ _ Hn Ht ltac:(lia) HW Hz) as HBy. cbn [tet_of] in HBy. split; [do 4 eexists; split; [exact HBy|lra]|]. split.
    + cbn [tet_rows]. intros [_ [E|[E|[E|[E|[]]]]]]; try (now apply Ln in E); apply Ls in E; congruence.
    + intros l0 l1 l2 l3 HBl. pose proof (bary_tri points h m coords HL n _ 1 p _ _ _ _ Hn Ht ltac:(lia) HBl) as H. cbn [tri_of] in H. destruct H as [HW' Hz']. rewrite Hz in Hz'. apply (height_unique h m n) in Hz'; [|exact Hh|lia]. destruct (weights_unique points _ p _ _ _ _ _ _ HA HW HW') as (E1 & E2 & E3).
      split; [exists 0%nat, l0; cbn; repeat split; lra|exists 3%nat, l3; cbn; repeat split; lra].
  - exists 0%nat. split; [lia|]. assert (HW : tri_weights points [i; j; k] p (/ 2) 0 (/ 2)) by (split; [lra|]; exists i, j, k; split; [reflexivity|]; intros d Hd; rewrite (Hp d Hd); field).
    pose proof (tri_bary points h m coords HL n [i; j; k] 0 p _ _ _ _ Hn Ht ltac:(lia) HW Hz) as HBy. cbn [tet_of] in HBy. split; [do 4 eexists; split; [exact HBy|lra]|]. split.
    + cbn [tet_rows]. intros [_ [E|[E|[E|[E|[]]]]]]; try (now apply Ln in E); apply Ls in E; congruence.
    + intros l0 l1 l2 l3 HBl. pose proof (bary_tri points h m coords HL n _ 0 p _ _ _ _ Hn Ht ltac:(lia) HBl) as H. cbn [tri_of] in H. destruct H as [HW' Hz']. rewrite Hz in Hz'. apply (height_unique h m n) in Hz'; [|exact Hh|lia]. destruct (weights_unique points _ p _ _ _ _ _ _ HA HW HW') as (E1 & E2 & E3).
      split; [exists 0%nat, l0; cbn; repeat split; lra|exists 3%nat, l3; cbn; repeat split; lra].
  - exists 0%nat. split; [lia|]. assert (HW : tri_weights points [i; j; k] p 0 (/ 2) (/ 2)) by (split; [lra|]; exists i, j, k; split; [reflexivity|]; intros d Hd; rewrite (Hp d Hd); field).
    pose proof (tri_bary points h m coords HL n [i; j; k] 0 p _ _ _ _ Hn Ht ltac:(lia) HW Hz) as HBy. cbn [tet_of] in HBy. split; [do 4 eexists; split; [exact HBy|lra]|]. split.
    + cbn [tet_rows]. intros [_ [E|[E|[E|[E|[]]]]]]; try (now apply Ln in E); apply Ls in E; congruence.
    + intros l0 l1 l2 l3 HBl. pose proof (bary_tri points h m coords HL n _ 0 p _ _ _ _ Hn Ht ltac:(lia) HBl) as H. cbn [tri_of] in H. destruct H as [HW' Hz']. rewrite Hz in Hz'. apply (height_unique h m n) in Hz'; [|exact Hh|lia]. destruct (weights_unique points _ p _ _ _ _ _ _ HA HW HW') as (E1 & E2 & E3).
      split; [exists 1%nat, l1; cbn; repeat split; lra|exists 3%nat, l3; cbn; repeat split; lra].
Qed.

Lemma tet4_not_conforming : forall points triangles h m s t u v, plane_points points -> triangles_of (length points) triangles -> (0 < m)%nat -> h <> 0 -> solid_triangles points triangles ->
  In s triangles -> In t triangles -> before u v s -> before v u t ->
  exists coords topo, extrude_T3_TET4 Floating points triangles h m = Ok (coords, topo) /\ ~ conforming coords topo.
Proof.
  intros points triangles h m s t u v HP HT Hm Hh HA Hs Ht HBs HBt. exists (layers Floating points h m), (tets (length points) triangles m). split; [now apply tet4_value|].
  pose proof (layers_layered points h m Hm) as HL. set (coords := layers Floating points h m) in *.
  set (p := fun d : nat => match d with 0 => (coord points u 0 + coord points v 0) / 2 | 1 => (coord points u 1 + coord points v 1) / 2 | _ => z_at h m 0 + / 2 * (h / INR m) end).
  pose proof (proj1 (Forall_forall _ _) HT _ Hs) as Ts. pose proof (proj1 (Forall_forall _ _) HT _ Ht) as Tt. pose proof (proj1 (Forall_forall _ _) HA _ Hs) as As. pose proof (proj1 (Forall_forall _ _) HA _ Ht) as At. cbn beta in As, At.
  destruct (diagonal points h m coords 0 s u v p HL Hm Hh Ts As HBs) as (ka & Hka & Ia & _ & Wa); [intros d Hd; destruct d as [|[|d]]; [reflexivity|reflexivity|lia]|reflexivity|].
  destruct (diagonal points h m coords 0 t v u p HL Hm Hh Tt At HBt) as (kb & Hkb & Ib & Nb & _); [intros d Hd; destruct d as [|[|d]]; [unfold p; field|unfold p; field|lia]|reflexivity|].
  intros HC. apply In_nth_error in Hs. destruct Hs as [js Hjs]. apply In_nth_error in Ht. destruct Ht as [jt Hjt].
  destruct (HC (tet_rows (length points) 0 s ka) (tet_rows (length points) 0 t kb) p) as (l0 & l1 & l2 & l3 & HB & HIn); auto.
  - eapply nth_error_In. apply (tets_nth (length points) triangles m 0 js s ka Hm Hjs Hka).
  - eapply nth_error_In. apply (tets_nth (length points) triangles m 0 jt t kb Hm Hjt Hkb).
  - apply Nb. destruct (Wa _ _ _ _ HB) as [(p1 & x1 & E1 & N1 & M1) (p2 & x2 & E2 & N2 & M2)]. split; [apply (HIn p1 x1 _ E1 M1 N1)|apply (HIn p2 x2 _ E2 M2 N2)].
Qed.

(** the exact condition *)
Lemma tet4_conforming_iff : forall points triangles h m, plane_points points -> triangles_of (length points) triangles -> (0 < m)%nat -> h <> 0 -> solid_triangles points triangles -> conforming_plane points triangles ->
  exists coords topo, extrude_T3_TET4 Floating points triangles h m = Ok (coords, topo) /\ (conforming coords topo <-> same_order triangles).
Proof.
  intros points triangles h m HP HT Hm Hh HA HC. exists (layers Floating points h m), (tets (length points) triangles m). split; [now apply tet4_value|]. split.
  - intros H s t u v Hs Ht HB HB'. destruct (tet4_not_conforming points triangles h m s t u v HP HT Hm Hh HA Hs Ht HB HB') as (c & t' & E & N). rewrite (tet4_value Floating points triangles h m HP HT) in E. injection E as <- <-. contradiction.
  - intros HO. apply (tets_conforming points triangles h m); auto. now apply layers_layered.
Qed.
Lemma ordered_same : forall n triangles, triangles_of n triangles -> ordered_triangles triangles -> same_order triangles.
Proof.
  intros n triangles HT [rank HR] s t u v Hs Ht HB HB'.
  assert (R : forall w, In w triangles -> forall x y, before x y w -> (rank x < rank y)%nat).
  { intros w Hw x y Hb. destruct (three w n) as (i & j & k & -> & _); [apply (proj1 (Forall_forall _ _) HT _ Hw)|]. pose proof (HR _ _ _ _ Hw eq_refl) as Q. destruct (before3 _ _ _ _ _ Hb) as [[-> ->]|[[-> ->]|[-> ->]]]; lia. }
  pose proof (R s Hs _ _ HB). pose proof (R t Ht _ _ HB'). lia.
Qed.
