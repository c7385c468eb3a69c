(** * Proofs about [ExtrudeModel.v], part 3: the meshes *)
From Coq Require Import Reals Lra Lia List Psatz.
From Verif Require Import BaseFacts FillFacts TrModel TrProofs EvalProofs ShapeProofs2 ShapeProofs4 TriProofs ExtrudeModel ExtrudeSpec ExtrudeProofs ExtrudeProofs2.
Import ListNotations.
Local Open Scope R_scope.

Lemma rsum_map_concat {A B} (f : B -> R) (g : A -> list B) l : rsum (map f (concat (map g l))) = rsum (map (fun x => rsum (map f (g x))) l).
Proof. induction l as [|x l IH]; [reflexivity|]. cbn [map concat]. rewrite map_app, rsum_app, IH. reflexivity. Qed.
Lemma rsum_const {A} (f : A -> R) l c : (forall x, In x l -> f x = c) -> rsum (map f l) = INR (length l) * c.
Proof.
  induction l as [|x l IH]; intros H; [cbn; ring|]. cbn [map length]. rewrite S_INR. change (rsum (f x :: map f l)) with (f x + rsum (map f l)). rewrite IH by (intros y Hy; apply H; now right). rewrite (H x) by now left. ring.
Qed.
Lemma rsum_list_prod {A B} (f : A * B -> R) (l : list A) (l' : list B) : rsum (map f (list_prod l l')) = rsum (map (fun a => rsum (map (fun b => f (a, b)) l')) l).
Proof. induction l as [|a l IH]; [reflexivity|]. cbn [list_prod map]. rewrite map_app, rsum_app, IH, map_map. reflexivity. Qed.
Lemma rsum_ext {A} (f g : A -> R) l : (forall x, In x l -> f x = g x) -> rsum (map f l) = rsum (map g l).
Proof. intros H. f_equal. now apply map_ext_in. Qed.
Lemma rsum_mult {A} (f : A -> R) c l : rsum (map (fun x => f x * c) l) = rsum (map f l) * c.
Proof. induction l as [|x l IH]; [cbn; ring|]. cbn [map]. change (f x * c + rsum (map (fun x => f x * c) l) = (f x + rsum (map f l)) * c). rewrite IH. ring. Qed.

Lemma tets_range points triangles m h coords : layered points h m coords -> triangles_of (length points) triangles -> in_range (length coords) (tets (length points) triangles m) /\ rect 4 (tets (length points) triangles m) /\ length (tets (length points) triangles m) = (3 * (length triangles * m))%nat.
Proof.
  intros (HL & _) HT. split; [|split].
  - apply Forall_forall. intros row Hr. apply In_nth_error in Hr. destruct Hr as [n Hn]. apply tets_inv in Hn. destruct Hn as (i & j & t & k & Hi & Hj & Hk & -> & ->).
    destruct (three t (length points)) as (a & b & c & -> & Ha & Hb & Hc); [apply (proj1 (Forall_forall _ _) HT); eapply nth_error_In; eauto|]. rewrite HL.
    assert (B0 : forall x, (x < length points)%nat -> (lift (length points) i x < length points * (m + 1))%nat) by (intros x Hx; unfold lift; nia).
    assert (B1 : forall x, (x < length points)%nat -> (lift (length points) (i + 1) x < length points * (m + 1))%nat) by (intros x Hx; unfold lift; nia).
    destruct k as [|[|k]]; cbn [tet_rows]; repeat constructor; auto.
  - apply Forall_forall. intros row Hr. apply In_nth_error in Hr. destruct Hr as [n Hn]. apply tets_inv in Hn. destruct Hn as (i & j & t & k & Hi & Hj & Hk & -> & ->). apply tet_rows_length. apply (proj1 (Forall_forall _ _) HT). eapply nth_error_In; eauto.
  - unfold tets. rewrite map_length, !prod_length, !seq_length. lia.
Qed.
Lemma wedges_range points triangles m h coords : layered points h m coords -> triangles_of (length points) triangles -> in_range (length coords) (wedges (length points) triangles m) /\ rect 6 (wedges (length points) triangles m) /\ length (wedges (length points) triangles m) = (length triangles * m)%nat.
Proof.
  intros (HL & _) HT. split; [|split].
  - apply Forall_forall. intros row Hr. apply In_nth_error in Hr. destruct Hr as [n Hn]. apply wedges_inv in Hn. destruct Hn as (i & j & t & Hi & Hj & -> & ->).
    destruct (three t (length points)) as (a & b & c & -> & Ha & Hb & Hc); [apply (proj1 (Forall_forall _ _) HT); eapply nth_error_In; eauto|]. rewrite HL.
    assert (B0 : forall x, (x < length points)%nat -> (lift (length points) i x < length points * (m + 1))%nat) by (intros x Hx; unfold lift; nia).
    assert (B1 : forall x, (x < length points)%nat -> (lift (length points) (i + 1) x < length points * (m + 1))%nat) by (intros x Hx; unfold lift; nia).
    unfold wedge_row. cbn [map app]. repeat constructor; auto.
  - apply Forall_forall. intros row Hr. apply In_nth_error in Hr. destruct Hr as [n Hn]. apply wedges_inv in Hn. destruct Hn as (i & j & t & Hi & Hj & -> & ->). unfold wedge_row. rewrite app_length, !map_length.
    destruct (proj1 (Forall_forall _ _) HT t) as [-> _]; [eapply nth_error_In; eauto|reflexivity].
  - unfold wedges. rewrite map_length, !prod_length, !seq_length. lia.
Qed.

Lemma tets_total points triangles m h coords : layered points h m coords -> (0 < m)%nat -> triangles_of (length points) triangles ->
  rsum (map (tet_nodes_volume coords) (tets (length points) triangles m)) = rsum (map (tri_area points) triangles) * h.
Proof.
  intros HL Hm HT. unfold tets. rewrite map_map, rsum_list_prod, rsum_list_prod.
  rewrite (rsum_const _ _ (rsum (map (tri_area points) triangles) * (h / INR m))).
  - rewrite seq_length. field. apply not_0_INR. lia.
  - intros i Hi. apply in_seq in Hi. rewrite <- rsum_mult. apply rsum_ext. intros t Ht. cbn [fst snd].
    rewrite (rsum_const _ _ (tri_area points t * h / (3 * INR m))); [rewrite seq_length; cbn [INR]; field; apply not_0_INR; lia|].
    intros k Hk. apply in_seq in Hk. apply (tet_row_volume points h m); auto; try lia. apply (proj1 (Forall_forall _ _) HT _ Ht).
Qed.
Lemma wedges_total points triangles m h coords : layered points h m coords -> (0 < m)%nat -> triangles_of (length points) triangles ->
  rsum (map (enclosed_volume hull_W6 coords) (wedges (length points) triangles m)) = rsum (map (tri_area points) triangles) * h.
Proof.
  intros HL Hm HT. unfold wedges. rewrite map_map, rsum_list_prod.
  rewrite (rsum_const _ _ (rsum (map (tri_area points) triangles) * (h / INR m))).
  - rewrite seq_length. field. apply not_0_INR. lia.
  - intros i Hi. apply in_seq in Hi. rewrite <- rsum_mult. apply rsum_ext. intros t Ht. cbn [fst snd].
    rewrite (wedge_row_volume points h m); auto; try lia; [unfold Rdiv; ring|]. apply (proj1 (Forall_forall _ _) HT _ Ht).
Qed.

(** ** extrude_T3_TET4 *)

Lemma tet4_mesh : forall points triangles h m, plane_points points -> triangles_of (length points) triangles -> (0 < m)%nat ->
  exists coords topo, extrude_T3_TET4 Floating points triangles h m = Ok (coords, topo) /\ layered points h m coords /\
    length topo = (3 * (length triangles * m))%nat /\ rect 4 topo /\ in_range (length coords) topo /\
    rsum (map (tet_nodes_volume coords) topo) = rsum (map (tri_area points) triangles) * h /\
    forall i j t, (i < m)%nat -> nth_error triangles j = Some t -> exists T : nat -> list nat,
      (forall k, (k < 3)%nat -> nth_error topo (3 * (length triangles * i + j) + k) = Some (T k) /\ tet_nodes_volume coords (T k) = tri_area points t * h / (3 * INR m)) /\
      (forall p, in_prism points t (h * INR i / INR m) (h * INR (i + 1) / INR m) p <-> exists k, (k < 3)%nat /\ in_tet coords (T k) p) /\
      (tri_area points t <> 0 -> h <> 0 -> forall k k' p, (k < 3)%nat -> (k' < 3)%nat -> inside_tet coords (T k) p -> inside_tet coords (T k') p -> k = k').
Proof.
  intros points triangles h m HP HT Hm. exists (layers Floating points h m), (tets (length points) triangles m). pose proof (layers_layered points h m Hm) as HL.
  destruct (tets_range points triangles m h _ HL HT) as (H1 & H2 & H3).
  split; [now apply tet4_value|]. split; [exact HL|]. split; [exact H3|]. split; [exact H2|]. split; [exact H1|]. split; [now apply tets_total|].
  intros i j t Hi Hj. assert (Ht : length t = 3%nat /\ Forall (fun k => (k < length points)%nat) t) by (apply (proj1 (Forall_forall _ _) HT); eapply nth_error_In; eauto).
  exists (tet_rows (length points) i t). split; [|split].
  - intros k Hk. split; [replace (3 * (length triangles * i + j) + k)%nat with ((i * length triangles + j) * 3 + k)%nat by lia; now apply tets_nth|now apply tet_row_volume].
  - intros p. now apply (prism_filled points h m _ HL i t p).
  - intros HA Hh k k' p Hk Hk'. now apply (prism_disjoint points h m _ HL i t k k' p).
Qed.

Lemma tet4_order : forall dt points triangles h m, plane_points points -> triangles_of (length points) triangles ->
  exists coords topo cw tw, extrude_T3_TET4 dt points triangles h m = Ok (coords, topo) /\
    extrude_coord_writes dt points h m = Ok cw /\ extrude_tet_writes (length points) triangles m = Ok tw /\
    forall cw' tw', Permutation cw cw' -> Permutation tw tw' ->
      run_writes2 cw' (zeros2 0 (length points * (m + 1)) 3) = Ok coords /\ run_writes2 tw' (zeros2 0%nat (length triangles * m * 3) 4) = Ok topo.
Proof.
  intros dt points triangles h m HP HT. destruct (coords_schedule dt points h m HP) as (cw & Ec & Hc). destruct (tets_schedule (length points) triangles m HT) as (tw & Et & Ht).
  exists (layers dt points h m), (tets (length points) triangles m), cw, tw. split; [now apply tet4_value|]. split; [exact Ec|]. split; [exact Et|]. intros cw' tw' P1 P2. split; [now apply Hc|now apply Ht].
Qed.

(** ** extrude_T3_W6 *)

Lemma w6_mesh : forall points triangles h m, plane_points points -> triangles_of (length points) triangles -> (0 < m)%nat ->
  exists coords topo, extrude_T3_W6 Floating points triangles h m = Ok (coords, topo) /\ layered points h m coords /\
    length topo = (length triangles * m)%nat /\ rect 6 topo /\ in_range (length coords) topo /\
    rsum (map (enclosed_volume hull_W6 coords) topo) = rsum (map (tri_area points) triangles) * h /\
    forall i j t, (i < m)%nat -> nth_error triangles j = Some t ->
      nth_error topo (length triangles * i + j) = Some (map (fun n => length points * i + n)%nat t ++ map (fun n => length points * (i + 1) + n)%nat t).
Proof.
  intros points triangles h m HP HT Hm. exists (layers Floating points h m), (wedges (length points) triangles m). pose proof (layers_layered points h m Hm) as HL.
  destruct (wedges_range points triangles m h _ HL HT) as (H1 & H2 & H3).
  split; [now apply w6_value|]. split; [exact HL|]. split; [exact H3|]. split; [exact H2|]. split; [exact H1|]. split; [now apply wedges_total|].
  intros i j t Hi Hj. replace (length triangles * i + j)%nat with (i * length triangles + j)%nat by lia. rewrite (wedges_nth _ _ _ _ _ _ Hi Hj). f_equal. unfold wedge_row, lift. f_equal; apply map_ext; intros n; lia.
Qed.

Lemma w6_order : forall dt points triangles h m, plane_points points -> triangles_of (length points) triangles ->
  exists coords topo cw tw, extrude_T3_W6 dt points triangles h m = Ok (coords, topo) /\
    extrude_coord_writes dt points h m = Ok cw /\ extrude_wedge_writes (length points) triangles m = Ok tw /\
    forall cw' tw', Permutation cw cw' -> Permutation tw tw' ->
      run_writes2 cw' (zeros2 0 (length points * (m + 1)) 3) = Ok coords /\ run_writes2 tw' (zeros2 0%nat (length triangles * m) 6) = Ok topo.
Proof.
  intros dt points triangles h m HP HT. destruct (coords_schedule dt points h m HP) as (cw & Ec & Hc). destruct (wedges_schedule (length points) triangles m HT) as (tw & Et & Ht).
  exists (layers dt points h m), (wedges (length points) triangles m), cw, tw. split; [now apply w6_value|]. split; [exact Ec|]. split; [exact Et|]. intros cw' tw' P1 P2. split; [now apply Hc|now apply Ht].
Qed.

(** Without layers there are no cells. *)
Lemma tet4_no_layers : forall dt points triangles h, plane_points points -> triangles_of (length points) triangles -> exists coords, extrude_T3_TET4 dt points triangles h 0 = Ok (coords, []) /\ extrude_T3_W6 dt points triangles h 0 = Ok (coords, []).
Proof. intros dt points triangles h HP HT. exists (layers dt points h 0). split; [now rewrite (tet4_value dt points triangles h 0 HP HT)|now rewrite (w6_value dt points triangles h 0 HP HT)]. Qed.

(** Integer points: all layers thinner than 1 collapse. *)
Lemma layers_flat points h m n d : 0 <= h -> h * INR m < INR m -> (0 < m)%nat -> (n < length points * (m + 1))%nat -> nth 2 (nth n (layers Integral points h m) []) d = 0.
Proof.
  intros H0 H1 Hm Hn. assert (HL : (n < length (layers Integral points h m))%nat) by (unfold layers; rewrite map_length, prod_length, seq_length; lia).
  destruct (nth_error_lt _ _ HL) as [row Er]. rewrite (nth_error_nth _ _ _ Er). destruct (layers_inv _ _ _ _ _ _ Er) as (l & r & p & Hl & Hr & -> & ->). cbn [nth].
  destruct l as [|l]; [reflexivity|]. cbn [layer_z store]. apply truncate_small.
  assert (Hp : 0 < INR m) by (apply lt_0_INR; lia). assert (Hle : INR (S l) <= INR m) by (apply le_INR; lia). assert (Hge : 0 <= INR (S l)) by apply pos_INR.
  assert (h < 1) by nra. split.
  - apply Rlt_le_trans with 0; [lra|]. unfold Rdiv. apply Rmult_le_pos; [nra|]. left. now apply Rinv_0_lt_compat.
  - apply (Rmult_lt_reg_r (INR m)); [exact Hp|]. unfold Rdiv. rewrite Rmult_assoc, Rinv_l, Rmult_1_r, Rmult_1_l by lra. nra.
Qed.
Lemma tet4_integral : forall points triangles h m, plane_points points -> triangles_of (length points) triangles -> (0 < m)%nat -> 0 <= h < 1 ->
  exists coords topo, extrude_T3_TET4 Integral points triangles h m = Ok (coords, topo) /\ length topo = (3 * (length triangles * m))%nat /\ Forall (fun T => tet_nodes_volume coords T = 0) topo.
Proof.
  intros points triangles h m HP HT Hm Hh. exists (layers Integral points h m), (tets (length points) triangles m). split; [now apply tet4_value|].
  pose proof (layers_layered points h m Hm) as HLf. destruct (tets_range points triangles m h _ HLf HT) as (H1 & _ & H3). split; [exact H3|].
  assert (LE : length (layers Floating points h m) = (length points * (m + 1))%nat) by apply HLf. rewrite LE in H1.
  assert (Hp : 0 < INR m) by (apply lt_0_INR; lia).
  assert (Z : forall n, (n < length points * (m + 1))%nat -> coord (layers Integral points h m) n 2 = 0) by (intros n Hn; apply layers_flat; auto; nra).
  apply Forall_forall. intros T HTin. pose proof (proj1 (Forall_forall _ _) H1 T HTin) as HF. destruct T as [|a [|b [|c [|d T]]]]; try reflexivity.
  inversion HF as [|? ? Ha F1]; subst. inversion F1 as [|? ? Hb F2]; subst. inversion F2 as [|? ? Hc F3]; subst. inversion F3 as [|? ? Hd F4]; subst.
  cbn [tet_nodes_volume]. unfold tet_volume. rewrite (Z a Ha), (Z b Hb), (Z c Hc), (Z d Hd). field.
Qed.
