(** * Lemmas about [RestModel.v] *)
From Coq Require Import Reals String List Lra Lia Arith.
From Verif Require Import TrModel TrProofs ElevProofs2 TriModel TriProofs RestModel RestSpec.
Import ListNotations.
Local Open Scope R_scope.

Lemma area2_value a b c : has_dim 2 a -> has_dim 2 b -> has_dim 2 c -> area2_tri [a; b; c] = Ok (2 * signed_area a b c).
Proof.
  intros Ha Hb Hc. pose proof (area_tri_value a b c Ha Hb Hc) as H. unfold area_tri in H.
  destruct (area2_tri [a; b; c]) as [x|e]; cbn [bind] in H; [|discriminate]. f_equal. injection H as H. lra.
Qed.
Lemma mapM_step {A B} (f : A -> res B) a l : mapM f (a :: l) = do b <- f a; do bs <- mapM f l; Ok (b :: bs).
Proof. reflexivity. Qed.
Lemma quad_areas : forall ecs, Forall quad_cell ecs -> area_Q4_bulk ecs = Ok (map cell_area ecs).
Proof.
  intros ecs H. unfold area_Q4_bulk, area_tri_bulk.
  assert (G : exists l1 l2 s, mapM area2_tri (map (firstn 3) ecs) = Ok l1 /\ mapM (fun ec => mapM (get ec) [0; 2; 3]%nat) ecs = Ok s /\
    mapM area2_tri s = Ok l2 /\ map2 Rplus (map (fun a => a / 2) l1) (map (fun a => a / 2) l2) = Ok (map cell_area ecs)).
  { induction H as [|ec ecs (a & b & c & d & -> & Ha & Hb & Hc & Hd) Hr (l1 & l2 & s & E1 & E2 & E3 & E4)].
    - exists [], [], []. repeat split.
    - exists (2 * signed_area a b c :: l1), (2 * signed_area a c d :: l2), ([a; c; d] :: s).
      cbn [map]. rewrite !mapM_step. change (firstn 3 [a; b; c; d]) with [a; b; c]. rewrite area2_value by assumption. cbn [bind]. rewrite E1. cbn [bind].
      split; [reflexivity|]. split.
      { change (mapM (get [a; b; c; d]) [0; 2; 3]%nat) with (Ok [a; c; d]). cbn [bind]. rewrite E2. reflexivity. }
      split.
      { rewrite area2_value by assumption. cbn [bind]. rewrite E3. reflexivity. }
      cbn [map map2]. rewrite E4. cbn [bind]. f_equal. f_equal.
      cbn [cell_area]. unfold signed_area, quad_area, edge_area. field. }
  destruct G as (l1 & l2 & s & E1 & E2 & E3 & E4). rewrite E1. cbn [bind]. rewrite E2. cbn [bind]. rewrite E3. cbn [bind]. exact E4.
Qed.
Lemma quad_split : forall a b c d,
  quad_area a b c d = signed_area a b c + signed_area a c d /\ quad_area a b c d = signed_area a b d + signed_area b c d /\
  quad_area b c d a = quad_area a b c d /\ quad_area d c b a = - quad_area a b c d.
Proof. intros. unfold quad_area, edge_area, signed_area. repeat split; field. Qed.
Lemma quad_upright : forall x y z,
  x <> 0 \/ y <> 0 -> z <> 0 ->
  area_Q4_bulk [[[0; 0; 0]; [x; y; 0]; [x; y; z]; [0; 0; z]]] = Ok [0] /\ 0 < parallelogram_area2 [0; 0; 0] [x; y; 0] [0; 0; z].
Proof.
  intros x y z H Hz. split.
  - rewrite quad_areas.
    + cbn [map cell_area]. unfold quad_area, edge_area, px, py, at_. cbn [nth]. f_equal. f_equal. field.
    + constructor; [|constructor]. do 4 eexists. split; [reflexivity|]. unfold has_dim. cbn. repeat split; lia.
  - unfold parallelogram_area2, sprod, sub. cbn. 
    assert (0 < x * x + y * y) by nra. assert (0 < z * z) by nra. nra.
Qed.

(** ** Names and numbers *)

Lemma by_name : forall s n, celltype_by_name s = Ok (s, n) <-> In (s, n) vtk_cell_types.
Proof.
  intros s n. split.
  - unfold celltype_by_name. destruct (find _ _) as [m|] eqn:E; [|discriminate]. intros H. injection H as ->. apply find_some in E. apply E.
  - unfold vtk_cell_types. cbn [In]. intros H. repeat (destruct H as [H|H]; [injection H as <- <-; reflexivity|]). destruct H.
Qed.
Lemma by_value : forall s n, celltype_by_value n = Ok (s, n) <-> In (s, n) vtk_cell_types.
Proof.
  intros s n. split.
  - unfold celltype_by_value. destruct (find _ _) as [m|] eqn:E; [|discriminate]. intros H. injection H as ->. apply find_some in E. apply E.
  - unfold vtk_cell_types. cbn [In]. intros H. repeat (destruct H as [H|H]; [injection H as <- <-; reflexivity|]). destruct H.
Qed.
Lemma type_inverse : forall s n, celltype (IdStr s) = Ok (s, n) <-> celltype (IdInt n) = Ok (s, n).
Proof. intros. cbn [celltype]. rewrite by_name, by_value. tauto. Qed.
Lemma type_same : forall i m, celltype i = Ok m -> celltype (IdStr (fst m)) = Ok m /\ celltype (IdInt (snd m)) = Ok m.
Proof.
  intros i [s n] H. cbn [fst snd celltype]. rewrite by_name, by_value.
  destruct i as [k|t|]; cbn [celltype] in H; [| |discriminate].
  - unfold celltype_by_value in H. destruct (find _ _) as [m|] eqn:E; [|discriminate]. injection H as ->. apply find_some in E. tauto.
  - unfold celltype_by_name in H. destruct (find _ _) as [m|] eqn:E; [|discriminate]. injection H as ->. apply find_some in E. tauto.
Qed.
Lemma type_id_value : forall s n, CellTypeId (IdStr s) = Some n <-> celltype (IdStr s) = Ok (s, n).
Proof.
  intros s n. cbn [CellTypeId celltype]. split.
  - destruct (celltype_by_name s) as [m|] eqn:E; [|discriminate]. intros H. injection H as <-.
    unfold celltype_by_name in E. destruct (find _ _) as [m'|] eqn:F; [|discriminate]. injection E as ->. apply find_some in F. destruct F as [_ F].
    apply String.eqb_eq in F. subst s. destruct m. reflexivity.
  - intros H. rewrite H. reflexivity.
Qed.
Lemma type_classes : forall n, In n class_types <-> exists s, celltype (IdInt n) = Ok (s, n).
Proof.
  intros n. split.
  - intros H. unfold class_types in H. cbn [In] in H. repeat (destruct H as [H|H]; [subst n; eexists; reflexivity|]). destruct H.
  - intros [s H]. cbn [celltype] in H. apply by_value in H. unfold vtk_cell_types in H. cbn [In] in H. unfold class_types. cbn [In].
    repeat (destruct H as [H|H]; [injection H as _ <-; tauto|]). destruct H.
Qed.
Lemma type_unknown : forall s n,
  (~ In n (map snd vtk_cell_types) -> celltype (IdInt n) = Err ValueError) /\
  (~ In s (map fst vtk_cell_types) -> celltype (IdStr s) = Err KeyError /\ CellTypeId (IdStr s) = None).
Proof.
  intros s n. split; intros H; cbn [celltype CellTypeId]; unfold celltype_by_value, celltype_by_name.
  - destruct (find _ _) as [m|] eqn:E; [|reflexivity]. apply find_some in E. destruct E as [E F]. apply Nat.eqb_eq in F. subst n. destruct H. apply in_map. exact E.
  - destruct (find _ _) as [m|] eqn:E; [|split; reflexivity]. apply find_some in E. destruct E as [E F]. apply String.eqb_eq in F. subst s.
    destruct H. apply in_map. exact E.
Qed.
Lemma type_other : celltype IdOther = Err NameError.
Proof. reflexivity. Qed.
Lemma type_id_number : forall n, CellTypeId (IdInt n) = None.
Proof. reflexivity. Qed.
Lemma meshio_only : forall s t, meshio_to_vtk s None = Some t -> s = "triangle"%string /\ t = "VTK_TRIANGLE"%string.
Proof.
  intros s t. unfold meshio_to_vtk. destruct (String.eqb s "triangle") eqn:E; [|discriminate]. apply String.eqb_eq in E. intros H. injection H as <-. auto.
Qed.

(** ** Meshes of triangles *)

Lemma from_T3 : forall c t, T3_from_TriMesh (AMesh c t) = Ok (c, t) /\ T3_from_TriMesh (AArrays (Some c) (Some t)) = Ok (c, t).
Proof. intros. split; reflexivity. Qed.
Lemma from_T6 : forall dim c t, is_mesh 3 dim c t ->
  exists c' t', T6_from_TriMesh (AArrays (Some c) (Some t)) = Ok (c', t') /\ elevated dim plan_T6 c t c' t'.
Proof. intros dim c t H. exact (T3_to_T6_ok dim c t H). Qed.
Lemma from_T6_mesh : forall c t, T6_from_TriMesh (AMesh c t) = Err TypeError.
Proof. reflexivity. Qed.
Lemma from_nothing : forall c t, c = None \/ t = None ->
  T3_from_TriMesh (AArrays c t) = Err NotImplementedError /\ T6_from_TriMesh (AArrays c t) = Err NotImplementedError.
Proof. intros c t [H|H]; subst; [|destruct c as [c|]]; split; reflexivity. Qed.
