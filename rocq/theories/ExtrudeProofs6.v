(** * Proofs about [ExtrudeModel.v], part 6: extruding triangle meshes *)
From Coq Require Import Reals Lra Lia List Psatz.
From Verif Require Import BaseFacts FillFacts TrModel TrProofs EvalProofs ShapeProofs2 ShapeProofs4 TriProofs NodalProofs4 TriModel TriSpec SpaceModel SpaceSpec SpaceProofs SpaceProofs5 ExtrudeModel ExtrudeSpec ExtrudeProofs ExtrudeProofs2 ExtrudeProofs3 ExtrudeProofs4 ExtrudeProofs5.
Import ListNotations.
Local Open Scope R_scope.

Definition axes2 (d : nat) : nat * nat := match d with 0 => (1, 2)%nat | 1 => (0, 2)%nat | _ => (0, 1)%nat end.
Definition drop (d : nat) (p : list R) : list R := [nth (fst (axes2 d)) p 0; nth (snd (axes2 d)) p 0].
(** a row of the result from a row with the height last *)
Definition lay (d : nat) (p : list R) : list R :=
  match d with 0 => [nth 2 p 0; nth 0 p 0; nth 1 p 0] | 1 => [nth 0 p 0; nth 2 p 0; nth 1 p 0] | _ => [nth 0 p 0; nth 1 p 0; nth 2 p 0] end.

Lemma firstn3 n triangles : triangles_of n triangles -> map (firstn 3) triangles = triangles.
Proof.
  intros HT. rewrite <- (map_id triangles) at 2. apply map_ext_in. intros t Ht. destruct (three t n) as (a & b & c & -> & _); [apply (proj1 (Forall_forall _ _) HT _ Ht)|reflexivity].
Qed.

Lemma extrude_value coords topo tol d h N : (d < 3)%nat -> rect 3 coords -> triangles_of (length coords) topo -> trimesh_is_planar coords topo tol = Ok true ->
  trimesh_extrude coords topo tol d h N = Ok (map (lay d) (layers Floating (map (drop d) coords) h N), tets (length coords) topo N).
Proof.
  intros Hd HR HT HP. unfold trimesh_extrude. rewrite HP. cbn [bind guard].
  assert (Eo : other_axes d = Ok [fst (axes2 d); snd (axes2 d)]) by (destruct d as [|[|[|d]]]; [reflexivity|reflexivity|reflexivity|lia]). rewrite Eo. cbn [bind].
  rewrite (mapM_map _ (drop d)).
  2: { intros p Hp. pose proof (proj1 (Forall_forall _ _) HR _ Hp) as L. cbn in L. destruct p as [|x [|y [|z [|w p]]]]; try discriminate. destruct d as [|[|[|d]]]; [reflexivity|reflexivity|reflexivity|lia]. }
  cbn [bind]. rewrite (firstn3 _ _ HT). rewrite tet4_value; [|apply Forall_forall; intros p Hp; apply in_map_iff in Hp; destruct Hp as (q & <- & _); cbn; lia|now rewrite map_length]. cbn [bind fst snd]. rewrite map_length.
  rewrite (mapM_map _ (lay d)); [reflexivity|]. intros p Hp. unfold layers in Hp. apply in_map_iff in Hp. destruct Hp as (lp & <- & _). destruct d as [|[|[|d]]]; [reflexivity|reflexivity|reflexivity|lia].
Qed.

Lemma drop_coord coords d n : (n < length coords)%nat -> (d < 3)%nat -> coord (map (drop d) coords) n 0 = coord coords n (fst (axes2 d)) /\ coord (map (drop d) coords) n 1 = coord coords n (snd (axes2 d)).
Proof. intros Hn Hd. unfold coord. destruct (nth_error_lt coords n Hn) as [p Hp]. assert (E : nth_error (map (drop d) coords) n = Some (drop d p)) by (rewrite nth_error_map, Hp; reflexivity). rewrite (nth_error_nth _ _ _ E), (nth_error_nth _ _ _ Hp). split; reflexivity. Qed.

Lemma lay_coord rows d n : (n < length rows)%nat -> (d < 3)%nat -> coord (map (lay d) rows) n d = coord rows n 2 /\ coord (map (lay d) rows) n (fst (axes2 d)) = coord rows n 0 /\ coord (map (lay d) rows) n (snd (axes2 d)) = coord rows n 1.
Proof.
  intros Hn Hd. unfold coord. destruct (nth_error_lt rows n Hn) as [p Hp]. assert (E : nth_error (map (lay d) rows) n = Some (lay d p)) by (rewrite nth_error_map, Hp; reflexivity). rewrite (nth_error_nth _ _ _ E), (nth_error_nth _ _ _ Hp).
  destruct d as [|[|[|d]]]; [repeat split|repeat split|repeat split|lia].
Qed.

Lemma extrude_stacked coords d h N : (d < 3)%nat -> (0 < N)%nat -> rect 3 coords -> stacked coords d h N (map (lay d) (layers Floating (map (drop d) coords) h N)).
Proof.
  intros Hd HN HR. destruct (layers_layered (map (drop d) coords) h N HN) as (L1 & L2 & L3). rewrite map_length in L1, L3. split; [now rewrite map_length|]. split.
  { apply Forall_forall. intros r Hr. apply in_map_iff in Hr. destruct Hr as (q & <- & _). destruct d as [|[|d]]; reflexivity. }
  intros l r e Hl Hr He. assert (Hn : (length coords * l + r < length (layers Floating (map (drop d) coords) h N))%nat) by (rewrite L1; nia).
  destruct (L3 l r Hl Hr) as (A0 & A1 & A2). destruct (lay_coord _ d _ Hn Hd) as (B2 & B0 & B1). destruct (drop_coord coords d r Hr Hd) as (C0 & C1).
  rewrite A2 in B2. rewrite A0, C0 in B0. rewrite A1, C1 in B1.
  destruct d as [|[|[|d]]]; [| | |lia]; cbn [axes2 fst snd] in B0, B1; (destruct e as [|[|[|e]]]; [| | |lia]); cbn [Nat.eqb]; first [exact B2|exact B0|exact B1].
Qed.

Lemma extrude_volume coords topo d h N : (d < 3)%nat -> (0 < N)%nat -> triangles_of (length coords) topo ->
  rsum (map (tet_nodes_volume (map (lay d) (layers Floating (map (drop d) coords) h N))) (tets (length coords) topo N)) = rsum (map (area_along coords d) topo) * h.
Proof.
  intros Hd HN HT. pose proof (layers_layered (map (drop d) coords) h N HN) as HL. set (rows := layers Floating (map (drop d) coords) h N) in *.
  assert (HT' : triangles_of (length (map (drop d) coords)) topo) by now rewrite map_length.
  pose proof (tets_total (map (drop d) coords) topo N h rows HL HN HT') as HV. destruct (tets_range (map (drop d) coords) topo N h rows HL HT') as (HI & HR4 & _). rewrite map_length in HV, HI, HR4.
  set (sg := match d with 1%nat => -1 | _ => 1 end).
  assert (EV : forall T, In T (tets (length coords) topo N) -> tet_nodes_volume (map (lay d) rows) T = tet_nodes_volume rows T * sg).
  { intros T HTn. pose proof (proj1 (Forall_forall _ _) HI T HTn) as HF. destruct T as [|n1 [|n2 [|n3 [|n4 T]]]]; try (cbn; ring). cbn [tet_nodes_volume].
    inversion HF as [|? ? F1 G1]; subst. inversion G1 as [|? ? F2 G2]; subst. inversion G2 as [|? ? F3 G3]; subst. inversion G3 as [|? ? F4 G4]; subst.
    destruct (lay_coord rows d n1 F1 Hd) as (a2 & a0 & a1). destruct (lay_coord rows d n2 F2 Hd) as (b2 & b0 & b1). destruct (lay_coord rows d n3 F3 Hd) as (c2 & c0 & c1). destruct (lay_coord rows d n4 F4 Hd) as (e2 & e0 & e1).
    unfold tet_volume. destruct d as [|[|[|d]]]; [| | |lia]; cbn [axes2 fst snd] in *; rewrite a0, a1, a2, b0, b1, b2, c0, c1, c2, e0, e1, e2; unfold sg; field. }
  rewrite (rsum_ext _ (fun T => tet_nodes_volume rows T * sg)) by exact EV. rewrite rsum_mult, HV.
  assert (EA : rsum (map (tri_area (map (drop d) coords)) topo) = rsum (map (fun t => area_along coords d t * sg) topo)).
  { apply rsum_ext. intros t Ht. destruct (three t (length coords)) as (a & b & c & -> & Ha & Hb & Hc); [apply (proj1 (Forall_forall _ _) HT _ Ht)|]. rewrite tri_area3.
    destruct (drop_coord coords d a Ha Hd) as (a0 & a1). destruct (drop_coord coords d b Hb Hd) as (b0 & b1). destruct (drop_coord coords d c Hc Hd) as (c0 & c1). rewrite a0, a1, b0, b1, c0, c1.
    unfold area_along. destruct d as [|[|[|d]]]; [| | |lia]; cbn [axes2 fst snd]; unfold sg; field. }
  rewrite EA, rsum_mult. assert (sg * sg = 1) by (unfold sg; destruct d as [|[|d]]; ring). replace (rsum (map (area_along coords d) topo) * sg * h * sg) with (rsum (map (area_along coords d) topo) * h * (sg * sg)) by ring. rewrite H. ring.
Qed.

Lemma trimesh_extruded : forall coords topo tol d h N, (d < 3)%nat -> (0 < N)%nat -> rect 3 coords -> triangles_of (length coords) topo -> trimesh_is_planar coords topo tol = Ok true ->
  exists c t, trimesh_extrude coords topo tol d h N = Ok (c, t) /\ stacked coords d h N c /\ rect 4 t /\ in_range (length c) t /\ length t = (3 * (length topo * N))%nat /\
    rsum (map (tet_nodes_volume c) t) = rsum (map (area_along coords d) topo) * h.
Proof.
  intros coords topo tol d h N Hd HN HR HT HP. do 2 eexists. split; [now apply extrude_value|]. pose proof (extrude_stacked coords d h N Hd HN HR) as HS. split; [exact HS|].
  pose proof (layers_layered (map (drop d) coords) h N HN) as HL. assert (HT' : triangles_of (length (map (drop d) coords)) topo) by now rewrite map_length.
  destruct (tets_range (map (drop d) coords) topo N h _ HL HT') as (HI & HR4 & HLn). rewrite map_length in HI, HR4, HLn. split; [exact HR4|]. split; [rewrite (map_length (lay d)); exact HI|]. split; [exact HLn|]. now apply extrude_volume.
Qed.

Lemma trimesh_not_planar : forall coords topo tol d h N, trimesh_is_planar coords topo tol = Ok false -> trimesh_extrude coords topo tol d h N = Err RuntimeError.
Proof. intros coords topo tol d h N H. unfold trimesh_extrude. now rewrite H. Qed.

Lemma single_planar p0 p1 p2 tol : length p0 = 3%nat -> length p1 = 3%nat -> length p2 = 3%nat -> ~ on_common_line [p0; p1; p2] -> 0 <= tol -> trimesh_is_planar [p0; p1; p2] [[0; 1; 2]%nat] tol = Ok true.
Proof.
  intros H0 H1 H2 HN Htol. destruct (trimesh_planar [p0; p1; p2] [[0; 1; 2]%nat] [[p0; p1; p2]] tol) as (normals & n0 & b & E1 & E2 & E3 & HF & HB); try discriminate; auto.
  - repeat constructor; assumption.
  - repeat constructor.
  - constructor; [|constructor]. exists p0, p1, p2, []. auto.
  - rewrite E3. f_equal. apply HB. intros n Hn. inversion HF as [|? n1 ? ? Q F' ]; subst. inversion F'; subst. cbn in E2. injection E2 as <-. destruct Hn as [<-|[]].
    assert (Z : forall v, dist2 v v = 0) by (intros v; unfold dist2; induction v as [|x v IH]; cbn; [reflexivity|rewrite IH; ring]). rewrite Z. lra.
Qed.

(** the height of the surface along the new axis is lost *)
Lemma trimesh_offset : forall coords topo tol d h N r, (d < 3)%nat -> (0 < N)%nat -> rect 3 coords -> triangles_of (length coords) topo -> trimesh_is_planar coords topo tol = Ok true ->
  (r < length coords)%nat -> coord coords r d <> 0 -> exists c t, trimesh_extrude coords topo tol d h N = Ok (c, t) /\ coord c r d = 0.
Proof.
  intros coords topo tol d h N r Hd HN HR HT HP Hr NZ. destruct (trimesh_extruded coords topo tol d h N Hd HN HR HT HP) as (c & t & E & (S1 & S2 & S3) & _). exists c, t. split; [exact E|].
  specialize (S3 0%nat r d ltac:(lia) Hr Hd). rewrite Nat.mul_0_r, Nat.add_0_l, Nat.eqb_refl in S3. rewrite S3. cbn [INR]. unfold Rdiv. ring.
Qed.

(** the surface is moved along an axis, not perpendicularly *)
Lemma trimesh_tilted : forall tol h N, 0 <= tol -> 0 < h -> (0 < N)%nat -> exists coords t0 c t,
  rect 3 coords /\ triangles_of (length coords) [t0] /\ trimesh_extrude coords [t0] tol 2 h N = Ok (c, t) /\ rsum (map (tet_nodes_volume c) t) < area_in_space coords t0 * h.
Proof.
  intros tol h N Ht Hh HN. set (cs := [[0; 0; 0]; [1; 0; 1]; [0; 1; 0]]).
  assert (HR : rect 3 cs) by (repeat constructor). assert (HT : triangles_of (length cs) [[0; 1; 2]%nat]) by (repeat constructor; cbn; lia).
  assert (HP : trimesh_is_planar cs [[0; 1; 2]%nat] tol = Ok true).
  { apply single_planar; auto. apply not_line; try reflexivity. unfold cross3, sub, px, py, pz, at_. cbn. intros E. injection E. lra. }
  destruct (trimesh_extruded cs [[0; 1; 2]%nat] tol 2 h N ltac:(lia) HN HR HT HP) as (c & t & E & _ & _ & _ & _ & V). exists cs, [0; 1; 2]%nat, c, t. repeat (split; [assumption|]). rewrite V.
  cbn [map rsum fold_right]. unfold rsum. cbn [fold_right]. apply Rmult_lt_compat_r; [exact Hh|].
  assert (E2 : area_along cs 2 [0; 1; 2]%nat = / 2) by (unfold area_along, coord, cs; cbn [nth]; field). assert (E1 : area_along cs 1 [0; 1; 2]%nat = 0) by (unfold area_along, coord, cs; cbn [nth]; field). assert (E0 : area_along cs 0 [0; 1; 2]%nat = - / 2) by (unfold area_along, coord, cs; cbn [nth]; field).
  unfold area_in_space. rewrite E0, E1, E2. replace (- / 2 * - / 2 + 0 * 0 + / 2 * / 2) with (/ 2) by field. rewrite Rplus_0_r. rewrite <- (sqrt_square (/ 2)) at 1 by lra. apply sqrt_lt_1; lra.
Qed.

(** perpendicular to the surface through the origin: the first layer is the surface, the volume its area times the height *)
Lemma trimesh_level : forall coords topo tol d h N, (d < 3)%nat -> (0 < N)%nat -> rect 3 coords -> triangles_of (length coords) topo -> trimesh_is_planar coords topo tol = Ok true ->
  (forall r, (r < length coords)%nat -> coord coords r d = 0) -> Forall (fun t => 0 < area_along coords d t) topo ->
  exists c t, trimesh_extrude coords topo tol d h N = Ok (c, t) /\ firstn (length coords) c = coords /\ rsum (map (tet_nodes_volume c) t) = rsum (map (area_in_space coords) topo) * h.
Proof.
  intros coords topo tol d h N Hd HN HR HT HP HZ HA. destruct (trimesh_extruded coords topo tol d h N Hd HN HR HT HP) as (c & t & E & (S1 & S2 & S3) & _ & _ & _ & V). exists c, t. split; [exact E|]. split.
  - apply (nth_ext _ _ [] []); [rewrite firstn_length; nia|]. intros r Hr. rewrite firstn_length in Hr. assert (Hr' : (r < length coords)%nat) by lia.
    assert (EN : nth r (firstn (length coords) c) [] = nth r c []).
    { assert (Hrc : (r < length c)%nat) by lia. destruct (nth_error_lt c r Hrc) as [p Hp]. rewrite (nth_error_nth _ _ _ Hp). apply nth_error_nth. rewrite <- (firstn_skipn (length coords) c) in Hp. rewrite nth_error_app1 in Hp; [exact Hp|rewrite firstn_length; lia]. }
    rewrite EN. assert (Lc : forall rows : list (list R), rect 3 rows -> (r < length rows)%nat -> length (nth r rows []) = 3%nat) by (intros rows HRr Hn; apply (proj1 (Forall_forall _ _) HRr); now apply nth_In).
    apply (nth_ext _ _ 0 0); [rewrite (Lc c S2), (Lc coords HR) by nia; reflexivity|]. intros e He. rewrite (Lc c S2) in He by nia. specialize (S3 0%nat r e ltac:(lia) Hr' He). rewrite Nat.mul_0_r, Nat.add_0_l in S3. unfold coord in S3. rewrite S3.
    destruct (Nat.eqb e d) eqn:Ed; [apply Nat.eqb_eq in Ed; rewrite Ed|reflexivity]. specialize (HZ r Hr'). unfold coord in HZ. rewrite HZ. cbn [INR]. unfold Rdiv. ring.
  - rewrite V. f_equal. apply rsum_ext. intros s Hs. pose proof (proj1 (Forall_forall _ _) HA s Hs) as Hp. cbn in Hp. destruct (three s (length coords)) as (a & b & e & -> & Ha & Hb & He); [apply (proj1 (Forall_forall _ _) HT _ Hs)|].
    pose proof (HZ a Ha) as Za. pose proof (HZ b Hb) as Zb. pose proof (HZ e He) as Ze. unfold area_in_space.
    rewrite <- (sqrt_square (area_along coords d [a; b; e])) at 1 by lra. f_equal. unfold area_along. destruct d as [|[|[|d]]]; [| | |lia]; cbn [Nat.eqb]; rewrite Za, Zb, Ze; field.
Qed.
