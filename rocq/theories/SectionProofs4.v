(** * Proofs about [SectionModel.v], part 4: the centre of a section, extruded sections, properties *)
From Coq Require Import Reals Lra Lia List Bool Psatz.
From Verif Require Import BaseFacts FillFacts TrModel TrProofs TriProofs NodalProofs4 NodalProofs5 TableProofs2 SpaceModel SpaceSpec SpaceProofs SpaceProofs5 ExtrudeProofs3 ExtrudeProofs6 SectionModel SectionSpec SectionProofs3.
From Verif Require LocSpec.
Import ListNotations.
Local Open Scope R_scope.

(** ** Where the centre is *)
Lemma corner_coord t vertices points cell tri : rect 2 vertices -> same_corners t vertices points cell tri -> forall d, (d < 2)%nat ->
  map (fun n => coord points n d) tri = map (fun n => coord vertices n d + at_ d t) (firstn 3 cell).
Proof.
  intros HR H d Hd. unfold same_corners in H. induction H as [|n k l m (p & q & E1 & E2 & _ & M) H IH]; [reflexivity|]. cbn [map]. rewrite IH. f_equal.
  unfold coord. rewrite (nth_error_nth _ _ _ E1), (nth_error_nth _ _ _ E2). apply M. rewrite (rect_nth _ _ _ _ HR E1). exact Hd.
Qed.
Lemma mean_unique d rows m m' : rows <> [] -> mean_row d rows m -> mean_row d rows m' -> m = m'.
Proof.
  intros HN [D1 H1] [D2 H2]. apply (nth_ext _ _ 0 0); [unfold dim in *; congruence|]. intros a Ha. unfold dim in D1. rewrite D1 in Ha. specialize (H1 a Ha). specialize (H2 a Ha). unfold at_ at 1 in H1. unfold at_ at 1 in H2.
  assert (P : INR (length rows) <> 0) by (apply not_0_INR; destruct rows; [congruence|discriminate]). apply Rmult_eq_reg_r with (INR (length rows)); [congruence|exact P].
Qed.
Lemma centre_moved : forall vertices triangles, vertices <> [] -> rect 2 vertices -> rect 6 triangles -> in_range (length vertices) triangles ->
  exists points ts, section_trimesh vertices triangles false 1 = Ok (points, ts) /\
    (centre_of_area points ts [0; 0] <-> exists m, mean_row 2 vertices m /\ centre_of_area vertices (corner_nodes triangles) m).
Proof.
  intros vertices triangles HN HR H6 HI. destruct (corner_mesh vertices triangles HN HR H6 HI) as (points & ts & t & E & HM & _ & H3 & _ & HC & HA). exists points, ts. split; [exact E|].
  assert (SA : rsum (map (polygon_area points) ts) = rsum (map (polygon_area vertices) (corner_nodes triangles))).
  { clear -HA. unfold corner_nodes. induction HA as [|cell tri triangles ts H HA IH]; [reflexivity|]. unfold rsum in *. cbn [map fold_right]. rewrite H, IH. reflexivity. }
  assert (SC : forall d, (d < 2)%nat -> rsum (map (fun t => polygon_area points t * (rsum (map (fun n => coord points n d) t) / 3)) ts) =
    rsum (map (fun t => polygon_area vertices t * (rsum (map (fun n => coord vertices n d) t) / 3)) (corner_nodes triangles)) + at_ d t * rsum (map (polygon_area vertices) (corner_nodes triangles))).
  { intros d Hd. clear -HA HC HR H6 Hd. unfold corner_nodes. revert HC. induction HA as [|cell tri triangles ts H HA IH]; intros HC; [cbn; ring|]. inversion HC as [|? ? ? ? C1 C2]; subst. inversion H6 as [|? ? L6 H6']; subst. specialize (IH H6' C2).
    unfold rsum in *. cbn [map fold_right]. rewrite IH, H, (corner_coord t vertices points cell tri HR C1 d Hd). destruct (len3 (firstn 3 cell) (firstn3_6 _ L6)) as (a & b & c & ->). cbn [map fold_right]. field. }
  assert (TN : forall d, (d < 2)%nat -> at_ d (map Ropp t) = - at_ d t).
  { intros d Hd. unfold at_. destruct HM as [Dm _]. unfold dim in Dm. rewrite map_length in Dm. rewrite <- (map_nth Ropp). apply nth_indep. rewrite map_length. lia. }
  split.
  - intros [_ H]. exists (map Ropp t). split; [exact HM|]. split; [exact (proj1 HM)|]. intros d Hd. specialize (H d Hd). rewrite SA, (SC d Hd) in H. rewrite (TN d Hd). replace (at_ d [0; 0]) with 0 in H by (destruct d as [|[|d]]; [reflexivity..|lia]). lra.
  - intros (m & Hm & _ & H). rewrite (mean_unique 2 vertices m (map Ropp t) HN Hm HM) in H. split; [reflexivity|]. intros d Hd. specialize (H d Hd). rewrite SA, (SC d Hd). rewrite (TN d Hd) in H. replace (at_ d [0; 0]) with 0 by (destruct d as [|[|d]]; [reflexivity..|lia]). lra.
Qed.
(** a small triangle beside a large one *)
Definition kite : list (list R) := [[0; 0]; [2; 0]; [0; 2]; [-8; 0]; [1; 1]; [0; 1]; [1; 0]; [-4; 1]; [-4; 0]].
Definition kite_cells : list (list nat) := [[0; 1; 2; 4; 5; 6]; [0; 2; 3; 7; 8; 5]]%nat.
Lemma kite_ready : rect 2 kite /\ rect 6 kite_cells /\ in_range (length kite) kite_cells /\ Forall (opposite_middles kite) kite_cells /\ Forall (fun c => 0 < polygon_area kite (firstn 3 c)) kite_cells.
Proof.
  split; [repeat constructor|]. split; [repeat constructor|]. split; [repeat constructor|]. split.
  - repeat constructor; do 6 eexists; (split; [reflexivity|]); intros d Hd; destruct d as [|[|d]]; try lia; unfold coord, kite; cbn [nth]; lra.
  - repeat constructor; cbn [firstn]; rewrite area3; unfold coord, kite; cbn [nth]; lra.
Qed.
Lemma centre_wrong : exists vertices triangles points ts, vertices <> [] /\ rect 2 vertices /\ rect 6 triangles /\ in_range (length vertices) triangles /\ Forall (opposite_middles vertices) triangles /\
  Forall (fun c => 0 < polygon_area vertices (firstn 3 c)) triangles /\ section_trimesh vertices triangles false 1 = Ok (points, ts) /\ ~ centre_of_area points ts [0; 0].
Proof.
  destruct kite_ready as (K1 & K2 & K3 & K4 & K5). assert (KN : kite <> []) by discriminate. destruct (centre_moved kite kite_cells KN K1 K2 K3) as (points & ts & E & H).
  exists kite, kite_cells, points, ts. repeat (split; [assumption|]). rewrite H. intros (m & [_ HM] & [_ HC]). specialize (HM 0%nat ltac:(lia)). specialize (HC 0%nat ltac:(lia)). revert HM HC.
  unfold corner_nodes, kite_cells. cbn [map firstn]. rewrite !area3. unfold rsum, coord, kite, at_. cbn [map fold_right nth length INR]. intros HM HC. lra.
Qed.

(** ** Extruded sections *)
Lemma space_coord points n d : rect 2 points -> (n < length points)%nat -> (d < 3)%nat -> coord (plane_coords true points) n d = if Nat.eqb d 2 then 0 else coord points n d.
Proof.
  intros HR Hn Hd. destruct (nth_error_lt points n Hn) as [p Hp]. pose proof (rect_nth _ _ _ _ HR Hp) as L. unfold coord, plane_coords. rewrite (nth_error_nth (map (fun q => (q ++ [0])%list) points) n [] (x := (p ++ [0])%list)) by (rewrite nth_error_map, Hp; reflexivity).
  rewrite (nth_error_nth _ _ _ Hp). destruct p as [|x [|y [|]]]; try discriminate. destruct d as [|[|[|d]]]; [reflexivity..|lia].
Qed.
Lemma space_rect points : rect 2 points -> rect 3 (plane_coords true points).
Proof. intros HR. apply Forall_map. eapply Forall_impl; [|exact HR]. cbn. intros p Hp. rewrite app_length, Hp. reflexivity. Qed.
Lemma level_normal x0 y0 x1 y1 x2 y2 n : 0 < (x1 - x0) * (y2 - y0) - (y1 - y0) * (x2 - x0) -> triangle_normal [x0; y0; 0] [x1; y1; 0] [x2; y2; 0] n -> n = [0; 0; 1].
Proof.
  intros HD (Dn & N1 & N2 & N3 & N4). destruct n as [|a [|b [|c [|]]]]; try discriminate. unfold sprod, sub in N1, N2, N3. cbn in N1, N2, N3. unfold map_det, sub, px, py, pz, at_ in N4. cbn in N4.
  set (D := (x1 - x0) * (y2 - y0) - (y1 - y0) * (x2 - x0)) in *.
  assert (M2 : a * (x1 - x0) + b * (y1 - y0) = 0) by lra. assert (M3 : a * (x2 - x0) + b * (y2 - y0) = 0) by lra.
  assert (A : a * D = 0) by (replace (a * D) with ((y2 - y0) * (a * (x1 - x0) + b * (y1 - y0)) - (y1 - y0) * (a * (x2 - x0) + b * (y2 - y0))) by (unfold D; ring); rewrite M2, M3; ring).
  assert (B : b * D = 0) by (replace (b * D) with ((x1 - x0) * (a * (x2 - x0) + b * (y2 - y0)) - (x2 - x0) * (a * (x1 - x0) + b * (y1 - y0))) by (unfold D; ring); rewrite M2, M3; ring).
  apply Rmult_integral in A, B. destruct A as [A|A]; [|lra]. destruct B as [B|B]; [|lra]. subst a b.
  assert (C : 0 < D * c) by (unfold D; lra). assert (P : 0 < c) by (destruct (Rlt_le_dec 0 c); [assumption|exfalso; nra]). assert (c = 1) by nra. subst. reflexivity.
Qed.
Lemma level_planar points ts tol : rect 2 points -> triangles_of (length points) ts -> ts <> [] -> 0 <= tol -> Forall (fun t => 0 < polygon_area points t) ts -> trimesh_is_planar (plane_coords true points) ts tol = Ok true.
Proof.
  intros HR HT HN Htol HA. set (X := plane_coords true points).
  assert (HX : forall n, (n < length points)%nat -> nth_error X n = Some [coord points n 0; coord points n 1; 0]).
  { intros n Hn. destruct (nth_error_lt points n Hn) as [p Hp]. pose proof (rect_nth _ _ _ _ HR Hp) as L. unfold X, plane_coords, coord. rewrite nth_error_map, Hp, (nth_error_nth _ _ _ Hp). destruct p as [|x [|y [|]]]; try discriminate. reflexivity. }
  assert (NX : X <> []). { intros E. destruct ts as [|t ts]; [congruence|]. inversion HT as [|? ? [L HF] _]; subst. destruct t as [|a t]; [discriminate|]. inversion HF; subst. specialize (HX a ltac:(assumption)). rewrite E in HX. destruct a; discriminate. }
  assert (T3 : forall t, In t ts -> exists a b c, t = [a; b; c] /\ (a < length points)%nat /\ (b < length points)%nat /\ (c < length points)%nat /\
    0 < (coord points b 0 - coord points a 0) * (coord points c 1 - coord points a 1) - (coord points b 1 - coord points a 1) * (coord points c 0 - coord points a 0)).
  { intros t Ht. destruct (proj1 (Forall_forall _ _) HT t Ht) as [L HF]. pose proof (proj1 (Forall_forall _ _) HA t Ht) as HP. cbv beta in HP. destruct (len3 t L) as (a & b & c & ->). rewrite area3 in HP. rewrite Forall_forall in HF. exists a, b, c. repeat split; try (apply HF; cbn; tauto). lra. }
  set (pos := map (map (fun n => [coord points n 0; coord points n 1; 0])) ts).
  destruct (trimesh_planar X ts pos tol) as (normals & n0 & b & E1 & E2 & E3 & HF & HB); try assumption.
  - now apply space_rect.
  - unfold pos, LocSpec.mesh_at, LocSpec.nodes_at. clear -HX HT. induction HT as [|t ts [_ HF] HT IH]; [constructor|]. cbn [map]. constructor; [|exact IH]. clear -HX HF. induction HF; constructor; auto.
  - unfold pos. apply Forall_map. apply Forall_forall. intros t Ht. destruct (T3 t Ht) as (a & b & c & -> & La & Lb & Lc & HD). cbn [map]. do 4 eexists. split; [reflexivity|]. apply not_line; try reflexivity. unfold cross3, sub, px, py, pz, at_. cbn. intros E. injection E. lra.
  - rewrite E3. f_equal. apply HB. assert (AN : forall n, In n normals -> n = [0; 0; 1]).
    { intros n Hn. apply In_nth_error in Hn. destruct Hn as [i Hi]. destruct (Forall2_nth_error_r _ _ _ _ _ HF Hi) as (ec & Hec & Q). unfold pos in Hec. rewrite nth_error_map in Hec. destruct (nth_error ts i) as [t|] eqn:Et; [|discriminate]. cbn in Hec. injection Hec as <-.
      destruct (T3 t (nth_error_In _ _ Et)) as (a & b' & c & -> & _ & _ & _ & HD). cbn [map] in Q. apply (level_normal _ _ _ _ _ _ n HD). apply (Q _ _ _ []). reflexivity. }
    intros n Hn. rewrite (AN n Hn), (AN n0 (nth_error_In _ _ E2)). unfold dist2. cbn. lra.
Qed.
Lemma section_extruded : forall vertices triangles tol h N, vertices <> [] -> rect 2 vertices -> rect 6 triangles -> triangles <> [] -> in_range (length vertices) triangles ->
  Forall (fun c => 0 < polygon_area vertices (firstn 3 c)) triangles -> 0 <= tol -> (0 < N)%nat ->
  exists points ts c tets, section_trimesh vertices triangles false 1 = Ok (points, ts) /\ section_extrude vertices triangles tol true h N = Ok (c, tets) /\
    layered points h N c /\ rect 4 tets /\ in_range (length c) tets /\ length tets = (3 * (length triangles * N))%nat /\
    rsum (map (tet_nodes_volume c) tets) = rsum (map (polygon_area vertices) (corner_nodes triangles)) * h.
Proof.
  intros vertices triangles tol h N HN HR H6 HT HI HA Htol HNp. destruct (corner_mesh vertices triangles HN HR H6 HI) as (points & ts & t & E & HM & R2 & H3 & HU & HC & HAr).
  pose proof (Forall2_len _ _ _ HC) as LT.
  assert (TT : triangles_of (length points) ts).
  { apply Forall_forall. intros tri Htri. split; [exact (proj1 (Forall_forall _ _) H3 tri Htri)|]. apply Forall_forall. intros k Hk. apply HU. apply In_nth_error in Htri. destruct Htri as [i Hi]. apply In_nth_error in Hk. destruct Hk as [j Hj]. exists i, j, tri. auto. }
  assert (PA : Forall (fun s => 0 < polygon_area points s) ts). { clear -HA HAr. induction HAr as [|cell tri triangles ts H HAr IH]; [constructor|]. inversion HA; subst. constructor; [now rewrite H|auto]. }
  assert (NT : ts <> []) by (intros ->; destruct triangles; [congruence|discriminate]).
  pose proof (level_planar points ts tol R2 TT NT Htol PA) as HP.
  assert (LX : length (plane_coords true points) = length points) by apply map_length.
  destruct (trimesh_extruded (plane_coords true points) ts tol 2 h N) as (c & tets & EE & (S1 & S2 & S3) & S4 & S5 & S6 & S7); try assumption; [lia|now apply space_rect|now rewrite LX|].
  exists points, ts, c, tets. split; [exact E|]. split; [unfold section_extrude; rewrite E; cbn [bind fst snd]; exact EE|]. rewrite LX in S1, S3. split.
  { split; [exact S1|]. split; [exact S2|]. intros l r Hl Hr. rewrite (S3 l r 0%nat), (S3 l r 1%nat), (S3 l r 2%nat) by (assumption || lia). cbn [Nat.eqb]. rewrite !space_coord by (assumption || lia). repeat split. }
  split; [exact S4|]. split; [exact S5|]. split; [rewrite S6, LT; reflexivity|]. rewrite S7. f_equal.
  clear -HAr R2 TT. unfold corner_nodes. induction HAr as [|cell tri triangles ts H HAr IH]; [reflexivity|]. inversion TT as [|? ? [L HF] TT']; subst. unfold rsum in *. cbn [map fold_right]. rewrite (IH TT'), <- H. f_equal.
  destruct (len3 tri L) as (a & b & e & ->). rewrite area3. unfold area_along. cbn [Nat.eqb]. rewrite Forall_forall in HF. rewrite !space_coord by (try assumption; try lia; apply HF; cbn; tauto). reflexivity.
Qed.
Lemma extrude_plane_fails : forall vertices triangles tol h N, vertices <> [] -> rect 2 vertices -> rect 6 triangles -> in_range (length vertices) triangles ->
  section_extrude vertices triangles tol false h N = Err AssertionError.
Proof.
  intros vertices triangles tol h N HN HR H6 HI. destruct (corner_mesh vertices triangles HN HR H6 HI) as (points & ts & t & E & _ & R2 & _). unfold section_extrude. rewrite E. cbn [bind fst snd plane_coords].
  unfold trimesh_extrude, trimesh_is_planar, trimesh_normals, trimesh_axes. assert (NC : Nat.eqb (ncols points) 3 = false) by (destruct R2 as [|p l Hp _]; [reflexivity|cbn; rewrite Hp; reflexivity]). rewrite NC. reflexivity.
Qed.

(** ** Properties of a section *)
Definition sound (lib : results) (s : sstate) : Prop :=
  (calculated s = None \/ calculated s = Some lib) /\ (props s = None \/ (props s = Some (properties_of lib) /\ calculated s = Some lib)).
Lemma calculate_value lib s : calculate_section_properties lib s = Ok (SState (Some lib) true (Some (properties_of lib)), properties_of lib).
Proof. reflexivity. Qed.
Lemma get_sound lib s : sound lib s -> exists s', get_section_properties lib s = Ok (s', properties_of lib) /\ sound lib s' /\ calculated s' = Some lib.
Proof.
  intros [HC HP]. unfold get_section_properties. destruct HP as [E|[E EC]]; rewrite E.
  - rewrite calculate_value. eexists. split; [reflexivity|]. split; [split; right; auto|reflexivity].
  - exists s. split; [reflexivity|]. split; [|exact EC]. split; [right; exact EC|right; auto].
Qed.
Lemma after_sound lib : forall calls s, sound lib s -> exists s', state_after lib calls s = Ok s' /\ sound lib s' /\
  ((exists c, In c calls /\ c <> CWarping) \/ calculated s = Some lib -> calculated s' = Some lib) /\ ((forall c, In c calls -> c = CWarping) -> calculated s' = calculated s /\ props s' = props s).
Proof.
  induction calls as [|c calls IH]; intros s HS; [exists s; split; [reflexivity|]; split; [exact HS|]; split; [intros [(c & [] & _)|H]; exact H|auto]|].
  assert (ST : exists s1, state_after lib (c :: calls) s = state_after lib calls s1 /\ sound lib s1 /\ (c <> CWarping \/ calculated s = Some lib -> calculated s1 = Some lib) /\ (c = CWarping -> calculated s1 = calculated s /\ props s1 = props s)).
  { destruct c; cbn [state_after].
    - exists (calculate_geometry lib s). split; [reflexivity|]. split; [split; [now right|]; destruct HS as [_ [HP|[HP HC]]]; [left; exact HP|right; split; [exact HP|reflexivity]]|]. split; [reflexivity|discriminate].
    - exists (calculate_warping s). split; [reflexivity|]. split; [exact HS|]. split; [intros [H|H]; [congruence|exact H]|auto].
    - rewrite calculate_value. cbn [bind fst]. eexists. split; [reflexivity|]. split; [split; right; auto|]. split; [reflexivity|discriminate].
    - destruct (get_sound lib s HS) as (s1 & E & H1 & H2). rewrite E. cbn [bind fst]. exists s1. split; [reflexivity|]. split; [exact H1|]. split; [auto|discriminate]. }
  destruct ST as (s1 & E1 & HS1 & HC1 & HW1). destruct (IH s1 HS1) as (s' & E & HS' & HC & HW). exists s'. split; [now rewrite E1|]. split; [exact HS'|]. split.
  - intros [(x & [->|Hx] & Nx)|H]; apply HC; [right; apply HC1; now left|left; exists x; auto|right; apply HC1; now right].
  - intros H. destruct (HW (fun x Hx => H x (or_intror Hx))) as [W1 W2]. destruct (HW1 (H c (or_introl eq_refl))) as [V1 V2]. split; congruence.
Qed.
Lemma properties_after : forall lib calls, exists s, state_after lib calls fresh = Ok s /\
  (exists s', get_section_properties lib s = Ok (s', properties_of lib) /\ props s' = Some (properties_of lib) /\ get_section_properties lib s' = Ok (s', properties_of lib)) /\
  ((exists c, In c calls /\ c <> CWarping) -> section_A s = Some (r_area lib) /\ section_Iy s = Some (r_ixx lib) /\ section_Iz s = Some (r_iyy lib) /\ section_Ix s = Ok (r_ixx lib + r_iyy lib) /\ geometric_properties s = Ok (properties_of lib)).
Proof.
  intros lib calls. destruct (after_sound lib calls fresh) as (s & E & HS & HC & _); [split; left; reflexivity|]. exists s. split; [exact E|]. split.
  - destruct HS as [HC' HP]. unfold get_section_properties at 1. destruct HP as [EP|[EP EC]]; rewrite EP; [rewrite calculate_value; eexists; split; [reflexivity|split; reflexivity]|]. exists s. split; [reflexivity|]. split; [exact EP|]. unfold get_section_properties. rewrite EP. reflexivity.
  - intros H. specialize (HC (or_introl H)). unfold geometric_properties, section_Ix, section_A, section_Iy, section_Iz. rewrite HC. cbn. auto.
Qed.
Lemma nothing_before : forall lib calls, (forall c, In c calls -> c = CWarping) -> exists s, state_after lib calls fresh = Ok s /\ section_A s = None /\ section_Iy s = None /\ section_Iz s = None /\ section_Ix s = Err TypeError /\ geometric_properties s = Err TypeError /\ props s = None.
Proof.
  intros lib calls H. destruct (after_sound lib calls fresh) as (s & E & _ & _ & HW); [split; left; reflexivity|]. destruct (HW H) as [W1 W2]. exists s. split; [exact E|]. unfold geometric_properties, section_Ix, section_A, section_Iy, section_Iz. rewrite W1, W2. cbn. auto 10.
Qed.
(** after the geometry only has been calculated there is no dictionary *)
Lemma no_dictionary : forall lib, state_after lib [CGeometry] fresh = Ok (SState (Some lib) false None) /\ props (SState (Some lib) false None) = None.
Proof. intros. split; reflexivity. Qed.
