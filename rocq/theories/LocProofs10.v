(** * Proofs about [LocModel.v], part 10: areas and volumes of cells *)
From Coq Require Import Reals Lra Lia List.
From Verif Require Import LocModel LocSpec QuadSpec BaseFacts TrModel TrProofs ElevProofs ShapeSpec ShapeProofs4 TriProofs TriProofs2 TriProofs6 QuadProofs5 LocProofs3 LocProofs4 LocProofs9.
Import ListNotations.
Local Open Scope R_scope.

(** ** sums of groups *)
Lemma ksum_fold : forall l : list R, ksum l = fold_right Rplus 0 l.
Proof.
  intros l. unfold ksum. cbn [kofZ NumR NumBase.NumR]. rewrite fold_symmetric; [reflexivity|intros; cbn; ring|intros; cbn; ring].
Qed.
Lemma sum_groups_concat : forall k (rows : list (list R)), rect k rows -> rows <> [] ->
  sum_groups (length rows) (concat rows) = Ok (map (fold_right Rplus 0) rows).
Proof.
  intros k rows HR HN. unfold sum_groups. assert (H0 : length rows <> 0%nat) by (destruct rows; [easy|discriminate]).
  replace (Nat.eqb (length rows) 0) with false by (symmetry; now apply Nat.eqb_neq).
  rewrite (length_concat_rect k) by assumption. rewrite (Nat.mul_comm (length rows) k), Nat.div_mul by assumption.
  rewrite (Nat.mul_comm (length rows) k), Nat.eqb_refl. rewrite reshape_concat by assumption. f_equal. apply map_ext. apply ksum_fold.
Qed.
Lemma simplices_concat : forall smap ecs, simplices smap ecs = concat (map (fun ec => map (fun q => pick q ec) smap) ecs).
Proof.
  intros smap ecs. unfold simplices. induction ecs as [|ec ecs IH]; [reflexivity|]. cbn [list_prod map concat]. rewrite map_app, IH. f_equal. rewrite map_map. reflexivity.
Qed.
Lemma mapM_concat : forall {A B} (f : A -> res B) (g : A -> B) ls, Forall (Forall (fun x => f x = Ok (g x))) ls -> mapM f (concat ls) = Ok (concat (map (map g) ls)).
Proof.
  intros A B f g ls H. assert (H' : Forall (fun x => f x = Ok (g x)) (concat ls)) by now apply Forall_concat. rewrite <- concat_map. clear H.
  induction H' as [|x l Hx _ IH]; [reflexivity|]. cbn [mapM map]. rewrite Hx, IH. reflexivity.
Qed.

(** ** volumes *)
Definition tvol (ec : list (list R)) : R := signed_volume (nth 0 ec []) (nth 1 ec []) (nth 2 ec []) (nth 3 ec []).
Lemma volumes_value : forall w smap coords topo ecs, mesh_at coords topo ecs -> rect w topo -> rect 3 coords -> pieces 4 w smap -> topo <> [] ->
  volumes_3d smap coords topo = Ok (map (fun ec => fold_right Rplus 0 (map (fun q => Rabs (tvol (pick q ec))) smap)) ecs).
Proof.
  intros w smap coords topo ecs Hm Hw Hc Hp HN. destruct (tet_mesh coords topo ecs smap _ 4 Hm Hw Hp) as (tets & E1 & E2 & _).
  unfold volumes_3d, to_tetrahedra. rewrite E1. cbn [bind]. rewrite E2. cbn [bind]. unfold vol_tet_bulk. rewrite simplices_concat.
  rewrite (mapM_concat vol_tet tvol).
  - cbn [bind]. rewrite concat_map, !map_map. rewrite <- (mesh_length _ _ _ Hm). set (f := fun ec => map Rabs (map tvol (map (fun q => pick q ec) smap))).
    replace (length ecs) with (length (map f ecs)) by apply map_length. rewrite (sum_groups_concat (length smap)).
    + rewrite map_map. f_equal. apply map_ext. intros ec. unfold f. now rewrite !map_map.
    + apply Forall_forall. intros r Hr. apply in_map_iff in Hr. destruct Hr as (ec & <- & _). unfold f. now rewrite !map_length.
    + destruct ecs; [inversion Hm; subst; easy|discriminate].
  - apply Forall_forall. intros l Hl. apply in_map_iff in Hl. destruct Hl as (ec & <- & He). apply Forall_forall. intros t Ht. apply in_map_iff in Ht. destruct Ht as (q & <- & Hq).
    unfold pieces in Hp. rewrite Forall_forall in Hp. destruct (Hp q Hq) as (HL & HK). destruct (mesh_cells _ _ _ _ _ Hm Hc Hw ec He) as (HLe & HRe).
    assert (D : forall k, In k q -> dim 3 (nth k ec [])).
    { intros k Hk. rewrite Forall_forall in HK. specialize (HK k Hk). unfold rect in HRe. rewrite Forall_forall in HRe. apply HRe. apply nth_In. lia. }
    destruct q as [|k0 [|k1 [|k2 [|k3 [|]]]]]; try discriminate HL. unfold pick, tvol. cbn [map nth]. apply vol_value; apply D; cbn; auto.
Qed.
Lemma volumes_TET4 : forall coords topo ecs, mesh_at coords topo ecs -> rect 4 topo -> rect 3 coords -> topo <> [] ->
  volumes_3d tetmap_TET4 coords topo = Ok (map (fun ec => Rabs (signed_volume (nth 0 ec []) (nth 1 ec []) (nth 2 ec []) (nth 3 ec []))) ecs).
Proof.
  intros coords topo ecs Hm Hw Hc HN. rewrite (volumes_value 4 tetmap_TET4 coords topo ecs); auto; [|repeat constructor]. f_equal. apply map_ext. intros ec.
  unfold tetmap_TET4, tvol, pick. cbn [map fold_right nth]. lra.
Qed.
Lemma volumes_empty : forall w smap coords, pieces 4 w smap -> volumes_3d smap coords [] = Err ZeroDivisionError.
Proof.
  intros w smap coords Hp. destruct (tet_mesh coords [] [] smap w 4) as (tets & E1 & E2 & _); [constructor|constructor|assumption|].
  unfold volumes_3d, to_tetrahedra. rewrite E1. cbn [bind]. rewrite E2. reflexivity.
Qed.

(** ** areas *)
Definition part (e c p : list R) : R := px e * (px p - px c) + py e * (py p - py c) + pz e * (pz p - pz c).
Definition local_at (frame : list (list R)) (c p : list R) : list R := map (fun e => part e c p) frame.
Lemma local_cell : forall n frame ec, frame_with_normal n frame -> rect 3 ec -> ec <> [] ->
  exists c E, (do c <- vmean ec; mapM (fun p => vsub p c) ec) = Ok E /\ mapM (matvec frame) E = Ok (map (local_at frame c) ec).
Proof.
  intros n frame ec (e & f & -> & He & Hf & Hn) HR HN. destruct (vmean_R 3 ec HN HR) as (c & Ec & Lc & _). exists c. rewrite Ec. cbn [bind].
  assert (D : dim 3 n) by (subst n; reflexivity). clear Ec HN Hn.
  destruct (dim3 _ He) as (e0 & e1 & e2 & ->), (dim3 _ Hf) as (f0 & f1 & f2 & ->), (dim3 _ D) as (n0 & n1 & n2 & ->), (dim3 _ Lc) as (c0 & c1 & c2 & ->).
  induction HR as [|p ec Hp HR (E & E1 & E2)]; [exists []; split; reflexivity|]. destruct (dim3 _ Hp) as (p0 & p1 & p2 & ->).
  exists ([p0 - c0; p1 - c1; p2 - c2] :: E). split.
  - cbn [mapM]. unfold vsub at 1. cbn [map2 bind]. rewrite E1. cbn [bind]. numR. reflexivity.
  - cbn [mapM map]. rewrite E2. unfold matvec at 1. cbn [mapM]. unfold vdot. cbn [map2 bind ksum fold_left]. unfold local_at at 2. cbn [map].
    f_equal. f_equal. unfold part, px, py, pz, at_. cbn [nth]. repeat (apply f_equal2; [numR; ring|]). reflexivity.
Qed.
Lemma local_area : forall n frame c a b d, frame_with_normal n frame -> dim 3 a -> dim 3 b -> dim 3 d ->
  area2_tri [local_at frame c a; local_at frame c b; local_at frame c d] = Ok (2 * loop_area n [a; b; d]).
Proof.
  intros n frame c a b d (e & f & -> & He & Hf & ->) Ha Hb Hd. destruct (dim3 _ Ha) as (a0 & a1 & a2 & ->), (dim3 _ Hb) as (b0 & b1 & b2 & ->), (dim3 _ Hd) as (d0 & d1 & d2 & ->).
  unfold area2_tri, get2, get, local_at. cbn [map nth_error bind]. f_equal. unfold loop_area, map_det, part, px, py, pz, at_. cbn [tl firstn app combine map fold_right fst snd nth]. field.
Qed.
Lemma local_points : forall ecs ns frames, Forall2 frame_with_normal ns frames -> length frames = length ecs -> Forall (fun ec => rect 3 ec /\ ec <> []) ecs ->
  exists cs, length cs = length ecs /\ (do ec <- centralize_cells_coords ecs; cells_coords_tr ec frames) = Ok (map (fun fce => map (local_at (fst fce) (fst (snd fce))) (snd (snd fce))) (combine frames (combine cs ecs))).
Proof.
  unfold centralize_cells_coords, cells_coords_tr. intros ecs ns frames HF. revert ecs. induction HF as [|n frame ns frames Hn HF IH]; intros [|ec ecs] HL HE; try discriminate HL.
  - exists []. split; reflexivity.
  - injection HL as HL. inversion HE as [|? ? (H1 & H2) HE']; subst. destruct (IH ecs HL HE') as (cs & Lcs & E).
    destruct (local_cell n frame ec Hn H1 H2) as (c & L & E1 & E2). exists (c :: cs). split; [cbn; congruence|]. cbn [mapM]. rewrite E1. cbn [bind].
    apply bind_Ok in E. destruct E as (Ls & E3 & E4). rewrite E3. cbn [bind map2]. apply bind_Ok in E4. destruct E4 as (rs & E5 & E6). rewrite E5. cbn [bind mapM]. rewrite E2. cbn [bind]. rewrite E6. reflexivity.
Qed.
Lemma areas_value : forall w trimap coords topo ecs ns frames, mesh_at coords topo ecs -> rect w topo -> (0 < w)%nat -> rect 3 coords -> pieces 3 w trimap -> topo <> [] ->
  Forall2 frame_with_normal ns frames -> length frames = length topo ->
  areas_2d trimap coords topo frames = Ok (map (fun ne => fold_right Rplus 0 (map (fun q => loop_area (fst ne) (pick q (snd ne))) trimap)) (combine ns ecs)).
Proof.
  intros w trimap coords topo ecs ns frames Hm Hw H0 Hc Hp HN HF HL. pose proof (mesh_length _ _ _ Hm) as HLe.
  assert (HE : Forall (fun ec => length ec = w /\ rect 3 ec) ecs) by (apply Forall_forall; apply (mesh_cells _ _ _ _ _ Hm Hc Hw)).
  assert (HE' : Forall (fun ec : list (list R) => rect 3 ec /\ ec <> []) ecs).
  { eapply Forall_impl; [|exact HE]. intros ec (G1 & G2). split; [assumption|]. intros ->. cbn in G1. lia. }
  destruct (local_points ecs ns frames HF ltac:(congruence) HE') as (cs & Lcs & E). unfold areas_2d, points_of_cells_local. rewrite (proj1 (mesh_mapM _ _ _) Hm). cbn [bind]. rewrite E. cbn [bind].
  assert (HNe : ecs <> []) by (intros ->; inversion Hm; subst; easy). assert (HLf : length frames = length ecs) by congruence. rewrite <- HLe. clear HL HLe E HE' Hm HN Hc Hw topo coords.
  unfold triangulate_cell_coords.
  assert (G : forall frames' ns' cs' ecs', Forall2 frame_with_normal ns' frames' -> length cs' = length ecs' -> length frames' = length ecs' -> Forall (fun ec => length ec = w /\ rect 3 ec) ecs' ->
    exists r, mapM (fun ec => mapM (fun t => mapM (fun k => get ec k) t) trimap) (map (fun fce => map (local_at (fst fce) (fst (snd fce))) (snd (snd fce))) (combine frames' (combine cs' ecs'))) = Ok r /\
      mapM area2_tri (concat r) = Ok (concat (map (fun ne => map (fun q => 2 * loop_area (fst ne) (pick q (snd ne))) trimap) (combine ns' ecs')))).
  { clear - H0 Hp. intros frames' ns' cs' ecs' HF. revert cs' ecs'. induction HF as [|n frame ns frames Hn HF IH]; intros [|c cs] [|ec ecs] L1 L2 HE; try discriminate L1; try discriminate L2.
    - exists []. split; reflexivity.
    - injection L1 as L1. injection L2 as L2. inversion HE as [|? ? (HLe & HRe) HE']; subst. destruct (IH cs ecs L1 L2 HE') as (r & E1 & E2).
      cbn [combine map mapM fst snd]. rewrite E1.
      assert (T : exists r0, mapM (fun t => mapM (fun k => get (map (local_at frame c) ec) k) t) trimap = Ok r0 /\ mapM area2_tri r0 = Ok (map (fun q => 2 * loop_area n (pick q ec)) trimap)).
      { clear - Hn Hp HRe. unfold pieces in Hp. induction Hp as [|q trimap (HL & HK) Hp IH]; [exists []; split; reflexivity|]. destruct IH as (r0 & E1 & E2).
        assert (D : forall k, In k q -> dim 3 (nth k ec []) /\ get (map (local_at frame c) ec) k = Ok (local_at frame c (nth k ec []))).
        { intros k Hk. rewrite Forall_forall in HK. specialize (HK k Hk). unfold rect in HRe. rewrite Forall_forall in HRe. split; [apply HRe; apply nth_In; lia|].
          apply get_Ok. apply map_nth_error. destruct (nth_error_lt ec k HK) as (p & Hpp). now rewrite (nth_error_nth _ _ _ Hpp). }
        destruct q as [|k0 [|k1 [|k2 [|]]]]; try discriminate HL. destruct (D k0 ltac:(cbn; auto)) as (D0 & G0), (D k1 ltac:(cbn; auto)) as (D1 & G1), (D k2 ltac:(cbn; auto)) as (D2 & G2).
        eexists. cbn [mapM]. rewrite G0, G1, G2. cbn [bind]. rewrite E1. cbn [bind]. split; [reflexivity|]. cbn [mapM map]. rewrite (local_area n frame c) by assumption. cbn [bind]. rewrite E2. reflexivity. }
      destruct T as (r0 & E3 & E4). rewrite E3. cbn [bind]. eexists. split; [reflexivity|]. cbn [concat]. rewrite mapM_app, E4. cbn [bind]. rewrite E2. reflexivity. }
  destruct (G frames ns cs ecs HF Lcs HLf HE) as (r & E1 & E2).
  rewrite E1. cbn [bind]. unfold area_tri_bulk. rewrite E2. cbn [bind]. rewrite concat_map, map_map.
  set (f := fun ne : list R * list (list R) => map (fun a => a / 2) (map (fun q => 2 * loop_area (fst ne) (pick q (snd ne))) trimap)).
  assert (HLn : length ns = length frames) by (clear - HF; induction HF; cbn [length]; congruence).
  replace (length ecs) with (length (map f (combine ns ecs))) by (rewrite map_length, combine_length; lia). rewrite (sum_groups_concat (length trimap)).
  - rewrite map_map. f_equal. apply map_ext. intros ne. unfold f. rewrite map_map. f_equal. apply map_ext. intros q. field.
  - apply Forall_forall. intros l Hl. apply in_map_iff in Hl. destruct Hl as (ne & <- & _). unfold f. now rewrite !map_length.
  - destruct ecs; [easy|]. destruct ns; [rewrite <- HLn in HLf; discriminate HLf|discriminate].
Qed.

Lemma areas_T3_value : forall coords topo ecs ns frames, mesh_at coords topo ecs -> rect 3 topo -> rect 3 coords ->
  Forall2 frame_with_normal ns frames -> length frames = length topo ->
  areas_T3 coords topo frames = Ok (map (fun ne => loop_area (fst ne) (snd ne)) (combine ns ecs)).
Proof.
  intros coords topo ecs ns frames Hm Hw Hc HF HL. pose proof (mesh_length _ _ _ Hm) as HLe.
  assert (HE : Forall (fun ec => length ec = 3%nat /\ rect 3 ec) ecs) by (apply Forall_forall; apply (mesh_cells _ _ _ _ _ Hm Hc Hw)).
  assert (HE' : Forall (fun ec : list (list R) => rect 3 ec /\ ec <> []) ecs).
  { eapply Forall_impl; [|exact HE]. intros ec (G1 & G2). split; [assumption|]. intros ->. cbn in G1. lia. }
  assert (HLf : length frames = length ecs) by congruence.
  destruct (local_points ecs ns frames HF HLf HE') as (cs & Lcs & E). unfold areas_T3, points_of_cells_local. rewrite (proj1 (mesh_mapM _ _ _) Hm). cbn [bind]. rewrite E. cbn [bind].
  clear E HE' Hm Hc Hw HL HLe topo coords. unfold area_tri_bulk.
  assert (G : mapM area2_tri (map (fun fce => map (local_at (fst fce) (fst (snd fce))) (snd (snd fce))) (combine frames (combine cs ecs))) = Ok (map (fun ne => 2 * loop_area (fst ne) (snd ne)) (combine ns ecs))).
  { revert cs ecs Lcs HLf HE. induction HF as [|n frame ns frames Hn HF IH]; intros [|c cs] [|ec ecs] L1 L2 HE; try discriminate L1; try discriminate L2; [reflexivity|].
    injection L1 as L1. injection L2 as L2. inversion HE as [|? ? (HLe & HRe) HE']; subst. cbn [combine map mapM fst snd]. rewrite (IH cs ecs L1 L2 HE').
    destruct ec as [|a [|b [|d [|]]]]; try discriminate HLe. inversion HRe as [|? ? Ha HR1]; subst. inversion HR1 as [|? ? Hb HR2]; subst. inversion HR2 as [|? ? Hd _]; subst.
    cbn [map]. rewrite (local_area n frame c) by assumption. reflexivity. }
  rewrite G. cbn [bind]. rewrite map_map. f_equal. apply map_ext. intros ne. field.
Qed.
Lemma combine_ext : forall (f g : list R * list (list R) -> R) (P : list (list R) -> Prop) ns ecs, Forall P ecs -> (forall n ec, P ec -> f (n, ec) = g (n, ec)) -> map f (combine ns ecs) = map g (combine ns ecs).
Proof.
  intros f g P ns ecs H HP. apply map_ext_in. intros (n & ec) Hin. apply in_combine_r in Hin. rewrite Forall_forall in H. auto.
Qed.
Ltac loops := unfold pick, loop_area, map_det; cbn [map tl firstn app combine fold_right fst snd nth]; generalize px py pz; intros X Y Z; field.
Lemma areas_Q4_value : forall coords topo ecs ns frames, mesh_at coords topo ecs -> rect 4 topo -> rect 3 coords -> topo <> [] ->
  Forall2 frame_with_normal ns frames -> length frames = length topo ->
  areas_2d trimap_Q4 coords topo frames = Ok (map (fun ne => loop_area (fst ne) (snd ne)) (combine ns ecs)).
Proof.
  intros coords topo ecs ns frames Hm Hw Hc HN HF HL. rewrite (areas_value 4 trimap_Q4 coords topo ecs ns frames); try assumption; try lia; [|solve [repeat constructor]]. f_equal.
  apply (combine_ext _ _ (fun ec => length ec = 4%nat /\ rect 3 ec)); [apply Forall_forall; apply (mesh_cells _ _ _ _ _ Hm Hc Hw)|].
  intros n ec (HLe & _). destruct ec as [|a [|b [|c [|d [|]]]]]; try discriminate HLe. unfold trimap_Q4. cbn [fst snd]. loops.
Qed.
Lemma areas_Q9_value : forall coords topo ecs ns frames, mesh_at coords topo ecs -> rect 9 topo -> rect 3 coords -> topo <> [] ->
  Forall2 frame_with_normal ns frames -> length frames = length topo ->
  areas_2d trimap_Q9 coords topo frames = Ok (map (fun ne => loop_area (fst ne) (pick [0; 4; 1; 5; 2; 6; 3; 7]%nat (snd ne))) (combine ns ecs)).
Proof.
  intros coords topo ecs ns frames Hm Hw Hc HN HF HL. rewrite (areas_value 9 trimap_Q9 coords topo ecs ns frames); try assumption; try lia; [|solve [repeat constructor]]. f_equal.
  apply (combine_ext _ _ (fun ec => length ec = 9%nat /\ rect 3 ec)); [apply Forall_forall; apply (mesh_cells _ _ _ _ _ Hm Hc Hw)|].
  intros n ec (HLe & _). destruct ec as [|p0 [|p1 [|p2 [|p3 [|p4 [|p5 [|p6 [|p7 [|p8 [|]]]]]]]]]]; try discriminate HLe. unfold trimap_Q9. cbn [fst snd]. loops.
Qed.

(** ** six node triangles *)
Lemma cells_firstn : forall coords topo ecs, mesh_at coords topo ecs -> mesh_at (map (firstn 2) coords) topo (map (map (firstn 2)) ecs).
Proof.
  intros coords topo ecs H. induction H as [|c ec topo ecs Hc _ IH]; constructor; [|assumption]. induction Hc as [|k p c ec Hk _ IHc]; constructor; [|assumption]. now apply map_nth_error.
Qed.
Lemma areas_T6_value : forall coords topo ecs, mesh_at coords topo ecs -> rect 3 coords -> rect 6 topo -> Forall (fun ec => affine_image 2 lcoords_T6 (map (firstn 2) ec)) ecs ->
  areas_of_T6 coords topo = Ok (map (fun ec => signed_area (nth 0 ec []) (nth 1 ec []) (nth 2 ec [])) ecs).
Proof.
  intros coords topo ecs Hm Hc Hw HA. unfold areas_of_T6. rewrite (proj1 (mesh_mapM _ _ _) (cells_firstn _ _ _ Hm)). cbn [bind].
  rewrite area_T6_affine by now apply Forall_map. rewrite map_map. f_equal. apply map_ext_in. intros ec He.
  destruct (mesh_cells _ _ _ _ _ Hm Hc Hw ec He) as (HL & HR). destruct ec as [|a [|b [|c ec]]]; try discriminate HL.
  inversion HR as [|? ? Ha HR1]; subst. inversion HR1 as [|? ? Hb HR2]; subst. inversion HR2 as [|? ? Hd _]; subst.
  destruct (dim3 _ Ha) as (a0 & a1 & a2 & ->), (dim3 _ Hb) as (b0 & b1 & b2 & ->), (dim3 _ Hd) as (d0 & d1 & d2 & ->).
  unfold parallelogram, edge, signed_area, px, py, at_. cbn [map firstn nth]. lra.
Qed.
(** an upright triangle with the legs a, b *)
Definition upright (a b : R) : list (list R) := [[0; 0; 0]; [a; 0; 0]; [0; 0; b]; [a / 2; 0; 0]; [a / 2; 0; b / 2]; [0; 0; b / 2]].
Lemma areas_T6_upright : forall a b, 0 < a -> 0 < b ->
  areas_of_T6 (upright a b) [[0; 1; 2; 3; 4; 5]%nat] = Ok [0] /\ loop_area [0; -1; 0] (firstn 3 (upright a b)) = a * b / 2.
Proof.
  intros a b Ha Hb. split; [|unfold loop_area, upright, map_det, px, py, pz, at_; cbn [firstn map tl app combine fold_right fst snd nth]; field].
  rewrite (areas_T6_value _ _ [upright a b]).
  - unfold upright, signed_area, px, py, at_. cbn [map nth]. f_equal. f_equal. field.
  - repeat constructor.
  - repeat constructor.
  - repeat constructor.
  - constructor; [|constructor]. exists [0; 0], [[a; 0]; [0; 0]]. split; [reflexivity|]. split; [repeat constructor|].
    unfold upright, lcoords_T6. cbn [map firstn seq nth]. unfold affine, rsum. cbn [combine map fst snd fold_right]. numR.
    repeat (apply f_equal2; [repeat (apply f_equal2; [field|]); reflexivity|]). reflexivity.
Qed.
