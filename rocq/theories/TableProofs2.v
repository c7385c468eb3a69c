(** * Proofs about the pieces of cells, reversed cells and the triangulation object *)
From Coq Require Import Reals Lra Lia List Permutation.
From Verif Require Import Base BaseFacts TrModel TrSpec TrProofs TrProofs2 SplitSpec SplitProofs TableModel TableSpec TableProofs ShapeProofs4.
Import ListNotations.
Local Open Scope R_scope.

Lemma take_reorder_ok cell p : (forall q, In q p -> (q < length cell)%nat) -> take cell p = Ok (reorder p cell).
Proof.
  intros H. destruct (take_ok cell p H) as [row E]. rewrite E. f_equal. apply take_reorder, E.
Qed.
Lemma tr_value_pieces w topo path : rect w topo -> valid_path w path -> tr_value topo path = Ok (pieces_along path topo).
Proof.
  intros Hw [_ Hp]. unfold tr_value.
  assert (E : pieces_along path topo = map (fun cp => reorder (snd cp) (fst cp)) (list_prod topo path)).
  { unfold pieces_along. induction topo as [|c topo IH]; [reflexivity|]. cbn. rewrite map_app, map_map. f_equal.
    apply IH. inversion Hw; auto. }
  rewrite E. apply mapM_map. intros [c p] Hin. apply in_prod_iff in Hin. destruct Hin as [Hc Hpp]. cbn.
  apply take_reorder_ok. intros q Hq. rewrite (proj1 (Forall_forall _ _) Hw c Hc). eauto.
Qed.
Lemma transform_pieces w topo path : rect w topo -> valid_path w path ->
  transform_topology_ 0%nat topo path = Ok (pieces_along path topo).
Proof.
  intros Hw Hp. destruct (transform_value 0%nat w topo path Hw Hp) as (r & V & T).
  rewrite (tr_value_pieces w topo path Hw Hp) in V. injection V as <-. exact T.
Qed.
Lemma split_pieces_along {C A} (z : A) n dflt grid (coords : C) w topo p path :
  choose_path n dflt grid p = Ok path -> rect w topo -> valid_path w path ->
  split_cells z n dflt grid coords topo DNone p = Ok (coords, (pieces_along path topo, DNone)).
Proof.
  intros Hp Hw Hv. unfold split_cells. rewrite Hp. cbn [bind]. unfold transform_topology. cbn [path_rows].
  rewrite (transform_pieces w topo path Hw Hv). reflexivity.
Qed.
Lemma pieces_rect table topo n : rect n table -> rect n (pieces_along table topo).
Proof.
  intros H. apply Forall_forall. intros row Hr. apply in_flat_map in Hr. destruct Hr as (c & _ & Hr).
  apply in_map_iff in Hr. destruct Hr as (p & <- & Hp). unfold reorder. rewrite map_length. exact (proj1 (Forall_forall _ _) H p Hp).
Qed.

(** ** Triangles and tetrahedra: the method, the table of the class and the function of tr.py agree *)
Lemma triangles_T3 topo : rect 3 topo -> to_triangles_T3 topo = Ok (pieces_along trimap_T3 topo).
Proof.
  intros H. unfold to_triangles_T3. f_equal. unfold pieces_along, trimap_T3.
  induction H as [|c topo Hc _ IH]; [reflexivity|]. cbn [flat_map map app]. f_equal; [|exact IH].
  do 3 (destruct c as [|? c]; [discriminate|]). destruct c; [reflexivity|discriminate].
Qed.
Lemma triangles_T6 topo : rect 6 topo -> to_triangles_T6 topo = Ok (pieces_along (trimap_T6 true) topo).
Proof.
  intros H. unfold to_triangles_T6, T6_to_T3. rewrite (split_pieces_along 0%nat 3 _ None tt 6 topo PNone path_T6_to_T3); [reflexivity|reflexivity|exact H|check_path].
Qed.
Lemma triangles_Q4 topo : rect 4 topo -> to_triangles_Q4 topo = Ok (pieces_along trimap_Q4 topo).
Proof.
  intros H. unfold to_triangles_Q4, Q4_to_T3. rewrite (split_pieces_along 0%nat 3 _ _ tt 4 topo PNone path_Q4_to_T3); [reflexivity|reflexivity|exact H|check_path].
Qed.
Lemma triangles_Q9 topo : rect 9 topo -> to_triangles_Q9 topo = Ok (pieces_along trimap_Q9 topo).
Proof.
  intros H. unfold to_triangles_Q9, Q9_to_Q4, Q4_to_T3.
  rewrite (split_pieces_along 0%nat 4 _ _ tt 9 topo PNone path_Q9_to_Q4); [|reflexivity|exact H|check_path].
  cbn [bind fst snd].
  rewrite (split_pieces_along 0%nat 3 _ _ tt 4 _ PNone path_Q4_to_T3); [|reflexivity|apply pieces_rect; repeat constructor|check_path].
  cbn [bind fst snd]. f_equal. unfold pieces_along.
  induction H as [|c topo Hc _ IH]; [reflexivity|].
  assert (S : forall (f : list nat -> list (list nat)) a b, flat_map f (a ++ b) = flat_map f a ++ flat_map f b)
    by (intros; rewrite !flat_map_concat_map, map_app, concat_app; reflexivity).
  cbn [flat_map]. rewrite S, IH. f_equal.
Qed.
Lemma tetrahedra_TET4 topo : rect 4 topo -> to_tetrahedra tetmap_TET4 topo = Ok topo.
Proof.
  intros H. unfold to_tetrahedra. rewrite (transform_pieces 4); [|exact H|check_path]. f_equal. unfold pieces_along, tetmap_TET4.
  induction H as [|c topo Hc _ IH]; [reflexivity|]. cbn [flat_map map app]. f_equal; [|exact IH].
  do 4 (destruct c as [|? c]; [discriminate|]). destruct c; [reflexivity|discriminate].
Qed.
Lemma tetrahedra_H8 {C A} (z : A) (coords : C) topo : rect 8 topo ->
  to_tetrahedra tetmap_H8 topo = Ok (pieces_along path_H8_to_TET4 topo) /\
  H8_to_TET4 z coords topo DNone PNone = Ok (coords, (pieces_along path_H8_to_TET4 topo, DNone)).
Proof.
  intros H. split; [apply (transform_pieces 8); [exact H|check_path]|].
  unfold H8_to_TET4. apply (split_pieces_along z 4 _ _ coords 8); [reflexivity|exact H|check_path].
Qed.
Lemma tetrahedra_W6 {C A} (z : A) (coords : C) topo : rect 6 topo ->
  to_tetrahedra tetmap_W6 topo = Ok (pieces_along path_W6_to_TET4 topo) /\
  W6_to_TET4 z coords topo DNone PNone = Ok (coords, (pieces_along path_W6_to_TET4 topo, DNone)).
Proof.
  intros H. split; [apply (transform_pieces 6); [exact H|check_path]|].
  unfold W6_to_TET4. apply (split_pieces_along z 4 _ _ coords 6); [reflexivity|exact H|check_path].
Qed.
(** wedges of order two: first into eight wedges, then into tetrahedra *)
Lemma tetrahedra_W18 topo : rect 18 topo -> exists tetmap, tetmap_W18 = Ok tetmap /\ length tetmap = 24%nat /\
  to_tetrahedra tetmap topo = Ok (pieces_along path_W6_to_TET4 (pieces_along path_W18_to_W6 topo)).
Proof.
  intros H.
  assert (V1 : valid_path 18 path_W18_to_W6) by check_path.
  assert (V2 : valid_path 6 path_W6_to_TET4) by check_path.
  assert (R1 : rect 6 path_W18_to_W6) by repeat constructor.
  destruct (compose_correct 18 6 topo path_W18_to_W6 path_W6_to_TET4 H V1 R1 V2) as (t1 & t2 & p & T1 & T2 & P & T).
  rewrite (transform_pieces 18 topo _ H V1) in T1. injection T1 as <-.
  rewrite (transform_pieces 6 _ _ (pieces_rect _ _ 6 R1) V2) in T2. injection T2 as <-.
  exists p. split; [exact P|]. split; [|exact T].
  assert (E : compose_trmap path_W18_to_W6 path_W6_to_TET4 = Ok p) by exact P. revert E. 
  match goal with |- ?a = _ -> _ => let v := eval vm_compute in a in change a with v end. intros E. injection E as <-. reflexivity.
Qed.
(** the faces as cells *)
Lemma faces_H8_cells {C A} (z : A) (coords : C) topo : rect 8 topo -> exists faces, faces_H8 topo = Ok faces /\
  H8_to_Q4 z coords topo DNone PNone = Ok (coords, (concat faces, DNone)).
Proof.
  intros H. pose proof (faces_H8_table topo H) as F. eexists. split; [exact F|].
  rewrite <- flat_map_concat_map. unfold H8_to_Q4. apply (split_pieces_along z 4 _ _ coords 8); [reflexivity|exact H|check_path].
Qed.

(** ** Faces and volumes *)
Lemma faces_TET4_volume coords topo faces i cell f : rect 4 topo -> faces_TET4 topo = Ok faces ->
  nth_error topo i = Some cell -> nth_error faces i = Some f ->
  rsum (map (fun t => match t with [a; b; c] => tri_cone coords a b c | _ => 0 end) f) = tet_nodes_volume coords cell.
Proof.
  intros H F Hi Hf. pose proof (faces_TET4_table topo H) as T. unfold table_of in T. rewrite T in F. injection F as <-.
  rewrite nth_error_map, Hi in Hf. injection Hf as <-.
  pose proof (proj1 (Forall_forall _ _) H cell (nth_error_In _ _ Hi)) as Hl.
  do 4 (destruct cell as [|? cell]; [discriminate|]). destruct cell; [|discriminate].
  cbn. unfold tri_cone, tet_volume, det3. field.
Qed.
(** the tetrahedra of a hexahedron fill it if its faces are plane; in any case their total is the volume behind the
    triangulated faces (SplitProofs2) *)

(** ** Reversed cells *)
Lemma flip_twice topo : flip (flip topo) = topo.
Proof.
  unfold flip. rewrite map_map. erewrite map_ext; [apply map_id|]. intros c. apply rev_involutive.
Qed.
Lemma flip_polygon coords topo i cell cell' : nth_error topo i = Some cell -> nth_error (flip topo) i = Some cell' ->
  (length cell = 3 \/ length cell = 4)%nat -> polygon_area coords cell' = - polygon_area coords cell.
Proof.
  intros Hi H' Hl. unfold flip in H'. rewrite nth_error_map, Hi in H'. injection H' as <-.
  destruct Hl as [Hl|Hl]; [do 3 (destruct cell as [|? cell]; [discriminate|])|do 4 (destruct cell as [|? cell]; [discriminate|])];
    (destruct cell; [|discriminate]); unfold polygon_area; cbn; unfold cross2; field.
Qed.
Lemma flip_tet coords topo i cell cell' : nth_error topo i = Some cell -> nth_error (flip topo) i = Some cell' ->
  length cell = 4%nat -> tet_nodes_volume coords cell' = tet_nodes_volume coords cell.
Proof.
  intros Hi H' Hl. unfold flip in H'. rewrite nth_error_map, Hi in H'. injection H' as <-.
  do 4 (destruct cell as [|? cell]; [discriminate|]). destruct cell; [|discriminate]. cbn. unfold tet_volume. field.
Qed.
Lemma flip_solid coords topo i cell cell' hull w : (hull, w) = (hull_H8, 8%nat) \/ (hull, w) = (hull_W6, 6%nat) ->
  nth_error topo i = Some cell -> nth_error (flip topo) i = Some cell' ->
  length cell = w -> enclosed_volume hull coords cell' = enclosed_volume hull coords cell.
Proof.
  intros Hw Hi H' Hl. unfold flip in H'. rewrite nth_error_map, Hi in H'. injection H' as <-.
  destruct Hw as [E|E]; injection E as -> ->;
  [do 8 (destruct cell as [|? cell]; [discriminate|])|do 6 (destruct cell as [|? cell]; [discriminate|])]; (destruct cell; [|discriminate]);
  unfold enclosed_volume, rsum, face_cone, reorder, hull_H8, hull_W6; cbn; unfold quad_cone, tri_cone, det3; field.
Qed.
Lemma flip_T6 points topo i cell cell' : nth_error topo i = Some cell -> nth_error (flip topo) i = Some cell' ->
  straight points cell -> polygon_area points (firstn 3 cell) <> 0 ->
  polygon_area points (firstn 3 cell') = - polygon_area points (firstn 3 cell) / 4 /\ ~ straight points cell'.
Proof.
  intros Hi H' (a & b & c & p & q & r & -> & Hs) HA. unfold flip in H'. rewrite nth_error_map, Hi in H'. injection H' as <-.
  cbn [rev app firstn]. destruct (Hs 0%nat ltac:(lia)) as (P0 & Q0 & R0). destruct (Hs 1%nat ltac:(lia)) as (P1 & Q1 & R1).
  assert (E : polygon_area points [r; q; p] = - polygon_area points [a; b; c] / 4).
  { unfold polygon_area. cbn. unfold cross2. rewrite P0, Q0, R0, P1, Q1, R1. field. }
  split; [exact E|].
  intros (a' & b' & c' & p' & q' & r' & Ec & Hs'). injection Ec as <- <- <- <- <- <-.
  destruct (Hs' 0%nat ltac:(lia)) as (P0' & Q0' & R0'). destruct (Hs' 1%nat ltac:(lia)) as (P1' & Q1' & R1').
  apply HA. cbn [firstn]. unfold polygon_area. cbn. unfold cross2. 
  assert (X : forall x y : R, x = y -> x - y = 0) by (intros; lra).
  revert P0 Q0 R0 P1 Q1 R1 P0' Q0' R0' P1' Q1' R1'.
  generalize (coord points a 0) (coord points b 0) (coord points c 0) (coord points p 0) (coord points q 0) (coord points r 0)
    (coord points a 1) (coord points b 1) (coord points c 1) (coord points p 1) (coord points q 1) (coord points r 1).
  intros a0 b0 c0 p0 q0 r0 a1 b1 c1 p1 q1 r1. intros.
  assert (a0 = c0) by lra. assert (b0 = c0) by lra. assert (a1 = c1) by lra. assert (b1 = c1) by lra. subst. field.
Qed.
