(** * Proofs about [LocModel.v], part 5: locate for the types of solids *)
From Coq Require Import Reals Lra Lia List Permutation.
From Verif Require Import LocModel LocSpec QuadSpec SplitSpec BaseFacts TopoProofs5 TrProofs ShapeProofs4 TriProofs TriProofs2 TriProofs6 LocProofs LocProofs2 LocProofs3 LocProofs4.
Import ListNotations.
Local Open Scope R_scope.

(** ** affine maps *)
Lemma weighted_space_map : forall o u v w l pts d, length l = length pts -> (d < 3)%nat ->
  weighted l (map (space_map o u v w) pts) d =
  fold_right Rplus 0 l * at_ d o + weighted l pts 0 * at_ d u + weighted l pts 1 * at_ d v + weighted l pts 2 * at_ d w.
Proof.
  intros o u v w l pts d HL Hd. revert l HL. induction pts as [|p pts IH]; intros [|a l] HL; try discriminate HL.
  - unfold weighted. cbn [map combine fold_right]. ring.
  - injection HL as HL. specialize (IH l HL). unfold weighted in *. cbn [map combine fold_right fst snd]. rewrite IH.
    replace (at_ d (space_map o u v w p)) with (at_ d o + px p * at_ d u + py p * at_ d v + pz p * at_ d w).
    + unfold px, py, pz. ring.
    + unfold space_map, at_ at 5. destruct d as [|[|[|d]]]; [..|lia]; reflexivity.
Qed.
Lemma at_space_map : forall o u v w p d, (d < 3)%nat -> at_ d (space_map o u v w p) = at_ d o + px p * at_ d u + py p * at_ d v + pz p * at_ d w.
Proof. intros. unfold space_map, at_ at 1. destruct d as [|[|[|d]]]; [..|lia]; reflexivity. Qed.
Lemma weights_map : forall o u v w l pts p, weights_of 3 l pts p -> weights_of 3 l (map (space_map o u v w) pts) (space_map o u v w p).
Proof.
  intros o u v w l pts p (HL & HS & HW). split; [now rewrite map_length|]. split; [assumption|]. intros d Hd.
  rewrite weighted_space_map, at_space_map by assumption. rewrite HS, <- !HW by lia. unfold px, py, pz. ring.
Qed.
Lemma space_eq : forall p q : list R, dim 3 p -> dim 3 q -> (forall d, (d < 3)%nat -> at_ d p = at_ d q) -> p = q.
Proof.
  intros p q Hp Hq H. destruct (dim3 _ Hp) as (x0 & y0 & z0 & ->), (dim3 _ Hq) as (x1 & y1 & z1 & ->).
  pose proof (H 0%nat ltac:(lia)) as H0. pose proof (H 1%nat ltac:(lia)) as H1. pose proof (H 2%nat ltac:(lia)) as H2. unfold at_ in *. cbn [nth] in *. congruence.
Qed.
Lemma pick_map : forall (f : list R -> list R) w q pts, Forall (fun k => (k < w)%nat) q -> w = length pts -> pick q (map f pts) = map f (pick q pts).
Proof.
  intros f w q pts H ->. induction H as [|k q Hk H IH]; [reflexivity|]. cbn [pick map]. unfold pick in IH. f_equal; [|exact IH].
  rewrite (nth_indep _ [] (f [])) by (now rewrite map_length). apply map_nth.
Qed.
Lemma located_affine : forall tol smap lcoords ec o u v w x loc, pieces 4 (length lcoords) smap -> affine_cell lcoords ec o u v w ->
  dim 3 x -> located 3 tol smap lcoords ec x loc -> x = space_map o u v w loc.
Proof.
  intros tol smap lcoords ec o u v w x loc HP -> Hx (q & l & Hq & HW & HF & HW' & HD).
  unfold pieces in HP. rewrite Forall_forall in HP. destruct (HP q Hq) as (_ & Hr). rewrite (pick_map _ _ _ _ Hr eq_refl) in HW.
  pose proof (weights_map o u v w _ _ _ HW') as HM. apply space_eq; [assumption|reflexivity|]. intros d Hd.
  rewrite (proj2 (proj2 HW) d Hd), (proj2 (proj2 HM) d Hd). reflexivity.
Qed.
Lemma hull_map : forall o u v w pts p, in_hull 3 pts p -> in_hull 3 (map (space_map o u v w) pts) (space_map o u v w p).
Proof. intros o u v w pts p (l & HW & HF). exists l. split; [now apply weights_map|assumption]. Qed.
Lemma solid_of_volume : forall a b c d, dim 3 a -> dim 3 b -> dim 3 c -> dim 3 d -> signed_volume a b c d <> 0 -> solid_tet [a; b; c; d].
Proof.
  intros a b c d Ha Hb Hc Hd H. exists a, b, c, d. repeat (split; [assumption || reflexivity|]). intros HC.
  apply (proj2 (vol_zero a b c d Ha Hb Hc Hd)) in HC. rewrite vol_value in HC by assumption. congruence.
Qed.
Lemma volume_map : forall o u v w a b c d,
  signed_volume (space_map o u v w a) (space_map o u v w b) (space_map o u v w c) (space_map o u v w d) = map_det u v w * signed_volume a b c d.
Proof.
  intros. pose proof (vol_map o u v w a b c d) as H. cbn [map] in H. rewrite vol_value in H by reflexivity. congruence.
Qed.
Lemma solid_map : forall o u v w a b c d, map_det u v w <> 0 -> signed_volume a b c d <> 0 -> solid_tet (map (space_map o u v w) [a; b; c; d]).
Proof.
  intros. cbn [map]. apply solid_of_volume; try reflexivity. rewrite volume_map. now apply Rmult_integral_contrapositive_currified.
Qed.

(** the tetrahedra of the reference cells are not flat *)
Ltac ref_solid := intros q Hq; cbn in Hq; repeat (destruct Hq as [<-|Hq]; [do 4 eexists; split; [reflexivity|]; first [apply Rlt_not_eq; unfold signed_volume, at_, lcoords_H8, lcoords_W6, lcoords_W18; cbn [nth]; numR; lra | apply Rgt_not_eq; unfold signed_volume, at_, lcoords_H8, lcoords_W6, lcoords_W18; cbn [nth]; numR; lra]|]); destruct Hq.
Lemma solid_H8 : forall q, In q tetmap_H8 -> exists a b c d, pick q (lcoords_H8 (K := R)) = [a; b; c; d] /\ signed_volume a b c d <> 0.
Proof. ref_solid. Qed.
Lemma solid_W6 : forall q, In q tetmap_W6 -> exists a b c d, pick q (lcoords_W6 (K := R)) = [a; b; c; d] /\ signed_volume a b c d <> 0.
Proof. ref_solid. Qed.
Definition w18_tets : list (list nat) := match tetmap_W18 with Ok t => t | Err _ => [] end.
Lemma tetmap_W18_value : tetmap_W18 = Ok w18_tets.
Proof. reflexivity. Qed.
Lemma solid_W18 : forall q, In q w18_tets -> exists a b c d, pick q (lcoords_W18 (K := R)) = [a; b; c; d] /\ signed_volume a b c d <> 0.
Proof. ref_solid. Qed.
Lemma pieces_TET4 : pieces 4 4 tetmap_TET4. Proof. repeat constructor. Qed.
Lemma pieces_H8 : pieces 4 8 tetmap_H8. Proof. unfold pieces, tetmap_H8. repeat (constructor; [split; [reflexivity|repeat (constructor; [lia|]); constructor]|]). constructor. Qed.
Lemma pieces_W6 : pieces 4 6 tetmap_W6. Proof. unfold pieces, tetmap_W6. repeat (constructor; [split; [reflexivity|repeat (constructor; [lia|]); constructor]|]). constructor. Qed.
Lemma pieces_W18 : pieces 4 18 w18_tets.
Proof. unfold pieces. vm_compute w18_tets. repeat (constructor; [split; [reflexivity|repeat (constructor; [lia|]); constructor]|]). constructor. Qed.
Lemma affine_solid : forall lcoords smap ecs, pieces 4 (length lcoords) smap ->
  (forall q, In q smap -> exists a b c d, pick q lcoords = [a; b; c; d] /\ signed_volume a b c d <> 0) ->
  affine_mesh lcoords ecs -> forall ec q, In ec ecs -> In q smap -> solid_tet (pick q ec).
Proof.
  intros lcoords smap ecs HP HS HA ec q He Hq. unfold affine_mesh in HA. rewrite Forall_forall in HA. destruct (HA ec He) as (o & u & v & w & -> & HD).
  unfold pieces in HP. rewrite Forall_forall in HP. destruct (HP q Hq) as (_ & Hr). rewrite (pick_map _ _ _ _ Hr eq_refl).
  destruct (HS q Hq) as (a & b & c & d & -> & HV). now apply solid_map.
Qed.

(** ** positions given by the shape functions *)
Lemma position_H8 : forall o u v w r s t a, (a < 3)%nat -> position shp_H8 (map (space_map o u v w) lcoords_H8) a [r; s; t] = at_ a (space_map o u v w [r; s; t]).
Proof.
  intros o u v w r s t a Ha. unfold position, shp_H8, lcoords_H8, space_map, px, py, pz, at_. cbn [map nth dot].
  destruct a as [|[|[|a]]]; [..|lia]; cbn [nth]; numR; unfold dot, rsum; cbn [combine map fold_right fst snd]; field.
Qed.
Lemma position_TET4 : forall ec l p, length ec = 4%nat -> weights_of 3 l ec p -> forall loc, dim 3 loc -> weights_of 3 l (lcoords_TET4 (K := R)) loc ->
  forall a, (a < 3)%nat -> position shp_TET4 ec a loc = at_ a p.
Proof.
  intros ec l p HL (HLl & HS & HW) loc Hloc (_ & _ & HW') a Ha. destruct (dim3 _ Hloc) as (r & s & t & ->).
  destruct ec as [|p0 [|p1 [|p2 [|p3 [|]]]]]; try discriminate HL. destruct l as [|l0 [|l1 [|l2 [|l3 [|]]]]]; try discriminate HLl. cbn [fold_right] in HS.
  pose proof (HW' 0%nat ltac:(lia)) as E0. pose proof (HW' 1%nat ltac:(lia)) as E1. pose proof (HW' 2%nat ltac:(lia)) as E2.
  unfold weighted, at_, lcoords_TET4 in E0, E1, E2. cbn [combine map fold_right fst snd nth] in E0, E1, E2.
  rewrite (HW a Ha). unfold position, shp_TET4, weighted, dot, rsum. cbn [map combine fold_right fst snd]. unfold at_. numR.
  cbn [kofZ NumR NumBase.NumR] in E0, E1, E2. replace r with l1 by lra. replace s with l2 by lra. replace t with l3 by lra. replace l0 with (1 - l1 - l2 - l3) by lra. ring.
Qed.

(** ** tetrahedra *)
Lemma locate_TET4 : forall query sched coords topo ecs k tol x, any_order sched -> mesh_at coords topo ecs -> Forall solid_tet ecs ->
  Forall (dim 3) x -> 0 < tol ->
  exists src tgt locs, locate query sched lcoords_TET4 (Ok tetmap_TET4) coords topo false k tol x = Ok (src, tgt, locs) /\
    (forall i p ec, nth_error x i = Some p -> In ec ecs -> in_element (position shp_TET4 ec) unit_tet p -> In i src) /\
    located_all x (length topo) (fun p => exists ec, In ec ecs /\ near_hull 3 tol ec p)
      (fun e p loc => exists ec, nth_error ecs e = Some ec /\ near_hull 3 tol ec p /\ dim 3 loc /\ forall a, (a < 3)%nat -> position shp_TET4 ec a loc = at_ a p) src tgt locs.
Proof.
  intros query sched coords topo ecs k tol x Hs Hm Hsol Hx Ht.
  assert (HP : forall ec, In ec ecs -> length ec = 4%nat /\ pick [0; 1; 2; 3]%nat ec = ec).
  { intros ec He. rewrite Forall_forall in Hsol. destruct (Hsol ec He) as (a & b & c & d & -> & _). split; reflexivity. }
  assert (Hr : rect 4 topo).
  { apply Forall_forall. intros c Hc. apply In_nth_error in Hc. destruct Hc as (n & Hn). destruct (Forall2_nth_error _ _ _ _ _ Hm Hn) as (ec & He & HN).
    rewrite <- (nodes_length _ _ _ HN). apply HP. now apply nth_error_In with n. }
  assert (Hsolid : forall ec q, In ec ecs -> In q tetmap_TET4 -> solid_tet (pick q ec)).
  { intros ec q He [<-|[]]. rewrite (proj2 (HP ec He)). rewrite Forall_forall in Hsol. auto. }
  assert (Hlc : Forall (dim 3) (lcoords_TET4 (K := R))) by repeat constructor.
  destruct (locate_eager query sched lcoords_TET4 tetmap_TET4 coords topo ecs Hlc pieces_TET4 Hm Hr Hsolid tol x Hx Hs k) as (src & tgt & locs & E & H).
  assert (HN : forall ec p, In ec ecs -> (near_cell 3 tol tetmap_TET4 ec p <-> near_hull 3 tol ec p)).
  { intros ec p He. unfold near_cell. split.
    - intros (q & [<-|[]] & Hh). now rewrite (proj2 (HP ec He)) in Hh.
    - intros Hh. exists [0; 1; 2; 3]%nat. split; [now left|]. now rewrite (proj2 (HP ec He)). }
  exists src, tgt, locs. split; [assumption|]. destruct H as (G1 & G2 & G3 & G4 & G5). split.
  - intros i p ec Hi He (r & s & t & Hrst & Hpos). apply (G4 i p Hi). exists ec. split; [assumption|]. apply HN; [assumption|]. apply in_hull_near; [assumption|].
    exists [1 - r - s - t; r; s; t]. unfold unit_tet in Hrst. split; [|repeat (apply Forall_cons; [lra|]); apply Forall_nil].
    destruct (HP ec He) as (HL & _). split; [cbn; congruence|]. split; [cbn [fold_right]; lra|]. intros d Hd. rewrite <- (Hpos d Hd).
    destruct ec as [|p0 [|p1 [|p2 [|p3 [|]]]]]; try discriminate HL. unfold position, shp_TET4, weighted, dot, rsum. cbn [map combine fold_right fst snd]. unfold at_. numR. reflexivity.
  - split; [assumption|]. split; [assumption|]. split; [assumption|]. split.
    + intros i p Hi. rewrite (G4 i p Hi). split; intros (ec & He & Hh); exists ec; (split; [assumption|]); now apply HN.
    + intros s i e loc Hi He Hl. destruct (G5 s i e loc Hi He Hl) as (p & Hp & Hlt & ec & Hec & q & l & Hq & HW & HF & HW' & HD). exists p. split; [assumption|]. split; [assumption|].
      exists ec. split; [assumption|]. destruct Hq as [<-|[]]. pose proof (nth_error_In _ _ Hec) as Hin. rewrite (proj2 (HP ec Hin)) in HW. split; [now exists l|]. split; [assumption|].
      apply (position_TET4 ec l p); [apply (HP ec Hin)|assumption|assumption|exact HW'].
Qed.

(** ** hexahedra *)
Lemma cover_H8 : forall r s t, cube r s t -> exists q, In q tetmap_H8 /\ in_hull 3 (pick q (lcoords_H8 (K := R))) [r; s; t].
Proof.
  intros r s t (Hr & Hs & Ht).
  assert (P : forall q l0 l1 l2 l3, In q tetmap_H8 -> weights_of 3 [l0; l1; l2; l3] (pick q (lcoords_H8 (K := R))) [r; s; t] ->
     0 <= l0 -> 0 <= l1 -> 0 <= l2 -> 0 <= l3 -> exists q, In q tetmap_H8 /\ in_hull 3 (pick q (lcoords_H8 (K := R))) [r; s; t]).
  { intros q l0 l1 l2 l3 Hq HW H0 H1 H2 H3. exists q. split; [assumption|]. exists [l0; l1; l2; l3]. split; [assumption|]. repeat (apply Forall_cons; [assumption|]); apply Forall_nil. }
  Local Ltac wts := split; [reflexivity|]; split; [cbn [fold_right]; lra|]; intros [|[|[|]]] Hd; [| | |lia]; unfold weighted, at_, pick, lcoords_H8, lcoords_W6; cbn [nth combine map fold_right fst snd]; numR; lra.
  destruct (Rle_dec 1 (r - s - t)) as [H1|H1].
  { apply (P [1;2;0;5]%nat ((r-s-t-1)/2) ((1+s)/2) ((1-r)/2) ((1+t)/2)); [cbn; auto 6|wts|lra..]. }
  destruct (Rle_dec 1 (- r + s - t)) as [H2|H2].
  { apply (P [3;0;2;7]%nat ((-r+s-t-1)/2) ((1-s)/2) ((1+r)/2) ((1+t)/2)); [cbn; auto 6|wts|lra..]. }
  destruct (Rle_dec 1 (- r - s + t)) as [H3|H3].
  { apply (P [5;4;7;0]%nat ((1+r)/2) ((-r-s+t-1)/2) ((1+s)/2) ((1-t)/2)); [cbn; auto 6|wts|lra..]. }
  destruct (Rle_dec 1 (r + s + t)) as [H4|H4].
  { apply (P [6;5;7;2]%nat ((r+s+t-1)/2) ((1-s)/2) ((1-r)/2) ((1-t)/2)); [cbn; auto 6|wts|lra..]. }
  apply (P [0;2;7;5]%nat ((1-r-s-t)/4) ((1+r+s-t)/4) ((1-r+s+t)/4) ((1+r-s+t)/4)); [cbn; auto 6|wts|lra..].
Qed.
Lemma locate_affine : forall query sched lcoords smap coords topo ecs k tol x, any_order sched -> Forall (dim 3) lcoords -> pieces 4 (length lcoords) smap ->
  (forall q, In q smap -> exists a b c d, pick q lcoords = [a; b; c; d] /\ signed_volume a b c d <> 0) ->
  mesh_at coords topo ecs -> affine_mesh lcoords ecs -> Forall (dim 3) x ->
  exists src tgt locs, locate query sched lcoords (Ok smap) coords topo false k tol x = Ok (src, tgt, locs) /\
    located_all x (length topo) (fun p => exists ec, In ec ecs /\ near_cell 3 tol smap ec p)
      (fun e p loc => exists ec, nth_error ecs e = Some ec /\ near_cell 3 tol smap ec p /\ dim 3 loc /\
         forall o u v w, affine_cell lcoords ec o u v w -> p = space_map o u v w loc) src tgt locs.
Proof.
  intros query sched lcoords smap coords topo ecs k tol x Hs Hlc HP HS Hm HA Hx.
  assert (Hr : rect (length lcoords) topo).
  { apply Forall_forall. intros c Hc. apply In_nth_error in Hc. destruct Hc as (n & Hn). destruct (Forall2_nth_error _ _ _ _ _ Hm Hn) as (ec & He & HN).
    rewrite <- (nodes_length _ _ _ HN). unfold affine_mesh in HA. rewrite Forall_forall in HA. destruct (HA ec (nth_error_In _ _ He)) as (o & u & v & w & -> & _). apply map_length. }
  destruct (locate_eager query sched lcoords smap coords topo ecs Hlc HP Hm Hr (affine_solid lcoords smap ecs HP HS HA) tol x Hx Hs k) as (src & tgt & locs & E & H).
  exists src, tgt, locs. split; [assumption|]. destruct H as (G1 & G2 & G3 & G4 & G5). split; [assumption|]. split; [assumption|]. split; [assumption|]. split; [assumption|].
  intros s i e loc Hi He Hl. destruct (G5 s i e loc Hi He Hl) as (p & Hp & Hlt & ec & Hec & HLoc). exists p. split; [assumption|]. split; [assumption|]. exists ec. split; [assumption|].
  pose proof HLoc as (q & l & Hq & HW & HF & HW' & HD). split; [exists q; split; [assumption|now exists l]|]. split; [assumption|].
  intros o u v w Haff. apply (located_affine tol smap lcoords ec); [assumption|assumption| |assumption]. rewrite Forall_forall in Hx. apply Hx. now apply nth_error_In with i.
Qed.
Lemma locate_H8 : forall query sched coords topo ecs k tol x, any_order sched -> mesh_at coords topo ecs -> affine_mesh lcoords_H8 ecs -> Forall (dim 3) x -> 0 < tol ->
  exists src tgt locs, locate query sched lcoords_H8 (Ok tetmap_H8) coords topo false k tol x = Ok (src, tgt, locs) /\
    (forall i p ec, nth_error x i = Some p -> In ec ecs -> in_element (position shp_H8 ec) cube p -> In i src) /\
    located_all x (length topo) (fun p => exists ec, In ec ecs /\ near_cell 3 tol tetmap_H8 ec p)
      (fun e p loc => exists ec, nth_error ecs e = Some ec /\ near_cell 3 tol tetmap_H8 ec p /\ dim 3 loc /\ forall a, (a < 3)%nat -> position shp_H8 ec a loc = at_ a p) src tgt locs.
Proof.
  intros query sched coords topo ecs k tol x Hs Hm HA Hx Ht.
  assert (Hlc : Forall (dim 3) (lcoords_H8 (K := R))) by repeat constructor.
  destruct (locate_affine query sched lcoords_H8 tetmap_H8 coords topo ecs k tol x Hs Hlc pieces_H8 solid_H8 Hm HA Hx) as (src & tgt & locs & E & G1 & G2 & G3 & G4 & G5).
  exists src, tgt, locs. split; [assumption|]. split; [|split; [assumption|]; split; [assumption|]; split; [assumption|]; split; [assumption|]].
  - intros i p ec Hi He (r & s & t & Hrst & Hpos). apply (G4 i p Hi). exists ec. split; [assumption|]. unfold affine_mesh in HA. rewrite Forall_forall in HA.
    destruct (HA ec He) as (o & u & v & w & -> & _). destruct (cover_H8 r s t Hrst) as (q & Hq & Hh). exists q. split; [assumption|]. apply in_hull_near; [assumption|].
    pose proof pieces_H8 as HP. unfold pieces in HP. rewrite Forall_forall in HP. destruct (HP q Hq) as (_ & Hk). rewrite (pick_map _ 8 q (lcoords_H8 (K := R)) Hk eq_refl).
    replace p with (space_map o u v w [r; s; t]); [now apply hull_map|]. apply space_eq; [reflexivity| |].
    + rewrite Forall_forall in Hx. apply Hx. now apply nth_error_In with i.
    + intros d Hd. rewrite <- (Hpos d Hd). symmetry. now apply position_H8.
  - intros s i e loc Hi He Hl. destruct (G5 s i e loc Hi He Hl) as (p & Hp & Hlt & ec & Hec & Hn & HD & Haff). exists p. split; [assumption|]. split; [assumption|].
    exists ec. split; [assumption|]. split; [assumption|]. split; [assumption|]. intros a Ha. unfold affine_mesh in HA. rewrite Forall_forall in HA.
    destruct (HA ec (nth_error_In _ _ Hec)) as (o & u & v & w & Hc & _). rewrite (Haff _ _ _ _ Hc). unfold affine_cell in Hc. rewrite Hc.
    destruct (dim3 _ HD) as (r & s' & t & ->). now apply position_H8.
Qed.
