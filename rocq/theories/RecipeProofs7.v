(** * Proofs about [RecipeModel.v], part 7: plates of tetrahedra, plates that are not filled *)
From Coq Require Import Reals Lra Lia String.
From Verif Require Export RecipeProofs6.
Import ListNotations.
Local Open Scope R_scope.

Lemma plate_tets lx ly t wx wy hx hy ex ey lmax order : 0 < lx -> 0 < ly -> 0 < t -> rib_fits ly t (the_rib wx hx ex) -> rib_fits lx t (the_rib wy hy ey) ->
  match lmax with LFloat l => 0 < l | _ => True end -> order = 1%nat \/ order = 2%nat ->
  exists coords topo, ribbed_plate lx ly t wx wy hx hy ex ey lmax order true = Ok (coords, topo, if Nat.eqb order 1 then "TET4" else "TET10")%string /\
    tet_mesh coords topo /\ (order = 2%nat -> forall tet, In tet topo -> edges_halved coords tet) /\
    (forall p, (exists tet, In tet topo /\ in_tet coords tet (fun d => nth d p 0)) <-> in_plate lx ly t p \/ in_rib_x lx (the_rib wx hx ex) p \/ in_rib_y ly (the_rib wy hy ey) p) /\
    ~ conforming coords topo.
Proof.
  intros Hx Hy Ht Fx Fy HM HO. unfold ribbed_plate. rewrite !rib_the. set (rx := the_rib wx hx ex) in *. set (ry := the_rib wy hy ey) in *. clearbody rx ry. clear wx wy hx hy ex ey.
  destruct (plate_region lx ly t rx ry lmax Hx Hy Ht Fx Fy HM) as (xb & yb & zb & -> & -> & -> & Ix & Iy & Iz & Lx & Ly & Lz & (M0 & M1 & M2 & M3 & M4) & _ & REG). cbn [bind].
  destruct (plate_grid xb yb zb order HO Lx Ly Lz Ix Iy Iz) as (c0 & t0 & EG & G & HH). rewrite EG. cbn [bind].
  destruct (selected_tets order c0 t0 _ _ _ _ _ _ G HH ltac:(intros i Hi; apply Ix; lia) ltac:(intros i Hi; apply Iy; lia) ltac:(intros i Hi; apply Iz; lia) (plate_mask t rx ry) (plate_kept t rx ry) (plate_mask_ok t rx ry))
    as (centers & mask & t1 & coords & topo & E1 & E2 & E3 & E4 & TM & EH & FILL & NC).
  rewrite E1. cbn [bind]. rewrite E2. cbn [bind]. rewrite E3. cbn [bind]. rewrite E4. cbn [bind fst snd]. exists coords, topo. split; [reflexivity|]. split; [exact TM|]. split; [intros ->; apply EH; reflexivity|]. split.
  - intros p. rewrite <- REG. rewrite FILL. reflexivity.
  - (* two boxes of the plate on both sides of x = 0 *)
    destruct (between_bins zb Iz (- t / 2) (t / 2) 0 M3 M4 ltac:(lra) ltac:(lra)) as (l & Hl & L1 & _ & L2).
    apply (In_nth _ _ 0) in M0. destruct M0 as (k & Hk & Ek). apply (In_nth _ _ 0) in M1. destruct M1 as (k1 & Hk1 & Ek1). apply (In_nth _ _ 0) in M2. destruct M2 as (k2 & Hk2 & Ek2).
    pose proof (increasing_index xb Ix k1 k Hk1 Hk ltac:(lra)) as K1. pose proof (increasing_index xb Ix k k2 Hk Hk2 ltac:(lra)) as K2.
    assert (KK : forall i j, plate_kept t rx ry (middle (fun i => nth i xb 0) (fun i => nth i yb 0) (fun i => nth i zb 0) i j l) = true).
    { intros i j. unfold plate_kept. apply Bool.orb_true_intro. left. apply Bool.orb_true_intro. left. apply strictly_iff. unfold middle. cbn [nth]. pose proof (Iz l Hl). lra. }
    apply (NC (k - 1)%nat 0%nat l); try lia; apply KK.
Qed.

(** ** Any plate without refinement *)
Lemma plate_any lx ly t wx wy hx hy ex ey lmax order : 0 < lx -> 0 < ly -> 0 < t -> match lmax with LFloat _ => False | _ => True end -> order = 1%nat \/ order = 2%nat ->
  let rx := the_rib wx hx ex in let ry := the_rib wy hy ey in
  let xb := plate_xbins lx ry in let yb := plate_ybins ly rx in let zb := plate_zbins t rx ry in
  let XS := fun i => nth i xb 0 in let YS := fun i => nth i yb 0 in let ZS := fun i => nth i zb 0 in
  exists coords topo, ribbed_plate lx ly t wx wy hx hy ex ey lmax order false = Ok (coords, topo, if Nat.eqb order 1 then "H8" else "H27")%string /\
    box_mesh (if Nat.eqb order 1 then lcoords_H8 else lcoords_H27) coords topo /\
    (forall i j l, (i < length xb - 1)%nat -> (j < length yb - 1)%nat -> (l < length zb - 1)%nat -> plate_kept t rx ry (middle XS YS ZS i j l) = true -> exists cell, In cell topo /\ box_at XS YS ZS coords cell i j l) /\
    (forall cell, In cell topo -> exists i j l, (i < length xb - 1)%nat /\ (j < length yb - 1)%nat /\ (l < length zb - 1)%nat /\ plate_kept t rx ry (middle XS YS ZS i j l) = true /\ box_at XS YS ZS coords cell i j l).
Proof.
  intros Hx Hy Ht HM HO rx ry xb yb zb XS YS ZS. unfold ribbed_plate. rewrite !rib_the. fold rx ry xb yb zb.
  assert (EL : forall b, refine lmax b = Ok b) by (destruct lmax; [reflexivity|contradiction|reflexivity]). rewrite !EL. cbn [bind].
  assert (Ix : increasing xb) by apply sorted_increasing. assert (Iy : increasing yb) by apply sorted_increasing. assert (Iz : increasing zb) by apply sorted_increasing.
  assert (Lx : (2 <= length xb)%nat) by (apply (two_long xb 0 (lx / 2)); [apply sort_unique_in; cbn; auto..|lra]). assert (Ly : (2 <= length yb)%nat) by (apply (two_long yb 0 (ly / 2)); [apply sort_unique_in; cbn; auto..|lra]).
  assert (Lz : (2 <= length zb)%nat) by (apply (two_long zb 0 (t / 2)); [apply sort_unique_in; cbn; auto..|lra]).
  destruct (plate_grid xb yb zb order HO Lx Ly Lz Ix Iy Iz) as (c0 & t0 & EG & G & HH). rewrite EG. cbn [bind].
  destruct (selected_boxes _ c0 t0 _ _ _ _ _ _ G HH ltac:(intros i Hi; apply Ix; lia) ltac:(intros i Hi; apply Iy; lia) ltac:(intros i Hi; apply Iz; lia) (plate_mask t rx ry) (plate_kept t rx ry) (plate_mask_ok t rx ry))
    as (centers & mask & coords & topo & E1 & E2 & E3 & BM & K1 & K2).
  rewrite E1. cbn [bind]. rewrite E2. cbn [bind]. rewrite E3. cbn [bind fst snd]. exists coords, topo. split; [reflexivity|]. split; [exact BM|]. split; [exact K1|exact K2].
Qed.

(** a rib above the plate that does not touch it *)
Lemma plate_gap lx ly t w h e order : 0 < lx -> 0 < ly -> 0 < t -> 0 < w <= ly -> 0 < h -> t / 2 < e - h / 2 -> order = 1%nat \/ order = 2%nat ->
  exists coords topo, ribbed_plate lx ly t (Some w) None (Some h) None (Some e) None LNone order false = Ok (coords, topo, if Nat.eqb order 1 then "H8" else "H27")%string /\
    (* a narrow gap is filled, *)
    (e - h / 2 - t / 2 < h -> exists p cell, In cell topo /\ in_box coords cell p /\ t / 2 < nth 2 p 0 < e - h / 2) /\
    (* a wide gap loses the rib *)
    (h <= e - h / 2 - t / 2 -> forall cell, In cell topo -> box_hi coords cell 2 <= t / 2).
Proof.
  intros Hx Hy Ht Hw Hh Hg HO. destruct (plate_any lx ly t (Some w) None (Some h) None (Some e) None LNone order Hx Hy Ht I HO) as (coords & topo & E & _ & K1 & K2). exists coords, topo. split; [exact E|]. clear E.
  cbn [the_rib] in *. set (rx := Some (w, h, e)) in *. set (xb := plate_xbins lx None) in *. set (yb := plate_ybins ly rx) in *. set (zb := plate_zbins t rx None) in *.
  assert (Ix : increasing xb) by apply sorted_increasing. assert (Iy : increasing yb) by apply sorted_increasing. assert (Iz : increasing zb) by apply sorted_increasing.
  assert (ZI : forall z, In z zb <-> z = - t / 2 \/ z = 0 \/ z = t / 2 \/ z = e + h / 2).
  { intros z. unfold zb, plate_zbins. rewrite sort_unique_in, in_app_iff, in_app_iff, !vertical_in. cbn. intuition lra. }
  assert (Z1 : In (t / 2) zb) by (apply ZI; lra). assert (Z2 : In (e + h / 2) zb) by (apply ZI; lra).
  assert (ZG : forall l, (l < length zb - 1)%nat -> nth (l + 1) zb 0 <= t / 2 \/ nth l zb 0 = t / 2 /\ nth (l + 1) zb 0 = e + h / 2).
  { intros l Hl. pose proof (Iz l ltac:(lia)) as D. destruct (not_between zb Iz (t / 2) l Z1 ltac:(lia)) as [B|B]; [|auto]. right.
    pose proof (proj1 (ZI _) (nth_In zb 0 (n := l) ltac:(lia))) as A1. pose proof (proj1 (ZI _) (nth_In zb 0 (n := (l + 1)%nat) ltac:(lia))) as A2. lra. }
  split.
  - intros HN. destruct (between_bins zb Iz (t / 2) (e + h / 2) ((t / 2 + (e - h / 2)) / 2) Z1 Z2 ltac:(lra) ltac:(lra)) as (l & Hl & B1 & B2 & B3). destruct (ZG l ltac:(lia)) as [Z|[Z3 Z4]]; [lra|].
    assert (Y1 : In (- w / 2) yb) by (apply sort_unique_in; cbn; auto). assert (Y2 : In (w / 2) yb) by (apply sort_unique_in; cbn; auto 6). destruct (between_bins yb Iy (- w / 2) (w / 2) 0 Y1 Y2 ltac:(lra) ltac:(lra)) as (j & Hj & C1 & C2 & C3).
    assert (X1 : In (- lx / 2) xb) by (apply sort_unique_in; cbn; auto). assert (X2 : In (lx / 2) xb) by (apply sort_unique_in; cbn; auto). destruct (between_bins xb Ix (- lx / 2) (lx / 2) 0 X1 X2 ltac:(lra) ltac:(lra)) as (i & Hi & D1 & D2 & D3).
    destruct (K1 i j l ltac:(lia) ltac:(lia) ltac:(lia)) as (cell & Hc & BA).
    { unfold plate_kept. apply Bool.orb_true_intro. left. apply Bool.orb_true_intro. right. unfold rib_kept, rx, middle. cbn [nth]. apply andb_true_intro. pose proof (Iy j Hj). split; apply strictly_iff; lra. }
    exists [0; 0; (t / 2 + (e - h / 2)) / 2], cell. split; [exact Hc|]. split; [|cbn [nth]; lra]. intros d Hd. destruct (BA d Hd) as [-> ->]. unfold corner, side. destruct d as [|[|[|d]]]; [| | |lia]; cbn [nth]; lra.
  - intros HW cell Hin. destruct (K2 cell Hin) as (i & j & l & Hi & Hj & Hl & Hk & BA). destruct (BA 2%nat ltac:(lia)) as [_ ->]. unfold corner, side. cbn [nth]. destruct (ZG l Hl) as [Z|[Z1' Z2']]; [lra|]. exfalso.
    unfold plate_kept, rib_kept, rx, middle in Hk. cbn [nth] in Hk. rewrite Bool.orb_false_r in Hk. apply Bool.orb_true_iff in Hk. destruct Hk as [Hk|Hk]; [apply strictly_iff in Hk; lra|]. apply andb_prop in Hk. destruct Hk as [_ Hk]. apply strictly_iff in Hk. lra.
Qed.

(** a rib that is wider than the plate and not as high widens the plate *)
Lemma plate_widened lx ly t w h order : 0 < lx -> 0 < ly -> 0 < t -> ly < w -> 0 < h < t -> order = 1%nat \/ order = 2%nat ->
  exists coords topo, ribbed_plate lx ly t (Some w) None (Some h) None None None LNone order false = Ok (coords, topo, if Nat.eqb order 1 then "H8" else "H27")%string /\
    exists p cell, In cell topo /\ in_box coords cell p /\ ly / 2 < nth 1 p 0 /\ h / 2 < nth 2 p 0.
Proof.
  intros Hx Hy Ht Hw Hh HO. destruct (plate_any lx ly t (Some w) None (Some h) None None None LNone order Hx Hy Ht I HO) as (coords & topo & E & _ & K1 & _). exists coords, topo. split; [exact E|]. clear E.
  cbn [the_rib] in *. set (rx := Some (w, h, 0)) in *. set (xb := plate_xbins lx None) in *. set (yb := plate_ybins ly rx) in *. set (zb := plate_zbins t rx None) in *.
  assert (Ix : increasing xb) by apply sorted_increasing. assert (Iy : increasing yb) by apply sorted_increasing. assert (Iz : increasing zb) by apply sorted_increasing.
  assert (Z1 : In (- t / 2) zb) by (apply sort_unique_in; cbn; auto). assert (Z2 : In (t / 2) zb) by (apply sort_unique_in; cbn; auto). destruct (between_bins zb Iz (- t / 2) (t / 2) (t / 2) Z1 Z2 ltac:(lra) ltac:(lra)) as (l & Hl & B1 & B2 & B3).
  assert (Y1 : In (- w / 2) yb) by (apply sort_unique_in; cbn; auto). assert (Y2 : In (w / 2) yb) by (apply sort_unique_in; cbn; auto 6). destruct (between_bins yb Iy (- w / 2) (w / 2) (w / 2) Y1 Y2 ltac:(lra) ltac:(lra)) as (j & Hj & C1 & C2 & C3).
  assert (X1 : In (- lx / 2) xb) by (apply sort_unique_in; cbn; auto). assert (X2 : In (lx / 2) xb) by (apply sort_unique_in; cbn; auto). destruct (between_bins xb Ix (- lx / 2) (lx / 2) 0 X1 X2 ltac:(lra) ltac:(lra)) as (i & Hi & D1 & D2 & D3).
  destruct (K1 i j l ltac:(lia) ltac:(lia) ltac:(lia)) as (cell & Hc & BA).
  { unfold plate_kept. apply Bool.orb_true_intro. left. apply Bool.orb_true_intro. left. apply strictly_iff. unfold middle. cbn [nth]. pose proof (Iz l Hl). lra. }
  exists [0; w / 2; t / 2], cell. split; [exact Hc|]. split; [|cbn [nth]; lra]. intros d Hd. destruct (BA d Hd) as [-> ->]. unfold corner, side. destruct d as [|[|[|d]]]; [| | |lia]; cbn [nth]; lra.
Qed.

(** an integer [lmax] is ignored *)
Lemma plate_integer lx ly t m order : 0 < lx -> 0 < ly -> 0 < t -> order = 1%nat \/ order = 2%nat ->
  exists coords topo, ribbed_plate lx ly t None None None None None None (LInt m) order false = Ok (coords, topo, if Nat.eqb order 1 then "H8" else "H27")%string /\ topo <> [] /\
    forall cell, In cell topo -> box_hi coords cell 0 - box_lo coords cell 0 = lx / 2.
Proof.
  intros Hx Hy Ht HO. destruct (plate_any lx ly t None None None None None None (LInt m) order Hx Hy Ht I HO) as (coords & topo & E & _ & K1 & K2). exists coords, topo. split; [exact E|]. clear E.
  cbn [the_rib] in *. set (xb := plate_xbins lx None) in *. set (yb := plate_ybins ly None) in *. set (zb := plate_zbins t None None) in *.
  assert (Ix : increasing xb) by apply sorted_increasing. assert (Iy : increasing yb) by apply sorted_increasing. assert (Iz : increasing zb) by apply sorted_increasing.
  assert (XI : forall x, In x xb <-> x = - lx / 2 \/ x = 0 \/ x = lx / 2) by (intros x; unfold xb, plate_xbins; rewrite sort_unique_in; cbn; intuition auto).
  assert (X0 : In 0 xb) by (apply XI; auto). assert (X1 : In (- lx / 2) xb) by (apply XI; auto). assert (X2 : In (lx / 2) xb) by (apply XI; auto). split.
  - assert (Z1 : In (- t / 2) zb) by (apply sort_unique_in; cbn; auto). assert (Z2 : In (t / 2) zb) by (apply sort_unique_in; cbn; auto). destruct (between_bins zb Iz (- t / 2) (t / 2) (t / 2) Z1 Z2 ltac:(lra) ltac:(lra)) as (l & Hl & B1 & B2 & B3).
    assert (Y1 : In (- ly / 2) yb) by (apply sort_unique_in; cbn; auto). assert (Y2 : In (ly / 2) yb) by (apply sort_unique_in; cbn; auto 6). destruct (between_bins yb Iy (- ly / 2) (ly / 2) 0 Y1 Y2 ltac:(lra) ltac:(lra)) as (j & Hj & C1 & C2 & C3).
    destruct (between_bins xb Ix (- lx / 2) (lx / 2) 0 X1 X2 ltac:(lra) ltac:(lra)) as (i & Hi & D1 & D2 & D3).
    destruct (K1 i j l ltac:(lia) ltac:(lia) ltac:(lia)) as (cell & Hc & _); [|intros E; rewrite E in Hc; easy].
    unfold plate_kept. apply Bool.orb_true_intro. left. apply Bool.orb_true_intro. left. apply strictly_iff. unfold middle. cbn [nth]. pose proof (Iz l Hl). lra.
  - intros cell Hin. destruct (K2 cell Hin) as (i & j & l & Hi & Hj & Hl & _ & BA). destruct (BA 0%nat ltac:(lia)) as [-> ->]. unfold corner, side. cbn [nth]. pose proof (Ix i ltac:(lia)) as D. pose proof (not_between xb Ix 0 i X0 ltac:(lia)) as NB.
    pose proof (proj1 (XI _) (nth_In xb 0 (n := i) ltac:(lia))) as A1. pose proof (proj1 (XI _) (nth_In xb 0 (n := (i + 1)%nat) ltac:(lia))) as A2. lra.
Qed.
