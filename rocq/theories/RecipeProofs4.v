(** * Proofs about [RecipeModel.v], part 4: ribbed plates *)
From Coq Require Import Reals Lra Lia Sorted String.
From Verif Require Export RecipeProofs3.
From Verif Require Import BaseFacts CellsModel GridProofs7 ShapeProofs4.
Import ListNotations.
Local Open Scope R_scope.

Lemma hexahedral_H8 : hexahedral (lcoords_H8 (K := R)).
Proof. split; [reflexivity|]. split; [reflexivity|]. intros d Hd. destruct d as [|[|[|d]]]; [| | |lia]; cbn; lra. Qed.
Lemma hexahedral_H27 : hexahedral (lcoords_H27 (K := R)).
Proof. split; [reflexivity|]. split; [reflexivity|]. intros d Hd. destruct d as [|[|[|d]]]; [| | |lia]; cbn; lra. Qed.

(** ** Grids from bins *)
Lemma bins_boxes xb yb zb w name path lcoords : (2 <= length xb)%nat -> (2 <= length yb)%nat -> (2 <= length zb)%nat -> (1 <= w)%nat -> increasing xb -> increasing yb -> increasing zb ->
  named (bargs [xb; yb; zb] [0; 0; 0] 0) name [w + 1; w + 1; w + 1]%nat path -> path_table3 w path lcoords -> length path = ((w + 1) * (w + 1) * (w + 1))%nat -> perm_seqb path = true ->
  grid (bins_args [xb; yb; zb]) (EName name) = grid (bargs [xb; yb; zb] [0; 0; 0] 0) (EName name) ->
  exists coords topo, grid (bins_args [xb; yb; zb]) (EName name) = Ok (coords, topo) /\
    grid_boxes lcoords coords topo (length xb - 1) (length yb - 1) (length zb - 1) (fun i => nth i xb 0) (fun i => nth i yb 0) (fun i => nth i zb 0).
Proof.
  intros Hx Hy Hz Hw Ix Iy Iz Hname Htab Hlp Hpb EG. apply perm_seqb_ok in Hpb.
  pose proof (gridb3_value xb yb zb (w + 1) (w + 1) (w + 1) 0 Hx Hy Hz ltac:(lia) ltac:(lia) ltac:(lia) 0 0 0 _ (or_introl eq_refl)) as E.
  pose proof (topo3_rect_e (length xb - 1) (length yb - 1) (length zb - 1) (w + 1) (w + 1) (w + 1) 0 ltac:(lia) ltac:(lia) ltac:(lia)) as Hr.
  pose proof (gridb3_lattice xb yb zb (w + 1) (w + 1) (w + 1) 0 Hx Hy Hz ltac:(lia) ltac:(lia) ltac:(lia) 0 0 0) as HL.
  replace (w + 1 - 1)%nat with w in * by lia. rewrite <- Hlp in Hr.
  destruct (Hname _ _ _ E Hr (perm_all_lt _ Hpb)) as (topo' & E' & Hre). do 2 eexists. split; [rewrite EG; exact E'|].
  eapply lattice_boxes with (w := w) (path := path); [..|exact HL|exact Htab|exact Hre|exact Hr|exact Hpb| | | | | |]; try lia; try (intros; unfold binned; lra); intros i Hi; [apply Ix|apply Iy|apply Iz]; lia.
Qed.
Lemma H8_boxes xb yb zb : (2 <= length xb)%nat -> (2 <= length yb)%nat -> (2 <= length zb)%nat -> increasing xb -> increasing yb -> increasing zb ->
  exists coords topo, grid (bins_args [xb; yb; zb]) (EName "H8") = Ok (coords, topo) /\
    grid_boxes lcoords_H8 coords topo (length xb - 1) (length yb - 1) (length zb - 1) (fun i => nth i xb 0) (fun i => nth i yb 0) (fun i => nth i zb 0).
Proof.
  intros. apply (bins_boxes xb yb zb 1 "H8" path_H8); auto using table_H8. apply named_H8 with (s := [0; 0; 0]); reflexivity.
Qed.
Lemma H27_boxes xb yb zb : (2 <= length xb)%nat -> (2 <= length yb)%nat -> (2 <= length zb)%nat -> increasing xb -> increasing yb -> increasing zb ->
  exists coords topo, grid (bins_args [xb; yb; zb]) (EName "H27") = Ok (coords, topo) /\
    grid_boxes lcoords_H27 coords topo (length xb - 1) (length yb - 1) (length zb - 1) (fun i => nth i xb 0) (fun i => nth i yb 0) (fun i => nth i zb 0).
Proof.
  intros. apply (bins_boxes xb yb zb 2 "H27" path_H27); auto using table_H27. apply named_H27 with (s := [0; 0; 0]); reflexivity.
Qed.

(** ** The mask *)
Lemma strictly_iff x y a : strictly x y a = true <-> x < a < y.
Proof. unfold strictly. destruct (Rlt_dec x a), (Rlt_dec a y); cbn; intuition; try discriminate; lra. Qed.
Definition rib_kept (axis : nat) (r : option (R * R * R)) (c : list R) : bool :=
  match r with Some (w, h, e) => strictly (- w / 2) (w / 2) (nth axis c 0) && strictly (e - h / 2) (e + h / 2) (nth 2 c 0) | None => false end.
Definition plate_kept (t : R) (rx ry : option (R * R * R)) (c : list R) : bool := strictly (- t / 2) (t / 2) (nth 2 c 0) || rib_kept 1 rx c || rib_kept 0 ry c.
Lemma plate_mask_ok t rx ry x y z : plate_mask t rx ry [x; y; z] = Ok (plate_kept t rx ry [x; y; z]).
Proof. unfold plate_mask, rib_mask, plate_kept, rib_kept. destruct rx as [[[wx hx] ex]|], ry as [[[wy hy] ey]|]; reflexivity. Qed.
Lemma rib_the w h e : rib w h e = the_rib w h e.
Proof. now destruct w, h, e. Qed.

(** ** Bins of the plate *)
Lemma sorted_increasing l : increasing (sort_unique l).
Proof. intros i Hi. exact (Sorted_nth _ _ (sort_unique_sorted l) i Hi). Qed.
Lemma two_long (l : list R) a b : In a l -> In b l -> a <> b -> (2 <= length l)%nat.
Proof. intros Ha Hb N. destruct l as [|x [|y l]]; [easy| |cbn; lia]. destruct Ha as [<-|[]], Hb as [<-|[]]. congruence. Qed.
Lemma across_bins l r lmax : 0 < l -> match r with Some (w, _, _) => 0 < w <= l | None => True end -> lmax_ok lmax ->
  exists b, refine lmax (sort_unique ([- l / 2; 0; l / 2] ++ rib_across r)) = Ok b /\ increasing b /\ (2 <= length b)%nat /\ In (- l / 2) b /\ In (l / 2) b /\ (forall x, In x (rib_across r) -> In x b) /\
    (forall x, In x b -> - l / 2 <= x <= l / 2) /\ (forall m, lmax = LFloat m -> forall i, (i + 1 < length b)%nat -> nth (i + 1) b 0 - nth i b 0 <= m) /\ In 0 b.
Proof.
  intros Hl Hr HM. set (q := sort_unique _). assert (I1 : In (- l / 2) q) by (apply sort_unique_in; cbn; auto). assert (I2 : In (l / 2) q) by (apply sort_unique_in; cbn; auto).
  destruct (refine_ok lmax q HM) as (b & E & (J1 & J2 & J3 & J4) & J5); [intros Eq; rewrite Eq in I1; easy|apply sorted_increasing|]. exists b. split; [exact E|]. split; [exact J1|]. split; [apply (two_long b (- l / 2) (l / 2)); auto; lra|]. split; [auto|]. split; [auto|].
  split; [intros x Hx; apply J2, sort_unique_in, in_or_app; auto|]. split; [|split; [intros m ->; exact J5|apply J2, sort_unique_in; cbn; auto]].
  assert (G : forall x, In x q -> - l / 2 <= x <= l / 2). { intros x Hx. apply sort_unique_in, in_app_or in Hx. destruct Hx as [[<-|[<-|[<-|[]]]]|Hx]; try lra. destruct r as [[[w h] e]|]; [|easy]. destruct Hx as [<-|[<-|[]]]; lra. }
  intros x Hx. destruct (J4 x Hx) as (u & v & U & V & B). specialize (G u U) as G1. specialize (G v V) as G2. lra.
Qed.
Lemma vertical_in t r x : In x (rib_vertical t r) <-> match r with Some (w, h, e) => x = e - h / 2 /\ e - h / 2 < - t / 2 \/ x = e + h / 2 /\ t / 2 < e + h / 2 | None => False end.
Proof.
  destruct r as [[[w h] e]|]; cbn [rib_vertical]; [|easy]. rewrite in_app_iff. destruct (Rlt_dec (e - h / 2) (- t / 2)), (Rlt_dec (t / 2) (e + h / 2)); cbn; intuition.
Qed.
Lemma vertical_bins t rx ry lmax : 0 < t -> lmax_ok lmax ->
  exists b, refine lmax (plate_zbins t rx ry) = Ok b /\ increasing b /\ (2 <= length b)%nat /\ In (- t / 2) b /\ In (t / 2) b /\ (forall x, In x (rib_vertical t rx) \/ In x (rib_vertical t ry) -> In x b) /\
    (forall m, lmax = LFloat m -> forall i, (i + 1 < length b)%nat -> nth (i + 1) b 0 - nth i b 0 <= m).
Proof.
  intros Ht HM. unfold plate_zbins. set (q := sort_unique _). assert (I1 : In (- t / 2) q) by (apply sort_unique_in; cbn; auto). assert (I2 : In (t / 2) q) by (apply sort_unique_in; cbn; auto).
  destruct (refine_ok lmax q HM) as (b & E & (J1 & J2 & J3 & J4) & J5); [intros Eq; rewrite Eq in I1; easy|apply sorted_increasing|]. exists b. split; [exact E|]. split; [exact J1|]. split; [apply (two_long b (- t / 2) (t / 2)); auto; lra|]. split; [auto|]. split; [auto|].
  split; [intros x Hx; apply J2, sort_unique_in, in_or_app; right; apply in_or_app; auto|]. intros m ->. exact J5.
Qed.

(** ** The plate *)
Definition at_box (xs ys zs : nat -> R) (i j l : nat) (p : list R) : Prop := forall d, (d < 3)%nat -> corner xs ys zs i j l d <= nth d p 0 <= corner xs ys zs i j l d + side xs ys zs i j l d.
Lemma plate_region lx ly t rx ry lmax : 0 < lx -> 0 < ly -> 0 < t -> rib_fits ly t rx -> rib_fits lx t ry -> lmax_ok lmax ->
  exists xb yb zb, refine lmax (plate_xbins lx ry) = Ok xb /\ refine lmax (plate_ybins ly rx) = Ok yb /\ refine lmax (plate_zbins t rx ry) = Ok zb /\
    increasing xb /\ increasing yb /\ increasing zb /\ (2 <= length xb)%nat /\ (2 <= length yb)%nat /\ (2 <= length zb)%nat /\ (In 0 xb /\ In (- lx / 2) xb /\ In (lx / 2) xb /\ In (- t / 2) zb /\ In (t / 2) zb) /\
    (forall m b i, lmax = LFloat m -> In b [xb; yb; zb] -> (i + 1 < length b)%nat -> nth (i + 1) b 0 - nth i b 0 <= m) /\
    let XS := fun i => nth i xb 0 in let YS := fun i => nth i yb 0 in let ZS := fun i => nth i zb 0 in
    forall p, (exists i j l, (i < length xb - 1)%nat /\ (j < length yb - 1)%nat /\ (l < length zb - 1)%nat /\ plate_kept t rx ry (middle XS YS ZS i j l) = true /\ at_box XS YS ZS i j l p) <->
      in_plate lx ly t p \/ in_rib_x lx rx p \/ in_rib_y ly ry p.
Proof.
  intros Hx Hy Ht Fx Fy HM.
  assert (Wy : match ry with Some (w, _, _) => 0 < w <= lx | None => True end) by (destruct ry as [[[w h] e]|]; [apply Fy|exact I]).
  assert (Wx : match rx with Some (w, _, _) => 0 < w <= ly | None => True end) by (destruct rx as [[[w h] e]|]; [apply Fx|exact I]).
  destruct (across_bins lx ry lmax Hx Wy HM) as (xb & Ex & Ix & Lx & X1 & X2 & X3 & X4 & X5 & X6).
  destruct (across_bins ly rx lmax Hy Wx HM) as (yb & Ey & Iy & Ly & Y1 & Y2 & Y3 & Y4 & Y5 & _).
  destruct (vertical_bins t rx ry lmax Ht HM) as (zb & Ez & Iz & Lz & Z1 & Z2 & Z3 & Z5).
  fold (plate_xbins lx ry) in Ex. fold (plate_ybins ly rx) in Ey. exists xb, yb, zb. do 10 (split; [auto|]).
  split; [intros m b i EL [<-|[<-|[<-|[]]]]; [exact (X5 m EL i)|exact (Y5 m EL i)|exact (Z5 m EL i)]|].
  intros XS YS ZS.
  assert (Bx : forall i, (i < length xb - 1)%nat -> - lx / 2 <= XS i /\ XS (i + 1)%nat <= lx / 2) by (intros i Hi; split; [apply (X4 (XS i))|apply (X4 (XS (i + 1)%nat))]; apply nth_In; lia).
  assert (By : forall i, (i < length yb - 1)%nat -> - ly / 2 <= YS i /\ YS (i + 1)%nat <= ly / 2) by (intros i Hi; split; [apply (Y4 (YS i))|apply (Y4 (YS (i + 1)%nat))]; apply nth_In; lia).
  intros p. split.
  - (* a kept cell lies in the plate or in a rib *)
    intros (i & j & k & Hi & Hj & Hk & Hm & HB). specialize (Bx i Hi). specialize (By j Hj). pose proof (Ix i ltac:(lia)) as Lxi. pose proof (Iy j ltac:(lia)) as Lyj. pose proof (Iz k ltac:(lia)) as Lzk. fold (XS i) (XS (i + 1)%nat) in Lxi. fold (YS j) (YS (j + 1)%nat) in Lyj. fold (ZS k) (ZS (k + 1)%nat) in Lzk.
    pose proof (HB 0%nat ltac:(lia)) as P0. pose proof (HB 1%nat ltac:(lia)) as P1. pose proof (HB 2%nat ltac:(lia)) as P2. unfold corner, side in P0, P1, P2. cbn [nth] in P0, P1, P2. clear HB.
    pose proof (not_between zb Iz (- t / 2) k Z1 ltac:(lia)) as T1. pose proof (not_between zb Iz (t / 2) k Z2 ltac:(lia)) as T2. fold (ZS k) (ZS (k + 1)%nat) in T1, T2.
    assert (IP : - t / 2 < (ZS k + ZS (k + 1)%nat) / 2 < t / 2 -> in_plate lx ly t p) by (intros Q; unfold in_plate, within; repeat split; lra).
    unfold plate_kept, middle in Hm. cbn [nth] in Hm. rewrite !Bool.orb_true_iff, strictly_iff in Hm. destruct Hm as [[Hm|Hm]|Hm]; [left; auto| |].
    + unfold rib_kept in Hm. destruct rx as [[[w h] e]|]; [|discriminate]. cbn [nth] in Hm. rewrite Bool.andb_true_iff, !strictly_iff in Hm. destruct Hm as [M1 M2].
      pose proof (not_between yb Iy (- w / 2) j ltac:(apply Y3; cbn; auto) ltac:(lia)) as W1. pose proof (not_between yb Iy (w / 2) j ltac:(apply Y3; cbn; auto) ltac:(lia)) as W2. fold (YS j) (YS (j + 1)%nat) in W1, W2.
      destruct (Rlt_dec (- t / 2) ((ZS k + ZS (k + 1)%nat) / 2)) as [Q1|Q1]; [destruct (Rlt_dec ((ZS k + ZS (k + 1)%nat) / 2) (t / 2)) as [Q2|Q2]; [left; apply IP; lra|]|].
      * assert (B : In (e + h / 2) zb) by (apply Z3; left; apply vertical_in; right; split; [reflexivity|lra]). pose proof (not_between zb Iz _ k B ltac:(lia)) as T3. fold (ZS k) (ZS (k + 1)%nat) in T3.
        right. left. destruct Fx as (_ & _ & F1 & F2). unfold in_rib_x, within. repeat split; lra.
      * assert (B : In (e - h / 2) zb) by (apply Z3; left; apply vertical_in; left; split; [reflexivity|lra]). pose proof (not_between zb Iz _ k B ltac:(lia)) as T3. fold (ZS k) (ZS (k + 1)%nat) in T3.
        right. left. destruct Fx as (_ & _ & F1 & F2). unfold in_rib_x, within. repeat split; lra.
    + unfold rib_kept in Hm. destruct ry as [[[w h] e]|]; [|discriminate]. cbn [nth] in Hm. rewrite Bool.andb_true_iff, !strictly_iff in Hm. destruct Hm as [M1 M2].
      pose proof (not_between xb Ix (- w / 2) i ltac:(apply X3; cbn; auto) ltac:(lia)) as W1. pose proof (not_between xb Ix (w / 2) i ltac:(apply X3; cbn; auto) ltac:(lia)) as W2. fold (XS i) (XS (i + 1)%nat) in W1, W2.
      destruct (Rlt_dec (- t / 2) ((ZS k + ZS (k + 1)%nat) / 2)) as [Q1|Q1]; [destruct (Rlt_dec ((ZS k + ZS (k + 1)%nat) / 2) (t / 2)) as [Q2|Q2]; [left; apply IP; lra|]|].
      * assert (B : In (e + h / 2) zb) by (apply Z3; right; apply vertical_in; right; split; [reflexivity|lra]). pose proof (not_between zb Iz _ k B ltac:(lia)) as T3. fold (ZS k) (ZS (k + 1)%nat) in T3.
        right. right. destruct Fy as (_ & _ & F1 & F2). unfold in_rib_y, within. repeat split; lra.
      * assert (B : In (e - h / 2) zb) by (apply Z3; right; apply vertical_in; left; split; [reflexivity|lra]). pose proof (not_between zb Iz _ k B ltac:(lia)) as T3. fold (ZS k) (ZS (k + 1)%nat) in T3.
        right. right. destruct Fy as (_ & _ & F1 & F2). unfold in_rib_y, within. repeat split; lra.
  - (* every point is in a kept cell *)
    assert (FIND : forall x0 x1 y0 y1 z0 z1, In x0 xb -> In x1 xb -> In y0 yb -> In y1 yb -> In z0 zb -> In z1 zb -> x0 < x1 -> y0 < y1 -> z0 < z1 ->
      x0 <= nth 0 p 0 <= x1 -> y0 <= nth 1 p 0 <= y1 -> z0 <= nth 2 p 0 <= z1 ->
      (forall x y z, x0 < x < x1 -> y0 < y < y1 -> z0 < z < z1 -> plate_kept t rx ry [x; y; z] = true) -> exists i j l, (i < length xb - 1)%nat /\ (j < length yb - 1)%nat /\ (l < length zb - 1)%nat /\ plate_kept t rx ry (middle XS YS ZS i j l) = true /\ at_box XS YS ZS i j l p).
    { intros x0 x1 y0 y1 z0 z1 A1 A2 A3 A4 A5 A6 B1 B2 B3 C1 C2 C3 KK.
      destruct (between_bins xb Ix x0 x1 _ A1 A2 B1 C1) as (i & Hi & I1 & I2 & I3). destruct (between_bins yb Iy y0 y1 _ A3 A4 B2 C2) as (j & Hj & J1 & J2 & J3). destruct (between_bins zb Iz z0 z1 _ A5 A6 B3 C3) as (k & Hk & L1 & L2 & L3).
      pose proof (Ix i Hi). pose proof (Iy j Hj). pose proof (Iz k Hk).
      exists i, j, k. split; [lia|]. split; [lia|]. split; [lia|]. split; [unfold middle; apply KK; unfold XS, YS, ZS; lra|].
      intros d Hd. unfold corner, side, XS, YS, ZS. destruct d as [|[|[|d]]]; [| | |lia]; cbn [nth]; lra. }
    assert (PL : forall x y z, - t / 2 < z < t / 2 -> plate_kept t rx ry [x; y; z] = true).
    { intros x y z Q. unfold plate_kept. cbn [nth]. rewrite (proj2 (strictly_iff _ _ _) Q). reflexivity. }
    assert (IN : in_plate lx ly t p -> exists i j l, (i < length xb - 1)%nat /\ (j < length yb - 1)%nat /\ (l < length zb - 1)%nat /\ plate_kept t rx ry (middle XS YS ZS i j l) = true /\ at_box XS YS ZS i j l p).
    { intros (P0 & P1 & P2). unfold within in *. apply (FIND (- lx / 2) (lx / 2) (- ly / 2) (ly / 2) (- t / 2) (t / 2)); auto; lra. }
    intros [HP|[HP|HP]]; [auto| |].
    + unfold in_rib_x, within in HP. destruct rx as [[[w h] e]|]; [|easy]. destruct HP as (P0 & P1 & P2). destruct Fx as (F0 & F1 & F2 & F3).
      assert (KX : forall x y z, - w / 2 < y < w / 2 -> e - h / 2 < z < e + h / 2 -> plate_kept t (Some (w, h, e)) ry [x; y; z] = true).
      { intros x y z Q1 Q2. unfold plate_kept, rib_kept at 1. cbn [nth]. rewrite (proj2 (strictly_iff (- w / 2) _ _) Q1), (proj2 (strictly_iff (e - h / 2) _ _) Q2). cbn [andb]. rewrite Bool.orb_true_r. reflexivity. }
      destruct (Rlt_dec (nth 2 p 0) (- t / 2)) as [Q1|Q1]; [|destruct (Rlt_dec (t / 2) (nth 2 p 0)) as [Q2|Q2]; [|apply IN; unfold in_plate, within; repeat split; lra]].
      * apply (FIND (- lx / 2) (lx / 2) (- w / 2) (w / 2) (e - h / 2) (- t / 2)); auto; try lra; try (apply Y3; cbn; auto; fail); [apply Z3; left; apply vertical_in; left; split; [reflexivity|lra]|]. intros x y z R1 R2 R3. apply KX; lra.
      * apply (FIND (- lx / 2) (lx / 2) (- w / 2) (w / 2) (t / 2) (e + h / 2)); auto; try lra; try (apply Y3; cbn; auto; fail); [apply Z3; left; apply vertical_in; right; split; [reflexivity|lra]|]. intros x y z R1 R2 R3. apply KX; lra.
    + unfold in_rib_y, within in HP. destruct ry as [[[w h] e]|]; [|easy]. destruct HP as (P0 & P1 & P2). destruct Fy as (F0 & F1 & F2 & F3).
      assert (KY : forall x y z, - w / 2 < x < w / 2 -> e - h / 2 < z < e + h / 2 -> plate_kept t rx (Some (w, h, e)) [x; y; z] = true).
      { intros x y z Q1 Q2. unfold plate_kept, rib_kept at 2. cbn [nth]. rewrite (proj2 (strictly_iff (- w / 2) _ _) Q1), (proj2 (strictly_iff (e - h / 2) _ _) Q2). cbn [andb]. rewrite Bool.orb_true_r. reflexivity. }
      destruct (Rlt_dec (nth 2 p 0) (- t / 2)) as [Q1|Q1]; [|destruct (Rlt_dec (t / 2) (nth 2 p 0)) as [Q2|Q2]; [|apply IN; unfold in_plate, within; repeat split; lra]].
      * apply (FIND (- w / 2) (w / 2) (- ly / 2) (ly / 2) (e - h / 2) (- t / 2)); auto; try lra; try (apply X3; cbn; auto; fail); [apply Z3; right; apply vertical_in; left; split; [reflexivity|lra]|]. intros x y z R1 R2 R3. apply KY; lra.
      * apply (FIND (- w / 2) (w / 2) (- ly / 2) (ly / 2) (t / 2) (e + h / 2)); auto; try lra; try (apply X3; cbn; auto; fail); [apply Z3; right; apply vertical_in; right; split; [reflexivity|lra]|]. intros x y z R1 R2 R3. apply KY; lra.
Qed.

Lemma plate_grid xb yb zb order : order = 1%nat \/ order = 2%nat -> (2 <= length xb)%nat -> (2 <= length yb)%nat -> (2 <= length zb)%nat -> increasing xb -> increasing yb -> increasing zb ->
  exists coords topo, (if Nat.eqb order 1 then grid (bins_args [xb; yb; zb]) (EName "H8") else if Nat.eqb order 2 then grid (bins_args [xb; yb; zb]) (EName "H27") else Err ValueError) = Ok (coords, topo) /\
    grid_boxes (if Nat.eqb order 1 then lcoords_H8 else lcoords_H27) coords topo (length xb - 1) (length yb - 1) (length zb - 1) (fun i => nth i xb 0) (fun i => nth i yb 0) (fun i => nth i zb 0) /\ hexahedral (if Nat.eqb order 1 then lcoords_H8 else lcoords_H27).
Proof.
  intros [-> | ->] Lx Ly Lz Ix Iy Iz; cbn [Nat.eqb].
  - destruct (H8_boxes xb yb zb) as (c & tp & E & G); auto. exists c, tp. split; [exact E|]. split; [exact G|apply hexahedral_H8].
  - destruct (H27_boxes xb yb zb) as (c & tp & E & G); auto. exists c, tp. split; [exact E|]. split; [exact G|apply hexahedral_H27].
Qed.

Lemma plate_filled lx ly t wx wy hx hy ex ey lmax order : 0 < lx -> 0 < ly -> 0 < t -> rib_fits ly t (the_rib wx hx ex) -> rib_fits lx t (the_rib wy hy ey) ->
  match lmax with LFloat l => 0 < l | _ => True end -> order = 1%nat \/ order = 2%nat ->
  exists coords topo, ribbed_plate lx ly t wx wy hx hy ex ey lmax order false = Ok (coords, topo, if Nat.eqb order 1 then "H8" else "H27")%string /\
    box_mesh (if Nat.eqb order 1 then lcoords_H8 else lcoords_H27) coords topo /\
    (forall p, (exists cell, In cell topo /\ in_box coords cell p) <-> in_plate lx ly t p \/ in_rib_x lx (the_rib wx hx ex) p \/ in_rib_y ly (the_rib wy hy ey) p) /\
    (forall l cell d, lmax = LFloat l -> In cell topo -> (d < 3)%nat -> box_hi coords cell d - box_lo coords cell d <= l).
Proof.
  intros Hx Hy Ht Fx Fy HM HO. unfold ribbed_plate. rewrite !rib_the. set (rx := the_rib wx hx ex) in *. set (ry := the_rib wy hy ey) in *. clearbody rx ry. clear wx wy hx hy ex ey.
  destruct (plate_region lx ly t rx ry lmax Hx Hy Ht Fx Fy HM) as (xb & yb & zb & -> & -> & -> & Ix & Iy & Iz & Lx & Ly & Lz & _ & GAP & REG). cbn [bind].
  destruct (plate_grid xb yb zb order HO Lx Ly Lz Ix Iy Iz) as (c0 & t0 & EG & G & HH). rewrite EG. cbn [bind].
  destruct (selected_boxes _ c0 t0 _ _ _ _ _ _ G HH ltac:(intros i Hi; apply Ix; lia) ltac:(intros i Hi; apply Iy; lia) ltac:(intros i Hi; apply Iz; lia) (plate_mask t rx ry) (plate_kept t rx ry) (plate_mask_ok t rx ry))
    as (centers & mask & coords & topo & E1 & E2 & E3 & BM & K1 & K2).
  rewrite E1. cbn [bind]. rewrite E2. cbn [bind]. rewrite E3. cbn [bind fst snd]. exists coords, topo. split; [reflexivity|]. split; [exact BM|]. split.
  - intros p. rewrite <- REG. clear REG. split.
    + intros (cell & Hin & HB). destruct (K2 cell Hin) as (i & j & l & Hi & Hj & Hl & Hm & BA). exists i, j, l. do 4 (split; auto). intros d Hd. destruct (BA d Hd) as [<- <-]. exact (HB d Hd).
    + intros (i & j & l & Hi & Hj & Hl & Hm & AB). destruct (K1 i j l Hi Hj Hl Hm) as (cell & Hin & BA). exists cell. split; [exact Hin|]. intros d Hd. destruct (BA d Hd) as [-> ->]. exact (AB d Hd).
  - intros l cell d EL Hin Hd. destruct (K2 cell Hin) as (i & j & k & Hi & Hj & Hk & _ & BA). destruct (BA d Hd) as [-> ->].
    pose proof (GAP l xb i EL ltac:(cbn; auto) ltac:(lia)). pose proof (GAP l yb j EL ltac:(cbn; auto) ltac:(lia)). pose proof (GAP l zb k EL ltac:(cbn; auto) ltac:(lia)). unfold side. destruct d as [|[|[|d]]]; [| | |lia]; cbn [nth]; lra.
Qed.
