(** * Lemmas about [KindModel.v]: grids *)
From Coq Require Import Reals String List Lia Bool Arith Lra.
From Verif Require Import Base TrModel GridProofs GridProofs6 GridProofs7 FrameProofs FieldSpec FieldProofs NodalProofs5 FieldProofs2 FieldProofs3 KindSpec KindProofs.
Import ListNotations.
Local Open Scope R_scope.
Local Open Scope string_scope.

Lemma column_plane coords : coords <> [] -> rect 2 coords -> exists l, as_column coords = Ok (Plane l) /\ map components_2 l = coords.
Proof.
  intros H1 H2. assert (E : ncols coords = 2%nat) by (destruct coords; [contradiction|now apply Forall_inv in H2]).
  unfold as_column. rewrite E. eexists. split; [reflexivity|]. rewrite map_map. clear H1 E.
  induction H2 as [|r coords Hr _ IH]; [reflexivity|]. cbn [map]. f_equal; [|exact IH].
  destruct r as [|a [|b [|c r]]]; try discriminate Hr. reflexivity.
Qed.
Lemma column_space coords : coords <> [] -> rect 3 coords -> exists l, as_column coords = Ok (Space l) /\ map components l = coords.
Proof.
  intros H1 H2. assert (E : ncols coords = 3%nat) by (destruct coords; [contradiction|now apply Forall_inv in H2]).
  unfold as_column. rewrite E. eexists. split; [reflexivity|]. rewrite map_map. clear H1 E.
  induction H2 as [|r coords Hr _ IH]; [reflexivity|]. cbn [map]. f_equal; [|exact IH].
  destruct r as [|a [|b [|c [|d r]]]]; try discriminate Hr. reflexivity.
Qed.
Lemma grid_mesh : forall a e coords topo celltype f newaxis frames pf cf k,
  grid a e = Ok (coords, topo) -> coords <> [] -> (rect 2 coords /\ (newaxis < 3)%nat) \/ rect 3 coords ->
  celltype = Some k \/ (celltype = None /\ cell_classes MPoly (ncols topo) = Some k) ->
  of_length (length coords) (given_columns pf) -> of_length (length topo) (given_columns cf) -> (forall l, frames = Some (AMatrices l) -> length l = length topo) ->
  exists tp tc, Grid_init a e celltype f newaxis frames pf cf = Ok (Some tp, Some tc, k) /\ holds_mesh f newaxis coords topo tp tc.
Proof.
  intros a e coords topo celltype f newaxis frames pf cf k E Hne Hd Hk Hp Hcf Hfr.
  assert (Hpick : pick_class MPoly celltype topo = Ok k).
  { unfold pick_class. destruct Hk as [-> |[-> ->]]; reflexivity. }
  unfold Grid_init. rewrite E. cbn [bind fst snd]. destruct Hd as [[H2 Hn]|H3].
  - destruct (column_plane coords Hne H2) as (l & -> & El). cbn [bind].
    assert (Hl : length l = length coords) by (rewrite <- El; symmetry; apply map_length). pose proof Hn as Hb. apply Nat.ltb_lt in Hb.
    set (x' := match f with Some g => Space (show (new_cloud (map (insert_axis newaxis) l) (Some g) None) None) | None => Plane l end).
    destruct (mesh_init_ok MPoly (Plane l) x' topo celltype f newaxis frames pf cf k Hpick) as (tp & tc & H & _ & Hx & Hnd & _); [|cbn [clen]; rewrite Hl; exact Hp|exact Hcf|exact Hfr|].
    { unfold point_array. rewrite Hb. reflexivity. }
    exists tp, tc. split; [exact H|]. split; [exact Hnd|]. right. exists l. split; [exact El|]. unfold x' in Hx. destruct f as [g|]; [|exact Hx].
    exists (map (insert_axis newaxis) l). eexists. split; [|split; [|exact Hx]].
    + clear -Hn. induction l as [|p l IH]; cbn [map]; constructor; [|exact IH]. destruct newaxis as [|[|[|newaxis]]]; try reflexivity. lia.
    + apply (places_shown (map (insert_axis newaxis) l) (Some g)).
  - destruct (column_space coords Hne H3) as (l & -> & El). cbn [bind].
    assert (Hl : length l = length coords) by (rewrite <- El; symmetry; apply map_length).
    destruct (mesh_init_ok MPoly (Space l) _ topo celltype f newaxis frames pf cf k Hpick eq_refl) as (tp & tc & H & _ & Hx & Hnd & _); [cbn [clen]; rewrite Hl; exact Hp|exact Hcf|exact Hfr|].
    exists tp, tc. split; [exact H|]. split; [exact Hnd|]. left. exists l. eexists. split; [exact El|]. split; [apply places_shown|exact Hx].
Qed.
Lemma grid_error : forall a e celltype f newaxis frames pf cf err, grid a e = Err err -> Grid_init a e celltype f newaxis frames pf cf = Err err.
Proof. intros a e celltype f newaxis frames pf cf err E. unfold Grid_init. rewrite E. reflexivity. Qed.

Lemma coords2_rect (X Y : nat -> nat -> R) nx ny wx wy : rect 2 (coords2 nx ny wx wy X Y).
Proof. apply table2_rect. reflexivity. Qed.
Lemma coords3_rect (X Y Z : nat -> nat -> R) nx ny nz wx wy wz : rect 3 (coords3 nx ny nz wx wy wz X Y Z).
Proof. apply table2_rect. reflexivity. Qed.
Lemma coords2_some (X Y : nat -> nat -> R) nx ny wx wy : coords2 nx ny wx wy X Y <> [].
Proof. intros H. apply (f_equal (@length _)) in H. unfold coords2 in H. rewrite table2_length in H. cbn in H. nia. Qed.
Lemma coords3_some (X Y Z : nat -> nat -> R) nx ny nz wx wy wz : coords3 nx ny nz wx wy wz X Y Z <> [].
Proof. intros H. apply (f_equal (@length _)) in H. unfold coords3 in H. rewrite table2_length in H. cbn in H. nia. Qed.
Lemma rect_ncols w (topo : list (list nat)) : rect w topo -> (1 <= length topo)%nat -> ncols topo = w.
Proof. intros H L. destruct topo; [cbn in L; lia|]. now apply Forall_inv in H. Qed.

(** ** Grids of a number of nodes along each side *)

Lemma grid_shape_2d : forall lX lY sx sy nx ny ex ey start f newaxis, (1 <= nx)%nat -> (1 <= ny)%nat -> (2 <= ex)%nat -> (2 <= ey)%nat -> (newaxis < 3)%nat ->
  let a := uargs [lX; lY] [nx; ny] [sx; sy] start in
  match cell_classes MPoly (ex * ey) with
  | Some k => exists coords topo tp tc, grid a (ETuple [ex; ey]) = Ok (coords, topo) /\
      Grid_init a (ETuple [ex; ey]) None f newaxis None None None = Ok (Some tp, Some tc, k) /\ holds_mesh f newaxis coords topo tp tc /\
      (dim_of k = 2%nat <-> (ex = 2%nat /\ ey = 2%nat) \/ (ex = 3%nat /\ ey = 3%nat))
  | None => Grid_init a (ETuple [ex; ey]) None f newaxis None None None = Err TypeError
  end.
Proof.
  intros lX lY sx sy nx ny ex ey start f newaxis Hnx Hny Hex Hey Hn a.
  pose proof (grid2_value nx ny ex ey start Hnx Hny Hex Hey lX lY sx sy) as E.
  pose proof (topo2_rect_e nx ny ex ey start Hex Hey) as Hr.
  set (topo := topo2 nx ny (ex - 1) (ey - 1) start) in *. set (coords := coords2 _ _ _ _ _ _) in *.
  assert (Hw : ncols topo = (ex * ey)%nat).
  { apply rect_ncols; [exact Hr|]. unfold topo, topo2. rewrite table2_length. nia. }
  assert (Hne : coords <> []) by apply coords2_some. assert (H2 : rect 2 coords) by apply coords2_rect.
  destruct (cell_classes MPoly (ex * ey)) as [k|] eqn:Ek.
  - destruct (grid_mesh a (ETuple [ex; ey]) coords topo None f newaxis None None None k E Hne) as (tp & tc & H & Hm).
    + left. now split.
    + right. split; [reflexivity|]. now rewrite Hw.
    + intros k0 v [].
    + intros k0 v [].
    + intros l H. discriminate H.
    + exists coords, topo, tp, tc. split; [exact E|]. split; [exact H|]. split; [exact Hm|].
      assert (M : (ex * ey = 4 \/ ex * ey = 9 \/ dim_of k = 3 /\ ex * ey <> 4 /\ ex * ey <> 9)%nat).
      { assert (G : (4 <= ex * ey)%nat) by nia. revert G Ek. generalize (ex * ey)%nat. intros w. clear.
        do 28 (destruct w as [|w]; [cbn; try lia; try discriminate; intros _ H; injection H as <-; cbn; lia|]). cbn. discriminate. }
      assert (D : dim_of k = 2%nat <-> (ex * ey = 4 \/ ex * ey = 9)%nat).
      { split; [destruct M as [M|[M|M]]; lia|]. intros [G|G]; rewrite G in Ek; cbn in Ek; injection Ek as <-; reflexivity. }
      rewrite D. clear -Hex Hey. split; [|intros [[-> ->]|[-> ->]]; lia].
      intros H. assert (ex <= 4 /\ ey <= 4)%nat by nia. destruct ex as [|[|[|[|[|ex]]]]]; destruct ey as [|[|[|[|[|ey]]]]]; lia.
  - unfold Grid_init. fold a in E. rewrite E. cbn [bind fst snd]. destruct (column_plane coords Hne H2) as (l & -> & El). cbn [bind].
    unfold mesh_init, pick_class. rewrite Hw, Ek. apply Nat.ltb_lt in Hn.
    destruct (points_any (Plane l) (match f with Some g => Space (show (new_cloud (map (insert_axis newaxis) l) (Some g) None) None) | None => Plane l end) f newaxis None) as (fr & Ep).
    + unfold point_array. rewrite Hn. reflexivity.
    + intros k0 v [].
    + cbn [given_columns] in Ep. rewrite Ep. reflexivity.
Qed.
Lemma grid_shape_3d : forall lX lY lZ sx sy sz nx ny nz ex ey ez start f newaxis,
  (1 <= nx)%nat -> (1 <= ny)%nat -> (1 <= nz)%nat -> (2 <= ex)%nat -> (2 <= ey)%nat -> (2 <= ez)%nat ->
  let a := uargs [lX; lY; lZ] [nx; ny; nz] [sx; sy; sz] start in
  match cell_classes MPoly (ex * ey * ez) with
  | Some k => exists coords topo tp tc, grid a (ETuple [ex; ey; ez]) = Ok (coords, topo) /\
      Grid_init a (ETuple [ex; ey; ez]) None f newaxis None None None = Ok (Some tp, Some tc, k) /\ holds_mesh f newaxis coords topo tp tc /\
      k = (if (ex * ey * ez =? 8)%nat then KH8 else if (ex * ey * ez =? 27)%nat then KH27 else KW18)
  | None => Grid_init a (ETuple [ex; ey; ez]) None f newaxis None None None = Err TypeError
  end.
Proof.
  intros lX lY lZ sx sy sz nx ny nz ex ey ez start f newaxis Hnx Hny Hnz Hex Hey Hez a.
  pose proof (grid3_value nx ny nz ex ey ez start Hnx Hny Hnz Hex Hey Hez lX lY lZ sx sy sz) as E.
  pose proof (topo3_rect_e nx ny nz ex ey ez start Hex Hey Hez) as Hr.
  set (topo := topo3 nx ny nz (ex - 1) (ey - 1) (ez - 1) start) in *. set (coords := coords3 _ _ _ _ _ _ _ _ _) in *.
  assert (Hw : ncols topo = (ex * ey * ez)%nat).
  { apply rect_ncols; [exact Hr|]. unfold topo, topo3. rewrite table2_length. nia. }
  assert (Hne : coords <> []) by apply coords3_some. assert (H3 : rect 3 coords) by apply coords3_rect.
  destruct (cell_classes MPoly (ex * ey * ez)) as [k|] eqn:Ek.
  - destruct (grid_mesh a (ETuple [ex; ey; ez]) coords topo None f newaxis None None None k E Hne) as (tp & tc & H & Hm).
    + now right.
    + right. split; [reflexivity|]. now rewrite Hw.
    + intros k0 v [].
    + intros k0 v [].
    + intros l H. discriminate H.
    + exists coords, topo, tp, tc. split; [exact E|]. split; [exact H|]. split; [exact Hm|].
      assert (G : (8 <= ex * ey * ez)%nat) by (assert (4 <= ex * ey)%nat by nia; nia).
      assert (G9 : (ex * ey * ez <> 9 /\ ex * ey * ez <> 10)%nat).
      { assert (4 <= ex * ey)%nat by nia. assert (4 <= ey * ez)%nat by nia. assert (4 <= ex * ez)%nat by nia.
        split; intros Q; (assert (ex <= 2)%nat by nia; assert (ey <= 2)%nat by nia; assert (ez <= 2)%nat by nia;
        replace ex with 2%nat in Q by lia; replace ey with 2%nat in Q by lia; replace ez with 2%nat in Q by lia; discriminate Q). }
      revert G G9 Ek. generalize (ex * ey * ez)%nat. intros w. clear.
      do 28 (destruct w as [|w]; [cbn; try lia; try discriminate; intros _ _ H; injection H as <-; reflexivity|]). cbn. discriminate.
  - unfold Grid_init. fold a in E. rewrite E. cbn [bind fst snd]. destruct (column_space coords Hne H3) as (l & -> & El). cbn [bind].
    unfold mesh_init, pick_class. rewrite Hw, Ek.
    destruct (points_any (Space l) (Space (show (new_cloud l f None) None)) f newaxis None eq_refl) as (fr & Ep).
    + intros k0 v [].
    + cbn [given_columns] in Ep. rewrite Ep. reflexivity.
Qed.

(** ** Named grids *)

Lemma reordered_width path (topo topo' : list (list nat)) : reordered path topo topo' -> topo <> [] -> ncols topo' = length path.
Proof.
  intros [L H] Hn. destruct topo as [|c topo]; [contradiction|]. destruct (H 0%nat c eq_refl) as (c' & Hc & Hl & _).
  destruct topo' as [|c2 topo']; [discriminate Hc|]. injection Hc as ->. exact Hl.
Qed.
Lemma named_mesh a name es path coords topo w dim k f newaxis :
  named a name es path -> grid a (ETuple es) = Ok (coords, topo) -> rect w topo -> topo <> [] -> Forall (fun q => (q < w)%nat) path ->
  coords <> [] -> rect dim coords -> dim = 2%nat /\ (newaxis < 3)%nat \/ dim = 3%nat -> cell_classes MPoly (length path) = Some k ->
  forall coords' topo', grid a (EName name) = Ok (coords', topo') ->
  exists tp tc, Grid_init a (EName name) None f newaxis None None None = Ok (Some tp, Some tc, k) /\ holds_mesh f newaxis coords' topo' tp tc.
Proof.
  intros Hna E Hr Hne Hq Hc Hd Hdim Hk coords' topo' E'. destruct (Hna _ _ _ E Hr Hq) as (topo2 & E2 & Hre). rewrite E2 in E'. injection E' as <- <-.
  apply (grid_mesh a (EName name) coords topo2 None f newaxis None None None k E2 Hc).
  - destruct Hdim as [[-> Hn]| ->]; [left; now split|now right].
  - right. split; [reflexivity|]. now rewrite (reordered_width path topo).
  - intros k0 v [].
  - intros k0 v [].
  - intros l H. discriminate H.
Qed.
Lemma grid_name_2d : forall k lX lY sx sy nx ny start f newaxis, k = KQ4 \/ k = KQ9 -> (1 <= nx)%nat -> (1 <= ny)%nat -> (newaxis < 3)%nat ->
  let a := uargs [lX; lY] [nx; ny] [sx; sy] start in
  exists name coords topo tp tc, grid_name k = Some name /\ grid a (EName name) = Ok (coords, topo) /\
    Grid_init a (EName name) None f newaxis None None None = Ok (Some tp, Some tc, k) /\ holds_mesh f newaxis coords topo tp tc /\
    forall i j, (i < nx)%nat -> (j < ny)%nat -> exists cell, nth_error topo (i * ny + j) = Some cell /\
      box_placed 2 start coords cell (e_lcoords (element_of k))
        (fun d => nth d [sx + lX / INR nx * INR i; sy + lY / INR ny * INR j] 0) (fun d => nth d [lX / INR nx; lY / INR ny] 0).
Proof.
  intros k lX lY sx sy nx ny start f newaxis Hk Hnx Hny Hn a.
  assert (G : forall w name path lc, (1 <= w)%nat -> named a name [w + 1; w + 1]%nat path -> path_table2 w path lc -> length path = ((w + 1) * (w + 1))%nat ->
    perm_seqb path = true -> cell_classes MPoly (length path) = Some k -> grid_name k = Some name -> lc = e_lcoords (element_of k) ->
    exists name coords topo tp tc, grid_name k = Some name /\ grid a (EName name) = Ok (coords, topo) /\
    Grid_init a (EName name) None f newaxis None None None = Ok (Some tp, Some tc, k) /\ holds_mesh f newaxis coords topo tp tc /\
    forall i j, (i < nx)%nat -> (j < ny)%nat -> exists cell, nth_error topo (i * ny + j) = Some cell /\
      box_placed 2 start coords cell (e_lcoords (element_of k))
        (fun d => nth d [sx + lX / INR nx * INR i; sy + lY / INR ny * INR j] 0) (fun d => nth d [lX / INR nx; lY / INR ny] 0)).
  { intros w name path lc Hw Hna Ht Hl Hp Hc Hnm ->.
    destruct (grid2_named lX lY sx sy nx ny w start name path _ Hnx Hny Hw Hna Ht Hl Hp) as (coords & topo & E & _ & _ & HB).
    pose proof (grid2_value nx ny (w + 1) (w + 1) start Hnx Hny ltac:(lia) ltac:(lia) lX lY sx sy) as Et.
    pose proof (topo2_rect_e nx ny (w + 1) (w + 1) start ltac:(lia) ltac:(lia)) as Hr.
    destruct (named_mesh a name _ path _ _ _ 2 k f newaxis Hna Et Hr) with (coords' := coords) (topo' := topo) as (tp & tc & HG & HM); auto.
    - intros Q. apply (f_equal (@length _)) in Q. unfold topo2 in Q. rewrite table2_length in Q. cbn in Q. nia.
    - rewrite <- Hl. apply perm_all_lt. now apply perm_seqb_ok.
    - apply coords2_some.
    - apply coords2_rect.
    - exists name, coords, topo, tp, tc. auto. }
  destruct Hk as [-> | ->].
  - apply (G 1%nat "Q4" path_Q4 lcoords_Q4); try reflexivity; [apply named_Q4 with (s := [sx; sy]); reflexivity|apply table_Q4].
  - apply (G 2%nat "Q9" path_Q9 lcoords_Q9); try reflexivity; [lia|apply named_Q9 with (s := [sx; sy]); reflexivity|apply table_Q9].
Qed.
Lemma grid_name_3d : forall k lX lY lZ sx sy sz nx ny nz start f newaxis, k = KH8 \/ k = KH27 -> (1 <= nx)%nat -> (1 <= ny)%nat -> (1 <= nz)%nat ->
  let a := uargs [lX; lY; lZ] [nx; ny; nz] [sx; sy; sz] start in
  exists name coords topo tp tc, grid_name k = Some name /\ grid a (EName name) = Ok (coords, topo) /\
    Grid_init a (EName name) None f newaxis None None None = Ok (Some tp, Some tc, k) /\ holds_mesh f newaxis coords topo tp tc /\
    forall i j l, (i < nx)%nat -> (j < ny)%nat -> (l < nz)%nat -> exists cell, nth_error topo ((i * ny + j) * nz + l) = Some cell /\
      box_placed 3 start coords cell (e_lcoords (element_of k))
        (fun d => nth d [sx + lX / INR nx * INR i; sy + lY / INR ny * INR j; sz + lZ / INR nz * INR l] 0)
        (fun d => nth d [lX / INR nx; lY / INR ny; lZ / INR nz] 0).
Proof.
  intros k lX lY lZ sx sy sz nx ny nz start f newaxis Hk Hnx Hny Hnz a.
  assert (G : forall w name path lc, (1 <= w)%nat -> named a name [w + 1; w + 1; w + 1]%nat path -> path_table3 w path lc -> length path = ((w + 1) * (w + 1) * (w + 1))%nat ->
    perm_seqb path = true -> cell_classes MPoly (length path) = Some k -> grid_name k = Some name -> lc = e_lcoords (element_of k) ->
    exists name coords topo tp tc, grid_name k = Some name /\ grid a (EName name) = Ok (coords, topo) /\
    Grid_init a (EName name) None f newaxis None None None = Ok (Some tp, Some tc, k) /\ holds_mesh f newaxis coords topo tp tc /\
    forall i j l, (i < nx)%nat -> (j < ny)%nat -> (l < nz)%nat -> exists cell, nth_error topo ((i * ny + j) * nz + l) = Some cell /\
      box_placed 3 start coords cell (e_lcoords (element_of k))
        (fun d => nth d [sx + lX / INR nx * INR i; sy + lY / INR ny * INR j; sz + lZ / INR nz * INR l] 0)
        (fun d => nth d [lX / INR nx; lY / INR ny; lZ / INR nz] 0)).
  { intros w name path lc Hw Hna Ht Hl Hp Hc Hnm ->.
    destruct (grid3_named lX lY lZ sx sy sz nx ny nz w start name path _ Hnx Hny Hnz Hw Hna Ht Hl Hp) as (coords & topo & E & _ & _ & HB).
    pose proof (grid3_value nx ny nz (w + 1) (w + 1) (w + 1) start Hnx Hny Hnz ltac:(lia) ltac:(lia) ltac:(lia) lX lY lZ sx sy sz) as Et.
    pose proof (topo3_rect_e nx ny nz (w + 1) (w + 1) (w + 1) start ltac:(lia) ltac:(lia) ltac:(lia)) as Hr.
    destruct (named_mesh a name _ path _ _ _ 3 k f newaxis Hna Et Hr) with (coords' := coords) (topo' := topo) as (tp & tc & HG & HM); auto.
    - intros Q. apply (f_equal (@length _)) in Q. unfold topo3 in Q. rewrite table2_length in Q. cbn in Q. nia.
    - rewrite <- Hl. apply perm_all_lt. now apply perm_seqb_ok.
    - apply coords3_some.
    - apply coords3_rect.
    - exists name, coords, topo, tp, tc. auto. }
  destruct Hk as [-> | ->].
  - apply (G 1%nat "H8" path_H8 lcoords_H8); try reflexivity; [apply named_H8 with (s := [sx; sy; sz]); reflexivity|apply table_H8].
  - apply (G 2%nat "H27" path_H27 lcoords_H27); try reflexivity; [lia|apply named_H27 with (s := [sx; sy; sz]); reflexivity|apply table_H27].
Qed.

(** ** Orders and numbers of nodes *)

Lemma grid_order : forall lX lY sx sy nx ny f newaxis, (1 <= nx)%nat -> (1 <= ny)%nat -> (newaxis < 3)%nat ->
  let a := uargs [lX; lY] [nx; ny] [sx; sy] 0 in
  exists coords topo tp tc coords' topo' tp' tc',
    grid a (ETuple [2; 2]%nat) = Ok (coords, topo) /\ Grid_init a (ETuple [2; 2]%nat) None f newaxis None None None = Ok (Some tp, Some tc, KQ4) /\
    holds_mesh f newaxis coords topo tp tc /\ length topo = (nx * ny)%nat /\ Forall (fun cell => polygon_area coords cell = 0) topo /\
    grid a (EName "Q4") = Ok (coords', topo') /\ Grid_init a (EName "Q4") None f newaxis None None None = Ok (Some tp', Some tc', KQ4) /\
    holds_mesh f newaxis coords' topo' tp' tc' /\ length topo' = (nx * ny)%nat /\
    Forall (fun cell => polygon_area coords' cell = (lX / INR nx) * (lY / INR ny)) topo'.
Proof.
  intros lX lY sx sy nx ny f newaxis Hnx Hny Hn a.
  pose proof (grid_shape_2d lX lY sx sy nx ny 2 2 0 f newaxis Hnx Hny (le_n 2) (le_n 2) Hn) as H. cbn [Nat.mul Nat.add cell_classes] in H. cbv zeta in H.
  destruct H as (coords & topo & tp & tc & E & HG & HM & _).
  destruct (grid_name_2d KQ4 lX lY sx sy nx ny 0 f newaxis (or_introl eq_refl) Hnx Hny Hn) as (name & coords' & topo' & tp' & tc' & Hname & E' & HG' & HM' & HB).
  injection Hname as <-.
  pose proof (grid2_named lX lY sx sy nx ny 1 0 "Q4" path_Q4 lcoords_Q4 Hnx Hny (le_n 1)) as (c2 & t2 & E2 & Hl2 & _); [apply named_Q4 with (s := [sx; sy]); reflexivity|apply table_Q4|reflexivity|reflexivity|].
  rewrite E' in E2. injection E2 as <- <-.
  exists coords, topo, tp, tc, coords', topo', tp', tc'. fold a in E, E', HG, HG'.
  pose proof (grid2_value nx ny 2 2 0 Hnx Hny (le_n 2) (le_n 2) lX lY sx sy) as Ev. fold a in Ev. rewrite E in Ev. injection Ev as Ec Et.
  pose proof (grid2_lattice nx ny 2 2 0 Hnx Hny (le_n 2) (le_n 2) lX lY sx sy) as HLL.
  change (2 - 1)%nat with 1%nat in HLL. rewrite <- Ec, <- Et in HLL. destruct HLL as (_ & HL2 & HL).
  split; [exact E|]. split; [exact HG|]. split; [exact HM|]. split; [exact HL2|]. split; [|split; [exact E'|split; [exact HG'|split; [exact HM'|split; [exact Hl2|]]]]].
  - apply Forall_forall. intros cell Hc. apply In_nth_error in Hc. destruct Hc as (p & Hp).
    assert (Hlt : (p < nx * ny)%nat) by (rewrite <- HL2; apply nth_error_Some; congruence).
    assert (Hi : (p / ny < nx)%nat) by (apply Nat.div_lt_upper_bound; lia). assert (Hj : (p mod ny < ny)%nat) by (apply Nat.mod_upper_bound; lia).
    destruct (HL (p / ny)%nat (p mod ny)%nat Hi Hj) as (cell' & Hc' & Hlen & Hkm).
    replace (p / ny * ny + p mod ny)%nat with p in Hc' by (rewrite (Nat.mul_comm (p / ny)), <- Nat.div_mod; lia).
    rewrite Hp in Hc'. injection Hc' as <-.
    destruct (Hkm 0 0)%nat as [A1 B1]; [lia|lia|]. destruct (Hkm 0 1)%nat as [A2 B2]; [lia|lia|]. destruct (Hkm 1 0)%nat as [A3 B3]; [lia|lia|]. destruct (Hkm 1 1)%nat as [A4 B4]; [lia|lia|].
    destruct cell as [|n0 [|n1 [|n2 [|n3 [|n4 cell]]]]]; try (cbn in Hlen; lia). cbn [Nat.mul Nat.add nth_error] in A1, A2, A3, A4.
    assert (C1 : nth_error coords n0 = Some [uniform sx lX nx 1 (p / ny) 0; uniform sy lY ny 1 (p mod ny) 0]) by (injection A1 as ->; exact B1).
    assert (C2 : nth_error coords n1 = Some [uniform sx lX nx 1 (p / ny) 0; uniform sy lY ny 1 (p mod ny) 1]) by (injection A2 as ->; exact B2).
    assert (C3 : nth_error coords n2 = Some [uniform sx lX nx 1 (p / ny) 1; uniform sy lY ny 1 (p mod ny) 0]) by (injection A3 as ->; exact B3).
    assert (C4 : nth_error coords n3 = Some [uniform sx lX nx 1 (p / ny) 1; uniform sy lY ny 1 (p mod ny) 1]) by (injection A4 as ->; exact B4).
    unfold polygon_area, shoelace, cross2, coord.
    rewrite (nth_error_nth _ _ [] C1), (nth_error_nth _ _ [] C2), (nth_error_nth _ _ [] C3), (nth_error_nth _ _ [] C4). cbn [nth].
    unfold Rdiv. ring.
  - apply Forall_forall. intros cell Hc. apply In_nth_error in Hc. destruct Hc as (p & Hp).
    assert (Hlt : (p < nx * ny)%nat) by (rewrite <- Hl2; apply nth_error_Some; congruence).
    assert (Hi : (p / ny < nx)%nat) by (apply Nat.div_lt_upper_bound; lia). assert (Hj : (p mod ny < ny)%nat) by (apply Nat.mod_upper_bound; lia).
    destruct (HB (p / ny)%nat (p mod ny)%nat Hi Hj) as (cell' & Hc' & Hlen & HP).
    replace (p / ny * ny + p mod ny)%nat with p in Hc' by (rewrite (Nat.mul_comm (p / ny)), <- Nat.div_mod; lia).
    rewrite Hp in Hc'. injection Hc' as <-. cbn [e_lcoords element_of] in Hlen, HP.
    destruct cell as [|n0 [|n1 [|n2 [|n3 [|n4 cell]]]]]; try (cbn in Hlen; lia).
    pose proof (HP 0%nat _ eq_refl) as P0. pose proof (HP 1%nat _ eq_refl) as P1. pose proof (HP 2%nat _ eq_refl) as P2. pose proof (HP 3%nat _ eq_refl) as P3.
    cbn [nth] in P0, P1, P2, P3. rewrite !Nat.sub_0_r in *.
    unfold polygon_area, shoelace, cross2. rewrite !P0, !P1, !P2, !P3 by lia. cbn -[INR Rmult Rplus Rdiv Rminus Ropp]. lra.
Qed.
Lemma grid_start : forall lX lY sx sy nx ny start f newaxis, (1 <= nx)%nat -> (1 <= ny)%nat -> (newaxis < 3)%nat ->
  let a := uargs [lX; lY] [nx; ny] [sx; sy] start in
  exists coords topo tp tc, Grid_init a (EName "Q4") None f newaxis None None None = Ok (Some tp, Some tc, KQ4) /\ holds_mesh f newaxis coords topo tp tc /\
    (Forall (Forall (fun n => (n < length coords)%nat)) topo <-> start = 0%nat).
Proof.
  intros lX lY sx sy nx ny start f newaxis Hnx Hny Hn a.
  destruct (grid_name_2d KQ4 lX lY sx sy nx ny start f newaxis (or_introl eq_refl) Hnx Hny Hn) as (name & coords & topo & tp & tc & Hname & E & HG & HM & _).
  injection Hname as <-. exists coords, topo, tp, tc. split; [exact HG|]. split; [exact HM|].
  pose proof (grid2_named lX lY sx sy nx ny 1 start "Q4" path_Q4 lcoords_Q4 Hnx Hny (le_n 1)) as (c2 & t2 & E2 & Hl2 & [N1 N2] & _); [apply named_Q4 with (s := [sx; sy]); reflexivity|apply table_Q4|reflexivity|reflexivity|].
  rewrite E in E2. injection E2 as <- <-. split.
  - intros H. assert (L : (1 <= length coords)%nat).
    { destruct (grid_shape_2d lX lY sx sy nx ny 2 2 start f newaxis Hnx Hny (le_n 2) (le_n 2) Hn) as (c3 & t3 & _ & _ & E3 & _).
      pose proof (named_Q4 a [sx; sy] eq_refl eq_refl) as Nm. fold a in E3. pose proof (grid2_value nx ny 2 2 start Hnx Hny (le_n 2) (le_n 2) lX lY sx sy) as Ev. fold a in Ev.
      destruct (Nm _ _ _ Ev (topo2_rect_e nx ny 2 2 start (le_n 2) (le_n 2))) as (t4 & E4 & _); [repeat constructor|]. fold a in E. rewrite E in E4. injection E4 as -> _.
      unfold coords2. rewrite table2_length. cbn. nia. }
    destruct (N2 (length coords - 1)%nat) as (cell & Hc & Hin); [lia|]. rewrite Forall_forall in H. specialize (H cell Hc). rewrite Forall_forall in H. specialize (H _ Hin). lia.
  - intros ->. apply Forall_forall. intros cell Hc. apply Forall_forall. intros n Hin. destruct (N1 cell Hc) as [_ Hr]. specialize (Hr n Hin). lia.
Qed.
