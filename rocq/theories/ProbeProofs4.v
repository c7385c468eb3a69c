(** * Proofs about [ProbeModel.v]: points in meshes of hexahedra, what is false, copies of meshes *)
From Coq Require Import Reals List Lia Lra Permutation Sorted.
From Verif Require Import BaseFacts TrModel TrProofs ShapeProofs3 ShapeProofs4 LocSpec LocProofs9 ClassProofs NetProofs NodalProofs4.
From Verif Require Export ProbeProofs3.
Import ListNotations.
Local Open Scope R_scope.

Lemma pip_affine : forall inv cells points maps tol,
  cells <> [] -> cells3 8 cells -> rect 3 points -> Forall2 (maps_cell lcoords_H8) cells maps ->
  exists Ms ms, monoms_bulk_multi 8 monoms_H8 cells = Ok Ms /\ monoms_multi 8 monoms_H8 points = Ok ms /\
    ((forall M, In M Ms -> inverse_of 8 M (inv M)) ->
     exists locs t, glob_to_loc_bulk inv lcoords_H8 Ms ms = Ok locs /\ pip_H8_bulk locs tol = Ok t /\
       length t = length points /\ Forall (fun r => length r = length cells) t /\
       forall i j p Ab, nth_error points i = Some p -> nth_error maps j = Some Ab ->
         (hit t i j <-> cube tol (affine_map Ab p)) /\ (0 < tol -> closed_cube (affine_map Ab p) -> hit t i j)).
Proof.
  intros inv cells points maps tol Hne Hc Hp Hm.
  assert (Hk : In KH8 solids) by (right; left; reflexivity).
  destruct (bulk_affine inv KH8 cells points maps Hk Hc Hp Hm) as (Ms & ms & E1 & E2 & H). exists Ms, ms. split; [exact E1|]. split; [exact E2|].
  intros HI. specialize (H HI). eexists. pose proof (Forall2_len _ _ _ Hm) as Lm.
  destruct (pip_table (map (fun Ab => map (affine_map Ab) points) maps) (length points) tol) as (t & Et & Lt & Ft & Ht).
  - destruct maps; [destruct cells; [contradiction|discriminate Lm]|discriminate].
  - apply Forall_forall. intros row Hrow. apply in_map_iff in Hrow as (Ab & <- & _). apply map_length.
  - exists t. split; [exact H|]. split; [exact Et|]. split; [exact Lt|]. rewrite map_length, <- Lm in Ft. split; [exact Ft|].
    intros i j p Ab Hi Hj.
    assert (Hiff : hit t i j <-> cube tol (affine_map Ab p)).
    { rewrite Ht. split.
      - intros (row & c & Hrow & Hcc & Hq). rewrite nth_error_map, Hj in Hrow. injection Hrow as <-. rewrite nth_error_map, Hi in Hcc. injection Hcc as <-. exact Hq.
      - intros Hq. exists (map (affine_map Ab) points), (affine_map Ab p). rewrite !nth_error_map, Hj, Hi. repeat split. exact Hq. }
    split; [exact Hiff|]. intros Ht0 Hcl. apply Hiff. unfold cube, closed_cube in *. rewrite Forall_forall in *. intros c Hin. specialize (Hcl c Hin). lra.
Qed.
Lemma trapezoid_missed : forall inv tol M m,
  monoms_bulk_multi 8 monoms_H8 [trapezoid] = Ok M -> monoms_multi 8 monoms_H8 [[9/10; 0; 0]] = Ok m ->
  (forall C, In C M -> inverse_of 8 C (inv C)) -> 0 < tol < 1/5 ->
  (exists N, shp_H8 [9/10; 0; 0] = Ok N /\ forall a, (a < 3)%nat -> dot N (map (fun q => nth a q 0) trapezoid) = nth a [9/10; 0; 0] 0) /\
  exists locs, glob_to_loc_bulk inv lcoords_H8 M m = Ok locs /\ locs = [[[6/5; 0; 0]]] /\ pip_H8_bulk locs tol = Ok [[false]].
Proof.
  intros inv tol M m HM Hm HI Htol. assert (Hk : In KH8 solids) by (right; left; reflexivity).
  assert (Hr : rect 3 trapezoid) by (unfold rect, trapezoid; repeat (constructor; [reflexivity|]); constructor).
  split.
  - eexists. split; [reflexivity|]. intros a Ha. destruct a as [|[|[|a]]]; [..|lia]; unfold dot, rsum, trapezoid; simplR; lra.
  - assert (Hc : cells3 8 [trapezoid]) by (constructor; [split; [reflexivity|exact Hr]|constructor]).
    pose proof (bulk_value KH8 _ Hk Hc) as E1. change (monoms_bulk_multi 8 monoms_H8 [trapezoid] = Ok [map (mon KH8) trapezoid]) in E1. assert (M = [map (mon KH8) trapezoid]) as -> by congruence.
    assert (Hp : rect 3 [[9/10; 0; 0]]) by (constructor; [reflexivity|constructor]).
    pose proof (multi_value KH8 _ Hk Hp) as E2. change (monoms_multi 8 monoms_H8 [[9/10; 0; 0]] = Ok [mon KH8 [9/10; 0; 0]]) in E2. assert (m = [mon KH8 [9/10; 0; 0]]) as -> by congruence.
    assert (EV : glob_to_loc_monoms inv lcoords_H8 (map (mon KH8) trapezoid) (mon KH8 [9/10; 0; 0]) = Ok [6/5; 0; 0]).
    { apply trapezoid_value; [exact (multi_value KH8 trapezoid Hk Hr)|reflexivity|]. apply HI. left. reflexivity. }
    exists [[[6/5; 0; 0]]]. split; [unfold glob_to_loc_bulk; cbn [mapM]; rewrite EV; reflexivity|]. split; [reflexivity|].
    unfold pip_H8_bulk. cbn [ncols length seq mapM get2 get nth_error bind]. destruct (in_cube tol [6/5; 0; 0]) eqn:E; [|reflexivity].
    apply in_cube_iff, Forall_inv in E. lra.
Qed.
Lemma turned_singular : forall M,
  monoms_multi 8 monoms_H8 turned_cube = Ok M ->
  (exists A b, maps_cell lcoords_H8 turned_cube (A, b)) /\ forall C, ~ right_inverse 8 C M.
Proof.
  intros M HM. split.
  - exists [[1; 1; 0]; [-1; 1; 0]; [0; 0; 1]], [0; 0; 0]. split; [reflexivity|]. split; [unfold rect; repeat (constructor; [reflexivity|]); constructor|]. split; [reflexivity|].
    unfold affine_map, turned_cube, lcoords_H8, dot, rsum. simplR. repeat (f_equal; try lra).
  - intros C (_ & _ & H). injection HM as <-. specialize (H 4%nat 4%nat ltac:(lia) ltac:(lia)). cbn [Nat.eqb map nth] in H.
    assert (Z : forall (l z : list R), Forall (fun x => x = 0) z -> dot l z = 0).
    { induction l as [|x l IH]; intros [|y z] Hz; try reflexivity. inversion Hz as [|? ? Hy Hz']; subst. specialize (IH z Hz'). unfold dot, rsum in *. cbn [combine map fold_right fst snd]. rewrite IH. lra. }
    rewrite Z in H; [lra|]. repeat (constructor; [numR; lra|]). constructor.
Qed.
Lemma tet4_misfit : forall p ps, rect 3 (p :: ps) -> monoms_multi 4 monoms_TET4 (p :: ps) = Err ValueError.
Proof.
  intros p ps H. pose proof (Forall_inv H) as Hp. destruct p as [|x [|y [|z [|? ?]]]]; try discriminate Hp. reflexivity.
Qed.
Lemma knn_ignored : forall tol x0 x1,
  ~ cube tol x0 -> cube tol x1 -> pip_H8_bulk_knn [[x0]; [x1]] [[1%nat]] tol = Ok [[false; false]] /\ pip_H8_bulk_knn [[x1]; [x0]] [[1%nat]] tol = Ok [[true; false]].
Proof.
  intros tol x0 x1 H0 H1. unfold pip_H8_bulk_knn. cbn [ncols length Nat.leb guard bind seq mapM get2 get nth_error Nat.sub repeat app].
  assert (E0 : in_cube tol x0 = false) by (destruct (in_cube tol x0) eqn:E; [apply in_cube_iff in E; contradiction|reflexivity]).
  rewrite E0, (proj2 (in_cube_iff tol x1) H1). split; reflexivity.
Qed.
Lemma not_first :
  find_first_hits_1d [0; 0]%nat = Ok [1%nat] /\ find_first_hits_1d_in [1; 0]%nat [0; 0]%nat = Ok [0%nat] /\ find_first_hits_1d [1]%nat = Ok [0; 0]%nat.
Proof. repeat split. Qed.
