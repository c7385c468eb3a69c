(** * Proofs about [RecipeModel.v], part 8: centred grids, voxels, helices *)
From Coq Require Import Reals Lra Lia String Permutation.
From Verif Require Export RecipeProofs7.
From Verif Require Import NodalSpec NodalProofs4 NodalProofs5 NodalProofs6 ExtrudeProofs3 GridProofs7 ShapeProofs4.
Import ListNotations.
Local Open Scope R_scope.

(** ** Centred grids *)
Lemma line_uniform s l n w a : (1 <= w)%nat -> (1 <= n)%nat -> line (uniform s l n w) w n a = s + l / INR n / INR w * INR a.
Proof.
  intros Hw Hn. unfold line. set (i := Nat.min (a / w) (n - 1)). assert (B : (i * w <= a)%nat) by (pose proof (Nat.mul_div_le a w ltac:(lia)); unfold i; nia).
  unfold uniform. rewrite minus_INR, mult_INR by exact B. pose proof (INR_pos n Hn). pose proof (INR_pos w Hw). field. split; lra.
Qed.
Lemma rsum_line s c n : rsum (map (fun a => s + c * INR a) (seq 0 n)) = INR n * s + c * (INR n * (INR n - 1) / 2).
Proof.
  induction n as [|n IH]; [cbn; lra|]. rewrite seq_S, map_app, GridProofs4.rsum_app2, IH. cbn [map rsum fold_right Nat.add]. unfold rsum. cbn [fold_right]. rewrite S_INR. lra.
Qed.
(** the mean of equally spaced positions *)
Lemma line_total s l n w : (1 <= w)%nat -> (1 <= n)%nat -> rsum (map (line (uniform s l n w) w n) (seq 0 (n * w + 1))) = INR (n * w + 1) * (s + l / 2).
Proof.
  intros Hw Hn. rewrite (rsum_ext _ (fun a => s + l / INR n / INR w * INR a)) by (intros; now apply line_uniform). rewrite rsum_line, !plus_INR, !mult_INR. simpl (INR 1). pose proof (INR_pos n Hn). pose proof (INR_pos w Hw). field. split; lra.
Qed.
Lemma rsum_divmod (f : nat -> R) (g : nat -> R) n m : (1 <= m)%nat -> rsum (map (fun ab => f (ab / m)%nat) (seq 0 (n * m))) = rsum (map f (seq 0 n)) * INR m /\ rsum (map (fun ab => g (ab mod m)%nat) (seq 0 (n * m))) = INR n * rsum (map g (seq 0 m)).
Proof.
  intros Hm. induction n as [|n [IH1 IH2]]; [cbn; split; lra|]. replace (S n * m)%nat with (n * m + m)%nat by lia. rewrite seq_app, !map_app, !GridProofs4.rsum_app2, IH1, IH2. rewrite (seq_S n 0), map_app, GridProofs4.rsum_app2. cbn [Nat.add map]. rewrite S_INR.
  assert (E : seq (n * m) m = map (fun k => n * m + k)%nat (seq 0 m)). { clear. generalize (n * m)%nat. intros s. replace s with (s + 0)%nat at 1 by lia. generalize 0%nat. induction m as [|m IH]; intros k; [reflexivity|]. cbn [seq map]. f_equal. replace (S (s + k)) with (s + S k)%nat by lia. apply IH. }
  rewrite E, !map_map. split.
  - rewrite (rsum_const (fun x => f ((n * m + x) / m)%nat) _ (f n)); [rewrite seq_length; unfold rsum; cbn [fold_right]; ring|]. intros k Hk. apply in_seq in Hk. now rewrite div_at by lia.
  - rewrite (rsum_ext (fun x => g ((n * m + x) mod m)%nat) g); [lra|]. intros k Hk. apply in_seq in Hk. f_equal. rewrite Nat.add_comm, Nat.mod_add, Nat.mod_small; lia.
Qed.
Lemma centre2 nx ny wx wy sx sy lX lY : (1 <= nx)%nat -> (1 <= ny)%nat -> (1 <= wx)%nat -> (1 <= wy)%nat ->
  grid_centralize (coords2 nx ny wx wy (uniform sx lX nx wx) (uniform sy lY ny wy)) = Ok (coords2 nx ny wx wy (uniform (- lX / 2) lX nx wx) (uniform (- lY / 2) lY ny wy)).
Proof.
  intros Hx Hy Wx Wy. unfold grid_centralize, center_of_points. set (c := coords2 nx ny wx wy (uniform sx lX nx wx) (uniform sy lY ny wy)).
  assert (HR : rect 2 c) by (apply table2_rect; reflexivity). assert (HL : length c = ((nx * wx + 1) * (ny * wy + 1))%nat) by apply table2_length. assert (HN : c <> []) by (intros E; rewrite E in HL; cbn in HL; nia).
  assert (P : 0 < INR ((nx * wx + 1) * (ny * wy + 1))) by (apply INR_pos; nia).
  assert (EM : means 2 c = [sx + lX / 2; sy + lY / 2]).
  { unfold means. rewrite HL. cbn [seq map]. unfold c, coords2, table2. rewrite !map_map. unfold at_. cbn [nth fst snd]. rewrite !rsum_list_prod. cbn [fst snd].
    rewrite (rsum_ext (fun a => rsum (map (fun _ : nat => line (uniform sx lX nx wx) wx nx a) _)) (fun a => line (uniform sx lX nx wx) wx nx a * INR (ny * wy + 1))) by (intros a _; rewrite (rsum_const _ _ (line (uniform sx lX nx wx) wx nx a)) by auto; rewrite seq_length; ring).
    rewrite rsum_mult, line_total by auto. rewrite (rsum_const _ _ (INR (ny * wy + 1) * (sy + lY / 2))) by (intros; now apply line_total). rewrite seq_length, mult_INR in *. f_equal; [|f_equal]; field; split; intros E; rewrite E in P; lra. }
  rewrite (vmean_means 2 c HN HR), EM. cbn [bind]. unfold c, coords2, table2. rewrite mapM_map_compose. apply mapM_map. intros [a b] _. cbn [fst snd]. rewrite !line_uniform by auto. cbn. f_equal. f_equal; [lra|f_equal; lra].
Qed.
Lemma centre3 nx ny nz wx wy wz sx sy sz lX lY lZ : (1 <= nx)%nat -> (1 <= ny)%nat -> (1 <= nz)%nat -> (1 <= wx)%nat -> (1 <= wy)%nat -> (1 <= wz)%nat ->
  grid_centralize (coords3 nx ny nz wx wy wz (uniform sx lX nx wx) (uniform sy lY ny wy) (uniform sz lZ nz wz)) =
  Ok (coords3 nx ny nz wx wy wz (uniform (- lX / 2) lX nx wx) (uniform (- lY / 2) lY ny wy) (uniform (- lZ / 2) lZ nz wz)).
Proof.
  intros Hx Hy Hz Wx Wy Wz. unfold grid_centralize, center_of_points. set (c := coords3 nx ny nz wx wy wz (uniform sx lX nx wx) (uniform sy lY ny wy) (uniform sz lZ nz wz)).
  assert (HR : rect 3 c) by (apply table2_rect; reflexivity). assert (HL : length c = ((nx * wx + 1) * (ny * wy + 1) * (nz * wz + 1))%nat) by apply table2_length. assert (HN : c <> []) by (intros E; rewrite E in HL; cbn in HL; nia).
  assert (P1 : 0 < INR (nx * wx + 1)) by (apply INR_pos; nia). assert (P2 : 0 < INR (ny * wy + 1)) by (apply INR_pos; nia). assert (P3 : 0 < INR (nz * wz + 1)) by (apply INR_pos; nia).
  assert (EM : means 3 c = [sx + lX / 2; sy + lY / 2; sz + lZ / 2]).
  { unfold means. rewrite HL. cbn [seq map]. unfold c, coords3, table2. rewrite !map_map. unfold at_. cbn [nth fst snd]. rewrite !rsum_list_prod. cbn [fst snd].
    rewrite (rsum_ext (fun a => rsum (map (fun _ : nat => line (uniform sx lX nx wx) wx nx (a / (ny * wy + 1))) _)) (fun a => line (uniform sx lX nx wx) wx nx (a / (ny * wy + 1)) * INR (nz * wz + 1))) by (intros a _; rewrite (rsum_const _ _ (line (uniform sx lX nx wx) wx nx (a / (ny * wy + 1)))) by auto; rewrite seq_length; ring).
    rewrite (rsum_ext (fun a => rsum (map (fun _ : nat => line (uniform sy lY ny wy) wy ny (a mod (ny * wy + 1))) _)) (fun a => line (uniform sy lY ny wy) wy ny (a mod (ny * wy + 1)) * INR (nz * wz + 1))) by (intros a _; rewrite (rsum_const _ _ (line (uniform sy lY ny wy) wy ny (a mod (ny * wy + 1)))) by auto; rewrite seq_length; ring).
    rewrite !rsum_mult. destruct (rsum_divmod (line (uniform sx lX nx wx) wx nx) (line (uniform sy lY ny wy) wy ny) (nx * wx + 1) (ny * wy + 1) ltac:(lia)) as [-> ->]. rewrite !line_total by auto.
    rewrite (rsum_const _ _ (INR (nz * wz + 1) * (sz + lZ / 2))) by (intros; first [reflexivity|now apply line_total]). rewrite seq_length. rewrite !(mult_INR (_ * _ )), !(mult_INR (nx * wx + 1)). f_equal; [|f_equal; [|f_equal]]; field; repeat split; lra. }
  rewrite (vmean_means 3 c HN HR), EM. cbn [bind]. unfold c, coords3, table2. rewrite mapM_map_compose. apply mapM_map. intros [a b] _. cbn [fst snd]. rewrite !line_uniform by auto. cbn. f_equal. f_equal; [lra|f_equal; [lra|f_equal; lra]].
Qed.
Lemma uargs_plain size shape shift start : with_centralize false (uargs size shape shift start) = uargs size shape shift start.
Proof. reflexivity. Qed.
Lemma centered_grid2 nx ny ex ey start lX lY sx sy : (1 <= nx)%nat -> (1 <= ny)%nat -> (2 <= ex)%nat -> (2 <= ey)%nat ->
  grid (with_centralize true (uargs [lX; lY] [nx; ny] [sx; sy] start)) (ETuple [ex; ey]) = grid (uargs [lX; lY] [nx; ny] [- lX / 2; - lY / 2] start) (ETuple [ex; ey]).
Proof.
  intros. rewrite (grid2_value nx ny ex ey start) by auto. refine (grid_centralize_tail (uargs [lX; lY] [nx; ny] [sx; sy] start) _ _ _ _ _ (centre2 nx ny (ex - 1) (ey - 1) sx sy lX lY _ _ _ _)); try lia. rewrite uargs_plain. apply grid2_value; auto.
Qed.
Lemma centered_grid3 nx ny nz ex ey ez start lX lY lZ sx sy sz : (1 <= nx)%nat -> (1 <= ny)%nat -> (1 <= nz)%nat -> (2 <= ex)%nat -> (2 <= ey)%nat -> (2 <= ez)%nat ->
  grid (with_centralize true (uargs [lX; lY; lZ] [nx; ny; nz] [sx; sy; sz] start)) (ETuple [ex; ey; ez]) = grid (uargs [lX; lY; lZ] [nx; ny; nz] [- lX / 2; - lY / 2; - lZ / 2] start) (ETuple [ex; ey; ez]).
Proof.
  intros. rewrite (grid3_value nx ny nz ex ey ez start) by auto. refine (grid_centralize_tail (uargs [lX; lY; lZ] [nx; ny; nz] [sx; sy; sz] start) _ _ _ _ _ (centre3 nx ny nz (ex - 1) (ey - 1) (ez - 1) sx sy sz lX lY lZ _ _ _ _ _ _)); try lia. rewrite uargs_plain. apply grid3_value; auto.
Qed.
(** the named grids *)
Definition by_tuple (a : grid_args (K := R)) (es path : list nat) : res (list (list R) * list (list nat)) :=
  do ct <- grid a (ETuple es); do td <- transform_topology 0%nat (snd ct) (P1 path) DNone; Ok (fst ct, fst td).
Lemma named_by_tuple b size shape shift start : let a := with_centralize b (uargs size shape shift start) in
  grid a (EName "Q4") = by_tuple a [2; 2]%nat path_Q4 /\ grid a (EName "Q9") = by_tuple a [3; 3]%nat path_Q9 /\ grid a (EName "H8") = by_tuple a [2; 2; 2]%nat path_H8 /\ grid a (EName "H27") = by_tuple a [3; 3; 3]%nat path_H27.
Proof. repeat split; reflexivity. Qed.
Lemma centered_quads name nx ny start lX lY sx sy : (1 <= nx)%nat -> (1 <= ny)%nat -> name = "Q4"%string \/ name = "Q9"%string ->
  grid (with_centralize true (uargs [lX; lY] [nx; ny] [sx; sy] start)) (EName name) = grid (uargs [lX; lY] [nx; ny] [- lX / 2; - lY / 2] start) (EName name).
Proof.
  intros Hx Hy HN. rewrite <- (uargs_plain _ _ [- lX / 2; - lY / 2]). destruct (named_by_tuple true [lX; lY] [nx; ny] [sx; sy] start) as (E1 & E2 & _). destruct (named_by_tuple false [lX; lY] [nx; ny] [- lX / 2; - lY / 2] start) as (F1 & F2 & _).
  destruct HN as [-> | ->]; rewrite ?E1, ?E2, ?F1, ?F2; unfold by_tuple; rewrite centered_grid2, uargs_plain by lia; reflexivity.
Qed.
Lemma centered_hexas name nx ny nz start lX lY lZ sx sy sz : (1 <= nx)%nat -> (1 <= ny)%nat -> (1 <= nz)%nat -> name = "H8"%string \/ name = "H27"%string ->
  grid (with_centralize true (uargs [lX; lY; lZ] [nx; ny; nz] [sx; sy; sz] start)) (EName name) = grid (uargs [lX; lY; lZ] [nx; ny; nz] [- lX / 2; - lY / 2; - lZ / 2] start) (EName name).
Proof.
  intros Hx Hy Hz HN. rewrite <- (uargs_plain _ _ [- lX / 2; - lY / 2; - lZ / 2]). destruct (named_by_tuple true [lX; lY; lZ] [nx; ny; nz] [sx; sy; sz] start) as (_ & _ & E1 & E2). destruct (named_by_tuple false [lX; lY; lZ] [nx; ny; nz] [- lX / 2; - lY / 2; - lZ / 2] start) as (_ & _ & F1 & F2).
  destruct HN as [-> | ->]; rewrite ?E1, ?E2, ?F1, ?F2; unfold by_tuple; rewrite centered_grid3, uargs_plain by lia; reflexivity.
Qed.
