(** * Triangles: offset_tri, glob_to_loc_tri, tri_glob_to_loc, inscribed_radius, shape function matrix *)
From Coq Require Import Reals Lra Lia List.
From Verif Require Import TriModel TriSpec TriProofs TriProofs2 TriProofs3 BaseFacts ShapeProofs4.
Import ListNotations.
Local Open Scope R_scope.

(** ** offset_tri *)
Lemma nth_map_seq0 : forall (f : nat -> R) n d, (d < n)%nat -> nth d (map f (seq 0 n)) 0 = f d.
Proof.
  intros f n d H. rewrite (nth_indep _ 0 (f 0%nat)) by (rewrite map_length, seq_length; lia). rewrite map_nth, seq_nth by lia. reflexivity.
Qed.
Lemma offset_one : forall n alpha ec, length ec = 3%nat -> Forall (fun p => length p = n) ec ->
  exists ec', matmul (offset_rows alpha) ec = Ok ec' /\ contracted n alpha ec ec'.
Proof.
  intros n alpha ec HL HD. destruct ec as [|a [|b [|c [|]]]]; try discriminate HL.
  inversion HD as [|? ? Ha HD1]; subst. inversion HD1 as [|? ? Hb HD2]; subst. inversion HD2 as [|? ? Hc _]; subst.
  unfold matmul, offset_rows, ncenter_tri. cbn [seq map mapM Nat.eqb nth].
  rewrite !(vecmat3 _ _ _ a b c (length a)) by congruence. cbn [bind]. eexists. split; [reflexivity|].
  split; [reflexivity|]. intros i d Hi Hd x g.
  assert (E : forall k, (k < 3)%nat -> x k = nth d (nth k [a; b; c] []) 0) by reflexivity.
  pose proof (E 0%nat ltac:(lia)) as E0. pose proof (E 1%nat ltac:(lia)) as E1. pose proof (E 2%nat ltac:(lia)) as E2. cbn [nth] in E0, E1, E2. clear E.
  unfold g. clear g.
  destruct i as [|[|[|]]]; [| | |lia]; cbn [nth]; (split; [now rewrite map_length, seq_length|]); unfold at_; rewrite nth_map_seq0 by assumption;
    rewrite E0, E1, E2; field.
Qed.
Lemma fold_max : forall l x, (forall y, In y (x :: l) -> y <= fold_left Rmax l x) /\ In (fold_left Rmax l x) (x :: l).
Proof.
  induction l as [|z l IH]; intros x.
  - cbn. split; [intros y [->|[]]; lra|now left].
  - cbn [fold_left]. destruct (IH (Rmax x z)) as (H1 & H2). split.
    + intros y [<-|[<-|Hy]].
      * apply Rle_trans with (Rmax x z); [apply Rmax_l|apply H1; now left].
      * apply Rle_trans with (Rmax x z); [apply Rmax_r|apply H1; now left].
      * apply H1. now right.
    + destruct H2 as [H2|H2].
      * rewrite <- H2. unfold Rmax at 1. destruct (Rle_dec x z); [right; now left|now left].
      * right; now right.
Qed.
Lemma offset_array : forall coords topo data n ecs,
  cells_coords coords topo = Ok ecs -> Forall (fun ec => length ec = 3%nat /\ Forall (fun p => length p = n) ec) ecs ->
  length data = length topo -> data <> [] ->
  exists m ecs', magnitude_bound data m /\ offset_tri coords topo (DataArray data) = Ok ecs' /\ length ecs' = length topo /\
    forall e ec x ec', nth_error ecs e = Some ec -> nth_error data e = Some x -> nth_error ecs' e = Some ec' -> contracted n (Rabs x / m) ec ec'.
Proof.
  intros coords topo data n ecs EC HE HL Hne.
  assert (Lt : length ecs = length topo) by (unfold cells_coords in EC; eapply BaseFacts.mapM_length; exact EC).
  assert (G : forall alphas ecs, length alphas = length ecs -> Forall (fun ec => length ec = 3%nat /\ Forall (fun p => length p = n) ec) ecs ->
     exists ecs', (do r <- map2 (fun e a => matmul (offset_rows a) e) ecs alphas; mapM (fun x => x) r) = Ok ecs' /\ length ecs' = length ecs /\
       forall e ec a ec', nth_error ecs e = Some ec -> nth_error alphas e = Some a -> nth_error ecs' e = Some ec' -> contracted n a ec ec').
  { clear. intros alphas ecs. revert alphas. induction ecs as [|ec ecs IH]; intros [|a alphas] HL HE; try discriminate HL.
    - exists []. split; [reflexivity|]. split; [reflexivity|]. intros [|e] ? ? ? H; discriminate H.
    - inversion HE as [|? ? [H3 Hn] Hr]; subst. destruct (IH alphas ltac:(cbn in HL; lia) Hr) as (ecs' & E & L & P).
      destruct (offset_one n a ec H3 Hn) as (ec1 & E1 & C1). exists (ec1 :: ecs'). cbn [map2].
      destruct (map2 (fun e a0 => matmul (offset_rows a0) e) ecs alphas) as [r|] eqn:Em; [|discriminate E]. cbn [bind] in E |- *.
      cbn [mapM]. rewrite E1. cbn [bind]. rewrite E. split; [reflexivity|]. split; [cbn; lia|].
      intros [|e] ec0 a0 ec' H1 H2 H4; cbn in H1, H2, H4; [congruence|]. now apply (P e). }
  destruct data as [|x0 rest]; [contradiction|]. clear Hne.
  unfold offset_tri, offset_tri_. cbn [map]. rewrite EC. cbn [bind].
  destruct (fold_max (map Rabs rest) (Rabs x0)) as (M1 & M2). set (amax := fold_left Rmax (map Rabs rest) (Rabs x0)) in *.
  cbn [kltb NumR]. destruct (Rlt_dec 1 amax) as [Hm|Hm].
  - destruct (G (map (fun a => a / amax) (Rabs x0 :: map Rabs rest)) ecs) as (ecs' & E & L & P); [rewrite map_length; cbn in HL |- *; rewrite map_length; lia|assumption|].
    exists amax, ecs'. split; [|split; [exact E|split; [lia|]]].
    + split; [lra|]. split.
      * rewrite Forall_forall. intros x Hx. apply M1. destruct Hx as [<-|Hx]; [now left|right; now apply in_map].
      * right. rewrite Exists_exists. destruct M2 as [<-|M2]; [exists x0; split; [now left|reflexivity]|].
        apply in_map_iff in M2. destruct M2 as (y & Ey & Hy). exists y. split; [now right|assumption].
    + intros e ec x ec' H1 H2 H3. apply (P e); [assumption| |assumption].
      change (Rabs x0 :: map Rabs rest) with (map Rabs (x0 :: rest)). rewrite map_map, nth_error_map, H2. reflexivity.
  - destruct (G (Rabs x0 :: map Rabs rest) ecs) as (ecs' & E & L & P); [cbn in HL |- *; rewrite map_length; lia|assumption|].
    exists 1, ecs'. split; [|split; [exact E|split; [lia|]]].
    + split; [lra|]. split; [|now left]. rewrite Forall_forall. intros x Hx. apply Rle_trans with amax; [|lra].
      apply M1. destruct Hx as [<-|Hx]; [now left|right; now apply in_map].
    + intros e ec x ec' H1 H2 H3. replace (Rabs x / 1) with (Rabs x) by field. apply (P e); [assumption| |assumption].
      change (Rabs x0 :: map Rabs rest) with (map Rabs (x0 :: rest)). rewrite nth_error_map, H2. reflexivity.
Qed.
(** the factor is at most 1 *)
Lemma magnitude_factor : forall data m x, magnitude_bound data m -> In x data -> 0 <= Rabs x / m <= 1.
Proof.
  intros data m x (H1 & H2 & _) Hx. rewrite Forall_forall in H2. specialize (H2 x Hx). pose proof (Rabs_pos x).
  split; [apply Rmult_le_pos; [lra|left; apply Rinv_0_lt_compat; lra]|].
  apply Rmult_le_reg_r with m; [lra|]. unfold Rdiv. rewrite Rmult_assoc, Rinv_l by lra. lra.
Qed.
Lemma offset_float : forall coords topo a, offset_tri coords topo (DataFloat a) = Err TypeError.
Proof. reflexivity. Qed.

(** ** glob_to_loc_tri *)
Definition unit_inverse : list (list R) := [[1; 0; 0]; [-1; 1; 0]; [-1; 0; 1]].
Lemma unit_inverse_ok : exists M, mapM monoms_tri lcoords_tri = Ok M /\ matmul M unit_inverse = Ok [[1; 0; 0]; [0; 1; 0]; [0; 0; 1]].
Proof.
  eexists. split; [reflexivity|]. unfold matmul, unit_inverse. cbn [mapM].
  rewrite !(vecmat3 _ _ _ _ _ _ 3) by reflexivity. cbn [bind map seq nth].
  f_equal. repeat (apply f_equal2; [repeat (apply f_equal2; [lra|]); reflexivity|]). reflexivity.
Qed.
Lemma vecmat3_2' : forall (l0 l1 l2 x0 y0 x1 y1 x2 y2 : R),
  vecmat [l0; l1; l2] [[x0; y0]; [x1; y1]; [x2; y2]] = Ok [l0 * x0 + l1 * x1 + l2 * x2; l0 * y0 + l1 * y1 + l2 * y2].
Proof. exact vecmat3_2. Qed.
Lemma vdot3 : forall a b c x y z : R, vdot [a; b; c] [x; y; z] = Ok (a * x + b * y + c * z).
Proof. intros. unfold vdot. cbn. f_equal. ring. Qed.
Lemma glob_to_loc_wrong : forall r s, exists p q,
  loc_to_glob_tri [r; s] lcoords_tri = Ok p /\ glob_to_loc_tri unit_inverse p = Ok q /\ q <> [r; s].
Proof.
  intros r s. exists [r; s], [r - 1; s - 1]. split; [|split].
  - unfold loc_to_glob_tri, shp_tri_loc, get, lcoords_tri. cbn [nth_error bind]. rewrite vecmat3_2. f_equal. f_equal; [lra|f_equal; lra].
  - unfold glob_to_loc_tri, monoms_tri, get, matvec, unit_inverse, lcoords_tri. cbn [nth_error bind mapM]. rewrite !vdot3. cbn [bind].
    rewrite vecmat3_2. f_equal. f_equal; [lra|f_equal; lra].
  - intros [= H _]. lra.
Qed.
(** right if the matrix of the monomials is symmetric: the first node is (1, 1) and y of the second is x of the third *)
Lemma glob_to_loc_partial : forall x1 y1 y2 C c00 c01 c02 c10 c11 c12 c20 c21 c22 r s,
  C = [[c00; c01; c02]; [c10; c11; c12]; [c20; c21; c22]] ->
  (exists M, mapM monoms_tri [[1; 1]; [x1; y1]; [y1; y2]] = Ok M /\ matmul M C = Ok [[1; 0; 0]; [0; 1; 0]; [0; 0; 1]]) ->
  exists p, loc_to_glob_tri [r; s] [[1; 1]; [x1; y1]; [y1; y2]] = Ok p /\ glob_to_loc_tri C p = Ok [r; s].
Proof.
  intros x1 y1 y2 C c00 c01 c02 c10 c11 c12 c20 c21 c22 r s -> (M & EM & E).
  unfold monoms_tri, get in EM. cbn [mapM nth_error bind] in EM. injection EM as <-.
  unfold matmul in E. cbn [mapM] in E. rewrite !(vecmat3 _ _ _ _ _ _ 3) in E by reflexivity. cbn [bind map seq nth] in E.
  injection E as A00 A01 A02 A10 A11 A12 A20 A21 A22.
  (* C M = I as well: M is symmetric, so C is *)
  assert (S01 : c01 = c10).
  { cut (c01 * 1 = c10 * 1); [lra|].
    transitivity (c01 * (1 * c00 + 1 * c10 + 1 * c20) + c11 * (1 * c00 + x1 * c10 + y1 * c20) + c21 * (1 * c00 + y1 * c10 + y2 * c20)).
    - rewrite A00, A10, A20. lra.
    - transitivity (c00 * (1 * c01 + 1 * c11 + 1 * c21) + c10 * (1 * c01 + x1 * c11 + y1 * c21) + c20 * (1 * c01 + y1 * c11 + y2 * c21)); [lra|].
      rewrite A01, A11, A21. lra. }
  assert (S02 : c02 = c20).
  { cut (c02 * 1 = c20 * 1); [lra|].
    transitivity (c02 * (1 * c00 + 1 * c10 + 1 * c20) + c12 * (1 * c00 + x1 * c10 + y1 * c20) + c22 * (1 * c00 + y1 * c10 + y2 * c20)).
    - rewrite A00, A10, A20. lra.
    - transitivity (c00 * (1 * c02 + 1 * c12 + 1 * c22) + c10 * (1 * c02 + x1 * c12 + y1 * c22) + c20 * (1 * c02 + y1 * c12 + y2 * c22)); [lra|].
      rewrite A02, A12, A22. lra. }
  assert (S12 : c12 = c21).
  { cut (c12 * 1 = c21 * 1); [lra|].
    transitivity (c02 * (1 * c01 + 1 * c11 + 1 * c21) + c12 * (1 * c01 + x1 * c11 + y1 * c21) + c22 * (1 * c01 + y1 * c11 + y2 * c21)).
    - rewrite A01, A11, A21. lra.
    - transitivity (c01 * (1 * c02 + 1 * c12 + 1 * c22) + c11 * (1 * c02 + x1 * c12 + y1 * c22) + c21 * (1 * c02 + y1 * c12 + y2 * c22)); [lra|].
      rewrite A02, A12, A22. lra. }
  subst c01 c02 c12.
  eexists. split.
  - unfold loc_to_glob_tri, shp_tri_loc, get. cbn [nth_error bind]. apply vecmat3_2.
  - unfold glob_to_loc_tri, monoms_tri, get, matvec, lcoords_tri. cbn [nth_error bind mapM]. rewrite !vdot3. cbn [bind].
    rewrite vecmat3_2. f_equal. f_equal; [|f_equal].
    + replace (c10 * 1 + c11 * ((1 - r - s) * 1 + r * x1 + s * y1) + c21 * ((1 - r - s) * 1 + r * y1 + s * y2))
        with ((1 - r - s) * (1 * c10 + 1 * c11 + 1 * c21) + r * (1 * c10 + x1 * c11 + y1 * c21) + s * (1 * c10 + y1 * c11 + y2 * c21)) by ring.
      rewrite A01, A11, A21. lra.
    + replace (c20 * 1 + c21 * ((1 - r - s) * 1 + r * x1 + s * y1) + c22 * ((1 - r - s) * 1 + r * y1 + s * y2))
        with ((1 - r - s) * (1 * c20 + 1 * c21 + 1 * c22) + r * (1 * c20 + x1 * c21 + y1 * c22) + s * (1 * c20 + y1 * c21 + y2 * c22)) by ring.
      rewrite A02, A12, A22. lra.
Qed.

(** ** shape functions as a matrix *)
Lemma shape_matrix_fails : forall r s nDOFN, nDOFN <> 3%nat -> shape_function_matrix_tri_loc [r; s] nDOFN 3 = Err ValueError.
Proof.
  intros r s n H. unfold shape_function_matrix_tri_loc, shp_tri_loc, get. cbn [nth_error bind].
  replace (Nat.eqb n 3) with false; [reflexivity|]. symmetry. now apply Nat.eqb_neq.
Qed.
Lemma shape_matrix_3 : forall r s, exists N M, shp_tri_loc [r; s] = Ok N /\ shape_function_matrix_tri_loc [r; s] 3 3 = Ok M /\ length M = 3%nat /\
  forall a row, nth_error M a = Some row -> length row = 9%nat /\
    forall i b, (i < 3)%nat -> (b < 3)%nat -> nth (i * 3 + b) row 0 = if Nat.eqb a b then nth i N 0 else 0.
Proof.
  intros r s. eexists. eexists. split; [reflexivity|]. split; [reflexivity|]. split; [reflexivity|].
  intros a row H. destruct a as [|[|[|]]]; cbn in H; try (destruct n; discriminate H); injection H as <-; (split; [reflexivity|]);
    intros i b Hi Hb; destruct i as [|[|[|]]]; try lia; destruct b as [|[|[|]]]; try lia; cbn [Nat.mul Nat.add nth Nat.eqb]; lra.
Qed.
