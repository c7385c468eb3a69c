(** * Tetrahedra *)
From Coq Require Import Reals Lra Lia List Permutation.
From Verif Require Import TriModel TriSpec TriProofs TriProofs2 TriProofs3 TriProofs4 TriProofs5 BaseFacts ShapeProofs4.
Import ListNotations.
Local Open Scope R_scope.

Lemma vol_value : forall a b c d, dim 3 a -> dim 3 b -> dim 3 c -> dim 3 d -> vol_tet [a; b; c; d] = Ok (signed_volume a b c d).
Proof.
  intros a b c d Ha Hb Hc Hd.
  destruct (dim3 _ Ha) as (x0 & y0 & z0 & ->), (dim3 _ Hb) as (x1 & y1 & z1 & ->), (dim3 _ Hc) as (x2 & y2 & z2 & ->), (dim3 _ Hd) as (x3 & y3 & z3 & ->).
  unfold vol_tet, get. cbn [nth_error bind]. rewrite !vsub3. cbn [bind vcross]. rewrite vdot3. cbn [bind]. f_equal.
  unfold signed_volume, at_. cbn [nth]. field.
Qed.
Lemma vol_bulk_value : forall ecs, Forall tet_cell ecs -> exists l, vol_tet_bulk ecs = Ok l /\
  Forall2 (fun ec v => forall a b c d, ec = [a; b; c; d] -> v = Rabs (signed_volume a b c d)) ecs l.
Proof.
  intros ecs H. unfold vol_tet_bulk.
  cut (exists r, mapM vol_tet ecs = Ok r /\ Forall2 (fun ec v => forall a b c d, ec = [a; b; c; d] -> v = Rabs (signed_volume a b c d)) ecs (map Rabs r)).
  { intros (r & E & F). rewrite E. eexists. split; [reflexivity|exact F]. }
  induction H as [|ec ecs (a & b & c & d & -> & Ha & Hb & Hc & Hd) H (r & E & F)]; [exists []; split; [reflexivity|constructor]|].
  exists (signed_volume a b c d :: r). cbn [mapM]. rewrite vol_value by assumption. cbn [bind]. rewrite E. split; [reflexivity|].
  constructor; [|assumption]. intros a' b' c' d' [= -> -> -> ->]. reflexivity.
Qed.
Lemma vol_map : forall o u v w a b c d,
  vol_tet (map (space_map o u v w) [a; b; c; d]) = Ok (map_det u v w * signed_volume a b c d).
Proof.
  intros. cbn [map]. rewrite vol_value by reflexivity. f_equal.
  unfold signed_volume, space_map, map_det, px, py, pz, at_. cbn [map nth]. cbv zeta. field.
Qed.
Lemma vol_swap : forall a b c d,
  signed_volume b a c d = - signed_volume a b c d /\ signed_volume a c b d = - signed_volume a b c d /\ signed_volume a b d c = - signed_volume a b c d.
Proof. intros. unfold signed_volume. lra. Qed.
Lemma perm_swaps : forall (P : list (list R) -> Prop),
  (forall a b c d, P [a; b; c; d] -> P [b; a; c; d]) -> (forall a b c d, P [a; b; c; d] -> P [a; c; b; d]) -> (forall a b c d, P [a; b; c; d] -> P [a; b; d; c]) ->
  forall l l', Permutation l l' -> length l = 4%nat -> P l -> P l'.
Proof.
  intros P S1 S2 S3 l l' HP.
  cut (forall pre post, length (pre ++ l ++ post) = 4%nat -> P (pre ++ l ++ post) -> P (pre ++ l' ++ post)).
  { intros H HL Pl. specialize (H [] []). cbn in H. rewrite !app_nil_r in H. auto. }
  induction HP as [|x l l' HP IH|x y l|l l' l'' H1 IH1 H2 IH2]; intros pre post HL Pl.
  - assumption.
  - specialize (IH (pre ++ [x]) post). rewrite <- !app_assoc in IH. cbn in IH. apply IH; assumption.
  - destruct pre as [|p1 [|p2 [|p3 pre]]]; cbn [app length] in *.
    + assert (exists u v, l ++ post = [u; v]) as (u & v & E) by (destruct (l ++ post) as [|u [|v [|]]]; cbn in HL; try lia; now exists u, v).
      rewrite E in *. now apply S1.
    + assert (exists u, l ++ post = [u]) as (u & E) by (destruct (l ++ post) as [|u [|]]; cbn in HL; try lia; now exists u).
      rewrite E in *. now apply S2.
    + assert (l ++ post = []) as E by (destruct (l ++ post); cbn in HL; [reflexivity|lia]). rewrite E in *. now apply S3.
    + exfalso. rewrite app_length in HL. cbn in HL. lia.
  - apply IH2; [|apply IH1; assumption]. rewrite <- HL, !app_length. rewrite (Permutation_length H1). reflexivity.
Qed.
Lemma vol_permutation : forall ec ec' , tet_cell ec -> Permutation ec ec' -> exists v, vol_tet_bulk [ec] = Ok [v] /\ vol_tet_bulk [ec'] = Ok [v].
Proof.
  intros ec ec' (a & b & c & d & -> & Ha & Hb & Hc & Hd) HP.
  set (v := Rabs (signed_volume a b c d)). exists v.
  assert (E : forall a b c d, dim 3 a -> dim 3 b -> dim 3 c -> dim 3 d -> vol_tet_bulk [[a; b; c; d]] = Ok [Rabs (signed_volume a b c d)]).
  { intros. unfold vol_tet_bulk. cbn [mapM]. rewrite vol_value by assumption. reflexivity. }
  split; [now apply E|].
  assert (G : exists a b c d, ec' = [a; b; c; d] /\ (dim 3 a /\ dim 3 b /\ dim 3 c /\ dim 3 d) /\ Rabs (signed_volume a b c d) = v).
  { apply (perm_swaps (fun l => exists a b c d, l = [a; b; c; d] /\ (dim 3 a /\ dim 3 b /\ dim 3 c /\ dim 3 d) /\ Rabs (signed_volume a b c d) = v)) with [a; b; c; d]; [| | |assumption|reflexivity|].
    - intros a' b' c' d' (? & ? & ? & ? & [= <- <- <- <-] & HD & HV). exists b', a', c', d'. split; [reflexivity|]. split; [tauto|].
      destruct (vol_swap a' b' c' d') as (-> & _). now rewrite Rabs_Ropp.
    - intros a' b' c' d' (? & ? & ? & ? & [= <- <- <- <-] & HD & HV). exists a', c', b', d'. split; [reflexivity|]. split; [tauto|].
      destruct (vol_swap a' b' c' d') as (_ & -> & _). now rewrite Rabs_Ropp.
    - intros a' b' c' d' (? & ? & ? & ? & [= <- <- <- <-] & HD & HV). exists a', b', d', c'. split; [reflexivity|]. split; [tauto|].
      destruct (vol_swap a' b' c' d') as (_ & _ & ->). now rewrite Rabs_Ropp.
    - exists a, b, c, d. repeat split; assumption. }
  destruct G as (a' & b' & c' & d' & -> & (H1 & H2 & H3 & H4) & <-). now apply E.
Qed.
(** zero exactly for points in a plane *)
Lemma vol_zero : forall a b c d, dim 3 a -> dim 3 b -> dim 3 c -> dim 3 d -> (vol_tet [a; b; c; d] = Ok 0 <-> coplanar a b c d).
Proof.
  intros a b c d Ha Hb Hc Hd. rewrite vol_value by assumption. unfold signed_volume.
  set (u1 := at_ 0 b - at_ 0 a). set (u2 := at_ 1 b - at_ 1 a). set (u3 := at_ 2 b - at_ 2 a).
  set (v1 := at_ 0 c - at_ 0 a). set (v2 := at_ 1 c - at_ 1 a). set (v3 := at_ 2 c - at_ 2 a).
  set (w1 := at_ 0 d - at_ 0 a). set (w2 := at_ 1 d - at_ 1 a). set (w3 := at_ 2 d - at_ 2 a).
  cbv zeta.
  assert (EQ : coplanar a b c d <-> exists n m k, (n <> 0 \/ m <> 0 \/ k <> 0) /\ n * u1 + m * u2 + k * u3 = 0 /\ n * v1 + m * v2 + k * v3 = 0 /\ n * w1 + m * w2 + k * w3 = 0).
  { unfold coplanar, px, py, pz, u1, u2, u3, v1, v2, v3, w1, w2, w3. split.
    - intros (n & m & k & o & Hn & E1 & E2 & E3 & E4). exists n, m, k. split; [assumption|]. lra.
    - intros (n & m & k & Hn & E1 & E2 & E3). exists n, m, k, (n * at_ 0 a + m * at_ 1 a + k * at_ 2 a). split; [assumption|]. lra. }
  rewrite EQ. clear EQ. clearbody u1 u2 u3 v1 v2 v3 w1 w2 w3. clear.
  split.
  - intros [= H]. assert (D : u1 * (v2 * w3 - v3 * w2) - u2 * (v1 * w3 - v3 * w1) + u3 * (v1 * w2 - v2 * w1) = 0) by lra. clear H.
    (* a non-zero cross product of two edges is a normal *)
    destruct (Req_dec (u2 * v3 - u3 * v2) 0) as [N1|N1]; [destruct (Req_dec (u3 * v1 - u1 * v3) 0) as [N2|N2]; [destruct (Req_dec (u1 * v2 - u2 * v1) 0) as [N3|N3]|]|].
    2,3,4: exists (u2 * v3 - u3 * v2), (u3 * v1 - u1 * v3), (u1 * v2 - u2 * v1); (split; [tauto|]); split; [ring|]; split; [ring|]; lra.
    (* u and v are parallel: any vector normal to one of them and to w *)
    assert (PAR : (exists p q r, (p <> 0 \/ q <> 0 \/ r <> 0) /\ exists s t, u1 = s * p /\ u2 = s * q /\ u3 = s * r /\ v1 = t * p /\ v2 = t * q /\ v3 = t * r)).
    { destruct (Req_dec u1 0) as [U1|U1]; [destruct (Req_dec u2 0) as [U2|U2]; [destruct (Req_dec u3 0) as [U3|U3]|]|].
      - destruct (Req_dec v1 0) as [V1|V1]; [destruct (Req_dec v2 0) as [V2|V2]; [destruct (Req_dec v3 0) as [V3|V3]|]|].
        + exists 1, 0, 0. split; [left; lra|]. exists 0, 0. lra.
        + exists v1, v2, v3. split; [tauto|]. exists 0, 1. lra.
        + exists v1, v2, v3. split; [tauto|]. exists 0, 1. lra.
        + exists v1, v2, v3. split; [tauto|]. exists 0, 1. lra.
      - exists u1, u2, u3. split; [tauto|]. exists 1, (v3 / u3). subst u1 u2. repeat split; try lra.
        + assert (v1 = 0) by (assert (u3 * v1 = 0) as G by lra; apply Rmult_integral in G; tauto). subst. ring.
        + assert (v2 = 0) by (assert (u3 * v2 = 0) as G by lra; apply Rmult_integral in G; tauto). subst. ring.
        + field. assumption.
      - exists u1, u2, u3. split; [tauto|]. exists 1, (v2 / u2). subst u1. repeat split; try lra.
        + assert (v1 = 0) by (assert (u2 * v1 = 0) as G by lra; apply Rmult_integral in G; tauto). subst. ring.
        + field. assumption.
        + apply Rmult_eq_reg_l with u2; [|assumption]. replace (u2 * (v2 / u2 * u3)) with (u3 * v2) by (field; assumption). lra.
      - exists u1, u2, u3. split; [tauto|]. exists 1, (v1 / u1). repeat split; try lra.
        + field. assumption.
        + apply Rmult_eq_reg_l with u1; [|assumption]. replace (u1 * (v1 / u1 * u2)) with (u2 * v1) by (field; assumption). lra.
        + apply Rmult_eq_reg_l with u1; [|assumption]. replace (u1 * (v1 / u1 * u3)) with (u3 * v1) by (field; assumption). lra. }
    destruct PAR as (p & q & r & Hp & s & t & -> & -> & -> & -> & -> & ->).
    assert (N : exists n m k, (n <> 0 \/ m <> 0 \/ k <> 0) /\ n * p + m * q + k * r = 0 /\ n * w1 + m * w2 + k * w3 = 0).
    { destruct (Req_dec (q * w3 - r * w2) 0) as [C1|C1]; [destruct (Req_dec (r * w1 - p * w3) 0) as [C2|C2]; [destruct (Req_dec (p * w2 - q * w1) 0) as [C3|C3]|]|].
      2,3,4: exists (q * w3 - r * w2), (r * w1 - p * w3), (p * w2 - q * w1); (split; [tauto|]); split; ring.
      (* w is a multiple of (p, q, r): any vector normal to (p, q, r) *)
      assert (W : exists z, w1 = z * p /\ w2 = z * q /\ w3 = z * r).
      { destruct Hp as [Hp|[Hp|Hp]].
        - exists (w1 / p). repeat split; [field; assumption| |].
          + apply Rmult_eq_reg_l with p; [|assumption]. replace (p * (w1 / p * q)) with (q * w1) by (field; assumption). lra.
          + apply Rmult_eq_reg_l with p; [|assumption]. replace (p * (w1 / p * r)) with (r * w1) by (field; assumption). lra.
        - exists (w2 / q). repeat split; [|field; assumption|].
          + apply Rmult_eq_reg_l with q; [|assumption]. replace (q * (w2 / q * p)) with (p * w2) by (field; assumption). lra.
          + apply Rmult_eq_reg_l with q; [|assumption]. replace (q * (w2 / q * r)) with (r * w2) by (field; assumption). lra.
        - exists (w3 / r). repeat split; [| |field; assumption].
          + apply Rmult_eq_reg_l with r; [|assumption]. replace (r * (w3 / r * p)) with (p * w3) by (field; assumption). lra.
          + apply Rmult_eq_reg_l with r; [|assumption]. replace (r * (w3 / r * q)) with (q * w3) by (field; assumption). lra. }
      destruct W as (z & -> & -> & ->).
      destruct (Req_dec p 0) as [P0|P0].
      - exists 1, 0, 0. subst p. split; [left; lra|]. split; ring.
      - exists (- q), p, 0. split; [tauto|]. split; ring. }
    destruct N as (n & m & k & Hn & E1 & E2). exists n, m, k. split; [assumption|]. split; [|split; [|assumption]].
    + replace (n * (s * p) + m * (s * q) + k * (s * r)) with (s * (n * p + m * q + k * r)) by ring. rewrite E1. ring.
    + replace (n * (t * p) + m * (t * q) + k * (t * r)) with (t * (n * p + m * q + k * r)) by ring. rewrite E1. ring.
  - intros (n & m & k & Hn & E1 & E2 & E3). f_equal.
    set (D := u1 * (v2 * w3 - v3 * w2) - u2 * (v1 * w3 - v3 * w1) + u3 * (v1 * w2 - v2 * w1)).
    assert (Gn : n * D = 0).
    { replace (n * D) with ((n * u1 + m * u2 + k * u3) * (v2 * w3 - v3 * w2) - (n * v1 + m * v2 + k * v3) * (u2 * w3 - u3 * w2) + (n * w1 + m * w2 + k * w3) * (u2 * v3 - u3 * v2)) by (unfold D; ring).
      rewrite E1, E2, E3. ring. }
    assert (Gm : m * D = 0).
    { replace (m * D) with (- (n * u1 + m * u2 + k * u3) * (v1 * w3 - v3 * w1) + (n * v1 + m * v2 + k * v3) * (u1 * w3 - u3 * w1) - (n * w1 + m * w2 + k * w3) * (u1 * v3 - u3 * v1)) by (unfold D; ring).
      rewrite E1, E2, E3. ring. }
    assert (Gk : k * D = 0).
    { replace (k * D) with ((n * u1 + m * u2 + k * u3) * (v1 * w2 - v2 * w1) - (n * v1 + m * v2 + k * v3) * (u1 * w2 - u2 * w1) + (n * w1 + m * w2 + k * w3) * (u1 * v2 - u2 * v1)) by (unfold D; ring).
      rewrite E1, E2, E3. ring. }
    assert (D0 : D = 0).
    { destruct Hn as [Hn|[Hn|Hn]]; [apply Rmult_integral in Gn|apply Rmult_integral in Gm|apply Rmult_integral in Gk]; tauto. }
    rewrite D0. lra.
Qed.

(** ** Natural coordinates *)
Definition tbary (a b c d p : list R) : list R :=
  let V := signed_volume a b c d in
  [signed_volume p b c d / V; signed_volume a p c d / V; signed_volume a b p d / V;
   1 - signed_volume p b c d / V - signed_volume a p c d / V - signed_volume a b p d / V].
Lemma nat_tet_value : forall a b c d p, dim 3 a -> dim 3 b -> dim 3 c -> dim 3 d -> dim 3 p -> signed_volume a b c d <> 0 ->
  glob_to_nat_tet p [a; b; c; d] = Ok (tbary a b c d p).
Proof.
  intros. unfold glob_to_nat_tet. rewrite vol_value by assumption. cbn [bind set]. rewrite !vol_value by assumption. cbn [bind].
  rewrite !div_ok by assumption. reflexivity.
Qed.
Lemma tbary_weights : forall a b c d p, signed_volume a b c d <> 0 -> weights_of 3 (tbary a b c d p) [a; b; c; d] p.
Proof.
  intros a b c d p H. split; [reflexivity|]. split; [cbn [tbary fold_right]; lra|].
  intros k Hk. unfold weighted, tbary. cbn [combine map fold_right fst snd].
  destruct k as [|[|[|]]]; [| | |lia]; unfold signed_volume in *; field; lra.
Qed.
Lemma tweights_unique : forall a b c d p l, signed_volume a b c d <> 0 -> weights_of 3 l [a; b; c; d] p -> l = tbary a b c d p.
Proof.
  intros a b c d p l H (HL & HS & HW). destruct l as [|l0 [|l1 [|l2 [|l3 [|]]]]]; try discriminate HL. clear HL. cbn [fold_right] in HS.
  generalize (HW 0%nat ltac:(lia)) (HW 1%nat ltac:(lia)) (HW 2%nat ltac:(lia)). unfold weighted. cbn [combine map fold_right fst snd]. intros E0 E1 E2.
  assert (F3 : l3 = 1 - l0 - l1 - l2) by lra.
  assert (G0 : signed_volume p b c d = l0 * signed_volume a b c d) by (unfold signed_volume; rewrite E0, E1, E2, F3; field).
  assert (G1 : signed_volume a p c d = l1 * signed_volume a b c d) by (unfold signed_volume; rewrite E0, E1, E2, F3; field).
  assert (G2 : signed_volume a b p d = l2 * signed_volume a b c d) by (unfold signed_volume; rewrite E0, E1, E2, F3; field).
  unfold tbary. rewrite G0, G1, G2.
  assert (K : forall x, x * signed_volume a b c d / signed_volume a b c d = x) by (intros; field; assumption). rewrite !K, F3. reflexivity.
Qed.
Lemma nat_tet_correct : forall a b c d p, dim 3 a -> dim 3 b -> dim 3 c -> dim 3 d -> dim 3 p -> ~ coplanar a b c d ->
  exists l, glob_to_nat_tet p [a; b; c; d] = Ok l /\ weights_of 3 l [a; b; c; d] p /\ forall l', weights_of 3 l' [a; b; c; d] p -> l' = l.
Proof.
  intros a b c d p Ha Hb Hc Hd Hp H. assert (H0 : signed_volume a b c d <> 0).
  { intros E. apply H. apply vol_zero; try assumption. rewrite vol_value by assumption. now rewrite E. }
  exists (tbary a b c d p). split; [now apply nat_tet_value|]. split; [now apply tbary_weights|]. intros. now apply tweights_unique.
Qed.
Lemma nat_tet_degenerate : forall a b c d p, dim 3 a -> dim 3 b -> dim 3 c -> dim 3 d -> dim 3 p -> coplanar a b c d ->
  glob_to_nat_tet p [a; b; c; d] = Err ZeroDivisionError.
Proof.
  intros a b c d p Ha Hb Hc Hd Hp H. apply vol_zero in H; try assumption. unfold glob_to_nat_tet. rewrite H. cbn [bind set]. rewrite vol_value by assumption. cbn [bind].
  unfold div. destruct (Req_EM_T 0 0); [reflexivity|lra].
Qed.
(** from natural to local coordinates, and the shape functions of the 4-node tetrahedron *)
Lemma nat_to_loc_tet_value : forall l0 l1 l2 l3, nat_to_loc_tet [l0; l1; l2; l3] = Ok [l1; l2; l3].
Proof.
  intros. unfold nat_to_loc_tet, lcoords_tet, vecmat, vsum, vadd, vscale. cbn. f_equal. f_equal; [ring|f_equal; [ring|f_equal; ring]].
Qed.
Lemma nat_solid_tet : forall ec p, solid_tet ec -> dim 3 p ->
  exists l, glob_to_nat_tet p ec = Ok l /\ weights_of 3 l ec p /\ forall l', weights_of 3 l' ec p -> l' = l.
Proof. intros ec p (a & b & c & d & -> & Ha & Hb & Hc & Hd & H) Hp. now apply nat_tet_correct. Qed.
Lemma closed_tet : forall ec p, solid_tet ec -> dim 3 p ->
  ((forall tol, 0 < tol -> near_hull 3 tol ec p) <-> in_hull 3 ec p).
Proof.
  intros ec p H Hp. destruct (nat_solid_tet ec p H Hp) as (l & _ & HW & HU). split.
  - now apply near_all_in_hull with l.
  - intros Hh tol Ht. now apply in_hull_near.
Qed.
Lemma pip_tet_correct : forall points ecs tol, Forall (dim 3) points -> Forall solid_tet ecs ->
  exists M, pip_tet_bulk points ecs tol = Ok M /\
    Forall2 (fun p row => Forall2 (fun ec b => b = true <-> near_hull 3 tol ec p) ecs row) points M.
Proof.
  intros points ecs tol HP HE. unfold pip_tet_bulk, glob_to_nat_tet_bulk.
  assert (R : forall p, dim 3 p -> exists r, mapM (fun ec => glob_to_nat_tet p ec) ecs = Ok r /\
    Forall2 (fun ec b => b = true <-> near_hull 3 tol ec p) ecs (map (inside tol) r)).
  { intros p Hp. clear HP. induction HE as [|ec ecs H Hr (r & E & F)]; [exists []; split; [reflexivity|constructor]|].
    destruct (nat_solid_tet ec p H Hp) as (l & El & HW & HU).
    exists (l :: r). cbn [mapM]. rewrite El. cbn [bind]. rewrite E. cbn [bind map]. split; [reflexivity|]. constructor; [|assumption]. now apply inside_near. }
  cut (exists nat, mapM (fun p => mapM (fun ec => glob_to_nat_tet p ec) ecs) points = Ok nat /\
    Forall2 (fun p row => Forall2 (fun ec b => b = true <-> near_hull 3 tol ec p) ecs row) points (pip_of_nat tol nat)).
  { intros (nat & E & F). rewrite E. cbn [bind]. eexists. split; [reflexivity|exact F]. }
  induction HP as [|p points Hp HP (nat & E & F)]; [exists []; split; [reflexivity|constructor]|].
  destruct (R p Hp) as (r & Er & Fr). exists (r :: nat). cbn [mapM]. rewrite Er. cbn [bind]. rewrite E. split; [reflexivity|]. constructor; assumption.
Qed.
Lemma pip_tet_knn_correct : forall points ecs neighbours tol, Forall (dim 3) points -> Forall solid_tet ecs ->
  length neighbours = length points -> Forall (Forall (fun j => (j < length ecs)%nat)) neighbours ->
  exists M, pip_tet_bulk_knn points ecs neighbours tol = Ok M /\
    Forall2 (fun pk row => Forall2 (fun j b => exists ec, nth_error ecs j = Some ec /\ (b = true <-> near_hull 3 tol ec (fst pk))) (snd pk) row)
      (combine points neighbours) M.
Proof.
  intros points ecs neighbours tol HP HE HL HN.
  destruct (knn_gen tol glob_to_nat_tet (near_hull 3 tol) ecs points neighbours) as (nat & E & F); [|assumption|assumption|].
  - intros p j ec Hp Hj. rewrite Forall_forall in HP, HE.
    destruct (nat_solid_tet ec p) as (l & El & HW & HU); [apply HE; now apply nth_error_In with j|now apply HP|].
    exists l. split; [assumption|]. now apply inside_near.
  - unfold pip_tet_bulk_knn, glob_to_nat_tet_bulk_knn. rewrite E. eexists. split; [reflexivity|assumption].
Qed.
