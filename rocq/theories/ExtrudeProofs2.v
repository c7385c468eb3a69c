(** * Proofs about [ExtrudeModel.v], part 2: volumes and prisms *)
From Coq Require Import Reals Lra Lia List Psatz.
From Verif Require Import BaseFacts FillFacts TrModel TrProofs EvalProofs ShapeProofs4 TriProofs ExtrudeModel ExtrudeSpec ExtrudeProofs.
Import ListNotations.
Local Open Scope R_scope.

Definition z_at (h : R) (m l : nat) : R := h * INR l / INR m.
Lemma z_step h m l : (0 < m)%nat -> z_at h m (l + 1) = z_at h m l + h / INR m.
Proof. intros Hm. unfold z_at. rewrite plus_INR. cbn [INR]. field. apply not_0_INR. lia. Qed.

Lemma layered_at points h m coords l n : layered points h m coords -> (l <= m)%nat -> (n < length points)%nat ->
  coord coords (lift (length points) l n) 0 = coord points n 0 /\ coord coords (lift (length points) l n) 1 = coord points n 1 /\ coord coords (lift (length points) l n) 2 = z_at h m l.
Proof. intros (_ & _ & H) Hl Hn. unfold lift. replace (n + l * length points)%nat with (length points * l + n)%nat by lia. apply H; assumption. Qed.

Lemma tri_area3 points a b c : tri_area points [a; b; c] =
  ((coord points b 0 - coord points a 0) * (coord points c 1 - coord points a 1) - (coord points c 0 - coord points a 0) * (coord points b 1 - coord points a 1)) / 2.
Proof. unfold tri_area, polygon_area. cbn [shoelace]. unfold cross2. field. Qed.

Lemma tet_row_volume points h m coords i t k : layered points h m coords -> (i < m)%nat -> length t = 3%nat /\ Forall (fun k => (k < length points)%nat) t -> (k < 3)%nat ->
  tet_nodes_volume coords (tet_rows (length points) i t k) = tri_area points t * h / (3 * INR m).
Proof.
  intros HL Hi Ht Hk. destruct (three _ _ Ht) as (a & b & c & -> & Ha & Hb & Hc). rewrite tri_area3.
  assert (Hm : INR m <> 0) by (apply not_0_INR; lia).
  destruct (layered_at _ _ _ _ i a HL) as (A0 & A1 & A2); [lia|exact Ha|]. destruct (layered_at _ _ _ _ i b HL) as (B0 & B1 & B2); [lia|exact Hb|]. destruct (layered_at _ _ _ _ i c HL) as (C0 & C1 & C2); [lia|exact Hc|].
  destruct (layered_at _ _ _ _ (i + 1) a HL) as (D0 & D1 & D2); [lia|exact Ha|]. destruct (layered_at _ _ _ _ (i + 1) b HL) as (E0 & E1 & E2); [lia|exact Hb|]. destruct (layered_at _ _ _ _ (i + 1) c HL) as (F0 & F1 & F2); [lia|exact Hc|].
  rewrite z_step in D2, E2, F2 by lia.
  destruct k as [|[|[|k]]]; [| | |lia]; cbn [tet_rows tet_nodes_volume]; unfold tet_volume; rewrite ?A0, ?A1, ?A2, ?B0, ?B1, ?B2, ?C0, ?C1, ?C2, ?D0, ?D1, ?D2, ?E0, ?E1, ?E2, ?F0, ?F1, ?F2; field; exact Hm.
Qed.

Lemma wedge_row_volume points h m coords i t : layered points h m coords -> (i < m)%nat -> length t = 3%nat /\ Forall (fun k => (k < length points)%nat) t ->
  enclosed_volume hull_W6 coords (wedge_row (length points) i t) = tri_area points t * h / INR m.
Proof.
  intros HL Hi Ht. destruct (three _ _ Ht) as (a & b & c & -> & Ha & Hb & Hc). rewrite tri_area3.
  assert (Hm : INR m <> 0) by (apply not_0_INR; lia).
  destruct (layered_at _ _ _ _ i a HL) as (A0 & A1 & A2); [lia|exact Ha|]. destruct (layered_at _ _ _ _ i b HL) as (B0 & B1 & B2); [lia|exact Hb|]. destruct (layered_at _ _ _ _ i c HL) as (C0 & C1 & C2); [lia|exact Hc|].
  destruct (layered_at _ _ _ _ (i + 1) a HL) as (D0 & D1 & D2); [lia|exact Ha|]. destruct (layered_at _ _ _ _ (i + 1) b HL) as (E0 & E1 & E2); [lia|exact Hb|]. destruct (layered_at _ _ _ _ (i + 1) c HL) as (F0 & F1 & F2); [lia|exact Hc|].
  rewrite z_step in D2, E2, F2 by lia.
  unfold enclosed_volume, hull_W6, wedge_row. cbn [map app]. unfold face_cone. cbn [reorder map nth]. cbn [rsum fold_right]. unfold quad_cone, tri_cone, det3. rewrite ?A0, ?A1, ?A2, ?B0, ?B1, ?B2, ?C0, ?C1, ?C2, ?D0, ?D1, ?D2, ?E0, ?E1, ?E2, ?F0, ?F1, ?F2. field. exact Hm.
Qed.

(** ** Points of the tetrahedra *)

(** weights of the nodes of the triangle and relative height, from the weights of the nodes of a tetrahedron *)
Definition tri_of (k : nat) (l0 l1 l2 l3 : R) : R * R * R * R :=
  match k with 0 => (l0, l1, l2 + l3, l3) | 1 => (l0, l1 + l3, l2, l2 + l3) | _ => (l0 + l3, l1, l2, l1 + l2 + l3) end.
(** and back *)
Definition tet_of (k : nat) (a b c s : R) : R * R * R * R :=
  match k with 0 => (a, b, c - s, s) | 1 => (a, b - (s - c), c, s - c) | _ => (a - (s - b - c), b, c, s - b - c) end.

Section Points.
Context (points : list (list R)) (h : R) (m : nat) (coords : list (list R)) (HL : layered points h m coords).

Lemma bary_tri i t k p l0 l1 l2 l3 : (i < m)%nat -> length t = 3%nat /\ Forall (fun k => (k < length points)%nat) t -> (k < 3)%nat ->
  barycentric coords (tet_rows (length points) i t k) p l0 l1 l2 l3 ->
  let '(a, b, c, s) := tri_of k l0 l1 l2 l3 in tri_weights points t p a b c /\ p 2%nat = z_at h m i + s * (h / INR m).
Proof.
  intros Hi Ht Hk (HS & A & B & C & D & rest & Er & Hp). destruct (three _ _ Ht) as (a & b & c & -> & Ha & Hb & Hc).
  destruct (layered_at _ _ _ _ i a HL) as (A0 & A1 & A2); [lia|exact Ha|]. destruct (layered_at _ _ _ _ i b HL) as (B0 & B1 & B2); [lia|exact Hb|]. destruct (layered_at _ _ _ _ i c HL) as (C0 & C1 & C2); [lia|exact Hc|].
  destruct (layered_at _ _ _ _ (i + 1) a HL) as (D0 & D1 & D2); [lia|exact Ha|]. destruct (layered_at _ _ _ _ (i + 1) b HL) as (E0 & E1 & E2); [lia|exact Hb|]. destruct (layered_at _ _ _ _ (i + 1) c HL) as (F0 & F1 & F2); [lia|exact Hc|].
  rewrite z_step in D2, E2, F2 by lia. pose proof (Hp 0%nat) as P0. pose proof (Hp 1%nat) as P1. pose proof (Hp 2%nat) as P2. specialize (P0 ltac:(lia)). specialize (P1 ltac:(lia)). specialize (P2 ltac:(lia)).
  destruct k as [|[|[|k]]]; [| | |lia]; cbn [tet_rows] in Er; injection Er as <- <- <- <- _; cbn [tri_of];
    (split; [split; [lra|]; exists a, b, c; split; [reflexivity|]; intros d Hd; destruct d as [|[|d]]; [| |lia]; rewrite ?P0, ?P1; rewrite ?A0, ?A1, ?B0, ?B1, ?C0, ?C1, ?D0, ?D1, ?E0, ?E1, ?F0, ?F1; ring
            |rewrite P2; rewrite ?A2, ?B2, ?C2, ?D2, ?E2, ?F2; replace l0 with (1 - l1 - l2 - l3) by lra; ring]).
Qed.

Lemma tri_bary i t k p a b c s : (i < m)%nat -> length t = 3%nat /\ Forall (fun k => (k < length points)%nat) t -> (k < 3)%nat ->
  tri_weights points t p a b c -> p 2%nat = z_at h m i + s * (h / INR m) ->
  let '(l0, l1, l2, l3) := tet_of k a b c s in barycentric coords (tet_rows (length points) i t k) p l0 l1 l2 l3.
Proof.
  intros Hi Ht Hk (HS & na & nb & nc & Et & Hp) Hz. destruct (three _ _ Ht) as (a' & b' & c' & Et' & Ha & Hb & Hc). rewrite Et in Et'. injection Et' as <- <- <-. subst t.
  destruct (layered_at _ _ _ _ i na HL) as (A0 & A1 & A2); [lia|exact Ha|]. destruct (layered_at _ _ _ _ i nb HL) as (B0 & B1 & B2); [lia|exact Hb|]. destruct (layered_at _ _ _ _ i nc HL) as (C0 & C1 & C2); [lia|exact Hc|].
  destruct (layered_at _ _ _ _ (i + 1) na HL) as (D0 & D1 & D2); [lia|exact Ha|]. destruct (layered_at _ _ _ _ (i + 1) nb HL) as (E0 & E1 & E2); [lia|exact Hb|]. destruct (layered_at _ _ _ _ (i + 1) nc HL) as (F0 & F1 & F2); [lia|exact Hc|].
  rewrite z_step in D2, E2, F2 by lia. pose proof (Hp 0%nat ltac:(lia)) as P0. pose proof (Hp 1%nat ltac:(lia)) as P1.
  destruct k as [|[|[|k]]]; [| | |lia]; cbn [tet_of tet_rows];
    (split; [lra|]; do 5 eexists; split; [reflexivity|]; intros d Hd; destruct d as [|[|[|d]]]; [| | |lia]; rewrite ?P0, ?P1, ?Hz; rewrite ?A0, ?A1, ?A2, ?B0, ?B1, ?B2, ?C0, ?C1, ?C2, ?D0, ?D1, ?D2, ?E0, ?E1, ?E2, ?F0, ?F1, ?F2; try ring; replace a with (1 - b - c) by lra; ring).
Qed.

(** the three tetrahedra fill the prism *)
Lemma prism_filled i t p : (i < m)%nat -> length t = 3%nat /\ Forall (fun k => (k < length points)%nat) t ->
  in_prism points t (z_at h m i) (z_at h m (i + 1)) p <-> exists k, (k < 3)%nat /\ in_tet coords (tet_rows (length points) i t k) p.
Proof.
  intros Hi Ht. rewrite z_step by lia. split.
  - intros [(a & b & c & HW & Pa & Pb & Pc) (s & [S0 S1] & Hz)]. assert (Hz' : p 2%nat = z_at h m i + s * (h / INR m)) by (rewrite Hz; ring). clear Hz.
    pose proof HW as (HS & _). assert (O : s <= c \/ c <= s <= b + c \/ b + c <= s) by lra. destruct O as [O|[O|O]]; [exists 0%nat|exists 1%nat|exists 2%nat]; (split; [lia|]);
    [pose proof (tri_bary i t 0 p a b c s Hi Ht ltac:(lia) HW Hz') as HB|pose proof (tri_bary i t 1 p a b c s Hi Ht ltac:(lia) HW Hz') as HB|pose proof (tri_bary i t 2 p a b c s Hi Ht ltac:(lia) HW Hz') as HB];
    cbn [tet_of] in HB; do 4 eexists; (split; [exact HB|]); lra.
  - intros (k & Hk & l0 & l1 & l2 & l3 & HB & P0 & P1 & P2 & P3). pose proof HB as (HS & _). pose proof (bary_tri i t k p _ _ _ _ Hi Ht Hk HB) as H.
    destruct k as [|[|[|k]]]; [| | |lia]; cbn [tri_of] in H; destruct H as [HW Hz]; (split; [do 3 eexists; split; [exact HW|]; lra|]); eexists; (split; [|rewrite Hz; match goal with |- _ + ?s * _ = _ => instantiate (1 := s) end; ring]); lra.
Qed.

Lemma weights_unique t p a b c a' b' c' : tri_area points t <> 0 -> tri_weights points t p a b c -> tri_weights points t p a' b' c' -> a = a' /\ b = b' /\ c = c'.
Proof.
  intros HA (HS & i & j & k & -> & H) (HS' & i' & j' & k' & E & H'). injection E as <- <- <-. rewrite tri_area3 in HA.
  pose proof (H 0%nat ltac:(lia)) as X. pose proof (H 1%nat ltac:(lia)) as Y. rewrite (H' 0%nat ltac:(lia)) in X. rewrite (H' 1%nat ltac:(lia)) in Y.
  set (x1 := coord points i 0) in *. set (x2 := coord points j 0) in *. set (x3 := coord points k 0) in *. set (y1 := coord points i 1) in *. set (y2 := coord points j 1) in *. set (y3 := coord points k 1) in *.
  set (D := (x2 - x1) * (y3 - y1) - (x3 - x1) * (y2 - y1)) in *. assert (HD : D <> 0) by (intros E; apply HA; rewrite E; lra).
  assert (EX : (b - b') * (x2 - x1) + (c - c') * (x3 - x1) = 0) by (replace b with (1 - a - c) by lra; replace b' with (1 - a' - c') by lra; nra).
  assert (EY : (b - b') * (y2 - y1) + (c - c') * (y3 - y1) = 0) by (replace b with (1 - a - c) by lra; replace b' with (1 - a' - c') by lra; nra).
  assert (Eb : (b - b') * D = 0) by (unfold D; replace ((b - b') * ((x2 - x1) * (y3 - y1) - (x3 - x1) * (y2 - y1))) with (((b - b') * (x2 - x1) + (c - c') * (x3 - x1)) * (y3 - y1) - ((b - b') * (y2 - y1) + (c - c') * (y3 - y1)) * (x3 - x1)) by ring; rewrite EX, EY; ring).
  assert (Ec : (c - c') * D = 0) by (unfold D; replace ((c - c') * ((x2 - x1) * (y3 - y1) - (x3 - x1) * (y2 - y1))) with (((b - b') * (y2 - y1) + (c - c') * (y3 - y1)) * (x2 - x1) - ((b - b') * (x2 - x1) + (c - c') * (x3 - x1)) * (y2 - y1)) by ring; rewrite EX, EY; ring).
  apply Rmult_integral in Eb, Ec. destruct Eb as [Eb|Eb]; [|contradiction]. destruct Ec as [Ec|Ec]; [|contradiction]. lra.
Qed.

Lemma height_unique i s s' : h <> 0 -> (0 < m)%nat -> z_at h m i + s * (h / INR m) = z_at h m i + s' * (h / INR m) -> s = s'.
Proof.
  intros Hh Hm E. assert (Hd : h / INR m <> 0) by (unfold Rdiv; apply Rmult_integral_contrapositive_currified; [exact Hh|apply Rinv_neq_0_compat, not_0_INR; lia]).
  apply (Rmult_eq_reg_r (h / INR m)); [lra|exact Hd].
Qed.

(** their interiors have no point in common *)
Lemma prism_disjoint i t k k' p : (i < m)%nat -> length t = 3%nat /\ Forall (fun k => (k < length points)%nat) t -> tri_area points t <> 0 -> h <> 0 -> (k < 3)%nat -> (k' < 3)%nat ->
  inside_tet coords (tet_rows (length points) i t k) p -> inside_tet coords (tet_rows (length points) i t k') p -> k = k'.
Proof.
  intros Hi Ht HA Hh Hk Hk' (l0 & l1 & l2 & l3 & HB & P0 & P1 & P2 & P3) (l0' & l1' & l2' & l3' & HB' & P0' & P1' & P2' & P3').
  pose proof (bary_tri i t k p _ _ _ _ Hi Ht Hk HB) as H. pose proof (bary_tri i t k' p _ _ _ _ Hi Ht Hk' HB') as H'.
  destruct k as [|[|[|k]]]; [| | |lia]; (destruct k' as [|[|[|k']]]; [| | |lia]); try reflexivity; cbn [tri_of] in H, H'; destruct H as [HW Hz]; destruct H' as [HW' Hz']; rewrite Hz' in Hz; apply height_unique in Hz; try lia; try assumption;
    destruct (weights_unique t p _ _ _ _ _ _ HA HW HW') as (E1 & E2 & E3); lra.
Qed.
End Points.
