(** * Proofs about [InpModel.v]: writing *)
From Coq Require Import Reals ZArith List String Ascii Lia Lra.
From Verif Require Import Base BaseFacts FrameModel FrameSpec FrameProofs FrameProofs3 InpModel InpSpec InpProofs.
Import ListNotations.
Local Open Scope R_scope.
Local Open Scope string_scope.

(** ** Normals *)
Lemma sum_squares_zero a b c : a * a + b * b + c * c = 0 -> a = 0 /\ b = 0 /\ c = 0.
Proof. intros H. assert (a * a >= 0) by nra. assert (b * b >= 0) by nra. assert (c * c >= 0) by nra. repeat split; nra. Qed.
Lemma compute_normal_proper a b c : proper (a, b, c) -> exists n, compute_normal a b c = Ok n /\ unit_normal n (a, b, c).
Proof.
  destruct a as [[a0 a1] a2], b as [[b0 b1] b2], c as [[c0 c1] c2]. unfold proper, along, outer, compute_normal, vminus, length3.
  set (n0 := (b1 - a1) * (c2 - a2) - (b2 - a2) * (c1 - a1)). set (n1 := (b2 - a2) * (c0 - a0) - (b0 - a0) * (c2 - a2)).
  set (n2 := (b0 - a0) * (c1 - a1) - (b1 - a1) * (c0 - a0)). intros P. cbn [vdot3].
  assert (Q : 0 < n0 * n0 + n1 * n1 + n2 * n2).
  { destruct (Rle_lt_dec (n0 * n0 + n1 * n1 + n2 * n2) 0) as [H|H]; [|exact H]. exfalso. apply P.
    assert (H0 : 0 <= n0 * n0) by nra. assert (H1 : 0 <= n1 * n1) by nra. assert (H2 : 0 <= n2 * n2) by nra.
    destruct (sum_squares_zero n0 n1 n2) as (-> & -> & ->); [lra|]. reflexivity. }
  set (l := sqrt (n0 * n0 + n1 * n1 + n2 * n2)). assert (L : 0 < l) by now apply sqrt_lt_R0.
  assert (S : l * l = n0 * n0 + n1 * n1 + n2 * n2) by (apply sqrt_sqrt; lra).
  destruct (Req_EM_T l 0) as [E|_]; [lra|]. eexists. split; [reflexivity|]. unfold unit_normal, along, outer, inner. fold n0 n1 n2.
  assert (I1 : n0 * (b0 - a0) + n1 * (b1 - a1) + n2 * (b2 - a2) = 0) by (unfold n0, n1, n2; ring).
  assert (I2 : n0 * (c0 - a0) + n1 * (c1 - a1) + n2 * (c2 - a2) = 0) by (unfold n0, n1, n2; ring).
  repeat split.
  - replace (n0 / l * (n0 / l) + n1 / l * (n1 / l) + n2 / l * (n2 / l)) with ((n0 * n0 + n1 * n1 + n2 * n2) / (l * l)) by (field; lra). rewrite <- S. field. lra.
  - replace (n0 / l * (b0 - a0) + n1 / l * (b1 - a1) + n2 / l * (b2 - a2)) with ((n0 * (b0 - a0) + n1 * (b1 - a1) + n2 * (b2 - a2)) / l) by (field; lra). rewrite I1. field. lra.
  - replace (n0 / l * (c0 - a0) + n1 / l * (c1 - a1) + n2 / l * (c2 - a2)) with ((n0 * (c0 - a0) + n1 * (c1 - a1) + n2 * (c2 - a2)) / l) by (field; lra). rewrite I2. field. lra.
  - replace (n0 / l * n0 + n1 / l * n1 + n2 / l * n2) with ((n0 * n0 + n1 * n1 + n2 * n2) / l) by (field; lra). now apply Rdiv_lt_0_compat.
Qed.
Lemma compute_normal_flat a b c : ~ proper (a, b, c) -> compute_normal a b c = Err ZeroDivisionError.
Proof.
  destruct a as [[a0 a1] a2], b as [[b0 b1] b2], c as [[c0 c1] c2]. unfold proper, along, outer, compute_normal, vminus, length3.
  set (n0 := (b1 - a1) * (c2 - a2) - (b2 - a2) * (c1 - a1)). set (n1 := (b2 - a2) * (c0 - a0) - (b0 - a0) * (c2 - a2)).
  set (n2 := (b0 - a0) * (c1 - a1) - (b1 - a1) * (c0 - a0)). intros P. cbn [vdot3].
  destruct (Req_EM_T n0 0) as [E0|N]; [|exfalso; apply P; intros E; now injection E as E _ _].
  destruct (Req_EM_T n1 0) as [E1|N]; [|exfalso; apply P; intros E; now injection E as _ E _].
  destruct (Req_EM_T n2 0) as [E2|N]; [|exfalso; apply P; intros E; now injection E as _ _ E].
  rewrite E0, E1, E2. replace (0 * 0 + 0 * 0 + 0 * 0) with 0 by ring. rewrite sqrt_0. destruct (Req_EM_T 0 0); [reflexivity|easy].
Qed.
(** a normal is unique *)
Lemma np_get_nat {A} (l : list A) (i : nat) x : nth_error l i = Some x -> np_get l (Z.of_nat i) = Ok x.
Proof. intros E. unfold np_get. destruct (Z.leb_spec 0 (Z.of_nat i)); [|lia]. unfold get. rewrite Nat2Z.id, E. reflexivity. Qed.
Lemma write_facet_at vs t u : triangle_at vs t u ->
  write_facet vs t = (let '(a, b, c) := u in do n <- compute_normal a b c; Ok (n, u)).
Proof.
  destruct u as [[a b] c]. intros (i & j & k & -> & A & B & C). unfold write_facet. rewrite (np_get_nat _ _ _ A), (np_get_nat _ _ _ B), (np_get_nat _ _ _ C). reflexivity.
Qed.

(** ** Faces of a tetrahedron *)
Ltac triple p := destruct p as [[? ?] ?].
Definition corners (s : solid) : list vec := let '(A, B, C, D) := s in [A; B; C; D].
Definition area_vector (t : triangle) : vec := let '(a, b, c) := t in outer (along a b) (along a c).
Definition first_of (t : triangle) : vec := fst (fst t).
Lemma face_side s u : In u (faces_of s) ->
  Forall (fun Q => inner (area_vector u) (along (first_of u) Q) = 0 \/ inner (area_vector u) (along (first_of u) Q) = volume6 s) (corners s) /\
  Exists (fun Q => inner (area_vector u) (along (first_of u) Q) = volume6 s) (corners s).
Proof.
  destruct s as [[[A B] C] D]. triple A. triple B. triple C. triple D. cbn [faces_of In corners].
  intros [<-|[<-|[<-|[<-|[]]]]]; cbn [area_vector first_of fst snd volume6 inner outer along]; split;
    match goal with
    | |- Forall _ _ => repeat (apply Forall_cons || apply Forall_nil); (left; ring) || (right; ring)
    | |- Exists _ _ => repeat ((apply Exists_cons_hd; ring) || apply Exists_cons_tl)
    end.
Qed.
Lemma area_turned t u : turned_to t u -> area_vector u = area_vector t.
Proof.
  destruct t as [[a b] c]. triple a. triple b. triple c. cbn [turned_to]. intros [->|[->| ->]]; [reflexivity| |]; cbn [area_vector along outer]; apply triple_eq; ring.
Qed.
Lemma area_reversed t : area_vector (reversed t) = (let '(x, y, z) := area_vector t in (- x, - y, - z)).
Proof. destruct t as [[a b] c]. triple a. triple b. triple c. cbn [reversed area_vector along outer]. apply triple_eq; ring. Qed.
Lemma side_turned t u Q : turned_to t u -> inner (area_vector u) (along (first_of u) Q) = inner (area_vector t) (along (first_of t) Q).
Proof.
  intros T. rewrite (area_turned _ _ T). destruct t as [[a b] c]. triple a. triple b. triple c. triple Q. cbn [turned_to] in T.
  destruct T as [->|[->| ->]]; [reflexivity| |]; cbn [area_vector first_of fst snd along outer inner]; ring.
Qed.
Lemma side_reversed t Q : inner (area_vector (reversed t)) (along (first_of (reversed t)) Q) = - inner (area_vector t) (along (first_of t) Q).
Proof. rewrite area_reversed. destruct t as [[a b] c]. cbn [reversed first_of fst snd]. destruct (area_vector (a, b, c)) as [[x y] z]. triple a. triple Q. cbn [along inner]. ring. Qed.
Lemma faces_proper s u v : volume6 s <> 0 -> In u (faces_of s) -> turned_to u v \/ turned_to (reversed u) v -> proper v.
Proof.
  intros V I T. destruct (face_side _ _ I) as (_ & X). apply Exists_exists in X. destruct X as (Q & _ & X).
  assert (N : area_vector v <> (0, 0, 0)); [|now destruct v as [[? ?] ?]]. intros Z.
  assert (Y : inner (area_vector v) (along (first_of v) Q) = 0).
  { rewrite Z. destruct (along (first_of v) Q) as [[? ?] ?]. cbn [inner]. ring. }
  destruct T as [T|T]; rewrite (side_turned _ _ _ T) in Y; [|rewrite side_reversed in Y]; lra.
Qed.
(** the area vector is along the unit normal *)
Lemma unit_normal_along n t : unit_normal n t -> exists l, 0 < l /\ forall w, inner (area_vector t) w = l * inner n w.
Proof.
  destruct t as [[a b] c]. cbn [unit_normal area_vector]. intros (U & H1 & H2 & P). exists (inner n (outer (along a b) (along a c))). split; [exact P|].
  destruct (along a b) as [[u0 u1] u2], (along a c) as [[v0 v1] v2], n as [[n0 n1] n2]. intros [[w0 w1] w2]. cbn [inner outer] in *.
  set (N0 := u1 * v2 - u2 * v1) in *. set (N1 := u2 * v0 - u0 * v2) in *. set (N2 := u0 * v1 - u1 * v0) in *.
  assert (E2 : N0 * n1 - N1 * n0 = v2 * (n0 * u0 + n1 * u1 + n2 * u2) - u2 * (n0 * v0 + n1 * v1 + n2 * v2)) by (unfold N0, N1, N2; ring).
  assert (E0 : N1 * n2 - N2 * n1 = v0 * (n0 * u0 + n1 * u1 + n2 * u2) - u0 * (n0 * v0 + n1 * v1 + n2 * v2)) by (unfold N0, N1, N2; ring).
  assert (E1 : N2 * n0 - N0 * n2 = v1 * (n0 * u0 + n1 * u1 + n2 * u2) - u1 * (n0 * v0 + n1 * v1 + n2 * v2)) by (unfold N0, N1, N2; ring).
  rewrite H1, H2 in E0, E1, E2. clearbody N0 N1 N2.
  assert (F0 : N0 = (n0 * N0 + n1 * N1 + n2 * N2) * n0).
  { transitivity (N0 * (n0 * n0 + n1 * n1 + n2 * n2)); [rewrite U; ring|].
    transitivity ((n0 * N0 + n1 * N1 + n2 * N2) * n0 + n1 * (N0 * n1 - N1 * n0) - n2 * (N2 * n0 - N0 * n2)); [ring|rewrite E1, E2; ring]. }
  assert (F1 : N1 = (n0 * N0 + n1 * N1 + n2 * N2) * n1).
  { transitivity (N1 * (n0 * n0 + n1 * n1 + n2 * n2)); [rewrite U; ring|].
    transitivity ((n0 * N0 + n1 * N1 + n2 * N2) * n1 - n0 * (N0 * n1 - N1 * n0) + n2 * (N1 * n2 - N2 * n1)); [ring|rewrite E0, E2; ring]. }
  assert (F2 : N2 = (n0 * N0 + n1 * N1 + n2 * N2) * n2).
  { transitivity (N2 * (n0 * n0 + n1 * n1 + n2 * n2)); [rewrite U; ring|].
    transitivity ((n0 * N0 + n1 * N1 + n2 * N2) * n2 + n0 * (N2 * n0 - N0 * n2) - n1 * (N1 * n2 - N2 * n1)); [ring|rewrite E0, E1; ring]. }
  set (l := n0 * N0 + n1 * N1 + n2 * N2) in *. clearbody l. rewrite F0, F1, F2. ring.
Qed.
Lemma points_out_side n t s : unit_normal n t -> (points_out n t s <->
  Forall (fun Q => inner (area_vector t) (along (first_of t) Q) <= 0) (corners s) /\ Exists (fun Q => inner (area_vector t) (along (first_of t) Q) < 0) (corners s)).
Proof.
  intros U. destruct (unit_normal_along _ _ U) as (l & L & E). destruct t as [[P q] r], s as [[[A B] C] D]. cbn [points_out first_of fst corners].
  rewrite !Forall_forall, !Exists_exists. split; intros (H1 & Q & I & H2); (split; [intros Q' I'; specialize (H1 Q' I')|exists Q; split; [exact I|]]);
    rewrite ?E in *; nra.
Qed.
Definition wrong_sense (flip : bool) (s : solid) : Prop := if flip then volume6 s < 0 else 0 < volume6 s.
Lemma face_out (flip : bool) s u v n : In u (faces_of s) -> turned_to (if flip then reversed u else u) v -> unit_normal n v ->
  (right_sense flip s -> points_out n v s) /\ (wrong_sense flip s -> ~ points_out n v s).
Proof.
  intros I T U. destruct (face_side _ _ I) as (F & X). split.
  - intros S. apply (points_out_side n v s U). rewrite !Forall_forall, !Exists_exists in *. destruct X as (Q & IQ & X). split.
    + intros Q' I'. specialize (F Q' I'). rewrite (side_turned _ _ _ T). destruct flip; cbn in S; [rewrite side_reversed|]; lra.
    + exists Q. split; [exact IQ|]. rewrite (side_turned _ _ _ T). destruct flip; cbn in S; [rewrite side_reversed|]; lra.
  - intros S H. apply (points_out_side n v s U) in H. destruct H as (H & _). rewrite !Forall_forall, !Exists_exists in *. destruct X as (Q & IQ & X). specialize (H Q IQ).
    rewrite (side_turned _ _ _ T) in H. destruct flip; cbn in S; [rewrite side_reversed in H|]; lra.
Qed.

(** ** A file *)
Lemma faces_with_snd ss : map snd (faces_with ss) = flat_map faces_of ss.
Proof.
  unfold faces_with. induction ss as [|s ss IH]; [reflexivity|]. cbn [flat_map]. rewrite map_app, map_map, IH. f_equal. cbn [snd]. now rewrite map_id.
Qed.
Lemma faces_with_in ss su : In su (faces_with ss) -> In (fst su) ss /\ In (snd su) (faces_of (fst su)).
Proof. unfold faces_with. rewrite in_flat_map. intros (s & I & J). apply in_map_iff in J. destruct J as (u & <- & J). now split. Qed.
Definition facet_of (flip : bool) (f : facet) (su : solid * triangle) : Prop :=
  turned_to (if flip then reversed (snd su) else snd su) (snd f) /\ unit_normal (fst f) (snd f).
Lemma write_facets (flip : bool) vs ts (sus : list (solid * triangle)) :
  Forall2 (fun t u => exists v, triangle_at vs t v /\ turned_to (if flip then reversed u else u) v) ts (map snd sus) ->
  Forall (fun su => volume6 (fst su) <> 0 /\ In (snd su) (faces_of (fst su))) sus ->
  exists fs, mapM (write_facet vs) ts = Ok fs /\ Forall2 (facet_of flip) fs sus.
Proof.
  revert ts. induction sus as [|su sus IH]; intros ts F G; cbn [map] in F.
  - inversion F; subst. exists []. now split.
  - inversion F as [|t u ts' us' (v & T & R) F']; subst. inversion G as [|x l (V & I) G']; subst. destruct (IH _ F' G') as (fs & E & H).
    assert (P : proper v). { apply (faces_proper (fst su) (snd su)); [exact V|exact I|]. destruct flip; auto. }
    destruct v as [[a b] c]. destruct (compute_normal_proper a b c P) as (n & N & U). exists ((n, (a, b, c)) :: fs). cbn [mapM].
    rewrite (write_facet_at _ _ _ T), N. cbn [bind]. rewrite E. cbn [bind]. split; [reflexivity|]. constructor; [|exact H]. split; [exact R|exact U].
Qed.
Lemma write_mesh flip name vs ts ss : has_extension ".stl" name = true -> mesh_of flip vs ts ss -> Forall (fun s => volume6 s <> 0) ss ->
  exists fs, write_stl name vs ts = Ok (name, fs) /\ Forall2 (facet_of flip) fs (faces_with ss).
Proof.
  intros X M V. unfold mesh_of in M. rewrite <- faces_with_snd in M. destruct (write_facets _ _ _ _ M) as (fs & E & F).
  - apply Forall_forall. intros su I. apply faces_with_in in I. destruct I as (I & J). split; [|exact J]. rewrite Forall_forall in V. now apply V.
  - exists fs. unfold write_stl. rewrite X. cbn [guard bind]. rewrite E. cbn [bind]. now split.
Qed.
