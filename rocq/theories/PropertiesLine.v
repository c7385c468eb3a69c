(** * Property C50: lines divided into segments *)
From Coq Require Import Reals Lra Lia List Permutation.
From Verif Require Import BaseFacts LineModel LineSpec LineProofs LineProofs2.
Import ListNotations.
Local Open Scope R_scope.

(** Two nodes per segment, floating point coordinates: each line is divided into N segments of equal length that form a chain from its first to its last node; the given points stay, each new point belongs to one line only, frames are repeated.  Missing: integer coordinates and more nodes per segment (refuted below). *)
Theorem C50_partial :
  forall {F} its coords topo N d (frames : list F), (1 <= N)%nat -> Permutation (list_prod (seq 1 N) (seq 1 2)) its -> rect d coords ->
  (forall row, In row topo -> exists a b, ends row a b /\ (a < length coords)%nat /\ (b < length coords)%nat) -> length frames = length topo ->
  exists c ts, mesh1d_core its Floating coords topo 2 N frames = Ok (c, ts, map (fun f => repeat f N) frames) /\
    length c = (length coords + length topo * (N - 1))%nat /\ (forall n, (n < length coords)%nat -> nth_error c n = nth_error coords n) /\ length ts = length topo /\
    (forall i row t a b, nth_error topo i = Some row -> ends row a b -> nth_error ts i = Some t ->
      length t = N /\ (forall s, In s t -> length s = 2%nat) /\ (forall n, used t n -> (n < length c)%nat) /\ entry t 0 0 a /\ entry t (N - 1) 1 b /\
      (forall k n, entry t k 1 n -> (k + 1 < N)%nat -> entry t (k + 1) 0 n) /\
      (forall k n m x, entry t k 0 n -> entry t k 1 m -> coord c m x - coord c n x = (coord coords b x - coord coords a x) / INR N)) /\
    (forall n, (length coords <= n < length c)%nat -> exists i, (exists t, nth_error ts i = Some t /\ used t n) /\ forall j, (exists t, nth_error ts j = Some t /\ used t n) -> j = i).
Proof. exact @segments. Qed.
Print Assumptions C50_partial.
(** Integer coordinates 0 and 1: all the new points are put at 0. *)
Theorem C50_integral_refuted :
  forall {F} its N (f : F), (2 <= N)%nat -> Permutation (list_prod (seq 1 N) (seq 1 2)) its ->
  exists c ts fr, mesh1d_core its Integral [[0]; [1]] [[0; 1]%nat] 2 N [f] = Ok (c, ts, fr) /\ length c = (N + 1)%nat /\ forall n, (2 <= n < N + 1)%nat -> nth_error c n = Some [0].
Proof. exact @segments_integral. Qed.
Print Assumptions C50_integral_refuted.
(** Three or more nodes per segment: never a result, the new points are written behind the end of the array. *)
Theorem C50_nodes_refuted :
  forall {F} its dt coords topo e N (frames : list F), (1 <= N)%nat -> (3 <= e)%nat -> topo <> [] -> Permutation (list_prod (seq 1 N) (seq 1 e)) its ->
  forall r, mesh1d_core its dt coords topo e N frames <> Ok r.
Proof. exact @segments_more. Qed.
Print Assumptions C50_nodes_refuted.
(** The module cannot be imported: frames_of_lines is not in polymesh.space. *)
Theorem C50_import_refuted :
  forall {F} its dt coords topo e N (frames : list F), mesh1d_uniform its dt coords topo e N frames = Err ImportError.
Proof. reflexivity. Qed.
Print Assumptions C50_import_refuted.

(** a corner of two lines, three segments each *)
Example C50_ex : exists its, Permutation (list_prod (seq 1 3) (seq 1 2)) its /\ rect 2 [[0;0];[3;0];[3;6]] /\
  (forall row, In row [[0;1];[1;2]]%nat -> exists a b, ends row a b /\ (a < 3)%nat /\ (b < 3)%nat) /\
  exists c, mesh1d_core its Floating [[0;0];[3;0];[3;6]] [[0;1];[1;2]]%nat 2 3 [7;8]%nat = Ok (c, [[[0;3];[3;4];[4;1]]; [[1;5];[5;6];[6;2]]], [[7;7;7];[8;8;8]])%nat.
Proof.
  exists (list_prod (seq 1 3) (seq 1 2)). split; [reflexivity|].
  assert (HR : rect 2 [[0;0];[3;0];[3;6]]) by (repeat constructor). split; [exact HR|].
  assert (HE : forall row, In row [[0;1];[1;2]]%nat -> exists a b, ends row a b /\ (a < 3)%nat /\ (b < 3)%nat).
  { intros row [<-|[<-|[]]]; [exists 0%nat, 1%nat|exists 1%nat, 2%nat]; repeat split; lia. }
  split; [exact HE|].
  eexists. apply (mesh1d_value _ Floating [[0;0];[3;0];[3;6]] [[0;1];[1;2]]%nat 3 [7;8]%nat); [lia|reflexivity|repeat constructor; (discriminate || cbn; lia)|cbn; lia].
Qed.
