(** * Splitting along tables given by the caller *)
From Coq Require Import Lia List.
From Verif Require Import Base BaseFacts TrModel TrSpec TrProofs TrProofs2 TrProofs3 SplitSpec SplitProofs TableModel TableSpec TableProofs2 SplitSpec2.
Import ListNotations.

Lemma corners_T6 : forall {C A} (z : A) (coords : C) topo, rect 6 topo ->
  T6_to_T3 z false coords topo DNone PNone = Ok (coords, (map (firstn 3) topo, DNone)).
Proof.
  intros C A z coords topo H. unfold T6_to_T3. rewrite (split_pieces_along z 3 _ None coords 6 topo PNone [[0;1;2]]); [|reflexivity|exact H|check_path].
  do 3 f_equal. unfold pieces_along. induction H as [|c topo Hc _ IH]; [reflexivity|]. cbn [flat_map map app]. f_equal; [|exact IH].
  explode Hc. reflexivity.
Qed.
Lemma corners_H27 : forall {C A} (z : A) (coords : C) topo, rect 27 topo ->
  H27_to_H8 z false coords topo DNone PNone = Ok (coords, (map (firstn 8) topo, DNone)).
Proof.
  intros C A z coords topo H. unfold H27_to_H8. rewrite (split_pieces_along z 8 _ None coords 27 topo PNone [[0;1;2;3;4;5;6;7]]); [|reflexivity|exact H|check_path].
  do 3 f_equal. unfold pieces_along. induction H as [|c topo Hc _ IH]; [reflexivity|]. cbn [flat_map map app]. f_equal; [|exact IH].
  explode Hc. reflexivity.
Qed.
Lemma corners_W18 : forall {C A} (z : A) (coords : C) topo, rect 18 topo ->
  W18_to_W6 z false coords topo DNone PNone = Ok (coords, (map (firstn 6) topo, DNone)).
Proof.
  intros C A z coords topo H. unfold W18_to_W6. rewrite (split_pieces_along z 6 _ None coords 18 topo PNone [[0;1;2;3;4;5]]); [|reflexivity|exact H|check_path].
  do 3 f_equal. unfold pieces_along. induction H as [|c topo Hc _ IH]; [reflexivity|]. cbn [flat_map map app]. f_equal; [|exact IH].
  explode Hc. reflexivity.
Qed.

Lemma split_given {C A} (z : A) n dflt grid (coords : C) w topo path : rect w topo -> path <> [] -> rect n path ->
  (forall p q, In p path -> In q p -> q < w) ->
  split_cells z n dflt grid coords topo DNone (PArr path) = Ok (coords, (pieces_along path topo, DNone)).
Proof.
  intros Hw Hne Hr Hq. apply (split_pieces_along z n dflt grid coords w topo (PArr path) path); [|exact Hw|split; [now exists n|exact Hq]].
  cbn [choose_path]. destruct path as [|r path]; [easy|]. inversion Hr; subst. cbn [ncols]. now rewrite Nat.eqb_refl.
Qed.
Lemma split_rejects {C A} (z : A) n dflt grid (coords : C) topo data m path : path <> [] -> rect m path -> m <> n ->
  split_cells z n dflt grid coords topo data (PArr path) = Err AssertionError.
Proof.
  intros Hne Hr Hm. unfold split_cells. cbn [choose_path]. destruct path as [|r path]; [easy|]. inversion Hr; subst. cbn [ncols].
  destruct (Nat.eqb_spec (length r) n); [contradiction|]. reflexivity.
Qed.
Ltac all_splitters H := unfold splitters in H; cbn [In] in H;
  repeat (destruct H as [H|H]; [injection H as <- <-|]); [..|contradiction].
Lemma given_table : forall {C A} (z : A) (coords : C) n f w topo path, In (n, f) (splitters z) ->
  rect w topo -> path <> [] -> rect n path -> (forall p q, In p path -> In q p -> q < w) ->
  f coords topo DNone (PArr path) = Ok (coords, (pieces_along path topo, DNone)).
Proof.
  intros C A z coords n f w topo path H. all_splitters H; apply split_given.
Qed.
Lemma wrong_table : forall {C A} (z : A) (coords : C) n f topo data m path, In (n, f) (splitters z) ->
  path <> [] -> rect m path -> m <> n -> f coords topo data (PArr path) = Err AssertionError.
Proof.
  intros C A z coords n f topo data m path H. all_splitters H; apply split_rejects.
Qed.

(** ** Edges *)
Ltac all_edges H := unfold edge_functions in H; cbn [In] in H;
  repeat (destruct H as [H|H]; [injection H as <- <- <-|]); [..|contradiction].
Lemma edges_default : forall {C A} (coords : C) w r f topo, In (w, r, f) (edge_functions (C := C) (A := A)) -> rect w topo ->
  exists es, f coords topo DNone PNone = Ok (coords, es) /\ edges_listed (usual_edges w) topo es.
Proof.
  intros C A coords w r f topo H Hw. all_edges H; cbn [usual_edges];
  unfold T3_to_L2_with, TET4_to_L2_with, H8_to_L2_with, edges_with; cbn [bind].
  - apply (cells_to_L2_ok 3 edgeIds_T3 coords topo Hw). valid_edges.
  - apply (cells_to_L2_ok 4 edgeIds_TET4 coords topo Hw). valid_edges.
  - apply (cells_to_L2_ok 8 edgeIds_H8 coords topo Hw). valid_edges.
Qed.
Lemma edges_given : forall {C A} (coords : C) w r f topo path, In (w, r, f) (edge_functions (C := C) (A := A)) -> rect w topo ->
  length path = r -> rect 2 path -> (forall p q, In p path -> In q p -> q < w) ->
  exists es, f coords topo DNone (PArr path) = Ok (coords, es) /\ edges_listed path topo es.
Proof.
  intros C A coords w r f topo path H Hw Hl Hr Hq.
  assert (Hv : valid_path w path) by (split; [now exists 2|exact Hq]).
  destruct (cells_to_L2_ok w path coords topo Hw Hv) as (es & E & H1 & H2 & H3).
  exists es. split; [|split; [exact H1|split; [exact H2|exact H3]]]. rewrite <- E.
  assert (Hc : path <> [] -> ncols path = 2) by (intros Hne; destruct path; [easy|now inversion Hr]).
  all_edges H; unfold T3_to_L2_with, TET4_to_L2_with, H8_to_L2_with, edges_with; rewrite Hl, Nat.eqb_refl; cbn [guard bind];
  rewrite Hc by (intros ->; discriminate); reflexivity.
Qed.
Lemma edges_wrong : forall {C A} (coords : C) w r f topo data m path, In (w, r, f) (edge_functions (C := C) (A := A)) ->
  path <> [] -> rect m path -> length path <> r \/ m <> 2 -> f coords topo data (PArr path) = Err AssertionError.
Proof.
  intros C A coords w r f topo data m path H Hne Hr Hd.
  assert (Hc : ncols path = m) by (destruct path; [easy|now inversion Hr]).
  all_edges H; unfold T3_to_L2_with, TET4_to_L2_with, H8_to_L2_with, edges_with;
  (match goal with |- context [Nat.eqb (length path) ?r] => destruct (Nat.eqb_spec (length path) r) as [E|E] end; [|reflexivity]);
  cbn [guard bind]; rewrite Hc; (destruct (Nat.eqb_spec m 2) as [E2|E2]; [exfalso; destruct Hd; contradiction|reflexivity]).
Qed.
Lemma edges_refused : forall {C A} (coords : C) w r f topo (data : data_arg A), In (w, r, f) (edge_functions (C := C) (A := A)) ->
  (data <> DNone -> f coords topo data PNone = Err NotImplementedError) /\
  f coords topo data PGrid = Err NotImplementedError /\ f coords topo data PStr = Err NotImplementedError.
Proof.
  intros C A coords w r f topo data H. all_edges H; (split; [|split; reflexivity]); intros Hd; destruct data; try reflexivity; contradiction.
Qed.
