(** * Proofs about [ProbeModel.v]: copies of triangle meshes *)
From Coq Require Import Reals List Lia Lra Sorted.
From Verif Require Import BaseFacts TrModel TrProofs ShapeProofs ShapeProofs3 ClassProofs NetProofs NodalProofs4.
From Verif Require Export ProbeProofs4.
Import ListNotations.

Lemma blocks_length {A B} (f : nat -> A -> B) (a : list A) : forall N s, length (concat (map (fun i => map (f i) a) (seq s N))) = N * length a.
Proof. induction N as [|N IH]; intros s; [reflexivity|]. cbn [seq map concat]. rewrite app_length, IH, map_length. lia. Qed.
Lemma blocks_nth {A B} (f : nat -> A -> B) (a : list A) : forall N s i j, i < N -> j < length a ->
  nth_error (concat (map (fun i => map (f i) a) (seq s N))) (i * length a + j) = option_map (f (s + i)) (nth_error a j).
Proof.
  induction N as [|N IH]; intros s i j Hi Hj; [lia|]. cbn [seq map concat]. destruct i as [|i].
  - rewrite Nat.mul_0_l, Nat.add_0_l, Nat.add_0_r, nth_error_app1 by (now rewrite map_length). apply nth_error_map.
  - rewrite nth_error_app2 by (rewrite map_length; lia). rewrite map_length. replace (S i * length a + j - length a) with (i * length a + j) by lia.
    rewrite IH by lia. now replace (S s + i) with (s + S i) by lia.
Qed.
Lemma blocks_in {A B} (f : nat -> A -> B) (a : list A) N s y : In y (concat (map (fun i => map (f i) a) (seq s N))) <-> exists i x, s <= i < s + N /\ In x a /\ y = f i x.
Proof.
  rewrite in_concat. split.
  - intros (l & Hl & Hy). apply in_map_iff in Hl as (i & <- & Hi). apply in_map_iff in Hy as (x & <- & Hx). apply in_seq in Hi. exists i, x. repeat split; try lia. exact Hx.
  - intros (i & x & Hi & Hx & ->). exists (map (f i) a). split; [apply in_map_iff; exists i; split; [reflexivity|apply in_seq; lia]|now apply in_map].
Qed.

(** ** Points and cells *)
Lemma tile_nat_copies a da N : copies_of_cells a da N (tile_nat a da N).
Proof.
  split; [apply blocks_length|]. intros i j r Hi Hj. unfold tile_nat. rewrite blocks_nth; [|exact Hi|apply nth_error_Some; rewrite Hj; discriminate].
  rewrite Hj. cbn [option_map Nat.add]. f_equal. apply map_ext. intros n. lia.
Qed.
Definition moved (p dp : list R) (i : nat) : list R := map (fun xy => (fst xy + INR i * snd xy)%R) (combine p dp).
Lemma vadd_moved p dp i : length p = length dp -> vadd p (vscale (INR i) dp) = Ok (moved p dp i).
Proof.
  revert dp. induction p as [|x p IH]; intros [|y dp] H; try discriminate H; [reflexivity|].
  specialize (IH dp ltac:(cbn in H; lia)). unfold vadd, vscale, moved in *. cbn [map map2 combine fst snd]. rewrite IH. reflexivity.
Qed.
Lemma moved_nth p dp i d : length p = length dp -> d < length p -> nth d (moved p dp i) 0%R = (nth d p 0 + INR i * nth d dp 0)%R.
Proof.
  revert dp d. induction p as [|x p IH]; intros [|y dp] d H Hd; try discriminate H; cbn in Hd; [lia|]. destruct d as [|d]; [reflexivity|].
  exact (IH dp d ltac:(cbn in H; lia) ltac:(lia)).
Qed.
Lemma tile_points_copies points dp N d : rect d points -> length dp = d ->
  exists ps, tile_points points dp N = Ok ps /\ copies_of_points points dp N ps.
Proof.
  intros Hr Hd. exists (concat (map (fun i => map (fun p => moved p dp i) points) (seq 0 N))). unfold rect in Hr. rewrite Forall_forall in Hr. split.
  - unfold tile_points. rewrite (mapM_map _ (fun i => map (fun p => moved p dp i) points)); [reflexivity|]. intros i _. apply mapM_map. intros p Hp. apply vadd_moved. rewrite (Hr p Hp). symmetry. exact Hd.
  - split; [exact (blocks_length (fun i p => moved p dp i) points N 0)|]. intros i j p Hi Hj. exists (moved p dp i).
    pose proof (Hr p (nth_error_In _ _ Hj)) as Lp. split; [|split].
    + rewrite (blocks_nth (fun i p => moved p dp i) points); [|exact Hi|apply nth_error_Some; rewrite Hj; discriminate]. rewrite Hj. reflexivity.
    + unfold moved. rewrite map_length, combine_length. lia.
    + intros c Hc. apply moved_nth; lia.
Qed.
Lemma populate_ok : forall points topo dp N d,
  rect d points -> length dp = d ->
  exists ps cells, populate_trimesh_T3 points topo dp N = Ok (ps, cells) /\ copies_of_points points dp N ps /\ copies_of_cells topo (length points) N cells.
Proof.
  intros points topo dp N d Hr Hd. destruct (tile_points_copies points dp N d Hr Hd) as (ps & E & H). exists ps, (tile_nat topo (length points) N).
  unfold populate_trimesh_T3, populate_njit. rewrite E. split; [reflexivity|]. split; [exact H|apply tile_nat_copies].
Qed.

(** ** Lines *)
Definition shift (c : nat) (r : list nat) : list nat := map (fun n => n + c) r.
Lemma shift_lex c : forall a b, lex_cmp (shift c a) (shift c b) = lex_cmp a b.
Proof.
  induction a as [|x a IH]; intros [|y b]; try reflexivity. cbn [shift map lex_cmp]. fold (shift c a) (shift c b).
  destruct (Nat.compare_spec x y) as [H|H|H]; destruct (Nat.compare_spec (x + c) (y + c)) as [H'|H'|H']; try lia; try reflexivity. apply IH.
Qed.
Lemma shift_pair c a b : shift c (pair_of a b) = pair_of (a + c) (b + c).
Proof. unfold shift, pair_of. cbn [map]. now rewrite !Nat.add_min_distr_r, !Nat.add_max_distr_r. Qed.
Lemma shift_side c r j a b : side_of r j a b -> side_of (shift c r) j (a + c) (b + c).
Proof. intros (Hj & Ha & Hb). unfold side_of, shift. rewrite !nth_error_map, Ha, Hb. repeat split. exact Hj. Qed.
Lemma side_shift c r j a b : side_of (shift c r) j a b -> exists a0 b0, side_of r j a0 b0 /\ a = a0 + c /\ b = b0 + c.
Proof.
  intros (Hj & Ha & Hb). unfold shift in *. rewrite nth_error_map in Ha, Hb. destruct (nth_error r j) as [a0|] eqn:E1; [|discriminate Ha].
  destruct (nth_error r (match j with 2 => 0 | _ => S j end)) as [b0|] eqn:E2; [|discriminate Hb].
  injection Ha as <-. injection Hb as <-. exists a0, b0. repeat split; assumption.
Qed.
Lemma sorted_app {A} (R : A -> A -> Prop) l1 l2 : StronglySorted R l1 -> StronglySorted R l2 -> (forall x y, In x l1 -> In y l2 -> R x y) -> StronglySorted R (l1 ++ l2).
Proof.
  induction l1 as [|x l1 IH]; intros H1 H2 H; [exact H2|]. inversion H1 as [|? ? H3 H4]; subst. cbn [app]. constructor.
  - apply IH; try assumption. intros a b Ha Hb. apply H; [right; exact Ha|exact Hb].
  - apply Forall_app. split; [exact H4|]. apply Forall_forall. intros y Hy. apply H; [left; reflexivity|exact Hy].
Qed.
Lemma Forall2_app_blocks {A B C D} (P : C -> D -> Prop) (f : nat -> A -> C) (g : nat -> B -> D) (a : list A) (b : list B) : forall N s,
  (forall i, s <= i < s + N -> Forall2 (fun x y => P (f i x) (g i y)) a b) ->
  Forall2 P (concat (map (fun i => map (f i) a) (seq s N))) (concat (map (fun i => map (g i) b) (seq s N))).
Proof.
  induction N as [|N IH]; intros s H; [constructor|]. cbn [seq map concat]. apply Forall2_app.
  - specialize (H s ltac:(lia)). clear -H. induction H; constructor; assumption.
  - apply IH. intros i Hi. apply H. lia.
Qed.
Lemma tile_edges topo e ids nP N : edges_of topo e ids -> Forall (Forall (fun n => n < nP)) topo ->
  edges_of (tile_nat topo nP N) (tile_nat e nP N) (tile_nat ids (length e) N).
Proof.
  intros (Hs & He & Hi) Hn. rewrite Forall_forall in Hn.
  assert (Hpair : forall l, In l e -> exists a b, l = pair_of a b /\ a < nP /\ b < nP).
  { intros l Hl. apply He in Hl as (r & j & a & b & Hr & (Hj & Ha & Hb) & ->). exists a, b. specialize (Hn r Hr). rewrite Forall_forall in Hn.
    split; [reflexivity|]. split; apply Hn; eapply nth_error_In; eassumption. }
  split; [|split].
  - unfold tile_nat. generalize 0. induction N as [|N IH]; intros s; [constructor|]. cbn [seq map concat]. apply sorted_app; [|apply IH|].
    + change (StronglySorted (fun x y => lex_cmp x y = Lt) (map (shift (s * nP)) e)). clear -Hs. induction Hs as [|x l Hs IH Hx]; constructor; [exact IH|].
      rewrite Forall_forall in *. intros y Hy. apply in_map_iff in Hy as (z & <- & Hz). rewrite shift_lex. now apply Hx.
    + intros x y Hx Hy. apply in_map_iff in Hx as (x0 & <- & Hx). apply (blocks_in (fun i => map (fun x => x + i * nP))) in Hy as (i & y0 & Hi' & Hy & ->).
      destruct (Hpair x0 Hx) as (a & b & -> & La & Lb). destruct (Hpair y0 Hy) as (a' & b' & -> & _ & _). unfold pair_of. cbn [map lex_cmp].
      destruct (Nat.compare_spec (Nat.min a b + s * nP) (Nat.min a' b' + i * nP)) as [X|X|X]; [|reflexivity|]; exfalso; nia.
  - intros l. unfold tile_nat at 1. rewrite (blocks_in (fun i => map (fun x => x + i * nP))). split.
    + intros (i & l0 & Hi' & Hl & ->). apply He in Hl as (r & j & a & b & Hr & Hside & ->). exists (shift (i * nP) r), j, (a + i * nP), (b + i * nP).
      split; [|split; [now apply shift_side|apply shift_pair]]. apply (blocks_in (fun i => map (fun x => x + i * nP))). exists i, r. repeat split; try lia. exact Hr.
    + intros (r & j & a & b & Hr & Hside & ->). apply (blocks_in (fun i => map (fun x => x + i * nP))) in Hr as (i & r0 & Hi' & Hr & ->).
      apply side_shift in Hside as (a0 & b0 & Hside & -> & ->). exists i, (pair_of a0 b0). split; [lia|]. split; [apply He; exists r0, j, a0, b0; repeat split; try assumption; apply Hside|].
      symmetry. apply shift_pair.
  - unfold tile_nat at 2 3. apply (Forall2_app_blocks _ (fun i => map (fun x => x + i * nP)) (fun i => map (fun x => x + i * length e))).
    intros i Hi'. clear -Hi Hi'. induction Hi as [|r id topo ids [Lid H] Hi IH]; constructor; [|exact IH]. split; [now rewrite map_length|].
    intros j a b Hside. apply side_shift in Hside as (a0 & b0 & Hside & -> & ->). destruct (H j a0 b0 Hside) as (k & Hk & Hek). exists (k + i * length e).
    rewrite nth_error_map, Hk. split; [reflexivity|]. rewrite (Nat.add_comm k). unfold tile_nat.
    rewrite (blocks_nth (fun i => map (fun x => x + i * nP)) e N 0 i k); [|lia|apply nth_error_Some; rewrite Hek; discriminate]. rewrite Hek. cbn [option_map Nat.add]. f_equal. apply shift_pair.
Qed.
Lemma populate_lines_ok : forall points topo dp N d,
  rect d points -> length dp = d -> Forall (fun r => 3 <= length r) topo -> Forall (Forall (fun n => n < length points)) topo ->
  exists ps edges cells ids, populate_trimesh_T3_lines points topo dp N None None = Ok (ps, edges, cells, ids) /\
    copies_of_points points dp N ps /\ copies_of_cells topo (length points) N cells /\ edges_of cells edges ids.
Proof.
  intros points topo dp N d Hr Hd H3 Hn. destruct (tile_points_copies points dp N d Hr Hd) as (ps & E & H). destruct (mesh_edges_ok topo H3) as (e & ids & Ee & He).
  exists ps, (tile_nat e (length points) N), (tile_nat topo (length points) N), (tile_nat ids (length e) N).
  unfold populate_trimesh_T3_lines, populate_njit. rewrite E. cbn [bind]. rewrite Ee. split; [reflexivity|]. split; [exact H|]. split; [apply tile_nat_copies|]. now apply tile_edges.
Qed.
Lemma populate_given_ok : forall points topo dp N d e ids,
  rect d points -> length dp = d -> edges_of topo e ids -> Forall (Forall (fun n => n < length points)) topo ->
  exists ps edges cells ids', populate_trimesh_T3_lines points topo dp N (Some e) (Some ids) = Ok (ps, edges, cells, ids') /\
    copies_of_points points dp N ps /\ copies_of_cells topo (length points) N cells /\ edges_of cells edges ids'.
Proof.
  intros points topo dp N d e ids Hr Hd He Hn. destruct (tile_points_copies points dp N d Hr Hd) as (ps & E & H).
  exists ps, (tile_nat e (length points) N), (tile_nat topo (length points) N), (tile_nat ids (length e) N).
  unfold populate_trimesh_T3_lines, populate_njit. rewrite E. cbn [bind]. split; [reflexivity|]. split; [exact H|]. split; [apply tile_nat_copies|]. now apply tile_edges.
Qed.
