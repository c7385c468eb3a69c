(** * Proofs about [NetModel.v] *)
From Coq Require Import Reals List Sorted Permutation Lia Lra Bool.
From Verif Require TileProofs TileProofs3.
From Verif Require Import BaseFacts TopoProofs TopoProofs3 TopoProofs5 LocProofs8 TableSpec TableProofs NetSpec.
Import ListNotations.
Local Open Scope nat_scope.

Lemma enum_from_nth {A} (l : list A) : forall s i, nth_error (enum_from s l) i = option_map (fun x => (s + i, x)) (nth_error l i).
Proof.
  induction l as [|x l IH]; intros s [|i]; cbn [enum_from nth_error option_map]; [reflexivity|reflexivity|now rewrite Nat.add_0_r|].
  rewrite IH. destruct (nth_error l i); cbn [option_map]; [|reflexivity]. f_equal. f_equal. lia.
Qed.
Lemma lines_entity rows i j e : entity (knn_to_lines rows) i j e <-> exists r n, nth_error rows i = Some r /\ nth_error r j = Some n /\ e = [i; n].
Proof.
  unfold entity, knn_to_lines, enum. split.
  - intros (c & Hc & He). rewrite nth_error_map, enum_from_nth in Hc. destruct (nth_error rows i) as [r|]; [|discriminate Hc]. cbn [option_map] in Hc. injection Hc as <-. cbn [fst snd] in He. rewrite nth_error_map in He.
    destruct (nth_error r j) as [n|] eqn:En; [|discriminate He]. cbn [option_map] in He. injection He as <-. eauto.
  - intros (r & n & Hr & Hn & ->). eexists. split; [rewrite nth_error_map, enum_from_nth, Hr; reflexivity|]. cbn [fst snd]. rewrite nth_error_map, Hn. reflexivity.
Qed.
Lemma pair_sorted a b x : Permutation [a; b] x -> StronglySorted le x -> x = [Nat.min a b; Nat.max a b].
Proof.
  intros Hp Hs. pose proof (Permutation_length Hp) as Hl. destruct x as [|c [|d [|? ?]]]; try discriminate Hl. inversion Hs as [|? ? _ Hf]; subst. inversion Hf as [|? ? Hcd _]; subst.
  apply Permutation_length_2 in Hp as [[-> ->]|[-> ->]]; f_equal; [lia|f_equal; lia|lia|f_equal; lia].
Qed.
Lemma min_max_perm a b : Permutation [a; b] [Nat.min a b; Nat.max a b].
Proof. destruct (Nat.le_ge_cases a b); [rewrite Nat.min_l, Nat.max_r by lia; reflexivity|rewrite Nat.min_r, Nat.max_l by lia; apply perm_swap]. Qed.
Lemma sorted_filter {A} (R : A -> A -> Prop) f l : StronglySorted R l -> StronglySorted R (filter f l).
Proof.
  intros H. induction H as [|x l Hs IH Hf]; [constructor|]. cbn [filter]. destruct (f x); [|exact IH]. constructor; [exact IH|]. apply Forall_forall. intros y Hy. apply filter_In in Hy. rewrite Forall_forall in Hf. now apply Hf.
Qed.
Lemma lines_found rows : exists us ids, unique_topo_data (knn_to_lines rows) = Ok (us, ids) /\ lines_of rows (filter proper_line us).
Proof.
  destruct (unique_topo_data_ok (knn_to_lines rows)) as (us & ids & E & Hs & Hsort & _ & Hall & Hin). exists us, ids. split; [exact E|]. split; [now apply sorted_filter|]. intros l. rewrite filter_In. split.
  - intros [Hl Hp]. destruct (Hin l Hl) as (i & j & e & He & Hpm). apply lines_entity in He as (r & n & Hr & Hn & ->). pose proof (pair_sorted i n l Hpm (Hsort l Hl)) as ->. cbn [proper_line last] in Hp. apply negb_true_iff, Nat.eqb_neq in Hp.
    exists (Nat.min i n), (Nat.max i n). split; [reflexivity|]. split; [lia|]. assert (lists_neighbour rows i n) by (exists r; split; [exact Hr|now apply nth_error_In in Hn]).
    destruct (Nat.le_ge_cases i n); [left; now rewrite Nat.min_l, Nat.max_r by lia|right; now rewrite Nat.min_r, Nat.max_l by lia].
  - intros (a & b & -> & Hab & Hn). assert (G : exists i n, lists_neighbour rows i n /\ i <> n /\ [a; b] = [Nat.min i n; Nat.max i n]).
    { destruct Hn as [Hn|Hn]; [exists a, b|exists b, a]; (split; [exact Hn|]); (split; [lia|]); f_equal; try lia; f_equal; lia. }
    destruct G as (i & n & (r & Hr & Hn') & Hne & ->). split; [|cbn [proper_line last]; apply negb_true_iff, Nat.eqb_neq; lia].
    apply In_nth_error in Hn' as [j Hj]. destruct (Hall i j [i; n]) as (k & x & _ & Hx & Hp); [apply lines_entity; eauto|]. apply nth_error_In in Hx. rewrite <- (pair_sorted i n x Hp (Hsort x Hx)). exact Hx.
Qed.
Lemma rows_same : forall t t', same_shape t t' -> (forall i j n, entry t i j n -> entry t' i j n) -> t' = t.
Proof.
  induction t as [|r t IH]; intros [|r' t'] Hs He; try discriminate Hs; [reflexivity|]. unfold same_shape in Hs. cbn [map] in Hs. injection Hs as Hl Hs. f_equal.
  - symmetry. apply nth_error_ext. intros j. destruct (nth_error r j) as [n|] eqn:E.
    + destruct (He 0 j n) as (x & Hx & Hn); [exists r; now split|]. injection Hx as <-. now symmetry.
    + apply nth_error_None in E. symmetry. apply nth_error_None. lia.
  - apply IH; [exact Hs|]. intros i j n (x & Hx & Hn). apply (He (S i) j n). exists x. now split.
Qed.
Lemma take_all {A} (X : list A) c : take X (seq 0 (length X)) = Ok c -> c = X.
Proof.
  intros H. apply nth_error_ext. intros i. destruct (Nat.lt_ge_cases i (length X)) as [Hi|Hi].
  - destruct (take_nth _ _ _ i i H) as (x & -> & ->); [|reflexivity]. now rewrite nth_error_seq.
  - rewrite !(proj2 (nth_error_None _ _)); [reflexivity|exact Hi|]. apply take_length in H. rewrite seq_length in H. lia.
Qed.
Lemma detach_nothing {A} (X : list A) t : (forall n, used t n <-> n < length X) -> detach_mesh_bulk X t = Ok (X, t).
Proof.
  intros H. destruct (detach_bulk_ok X t) as (c & t' & inds & E & [Hs Hu] & [Hsh Hl] & Hc); [intros; now apply H|].
  assert (inds = seq 0 (length X)) as ->. { apply TileProofs.sorted_unique; [exact Hs|apply seq_sorted|]. intros n. rewrite Hu, H, in_seq. lia. }
  rewrite E. f_equal. f_equal; [now apply take_all|]. apply rows_same; [exact Hsh|]. intros i j n He. destruct (Hl i j n He) as (k & Hk & Hn). apply nth_error_seq_some in Hn. assert (k = n) as <- by lia. exact Hk.
Qed.
Lemma used_in t n : used t n <-> exists r, In r t /\ In n r.
Proof. rewrite entry_in_concat, in_concat. reflexivity. Qed.
Lemma other_neighbour (a : nat) : forall row, NoDup row -> 2 <= length row -> exists b, In b row /\ b <> a.
Proof.
  intros [|b [|c l]] Hn Hl; cbn [length] in Hl; try lia. inversion Hn as [|? ? Hb _]; subst. destruct (Nat.eq_dec b a) as [->|]; [|exists b; split; [left; reflexivity|assumption]].
  exists c. split; [right; left; reflexivity|]. intros ->. apply Hb. left. reflexivity.
Qed.
Lemma nearest_rows X k rows n : Forall2 (fun x row => nearest X x k row) X rows -> n < length X -> exists r, nth_error rows n = Some r /\ length r = k /\ NoDup r /\ Forall (fun i => i < length X) r.
Proof.
  intros H. assert (G : forall Y rows, Forall2 (fun x row => nearest X x k row) Y rows -> forall n, n < length Y -> exists r, nth_error rows n = Some r /\ length r = k /\ NoDup r /\ Forall (fun i => i < length X) r).
  { clear. intros Y rows H. induction H as [|x r Y rows Hr HH IH]; intros n Hn; cbn [length] in Hn; [lia|]. destruct n as [|n]; [|apply IH; lia]. exists r. destruct Hr as (H1 & H2 & H3 & _). now repeat split. }
  now apply G.
Qed.
Lemma nearest_listed X k rows a b : Forall2 (fun x row => nearest X x k row) X rows -> lists_neighbour rows a b -> a < length X /\ b < length X.
Proof.
  intros H (r & Hr & Hb). assert (Ha : a < length X). { rewrite (TileProofs3.Forall2_len _ _ _ H). apply nth_error_Some. congruence. }
  split; [exact Ha|]. destruct (nearest_rows X k rows a H Ha) as (r' & Hr' & _ & _ & HF). rewrite Hr in Hr'. injection Hr' as <-. rewrite Forall_forall in HF. now apply HF.
Qed.
Lemma lines_degree rows t n r : lines_of rows t -> nth_error rows n = Some r -> NoDup r -> length r - 1 <= length (filter (at_node n) t).
Proof.
  intros [_ Ht] Hr Hnd. set (g := fun b => [Nat.min n b; Nat.max n b]). set (o := filter (fun b => negb (Nat.eqb n b)) r).
  assert (Ho : length r - 1 <= length o).
  { clear -Hnd. unfold o. clear o. induction Hnd as [|x l Hx Hn IH]; [cbn; lia|]. cbn [filter length]. destruct (Nat.eqb_spec n x) as [<-|]; cbn [negb length]; [|lia].
    assert (filter (fun b => negb (Nat.eqb n b)) l = l) as ->; [|lia]. clear -Hx. induction l as [|y l IH]; [reflexivity|]. cbn [filter]. destruct (Nat.eqb_spec n y) as [<-|]; [exfalso; apply Hx; now left|]. cbn [negb]. rewrite IH; [reflexivity|]. intros H. apply Hx. now right. }
  etransitivity; [exact Ho|]. rewrite <- (map_length g o). apply NoDup_incl_length.
  -
    assert (Hno : NoDup o) by now apply NoDup_filter. assert (Hne : forall b, In b o -> b <> n). { intros b Hb. apply filter_In in Hb as [_ Hb]. apply negb_true_iff, Nat.eqb_neq in Hb. congruence. }
    clear -Hno Hne. induction Hno as [|x l Hx Hn IH]; [constructor|]. cbn [map]. constructor; [|apply IH; intros b Hb; apply Hne; now right].
    intros Hi. apply in_map_iff in Hi as (y & Hy & Hi). unfold g in Hy. injection Hy as H1 H2. assert (y = x) as -> by lia. contradiction.
  - intros l Hl. apply in_map_iff in Hl as (b & <- & Hb). apply filter_In in Hb as [Hb Hnb]. apply negb_true_iff, Nat.eqb_neq in Hnb. apply filter_In. assert (lists_neighbour rows n b) by (exists r; now split). split.
    + apply Ht. exists (Nat.min n b), (Nat.max n b). split; [reflexivity|]. split; [lia|]. destruct (Nat.le_ge_cases n b); [left; now rewrite Nat.min_l, Nat.max_r by lia|right; now rewrite Nat.min_r, Nat.max_l by lia].
    + unfold at_node, g. cbn [existsb]. destruct (Nat.eqb_spec n (Nat.min n b)), (Nat.eqb_spec n (Nat.max n b)); cbn; try reflexivity. lia.
Qed.
Lemma knn_grid query X k d : nearest_query query -> 2 <= k -> k <= length X ->
  exists rows t, knngridL2 query false X k d = Ok (X, t) /\ Forall2 (fun x row => nearest X x k row) X rows /\ lines_of rows t /\ forall n, n < length X -> k - 1 <= length (filter (at_node n) t).
Proof.
  intros Hq H2 Hk. destruct (knn_nearest query X X k Hq Hk) as (rows & E & HF); [lia|]. destruct (lines_found rows) as (us & ids & Eu & Ht). exists rows, (filter proper_line us).
  assert (Hdeg : forall n, n < length X -> k - 1 <= length (filter (at_node n) (filter proper_line us))).
  { intros n Hn. destruct (nearest_rows X k rows n HF Hn) as (r & Hr & <- & Hnd & _). now apply (lines_degree rows). }
  split; [|split; [exact HF|split; [exact Ht|exact Hdeg]]]. unfold knngridL2. change (k_nearest_neighbours query false X X k d) with (k_nearest_neighbours query false X X k None). rewrite E. cbv beta iota. rewrite Eu. cbn [bind fst].
  apply detach_nothing. intros n. rewrite used_in. split.
  - intros (l & Hl & Hn). apply Ht in Hl as (a & b & -> & _ & Hab). destruct Hab as [Hab|Hab]; destruct (nearest_listed X k rows _ _ HF Hab); destruct Hn as [<-|[<-|[]]]; assumption.
  - intros Hn. specialize (Hdeg n Hn). destruct (filter (at_node n) (filter proper_line us)) as [|l f] eqn:Ef; [cbn in Hdeg; lia|]. assert (Hl : In l (filter (at_node n) (filter proper_line us))) by (rewrite Ef; now left). apply filter_In in Hl as [Hl Ha]. exists l. split; [exact Hl|]. unfold at_node in Ha. apply existsb_exists in Ha as (m & Hm & Hnm). apply Nat.eqb_eq in Hnm. now subst.
Qed.
Lemma knn_grid_long query d : nearest_query query -> (0 <= d)%R ->
  exists X t a b, knngridL2 query false X 2 (Some d) = Ok (X, t) /\ In [a; b] t /\ (d < dist (nth a X []) (nth b X []))%R.
Proof.
  intros Hq Hd. exists [[0%R]; [(d + 1)%R]]. destruct (knn_grid query [[0%R]; [(d + 1)%R]] 2 (Some d) Hq) as (rows & t & E & HF & [_ Ht] & Hdeg); [lia|cbn; lia|]. exists t, 0, 1. split; [exact E|]. split.
  - specialize (Hdeg 0). cbn [length] in Hdeg. specialize (Hdeg ltac:(lia)). destruct (filter (at_node 0) t) as [|l f] eqn:Ef; [cbn in Hdeg; lia|]. assert (Hl : In l (filter (at_node 0) t)) by (rewrite Ef; now left). apply filter_In in Hl as [Hl _]. pose proof Hl as Hl'. apply Ht in Hl as (a & b & -> & Hab & Hn).
    assert (a < 2 /\ b < 2) as [Ha Hb]. { destruct Hn as [Hn|Hn]; destruct (nearest_listed _ _ _ _ _ HF Hn) as [H1 H2]; cbn [length] in H1, H2; split; assumption. }
    assert (a = 0) as -> by lia. assert (b = 1) as -> by lia. exact Hl'.
  - unfold dist, dist2. cbn [nth combine map fold_right fst snd]. replace ((0 - (d + 1)) * (0 - (d + 1)) + 0)%R with (Rsqr (d + 1)) by (unfold Rsqr; ring). rewrite sqrt_Rsqr by lra. lra.
Qed.
Lemma knn_grid_one query old X d : knngridL2 query old X 1 d = Err TypeError.
Proof. reflexivity. Qed.
Lemma knn_grid_missing query X k d i y : k <> 1 -> nth_error X i = Some y -> In (length X) (query X y k (Some d)) ->
  exists e, knngridL2 query true X k (Some d) = Err e.
Proof.
  intros Hk Hy Hq. unfold knngridL2, k_nearest_neighbours. replace (Nat.eqb k 1) with false by (symmetry; now apply Nat.eqb_neq). cbv beta iota zeta. set (rows := map (fun y => query X y k (Some d)) X).
  destruct (lines_found rows) as (us & ids & Eu & [_ Ht]). rewrite Eu. cbn [bind fst]. assert (Hi : i < length X) by (apply nth_error_Some; congruence).
  apply (detach_bulk_out_of_range X _ (length X)); [|lia]. apply used_in. exists [i; length X]. split; [|right; left; reflexivity]. apply Ht. exists i, (length X). split; [reflexivity|]. split; [exact Hi|]. left. exists (query X y k (Some d)). split; [unfold rows; now rewrite nth_error_map, Hy|exact Hq].
Qed.

(** ** Edges of triangles *)

Lemma edges_tri_any topo : Forall (fun r => 3 <= length r) topo -> table_of sides_T3 topo (edges_tri topo).
Proof.
  intros H. unfold table_of, edges_tri, assign_columns. apply mapM_map. intros cell Hc. rewrite Forall_forall in H. specialize (H cell Hc). do 3 (destruct cell as [|? cell]; [cbn in H; lia|]). reflexivity.
Qed.
Lemma triangle_sides r : 3 <= length r -> forall j e, nth_error (map (fun ns => reorder ns r) sides_T3) j = Some e <-> exists a b, side_of r j a b /\ e = [a; b].
Proof.
  intros H j e. do 3 (destruct r as [|? r]; [cbn in H; lia|]). cbn [map sides_T3 reorder nth]. split.
  - intros He. destruct j as [|[|[|j]]]; cbn [nth_error] in He; try (injection He as <-; eexists _, _; split; [split; [lia|split; reflexivity]|reflexivity]). destruct j; discriminate He.
  - intros (a & b & (Hj & Ha & Hb) & ->). destruct j as [|[|[|j]]]; [..|lia]; cbn [nth_error] in *; congruence.
Qed.
Lemma mesh_edges_ok topo : Forall (fun r => 3 <= length r) topo -> exists e ids, mesh_edges topo = Ok (e, ids) /\ edges_of topo e ids.
Proof.
  intros H. pose proof (edges_tri_any topo H) as E. unfold table_of in E. set (t3 := map (fun cell => map (fun ns => reorder ns cell) sides_T3) topo) in E. destruct (unique_topo_data_ok t3) as (us & ids & Eu & Hs & Hsort & Hlen & Hall & Hin).
  exists us, ids. split; [unfold mesh_edges; rewrite E; cbn [bind]; exact Eu|]. rewrite Forall_forall in H.
  assert (Hent : forall i j e, entity t3 i j e <-> exists r a b, nth_error topo i = Some r /\ side_of r j a b /\ e = [a; b]).
  { intros i j e. unfold entity, t3. split.
    - intros (c & Hc & He). rewrite nth_error_map in Hc. destruct (nth_error topo i) as [r|] eqn:Er; [|discriminate Hc]. cbn [option_map] in Hc. injection Hc as <-. apply triangle_sides in He as (a & b & Hab & ->); [|apply H; now apply nth_error_In in Er]. exists r, a, b. split; [reflexivity|]. split; [exact Hab|reflexivity].
    - intros (r & a & b & Hr & Hab & ->). eexists. split; [rewrite nth_error_map, Hr; reflexivity|]. apply triangle_sides; [apply H; now apply nth_error_In in Hr|]. eauto. }
  split; [exact Hs|]. split.
  - intros l. split.
    + intros Hl. destruct (Hin l Hl) as (i & j & e & He & Hp). apply Hent in He as (r & a & b & Hr & Hab & ->). exists r, j, a, b. split; [now apply nth_error_In in Hr|]. split; [exact Hab|]. now apply pair_sorted; [|apply Hsort].
    + intros (r & j & a & b & Hr & Hab & ->). apply In_nth_error in Hr as [i Hr]. destruct (Hall i j [a; b]) as (k & x & _ & Hx & Hp); [apply Hent; exists r, a, b; split; [exact Hr|]; split; [exact Hab|reflexivity]|]. apply nth_error_In in Hx. unfold pair_of. now rewrite <- (pair_sorted a b x Hp (Hsort x Hx)).
  - assert (L : length topo = length ids). { apply (f_equal (@length nat)) in Hlen. rewrite !map_length in Hlen. unfold t3 in Hlen. rewrite map_length in Hlen. congruence. }
    assert (G : forall i r id, nth_error topo i = Some r -> nth_error ids i = Some id -> length id = 3 /\ forall j a b, side_of r j a b -> exists k, nth_error id j = Some k /\ nth_error us k = Some (pair_of a b)).
    { intros i r id Hr Hid. split.
      - apply (f_equal (fun l => nth_error l i)) in Hlen. rewrite !nth_error_map, Hid in Hlen. unfold t3 in Hlen. rewrite nth_error_map, Hr in Hlen. cbn [option_map map sides_T3 length] in Hlen. congruence.
      - intros j a b Hab. destruct (Hall i j [a; b]) as (k & x & (id' & Hid' & Hk) & Hx & Hp); [apply Hent; exists r, a, b; split; [exact Hr|]; split; [exact Hab|reflexivity]|]. rewrite Hid in Hid'. injection Hid' as <-. exists k. split; [exact Hk|]. unfold pair_of. rewrite Hx. f_equal. apply pair_sorted; [exact Hp|]. apply Hsort. now apply nth_error_In in Hx. }
    clear -L G. revert ids L G. induction topo as [|r topo IH]; intros [|id ids] L G; try discriminate L; constructor; [apply (G 0); reflexivity|]. apply IH; [now injection L|]. intros i. apply (G (S i)).
Qed.
Lemma pair_in m a b : In m (pair_of a b) <-> m = a \/ m = b.
Proof. unfold pair_of. cbn [In]. lia. Qed.
Lemma corners_common topo e ids i a b c r id : edges_of topo e ids -> nth_error topo i = Some (a :: b :: c :: r) -> nth_error ids i = Some id -> NoDup [a; b; c] ->
  exists k k' k'', id = [k; k'; k''] /\ common e k'' k a /\ common e k k' b /\ common e k' k'' c.
Proof.
  intros (_ & _ & HF) Ht Hid Hnd. assert (G : length id = 3 /\ forall j x y, side_of (a :: b :: c :: r) j x y -> exists k, nth_error id j = Some k /\ nth_error e k = Some (pair_of x y)).
  { clear Hnd. revert i Ht Hid. induction HF as [|x y t u Hxy _ IH]; intros [|i] Ht Hid; try discriminate Ht; [|now apply (IH i)]. injection Ht as ->. injection Hid as ->. exact Hxy. }
  destruct G as [Hl G]. destruct id as [|k [|k' [|k'' [|]]]]; try discriminate Hl. exists k, k', k''. split; [reflexivity|].
  destruct (G 0 a b) as (x & Hx & H0); [split; [lia|split; reflexivity]|]. destruct (G 1 b c) as (x1 & Hx1 & H1); [split; [lia|split; reflexivity]|]. destruct (G 2 c a) as (x2 & Hx2 & H2); [split; [lia|split; reflexivity]|].
  cbn [nth_error] in *. injection Hx as <-. injection Hx1 as <-. injection Hx2 as <-.
  inversion Hnd as [|? ? Ha Hnd']; subst. inversion Hnd' as [|? ? Hb _]; subst. cbn [In] in Ha, Hb.
  split; [|split]; (eexists _, _; split; [eassumption|]; split; [eassumption|]); intros m; rewrite !pair_in; lia.
Qed.
Lemma mesh_edges_short r topo : length r < 3 -> exists x, mesh_edges (r :: topo) = Err x.
Proof.
  intros H. unfold mesh_edges, edges_tri, assign_columns. destruct r as [|a [|b [|c r]]]; [..|cbn in H; lia]; eexists; reflexivity.
Qed.
