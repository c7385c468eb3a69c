(** * Proofs about [NodalModel.v]: lines and Jacobian matrices *)
From Coq Require Import Reals Lra Lia List Permutation.
From Verif Require Import QuadProofs4 QuadProofs2.
From Verif Require Import NodalModel NodalSpec BaseFacts FillFacts TrProofs ElevProofs ShapeProofs3 ShapeProofs4 TriProofs3 LocProofs9 NodalProofs NodalProofs2 NodalProofs4 NodalProofs5 NodalProofs7.
Import ListNotations.
Local Open Scope R_scope.

(** ** lengths *)
Lemma ends (ec : list (list R)) d : rect d ec -> ec <> [] -> exists a b, nth_error ec 0 = Some a /\ nth_error ec (length ec - 1) = Some b /\ length a = d /\ length b = d.
Proof.
  intros HR HN. destruct ec as [|a ec]; [easy|]. destruct (nth_error_lt (a :: ec) (length (a :: ec) - 1)) as [b Hb]; [cbn; lia|]. exists a, b. split; [reflexivity|]. split; [exact Hb|]. unfold rect in HR. rewrite Forall_forall in HR. split; apply HR; [now left|eapply nth_error_In; eauto].
Qed.
Lemma length2_value d ec : rect d ec -> ec <> [] -> exists x, length_of_line ec = Ok x /\ chord ec x.
Proof.
  intros HR HN. destruct (ends ec d HR HN) as (a & b & Ha & Hb & La & Lb). exists (dist b a). split; [|exists a, b; auto]. unfold length_of_line. rewrite (proj2 (get_Ok _ _ _) Hb), (proj2 (get_Ok _ _ _) Ha). cbn [bind].
  destruct (norm_dist b a) as (v & H1 & H2); [congruence|]. rewrite H1. exact H2.
Qed.
Lemma lengths_correct : forall d nNE coords topo ecs, mesh_at coords topo ecs -> rect d coords -> rect nNE topo -> (0 < nNE)%nat ->
  exists l, lengths_of_lines coords topo = Ok l /\ lengths_of_lines2 ecs = Ok l /\ Forall2 chord ecs l.
Proof.
  intros d nNE coords topo ecs HM HC HT Hn.
  assert (G : forall nodes ec, In nodes topo -> nodes_at coords nodes ec -> exists x, (do nb <- get nodes (nNE - 1); do na <- get nodes 0; do b <- get coords nb; do a <- get coords na; do d <- vsub b a; norm d) = Ok x /\ length_of_line ec = Ok x /\ chord ec x).
  { intros nodes ec Hin HN. assert (Ln : length nodes = nNE) by (unfold rect in HT; rewrite Forall_forall in HT; auto). assert (Le : length ec = nNE) by (rewrite <- Ln; symmetry; exact (Forall2_len _ _ _ HN)).
    assert (HR : rect d ec). { apply Forall_forall. intros p Hp. apply In_nth_error in Hp. destruct Hp as (j & Hj). destruct (Forall2_nth_error_r _ _ _ _ _ HN Hj) as (n & _ & Hp). exact (rect_nth d coords n p HC Hp). }
    assert (HNe : ec <> []) by (intros ->; cbn in Le; lia). destruct (length2_value d ec HR HNe) as (x & Ex & Hx). exists x. split; [|auto]. rewrite <- Ex.
    destruct (ends ec d HR HNe) as (a & b & Ha & Hb & _). destruct (Forall2_nth_error_r _ _ _ _ _ HN Ha) as (na & Hna & Hna'). destruct (Forall2_nth_error_r _ _ _ _ _ HN Hb) as (nb & Hnb & Hnb'). rewrite Le in Hnb.
    rewrite (proj2 (get_Ok _ _ _) Hnb), (proj2 (get_Ok _ _ _) Hna). cbn [bind]. rewrite (proj2 (get_Ok _ _ _) Hnb'), (proj2 (get_Ok _ _ _) Hna'). cbn [bind]. unfold length_of_line. rewrite (proj2 (get_Ok _ _ _) Hb), (proj2 (get_Ok _ _ _) Ha). reflexivity. }
  unfold lengths_of_lines, lengths_of_lines2. destruct topo as [|nodes0 topo0] eqn:Et; [inversion HM; subst; exists []; repeat split; constructor|]. rewrite (rect_ncols nNE (nodes0 :: topo0) HT) by discriminate. rewrite <- Et in *. clear Et HT. revert G.
  induction HM as [|nodes ec t es H HM IH]; intros G; [exists []; repeat split; constructor|]. destruct (G nodes ec (or_introl eq_refl) H) as (x & E1 & E2 & Hx). destruct IH as (l & F1 & F2 & Hl); [intros n e Hin; apply G; now right|].
  exists (x :: l). cbn [mapM]. rewrite E1, E2. cbn [bind]. rewrite F1, F2. split; [reflexivity|]. split; [reflexivity|now constructor].
Qed.
Lemma distances_value : forall d coords, rect d coords -> exists l, distances_of_points coords = Ok l /\ length l = length coords /\
  (forall x, nth_error l 0 = Some x -> x = 0) /\
  forall i a b, nth_error coords i = Some a -> nth_error coords (S i) = Some b -> nth_error l (S i) = Some (dist b a).
Proof.
  intros d coords HR. unfold distances_of_points. set (f := fun i : nat => _).
  assert (G : forall i a b, nth_error coords i = Some a -> nth_error coords (S i) = Some b -> f (S i) = Ok (dist b a)).
  { intros i a b Ha Hb. unfold f. cbn [Nat.eqb]. rewrite (proj2 (get_Ok _ _ _) Hb). cbn [bind]. rewrite Nat.sub_succ, Nat.sub_0_r, (proj2 (get_Ok _ _ _) Ha). cbn [bind]. destruct (norm_dist b a) as (v & H1 & H2); [rewrite (rect_nth d coords i a HR Ha), (rect_nth d coords _ b HR Hb); reflexivity|]. rewrite H1. exact H2. }
  destruct (mapM_total f (seq 0 (length coords))) as [l El].
  { intros [|i] Hi; [exists 0; reflexivity|]. apply in_seq in Hi. destruct (nth_error_lt coords i) as [a Ha]; [lia|]. destruct (nth_error_lt coords (S i)) as [b Hb]; [lia|]. exists (dist b a). now apply G. }
  exists l. split; [exact El|]. split; [rewrite (mapM_length _ _ _ El); apply seq_length|]. split.
  - intros x Hx. destruct (mapM_nth_error_r _ _ _ _ _ El Hx) as (i & Hi & E). apply nth_error_seq_some in Hi. destruct Hi as [-> _]. unfold f in E. cbn in E. congruence.
  - intros i a b Ha Hb. assert (Hi : nth_error (seq 0 (length coords)) (S i) = Some (S i)) by (apply nth_error_seq; eapply nth_error_Some_lt; eauto). destruct (mapM_nth_error _ _ _ _ _ El Hi) as (x & Hx & E). rewrite Hx. f_equal. rewrite (G i a b Ha Hb) in E. congruence.
Qed.

Lemma line_value d (a b : list R) p : length a = d -> length b = d -> exists q, vadd (vscale (1 - p) a) (vscale p b) = Ok q /\ on_line a b p q.
Proof.
  intros La Lb. destruct (vadd_R d (vscale (1 - p) a) (vscale p b)) as (q & E & L & V); [now rewrite vscale_length|now rewrite vscale_length|]. exists q. split; [exact E|]. split; [congruence|]. intros k Hk. unfold at_. rewrite V, !vscale_nth. reflexivity.
Qed.
Lemma cell_points d pts ec : rect d ec -> ec <> [] -> exists qs, mapM (fun p => do a <- get ec 0; do b <- get ec (length ec - 1); vadd (vscale (1 - p) a) (vscale p b)) pts = Ok qs /\ Forall2 (on_chord ec) pts qs.
Proof.
  intros HR HN. destruct (ends ec d HR HN) as (a & b & Ha & Hb & La & Lb). apply mapM_Forall2. intros p _. rewrite (proj2 (get_Ok _ _ _) Ha), (proj2 (get_Ok _ _ _) Hb). cbn [bind]. destruct (line_value d a b p La Lb) as (q & E & H). exists q. split; [exact E|]. exists a, b. auto.
Qed.
Lemma pcoords_value : forall d pts ecs, Forall (fun ec => rect d ec /\ ec <> []) ecs -> exists rows, pcoords_to_coords_1d pts ecs = Ok (concat rows) /\ rect (length pts) rows /\ Forall2 (fun ec qs => Forall2 (on_chord ec) pts qs) ecs rows.
Proof.
  intros d pts ecs HF. unfold pcoords_to_coords_1d.
  destruct (mapM_Forall2 (fun ec => mapM (fun p => do a <- get ec 0; do b <- get ec (length ec - 1); vadd (vscale (1 - p) a) (vscale p b)) pts) (fun ec qs => Forall2 (on_chord ec) pts qs) ecs) as (rows & E & H).
  { intros ec Hec. rewrite Forall_forall in HF. destruct (HF ec Hec) as [HR HN]. now apply (cell_points d). }
  exists rows. rewrite E. split; [reflexivity|]. split; [|exact H]. apply Forall_forall. intros qs Hqs. apply In_nth_error in Hqs. destruct Hqs as (i & Hi). destruct (Forall2_nth_error_r _ _ _ _ _ H Hi) as (ec & _ & H2). symmetry. exact (Forall2_len _ _ _ H2).
Qed.
(** between the ends for ratios between 0 and 1 *)
Lemma on_line_hull d a b p q : length a = d -> length b = d -> on_line a b p q -> 0 <= p <= 1 -> in_hull d [a; b] q.
Proof.
  intros La Lb [L V] Hp. exists [1 - p; p]. split; [|constructor; [lra|constructor; [lra|constructor]]]. split; [reflexivity|]. split; [cbn; lra|]. intros k Hk. unfold weighted. cbn [combine map fold_right fst snd]. rewrite V by lia. lra.
Qed.
Lemma on_line_ends a b q : length b = length a -> (on_line a b 0 q <-> q = a) /\ (on_line a b 1 q <-> q = b) /\ (on_line a b (-1) q -> q = a -> a = b).
Proof.
  intros HL. split; [|split].
  - split; [intros [L V]|intros ->; split; [reflexivity|intros; ring]]. apply (nth_ext q a 0 0); [exact L|]. intros k Hk. specialize (V k). unfold at_ in V. rewrite V by lia. ring.
  - split; [intros [L V]|intros ->; split; [exact HL|intros; ring]]. apply (nth_ext q b 0 0); [congruence|]. intros k Hk. specialize (V k). unfold at_ in V. rewrite V by lia. ring.
  - intros [L V] ->. apply (nth_ext a b 0 0); [congruence|]. intros k Hk. specialize (V k Hk). unfold at_ in V. lra.
Qed.
(** the documented range of the local coordinates is [-1, 1] *)
Lemma pcoords_range : exists ec q, pcoords_to_coords_1d [-1] [ec] = Ok [q] /\ (exists a b, ec = [a; b] /\ q <> a /\ q <> b /\ ~ in_hull 1 [a; b] q).
Proof.
  exists [[0]; [1]], [-1]. split; [unfold pcoords_to_coords_1d; cbn; repeat f_equal; ring|]. exists [0], [1]. split; [reflexivity|]. split; [intros E; injection E; lra|]. split; [intros E; injection E; lra|].
  intros (l & (H1 & H2 & H3) & H4). destruct l as [|x [|y [|z l]]]; try discriminate. specialize (H3 0%nat (Nat.lt_0_succ 0)). cbn in H2, H3. inversion H4 as [|? ? P1 H5]; subst. inversion H5 as [|? ? P2 _]; subst. lra.
Qed.

Lemma mesh_ecs d nNE coords topo ecs : mesh_at coords topo ecs -> rect d coords -> rect nNE topo -> (0 < nNE)%nat ->
  cells_coords coords topo = Ok ecs /\ Forall (fun ec => rect d ec /\ ec <> []) ecs.
Proof.
  intros HM HC HT Hn. split.
  - unfold cells_coords. apply mapM_Ok. apply (Forall2_weak (nodes_at coords)); [|exact HM]. intros r ec H. apply mapM_Ok. apply (Forall2_weak (fun n p => nth_error coords n = Some p)); [|exact H]. intros n p Hp. now apply get_Ok.
  - apply Forall_forall. intros ec Hec. destruct (mesh_cells coords topo ecs d nNE HM HC HT ec Hec) as [L Rr]. split; [exact Rr|]. intros ->. cbn in L. lia.
Qed.
Lemma Forall2_map_l {A B C} (f : A -> B) (P : B -> C -> Prop) : forall l r, Forall2 P (map f l) r -> Forall2 (fun x y => P (f x) y) l r.
Proof. induction l as [|x l IH]; intros r H; inversion H; subst; constructor; auto. Qed.
Lemma range_value pts r0 r1 : r0 <> r1 -> mapM (fun x => to_range_1d x r0 r1 0 1) pts = Ok (map (fun x => (x - r0) / (r1 - r0)) pts).
Proof.
  intros H. apply mapM_map. intros x _. unfold to_range_1d, div. destruct (Req_EM_T (r1 - r0) 0) as [E|_]; [exfalso; lra|]. cbn [bind]. f_equal. lra.
Qed.
(** what is returned when points are given *)
Lemma points_given : forall lcoords d nNE coords topo ecs ids pts rng r0 r1, mesh_at coords topo ecs -> rect d coords -> rect nNE topo -> (0 < nNE)%nat ->
  match rng with None => (0, 1) | Some r => r end = (r0, r1) -> r0 <> r1 ->
  exists rows, points_of_lines lcoords coords topo ids (Some pts) rng None = Ok rows /\ Forall2 (fun ec qs => Forall2 (fun x q => on_chord ec ((x - r0) / (r1 - r0)) q) pts qs) ecs rows.
Proof.
  intros lcoords d nNE coords topo ecs ids pts rng r0 r1 HM HC HT Hn Hr Hne. unfold points_of_lines. destruct (mesh_ecs d nNE coords topo ecs HM HC HT Hn) as [E HF]. rewrite E. cbn [bind]. rewrite Hr. rewrite (range_value pts r0 r1 Hne). cbn [bind].
  destruct (pcoords_value d (map (fun x => (x - r0) / (r1 - r0)) pts) ecs HF) as (rows & Er & HR & HQ). rewrite Er. cbn [bind]. exists rows. split.
  - rewrite <- (reshape_concat (length (map (fun x => (x - r0) / (r1 - r0)) pts)) rows HR) at 2. rewrite (Forall2_len _ _ _ HQ). reflexivity.
  - eapply Forall2_weak; [|exact HQ]. intros ec qs H. exact (Forall2_map_l _ _ _ _ H).
Qed.
Lemma points_none : forall lcoords coords topo ecs ids rng, mesh_at coords topo ecs -> points_of_lines lcoords coords topo ids None rng None = Ok ecs.
Proof.
  intros lcoords coords topo ecs ids rng HM. unfold points_of_lines, cells_coords. assert (E : mapM (mapM (get coords)) topo = Ok ecs).
  { apply mapM_Ok. apply (Forall2_weak (nodes_at coords)); [|exact HM]. intros r ec H. apply mapM_Ok. apply (Forall2_weak (fun n p => nth_error coords n = Some p)); [|exact H]. intros n p Hp. now apply get_Ok. }
  rewrite E. reflexivity.
Qed.
(** selected cells, when the ids of the cells are their positions in the block *)
Lemma filter_all {A} (f : A -> bool) l : (forall x, In x l -> f x = true) -> filter f l = l.
Proof. induction l as [|x l IH]; intros H; [reflexivity|]. cbn. rewrite H by now left. f_equal. apply IH. intros; apply H; now right. Qed.
Lemma points_selected : forall lcoords d nNE coords topo ecs pts rng r0 r1 cs, mesh_at coords topo ecs -> rect d coords -> rect nNE topo -> (0 < nNE)%nat ->
  match rng with None => (0, 1) | Some r => r end = (r0, r1) -> r0 <> r1 -> (forall c, In c cs -> (c < length topo)%nat) ->
  exists rows, points_of_lines lcoords coords topo (seq 0 (length topo)) (Some pts) rng (Some cs) = Ok rows /\
    Forall2 (fun c qs => exists ec, nth_error ecs c = Some ec /\ Forall2 (fun x q => on_chord ec ((x - r0) / (r1 - r0)) q) pts qs) cs rows.
Proof.
  intros lcoords d nNE coords topo ecs pts rng r0 r1 cs HM HC HT Hn Hr Hne Hcs. unfold points_of_lines. destruct (mesh_ecs d nNE coords topo ecs HM HC HT Hn) as [E HF]. rewrite E. cbn [bind].
  rewrite filter_all by (intros c Hc; apply existsb_exists; exists c; split; [apply in_seq; specialize (Hcs c Hc); lia|apply Nat.eqb_refl]).
  assert (L : length ecs = length topo) by (symmetry; exact (Forall2_len _ _ _ HM)).
  destruct (mapM_Forall2 (get ecs) (fun c ec => nth_error ecs c = Some ec) cs) as (sel & Es & Hs). { intros c Hc. destruct (nth_error_lt ecs c) as [ec Hec]; [rewrite L; auto|]. exists ec. split; [now apply get_Ok|exact Hec]. }
  unfold take. rewrite Es. cbn [bind]. rewrite Hr, (range_value pts r0 r1 Hne). cbn [bind].
  assert (HF' : Forall (fun ec => rect d ec /\ ec <> []) sel). { apply Forall_forall. intros ec Hec. apply In_nth_error in Hec. destruct Hec as (i & Hi). destruct (Forall2_nth_error_r _ _ _ _ _ Hs Hi) as (c & _ & Hc). rewrite Forall_forall in HF. apply HF. eapply nth_error_In; eauto. }
  destruct (pcoords_value d (map (fun x => (x - r0) / (r1 - r0)) pts) sel HF') as (rows & Er & HR & HQ). rewrite Er. cbn [bind]. exists rows. split.
  - rewrite <- (reshape_concat (length (map (fun x => (x - r0) / (r1 - r0)) pts)) rows HR) at 2. rewrite (Forall2_len _ _ _ HQ). reflexivity.
  - clear - Hs HQ. revert rows HQ. induction Hs as [|c ec cs sel H Hs IH]; intros rows HQ; inversion HQ as [|? qs ? rows' H1 H2]; subst; constructor; [|now apply IH].
    exists ec. split; [exact H|]. exact (Forall2_map_l _ _ _ _ H1).
Qed.
(** the ids of the cells are used as positions in the block *)
Lemma points_ids_wrong : exists coords topo ids, (length ids = length topo)%nat /\ rect 2 coords /\ rect 2 topo /\ (forall n, used topo n -> (n < length coords)%nat) /\ In 1%nat ids /\
  points_of_lines [-1; 1] coords topo ids (Some [0]) None (Some [1%nat]) = Err IndexError.
Proof.
  exists [[0; 0]; [1; 0]], [[0%nat; 1%nat]], [1%nat]. split; [reflexivity|]. split; [repeat constructor|]. split; [repeat constructor|]. split; [|split; [now left|reflexivity]].
  intros n (i & j & r & Hr & Hj). destruct i as [|i]; [|destruct i; discriminate]. injection Hr as <-. destruct j as [|[|j]]; cbn in Hj; [injection Hj as <-; cbn; lia|injection Hj as <-; cbn; lia|destruct j; discriminate].
Qed.
Lemma points_ids_other : exists coords topo ids rows, (length ids = length topo)%nat /\ NoDup ids /\ nth_error ids 0 = Some 1%nat /\
  points_of_lines [-1; 1] coords topo ids (Some [0]) None (Some [1%nat]) = Ok rows /\ exists q, rows = [[q]] /\ q = [5] /\ mesh_at coords topo [[[0]; [1]]; [[5]; [6]]].
Proof.
  exists [[0]; [1]; [5]; [6]], [[0; 1]; [2; 3]]%nat, [1; 2]%nat. eexists. split; [reflexivity|]. split; [repeat constructor; cbn; lia|]. split; [reflexivity|]. split.
  - unfold points_of_lines. match goal with |- context [cells_coords ?a ?b] => change (cells_coords a b) with (Ok [[[0]; [1]]; [[5]; [6]]] : res (list (list (list R)))) end. cbn [bind].
    match goal with |- context [take ?a ?b] => change (take a b) with (Ok [[[5]; [6]]] : res (list (list (list R)))) end. cbn [bind]. rewrite range_value by lra. cbn - [Rminus Rdiv Rmult Rplus]. reflexivity.
  - eexists. split; [reflexivity|]. split; [f_equal; field|]. repeat constructor.
Qed.
(** two nodes: the nodes are reproduced; three nodes: the middle node is replaced *)
Lemma points_L2 : forall d coords topo ecs cs, mesh_at coords topo ecs -> rect d coords -> rect 2 topo -> (forall c, In c cs -> (c < length topo)%nat) ->
  exists rows, points_of_lines [-1; 1] coords topo (seq 0 (length topo)) None None (Some cs) = Ok rows /\ rows_at ecs cs rows.
Proof.
  intros d coords topo ecs cs HM HC HT Hcs. destruct (points_selected [-1; 1] d 2 coords topo ecs [-1; 1] (Some (-1, 1)) (-1) 1 cs HM HC HT) as (rows & E & HQ); [lia|reflexivity|lra|exact Hcs|].
  exists rows. split; [exact E|]. unfold rows_at. eapply Forall2_weak; [|exact HQ]. intros c qs H.
  destruct H as (ec & Hec & HF). rewrite Hec. f_equal. destruct (mesh_cells coords topo ecs d 2 HM HC HT ec (nth_error_In _ _ Hec)) as [L Rr]. destruct ec as [|a [|b [|? ?]]]; try discriminate L. inversion Rr as [|? ? La Rr']; subst. inversion Rr' as [|? ? Lb _]; subst.
  inversion HF as [|? q0 ? qs0 H0 HF0]; subst. inversion HF0 as [|? q1 ? qs1 H1 HF1]; subst. inversion HF1; subst.
  destruct H0 as (a0 & b0 & A0 & B0 & H0). destruct H1 as (a1 & b1 & A1 & B1 & H1). cbn in A0, B0, A1, B1. injection A0 as <-. injection B0 as <-. injection A1 as <-. injection B1 as <-.
  replace ((-1 - -1) / (1 - -1)) with 0 in H0 by field. replace ((1 - -1) / (1 - -1)) with 1 in H1 by field. destruct (on_line_ends a b q0 Lb) as [P0 _]. destruct (on_line_ends a b q1 Lb) as (_ & P1 & _). rewrite (proj1 P0 H0), (proj1 P1 H1). reflexivity.
Qed.
Lemma points_L3_wrong : exists coords topo ecs rows, mesh_at coords topo ecs /\ rect 2 coords /\ rect 3 topo /\ points_of_lines [-1; 0; 1] coords topo [0%nat] None None (Some [0%nat]) = Ok rows /\ rows <> ecs.
Proof.
  set (coords := [[0; 0]; [1; 1]; [2; 0]]). set (ecs := [coords]). assert (HM : mesh_at coords [[0; 1; 2]%nat] ecs) by repeat constructor.
  destruct (points_selected [-1; 0; 1] 2 3 coords [[0; 1; 2]%nat] ecs [-1; 0; 1] (Some (-1, 1)) (-1) 1 [0%nat] HM) as (rows & E & HQ); [repeat constructor|repeat constructor|lia|reflexivity|lra|intros c [<-|[]]; cbn; lia|].
  exists coords, [[0; 1; 2]%nat], ecs, rows. split; [exact HM|]. split; [repeat constructor|]. split; [repeat constructor|]. split; [exact E|]. intros ->.
  inversion HQ as [|? ? ? ? (ec & Hec & HF) _]; subst. injection Hec as <-. inversion HF as [|? ? ? ? _ HF1]; subst. inversion HF1 as [|? ? ? ? H1 _]; subst. destruct H1 as (a & b & A & B & L & V). cbn in A, B. injection A as <-. injection B as <-. specialize (V 1%nat). cbn in V. assert (1 = (1 - (0 - -1) / (1 - -1)) * 0 + (0 - -1) / (1 - -1) * 0) by (apply V; lia). lra.
Qed.

(** ** Jacobian matrices *)
Lemma jacobian_correct : forall dim n shp dshp pts ds ecs, differentiates dim n shp dshp -> (0 < n)%nat -> rect dim pts -> mapM dshp pts = Ok ds -> Forall (fun ec => length ec = n /\ rect dim ec) ecs ->
  exists J, jacobian_matrix_bulk dim ds ecs = Ok J /\ Forall2 (fun ec Je => Forall2 (fun p M => length M = dim /\ rect dim M /\
      forall d a, (d < dim)%nat -> (a < dim)%nat -> derivable_pt_lim (fun x => position shp ec a (replace_nth d x p)) (nth d p 0) (at_ a (nth d M []))) pts Je) ecs J.
Proof.
  intros dim n shp dshp pts ds ecs HD Hn HP Hds HE. unfold jacobian_matrix_bulk. apply mapM_Forall2. intros ec Hec. rewrite Forall_forall in HE. destruct (HE ec Hec) as [Lec Rec]. assert (HNe : ec <> []) by (intros ->; cbn in Lec; lia).
  apply mapM_Ok in Hds. revert HP. induction Hds as [|p D pts ds E Hds IH]; intros HP; [exists []; split; [reflexivity|constructor]|]. inversion HP as [|? ? Hp HP']; subst. destruct (IH HP') as (Js & EJ & HJ).
  destruct (HD p eq_refl) as (D' & E' & LD & RD & _). rewrite E in E'. injection E' as <-.
  set (f := fun d : nat => do _ <- guard (Nat.eqb (ncols ec) (length p)) ValueError; do col <- mapM (fun row : list R => get row d) D; vecmat col ec). assert (G : forall d, (d < length p)%nat -> exists v, f d = Ok v /\ length v = length p /\ forall a, at_ a v = dot (column D d) (column ec a)).
  { intros d Hd. unfold f. rewrite (rect_ncols (length p) ec Rec HNe), Nat.eqb_refl. cbn [guard bind]. rewrite (get_column D (length p)) by assumption. cbn [bind]. apply vecmat_value; [unfold column; rewrite map_length; congruence|assumption|assumption]. }
  destruct (mapM_total f (seq 0 (length p))) as [M EM]. { intros d Hd. apply in_seq in Hd. destruct (G d) as (v & Ev & _); [lia|]. eauto. }
  exists (M :: Js). cbn [mapM]. fold f. rewrite EM. cbn [bind]. rewrite EJ. split; [reflexivity|]. constructor; [|exact HJ]. split; [rewrite (mapM_length _ _ _ EM); apply seq_length|].
  assert (V : forall d, (d < length p)%nat -> exists v, nth_error M d = Some v /\ length v = length p /\ forall a, at_ a v = dot (column D d) (column ec a)).
  { intros d Hd. destruct (mapM_nth_error _ _ _ d d EM) as (v & Hv & Ev); [now apply nth_error_seq|]. destruct (G d Hd) as (v' & Ev' & L & W). rewrite Ev in Ev'. injection Ev' as <-. eauto. }
  split.
  - apply Forall_forall. intros v Hv. apply In_nth_error in Hv. destruct Hv as (d & Hd). destruct (V d) as (v' & Hv' & L & _); [rewrite <- (seq_length (length p) 0), <- (mapM_length _ _ _ EM); eapply nth_error_Some_lt; eauto|]. congruence.
  - intros d a Hd Ha. destruct (V d Hd) as (v & Hv & _ & W). rewrite (nth_error_nth M d [] Hv), W, dot_comm. pose proof (position_diff (length p) (length ec) shp dshp ec p a d) as PD. unfold QuadProofs4.entry, dvalues in PD. rewrite E in PD. apply PD; auto.
Qed.
(** coordinates and derivatives of different dimension, for example surfaces in space *)
Lemma jacobian_shape : forall nD m ds dss ec ecs, (0 < nD)%nat -> rect m ec -> ec <> [] -> m <> nD -> jacobian_matrix_bulk nD (ds :: dss) (ec :: ecs) = Err ValueError.
Proof.
  intros nD m ds dss ec ecs HnD HR HN Hne. unfold jacobian_matrix_bulk. destruct nD as [|nD]; [lia|]. cbn [mapM seq]. rewrite (rect_ncols m ec HR HN). replace (Nat.eqb m (S nD)) with false by (symmetry; now apply Nat.eqb_neq). reflexivity.
Qed.
Lemma det_1d_value : forall nP d ecs, Forall (fun ec => rect d ec /\ ec <> []) ecs -> exists jac rows, jacobian_matrix_bulk_1d nP ecs = Ok jac /\ jacobian_det_bulk_1d jac = Ok rows /\ Forall2 (fun ec row => exists x, chord ec x /\ row = repeat (x / 2) nP) ecs rows.
Proof.
  intros nP d ecs HF. unfold jacobian_matrix_bulk_1d, lengths_of_lines2. destruct (mapM_Forall2 length_of_line chord ecs) as (l & E & HL). { intros ec Hec. rewrite Forall_forall in HF. destruct (HF ec Hec) as [HR HN]. now apply (length2_value d). }
  rewrite E. cbn [bind]. do 2 eexists. split; [reflexivity|]. split.
  - unfold jacobian_det_bulk_1d. apply mapM_Ok. assert (G : forall l : list R, Forall2 (fun j row => mapM (fun j => get2 j 0 0) j = Ok row) (map (fun x => repeat [[x / 2]] nP) l) (map (fun x => repeat (x / 2) nP) l)).
    { induction l0 as [|x l0 IH]; constructor; [|exact IH]. clear. induction nP as [|n IH]; [reflexivity|]. cbn [repeat mapM]. cbn [get2 get nth_error bind] in *. rewrite IH. reflexivity. }
    apply G.
  - clear - HL. induction HL as [|ec x ecs l H HL IH]; constructor; [|exact IH]. exists x. auto.
Qed.
(** lines with two nodes: the jacobian is the speed of the local-to-global map *)
Lemma speed_L2 : forall d a b x, length a = d -> length b = d -> chord [a; b] x ->
  exists v, length v = d /\ (forall k s, (k < d)%nat -> derivable_pt_lim (fun s => position shp_L2 [a; b] k [s]) s (at_ k v)) /\ sqrt (sprod v v) = x / 2.
Proof.
  intros d a b x La Lb (a' & b' & Ha & Hb & ->). cbn in Ha, Hb. injection Ha as <-. injection Hb as <-.
  exists (map (fun ab => (fst ab - snd ab) / 2) (combine b a)). assert (L : length (combine b a) = d) by (rewrite combine_length; lia). split; [now rewrite map_length|]. split.
  - intros k s Hk. destruct (nth_error_lt a k) as [ak Hak]; [lia|]. destruct (nth_error_lt b k) as [bk Hbk]; [lia|].
    assert (Hc : nth_error (combine b a) k = Some (bk, ak)). { clear - Hak Hbk. revert b k Hak Hbk. induction a as [|y a IH]; intros [|z b] [|k] Hak Hbk; try discriminate; cbn in *; [congruence|]. now apply IH. }
    unfold at_. rewrite (nth_error_nth _ k 0 (x := (bk - ak) / 2)) by (now rewrite nth_error_map, Hc).
    apply (dlim_ext (fun s => (ak + bk) / 2 + (bk - ak) / 2 * s)).
    + intros y. unfold position, shp_L2. numR. unfold dot, rsum. cbn [map combine fold_right fst snd]. rewrite (nth_error_nth a k 0 Hak), (nth_error_nth b k 0 Hbk). field.
    + assert (H : derivable_pt_lim (fun s => (ak + bk) / 2 + (bk - ak) / 2 * s) s (0 + (bk - ak) / 2 * 1)).
      { apply (derivable_pt_lim_plus (fun _ => (ak + bk) / 2) (fun s => (bk - ak) / 2 * s)); [apply derivable_pt_lim_const|]. apply (derivable_pt_lim_scal (fun s => s)). apply derivable_pt_lim_id. }
      replace (0 + (bk - ak) / 2 * 1) with ((bk - ak) / 2) in H by ring. exact H.
  - replace (sprod (map (fun ab => (fst ab - snd ab) / 2) (combine b a)) (map (fun ab => (fst ab - snd ab) / 2) (combine b a))) with (dist2 b a * (/ 2 * / 2)).
    + rewrite sqrt_mult_alt; [|unfold dist2; clear; induction (combine b a) as [|[u v] l IH]; cbn; [lra|]; pose proof (Rle_0_sqr (u - v)); unfold Rsqr in *; lra]. rewrite sqrt_square by lra. reflexivity.
    + unfold sprod, dist2. clear. induction (combine b a) as [|[u v] l IH]; cbn [map combine fold_right fst snd]; [lra|]. rewrite <- IH. field.
Qed.
(** lines with three nodes, not evenly spaced: the derivative of the interpolating parabola is not half of the length *)
Lemma speed_L3_wrong : exists x0 x1 x2 (q : R -> R) c0 c1 c2, (forall s, q s = c0 + c1 * s + c2 * (s * s)) /\ q (-1) = x0 /\ q 0 = x1 /\ q 1 = x2 /\ x0 < x1 < x2 /\
  (exists jac, jacobian_matrix_bulk_1d 1 [[[x0]; [x1]; [x2]]] = Ok jac /\ jacobian_det_bulk_1d jac = Ok [[1]]) /\ derivable_pt_lim q (-1) 2.
Proof.
  exists 0, (3 / 2), 2, (fun s => 3 / 2 + 1 * s + (- 1 / 2) * (s * s)), (3 / 2), 1, (- 1 / 2). split; [reflexivity|]. split; [lra|]. split; [lra|]. split; [lra|]. split; [lra|]. split.
  - destruct (det_1d_value 1 1 [[[0]; [3 / 2]; [2]]]) as (jac & rows & E1 & E2 & HF); [repeat constructor; discriminate|]. exists jac. split; [exact E1|]. rewrite E2. f_equal. inversion HF as [|? ? ? ? (x & (a & b & Ha & Hb & ->) & ->) HF1]; subst. inversion HF1; subst. cbn in Ha, Hb. injection Ha as <-. injection Hb as <-.
    cbn [repeat]. repeat f_equal. unfold dist, dist2. cbn [combine map fold_right fst snd]. replace ((2 - 0) * (2 - 0) + 0) with (2 * 2) by ring. rewrite sqrt_square by lra. lra.
  - apply (dlim_ext (fun s => 3 / 2 + (1 * s + - 1 / 2 * (s * s)))); [intros; ring|]. 
    assert (H : derivable_pt_lim (fun s => 3 / 2 + (1 * s + - 1 / 2 * (s * s))) (-1) (0 + (1 * 1 + - 1 / 2 * (1 * -1 + -1 * 1)))); [|replace (0 + (1 * 1 + - 1 / 2 * (1 * -1 + -1 * 1))) with 2 in H by field; exact H].
    apply (derivable_pt_lim_plus (fun _ => 3 / 2) (fun s => 1 * s + - 1 / 2 * (s * s))); [apply derivable_pt_lim_const|]. apply (derivable_pt_lim_plus (fun s => 1 * s) (fun s => - 1 / 2 * (s * s))); [apply (derivable_pt_lim_scal (fun s => s)); apply derivable_pt_lim_id|].
    apply (derivable_pt_lim_scal (fun s => s * s)). apply (derivable_pt_lim_mult (fun s => s) (fun s => s)); apply derivable_pt_lim_id.
Qed.
