(** * Proofs about what is shown: places, data *)
From Coq Require Import Reals String List Lia Arith Bool Permutation.
From Verif Require Import Base BaseFacts TopoSpec TopoProofs3 TopoProofs5 MeshSpec FrameProofs MeshProofs MeshProofs2 MeshProofs5 IncidenceProofs DisplaySpec DisplayProofs.
From Verif Require NodalProofs2 NodalProofs4.
Import ListNotations.
Local Open Scope nat_scope.

(** ** Places of the cells of meshes with points in the root *)
Lemma grid_at_places X topo g ps : grid_shows X topo g -> Forall2 (Forall2 (fun n q => nth_error X n = Some q)) topo ps -> grid_at g ps.
Proof.
  intros (t & Er & Hs & He & _) HF. exists t. split; [exact Er|]. assert (L : length t = length topo) by (rewrite <- (map_length (@length nat) t), <- Hs; apply map_length).
  clear Er. revert t ps HF Hs He L. induction topo as [|r topo IH]; intros [|r' t] ps HF Hs He L; try discriminate L; inversion HF as [|? qs ? ps' Hq HF']; subst; constructor.
  - unfold same_shape in Hs. cbn [map] in Hs. injection Hs as Hl _. assert (G : forall j n, nth_error r j = Some n -> exists n', nth_error r' j = Some n' /\ nth_error (vpoints g) n' = nth_error X n).
    { intros j n Hj. destruct (He 0 j n) as (n' & (r0 & Hr0 & Hn') & E); [exists r; split; [reflexivity|exact Hj]|]. cbn in Hr0. injection Hr0 as <-. eauto. }
    clear -Hq Hl G. revert r' Hl G. induction Hq as [|n q r qs Hnq _ IHr]; intros [|n' r'] Hl G; try discriminate; constructor.
    + destruct (G 0 n eq_refl) as (x & Ex & E). cbn in Ex. injection Ex as <-. congruence.
    + apply IHr; [now injection Hl|]. intros j y Hj. exact (G (S j) y Hj).
  - apply IH; [exact HF'| | |now injection L].
    + unfold same_shape in *. cbn [map] in Hs. now injection Hs.
    + intros i j n (s & H1 & H2). destruct (He (S i) j n) as (n' & (s' & H3 & H4) & E); [exists s; auto|]. exists n'. split; [exists s'; auto|exact E].
Qed.
Lemma split_places {A B} (P : A -> B -> Prop) (tss : list (list A)) : forall ps, Forall2 P (concat tss) ps -> exists pss, concat pss = ps /\ Forall2 (Forall2 P) tss pss.
Proof.
  induction tss as [|t tss IH]; cbn [concat]; intros ps H; [inversion H; subst; exists []; split; [reflexivity|constructor]|].
  apply Forall2_app_inv_l in H as (p1 & p2 & H1 & H2 & ->). destruct (IH p2 H2) as (pss & <- & HF). exists (p1 :: pss). split; [reflexivity|]. constructor; assumption.
Qed.
Lemma mesh_rows_at m p T ps : rooted m p T -> mesh_at m ps -> Forall2 (Forall2 (fun n q => nth_error (map (place T) (px p)) n = Some q)) (mesh_rows m) ps.
Proof.
  intros Hm H. destruct (rooted_source m p T [] None None m Hm eq_refl) as [_ Hci]. unfold mesh_at in H. rewrite Hci in H. change (rows_in m) with (mesh_rows m) in H.
  revert ps H. induction (mesh_rows m) as [|r rs IH]; intros ps H; cbn [map] in H; inversion H as [|? qs ? ps' Hr HF]; subst; constructor; [|auto].
  cbn [fst snd] in Hr. clear -Hr. induction Hr as [|n q r qs (x & Ex & Hq) _ IHr]; constructor; [|exact IHr]. apply placed_iff in Hq. subst q. now apply map_nth_error.
Qed.
Lemma proper_of_rooted m p T ps : rooted m p T -> orthonormal (axes T) -> cells_apart m -> even_blocks m -> mesh_at m ps ->
  Forall2 (fun f kx => exists q, proper_block f (fst kx) q (snd kx)) (cell_families [] top m) (map (fun k => (k, map (place T) (px p))) (cell_arrays m)).
Proof.
  intros Hm Ho Ha He Hps. set (X := map (place T) (px p)). pose proof (mesh_rows_at m p T ps Hm Hps) as Hr. fold X in Hr.
  assert (HU : forall k, In k (cell_arrays m) -> forall n, used (nodes k) n -> n < length X).
  { intros k Hk n Hn. apply entry_in_concat in Hn. assert (I : In n (concat (mesh_rows m))). { unfold mesh_rows. apply in_concat in Hn as (r & Hr0 & Hn). apply in_concat. exists r. split; [|exact Hn]. apply in_concat. exists (nodes k). split; [now apply in_map|exact Hr0]. }
    clear -I Hr. apply in_concat in I as (r & Hr0 & Hn). clear -Hr Hr0 Hn. induction Hr as [|r' qs rs ps Hq _ IH]; [destruct Hr0|]. destruct Hr0 as [->|Hr0]; [|auto]. clear -Hq Hn. induction Hq as [|a q r qs E _ IHq]; [destruct Hn|].
    destruct Hn as [->|Hn]; [|auto]. apply nth_error_Some. congruence. }
  assert (HX : coords_of top m None = Ok X) by now apply rooted_coords.
  assert (G : forall l, (forall f, In f l -> In f (families [] top m) /\ exists k, own_cells f = Some k /\ In k (cell_arrays m)) -> forall ks, map own_cells l = map Some ks ->
    Forall2 (fun f kx => exists q, proper_block f (fst kx) q (snd kx)) l (map (fun k => (k, X)) ks)).
  { induction l as [|f l IH]; intros Hl [|k ks] E; try discriminate E; constructor.
    - cbn [map] in E. injection E as Ef _. destruct (Hl f (or_introl eq_refl)) as (Hf & k' & Ek & Hk). rewrite Ef in Ek. injection Ek as <-. cbn [fst snd]. exists p.
      destruct (families_heads _ _ _ _ Hf) as ((c & b) & tl & ->). cbn [own_cells snd] in Ef. unfold even_blocks in He. rewrite Forall_forall in He. destruct (He k Hk) as [H1 H2].
      split; [exists c, b, tl; split; [reflexivity|split; [exact Ef|]]; exact (apart_alone m [] top _ (c, b) tl k Ha Hf eq_refl Ef)|]. split; [|split; [exact H1|split; [exact H2|exact (HU k Hk)]]].
      apply (source_points_for _ (top, m)); [exact (rooted_families m p T _ Hm Hf)|apply Hm|exact HX].
    - apply IH; [intros; apply Hl; now right|now injection E]. }
  apply G; [|apply cell_families_cells]. intros f Hf. pose proof Hf as Hf'. apply filter_In in Hf as [Hf Hk]. split; [exact Hf|]. destruct (own_cells f) as [k|] eqn:E; [|discriminate]. exists k. split; [reflexivity|].
  assert (I : In (Some k) (map Some (cell_arrays m))) by (rewrite <- (cell_families_cells m [] top), <- E; now apply in_map). apply in_map_iff in I as (k' & [= ->] & Hk'). exact Hk'.
Qed.
Lemma vtk_places ct m p T ps : rooted m p T -> orthonormal (axes T) -> cells_apart m -> even_blocks m -> mesh_at m ps ->
  exists gs pss, to_vtk ct true [] top m = Ok (VMulti gs) /\ length gs = length (cell_arrays m) /\ Forall2 grid_at gs pss /\ concat pss = ps.
Proof.
  intros Hm Ho Ha He Hps. destruct (vtk_value ct [] top m _ (proper_of_rooted m p T ps Hm Ho Ha He Hps)) as (gs & E & _ & Et & HF).
  assert (L : length gs = length (cell_arrays m)) by (rewrite <- (map_length vtype), Et, map_length; apply cell_families_length).
  pose proof (mesh_rows_at m p T ps Hm Hps) as Hr. unfold mesh_rows in Hr. destruct (split_places _ _ _ Hr) as (pss & Ec & HP). exists gs, pss. split; [exact E|]. split; [exact L|]. split; [|exact Ec].
  clear -HF HP. revert gs pss HF HP. induction (cell_arrays m) as [|k ks IH]; intros gs pss HF HP; cbn [map] in HF, HP; inversion HF as [|? g ? gs' Hg HF']; inversion HP as [|? qs ? pss' Hq HP']; subst; constructor; [|auto].
  cbn [fst snd] in Hg. eapply grid_at_places; eauto.
Qed.

(** ** Data *)
Lemma data_points f k p X s a : proper_block f k p X -> find_field s (pfields p) = Some a -> length (rows a) = length X ->
  exists c t d, detach_block (SName s) f = Ok (Piece c t (Some (Field (width a) d))) /\ detached X (nodes k) c t /\ shows_points X (rows a) (nodes k) c t d.
Proof.
  intros H Hf HL. destruct (proper_run f k p X H) as (c & b & anc & s0 & -> & Hk & Es & Hp & HX & Ht). destruct H as (_ & _ & _ & _ & Hu).
  destruct (detach_data_ok X (nodes k) (rows a)) as (c' & d & t' & i & E & H1 & H2 & H3 & H4); [intros n Hn; split; [auto|rewrite HL; auto]|].
  exists c', t', d. split; [|split; [eapply detached_of; eauto|]].
  - unfold detach_block. rewrite Es. cbn [bind]. rewrite HX. cbn [bind]. rewrite Ht. cbn [bind]. rewrite Hp. cbn [bind]. rewrite Hf. cbn [bind guard fst snd negb]. rewrite E. reflexivity.
  - destruct H2 as [S2 H2]. split; [exact S2|]. split; [now rewrite (take_length _ _ _ H3), (take_length _ _ _ H4)|]. intros i0 j n He. destruct (H2 i0 j n He) as (n' & E1 & E2). exists n'. split; [exact E1|].
    destruct (take_nth _ _ _ _ _ H3 E2) as (x & X1 & X2). destruct (take_nth _ _ _ _ _ H4 E2) as (y & Y1 & Y2). split; congruence.
Qed.
Lemma data_array f k p X a : proper_block f k p X -> length (px p) = length X ->
  (length (rows a) <> length (px p) -> detach_block (SArray a) f = Err ValueError) /\
  (length (rows a) = length (px p) -> exists c t d, detach_block (SArray a) f = Ok (Piece c t (Some (Field (width a) d))) /\ detached X (nodes k) c t /\ shows_points X (rows a) (nodes k) c t d).
Proof.
  intros H HP. destruct (proper_run f k p X H) as (c & b & anc & s0 & -> & Hk & Es & Hp & HX & Ht). destruct H as (_ & _ & _ & _ & Hu). split.
  - intros HL. unfold detach_block. rewrite Es. cbn [bind]. rewrite HX. cbn [bind]. rewrite Ht. cbn [bind]. rewrite Hp. cbn [bind]. rewrite (proj2 (Nat.eqb_neq _ _) HL). reflexivity.
  - intros HL. destruct (detach_data_ok X (nodes k) (rows a)) as (c' & d & t' & i & E & H1 & H2 & H3 & H4); [intros n Hn; split; [auto|rewrite HL, HP; auto]|].
    exists c', t', d. split; [|split; [eapply detached_of; eauto|]].
    + unfold detach_block. rewrite Es. cbn [bind]. rewrite HX. cbn [bind]. rewrite Ht. cbn [bind]. rewrite Hp. cbn [bind]. rewrite (proj2 (Nat.eqb_eq _ _) HL). cbn [bind guard fst snd negb]. rewrite E. reflexivity.
    + destruct H2 as [S2 H2]. split; [exact S2|]. split; [now rewrite (take_length _ _ _ H3), (take_length _ _ _ H4)|]. intros i0 j n He. destruct (H2 i0 j n He) as (n' & E1 & E2). exists n'. split; [exact E1|].
      destruct (take_nth _ _ _ _ _ H3 E2) as (x & X1 & X2). destruct (take_nth _ _ _ _ _ H4 E2) as (y & Y1 & Y2). split; congruence.
Qed.
Lemma data_cells f k p X s a : proper_block f k p X -> find_field s (pfields p) = None -> find_field s (cfields k) = Some a -> width a = None ->
  exists c t, detach_block (SName s) f = Ok (Piece c t (Some a)) /\ detached X (nodes k) c t.
Proof.
  intros H Hf Hc Hw. destruct (proper_run f k p X H) as (c & b & anc & s0 & -> & Hk & Es & Hp & HX & Ht). destruct H as (_ & _ & _ & _ & Hu). destruct (detach_bulk_ok X (nodes k) Hu) as (c' & t' & i & E & H1 & H2 & H3).
  exists c', t'. split; [|eapply detached_of; eauto]. unfold detach_block. rewrite Es. cbn [bind]. rewrite HX. cbn [bind]. rewrite Ht. cbn [bind]. rewrite Hp. cbn [bind]. rewrite Hf. cbn [bind guard fst snd negb]. rewrite E. cbn [bind].
  rewrite Hk, Hc, Hw. reflexivity.
Qed.
Lemma data_missing f k p X s : proper_block f k p X -> find_field s (pfields p) = None -> find_field s (cfields k) = None ->
  exists c t, detach_block (SName s) f = Ok (Piece c t None) /\ detached X (nodes k) c t.
Proof.
  intros H Hf Hc. destruct (proper_run f k p X H) as (c & b & anc & s0 & -> & Hk & Es & Hp & HX & Ht). destruct H as (_ & _ & _ & _ & Hu). destruct (detach_bulk_ok X (nodes k) Hu) as (c' & t' & i & E & H1 & H2 & H3).
  exists c', t'. split; [|eapply detached_of; eauto]. unfold detach_block. rewrite Es. cbn [bind]. rewrite HX. cbn [bind]. rewrite Ht. cbn [bind]. rewrite Hp. cbn [bind]. rewrite Hf. cbn [bind guard fst snd negb]. rewrite E. cbn [bind].
  rewrite Hk, Hc. reflexivity.
Qed.
Lemma data_other f k p X : proper_block f k p X -> detach_block SOther f = Err TypeError.
Proof.
  intros H. destruct (proper_run f k p X H) as (c & b & anc & s0 & -> & Hk & Es & Hp & HX & Ht). unfold detach_block. rewrite Es. cbn [bind]. rewrite HX. cbn [bind]. rewrite Ht. cbn [bind]. rewrite Hp. reflexivity.
Qed.

(** ** Data at the nodes of the cells *)
Lemma entries_pos t w : Forall (fun r => length r = w) t -> forall i j n, entry t i j n -> nth_error (entries t) (i * w + j) = Some (i, j, n).
Proof.
  intros Hw. unfold entries, enum. assert (G : forall o i j n, entry t i j n -> nth_error (flat_map row_entries (enum_from o t)) (i * w + j) = Some (o + i, j, n)); [|intros i j n H; rewrite (G 0 i j n H); reflexivity].
  induction Hw as [|r t Hr _ IH]; intros o i j n (s & Hs & Hj); [destruct i; discriminate|]. cbn [enum_from flat_map].
  assert (Lr : length (row_entries (o, r)) = w) by (unfold row_entries; rewrite map_length; unfold enum; rewrite enum_from_length; exact Hr).
  destruct i as [|i].
  - cbn in Hs. injection Hs as <-. cbn [Nat.mul plus]. assert (j < length r) by (apply nth_error_Some; congruence). rewrite nth_error_app1 by lia.
    unfold row_entries. cbn [fst snd]. erewrite map_nth_error; [|rewrite nth_error_enum, Hj; reflexivity]. cbn [fst snd]. now rewrite Nat.add_0_r.
  - cbn in Hs. replace (S i * w + j) with (w + (i * w + j)) by lia. rewrite nth_error_app2, Lr by lia. replace (w + (i * w + j) - w) with (i * w + j) by lia. rewrite (IH (S o) i j n); [replace (o + S i) with (S o + i) by lia; reflexivity|exists s; auto].
Qed.
Lemma mapM_nth {A B} (g : A -> res B) l r i a : mapM g l = Ok r -> nth_error l i = Some a -> exists b, nth_error r i = Some b /\ g a = Ok b.
Proof.
  revert r i. induction l as [|x l IH]; intros r i; [destruct i; discriminate|]. cbn [mapM]. destruct (g x) as [y|] eqn:Ey; [|discriminate]. cbn [bind]. destruct (mapM g l) as [ys|]; [|discriminate]. cbn [bind]. intros [= <-]. destruct i as [|i]; cbn [nth_error].
  - intros [= <-]. eauto.
  - intros H. eapply IH; eauto.
Qed.
Lemma explode_ok X topo data : same_widths topo -> same_shape topo data -> (forall n, used topo n -> n < length X) ->
  exists c t d, explode X topo data = Ok (c, t, d) /\ shows_nodes X data topo c t (map (fun x => [x]) d).
Proof.
  intros Hw Hs Hu. set (w := TrModel.ncols topo). pose proof (same_widths_ncols topo Hw) as Hr. fold w in Hr.
  destruct (mapM_total (fun e => get X (snd e)) (entries topo)) as [c Hc].
  { intros ((i & j) & n) Hin. apply (NodalProofs4.es_entry (entries topo) topo i j n (Permutation_refl _)) in Hin. cbn [snd]. destruct (nth_error X n) as [x|] eqn:E; [exists x; now apply get_Ok|]. apply nth_error_None in E. assert (n < length X) by (apply Hu; exists i, j; exact Hin). lia. }
  destruct (mapM_total (fun e => get2 data (fst (fst e)) (snd (fst e))) (entries topo)) as [d Hd].
  { intros ((i & j) & n) Hin. apply (NodalProofs4.es_entry (entries topo) topo i j n (Permutation_refl _)) in Hin. cbn [fst snd]. destruct (NodalProofs2.shape_entry topo data i j n Hs Hin) as (x & Hx). exists x. now apply BaseFacts.get2_Ok. }
  exists c, (map (fun e => seq (e * w) w) (seq 0 (length topo))), d. unfold explode. fold w. rewrite Hc. cbn [bind]. rewrite Hd. split; [reflexivity|].
  assert (St : same_shape topo (map (fun e => seq (e * w) w) (seq 0 (length topo)))).
  { unfold same_shape. rewrite map_map. rewrite (map_ext (fun e => length (seq (e * w) w)) (fun _ => w)) by (intros; apply seq_length). clear -Hr. clearbody w. generalize 0. induction Hr as [|r t E _ IH]; intros o; [reflexivity|]. cbn [map length seq]. rewrite E. f_equal. apply IH. }
  split; [exact St|]. split; [now rewrite map_length, (mapM_length _ _ _ Hc), (mapM_length _ _ _ Hd)|]. split.
  - assert (E : concat (map (fun e => seq (e * w) w) (seq 0 (length topo))) = seq 0 (length topo * w)); [|rewrite E; apply seq_NoDup].
    clear. assert (G : forall m o, concat (map (fun e => seq (e * w) w) (seq o m)) = seq (o * w) (m * w)); [|apply (G (length topo) 0)].
    induction m as [|m IH]; intros o; [reflexivity|]. cbn [seq map concat]. rewrite IH. cbn [Nat.mul]. rewrite seq_app. do 2 f_equal. lia.
  - intros i j n x He Hx. exists (i * w + j). pose proof (entries_pos topo w Hr i j n He) as Hp. destruct He as (r & Hi & Hj). assert (Hjw : j < w) by (rewrite Forall_forall in Hr; rewrite <- (Hr r (nth_error_In _ _ Hi)); apply nth_error_Some; congruence).
    assert (Hit : i < length topo) by (apply nth_error_Some; congruence). split; [|split].
    + exists (seq (i * w) w). split; [|rewrite nth_error_nth' with (d := 0) by (rewrite seq_length; lia); now rewrite seq_nth]. erewrite map_nth_error; [reflexivity|]. rewrite nth_error_nth' with (d := 0) by (rewrite seq_length; lia). now rewrite seq_nth.
    + destruct (mapM_nth _ _ _ _ _ Hc Hp) as (q & Hq & E). cbn [snd] in E. apply get_Ok in E. congruence.
    + destruct (mapM_nth _ _ _ _ _ Hd Hp) as (q & Hq & E). cbn [fst snd] in E. apply BaseFacts.get2_Ok in E. destruct E as (r1 & R1 & R2). destruct Hx as (r2 & R3 & R4). assert (r1 = r2) as -> by congruence. assert (q = x) as -> by congruence.
      erewrite map_nth_error; [reflexivity|exact Hq].
Qed.
Lemma data_nodes f k p X s a w : proper_block f k p X -> find_field s (pfields p) = None -> find_field s (cfields k) = Some a -> width a = Some w -> same_shape (nodes k) (rows a) ->
  exists c t d, detach_block (SName s) f = Ok (Piece c t (Some (Field None d))) /\ shows_nodes X (rows a) (nodes k) c t d.
Proof.
  intros H Hf Hc Hw Hs. destruct (proper_run f k p X H) as (c & b & anc & s0 & -> & Hk & Es & Hp & HX & Ht). destruct H as (_ & _ & _ & Hww & Hu). destruct (detach_bulk_ok X (nodes k) Hu) as (c' & t' & i & E & H1 & H2 & H3).
  pose proof (detached_of X (nodes k) c' t' i H1 H2 H3) as HD. destruct HD as (D1 & D2 & _ & D4 & _).
  destruct (explode_ok c' t' (rows a)) as (c2 & t2 & d & Ee & S1 & S2 & S3 & S4); [eapply same_shape_widths; eauto|unfold same_shape in *; congruence|intros n Hn; now apply D4|].
  exists c2, t2, (map (fun x => [x]) d). split.
  - unfold detach_block. rewrite Es. cbn [bind]. rewrite HX. cbn [bind]. rewrite Ht. cbn [bind]. rewrite Hp. cbn [bind]. rewrite Hf. cbn [bind guard fst snd negb]. rewrite E. cbn [bind fst snd].
    rewrite Hk, Hc, Hw, Ee. reflexivity.
  - split; [unfold same_shape in *; congruence|]. split; [exact S2|]. split; [exact S3|]. intros i0 j n x He Hx. destruct (D2 i0 j n He) as (n1 & E1 & E2). destruct (S4 i0 j n1 x E1 Hx) as (n2 & E3 & E4 & E5). exists n2. split; [exact E3|]. split; [congruence|exact E5].
Qed.
