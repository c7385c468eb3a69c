(** * Proofs about what is shown: blocks, grids *)
From Coq Require Import Reals String List Lia Arith Bool Permutation.
From Verif Require Import Base BaseFacts TopoSpec TopoProofs3 TopoProofs5 MeshSpec MeshProofs MeshProofs5 IncidenceProofs DisplaySpec.
Import ListNotations.
Local Open Scope nat_scope.

(** ** Blocks and ancestors *)
Lemma families_cons anc c b : families anc c b = ((c, b) :: anc) :: concat (map (families ((c, b) :: anc) (enter c b)) (bsub b)).
Proof. destruct b; reflexivity. Qed.
Lemma cell_families_cells b : forall anc c, map own_cells (cell_families anc c b) = map Some (cell_arrays b).
Proof.
  induction b as [f pd cd subs IH] using block_induction. intros anc c. unfold cell_families. rewrite families_cons. cbn [bsub]. set (c' := enter c (Block f pd cd subs)). set (anc' := (c, Block f pd cd subs) :: anc).
  assert (G : map own_cells (filter (fun f => match own_cells f with Some _ => true | None => false end) (concat (map (families anc' c') subs))) = map Some (flat_map cell_arrays subs)).
  { clearbody anc' c'. induction IH as [|b l Hb _ IHl]; [reflexivity|]. cbn [map concat flat_map]. rewrite filter_app, !map_app. f_equal; [apply Hb|exact IHl]. }
  cbn [filter own_cells anc' bcd snd cell_arrays]. destruct cd as [k|]; [|exact G]. cbn [map app]. f_equal. exact G.
Qed.
Lemma cell_families_length anc c b : length (cell_families anc c b) = length (cell_arrays b).
Proof. rewrite <- (map_length own_cells), cell_families_cells. apply map_length. Qed.
Lemma families_heads b : forall anc c f, In f (families anc c b) -> exists cb tl, f = cb :: tl.
Proof.
  induction b as [fr pd cd subs IH] using block_induction. intros anc c f. rewrite families_cons. intros [<-|H]; [eauto|]. apply in_concat in H as (l & Hl & Hf). apply in_map_iff in Hl as (s & <- & Hs).
  cbn [bsub] in Hs. rewrite Forall_forall in IH. eapply IH; eauto.
Qed.
Lemma bare_source b : forall anc c s, arrays b = [] -> source None anc = Some s -> forall f, In f (families anc c b) -> source None f = Some s.
Proof.
  induction b as [fr pd cd subs IH] using block_induction. intros anc c s Ha Hs f. cbn [arrays] in Ha. apply app_eq_nil in Ha as [Hp Ha]. destruct pd as [p|]; [discriminate|].
  rewrite families_cons. assert (S : source None ((c, Block fr None cd subs) :: anc) = Some s) by (cbn; exact Hs). intros [<-|H]; [exact S|]. apply in_concat in H as (l & Hl & Hf). apply in_map_iff in Hl as (x & <- & Hx).
  cbn [bsub] in Hx. rewrite Forall_forall in IH. eapply (IH x Hx); eauto. clear -Ha Hx. induction subs as [|y l IHl]; [destruct Hx|]. cbn [flat_map] in Ha. apply app_eq_nil in Ha as [H1 H2]. destruct Hx as [->|Hx]; auto.
Qed.
Lemma rooted_families m p T f : rooted m p T -> In f (families [] top m) -> source None f = Some (top, m).
Proof.
  intros (Hp & Ha & _) H. rewrite families_cons in H. assert (S : source None [(top, m)] = Some (top, m)) by (unfold source, is_source; cbn [find snd]; now rewrite Hp).
  destruct H as [<-|H]; [exact S|]. apply in_concat in H as (l & Hl & Hf). apply in_map_iff in Hl as (x & <- & Hx). eapply bare_source; [|exact S|exact Hf].
  destruct m as [fr pd cd subs]. cbn [bpd] in Hp. subst pd. cbn [arrays app bsub] in *. injection Ha as Ha. clear -Ha Hx. induction subs as [|y l IHl]; [destruct Hx|]. cbn [flat_map] in Ha. apply app_eq_nil in Ha as [H1 H2]. destruct Hx as [->|Hx]; auto.
Qed.
Lemma find_split {A} (q : A -> bool) l s : find q l = Some s -> exists near far, l = near ++ s :: far /\ Forall (fun x => q x = false) near /\ q s = true.
Proof.
  induction l as [|a l IH]; cbn [find]; [discriminate|]. destruct (q a) eqn:E.
  - intros [= ->]. exists [], l. auto.
  - intros H. destruct (IH H) as (n & r & -> & Hn & Hs). exists (a :: n), r. split; [reflexivity|]. split; [now constructor|exact Hs].
Qed.
Lemma split_find {A} (q : A -> bool) near s far : Forall (fun x => q x = false) near -> q s = true -> find q (near ++ s :: far) = Some s.
Proof. induction 1 as [|a l Ha _ IH]; cbn [app find]; intros Hs; [now rewrite Hs|]. rewrite Ha. auto. Qed.
Lemma points_for_source f p X : points_for f p X -> exists s, source None f = Some s /\ bpd (snd s) = Some p /\ coords_of (fst s) (snd s) None = Ok X.
Proof.
  intros (near & s & far & -> & Hn & Hp & HX). exists s. split; [|auto]. unfold source. apply split_find; [|unfold is_source; now rewrite Hp].
  eapply Forall_impl; [|exact Hn]. intros cb H. unfold is_source. now rewrite H.
Qed.
Lemma source_points_for f s p X : source None f = Some s -> bpd (snd s) = Some p -> coords_of (fst s) (snd s) None = Ok X -> points_for f p X.
Proof.
  intros H Hp HX. destruct (find_split _ _ _ H) as (near & far & -> & Hn & _). exists near, s, far. split; [reflexivity|]. split; [|auto]. eapply Forall_impl; [|exact Hn].
  intros cb E. unfold is_source in E. destruct (bpd (snd cb)); [discriminate|reflexivity].
Qed.
Lemma apart_alone b : forall anc c f cb tl k, cells_apart b -> In f (families anc c b) -> f = cb :: tl -> bcd (snd cb) = Some k -> flat_map cell_arrays (bsub (snd cb)) = [].
Proof.
  assert (N : forall l anc c f cb tl k, flat_map cell_arrays l = [] -> In f (concat (map (families anc c) l)) -> f = cb :: tl -> bcd (snd cb) = Some k -> False).
  { intros l anc c f cb tl k H Hf -> Hk. apply in_concat in Hf as (x & Hx & Hf). apply in_map_iff in Hx as (b0 & <- & Hb).
    assert (E : cell_arrays b0 = []) by (clear -H Hb; induction l as [|y l IHl]; [destruct Hb|]; cbn [flat_map] in H; apply app_eq_nil in H as [H1 H2]; destruct Hb as [->|Hb]; auto).
    pose proof (cell_families_cells b0 anc c) as G. rewrite E in G. cbn [map] in G. assert (In (Some k) (map own_cells (cell_families anc c b0))); [|rewrite G in H0; destruct H0].
    apply in_map_iff. exists (cb :: tl). split; [exact Hk|]. apply filter_In. split; [exact Hf|]. cbn [own_cells]. now rewrite Hk. }
  induction b as [fr pd cd subs IH] using block_induction. intros anc c f cb tl k Ha Hf Hc Hk. rewrite families_cons in Hf. cbn [bsub] in Hf. cbn [cells_apart] in Ha. destruct Hf as [<-|Hf].
  - injection Hc as <- _. cbn [snd bcd bsub] in *. subst cd. exact Ha.
  - destruct cd as [k0|]; [exfalso; eapply N; eauto|]. apply in_concat in Hf as (x & Hx & Hf). apply in_map_iff in Hx as (s & <- & Hs). rewrite Forall_forall in IH. eapply (IH s Hs); eauto.
    clear -Ha Hs. induction subs as [|y l IHl]; [destruct Hs|]. cbn [fold_right] in Ha. destruct Ha as [H1 H2]. destruct Hs as [->|Hs]; auto.
Qed.

(** ** Grids *)
Lemma read_flat w t : Forall (fun r => length r = w) t -> read_cells (length t) (concat (map (fun r => w :: r) t)) = Some t.
Proof.
  induction 1 as [|r t Hr _ IH]; [reflexivity|]. cbn [length map concat app read_cells]. subst w. rewrite app_length, (proj2 (Nat.leb_le _ _)) by lia.
  rewrite firstn_app, Nat.sub_diag, firstn_all, skipn_app, skipn_all, Nat.sub_diag, firstn_O, app_nil_r. cbn [skipn app]. rewrite IH. reflexivity.
Qed.
Lemma same_widths_ncols t : same_widths t -> Forall (fun r => length r = TrModel.ncols t) t.
Proof. intros H. apply Forall_forall. intros r Hr. destruct t as [|s t]; [destruct Hr|]. cbn [TrModel.ncols]. apply H; [exact Hr|now left]. Qed.
Lemma same_shape_widths (t t' : list (list nat)) : same_shape t t' -> same_widths t -> same_widths t'.
Proof.
  unfold same_shape. intros E H r s Hr Hs. assert (G : forall x, In x t' -> exists y, In y t /\ length y = length x).
  { intros x Hx. assert (I : In (length x) (map (@length nat) t)) by (rewrite E; now apply in_map). apply in_map_iff in I as (y & Ey & Hy). eauto. }
  destruct (G r Hr) as (y & Hy & <-). destruct (G s Hs) as (z & Hz & <-). auto.
Qed.
Lemma vtk_shows X topo c t ct : detached X topo c t -> same_widths topo -> grid_shows X topo (mesh_to_vtk c t ct).
Proof.
  intros H Hw. exists t. split; [|exact H]. cbn [mesh_to_vtk vnumber vcells]. apply read_flat, same_widths_ncols. eapply same_shape_widths; [|exact Hw]. apply H.
Qed.

(** ** One block *)
Lemma proper_run f k p X : proper_block f k p X -> exists c b anc s, f = (c, b) :: anc /\ bcd b = Some k /\ source None f = Some s /\ bpd (snd s) = Some p /\ coords_of (fst s) (snd s) None = Ok X /\
  topology false c b = Ok (false, nodes k).
Proof.
  intros ((c & b & anc & -> & Hk & Hs) & HP & Hne & Hw & Hu). destruct (points_for_source _ _ _ HP) as (s & Es & Hp & HX). exists c, b, anc, s. repeat (split; [assumption || reflexivity|]).
  assert (E : mesh_rows b = nodes k). { unfold mesh_rows. destruct b as [fr pd cd subs]. cbn [bcd bsub] in *. subst cd. cbn [cell_arrays]. rewrite Hs, app_nil_r. cbn [map concat]. apply app_nil_r. }
  rewrite topology_ok by now rewrite E. rewrite E. cbn [orb]. now rewrite (proj2 (jagged_iff (nodes k)) Hw).
Qed.
Lemma detach_none f k p X : proper_block f k p X -> exists c t, detach_block SNone f = Ok (Piece c t None) /\ detached X (nodes k) c t.
Proof.
  intros H. destruct (proper_run f k p X H) as (c & b & anc & s & -> & Hk & Es & Hp & HX & Ht). destruct H as (_ & _ & _ & _ & Hu). destruct (detach_bulk_ok X (nodes k) Hu) as (c' & t' & i & E & H1 & H2 & H3).
  exists c', t'. split; [|eapply detached_of; eauto]. unfold detach_block. rewrite Es. cbn [bind]. rewrite HX. cbn [bind]. rewrite Ht. cbn [bind]. rewrite Hp. cbn [bind guard fst snd negb]. rewrite E. reflexivity.
Qed.

(** ** All blocks *)
Lemma detach_all_none fs (ks : list (cells * list vec)) : Forall2 (fun f kx => exists p, proper_block f (fst kx) p (snd kx)) fs ks ->
  exists ps, mapM (detach_block SNone) fs = Ok ps /\ Forall2 (fun kx q => detached (snd kx) (nodes (fst kx)) (gcoords q) (gtopo q)) ks ps.
Proof.
  induction 1 as [|f [k X] fs ks (p & Hf) _ (ps & E & H)]; [exists []; split; [reflexivity|constructor]|]. cbn [fst snd] in *. destruct (detach_none f k p X Hf) as (c & t & E1 & Hd).
  exists (Piece c t None :: ps). cbn [mapM]. rewrite E1. cbn [bind]. rewrite E. split; [reflexivity|]. constructor; assumption.
Qed.
Lemma vtk_value ct anc c m (ks : list (cells * list vec)) : Forall2 (fun f kx => exists p, proper_block f (fst kx) p (snd kx)) (cell_families anc c m) ks ->
  exists gs, to_vtk ct true anc c m = Ok (VMulti gs) /\ to_vtk ct false anc c m = match gs with [] => Err IndexError | [g] => Ok (VGrid g) | _ => Ok (VList gs) end /\
    map vtype gs = map ct (cell_families anc c m) /\ Forall2 (fun kx g => grid_shows (snd kx) (nodes (fst kx)) g) ks gs.
Proof.
  intros H. destruct (detach_all_none _ _ H) as (ps & E & HF). exists (grids ct (cell_families anc c m) ps). unfold to_vtk, detach_block_data. rewrite E. cbn [bind].
  split; [reflexivity|]. split; [reflexivity|]. clear E. revert ps HF. induction H as [|f [k X] fs ks (p & Hf) _ IH]; intros ps HF; [split; constructor|].
  inversion HF as [|? q ? qs Hq HQ]; subst. destruct (IH qs HQ) as [I1 I2]. cbn [fst snd] in *. unfold grids in *. cbn [combine map vtype fst snd mesh_to_vtk]. split; [now rewrite I1|]. constructor; [|exact I2].
  cbn [fst snd]. apply vtk_shows; [exact Hq|]. apply Hf.
Qed.
Lemma vtk_empty ct anc c m : cell_arrays m = [] -> to_vtk ct true anc c m = Ok (VMulti []) /\ to_vtk ct false anc c m = Err IndexError.
Proof.
  intros H. assert (E : cell_families anc c m = []) by (apply length_zero_iff_nil; now rewrite cell_families_length, H). unfold to_vtk, detach_block_data. rewrite E. split; reflexivity.
Qed.
