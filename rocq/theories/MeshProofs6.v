(** * Proofs about copies of meshes *)
From Coq Require Import Reals Lra Lia ZArith List String.
From Verif Require Import Base BaseFacts TopoSpec TopoProofs4 NodalProofs4 FrameProofs MeshModel MeshSpec MeshProofs MeshProofs2 MeshProofs3 MeshProofs4 MeshProofs5.
Import ListNotations.
Local Open Scope nat_scope.

Lemma centred_origin f : centred f -> origin_of f = vzero.
Proof. intros (a & [-> | ->]); reflexivity. Qed.
Lemma copy_axes_place f x : centred f -> place (copy_axes f) x = place f x.
Proof. intros H. unfold place, copy_axes. cbn [origin_of axes]. now rewrite centred_origin. Qed.
(** sources with the same places *)
Definition same_source (s s' : option (frame * list vec)) : Prop :=
  match s, s' with Some (f, xs), Some (f', xs') => xs' = xs /\ forall x, place f' x = place f x | None, None => True | _, _ => False end.
Definition same_cell (c c' : option (frame * list vec) * list nat) : Prop := same_source (fst c) (fst c') /\ snd c' = snd c.
Lemma same_node s s' n q : same_source s s' -> node_at s n q -> node_at s' n q.
Proof.
  destruct s as [[f xs]|], s' as [[f' xs']|]; cbn [same_source node_at]; try tauto. intros (-> & H) (x & E & Hx). exists x. split; [assumption|]. apply placed_iff in Hx. apply placed_iff. now rewrite H.
Qed.
Lemma same_cells_at l l' ps : Forall2 same_cell l l' -> Forall2 (fun c qs => Forall2 (node_at (fst c)) (snd c) qs) l ps -> Forall2 (fun c qs => Forall2 (node_at (fst c)) (snd c) qs) l' ps.
Proof.
  intros H. revert ps. induction H as [|c c' l l' [H1 H2] _ IH]; intros ps Hp; inversion Hp as [|? qs ? ps' Hq Hps]; subst; constructor; [|auto].
  rewrite H2. clear -H1 Hq. induction Hq; constructor; [|assumption]. now apply (same_node (fst c)).
Qed.
Lemma ids_remap t n : Forall (fun r => Forall (fun i => i < n) r) t -> remap_topo t (MDict (inds_to_invmap_as_dict (seq 0 n))) = Ok t.
Proof.
  intros H. rewrite (remap_topo_ok t _ (fun i => i)).
  - f_equal. rewrite <- (map_id t) at 2. apply map_ext. intros r. apply map_id.
  - intros i (a & b & r & Hr & Hi). apply nth_error_In in Hr. apply nth_error_In in Hi. rewrite Forall_forall in H. specialize (H r Hr). rewrite Forall_forall in H.
    specialize (H i Hi). cbn [mlookup]. apply (invmap_get (seq 0 n)); [apply seq_NoDup|]. now apply nth_error_seq.
Qed.
Definition copied (b : block) : Prop := forall up up' src src' next,
  Forall (fun fp => exists f, fst fp = Some f /\ centred f) (framed up b) -> Forall (fun p => pid p = seq 0 (length (px p))) (arrays b) ->
  same_source src src' -> Forall in_source (cells_in up src b) ->
  exists b', copy_child up next b = Ok (next + ncells b, b') /\ Forall2 same_cell (cells_in up src b) (cells_in up' src' b') /\
    Forall2 same_points (arrays b) (arrays b') /\ Forall2 same_cells (cell_arrays b) (cell_arrays b') /\ ids_in b' = seq next (ncells b).
Lemma copied_list l : Forall copied l -> forall up up' src src' next,
  Forall (fun fp => exists f, fst fp = Some f /\ centred f) (flat_map (framed up) l) -> Forall (fun p => pid p = seq 0 (length (px p))) (flat_map arrays l) ->
  same_source src src' -> Forall in_source (flat_map (cells_in up src) l) ->
  exists l', thread (copy_child up) next l = Ok (next + length (rows_l l), l') /\ Forall2 same_cell (flat_map (cells_in up src) l) (flat_map (cells_in up' src') l') /\
    Forall2 same_points (flat_map arrays l) (flat_map arrays l') /\ Forall2 same_cells (flat_map cell_arrays l) (flat_map cell_arrays l') /\ ids_l l' = seq next (length (rows_l l)).
Proof.
  induction 1 as [|b l Hb _ IH]; intros up up' src src' next HF HI Hs Hr.
  - exists []. cbn. rewrite Nat.add_0_r. repeat split; constructor.
  - cbn [flat_map] in *. apply Forall_app in HF as [HF1 HF2]. apply Forall_app in HI as [HI1 HI2]. apply Forall_app in Hr as [Hr1 Hr2].
    destruct (Hb up up' src src' next HF1 HI1 Hs Hr1) as (b' & E1 & C1 & P1 & K1 & I1).
    destruct (IH up up' src src' (next + ncells b) HF2 HI2 Hs Hr2) as (l' & E2 & C2 & P2 & K2 & I2).
    exists (b' :: l'). cbn [thread]. rewrite E1. cbn [bind fst snd]. rewrite E2. cbn [bind fst snd flat_map]. rewrite rows_l_cons, ids_l_cons, app_length, I1, I2, seq_app. fold (ncells b).
    split; [now rewrite Nat.add_assoc|]. repeat split; [now apply Forall2_app..].
Qed.
Lemma Forall2_refl {A} (R : A -> A -> Prop) l : (forall x, R x x) -> Forall2 R l l.
Proof. intros H. induction l; constructor; auto. Qed.
Lemma same_cell_rows s s' rs : same_source s s' -> Forall2 same_cell (map (fun r => (s, r)) rs) (map (fun r => (s', r)) rs).
Proof. intros H. induction rs; cbn [map]; constructor; [|assumption]. split; [exact H|reflexivity]. Qed.
Lemma copy_child_ok b : copied b.
Proof.
  induction b as [f pd cd subs IH] using block_induction. intros up up' src src' next HF HI Hs Hr.
  cbn [framed arrays cells_in copy_child] in *. rewrite frame_in_eq. destruct pd as [p|].
  - destruct (frame_in_some up f p cd subs) as [g Eg]. rewrite Eg in *. cbn [app] in *. inversion HF as [|? ? (g' & Eg' & Hg) HF']; subst. cbn [fst] in Eg'. injection Eg' as <-.
    inversion HI as [|? ? Hid HI']; subst. apply Forall_app in Hr as [Hr1 Hr2].
    assert (Hs' : same_source (Some (g, px p)) (Some (copy_axes g, px p))) by (split; [reflexivity|]; intros x; now apply copy_axes_place).
    destruct (copied_list subs IH (Some g) (Some (copy_axes g)) _ _ (next + match cd with Some c => length (nodes c) | None => 0 end) HF' HI' Hs' Hr2) as (l' & E2 & C2 & P2 & K2 & I2).
    assert (Hremap : forall k, cd = Some k -> remap_topo (nodes k) (MDict (inds_to_invmap_as_dict (pid p))) = Ok (nodes k)).
    { intros k ->. rewrite Hid. apply ids_remap. rewrite Forall_map in Hr1. revert Hr1. apply Forall_impl. intros r. unfold in_source. cbn [fst snd]. apply Forall_impl.
      intros i (f0 & xs & E & Hi). injection E as <- <-. exact Hi. }
    destruct cd as [k|].
    + rewrite (Hremap k eq_refl). cbn [bind fst snd]. rewrite E2. cbn [bind fst snd option_map]. eexists. split.
      * unfold ncells. rewrite rows_in_block, app_length, Nat.add_assoc. reflexivity.
      * cbn [cells_in frame_in arrays cell_arrays nodes app]. split; [apply Forall2_app; [now apply same_cell_rows|exact C2]|]. split; [constructor; [repeat split|exact P2]|]. split; [constructor; [split; reflexivity|exact K2]|].
        unfold ncells. rewrite ids_in_block, rows_in_block, app_length. cbn [cid]. rewrite I2, seq_app. reflexivity.
    + cbn [bind fst snd]. rewrite Nat.add_0_r in *. rewrite E2. cbn [bind fst snd option_map]. eexists. split.
      * unfold ncells. rewrite rows_in_block. reflexivity.
      * cbn [cells_in frame_in arrays cell_arrays nodes app]. split; [exact C2|]. split; [constructor; [repeat split|exact P2]|]. split; [exact K2|]. unfold ncells. rewrite ids_in_block, rows_in_block. exact I2.
  - set (u := frame_in up (Block f None cd subs)) in *. cbn [app] in *. apply Forall_app in Hr as [Hr1 Hr2].
    destruct (copied_list subs IH u up' _ _ (next + match cd with Some c => length (nodes c) | None => 0 end) HF HI Hs Hr2) as (l' & E2 & C2 & P2 & K2 & I2).
    destruct cd as [k|]; cbn [bind fst snd].
    + rewrite E2. cbn [bind fst snd]. eexists. split.
      * unfold ncells. rewrite rows_in_block, app_length, Nat.add_assoc. reflexivity.
      * cbn [cells_in frame_in arrays cell_arrays nodes app]. split; [apply Forall2_app; [now apply same_cell_rows|exact C2]|]. split; [exact P2|]. split; [constructor; [split; reflexivity|exact K2]|].
        unfold ncells. rewrite ids_in_block, rows_in_block, app_length. cbn [cid]. rewrite I2, seq_app. reflexivity.
    + rewrite Nat.add_0_r in *. rewrite E2. cbn [bind fst snd]. eexists. split.
      * unfold ncells. rewrite rows_in_block. reflexivity.
      * cbn [cells_in frame_in arrays cell_arrays nodes app]. split; [exact C2|]. split; [exact P2|]. split; [exact K2|]. unfold ncells. rewrite ids_in_block, rows_in_block. exact I2.
Qed.
(** ** The copy of a mesh *)
Lemma copy_mesh_ok m ps : frame_in None m <> None -> Forall (fun fp => exists f, fst fp = Some f /\ centred f) (framed None m) ->
  Forall (fun p => pid p = seq 0 (length (px p))) (flat_map arrays (bsub m)) -> mesh_at m ps ->
  exists m', copy_mesh m = Ok m' /\ mesh_at m' ps /\ Forall2 same_points (arrays m) (arrays m') /\ Forall2 same_cells (cell_arrays m) (cell_arrays m').
Proof.
  destruct m as [f pd cd subs]. intros Hf HF HI Hm. pose proof (valid_sources _ _ Hm) as Hr. cbn [bsub] in HI.
  unfold copy_mesh. rewrite (fun c b => eq_refl : the_frame (enter c b) = match frame_here (enter c b) with Some f => Ok f | None => Err AttributeError end).
  cbn [enter frame_here top]. rewrite frame_in_eq. destruct (frame_in None (Block f pd cd subs)) as [F|] eqn:EF; [|congruence]. cbn [bind bsub].
  unfold mesh_at in Hm. cbn [framed cells_in] in HF, Hr, Hm. rewrite EF in HF, Hr, Hm. apply Forall_app in HF as [HF1 HF2]. apply Forall_app in Hr as [Hr1 Hr2].
  set (src := match pd, Some F with Some p, Some g => Some (g, px p) | _, _ => None end) in *.
  set (src' := option_map (fun p => (copy_axes F, px p)) pd).
  assert (Hs : same_source src src').
  { unfold src, src'. destruct pd as [p|]; [|exact I]. inversion HF1 as [|? ? (g & Eg & Hg) _]; subst. cbn [fst] in Eg. injection Eg as <-. split; [reflexivity|]. intros x. now apply copy_axes_place. }
  assert (Hall : Forall copied subs) by (apply Forall_forall; intros b _; apply copy_child_ok).
  destruct (copied_list subs Hall (Some F) (Some (copy_axes F)) src src' 0 HF2 HI Hs Hr2) as (l' & E2 & C2 & P2 & K2 & I2).
  rewrite E2. cbn [bind fst snd bpd bcd bframe]. eexists. split; [reflexivity|]. split; [|split].
  - unfold mesh_at. cbn [cells_in frame_in]. revert Hm. apply same_cells_at. apply Forall2_app.
    + destruct cd; [|constructor]. replace (match option_map (copy_points f) pd with Some p => Some (copy_axes F, px p) | None => None end) with src' by (unfold src'; now destruct pd). now apply same_cell_rows.
    + replace (match option_map (copy_points f) pd with Some p => Some (copy_axes F, px p) | None => None end) with src' by (unfold src'; now destruct pd). exact C2.
  - cbn [arrays]. apply Forall2_app; [|exact P2]. destruct pd; constructor; [repeat split|constructor].
  - cbn [cell_arrays]. apply Forall2_app; [|exact K2]. apply Forall2_refl. intros k. split; reflexivity.
Qed.
Lemma copy_no_frame m : frame_in None m = None -> copy_mesh m = Err AttributeError.
Proof. intros H. unfold copy_mesh, the_frame. cbn [enter frame_here top]. now rewrite frame_in_eq, H. Qed.
(** frames that are not at the origin: the mesh moves *)
Lemma copy_moves : exists m o p k ps m', m = Block (Some (Cartesian meye o)) (Some p) (Some k) [] /\ pframe p = Some (Cartesian meye o) /\ pid p = seq 0 (length (px p)) /\ mesh_at m ps /\ copy_mesh m = Ok m' /\ ~ mesh_at m' ps.
Proof.
  set (F := Cartesian meye (1, 0, 0)%R). exists (line_in F), (1, 0, 0)%R, (two_points (Some F)), one_line, [[place F (0, 0, 0)%R; place F (1, 0, 0)%R]], (Block (Some (Cartesian meye vzero)) (Some (two_points (Some (Cartesian meye vzero)))) (Some one_line) []).
  do 3 (split; [reflexivity|]). split; [apply line_in_at|]. split; [reflexivity|]. intros H. pose proof (mesh_at_fun _ _ _ H (line_in_at meye vzero)) as E.
  cbn in E. injection E. intros. lra.
Qed.
(** cells of a block with points whose indices are not positions *)
Definition high_ids : block := Block None (Some (Points [(0, 0, 0); (1, 0, 0)]%R None [2; 3] [true; true] [])) (Some one_line) [].
Lemma copy_ids_lost : exists m p k ps, m = Block (Some standard) None None [Block None (Some p) (Some k) []] /\ pframe p = None /\ complete p /\ length (pid p) = length (px p) /\ pid p <> seq 0 (length (px p)) /\ mesh_at m ps /\ copy_mesh m = Err KeyError.
Proof.
  eexists (Block (Some standard) None None [high_ids]), _, _, [[(0, 0, 0); (1, 0, 0)]]%R. split; [reflexivity|]. split; [reflexivity|]. split; [split; [reflexivity|constructor]|]. split; [reflexivity|]. split; [discriminate|]. split.
  - unfold mesh_at. cbn. constructor; [|constructor]. cbn [fst snd]. constructor; [|constructor; [|constructor]]; cbn [node_at].
    + exists (0, 0, 0)%R. split; [reflexivity|]. apply placed_iff. now rewrite place_standard by auto.
    + exists (1, 0, 0)%R. split; [reflexivity|]. apply placed_iff. now rewrite place_standard by auto.
  - reflexivity.
Qed.
(** two cells with the same number *)
Lemma copy_numbers_clash : exists m m', NoDup (concat (map cid (cell_arrays m))) /\ copy_mesh m = Ok m' /\ ~ NoDup (concat (map cid (cell_arrays m'))).
Proof.
  eexists (Block (Some standard) (Some (two_points None)) (Some one_line) [Block None None (Some (Cells [[0; 1]] [1] [])) []]), _. split; [|split].
  - cbn. repeat constructor; cbn; intuition lia.
  - lazy -[Rplus Rmult Ropp Rminus IZR]. reflexivity.
  - cbn. intros H. inversion H as [|? ? H1 _]. apply H1. now left.
Qed.
(** a block without points loses its frame *)
Lemma copy_frame_lost : exists m m' F, (exists b, bsub m = [b] /\ frame_in (frame_in None m) b = Some F) /\ copy_mesh m = Ok m' /\ exists b, bsub m' = [b] /\ frame_in (frame_in None m') b <> Some F.
Proof.
  eexists (Block (Some standard) (Some (two_points None)) None [Block (Some (Cartesian ((0, 1, 0), (-1, 0, 0), (0, 0, 1)) (0, 0, 0)))%R None (Some one_line) []]), _, _. split; [eexists; split; reflexivity|]. split.
  - lazy -[Rplus Rmult Ropp Rminus IZR]. reflexivity.
  - eexists. split; [reflexivity|]. cbn. intros E. injection E. intros. lra.
Qed.
