(** * Proofs about what is shown: objects of pyvista and k3d, what goes wrong *)
From Coq Require Import Reals String List Lia Lra Arith Bool Permutation.
From Verif Require Import Base BaseFacts TopoSpec TopoProofs3 TopoProofs5 MeshSpec FrameProofs MeshProofs MeshProofs2 MeshProofs4 MeshProofs5 IncidenceProofs DisplaySpec DisplayProofs DisplayProofs2.
Import ListNotations.
Local Open Scope nat_scope.

Lemma plain_coords c b : frame_in (frame_here c) b = Some standard -> arrays b <> [] -> Forall (fun fp => fst fp = Some standard) (framed (frame_here c) b) ->
  coords_of c b None = Ok (concat (map px (arrays b))).
Proof.
  intros HT Ha HF. unfold coords_of. rewrite (points_of_value c b standard HT Ha). cbn [bind]. f_equal. rewrite show_map. cbn [array cframe].
  rewrite <- (framed_arrays b (frame_here c)), map_map. unfold converted. rewrite flat_map_concat_map. rewrite concat_map, map_map. f_equal. apply map_ext_in. intros fp Hin. rewrite Forall_forall in HF. rewrite (HF fp Hin). cbn [dframe].
  rewrite map_map. rewrite <- (map_id (px (snd fp))) at 2. apply map_ext. intros x. rewrite shown_ambient, vshow_same by exact orthonormal_eye. apply place_standard. now left.
Qed.

(** ** Data of the objects of pyvista *)
Lemma pv_block ct f k p X s : proper_block f k p X -> data_fits s k p X -> exists q at_, detach_block (SName s) f = Ok q /\
  match gdata q with None => Ok NoData | Some a => attach s a (mesh_to_vtk (gcoords q) (gtopo q) (ct f)) end = Ok at_ /\ data_shown s k p X (mesh_to_vtk (gcoords q) (gtopo q) (ct f)) at_.
Proof.
  intros H HD. unfold data_fits, data_shown in *. pose proof H as HP. destruct HP as (_ & _ & _ & Hw & _). destruct (find_field s (pfields p)) as [a|] eqn:Ef.
  - destruct (data_points f k p X s a H Ef HD) as (c & t & d & E & H1 & H2). exists (Piece c t (Some (Field (width a) d))), (OfPoints s (Field (width a) d)). split; [exact E|]. cbn [gdata gcoords gtopo]. split.
    + unfold attach. cbn [rows vpoints mesh_to_vtk]. destruct H2 as (_ & -> & _). now rewrite Nat.eqb_refl.
    + split; [now apply vtk_shows|]. exists t, d. split; [|split; [reflexivity|exact H2]]. cbn [vnumber vcells mesh_to_vtk]. apply read_flat, same_widths_ncols. eapply same_shape_widths; [apply H2|exact Hw].
  - destruct (find_field s (cfields k)) as [a|] eqn:Ec; [destruct (width a) as [w|] eqn:Ew|].
    + destruct (data_nodes f k p X s a w H Ef Ec Ew HD) as (c & t & d & E & H2). exists (Piece c t (Some (Field None d))), (OfPoints s (Field None d)). split; [exact E|]. cbn [gdata gcoords gtopo]. split.
      * unfold attach. cbn [rows vpoints mesh_to_vtk]. destruct H2 as (_ & -> & _). now rewrite Nat.eqb_refl.
      * exists t, d. split; [|split; [reflexivity|exact H2]]. cbn [vnumber vcells mesh_to_vtk]. apply read_flat, same_widths_ncols. eapply same_shape_widths; [apply H2|exact Hw].
    + destruct (data_cells f k p X s a H Ef Ec Ew) as (c & t & E & H1). exists (Piece c t (Some a)), (OfCells s a). split; [exact E|]. cbn [gdata gcoords gtopo]. split; [|split; [now apply vtk_shows|reflexivity]].
      unfold attach. cbn [vpoints vnumber mesh_to_vtk]. destruct HD as [HD1 HD2]. destruct H1 as (S1 & _ & _ & _ & inds & Hi & Ht). pose proof (take_length _ _ _ Ht) as Lc.
      assert (Lt : length t = length (nodes k)) by (rewrite <- (map_length (@length nat) t), <- S1; apply map_length). rewrite HD1, Lt. specialize (HD2 inds Hi). rewrite (proj2 (Nat.eqb_neq (length (nodes k)) (length c))), Nat.eqb_refl by lia. reflexivity.
    + destruct (data_missing f k p X s H Ef Ec) as (c & t & E & H1). exists (Piece c t None), NoData. split; [exact E|]. cbn [gdata gcoords gtopo]. split; [reflexivity|]. split; [now apply vtk_shows|reflexivity].
Qed.
Lemma pv_value ct anc c m s (ks : list (cells * points * list vec)) :
  Forall2 (fun f kx => proper_block f (fst (fst kx)) (snd (fst kx)) (snd kx) /\ data_fits s (fst (fst kx)) (snd (fst kx)) (snd kx)) (cell_families anc c m) ks ->
  exists r, to_pv ct false (SName s) anc c m = Ok r /\ map (fun ga => vtype (fst ga)) r = map ct (cell_families anc c m) /\
    Forall2 (fun kx ga => data_shown s (fst (fst kx)) (snd (fst kx)) (snd kx) (fst ga) (snd ga)) ks r.
Proof.
  intros H. unfold to_pv, detach_block_data.
  assert (G : exists ps r, mapM (detach_block (SName s)) (cell_families anc c m) = Ok ps /\
    mapM (fun gp : grid * piece => do a <- match gdata (snd gp) with None => Ok NoData | Some a => attach s a (fst gp) end; Ok (fst gp, a)) (combine (grids ct (cell_families anc c m) ps) ps) = Ok r /\
    map (fun ga => vtype (fst ga)) r = map ct (cell_families anc c m) /\ Forall2 (fun kx ga => data_shown s (fst (fst kx)) (snd (fst kx)) (snd kx) (fst ga) (snd ga)) ks r).
  { induction H as [|f [[k p] X] fs ks [H1 H2] _ (ps & r & E1 & E2 & E3 & E4)]; [exists [], []; repeat split; constructor|]. cbn [fst snd] in *. destruct (pv_block ct f k p X s H1 H2) as (q & a & Ed & Ea & HS).
    exists (q :: ps), ((mesh_to_vtk (gcoords q) (gtopo q) (ct f), a) :: r). cbn [mapM]. rewrite Ed. cbn [bind]. rewrite E1. cbn [bind]. split; [reflexivity|]. unfold grids in *. cbn [combine map mapM fst snd]. rewrite Ea. cbn [bind]. rewrite E2. cbn [bind].
    split; [reflexivity|]. split; [cbn [fst vtype mesh_to_vtk]; now rewrite E3|]. constructor; [exact HS|exact E4]. }
  destruct G as (ps & r & E1 & E2 & E3 & E4). exists r. rewrite E1. cbn [bind]. auto.
Qed.
Lemma multi_no_data ct data anc c m r : to_pv ct true data anc c m = Ok r -> Forall (fun ga => snd ga = NoData) r.
Proof.
  unfold to_pv. destruct (detach_block_data data anc c m) as [ps|]; [|discriminate]. cbn [bind]. intros [= <-]. apply Forall_forall. intros ga Hg. apply in_map_iff in Hg as (g & <- & _). reflexivity.
Qed.

(** ** Objects of k3d *)
Lemma k3d_value ndim tris data anc c m p X : points_for ((c, m) :: anc) p X -> (forall a, data = Some a -> length a = length X) -> forall tps,
  Forall2 (fun k t => (ndim k = 1 /\ t = nodes k \/ ndim k = 2 /\ tris k = Ok t) /\ forall n, used t n -> n < length X) (cell_arrays m) tps ->
  exists os, to_k3d ndim tris data anc c m = Ok os /\ Forall2 (fun t o => k3d_shows X t data o) tps os.
Proof.
  intros HP Hd tps H. destruct (points_for_source _ _ _ HP) as (s & Es & Hp & HX). unfold to_k3d. rewrite Es. cbn [bind]. rewrite HX. cbn [bind].
  assert (Em : forall W : list (ctx * cells), mapM (fun ck => k3d_block ndim tris data X (snd ck)) W = mapM (k3d_block ndim tris data X) (map snd W)) by (induction W as [|x W IW]; [reflexivity|cbn [map mapM]; now rewrite IW]). rewrite Em, walk_cells. clear Em. induction H as [|k t ks ts [Ht Hu] _ (os & E & HF)]; [exists []; split; [reflexivity|constructor]|].
  cbn [mapM]. assert (E0 : (match ndim k with 1 => Ok (nodes k) | 2 => tris k | _ => Err NotImplementedError end) = Ok t) by (destruct Ht as [[-> ->]|[-> ->]]; reflexivity).
  unfold k3d_block at 1. rewrite E0. cbn [bind]. destruct data as [a|].
  - destruct (detach_data_ok X t a) as (c' & d & t' & i & E1 & H1 & H2 & H3 & H4); [intros n Hn; split; [auto|rewrite (Hd a eq_refl); auto]|]. rewrite E1. cbn [bind]. rewrite E. cbn [bind]. eexists. split; [reflexivity|]. constructor; [|exact HF].
    unfold k3d_shows. split; [eapply detached_of; eauto|]. destruct H2 as [S2 H2]. split; [exact S2|]. split; [rewrite map_length; now rewrite (take_length _ _ _ H3), (take_length _ _ _ H4)|].
    intros i0 j n He. destruct (H2 i0 j n He) as (n' & X1 & X2). exists n'. split; [exact X1|]. destruct (take_nth _ _ _ _ _ H3 X2) as (x & Y1 & Y2). destruct (take_nth _ _ _ _ _ H4 X2) as (y & Z1 & Z2). split; [congruence|].
    rewrite (map_nth_error _ _ _ Z1), (map_nth_error _ _ _ Z2). reflexivity.
  - destruct (detach_bulk_ok X t Hu) as (c' & t' & i & E1 & H1 & H2 & H3). rewrite E1. cbn [bind fst snd]. rewrite E. cbn [bind]. eexists. split; [reflexivity|]. constructor; [|exact HF].
    unfold k3d_shows. split; [eapply detached_of; eauto|exact I].
Qed.
Lemma k3d_no_points ndim tris data m : bpd m = None -> to_k3d ndim tris data [] top m = Err AttributeError.
Proof. intros H. unfold to_k3d, source, is_source. cbn [find snd]. now rewrite H. Qed.
