(** * Proofs about [ExchangeModel.v] *)
From Coq Require Import Reals List Lia Lra.
From Verif Require Import BaseFacts ExchangeModel ExchangeSpec SpaceProofs SpaceProofs2 SpaceProofs3 SpaceProofs4 SpaceProofs5 SpaceProofs6 SpaceProofs7 TileProofs3 ExtrudeProofs4.
Import ListNotations.

(** ** Meshes of other packages *)

Lemma ijk_units : ijk = [unit_vector 0; unit_vector 1; unit_vector 2].
Proof. reflexivity. Qed.

Lemma set_frames_same topo fr : length fr = length topo -> set_frames topo fr = Ok fr.
Proof.
  intros H. unfold set_frames. destruct fr as [|a [|b fr]]; rewrite <- H; cbn [length repeat]; try reflexivity.
  cbn [guard]. rewrite Nat.eqb_refl. reflexivity.
Qed.

Lemma mesh_at_length coords topo ecs : mesh_at coords topo ecs -> length ecs = length topo.
Proof. intros H. symmetry. exact (Forall2_len _ _ _ H). Qed.

Lemma import_block_ok coords c topo : rect 3 coords -> importable coords c topo ->
  exists b, import_block coords c topo = Ok b /\ bclass b = c /\ btopo b = topo /\ block_frames coords b.
Proof.
  intros HR [[HD (ecs & HM & HE)]|[[HD (ecs & HM & HE)]|HD]]; unfold import_block, import_frames; rewrite HD.
  - destruct (lines_auto (Lines topo) coords ecs RefNone HM HR (or_introl eq_refl) HE) as (frs & HF & H2).
    rewrite HF. cbn [bind]. rewrite set_frames_same by (rewrite <- (mesh_at_length _ _ _ HM); symmetry; exact (Forall2_len _ _ _ H2)).
    eexists. split; [reflexivity|]. cbn. split; [reflexivity|]. split; [reflexivity|]. left. cbn. split; [exact HD|]. exists ecs. split; assumption.
  - destruct (surface_frames coords topo ecs HM HR HE) as (frs & HF & H2).
    rewrite HF. cbn [bind]. rewrite set_frames_same by (rewrite <- (mesh_at_length _ _ _ HM); symmetry; exact (Forall2_len _ _ _ H2)).
    eexists. split; [reflexivity|]. cbn. split; [reflexivity|]. split; [reflexivity|]. right. left. cbn. split; [exact HD|]. exists ecs. split; assumption.
  - cbn [bind set_frames]. eexists. split; [reflexivity|]. cbn. split; [reflexivity|]. split; [reflexivity|]. right. right. cbn. split; [exact HD|]. split; [apply repeat_length|].
    apply Forall_forall. intros x Hx. apply repeat_spec in Hx. subst. reflexivity.
Qed.

Lemma supported_iff {A} (registry : dict A) ty : existsb (Nat.eqb ty) (map fst registry) = true <-> exists c, dget registry ty = Ok c.
Proof.
  rewrite dget_ok_iff. unfold dkeys. rewrite existsb_exists. split.
  - intros (x & H & E). apply Nat.eqb_eq in E. subst. exact H.
  - intros H. exists ty. split; [exact H|apply Nat.eqb_refl].
Qed.
Lemma not_supported {A} (registry : dict A) ty : existsb (Nat.eqb ty) (map fst registry) = false -> dget registry ty = Err KeyError.
Proof.
  intros H. induction registry as [|[k v] r IH]; [reflexivity|]. cbn in *. destruct (Nat.eqb ty k); [discriminate|]. exact (IH H).
Qed.

(** one step of the two loops *)
Definition meshio_step (registry : dict cellclass) coords (bs : dict cellblock) (cb : nat * list (list nat)) : res (dict cellblock) :=
  match dget registry (fst cb) with
  | Ok c => do b <- import_block coords c (snd cb); Ok (dset bs (fst cb) b)
  | Err _ => Ok bs
  end.
Definition pv_step (registry : dict cellclass) coords (bs : dict cellblock) (cb : nat * list (list nat)) : res (dict cellblock) :=
  match dget registry (fst cb) with
  | Ok c => do b <- import_block coords c (snd cb); Ok (dset bs (fst cb) b)
  | Err _ => Err NotImplementedError
  end.

Lemma from_meshio_loop registry coords cells : from_meshio registry coords cells = do blocks <- foldM (meshio_step registry coords) cells []; Ok (Imported coords blocks).
Proof. reflexivity. Qed.

Lemma dset_new {A} (d : dict A) k v : ~ In k (dkeys d) -> dset d k v = d ++ [(k, v)].
Proof. intros H. rewrite <- (app_nil_r d) at 1. rewrite dset_app by exact H. reflexivity. Qed.

Lemma meshio_loop registry coords cells : rect 3 coords -> all_importable registry coords cells ->
  forall bs, NoDup (dkeys bs ++ map fst cells) ->
  exists new, foldM (meshio_step registry coords) cells bs = Ok (bs ++ new) /\
    Forall2 (block_for registry coords) (filter (fun cb => supported registry (fst cb)) cells) new.
Proof.
  intros HR. induction cells as [|[ty topo] cells IH]; intros HI bs HN.
  - exists []. cbn. rewrite app_nil_r. split; [reflexivity|constructor].
  - assert (HI' : all_importable registry coords cells) by (intros t0 p c H; apply HI; right; exact H).
    cbn [foldM filter]. unfold meshio_step at 1. cbn [fst snd]. destruct (supported registry ty) eqn:S.
    + destruct (proj1 (supported_iff registry ty) S) as (c & HC). rewrite HC.
      destruct (import_block_ok coords c topo HR (HI ty topo c (or_introl eq_refl) (dget_In _ _ _ HC))) as (b & HB & H1 & H2 & H3). rewrite HB. cbn [bind].
      assert (HK : ~ In ty (dkeys bs)). { cbn [map fst] in HN. apply NoDup_remove_2 in HN. intros H. apply HN, in_or_app. left. exact H. }
      rewrite (dset_new _ _ _ HK). destruct (IH HI' (bs ++ [(ty, b)])) as (new & HF & H4).
      { unfold dkeys. rewrite map_app. cbn [map fst]. rewrite <- app_assoc. exact HN. }
      exists ((ty, b) :: new). split; [rewrite HF, <- app_assoc; reflexivity|]. constructor; [|exact H4].
      repeat split; cbn; try assumption. rewrite H1. exact (dget_In _ _ _ HC).
    + rewrite (not_supported _ _ S). cbn [bind]. apply IH; [exact HI'|]. cbn [map] in HN. apply NoDup_remove_1 in HN. exact HN.
Qed.

Lemma meshio_distinct registry coords cells : rect 3 coords -> NoDup (map fst cells) -> all_importable registry coords cells ->
  exists m, from_meshio registry coords cells = Ok m /\ ipoints m = coords /\
    Forall2 (block_for registry coords) (filter (fun cb => supported registry (fst cb)) cells) (iblocks m).
Proof.
  intros HR HN HI. destruct (meshio_loop registry coords cells HR HI [] HN) as (new & HF & H2).
  exists (Imported coords new). split; [|split; [reflexivity|exact H2]].
  unfold from_meshio. change (foldM _ cells []) with (foldM (meshio_step registry coords) cells []). rewrite HF. reflexivity.
Qed.

Lemma pv_loop registry coords cells : rect 3 coords -> all_importable registry coords cells -> Forall (fun cb => supported registry (fst cb) = true) cells ->
  forall bs, NoDup (dkeys bs ++ map fst cells) ->
  exists new, foldM (pv_step registry coords) cells bs = Ok (bs ++ new) /\ Forall2 (block_for registry coords) cells new.
Proof.
  intros HR. induction cells as [|[ty topo] cells IH]; intros HI HS bs HN.
  - exists []. cbn. rewrite app_nil_r. split; [reflexivity|constructor].
  - assert (HI' : all_importable registry coords cells) by (intros t0 p c H; apply HI; right; exact H).
    inversion HS as [|? ? S HS']; subst. cbn [fst] in S. cbn [foldM]. unfold pv_step at 1. cbn [fst snd].
    destruct (proj1 (supported_iff registry ty) S) as (c & HC). rewrite HC.
    destruct (import_block_ok coords c topo HR (HI ty topo c (or_introl eq_refl) (dget_In _ _ _ HC))) as (b & HB & H1 & H2 & H3). rewrite HB. cbn [bind].
    assert (HK : ~ In ty (dkeys bs)). { cbn [map fst] in HN. apply NoDup_remove_2 in HN. intros H. apply HN, in_or_app. left. exact H. }
    rewrite (dset_new _ _ _ HK). destruct (IH HI' HS' (bs ++ [(ty, b)])) as (new & HF & H4).
    { unfold dkeys. rewrite map_app. cbn [map fst]. rewrite <- app_assoc. exact HN. }
    exists ((ty, b) :: new). split; [rewrite HF, <- app_assoc; reflexivity|]. constructor; [|exact H4].
    repeat split; cbn; try assumption. rewrite H1. exact (dget_In _ _ _ HC).
Qed.

Lemma blocks_rows registry coords cells bs : Forall2 (block_for registry coords) cells bs -> concat (map (fun kb => btopo (snd kb)) bs) = concat (map snd cells).
Proof. induction 1 as [|cb kb cells bs (_ & _ & H & _) _ IH]; [reflexivity|]. cbn. rewrite H, IH. reflexivity. Qed.

Lemma pv_distinct registry coords cells : rect 3 coords -> NoDup (map fst cells) -> all_importable registry coords cells -> Forall (fun cb => supported registry (fst cb) = true) cells ->
  exists m, from_pv registry coords cells = Ok m /\ ipoints m = coords /\ Forall2 (block_for registry coords) cells (iblocks m) /\ cells_made m = cells_given cells.
Proof.
  intros HR HN HI HS. destruct (pv_loop registry coords cells HR HI HS [] HN) as (new & HF & H2).
  exists (Imported coords new). split; [|split; [reflexivity|split; [exact H2|]]].
  - unfold from_pv. change (foldM _ cells []) with (foldM (pv_step registry coords) cells []). rewrite HF. reflexivity.
  - unfold cells_made, cells_given. cbn [iblocks]. rewrite (blocks_rows _ _ _ _ H2). reflexivity.
Qed.

Lemma pv_unknown registry coords cells : rect 3 coords -> all_importable registry coords cells -> ~ Forall (fun cb => supported registry (fst cb) = true) cells ->
  from_pv registry coords cells = Err NotImplementedError.
Proof.
  intros HR HI HS. unfold from_pv. change (foldM _ cells []) with (foldM (pv_step registry coords) cells []).
  enough (H : forall bs, foldM (pv_step registry coords) cells bs = Err NotImplementedError) by (rewrite H; reflexivity).
  induction cells as [|[ty topo] cells IH]; intros bs; [exfalso; apply HS; constructor|].
  cbn [foldM]. unfold pv_step at 1. cbn [fst snd]. destruct (supported registry ty) eqn:S.
  - destruct (proj1 (supported_iff registry ty) S) as (c & HC). rewrite HC.
    destruct (import_block_ok coords c topo HR (HI ty topo c (or_introl eq_refl) (dget_In _ _ _ HC))) as (b & HB & _). rewrite HB. cbn [bind].
    apply IH; [intros t0 p c0 H; apply HI; right; exact H|]. intros H. apply HS. constructor; assumption.
  - rewrite (not_supported _ _ S). reflexivity.
Qed.

Lemma foldM_app {A S} (f : S -> A -> res S) l1 l2 s : foldM f (l1 ++ l2) s = do s' <- foldM f l1 s; foldM f l2 s'.
Proof. revert s. induction l1 as [|x l1 IH]; intros s; [reflexivity|]. cbn. destruct (f s x); [apply IH|reflexivity]. Qed.

Lemma meshio_skips registry coords pre ty topo post : supported registry ty = false ->
  from_meshio registry coords (pre ++ (ty, topo) :: post) = from_meshio registry coords (pre ++ post).
Proof.
  intros S. rewrite !from_meshio_loop, !foldM_app. destruct (foldM (meshio_step registry coords) pre []); [|reflexivity]. cbn [bind foldM]. unfold meshio_step at 1. cbn [fst]. rewrite (not_supported _ _ S). reflexivity.
Qed.

(** number of cells of the blocks *)
Definition nrows (bs : dict cellblock) : nat := length (concat (map (fun kb => btopo (snd kb)) bs)).
Lemma nrows_dset bs k b : nrows (dset bs k b) + match dget bs k with Ok b0 => length (btopo b0) | Err _ => 0 end = nrows bs + length (btopo b).
Proof.
  unfold nrows. induction bs as [|[k0 b0] bs IH]; cbn; [rewrite app_nil_r; lia|].
  destruct (Nat.eqb k k0); cbn; rewrite !app_length; [lia|]. lia.
Qed.
Lemma meshio_total registry coords cells : rect 3 coords -> all_importable registry coords cells ->
  forall bs, exists bs', foldM (meshio_step registry coords) cells bs = Ok bs' /\ nrows bs' <= nrows bs + cells_given cells /\
    forall ty, ~ In ty (map fst cells) -> dget bs' ty = dget bs ty.
Proof.
  intros HR. induction cells as [|[ty topo] cells IH]; intros HI bs.
  - exists bs. split; [reflexivity|]. split; [lia|reflexivity].
  - assert (HI' : all_importable registry coords cells) by (intros t0 p c H; apply HI; right; exact H).
    cbn [foldM]. unfold meshio_step at 1. cbn [fst snd]. unfold cells_given. cbn [map concat snd]. rewrite app_length. destruct (supported registry ty) eqn:S.
    + destruct (proj1 (supported_iff registry ty) S) as (c & HC). rewrite HC.
      destruct (import_block_ok coords c topo HR (HI ty topo c (or_introl eq_refl) (dget_In _ _ _ HC))) as (b & HB & H1 & H2 & H3). rewrite HB. cbn [bind].
      destruct (IH HI' (dset bs ty b)) as (bs' & HF & HL & HD). exists bs'. split; [exact HF|]. pose proof (nrows_dset bs ty b) as HE. rewrite H2 in HE. unfold cells_given in HL. split; [lia|].
      intros t Ht. rewrite HD by (intros H; apply Ht; right; exact H). rewrite dget_dset. destruct (Nat.eqb_spec t ty); [|reflexivity]. subst. exfalso. apply Ht. left. reflexivity.
    + rewrite (not_supported _ _ S). cbn [bind]. destruct (IH HI' bs) as (bs' & HF & HL & HD). exists bs'. split; [exact HF|]. unfold cells_given in HL. split; [lia|].
      intros t Ht. apply HD. intros H; apply Ht; right; exact H.
Qed.

Lemma meshio_step_ok registry coords bs ty topo c : rect 3 coords -> NoDup (map fst registry) -> In (ty, c) registry -> importable coords c topo ->
  exists b, meshio_step registry coords bs (ty, topo) = Ok (dset bs ty b) /\ block_for registry coords (ty, topo) (ty, b).
Proof.
  intros HR HN HC HI. unfold meshio_step. cbn [fst snd]. rewrite (In_dget _ _ _ HN HC).
  destruct (import_block_ok coords c topo HR HI) as (b & HB & H1 & H2 & H3). rewrite HB. exists b. split; [reflexivity|]. repeat split; cbn; try assumption. rewrite H1. exact HC.
Qed.

Lemma cells_given_app a b : cells_given (a ++ b) = cells_given a + cells_given b.
Proof. unfold cells_given. rewrite map_app, concat_app, app_length. reflexivity. Qed.

Lemma meshio_twice registry coords pre ty c t1 mid t2 post : rect 3 coords -> NoDup (map fst registry) -> In (ty, c) registry -> ~ In ty (map fst mid) -> ~ In ty (map fst post) ->
  all_importable registry coords (pre ++ (ty, t1) :: mid ++ (ty, t2) :: post) ->
  exists m b, from_meshio registry coords (pre ++ (ty, t1) :: mid ++ (ty, t2) :: post) = Ok m /\
    (forall b', In (ty, b') (iblocks m) <-> b' = b) /\ btopo b = t2 /\
    cells_made m + length t1 <= cells_given (pre ++ (ty, t1) :: mid ++ (ty, t2) :: post).
Proof.
  intros HR HN HC HM HP HI. rewrite from_meshio_loop.
  assert (I1 : all_importable registry coords pre) by (intros t0 p c0 H; apply HI, in_or_app; left; exact H).
  assert (I2 : importable coords c t1) by (apply (HI ty t1 c); [apply in_or_app; right; left; reflexivity|exact HC]).
  assert (I3 : all_importable registry coords mid) by (intros t0 p c0 H; apply HI, in_or_app; right; right; apply in_or_app; left; exact H).
  assert (I4 : importable coords c t2) by (apply (HI ty t2 c); [apply in_or_app; right; right; apply in_or_app; right; left; reflexivity|exact HC]).
  assert (I5 : all_importable registry coords post) by (intros t0 p c0 H; apply HI, in_or_app; right; right; apply in_or_app; right; right; exact H).
  destruct (meshio_total registry coords pre HR I1 []) as (bs1 & F1 & L1 & _).
  destruct (meshio_step_ok registry coords bs1 ty t1 c HR HN HC I2) as (b1 & F2 & B1).
  destruct (meshio_total registry coords mid HR I3 (dset bs1 ty b1)) as (bs3 & F3 & L3 & D3).
  destruct (meshio_step_ok registry coords bs3 ty t2 c HR HN HC I4) as (b2 & F4 & B2).
  destruct (meshio_total registry coords post HR I5 (dset bs3 ty b2)) as (bs5 & F5 & L5 & D5).
  exists (Imported coords bs5), b2.
  assert (HF : foldM (meshio_step registry coords) (pre ++ (ty, t1) :: mid ++ (ty, t2) :: post) [] = Ok bs5).
  { rewrite foldM_app, F1. cbn [bind foldM]. rewrite F2. cbn [bind]. rewrite foldM_app, F3. cbn [bind foldM]. rewrite F4. exact F5. }
  rewrite HF. split; [reflexivity|]. cbn [iblocks].
  assert (HK : NoDup (dkeys bs5)).
  { assert (G : forall l bs bs', NoDup (dkeys bs) -> foldM (meshio_step registry coords) l bs = Ok bs' -> NoDup (dkeys bs')).
    { induction l as [|[t p] l IH]; intros bs bs' H E; [injection E as <-; exact H|]. cbn [foldM] in E. unfold meshio_step at 1 in E. cbn [fst snd] in E.
      destruct (dget registry t); [|cbn [bind] in E; exact (IH _ _ H E)].
      destruct (import_block coords a p) as [b|]; [|discriminate]. cbn [bind] in E. apply (IH _ _) in E; [exact E|]. rewrite dkeys_dset.
      destruct (existsb (Nat.eqb t) (dkeys bs)) eqn:EX; [exact H|]. apply NoDup_app'; [exact H|constructor; [intros []|constructor]|].
      intros x Hx [<-|[]]. enough (existsb (Nat.eqb t) (dkeys bs) = true) by congruence. apply existsb_exists. exists t. split; [exact Hx|apply Nat.eqb_refl]. }
    exact (G _ [] _ (NoDup_nil _) HF). }
  split; [|split].
  - assert (G : dget bs5 ty = Ok b2) by (rewrite (D5 ty HP), dget_dset, Nat.eqb_refl; reflexivity).
    intros b'. split; [intros H; rewrite (In_dget _ _ _ HK H) in G; injection G as ->; reflexivity|intros ->; exact (dget_In _ _ _ G)].
  - exact (proj1 (proj2 (proj2 B2))).
  - unfold cells_made. cbn [iblocks]. fold (nrows bs5). change (pre ++ (ty, t1) :: mid ++ (ty, t2) :: post) with (pre ++ [(ty, t1)] ++ mid ++ [(ty, t2)] ++ post). rewrite !cells_given_app.
    assert (E1 : btopo b1 = t1) by exact (proj1 (proj2 (proj2 B1))). assert (E2 : btopo b2 = t2) by exact (proj1 (proj2 (proj2 B2))).
    pose proof (nrows_dset bs1 ty b1) as N1. pose proof (nrows_dset bs3 ty b2) as N3. rewrite (D3 ty HM), dget_dset, Nat.eqb_refl, E1, E2 in N3. rewrite E1 in N1.
    assert (S1 : cells_given [(ty, t1)] = length t1) by (unfold cells_given; cbn; rewrite app_nil_r; reflexivity).
    assert (S2 : cells_given [(ty, t2)] = length t2) by (unfold cells_given; cbn; rewrite app_nil_r; reflexivity).
    assert (Z : nrows [] = 0) by reflexivity. lia.
Qed.
