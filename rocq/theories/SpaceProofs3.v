(** * Proofs about [SpaceModel.v], part 3: frames of lines and planes, local coordinates *)
From Coq Require Import Reals Lra Lia List Psatz.
From Verif Require Import BaseFacts TrModel TrProofs EvalProofs ShapeProofs3 ShapeProofs4 TriProofs TriProofs3 TriProofs4 TriProofs5 LocProofs9 SpaceModel SpaceSpec NodalProofs NodalProofs4 NodalProofs5 NodalProofs7 SpaceProofs SpaceProofs2.
Import ListNotations.
Local Open Scope R_scope.

Lemma ends_exist (ec : list (list R)) : ec <> [] -> exists p0 pl, line_ends ec p0 pl.
Proof.
  intros H. destruct (nth_error_lt ec 0) as [p0 E0]; [destruct ec; [congruence|cbn; lia]|]. destruct (nth_error_lt ec (length ec - 1)) as [pl El]; [destruct ec; [congruence|cbn; lia]|]. exists p0, pl. now split.
Qed.
Lemma ends_fun ec p0 pl q0 ql : line_ends ec p0 pl -> line_ends ec q0 ql -> q0 = p0 /\ ql = pl.
Proof. intros (A & B) (C & D). split; congruence. Qed.
Lemma lines_auto : forall l coords ecs refZ, mesh_at coords (topo_of l) ecs -> rect 3 coords -> (refZ = RefNone \/ refZ = RefOther) -> Forall (fun ec => ec <> [] /\ forall p0 pl, line_ends ec p0 pl -> p0 <> pl) ecs ->
  exists frs, frames_of_lines coords l refZ = Ok frs /\ Forall2 (fun ec fr => forall p0 pl, line_ends ec p0 pl -> line_frame_auto p0 pl fr) ecs frs.
Proof.
  intros l coords ecs refZ HM HR HZ HF. assert (E : frames_of_lines coords l refZ = mapM (frame_of_line_auto coords) (topo_of l)) by (destruct HZ as [-> | ->]; reflexivity). rewrite E. clear E HZ refZ.
  induction HM as [|nodes ec topo ecs HN HM IH]; [exists []; split; [reflexivity|constructor]|]. inversion HF as [|? ? [H1 H2] HF']; subst. destruct (IH HF') as (frs & E & P).
  destruct (ends_exist ec H1) as (p0 & pl & HE). destruct (line_auto_one _ _ _ _ _ HN HR (proj1 HE) (proj2 HE) (H2 _ _ HE)) as (a & b & c & EA & RH & AL & LE).
  exists ([a; b; c] :: frs). cbn [mapM]. rewrite EA. cbn [bind]. rewrite E. split; [reflexivity|]. constructor; [|exact P]. intros q0 ql HQ. destruct (ends_fun _ _ _ _ _ HE HQ) as (-> & ->). exists a, b, c. now split.
Qed.
Lemma lines_ref_rows : forall coords (topo : list (list nat)) ecs refs k all, mesh_at coords topo ecs -> rect 3 coords -> length refs = length topo -> rect 3 refs -> (forall i r, nth_error refs i = Some r -> get all (k + i) = Ok r) ->
  Forall2 (fun ec ref => ec <> [] /\ forall p0 pl, line_ends ec p0 pl -> ~ on_common_line [p0; pl; ref]) ecs refs ->
  exists frs, mapM (fun ir => do p <- get all (fst ir); frame_of_line_ref coords (snd ir) p) (enum_from k topo) = Ok frs /\
    forall i ec ref fr, nth_error ecs i = Some ec -> nth_error refs i = Some ref -> nth_error frs i = Some fr -> forall p0 pl, line_ends ec p0 pl -> line_frame_ref p0 pl ref fr.
Proof.
  intros coords topo ecs refs k all HM HR. revert refs k. induction HM as [|nodes ec topo ecs HN HM IH]; intros refs k HL HD HG HF.
  - exists []. split; [reflexivity|]. intros [|i] ? ? ? H; discriminate.
  - inversion HF as [|? ref ? refs' [H1 H2] HF']; subst. destruct (IH refs' (S k)) as (frs & E & P); [cbn in HL; lia|now inversion HD| |exact HF'|].
    { intros i r Hr. rewrite <- (HG (S i) r Hr). f_equal. lia. }
    destruct (ends_exist ec H1) as (p0 & pl & HE). destruct (line_ref_one _ _ _ _ _ ref HN HR (proj1 HE) (proj2 HE)) as (a & b & c & EA & RH & AL & PB & PC); [now inversion HD|exact (H2 _ _ HE)|].
    exists ([a; b; c] :: frs). cbn [enum_from mapM fst snd]. rewrite <- (Nat.add_0_r k) at 1. rewrite (HG 0%nat ref eq_refl). cbn [bind]. rewrite EA. cbn [bind]. rewrite E. split; [reflexivity|].
    intros [|i] ec' ref' fr' Q1 Q2 Q3; cbn in Q1, Q2, Q3.
    + injection Q1 as <-. injection Q2 as <-. injection Q3 as <-. intros q0 ql HQ. destruct (ends_fun _ _ _ _ _ HE HQ) as (-> & ->). exists a, b, c. now split.
    + exact (P i ec' ref' fr' Q1 Q2 Q3).
Qed.
Lemma lines_refs : forall l coords ecs refs, mesh_at coords (topo_of l) ecs -> rect 3 coords -> length refs = length ecs -> rect 3 refs ->
  Forall2 (fun ec ref => ec <> [] /\ forall p0 pl, line_ends ec p0 pl -> ~ on_common_line [p0; pl; ref]) ecs refs ->
  exists frs, frames_of_lines coords l (RefPoints refs) = Ok frs /\ length frs = length ecs /\
    forall i ec ref fr, nth_error ecs i = Some ec -> nth_error refs i = Some ref -> nth_error frs i = Some fr -> forall p0 pl, line_ends ec p0 pl -> line_frame_ref p0 pl ref fr.
Proof.
  intros l coords ecs refs HM HR HL HD HF. pose proof (Forall2_len _ _ _ HM) as LT. destruct (lines_ref_rows coords (topo_of l) ecs refs 0 refs HM HR) as (frs & E & P); [lia|exact HD|intros i r Hr; now apply get_Ok|exact HF|].
  exists frs. split; [exact E|]. split; [|exact P]. apply mapM_length in E. rewrite enum_from_length in E. lia.
Qed.
Lemma lines_ref : forall l coords ecs ref, mesh_at coords (topo_of l) ecs -> rect 3 coords -> dim 3 ref ->
  Forall (fun ec => ec <> [] /\ forall p0 pl, line_ends ec p0 pl -> ~ on_common_line [p0; pl; ref]) ecs ->
  exists frs, frames_of_lines coords l (RefPoint ref) = Ok frs /\ Forall2 (fun ec fr => forall p0 pl, line_ends ec p0 pl -> line_frame_ref p0 pl ref fr) ecs frs.
Proof.
  intros l coords ecs ref HM HR HD HF. change (frames_of_lines coords l (RefPoint ref)) with (mapM (fun nodes => frame_of_line_ref coords nodes ref) (topo_of l)).
  induction HM as [|nodes ec topo ecs HN HM IH]; [exists []; split; [reflexivity|constructor]|]. inversion HF as [|? ? [H1 H2] HF']; subst. destruct (IH HF') as (frs & E & P).
  destruct (ends_exist ec H1) as (p0 & pl & HE). destruct (line_ref_one _ _ _ _ _ ref HN HR (proj1 HE) (proj2 HE) HD (H2 _ _ HE)) as (a & b & c & EA & RH & AL & LE).
  exists ([a; b; c] :: frs). cbn [mapM]. rewrite EA. cbn [bind]. rewrite E. split; [reflexivity|]. constructor; [|exact P]. intros q0 ql HQ. destruct (ends_fun _ _ _ _ _ HE HQ) as (-> & ->). exists a, b, c. now split.
Qed.

(** ** planes *)
Lemma center_value d rows : rows <> [] -> rect d rows -> center_of_points Floating rows = Ok (means d rows).
Proof.
  intros HN HR. transitivity (cell_center Floating rows); [reflexivity|]. now apply cell_center_value.
Qed.
Lemma plane_at coords p0 pm : coords <> [] -> rect 3 coords -> nth_error coords 0 = Some p0 -> nth_error coords (Nat.div (length coords) 2) = Some pm ->
  dim 3 p0 /\ dim 3 pm /\ dim 3 (means 3 coords) /\
  frame_of_plane Floating coords = (do abc <- axes_of Floating (sub p0 (means 3 coords)) (sub pm (means 3 coords)); let '(a, b, c) := abc in Ok (means 3 coords, of_columns a b c)).
Proof.
  intros HN HR H0 Hm. pose proof (rect_nth _ _ _ _ HR H0) as D0. pose proof (rect_nth _ _ _ _ HR Hm) as Dm. assert (DC : dim 3 (means 3 coords)) by apply (means_mean 3 coords HN).
  split; [exact D0|]. split; [exact Dm|]. split; [exact DC|]. unfold frame_of_plane. rewrite (center_value 3 coords HN HR). cbn [bind]. rewrite (proj2 (get_Ok _ _ _) H0). cbn [bind]. rewrite (proj1 (vsub_dim3 p0 _ D0 DC)). cbn [bind].
  rewrite (proj2 (get_Ok _ _ _) Hm). cbn [bind]. rewrite (proj1 (vsub_dim3 pm _ Dm DC)). reflexivity.
Qed.
Lemma plane_frame : forall coords p0 pm m, coords <> [] -> rect 3 coords -> nth_error coords 0 = Some p0 -> nth_error coords (Nat.div (length coords) 2) = Some pm -> mean_row 3 coords m -> ~ on_common_line [m; p0; pm] ->
  exists tr a b c, frame_of_plane Floating coords = Ok (m, tr) /\ has_columns tr a b c /\ right_handed a b c /\ along (sub p0 m) a /\ 0 < sprod b (sub pm m) /\ sprod c (sub pm m) = 0.
Proof.
  intros coords p0 pm m HN HR H0 Hm HM HO. assert (m = means 3 coords) by (apply (mean_unique 3 coords); [exact HN|exact HM|now apply means_mean]). subst m.
  destruct (plane_at coords p0 pm HN HR H0 Hm) as (D0 & Dm & DC & E).
  destruct (axes_ok (sub p0 (means 3 coords)) (sub pm (means 3 coords))) as (a & b & c & EA & RH & AL & PB & PC); [apply vsub_dim3; assumption|apply vsub_dim3; assumption|now rewrite cross_line|].
  rewrite E, EA. cbn [bind]. exists (of_columns a b c), a, b, c. split; [reflexivity|]. split; [|now split]. unfold has_columns, of_columns. reflexivity.
Qed.
Lemma plane_degenerate : forall coords p0 pm m, coords <> [] -> rect 3 coords -> nth_error coords 0 = Some p0 -> nth_error coords (Nat.div (length coords) 2) = Some pm -> mean_row 3 coords m -> on_common_line [m; p0; pm] ->
  frame_of_plane Floating coords = Err ValueError.
Proof.
  intros coords p0 pm m HN HR H0 Hm HM HO. assert (m = means 3 coords) by (apply (mean_unique 3 coords); [exact HN|exact HM|now apply means_mean]). subst m.
  destruct (plane_at coords p0 pm HN HR H0 Hm) as (D0 & Dm & DC & E). rewrite E, axes_zero; [reflexivity|apply vsub_dim3; assumption|apply vsub_dim3; assumption|now apply cross_line].
Qed.
(** parallelograms *)
Lemma plane_parallelogram : forall p0 p1 p2 p3, dim 3 p0 -> dim 3 p1 -> dim 3 p2 -> dim 3 p3 -> (forall k, (k < 3)%nat -> at_ k p0 + at_ k p2 = at_ k p1 + at_ k p3) -> frame_of_plane Floating [p0; p1; p2; p3] = Err ValueError.
Proof.
  intros p0 p1 p2 p3 H0 H1 H2 H3 HP. assert (HN : [p0; p1; p2; p3] <> []) by discriminate. assert (HR : rect 3 [p0; p1; p2; p3]) by (repeat constructor; assumption).
  apply (plane_degenerate [p0; p1; p2; p3] p0 p2 (means 3 [p0; p1; p2; p3])); [exact HN|exact HR|reflexivity|reflexivity|now apply means_mean|].
  exists p0, (sub p2 p0). assert (S : forall k, (k < 3)%nat -> at_ k (sub p2 p0) = at_ k p2 - at_ k p0).
  { intros k Hk. destruct (dim3 _ H0) as (? & ? & ? & ->), (dim3 _ H2) as (? & ? & ? & ->). destruct k as [|[|[|k]]]; [reflexivity|reflexivity|reflexivity|lia]. }
  intros p [<-|[<-|[<-|[]]]].
  - exists (/ 2). intros k Hk. rewrite means_nth, (S k Hk) by exact Hk. cbn [map rsum fold_right length INR]. pose proof (HP k Hk). lra.
  - exists 0. intros k Hk. ring.
  - exists 1. intros k Hk. rewrite (S k Hk). ring.
Qed.
(** triangles *)
Lemma plane_triangle : forall p0 p1 p2, dim 3 p0 -> dim 3 p1 -> dim 3 p2 -> ~ on_common_line [p0; p1; p2] ->
  exists m tr a b c, frame_of_plane Floating [p0; p1; p2] = Ok (m, tr) /\ mean_row 3 [p0; p1; p2] m /\ has_columns tr a b c /\ right_handed a b c /\ along (sub p0 m) a /\ sprod c p1 = sprod c p0 /\ sprod c p2 = sprod c p0.
Proof.
  intros p0 p1 p2 H0 H1 H2 HO. set (ps := [p0; p1; p2]) in *. assert (HN : ps <> []) by discriminate. assert (HR : rect 3 ps) by (repeat constructor; assumption). set (m := means 3 ps).
  assert (HM : mean_row 3 ps m) by now apply means_mean. assert (Dm : dim 3 m) by apply HM.
  assert (M : forall k, (k < 3)%nat -> at_ k m = (at_ k p0 + at_ k p1 + at_ k p2) / 3). { intros k Hk. unfold m. rewrite means_nth by exact Hk. unfold ps. cbn [map rsum fold_right length INR]. field. }
  destruct (plane_frame ps p0 p1 m HN HR eq_refl eq_refl HM) as (tr & a & b & c & E & HC & RH & AL & PB & PC).
  { intros (o & u & L). apply HO. destruct (L m) as (tm & Tm); [cbn; tauto|]. destruct (L p0) as (t0 & T0); [cbn; tauto|]. destruct (L p1) as (t1 & T1); [cbn; tauto|]. exists o, u. intros p [<-|[<-|[<-|[]]]]; [exists t0; exact T0|exists t1; exact T1|].
    exists (3 * tm - t0 - t1). intros k Hk. pose proof (M k Hk). pose proof (Tm k Hk). pose proof (T0 k Hk). pose proof (T1 k Hk). nra. }
  exists m, tr, a, b, c. split; [exact E|]. split; [exact HM|]. split; [exact HC|]. split; [exact RH|]. split; [exact AL|].
  destruct RH as (Da & Db & Dc & Ua & Ub & Uc & Oab & Obc & Oca & Hd).
  assert (PA : sprod c (sub p0 m) = 0). { destruct AL as (t & Ht & LA & SA). rewrite sprod3 in Oca by assumption. rewrite !SA in Oca. rewrite sprod3; [|assumption|apply vsub_dim3; assumption]. apply (Rmult_eq_reg_l t); lra. }
  assert (S : forall p q k, dim 3 p -> dim 3 q -> (k < 3)%nat -> at_ k (sub p q) = at_ k p - at_ k q).
  { intros p q k Hp Hq Hk. destruct (dim3 _ Hp) as (? & ? & ? & ->), (dim3 _ Hq) as (? & ? & ? & ->). destruct k as [|[|[|k]]]; [reflexivity|reflexivity|reflexivity|lia]. }
  rewrite sprod3 in PA, PC by (assumption || (apply vsub_dim3; assumption)). rewrite !S in PA, PC by (assumption || lia). rewrite !(M _) in PA, PC by lia. rewrite !sprod3 by assumption. split; lra.
Qed.
