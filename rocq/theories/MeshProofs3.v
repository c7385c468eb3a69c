(** * Proofs about standard forms, part 3: the standard form of a mesh *)
From Coq Require Import Reals Lra Lia ZArith List String.
From Verif Require Import Base BaseFacts TopoSpec TopoProofs4 NodalProofs4 FrameProofs MeshModel MeshSpec MeshProofs MeshProofs2.
Import ListNotations.
Local Open Scope nat_scope.

Lemma drop_cells b : cell_arrays (drop_points b) = cell_arrays b.
Proof.
  induction b as [f pd cd subs IH] using block_induction. cbn [drop_points cell_arrays]. f_equal.
  induction IH as [|b l Hb _ IHl]; [reflexivity|]. cbn [map flat_map]. now rewrite Hb, IHl.
Qed.
Lemma drop_cells_l l : flat_map cell_arrays (map drop_points l) = flat_map cell_arrays l.
Proof. induction l as [|b l IH]; [reflexivity|]. cbn [map flat_map]. now rewrite drop_cells, IH. Qed.
Lemma drop_arrays b : arrays (drop_points b) = [].
Proof.
  induction b as [f pd cd subs IH] using block_induction. cbn [drop_points arrays app].
  induction IH as [|b l Hb _ IHl]; [reflexivity|]. cbn [map flat_map]. now rewrite Hb.
Qed.
Lemma drop_arrays_l l : flat_map arrays (map drop_points l) = [].
Proof. induction l as [|b l IH]; [reflexivity|]. cbn [map flat_map]. now rewrite drop_arrays, IH. Qed.
Lemma drop_kept dc all b : forall b', blocks_kept dc all b b' -> blocks_kept dc all b (drop_points b').
Proof.
  induction b as [f pd cd subs IH] using block_induction. intros b' H. inversion H as [? ? ? ? pd' cd' subs' H1 H2]; subst. cbn [drop_points]. constructor; [assumption|].
  clear -IH H2. revert subs' H2. induction IH as [|b l Hb _ IHl]; intros subs' H2; inversion H2; subst; cbn [map]; constructor; auto.
Qed.
Lemma drop_kept_l dc all l l' : Forall2 (blocks_kept dc all) l l' -> Forall2 (blocks_kept dc all) l (map drop_points l').
Proof. induction 1; cbn [map]; constructor; auto. now apply drop_kept. Qed.
(** without points below, the source of every cell is the same *)
Lemma cells_in_bare b : arrays b = [] -> forall up src, cells_in up src b = map (fun r => (src, r)) (rows_in b).
Proof.
  induction b as [f pd cd subs IH] using block_induction. intros H up src. cbn [arrays] in H. apply app_eq_nil in H as [H1 H2].
  destruct pd as [p|]; [discriminate|]. cbn [cells_in]. rewrite rows_in_block, map_app. f_equal; [now destruct cd|].
  generalize (frame_in up (Block f None cd subs)). intros u. clear H1. induction IH as [|b l Hb _ IHl]; [reflexivity|].
  cbn [flat_map] in *. apply app_eq_nil in H2 as [H2 H3]. rewrite rows_l_cons, map_app, Hb, IHl; auto.
Qed.
Lemma framed_bare b : arrays b = [] -> forall up, framed up b = [].
Proof. intros H up. rewrite <- (framed_arrays b up) in H. now apply map_eq_nil in H. Qed.
Lemma framed_bare_l l : flat_map arrays l = [] -> forall up, flat_map (framed up) l = [].
Proof.
  intros H up. induction l as [|b l IH]; [reflexivity|]. cbn [flat_map] in *. apply app_eq_nil in H as [H1 H2]. now rewrite framed_bare, IH.
Qed.
Lemma cells_in_bare_l l : flat_map arrays l = [] -> forall up src, flat_map (cells_in up src) l = map (fun r => (src, r)) (rows_l l).
Proof.
  intros H up src. induction l as [|b l IH]; [reflexivity|]. cbn [flat_map] in *. apply app_eq_nil in H as [H1 H2]. now rewrite rows_l_cons, map_app, cells_in_bare, IH.
Qed.

(** the places after the transformation: coordinates were converted to the root frame, and by the constructor once more *)
Lemma root_place m f x : receives (root_frame m) m -> In (Some f) (map fst (framed None m)) ->
  place (root_frame m) (shown f (bframe m) x) = place f x.
Proof.
  intros [Ho Hr] Hin. unfold root_frame in *. destruct (bframe m) as [g|].
  - apply place_shown; [assumption|]. unfold sees. destruct f as [a|a o]; [|exact I]. destruct Hr as [(b & [-> | ->])|Hr]; [reflexivity|reflexivity|].
    rewrite Forall_forall in Hr. apply in_map_iff in Hin as ([f' p] & E & Hin). cbn [fst] in E. subst f'. destruct (Hr _ Hin) as (a' & o' & E). discriminate.
  - rewrite shown_ambient. unfold place at 1, standard. cbn [origin_of axes]. change (0, 0, 0)%R with vzero. change ((1, 0, 0), (0, 1, 0), (0, 0, 1))%R with meye.
    now rewrite vplus_0_l, direction_eye.
Qed.
Lemma constructed m X : show (new_cloud X (bframe m) None) None = map (place (root_frame m)) X.
Proof. rewrite show_map. cbn [new_cloud array cframe]. apply map_ext. intros x. rewrite shown_ambient. unfold root_frame. now destruct (bframe m). Qed.

Lemma cells_in_sources b : forall up src c f xs, In c (cells_in up src b) -> fst c = Some (f, xs) -> src = Some (f, xs) \/ In (Some f) (map fst (framed up b)).
Proof.
  induction b as [fr pd cd subs IH] using block_induction. intros up src c f xs Hc Ec. cbn [cells_in framed] in *. set (u := frame_in up (Block fr pd cd subs)) in *.
  set (s := match pd with Some p => match u with Some g => Some (g, px p) | None => src end | None => src end) in *.
  assert (Hs : s = Some (f, xs) -> src = Some (f, xs) \/ In (Some f) (map fst (match pd with Some p => [(u, p)] | None => [] end))).
  { subst s. destruct pd as [p|]; [|now left]. destruct u as [g|]; [|now left]. intros E. injection E as -> _. right. now left. }
  assert (Hor : s = Some (f, xs) \/ In (Some f) (map fst (flat_map (framed u) subs))).
  { apply in_app_or in Hc as [Hc|Hc].
    - destruct cd as [k|]; [|destruct Hc]. apply in_map_iff in Hc as (r & <- & _). now left.
    - apply in_flat_map in Hc as (b & Hb & Hc). rewrite Forall_forall in IH. destruct (IH b Hb _ _ _ _ _ Hc Ec) as [|H]; [now left|]. right.
      apply in_map_iff in H as (fp & <- & H). apply in_map. apply in_flat_map. eauto. }
  rewrite map_app. destruct Hor as [E|H].
  - destruct (Hs E) as [|H]; [now left|right]. apply in_or_app. now left.
  - right. apply in_or_app. now right.
Qed.
Lemma valid_sources m ps : mesh_at m ps -> Forall in_source (cells_in None None m).
Proof.
  unfold mesh_at. induction 1 as [|c qs l ps Hc _ IH]; constructor; [|assumption]. unfold in_source. induction Hc as [|i q r qs Hi _ IHr]; constructor; [|assumption].
  unfold node_at in Hi. destruct (fst c) as [[f xs]|]; [|contradiction]. destruct Hi as (x & E & _). exists f, xs. split; [reflexivity|]. apply nth_error_Some. congruence.
Qed.
(** the root gets all points *)
Lemma root_source t f pd cd subs n u : u = frame_in None (Block f pd cd subs) -> n = total (framed None (Block f pd cd subs)) ->
  source_ok t (concat (map (shown_points t) (framed None (Block f pd cd subs))))
    (match pd, u with Some p, Some g => Some (g, px p) | _, _ => None end) (seq 0 n).
Proof.
  intros -> ->. destruct pd as [p|]; [|exact I]. destruct (frame_in_some None f p cd subs) as [g Eg]. rewrite Eg. cbn [source_ok]. intros i x E.
  assert (Hi : i < length (px p)) by (apply nth_error_Some; congruence). cbn [framed]. rewrite Eg. exists i. split.
  - rewrite nth_error_seq; [reflexivity|]. rewrite total_app. unfold total at 1. cbn. lia.
  - cbn [app map concat]. rewrite nth_error_app1 by (rewrite shown_length; exact Hi). unfold shown_points. cbn [fst snd]. rewrite show_map. now apply map_nth_error.
Qed.
Lemma renamed_places F t X src' c r' qs :
  (forall f xs x, fst c = Some (f, xs) -> place F (shown f t x) = place f x) -> src' = Some (F, map (place F) X) ->
  Forall2 (node_at (fst c)) (snd c) qs -> renamed t X c r' -> Forall2 (node_at src') r' (map (place F) qs).
Proof.
  intros HF -> Hq Hr. unfold renamed in Hr. revert qs Hq. induction Hr as [|i j r r' (f & xs & x & Ec & Ex & Ej) _ IH]; intros qs Hq; inversion Hq as [|? q ? qs' Hn Hqs]; subst; cbn [map]; constructor; [|auto].
  cbn [node_at]. exists (place F (shown f t x)). split; [now apply map_nth_error|]. apply placed_iff. rewrite (HF _ _ _ Ec).
  unfold node_at in Hn. rewrite Ec in Hn. destruct Hn as (x' & Ex' & Hp). rewrite Ex in Ex'. injection Ex' as <-. apply placed_iff in Hp. now rewrite Hp.
Qed.
Lemma places_list F t X l ps rs :
  (forall c f xs x, In c l -> fst c = Some (f, xs) -> place F (shown f t x) = place f x) ->
  Forall2 (fun c qs => Forall2 (node_at (fst c)) (snd c) qs) l ps -> Forall2 (renamed t X) l rs ->
  Forall2 (fun c qs => Forall2 (node_at (fst c)) (snd c) qs) (map (fun r => (Some (F, map (place F) X), r)) rs) (map (map (place F)) ps).
Proof.
  intros HF H. revert rs. induction H as [|c qs l ps Hc _ IH]; intros rs Hr; inversion Hr as [|? r' ? rs' H1 H2]; subst; cbn [map]; constructor.
  - cbn [fst snd]. apply (renamed_places F t X _ c r' qs); auto. intros f xs x. apply HF. now left.
  - apply IH; [|assumption]. intros c' f xs x Hc'. apply HF. now right.
Qed.
Lemma Forall2_map_self {A B} (R : A -> B -> Prop) (g : A -> B) l : (forall x, R x (g x)) -> Forall2 R l (map g l).
Proof. intros H. induction l; cbn [map]; constructor; auto. Qed.

Lemma standardize dp dc m ps : receives (root_frame m) m -> mesh_at m ps -> arrays m <> [] -> cell_arrays m <> [] ->
  Forall (fun p => length (px p) <> 1) (arrays m) -> joinable (map pfields (arrays m)) ->
  exists m' ps', to_standard_form dp dc m = Ok m' /\ standard_form dp dc m m' /\
    mesh_at m' ps' /\ Forall2 (Forall2 (placed_at (root_frame m))) ps ps' /\
    forall qs, points_at m qs -> exists qs', points_at m' qs' /\ Forall2 (placed_at (root_frame m)) qs qs'.
Proof.
  intros Hrec Hps Hne Hce Hone Hj. unfold to_standard_form. rewrite (number_ok _ _ Hone). cbn [bind fst snd]. rewrite walk_arrays, arrays_renumber.
  set (t := bframe m). set (fr := framed None m). set (X := concat (map (shown_points t) fr)).
  pose proof (renum_px t fr 0) as Epx. pose proof (renum_ids t fr 0) as Eid. pose proof (renum_fields t fr 0) as Efs.
  assert (Hps0 : renum_points t 0 fr <> []).
  { unfold fr. rewrite <- (framed_arrays m None) in Hne. destruct (framed None m) as [|[? ?] ?]; [now elim Hne|discriminate]. }
  assert (Hfs : exists fs, merge_fields dp (renum_points t 0 fr) = Ok fs /\
    forall s, (some_has s (map pfields (arrays m)) -> exists f, find_field s fs = Some f /\ rows f = concat (map (fun p => field_rows dp s (length (px p)) (pfields p)) (arrays m))) /\
              (~ some_has s (map pfields (arrays m)) -> find_field s fs = None)).
  { assert (Ef : map pfields (renum_points t 0 fr) = map pfields (arrays m)).
    { rewrite Efs. unfold fr. rewrite <- (framed_arrays m None), map_map. reflexivity. }
    assert (Er : forall s, map (fun p => field_rows dp s (length (px p)) (pfields p)) (renum_points t 0 fr) = map (fun p => field_rows dp s (length (px p)) (pfields p)) (arrays m)).
    { intros s. unfold fr. rewrite <- (framed_arrays m None), map_map. clear. generalize 0. induction (framed None m) as [|[f p] l IH]; intros n; [reflexivity|].
      cbn [renum_points map]. rewrite IH. f_equal. cbn [renumbered px pfields snd]. rewrite show_map, map_length. reflexivity. }
    destruct (merge_fields_ok dp (renum_points t 0 fr) Hps0) as (fs & E & H); [now rewrite Ef|]. exists fs. split; [assumption|]. intros s. specialize (H s). rewrite Ef, Er in H. exact H. }
  destruct Hfs as (fs & Emf & Hfs).
  destruct (renum_points t 0 fr) as [|p0 l0] eqn:El; [congruence|]. rewrite <- El in *. clear El p0 l0.
  cbn [guard bind]. replace (guard (match renum_points t 0 fr with [] => false | _ :: _ => true end) ValueError) with (@Ok unit tt) by (destruct (renum_points t 0 fr); [congruence|reflexivity]).
  cbn [bind]. rewrite Emf. cbn [bind]. rewrite Epx, Eid. fold X.
  destruct m as [f pd cd subs]. cbn [renumber bframe bcd bsub]. cbn [bframe] in t.
  match goal with |- context [cellblocks (walk top ?B)] => set (B2 := B) end.
  rewrite walk_cells. set (names := once _).
  assert (Hcs : cell_arrays B2 = cell_arrays (Block f pd cd subs)).
  { exact (cell_arrays_renumber t (Block f pd cd subs) None 0). }
  assert (Hnames : forall s, In s names <-> some_has s (map cfields (cell_arrays (Block f pd cd subs)))).
  { intros s. unfold names. rewrite once_In, some_has_In, Hcs, map_map. reflexivity. }
  clearbody names. rewrite Hcs.
  replace (guard (match cell_arrays (Block f pd cd subs) with [] => false | _ :: _ => true end) ValueError) with (@Ok unit tt) by (destruct (cell_arrays (Block f pd cd subs)); [congruence|reflexivity]).
  cbn [bind]. set (all := map cfields (cell_arrays (Block f pd cd subs))) in *.
  (* the cells *)
  pose proof (valid_sources _ _ Hps) as Hval. pose proof (root_source t f pd cd subs (total fr) _ eq_refl eq_refl) as Hsrc. fold fr in Hsrc. fold X in Hsrc.
  unfold B2. cbn [wire new_points pid]. cbn [cells_in] in Hval. apply Forall_app in Hval as [Hv1 Hv2].
  destruct (own_cells t X dc names all Hnames 0 _ _ cd Hsrc Hv1) as (cd2 & E1 & R1 & I1 & K1). rewrite E1. cbn [bind fst snd].
  assert (HX : contains X (concat (map (shown_points t) (flat_map (framed (frame_in None (Block f pd cd subs))) subs))) (0 + match pd with Some p => length (px p) | None => 0 end)).
  { assert (H : contains X X 0) by (intros i x; auto). unfold X at 2 in H. unfold fr in H. cbn [framed] in H. rewrite map_app, concat_app in H. apply contains_app in H as [_ H].
    rewrite shown_total in H. destruct pd; exact H || (unfold total in H; cbn in H; rewrite Nat.add_0_r in H; exact H). }
  destruct (wired_list t X dc names all subs (proj2 (Forall_forall _ _) (fun b _ => wire_ok t X dc names all Hnames b)) _ _ _ _ (0 + match cd with Some c => length (nodes c) | None => 0 end) HX Hsrc Hv2)
    as (l2 & E2 & R2 & I2 & K2).
  rewrite E2. cbn [bind fst snd].
  set (F := root_frame (Block f pd cd subs)) in *.
  set (PD := new_points _ _ _ _ _). exists (Block f (Some PD) cd2 (map drop_points l2)), (map (map (place F)) ps).
  assert (Epd : px PD = map (place F) X) by exact (constructed (Block f pd cd subs) X).
  assert (Efr : frame_in None (Block f (Some PD) cd2 (map drop_points l2)) = Some F).
  { unfold F, root_frame. cbn [bframe frame_in]. destruct f; [reflexivity|]. reflexivity. }
  split; [reflexivity|]. split; [|split; [|split]].
  - exists PD. split; [reflexivity|]. split; [cbn [arrays]; now rewrite drop_arrays_l|]. cbn [pid].
    assert (Elen : length (px PD) = total fr) by (rewrite Epd, map_length; apply shown_total).
    split; [now rewrite Elen|]. split.
    { rewrite Elen. unfold total, fr. rewrite <- (framed_arrays _ None), map_map. reflexivity. }
    split; [|split].
    + fold (ids_in (Block f (Some PD) cd2 (map drop_points l2))). rewrite ids_in_block, I1. unfold ids_l. rewrite drop_cells_l. fold (ids_l l2). rewrite I2.
      fold (rows_in (Block f pd cd subs)). rewrite rows_in_block, app_length, seq_app. destruct cd; reflexivity.
    + constructor; [assumption|]. now apply drop_kept_l.
    + exact Hfs.
  - unfold mesh_at. cbn [cells_in]. rewrite Efr. rewrite cells_in_bare_l by apply drop_arrays_l. unfold rows_l. rewrite drop_cells_l. fold (rows_l l2). rewrite Epd.
    replace (match cd2 with Some k => map (fun r => (Some (F, map (place F) X), r)) (nodes k) | None => [] end)
      with (map (fun r => (Some (F, map (place F) X), r)) (match cd2 with Some k => nodes k | None => [] end)) by (destruct cd2; reflexivity).
    rewrite <- map_app. apply (places_list F t X (cells_in None None (Block f pd cd subs))).
    + intros c g xs x Hc Ec. destruct (cells_in_sources _ _ _ _ _ _ Hc Ec) as [|Hin]; [discriminate|]. exact (root_place (Block f pd cd subs) g x Hrec Hin).
    + exact Hps.
    + cbn [cells_in]. now apply Forall2_app.
  - apply Forall2_map_self. intros qs. apply Forall2_map_self. intros q. now apply placed_iff.
  - intros qs Hqs. exists (map (place F) qs). split; [|apply Forall2_map_self; intros q; now apply placed_iff].
    unfold points_at. cbn [framed]. rewrite framed_bare_l by apply drop_arrays_l. cbn [app flat_map]. rewrite app_nil_r, Efr. cbn [fst snd]. rewrite Epd.
    unfold points_at in Hqs. fold fr in Hqs. unfold X.
    assert (Hfr : forall g, In (Some g) (map fst fr) -> forall x, place F (shown g t x) = place g x) by (intros g Hg x; exact (root_place (Block f pd cd subs) g x Hrec Hg)).
    clear -Hqs Hfr. revert qs Hqs. induction fr as [|[g p] l IH]; intros qs Hqs.
    + inversion Hqs. constructor.
    + cbn [flat_map map concat fst snd] in *. apply Forall2_app_inv_l in Hqs as (q1 & q2 & H1 & H2 & ->). rewrite !map_app. apply Forall2_app.
      * unfold shown_points. cbn [fst snd]. rewrite show_map. cbn [new_cloud array cframe]. clear H2. assert (Hg := Hfr). clear IH Hfr. revert q1 H1. induction (px p) as [|x xs IHx]; intros q1 H1; inversion H1 as [|? q ? qs' Hh Ht]; subst; cbn [map]; constructor; [|now apply IHx].
        cbn [fst snd] in *. destruct g as [g|]; [|contradiction]. apply placed_iff. rewrite (Hg g (or_introl eq_refl)). apply placed_iff in Hh. now rewrite Hh.
      * apply IH; [|assumption]. intros g' Hg'. apply Hfr. now right.
Qed.
