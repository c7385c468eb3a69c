(** * Proofs about [SurfaceModel.v] *)
From Coq Require Import Reals ZArith List Lia Lra Permutation.
From Verif Require SpaceModel SpaceProofs6 LocSpec.
From Verif Require Import BaseFacts TopoProofs4 FrameProofs MeshProofs MeshProofs2 MeshProofs3 MeshProofs4 MeshProofs5 MeshProofs7.
From Verif Require Import SurfaceSpec QueryProofs QueryProofs2.
Import ListNotations.

Lemma F2_first {A B} (P : A -> B -> Prop) l m : Forall2 P l m -> forall i x, nth_error l i = Some x -> exists y, nth_error m i = Some y /\ P x y.
Proof. intros F. induction F as [|x y l m H F IH]; intros [|i] z E; cbn in *; try discriminate; [|now apply IH]. injection E as <-. now exists y. Qed.
Lemma F2_second {A B} (P : A -> B -> Prop) l m : Forall2 P l m -> forall i y, nth_error m i = Some y -> exists x, nth_error l i = Some x /\ P x y.
Proof. intros F. induction F as [|x y l m H F IH]; intros [|i] z E; cbn in *; try discriminate; [|now apply IH]. injection E as <-. now exists x. Qed.

(** ** The surface of a block *)
Lemma apart_zero p q : (apart p q <= 0)%R -> p = q.
Proof.
  destruct p as [[p0 p1] p2], q as [[q0 q1] q2]. cbn [apart]. intros H. pose proof (Rle_0_sqr (p0 - q0)) as H0. pose proof (Rle_0_sqr (p1 - q1)) as H1. pose proof (Rle_0_sqr (p2 - q2)) as H2. unfold Rsqr in *.
  assert (Z : forall t, (t * t = 0)%R -> t = 0%R) by (intros t Ht; apply Rmult_integral in Ht; tauto).
  assert ((p0 - q0)%R = 0%R) by (apply Z; lra). assert ((p1 - q1)%R = 0%R) by (apply Z; lra). assert ((p2 - q2)%R = 0%R) by (apply Z; lra). apply triple_eq; lra.
Qed.
Lemma apart_self p : apart p p = 0%R. Proof. destruct p as [[x y] z]. cbn [apart]. ring. Qed.
Lemma nearest_same x q i k : nth_error x k = Some q -> nearest_at x q i -> nth_error x i = Some q.
Proof.
  intros Hk (r & Er & H). rewrite Forall_forall in H. specialize (H q (nth_error_In _ _ Hk)). rewrite apart_self in H. apply apart_zero in H. now subst.
Qed.
(** the search is a function of the position *)
Lemma closest_function query x : LocSpec.nearest_query query -> x <> [] -> exists h, (forall qs, SpaceModel.index_of_closest_point query (map row x) (SpaceModel.Targets (map row qs)) = Ok (SpaceModel.Indices (map h qs))) /\ forall q, nearest_at x q (h q).
Proof.
  intros HQ Hx. exists (fun q => nth 0 (query (map row x) (row q) 1 None) 0). split.
  - intros qs. cbn [SpaceModel.index_of_closest_point]. unfold LocModel.k_nearest_neighbours. cbn [Nat.eqb]. now rewrite !map_map.
  - intros q. destruct (SpaceProofs6.closest_many query (map row x) (map row [q]) HQ (rows_nonempty x Hx)) as (l & E & HF). cbn [SpaceModel.index_of_closest_point map] in E. unfold LocModel.k_nearest_neighbours in E. cbn [Nat.eqb map] in E. injection E as <-.
    inversion HF as [|? ? ? ? H _]; subst. now apply least_nearest.
Qed.
Lemma remap_in ts imap : Forall (Forall (fun i => i < length imap)) ts -> remap_topo ts (MArr imap) = Ok (map (map (fun i => nth i imap 0)) ts).
Proof.
  intros H. apply remap_topo_ok. intros n (a & b & r & Hr & Hn). rewrite Forall_forall in H. specialize (H r (nth_error_In _ _ Hr)). rewrite Forall_forall in H. specialize (H n (nth_error_In _ _ Hn)).
  cbn [mlookup]. apply get_Ok. now apply nth_error_nth'.
Qed.
Lemma extract_value query tool own x topo : LocSpec.nearest_query query -> source_coords own x <> [] -> Forall (Forall (fun i => i < length (fst (tool x topo)))) (snd (tool x topo)) ->
  exists h, extract_surface query tool own x topo false = Ok (source_coords own x, map (map (fun i => nth i (map h (fst (tool x topo))) 0)) (snd (tool x topo))) /\
    forall q, nearest_at (source_coords own x) q (h q).
Proof.
  intros HQ Hne Hb. destruct (closest_function query (source_coords own x) HQ Hne) as (h & E & Hh). exists h. split; [|exact Hh]. unfold extract_surface. rewrite E. cbn [bind]. rewrite remap_in by now rewrite map_length. reflexivity.
Qed.
Lemma own_same own x : own = None \/ own = Some x -> source_coords own x = x. Proof. now intros [-> | ->]. Qed.
Lemma extract_places query tool own x topo orig : LocSpec.nearest_query query -> x <> [] -> own = None \/ own = Some x -> surface_of x (tool x topo) orig ->
  exists ts, extract_surface query tool own x topo false = Ok (x, ts) /\
    (forall ps, triangles_at (fst (tool x topo)) (snd (tool x topo)) ps -> triangles_at x ts ps) /\ (NoDup x -> renamed orig (snd (tool x topo)) ts).
Proof.
  intros HQ Hne Ho [Hs Hb]. destruct (extract_value query tool own x topo HQ) as (h & E & Hh); [now rewrite own_same|assumption|]. rewrite own_same in * by assumption. eexists. split; [exact E|]. set (pts := fst (tool x topo)) in *. clear E.
  assert (Hq : forall i q, nth_error pts i = Some q -> exists k, nth_error orig i = Some k /\ nth_error x k = Some q /\ nth_error x (nth i (map h pts) 0) = Some q).
  { intros i q Hi. destruct (F2_first _ _ _ Hs i q Hi) as (k & Ek & Hk). exists k. split; [exact Ek|]. split; [exact Hk|]. rewrite (nth_error_nth (map h pts) i 0 (map_nth_error h i pts Hi)). apply (nearest_same x q (h q) k Hk (Hh q)). }
  split.
  - unfold triangles_at. generalize (snd (tool x topo)) as ts. intros ts ps H. induction H as [|t p ts ps Ht _ IH]; cbn [map]; constructor; [|exact IH]. induction Ht as [|i q t p Hi _ IHt]; cbn [map]; constructor; [|exact IHt]. destruct (Hq i q Hi) as (k & _ & _ & H). exact H.
  - intros Hd. unfold renamed. clear Hs. revert Hb. generalize (snd (tool x topo)) as ts. intros ts Hb. induction Hb as [|t ts Ht _ IH]; cbn [map]; constructor; [|exact IH]. induction Ht as [|i t Hi _ IHt]; cbn [map]; constructor; [|exact IHt].
    destruct (nth_error pts i) as [q|] eqn:Eq; [|apply nth_error_None in Eq; lia]. destruct (Hq i q Eq) as (k & Ek & Hk & Hn). rewrite Ek. f_equal. rewrite NoDup_nth_error in Hd. apply Hd; [apply nth_error_Some; congruence|congruence].
Qed.

(** ** The blocks with cells *)
Fixpoint cells_at (b : block) (path : list nat) : option cells :=
  match path with [] => bcd b | i :: t => match nth_error (bsub b) i with Some s => cells_at s t | None => None end end.
Lemma cells_of_at path : forall c b, match block_at c b path with Ok cb => bcd (snd cb) | Err _ => None end = cells_at b path.
Proof.
  induction path as [|i t IH]; intros c b; [reflexivity|]. cbn [block_at cells_at]. unfold get. destruct (nth_error (bsub b) i) as [s|]; cbn [bind]; [apply IH|reflexivity].
Qed.
Definition listed {A} (o : option A) : list A := match o with Some a => [a] | None => [] end.
Lemma cells_of_paths b : flat_map (fun p => listed (cells_at b p)) (paths_in b) = cell_arrays b.
Proof.
  induction b as [f pd cd subs IH] using block_induction. cbn [paths_in flat_map cells_at bcd bsub cell_arrays].
  replace (listed cd) with (match cd with Some k => [k] | None => [] end) by (now destruct cd). apply (f_equal (app _)).
  assert (G : forall pre l, subs = pre ++ l -> flat_map (fun p => listed (cells_at (Block f pd cd subs) p))
     ((fix below (i : nat) (l : list block) : list (list nat) := match l with [] => [] | s :: t => map (cons i) (paths_in s) ++ below (S i) t end) (length pre) l) = flat_map cell_arrays l).
  { intros pre l. revert pre. induction l as [|s l IHl]; intros pre Hl; [reflexivity|]. rewrite flat_map_app. cbn [flat_map]. f_equal.
    - rewrite flat_map_concat_map, map_map, <- flat_map_concat_map. rewrite Forall_forall in IH. rewrite <- (IH s) by (rewrite Hl; apply in_or_app; right; now left). apply flat_map_ext. intros p. cbn [cells_at bsub].
      rewrite Hl, nth_error_mid. reflexivity.
    - specialize (IHl (pre ++ [s])). rewrite app_length in IHl. cbn [length] in IHl. rewrite Nat.add_1_r in IHl. apply IHl. now rewrite <- app_assoc. }
  exact (G [] subs eq_refl).
Qed.
Lemma cell_paths_arrays m : map snd (cell_paths m) = cell_arrays m.
Proof.
  rewrite <- cells_of_paths. unfold cell_paths. induction (paths_in m) as [|p l IH]; [reflexivity|]. cbn [flat_map]. rewrite map_app, IH. f_equal. unfold cells_of. rewrite cells_of_at. now destruct (cells_at m p).
Qed.
Lemma block_at_back path : forall c m c' b, block_at c m path = Ok (c', b) -> exists u s, under (frame_here c) (ctx_src c) m path = Some (u, s, b).
Proof.
  induction path as [|i t IH]; intros c m c' b H; cbn [block_at under] in *.
  - injection H as _ <-. eauto.
  - unfold get in H. destruct (nth_error (bsub m) i) as [s|]; cbn [bind] in H; [|discriminate]. destruct (IH _ _ _ _ H) as (u & r & E). rewrite enter_frame, enter_src in E. eauto.
Qed.
Lemma cell_paths_under m path k : In (path, k) (cell_paths m) -> exists u s b, under None None m path = Some (u, s, b) /\ bcd b = Some k.
Proof.
  unfold cell_paths. rewrite in_flat_map. intros (p & _ & H). unfold cells_of in H. destruct (block_at top m p) as [[c b]|] eqn:E; [|destruct H]. cbn [snd] in H. destruct (bcd b) as [k'|] eqn:Ek; [|destruct H]. destruct H as [H|[]]. injection H as -> ->.
  destruct (block_at_back path top m c b E) as (u & s & Hu). exists u, s, b. auto.
Qed.

(** ** The surface of a mesh *)
Lemma plain_orthonormal T : plain_frame T -> orthonormal (axes T). Proof. intros [-> | ->]; exact orthonormal_eye. Qed.
Lemma plain_places T x : plain_frame T -> map (place T) x = x.
Proof. intros H. rewrite <- (map_id x) at 2. apply map_ext. intros q. now apply place_standard. Qed.
Lemma renamed_exists orig ts n : length orig = n -> Forall (Forall (fun i => i < n)) ts -> exists ts', renamed orig ts ts'.
Proof.
  intros Hn H. induction H as [|t ts Ht _ (ts' & IH)]; [exists []; constructor|]. assert (exists t', Forall2 (fun i n => nth_error orig i = Some n) t t') as [t' Ht'].
  { induction Ht as [|i t Hi _ (t' & IHt)]; [exists []; constructor|]. destruct (nth_error orig i) as [k|] eqn:E; [exists (k :: t'); now constructor|apply nth_error_None in E; lia]. }
  exists (t' :: ts'). now constructor.
Qed.
Lemma surface_blocks query tool attached m p T : LocSpec.nearest_query query -> finds_surface tool -> rooted m p T -> plain_frame T -> px p <> [] -> NoDup (px p) -> cell_arrays m <> [] ->
  Forall (fun k => tetrahedra (length (px p)) (nodes k)) (cell_arrays m) ->
  exists s k', mesh_surface query tool attached m = Ok s /\ coords_of top s None = Ok (px p) /\ cell_arrays s = [k'] /\
    forall t, (exists t', In t' (nodes k') /\ Permutation t' t) <-> exists k, In k (cell_arrays m) /\ on_boundary (nodes k) t.
Proof.
  intros HQ HT Hr Hf Hne Hd Hk Htet. pose proof (plain_orthonormal T Hf) as Ho. pose proof (rooted_coords m p T Hr Ho) as Ec. rewrite plain_places in Ec by assumption.
  assert (Hb : forall path k, In (path, k) (cell_paths m) -> exists ts, block_surface query tool attached m path k = Ok ts /\ covers_boundary (nodes k) ts).
  { intros path k Hin. destruct (cell_paths_under m path k Hin) as (u & s & b & Hu & Hbk). destruct (rooted_source m p T path u s b Hr Hu) as [Hs _].
    unfold block_surface, the_source. rewrite Hs. cbn [bind block_at fst snd]. rewrite Ec. cbn [bind]. destruct Hr as (Hp & _ & _). rewrite Hp. cbn [option_map].
    destruct (HT (px p) (nodes k)) as (orig & Hso & Hcov).
    destruct (extract_places query tool (if attached then Some (px p) else None) (px p) (nodes k) orig HQ Hne) as (ts & E & _ & Hren); [destruct attached; auto|assumption|]. rewrite E. cbn [bind snd]. exists ts. split; [reflexivity|].
    apply Hcov; [|now apply Hren]. rewrite Forall_forall in Htet. apply Htet. rewrite <- cell_paths_arrays. now apply (in_map snd _ (path, k)). }
  assert (G : exists tss, mapM (fun pk => block_surface query tool attached m (fst pk) (snd pk)) (cell_paths m) = Ok tss /\ Forall2 (fun pk ts => covers_boundary (nodes (snd pk)) ts) (cell_paths m) tss).
  { clear -Hb. induction (cell_paths m) as [|[path k] l IH]; [exists []; split; [reflexivity|constructor]|]. destruct (Hb path k (or_introl eq_refl)) as (ts & E & Hc). destruct (IH (fun a b H => Hb a b (or_intror H))) as (tss & Es & HF).
    exists (ts :: tss). cbn [mapM fst snd]. rewrite E. cbn [bind]. rewrite Es. split; [reflexivity|now constructor]. }
  destruct G as (tss & Es & HF). unfold mesh_surface, the_source. destruct Hr as (Hp & Ha & HfT). cbn [source_path]. rewrite Hp. cbn [bind block_at fst snd]. rewrite Ec. cbn [bind]. unfold the_frame. rewrite enter_frame. cbn [frame_here top]. rewrite HfT. cbn [bind].
  rewrite Es. cbn [bind]. assert (Ht : tss <> []). { intros ->. inversion HF as [E0|]; subst. apply Hk. rewrite <- cell_paths_arrays, <- E0. reflexivity. }
  replace (guard (match tss with [] => false | _ => true end) ValueError) with (@Ok unit tt) by (destruct tss; [congruence|reflexivity]). cbn [bind].
  set (tr := if Nat.ltb 1 (length (cell_paths m)) then unique lex_cmp (concat tss) else concat tss). eexists. eexists. split; [reflexivity|]. split; [|split; [reflexivity|]].
  - unfold coords_of. rewrite (points_of_value top _ T); [|reflexivity|discriminate]. cbn [bind frame_here top]. f_equal. rewrite show_map. cbn [array cframe framed flat_map frame_in app]. unfold converted. cbn [flat_map fst snd dframe]. rewrite app_nil_r, new_points_px, !map_map.
    cbn [dframe]. rewrite <- (plain_places T (px p) Hf) at 2. apply map_ext. intros q. rewrite shown_ambient, vshow_same by assumption. now rewrite !(place_standard T) by exact Hf.
  - intros t. cbn [nodes]. assert (Hin : forall t', In t' tr <-> In t' (concat tss)) by (intros t'; unfold tr; destruct (Nat.ltb 1 _); [apply (unique_in lex_cmp lex_cmp_eq)|reflexivity]).
    rewrite <- cell_paths_arrays. split.
    + intros (t' & Ht' & Hperm). apply Hin in Ht'. apply in_concat in Ht' as (ts & Hts & Ht'). apply In_nth_error in Hts as [i Hi]. destruct (F2_second _ _ _ HF i ts Hi) as ([path k] & Ek & Hc). cbn [snd] in Hc. exists k. split; [apply in_map_iff; exists (path, k); split; [reflexivity|now apply nth_error_In in Ek]|]. apply Hc. eauto.
    + intros (k & Hkin & Hon). apply in_map_iff in Hkin as ([path k'] & <- & Hpk). cbn [snd] in *. apply In_nth_error in Hpk as [i Hi]. destruct (F2_first _ _ _ HF i _ Hi) as (ts & Ets & Hc). cbn [snd] in Hc. destruct (proj2 (Hc t) Hon) as (t' & Ht' & Hperm). exists t'. split; [|assumption]. apply Hin. apply in_concat. exists ts. split; [now apply nth_error_In in Ets|assumption].
Qed.
