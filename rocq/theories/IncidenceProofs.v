(** * Proofs about [IncidenceModel.v] *)
From Coq Require Import Reals List Sorted Lia Lra Bool.
From Verif Require TopoProofs TopoProofs3 TopoProofs4 NodalProofs NodalSpec TrSpec MeshProofs4 MeshProofs5.
From Verif Require Import BaseFacts FrameProofs MeshProofs IncidenceSpec.
Import ListNotations.
Local Open Scope nat_scope.

Lemma jagged_rows t : jagged_array (concat t) (map (@length nat) t) = Ok t.
Proof. unfold jagged_array. rewrite <- length_concat, Nat.eqb_refl, split_by_concat. reflexivity. Qed.
Lemma cuts_ok data cuts t : topology_array [Arr1 data] (Some cuts) = Ok t <-> concat t = data /\ map (@length nat) t = cuts.
Proof.
  cbn [topology_array]. split.
  - unfold jagged_array. destruct (Nat.eqb_spec (np_sum cuts) (length data)) as [E|]; [|discriminate]. intros H. injection H as <-. split; [now apply concat_split_by|now apply TopoProofs.split_by_lengths].
  - intros [<- <-]. apply jagged_rows.
Qed.
Lemma cuts_wrong data cuts : np_sum cuts <> length data -> topology_array [Arr1 data] (Some cuts) = Err ValueError.
Proof. intros H. cbn [topology_array]. unfold jagged_array. apply Nat.eqb_neq in H. now rewrite H. Qed.
Lemma fill_all ts : forall n e data cuts,
  n = length data -> e = length cuts -> Forall (fun wt => Forall (fun x => length x = fst wt) (snd wt)) ts ->
  foldM (fun s wt =>
            let '(data, cuts, cN, cE) := s in
            let dE := length (snd wt) in
            let dN := dE * fst wt in
            do data <- set_slice data cN (concat (snd wt));
            do cuts <- set_slice cuts cE (repeat (fst wt) dE);
            Ok (data, cuts, cN + dN, cE + dE)) ts
    (data ++ repeat 0 (np_sum (map (fun wt => length (snd wt) * fst wt) ts)), cuts ++ repeat 0 (np_sum (map (fun wt => length (snd wt)) ts)), n, e)
  = Ok (data ++ concat (concat (map snd ts)), cuts ++ map (@length nat) (concat (map snd ts)), n + np_sum (map (fun wt => length (snd wt) * fst wt) ts), e + np_sum (map (fun wt => length (snd wt)) ts)).
Proof.
  assert (Hlen : forall w (t : list (list nat)), Forall (fun x => length x = w) t -> length (concat t) = length t * w).
  { intros w t H. induction H as [|x t Hx _ IH]; [reflexivity|]. cbn [concat length]. rewrite app_length, IH, Hx. lia. }
  assert (Hrep : forall w (t : list (list nat)), Forall (fun x => length x = w) t -> map (@length nat) t = repeat w (length t)).
  { intros w t H. induction H as [|x t Hx _ IH]; [reflexivity|]. cbn [map length repeat]. now rewrite IH, Hx. }
  assert (Hset : forall a v k n, n = length a -> set_slice (a ++ repeat 0 (length v + k)) n v = Ok ((a ++ v) ++ repeat 0 k)).
  { intros a v k n ->. unfold set_slice. rewrite app_length, repeat_length. destruct (Nat.leb_spec (length a + length v) (length a + (length v + k))); [|lia]. f_equal.
    rewrite firstn_app, firstn_all, Nat.sub_diag. cbn [firstn]. rewrite app_nil_r, skipn_app. rewrite (skipn_all2 a) by lia. cbn [app]. replace (length a + length v - length a) with (length v) by lia.
    rewrite repeat_app, skipn_app, (skipn_all2 (repeat 0 (length v))) by (rewrite repeat_length; lia). rewrite repeat_length, Nat.sub_diag. cbn [skipn app]. now rewrite app_assoc. }
  induction ts as [|[w t] ts IH]; intros n e data cuts Hn He Hts; cbn [map].
  - cbn [foldM concat map repeat]. change (np_sum []) with 0. cbn [repeat]. rewrite !app_nil_r, !Nat.add_0_r. reflexivity.
  - inversion Hts as [|? ? Ht Hts']; subst. cbn [fst snd] in Ht. cbn [foldM]. cbv beta iota zeta. cbn [fst snd].
    rewrite !np_sum_cons.
    rewrite <- (Hlen w t Ht) at 1. rewrite Hset by reflexivity. cbn [bind]. pose proof (Hset cuts (repeat w (length t)) (np_sum (map (fun wt => length (snd wt)) ts)) (length cuts) eq_refl) as E. rewrite repeat_length in E. rewrite E. clear E. cbn [bind].
    rewrite IH; [|rewrite app_length, (Hlen w t Ht); reflexivity|rewrite app_length, repeat_length; reflexivity|exact Hts'].
    cbn [concat map]. rewrite concat_app, map_app, (Hrep w t Ht), !app_assoc, !Nat.add_assoc. reflexivity.
Qed.
Lemma args_rows : forall args ts, Forall2 arg_rows args ts -> exists l, mapM atleast2d args = Ok l /\ map snd l = ts /\ Forall (fun wt => Forall (fun x => length x = fst wt) (snd wt)) l.
Proof.
  intros args ts H. induction H as [|a t args ts Ha _ (l & E & Hl & Hf)]; [exists []; now repeat split|].
  destruct a as [r|w r| |]; [| |destruct Ha..].
  - cbn in Ha. subst t. exists ((length r, [r]) :: l). cbn [mapM atleast2d bind]. rewrite E. cbn [bind map snd]. rewrite Hl. split; [reflexivity|]. split; [reflexivity|]. constructor; [|exact Hf]. constructor; [reflexivity|constructor].
  - destruct Ha as [-> Hr]. exists ((w, r) :: l). cbn [mapM atleast2d bind]. rewrite E. cbn [bind map snd]. rewrite Hl. split; [reflexivity|]. split; [reflexivity|]. constructor; [exact Hr|exact Hf].
Qed.
Lemma join_ok l : Forall (fun wt => Forall (fun x => length x = fst wt) (snd wt)) l -> join_arrays l = Ok (concat (map snd l)).
Proof.
  intros H. unfold join_arrays. cbv zeta. pose proof (fill_all l 0 0 [] [] eq_refl eq_refl H) as E. cbn [app] in E. rewrite E. cbn [bind fst snd]. apply jagged_rows.
Qed.
Lemma several_ok args ts : Forall2 arg_rows args ts -> topology_array args None = Ok (concat ts).
Proof.
  intros H. destruct (args_rows args ts H) as (l & E & Hl & Hf). assert (G : (do l <- mapM atleast2d args; join_arrays l) = Ok (concat ts)) by (rewrite E; cbn [bind]; rewrite join_ok, Hl; [reflexivity|exact Hf]).
  destruct args as [|a [|b args]]; [exact G| |exact G]. inversion H as [|? t ? ? Ha H']; subst. inversion H'; subst. cbn [concat]. rewrite app_nil_r. destruct a as [r|w r| |]; [| |destruct Ha..]; cbn in Ha |- *; [now rewrite Ha|now destruct Ha as [-> _]].
Qed.
Lemma list_fails : topology_array [Other] None = Err NameError.
Proof. reflexivity. Qed.
Lemma vstack_ok ts : ts <> [] -> vstack ts = Ok (concat ts).
Proof.
  intros H. unfold vstack. destruct ts as [|t ts]; [contradiction|]. apply cuts_ok. split; generalize (t :: ts); clear; intros l.
  - induction l as [|t l IH]; [reflexivity|]. cbn [concat map]. now rewrite concat_app, IH.
  - induction l as [|t l IH]; [reflexivity|]. cbn [concat map]. now rewrite map_app, IH.
Qed.
Lemma unique_ok t : StronglySorted lt (unique t) /\ forall n, In n (unique t) <-> used t n.
Proof. split; [apply np_unique_sorted|]. intros n. unfold unique. rewrite np_unique_in. symmetry. apply TopoProofs3.entry_in_concat. Qed.

(** ** Topology of a mesh *)

Lemma rows_blocks c b : map (fun ck => nodes (snd ck)) (cellblocks (walk c b)) = map nodes (cell_arrays b).
Proof. rewrite <- (walk_cells b c), map_map. reflexivity. Qed.
Lemma jagged_iff t : is_jagged t = false <-> same_widths t.
Proof.
  destruct t as [|r t]; cbn [is_jagged]; [split; [intros _ x y []|reflexivity]|]. rewrite negb_false_iff, forallb_forall. split.
  - intros H. assert (G : forall x, In x (r :: t) -> length x = length r). { intros x [<-|Hx]; [reflexivity|]. now apply Nat.eqb_eq, H. } intros x y Hx Hy. now rewrite (G x Hx), (G y Hy).
  - intros H x Hx. apply Nat.eqb_eq, H; [now right|now left].
Qed.
Lemma topology_ok j c b : mesh_rows b <> [] -> topology j c b = Ok (j || is_jagged (mesh_rows b), mesh_rows b).
Proof.
  intros H. unfold topology. rewrite rows_blocks. unfold mesh_rows in *. generalize dependent (map nodes (cell_arrays b)). intros ts H. assert (Hn : ts <> []) by (intros ->; now apply H). cbv zeta.
  assert (Ew : concat (map (map (@length nat)) ts) = map (@length nat) (concat ts)) by (rewrite concat_map; reflexivity). rewrite Ew.
  destruct (concat ts) as [|r l] eqn:El; [contradiction H; reflexivity|]. cbn [map].
  assert (Ej : negb (forallb (Nat.eqb (length r)) (length r :: map (@length nat) l)) = is_jagged (r :: l)).
  { cbn [forallb is_jagged]. rewrite Nat.eqb_refl. cbn [andb]. f_equal. clear. induction l as [|s l IH]; [reflexivity|]. cbn [map forallb]. now rewrite IH, Nat.eqb_sym. }
  rewrite Ej. assert (Ev : vstack ts = Ok (r :: l)) by (rewrite vstack_ok, El; [reflexivity|exact Hn]).
  rewrite Ev. destruct ts as [|t0 ts]; [contradiction|]. destruct j, (is_jagged (r :: l)); cbn [orb bind]; reflexivity.
Qed.
Lemma topology_none j c b : cell_arrays b = [] -> topology j c b = Err ValueError.
Proof. intros H. unfold topology. rewrite rows_blocks, H. reflexivity. Qed.
Lemma rows_some t : concat t <> [] -> t <> ([] : list (list nat)).
Proof. now intros H ->. Qed.
Lemma csr_np_represents j t : represents (csr_or_np (j, t)) t.
Proof. unfold csr_or_np. cbn [fst snd]. destruct (j && is_jagged t); constructor. Qed.
Lemma mesh_cells_jagged c b rc : concat (mesh_rows b) <> [] ->
  exists m counts ereg nreg, largest (mesh_rows b) m /\ mesh_cells_at_nodes c b FJagged true None rc = Ok (OJagged (if rc : bool then Some counts else None) ereg nreg) /\
    length counts = m + 1 /\ length ereg = m + 1 /\ length nreg = m + 1 /\
    forall n, n <= m -> exists L, incidence (mesh_rows b) n L /\ nth_error counts n = Some (length L) /\ nth_error ereg n = Some (map fst L) /\ nth_error nreg n = Some (map snd L).
Proof.
  intros H. unfold mesh_cells_at_nodes. rewrite topology_ok by now apply rows_some. cbn [bind]. apply TopoProofs3.cells_jagged; [apply csr_np_represents|exact H].
Qed.
Lemma mesh_cells_dicts c b assume cids rc : concat (mesh_rows b) <> [] -> (forall l, cids = Some l -> length (mesh_rows b) <= length l) ->
  exists counts ereg nreg, mesh_cells_at_nodes c b FDicts assume cids rc = Ok (ODicts (if rc : bool then Some counts else None) ereg nreg) /\
    node_keys (mesh_rows b) assume (dkeys ereg) /\ dkeys nreg = dkeys ereg /\ length counts = length (dkeys ereg) /\
    forall k n, nth_error (dkeys ereg) k = Some n -> exists L E, incidence (mesh_rows b) n L /\ nth_error counts k = Some (length L) /\
      match cids with None => E = map fst L | Some l => take l (map fst L) = Ok E end /\ dget ereg n = Ok E /\ dget nreg n = Ok (map snd L).
Proof.
  intros H Hc. unfold mesh_cells_at_nodes. rewrite topology_ok by now apply rows_some. cbn [bind]. apply TopoProofs3.cells_dicts; [apply csr_np_represents|exact H|exact Hc].
Qed.
Lemma mesh_cells_irregular c b f rc : concat (mesh_rows b) <> [] -> ~ tight (concat (mesh_rows b)) -> f <> FDicts -> mesh_cells_at_nodes c b f false None rc = Err AssertionError.
Proof.
  intros H Ht Hf. unfold mesh_cells_at_nodes. rewrite topology_ok by now apply rows_some. cbn [bind]. apply (TopoProofs3.cells_irregular_rejected _ (mesh_rows b)); [apply csr_np_represents|exact H|exact Ht|exact Hf].
Qed.
Lemma mesh_adjacency hasnx c b f assume : concat (mesh_rows b) <> [] -> hasnx = true \/ f = AFJagged ->
  exists dol, mesh_nodal_adjacency hasnx c b f assume = Ok (match f with AFJagged => AJagged (map snd dol) | AFNx => ANx dol | AFOther => ADol dol end) /\
    node_keys (mesh_rows b) assume (dkeys dol) /\
    forall n, In n (dkeys dol) -> exists l, dget dol n = Ok l /\ StronglySorted lt l /\ forall m, In m l <-> share_cell (mesh_rows b) n m.
Proof.
  intros H Hf. unfold mesh_nodal_adjacency. rewrite topology_ok by now apply rows_some. cbn [bind snd]. apply TopoProofs4.nodal_adjacency_ok; [destruct (is_jagged (mesh_rows b)); constructor|destruct (is_jagged (mesh_rows b)); intros []|exact H|exact Hf].
Qed.

(** two lines with their own points at different places: the numbers of the points clash *)
Definition two_lines : block := Block (Some (Cartesian meye vzero)) None None [MeshProofs4.line_in (Cartesian meye vzero); MeshProofs4.line_in (Cartesian meye (0, 5, 0)%R)].
Lemma two_lines_at : mesh_at two_lines [[(0, 0, 0)%R; (1, 0, 0)%R]; [(0, 5, 0)%R; (1, 5, 0)%R]].
Proof.
  unfold mesh_at. cbn. constructor; [|constructor; [|constructor]]; cbn [fst snd]; (constructor; [|constructor; [|constructor]]); cbn [node_at]; eexists; (split; [reflexivity|]); apply placed_iff; unfold place; cbn; apply triple_eq; lra.
Qed.
Lemma mesh_cells_clash c : exists m p q ereg nreg, mesh_at m [p; q] /\ apart p q /\ mesh_cells_at_nodes c m FJagged true None false = Ok (OJagged None ereg nreg) /\ nth_error ereg 0 = Some [0; 1].
Proof.
  exists two_lines, [(0, 0, 0)%R; (1, 0, 0)%R], [(0, 5, 0)%R; (1, 5, 0)%R], [[0; 1]; [0; 1]], [[0; 0]; [1; 1]]. split; [exact two_lines_at|]. split; [|split; [reflexivity|reflexivity]].
  intros x [[<-|[<-|[]]] [H|[H|[]]]]; injection H; intros; lra.
Qed.

(** ** Factors *)

Lemma weight_pos t w n : length w = length t -> Forall (Rlt 0) w -> used t n -> (0 < NodalSpec.total_weight t w n)%R.
Proof.
  intros Hl Hw Hu. unfold NodalSpec.total_weight. rewrite TopoProofs3.entry_in_concat in Hu. revert w Hl Hw Hu. induction t as [|r t IH]; intros w Hl Hw Hu; [destruct Hu|].
  destruct w as [|x w]; [discriminate Hl|]. inversion Hw as [|? ? Hx Hw']; subst. cbn [concat] in Hu. apply in_app_iff in Hu. cbn [combine filter fst].
  assert (G : (0 <= TrSpec.rsum (map snd (filter (fun cw => existsb (Nat.eqb n) (fst cw)) (combine t w))))%R).
  { clear -Hw'. revert w Hw'. induction t as [|r t IH]; intros w Hw; [cbn; lra|]. destruct w as [|x w]; [cbn; lra|]. inversion Hw as [|? ? Hx Hw']; subst. specialize (IH w Hw'). cbn [combine filter fst]. destruct (existsb (Nat.eqb n) r); cbn [map snd TrSpec.rsum fold_right]; [|exact IH]. unfold TrSpec.rsum in IH. lra. }
  destruct (existsb (Nat.eqb n) r) eqn:En.
  - cbn [map snd TrSpec.rsum fold_right]. unfold TrSpec.rsum in G. lra.
  - destruct Hu as [Hu|Hu]; [|apply IH; [now injection Hl|exact Hw'|exact Hu]]. exfalso. assert (existsb (Nat.eqb n) r = true); [|congruence]. apply existsb_exists. exists n. split; [exact Hu|apply Nat.eqb_refl].
Qed.
Lemma same_widths_rect t : same_widths t -> Base.rect (TrModel.ncols t) t.
Proof. intros H. apply Forall_forall. intros r Hr. destruct t as [|s t]; [destruct Hr|]. cbn [TrModel.ncols]. apply H; [exact Hr|now left]. Qed.
Lemma factors_fair t w : concat t <> [] -> Forall (@NoDup nat) t -> length w = length t -> Forall (Rlt 0) w ->
  exists r, NodalModel.nodal_distribution_factors EvalModel.Floating (csr_or_np (is_jagged t, t)) w = Ok r /\ fair_shares t w r.
Proof.
  intros Hc Hp Hl Hw. assert (Hpos : forall n, used t n -> NodalSpec.total_weight t w n <> 0%R). { intros n Hn. apply Rgt_not_eq. now apply weight_pos. }
  destruct (NodalProofs.factors_any (csr_or_np (is_jagged t, t)) t w) as (r & f & E & HS & HF); [apply csr_np_represents|..].
  - intros rows. unfold csr_or_np. destruct (fst _ && _); discriminate.
  - unfold csr_or_np. cbn [fst snd]. destruct (is_jagged t) eqn:Ej; [right; exact I|left]. now apply same_widths_rect, jagged_iff.
  - exact Hc.
  - exact Hl.
  - exact Hpos.
  - exists r. split; [exact E|]. exists f. split; [exact HS|]. split; [exact HF|]. intros n Hn. apply (NodalProofs.shares_add_up t w); [exact Hl|exact Hp|exact HS|now apply Hpos].
Qed.
Lemma mesh_factors_volume vol c b p w : bpd b = Some p -> concat (mesh_rows b) <> [] -> Forall (@NoDup nat) (mesh_rows b) ->
  mesh_volumes vol c b = Ok w -> length w = length (mesh_rows b) -> Forall (Rlt 0) w ->
  exists r, mesh_factors vol c b WVolume = Ok r /\ fair_shares (mesh_rows b) w r.
Proof.
  intros Hb Hc Hp Hv Hl Hw. unfold mesh_factors. rewrite Hb, topology_ok by now apply rows_some. cbn [bind orb]. rewrite Hv. cbn [bind fst snd]. rewrite Hl, Nat.eqb_refl. cbn [guard bind]. now apply factors_fair.
Qed.
Lemma mesh_factors_array vol c b p w : bpd b = Some p -> concat (mesh_rows b) <> [] -> Forall (@NoDup nat) (mesh_rows b) ->
  length w = length (mesh_rows b) -> Forall (Rlt 0) w ->
  exists r, mesh_factors vol c b (WArray EvalModel.Floating w) = Ok r /\ fair_shares (mesh_rows b) w r.
Proof.
  intros Hb Hc Hp Hl Hw. unfold mesh_factors. rewrite Hb, topology_ok by now apply rows_some. cbn [bind orb fst snd]. rewrite Hl, Nat.eqb_refl. cbn [guard bind]. now apply factors_fair.
Qed.
Lemma mesh_factors_length vol c b dt w : mesh_rows b <> [] -> length w <> length (mesh_rows b) -> mesh_factors vol c b (WArray dt w) = Err AssertionError.
Proof.
  intros Hc Hl. unfold mesh_factors. destruct (bpd b); [|reflexivity]. rewrite topology_ok by exact Hc. cbn [bind fst snd]. apply Nat.eqb_neq in Hl. rewrite Hl. reflexivity.
Qed.
Lemma mesh_factors_uniform vol c b p : bpd b = Some p -> concat (mesh_rows b) <> [] -> Forall (@NoDup nat) (mesh_rows b) -> same_widths (mesh_rows b) ->
  exists r, mesh_factors vol c b WUniform = Ok r /\ fair_shares (mesh_rows b) (repeat 1%R (length (mesh_rows b))) r.
Proof.
  intros Hb Hc Hp Hs. apply jagged_iff in Hs. unfold mesh_factors. rewrite Hb, topology_ok by now apply rows_some. cbn [bind orb snd].
  destruct (factors_fair (mesh_rows b) (repeat 1%R (length (mesh_rows b))) Hc Hp) as (r & E & Hr); [apply repeat_length|apply Forall_forall; intros x Hx; apply repeat_spec in Hx; subst; lra|].
  exists r. split; [|exact Hr]. rewrite Hs in E |- *. unfold csr_or_np in E |- *. cbn [fst snd andb bind] in E |- *. rewrite repeat_length, Nat.eqb_refl. cbn [guard bind]. exact E.
Qed.
Lemma mesh_factors_uniform_fails vol c b p : bpd b = Some p -> mesh_rows b <> [] -> ~ same_widths (mesh_rows b) -> mesh_factors vol c b WUniform = Err TypeError.
Proof.
  intros Hb Hc Hs. assert (Ej : is_jagged (mesh_rows b) = true). { destruct (is_jagged (mesh_rows b)) eqn:E; [reflexivity|]. now apply jagged_iff in E. }
  unfold mesh_factors. rewrite Hb, topology_ok by exact Hc. cbn [bind orb]. rewrite Ej. unfold csr_or_np. cbn [fst snd andb]. rewrite Ej. reflexivity.
Qed.
Lemma mesh_factors_source vol c b w : bpd b = None -> mesh_factors vol c b w = Err AssertionError.
Proof. intros H. unfold mesh_factors. now rewrite H. Qed.
Lemma mesh_volumes_ok vol c b vs : cell_arrays b <> [] -> mapM vol (cellblocks (walk c b)) = Ok vs -> mesh_volumes vol c b = Ok (concat vs).
Proof.
  intros H E. unfold mesh_volumes. rewrite E. cbn [bind]. destruct vs; [|reflexivity]. exfalso. apply H. rewrite <- (walk_cells b c). destruct (cellblocks (walk c b)) as [|x l]; [reflexivity|]. cbn [mapM] in E. destruct (vol x); [|discriminate E]. cbn [bind] in E. destruct (mapM vol l); discriminate E.
Qed.
Lemma set_factors_ok n factors key : length factors = n -> set_factors n factors (Some key) = Ok (key, factors).
Proof. intros <-. unfold set_factors. now rewrite Nat.eqb_refl. Qed.
Lemma set_factors_default n factors : set_factors n factors None = Err KeyError.
Proof. reflexivity. Qed.
Lemma set_factors_all n factors key : length factors <> n -> set_factors n factors (Some key) = Err AttributeError.
Proof. intros H. apply Nat.eqb_neq in H. unfold set_factors. now rewrite H. Qed.

(** ** Areas and volumes *)

Lemma sum_app a b : TrSpec.rsum (a ++ b) = (TrSpec.rsum a + TrSpec.rsum b)%R.
Proof. unfold TrSpec.rsum. induction a as [|x a IH]; cbn [app fold_right]; lra. Qed.
Lemma sum_concat l : TrSpec.rsum (concat l) = TrSpec.rsum (map TrSpec.rsum l).
Proof. induction l as [|x l IH]; [reflexivity|]. cbn [concat map]. rewrite sum_app, IH. reflexivity. Qed.
Lemma mapM_value {A B} (f : A -> res B) (g : A -> B) l : (forall x, In x l -> f x = Ok (g x)) -> mapM f l = Ok (map g l).
Proof.
  induction l as [|x l IH]; intros H; [reflexivity|]. cbn [mapM map]. rewrite H by now left. cbn [bind]. rewrite IH by (intros; apply H; now right). reflexivity.
Qed.
Lemma filter_snd {A B} (f : B -> bool) (l : list (A * B)) : map snd (filter (fun x => f (snd x)) l) = filter f (map snd l).
Proof. induction l as [|x l IH]; [reflexivity|]. cbn [filter map]. destruct (f (snd x)); cbn [map]; now rewrite IH. Qed.
Lemma mesh_areas_ok ndim areas g c b : (exists k, In k (cell_arrays b) /\ ndim k < 3) -> (forall ck, ndim (snd ck) < 3 -> areas ck = Ok (g (snd ck))) ->
  mesh_areas ndim areas c b = Ok (concat (map g (filter (fun k => Nat.ltb (ndim k) 3) (cell_arrays b)))).
Proof.
  intros (k & Hk & Hn) Ha. unfold mesh_areas. rewrite (mapM_value areas (fun ck => g (snd ck))).
  - cbn [bind]. rewrite <- (walk_cells b c) in *. rewrite <- filter_snd, map_map. destruct (filter _ _) eqn:E; [|reflexivity]. exfalso. apply in_map_iff in Hk as (ck & <- & Hck). assert (Hi : In ck (filter (fun ck => Nat.ltb (ndim (snd ck)) 3) (cellblocks (walk c b)))) by (apply filter_In; split; [exact Hck|now apply Nat.ltb_lt]). rewrite E in Hi. destruct Hi.
  - intros ck H. apply Ha. apply filter_In in H as [_ H]. now apply Nat.ltb_lt in H.
Qed.
Lemma mesh_areas_none ndim areas c b : (forall k, In k (cell_arrays b) -> ndim k = 3) -> mesh_areas ndim areas c b = Err ValueError.
Proof.
  intros H. unfold mesh_areas. assert (E : filter (fun ck => Nat.ltb (ndim (snd ck)) 3) (cellblocks (walk c b)) = []); [|now rewrite E]. rewrite <- (walk_cells b c) in H. induction (cellblocks (walk c b)) as [|x l IH]; [reflexivity|]. cbn [filter]. rewrite H by (left; reflexivity). cbn [Nat.ltb Nat.leb]. apply IH. intros k Hk. apply H. right. exact Hk.
Qed.
Lemma surfaces_only ndim areas g c b : (forall k, In k (cell_arrays b) -> ndim k <> 1) -> (exists k, In k (cell_arrays b) /\ ndim k = 2) -> (forall k, 0 < ndim k) -> (forall ck, ndim (snd ck) = 2 -> areas ck = Ok (g (snd ck))) ->
  exists l, mesh_areas ndim areas c b = Ok l /\ TrSpec.rsum l = TrSpec.rsum (map (fun k => TrSpec.rsum (g k)) (filter (fun k => Nat.eqb (ndim k) 2) (cell_arrays b))).
Proof.
  intros H1 (k & Hk & Hn) H0 Ha. set (nd := fun k => if Nat.eqb (ndim k) 1 then 3 else ndim k).
  assert (E : mesh_areas ndim areas c b = mesh_areas nd areas c b).
  { unfold mesh_areas. assert (E : filter (fun ck => Nat.ltb (ndim (snd ck)) 3) (cellblocks (walk c b)) = filter (fun ck => Nat.ltb (nd (snd ck)) 3) (cellblocks (walk c b))); [|now rewrite E].
    rewrite <- (walk_cells b c) in H1. induction (cellblocks (walk c b)) as [|x l IH]; [reflexivity|]. cbn [filter]. assert (Hx : nd (snd x) = ndim (snd x)). { unfold nd. destruct (Nat.eqb_spec (ndim (snd x)) 1) as [Ex|]; [|reflexivity]. exfalso. apply (H1 (snd x)); [left; reflexivity|exact Ex]. }
    rewrite Hx, IH by (intros y Hy; apply H1; right; exact Hy). reflexivity. }
  rewrite E. eexists. split; [apply (mesh_areas_ok nd areas g); [exists k; split; [exact Hk|unfold nd; rewrite Hn; cbn; lia]|]|].
  - intros ck Hc. apply Ha. unfold nd in Hc. destruct (Nat.eqb_spec (ndim (snd ck)) 1); [lia|]. specialize (H0 (snd ck)). lia.
  - rewrite sum_concat, map_map. f_equal. f_equal. apply filter_ext_in. intros x Hx. specialize (H1 x Hx). specialize (H0 x). unfold nd. destruct (Nat.eqb_spec (ndim x) 1); [contradiction|]. destruct (Nat.ltb_spec (ndim x) 3), (Nat.eqb_spec (ndim x) 2); try reflexivity; lia.
Qed.
Lemma lines_counted ndim areas g c b k l : cell_arrays b = [k; l] -> ndim k = 2 -> ndim l = 1 ->
  (forall ck, ndim (snd ck) = 2 -> areas ck = Ok (g (snd ck))) -> (forall ck, ndim (snd ck) = 1 -> areas ck = Ok (field_or_ones (length (nodes (snd ck))) None)) ->
  exists r, mesh_areas ndim areas c b = Ok r /\ TrSpec.rsum r = (TrSpec.rsum (g k) + INR (length (nodes l)))%R.
Proof.
  intros Hb Hk Hl H2 H1. unfold mesh_areas. pose proof (walk_cells b c) as Hw. rewrite Hb in Hw. destruct (cellblocks (walk c b)) as [|x [|y [|]]]; try discriminate Hw. injection Hw as Hx Hy. subst k l. cbn [filter]. rewrite Hk, Hl. cbn [Nat.ltb Nat.leb mapM]. rewrite H2, H1 by assumption. cbn [bind]. eexists. split; [reflexivity|]. cbn [concat].
  rewrite !sum_app. cbn [field_or_ones]. assert (E : forall n, TrSpec.rsum (repeat 1%R n) = INR n). { induction n as [|n IH]; [reflexivity|]. rewrite S_INR, <- IH. unfold TrSpec.rsum. cbn [repeat fold_right]. lra. } rewrite E. unfold TrSpec.rsum at 2. cbn [fold_right]. lra.
Qed.
Lemma products_ones a n : length a = n -> products a (field_or_ones n None) = Ok a.
Proof.
  intros <-. unfold products. cbn [field_or_ones]. rewrite repeat_length, Nat.eqb_refl. f_equal. induction a as [|x a IH]; [reflexivity|]. cbn [length repeat combine map fst snd]. rewrite IH. f_equal. lra.
Qed.
Lemma products_ok a n f : length a = n -> length f = n -> exists v, products a (field_or_ones n (Some f)) = Ok v /\ length v = n /\
  forall i x y, nth_error a i = Some x -> nth_error f i = Some y -> nth_error v i = Some (x * y)%R.
Proof.
  intros <- Hf. unfold products. cbn [field_or_ones]. rewrite Hf, Nat.eqb_refl. eexists. split; [reflexivity|]. split; [rewrite map_length, combine_length, Hf; lia|]. clear Hf.
  revert f. induction a as [|u a IH]; intros [|v f] [|i] x y Hx Hy; try discriminate; cbn [nth_error combine map fst snd] in *; [congruence|now apply IH].
Qed.
