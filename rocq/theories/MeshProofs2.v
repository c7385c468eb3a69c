(** * Proofs about standard forms, part 2: fields, and the loop over the cells *)
From Coq Require Import Reals Lra Lia ZArith List String.
From Verif Require Import Base BaseFacts TopoSpec TopoProofs4 NodalProofs4 FrameProofs MeshModel MeshSpec MeshProofs.
Import ListNotations.
Local Open Scope nat_scope.

(** ** Fields *)
Lemma has_In s l : has s l = true <-> In s l.
Proof. unfold has. rewrite existsb_exists. split; [intros (x & Hx & E); apply String.eqb_eq in E; now subst|]. intros H. exists s. split; [assumption|apply String.eqb_refl]. Qed.
Lemma once_In s l : In s (once l) <-> In s l.
Proof.
  induction l as [|x l IH]; [reflexivity|]. cbn [once]. destruct (has x l) eqn:E.
  - rewrite IH. split; [now right|]. intros [<-|H]; [now apply has_In|assumption].
  - cbn. now rewrite IH.
Qed.
Lemma find_field_None s fs : find_field s fs = None <-> ~ In s (map fst fs).
Proof.
  induction fs as [|[k f] fs IH]; [cbn; tauto|]. cbn [find_field map fst In]. destruct (String.eqb_spec k s) as [->|N].
  - split; [discriminate|]. intros H. exfalso. apply H. now left.
  - rewrite IH. split; [|tauto]. intros H [E|H']; auto.
Qed.
Lemma some_has_In s l : some_has s l <-> In s (concat (map (map fst) l)).
Proof.
  unfold some_has. rewrite Exists_exists. rewrite in_concat. split.
  - intros (fs & Hfs & H). exists (map fst fs). split; [now apply in_map|]. destruct (in_dec string_dec s (map fst fs)) as [|N]; [assumption|].
    exfalso. apply H. now apply find_field_None.
  - intros (ns & Hns & H). apply in_map_iff in Hns as (fs & <- & Hfs). exists fs. split; [assumption|]. rewrite find_field_None. tauto.
Qed.
Lemma concat_fields_ok l w : l <> [] -> Forall (fun f => width f = w) l -> concat_fields l = Ok (Field w (concat (map rows l))).
Proof.
  destruct l as [|f t]; [congruence|]. intros _ H. inversion H as [|? ? Hf Ht]; subst. cbn [concat_fields].
  replace (forallb (fun g => same_width (width f) (width g)) t) with true; [reflexivity|]. symmetry. apply forallb_forall. intros g Hg.
  rewrite Forall_forall in Ht. rewrite (Ht g Hg). unfold same_width. destruct (width f); [apply Nat.eqb_refl|reflexivity].
Qed.
Lemma concat_fields_rows l f : concat_fields l = Ok f -> rows f = concat (map rows l).
Proof. destruct l as [|g t]; [discriminate|]. cbn [concat_fields]. destruct (forallb _ t); [|discriminate]. intros E. injection E as <-. reflexivity. Qed.
Lemma fill_rows d n s fs : rows (fill_field d n s fs) = field_rows d s n fs.
Proof. unfold fill_field, field_rows. now destruct (find_field s fs). Qed.
Lemma find_mapM_fields (g : string -> res field) names l s :
  mapM (fun s => do f <- g s; Ok (s, f)) names = Ok l -> (In s names -> exists f, g s = Ok f /\ find_field s l = Some f) /\ (~ In s names -> find_field s l = None).
Proof.
  revert l. induction names as [|x names IH]; intros l H.
  - injection H as <-. split; [intros []|reflexivity].
  - cbn [mapM] in H. destruct (g x) as [f|] eqn:E; [|discriminate]. cbn [bind] in H. destruct (mapM _ names) as [t|]; [|discriminate]. cbn [bind] in H.
    injection H as <-. destruct (IH t eq_refl) as [I1 I2]. cbn [find_field]. destruct (String.eqb_spec x s) as [->|N].
    + split; [intros _; eauto|]. intros H. exfalso. apply H. now left.
    + split; [intros [->|H]; [congruence|auto]|]. intros H. apply I2. intros H'. apply H. now right.
Qed.
Lemma merge_fields_ok d ps : ps <> [] -> joinable (map pfields ps) ->
  exists fs, merge_fields d ps = Ok fs /\
    forall s, (some_has s (map pfields ps) -> exists f, find_field s fs = Some f /\ rows f = concat (map (fun p => field_rows d s (length (px p)) (pfields p)) ps)) /\
              (~ some_has s (map pfields ps) -> find_field s fs = None).
Proof.
  intros Hne Hj. unfold merge_fields. set (names := once _).
  assert (Hn : forall s, In s names <-> some_has s (map pfields ps)).
  { intros s. unfold names. rewrite once_In, some_has_In, map_map. reflexivity. }
  clearbody names.
  set (g := fun s => concat_fields (map (fun p => fill_field d (length (px p)) s (pfields p)) ps)).
  assert (Hg : forall s, exists f, g s = Ok f /\ rows f = concat (map (fun p => field_rows d s (length (px p)) (pfields p)) ps)).
  { intros s. destruct (Hj s) as [w Hw]. unfold g. rewrite (concat_fields_ok _ w).
    - eexists. split; [reflexivity|]. cbn [rows]. rewrite map_map. f_equal. apply map_ext. intros p. apply fill_rows.
    - destruct ps; [congruence|discriminate].
    - rewrite Forall_map in *. revert Hw. apply Forall_impl. intros p. unfold fill_field. destruct (find_field s (pfields p)); [auto|]. now intros ->. }
  destruct (mapM (fun s => do f <- g s; Ok (s, f)) names) as [fs|e] eqn:E.
  - exists fs. split; [exact E|]. intros s. destruct (find_mapM_fields g names fs s E) as [I1 I2]. split.
    + intros H. apply Hn in H. destruct (I1 H) as (f & Ef & Hf). exists f. split; [assumption|]. destruct (Hg s) as (f' & Ef' & Hr). rewrite Ef in Ef'. injection Ef' as ->. exact Hr.
    + intros H. apply I2. now rewrite Hn.
  - exfalso. clear -E Hg. revert e E. induction names as [|x names IH]; intros e E; cbn [mapM] in E; [discriminate|].
    destruct (Hg x) as (f & Ef & _). rewrite Ef in E. cbn [bind] in E. destruct (mapM _ names) as [t|]; [discriminate|]. cbn [bind] in E. now apply (IH e0).
Qed.

(** ** Cells *)
Definition rows_in (b : block) : list (list nat) := concat (map nodes (cell_arrays b)).
Definition ids_in (b : block) : list nat := concat (map cid (cell_arrays b)).
Definition ncells (b : block) : nat := length (rows_in b).

(** the new row of a cell refers to the coordinates of its nodes *)
Definition renamed (t : option frame) (X : list vec) (c : option (frame * list vec) * list nat) (r : list nat) : Prop :=
  Forall2 (fun i j => exists f xs x, fst c = Some (f, xs) /\ nth_error xs i = Some x /\ nth_error X j = Some (shown f t x)) (snd c) r.
Definition in_source (c : option (frame * list vec) * list nat) : Prop :=
  Forall (fun i => exists f xs, fst c = Some (f, xs) /\ i < length xs) (snd c).
Definition source_ok (t : option frame) (X : list vec) (src : option (frame * list vec)) (ids : list nat) : Prop :=
  match src with
  | None => True
  | Some (f, xs) => forall i x, nth_error xs i = Some x -> exists j, nth_error ids i = Some j /\ nth_error X j = Some (shown f t x)
  end.
Lemma row_ok t X src ids r : source_ok t X src ids -> in_source (src, r) ->
  Forall (fun i => get ids i = Ok (nth i ids 0)) r /\ renamed t X (src, r) (map (fun i => nth i ids 0) r).
Proof.
  intros Hs Hr. unfold in_source, renamed in *. cbn [fst snd] in *. induction Hr as [|i r (f & xs & -> & Hi) _ IH]; [split; constructor|].
  destruct IH as [IH1 IH2]. cbn [source_ok] in Hs. apply nth_error_Some in Hi. destruct (nth_error xs i) as [x|] eqn:Ex; [|congruence]. destruct (Hs i x Ex) as (j & Ej & Hj).
  pose proof (nth_error_nth _ _ 0 Ej) as En. split; [constructor; [|assumption]|cbn [map]; constructor; [|assumption]].
  - apply get_Ok. now rewrite En.
  - rewrite En. exists f, xs, x. auto.
Qed.
Lemma rows_ok t X src ids rs : source_ok t X src ids -> Forall in_source (map (fun r => (src, r)) rs) ->
  exists rs', remap_topo rs (MArr ids) = Ok rs' /\ Forall2 (renamed t X) (map (fun r => (src, r)) rs) rs'.
Proof.
  intros Hs Hr. exists (map (map (fun i => nth i ids 0)) rs). split.
  - apply remap_topo_ok. intros n (a & b & r & Hin & Hn). apply nth_error_In in Hin. apply nth_error_In in Hn. rewrite Forall_forall in Hr. specialize (Hr (src, r) (in_map _ _ _ Hin)).
    destruct (row_ok t X src ids r Hs Hr) as [H _]. rewrite Forall_forall in H. exact (H n Hn).
  - induction rs as [|r rs IH]; [constructor|]. cbn [map] in *. inversion Hr; subst. constructor; [now apply row_ok|auto].
Qed.

Lemma find_field_app s l l' : find_field s (l ++ l') = match find_field s l with Some f => Some f | None => find_field s l' end.
Proof. induction l as [|[k f] l IH]; [reflexivity|]. cbn [app find_field]. destruct (String.eqb k s); [reflexivity|exact IH]. Qed.
Lemma find_field_map s (g : string -> field) names : In s names -> find_field s (map (fun x => (x, g x)) names) = Some (g s).
Proof.
  induction names as [|x names IH]; intros H; [destruct H|]. cbn [map find_field]. destruct (String.eqb_spec x s) as [->|N]; [reflexivity|].
  apply IH. destruct H; [congruence|assumption].
Qed.
Lemma cells_kept_ok dc all names k ids' rs' : (forall s, In s names <-> some_has s all) -> length rs' = length (nodes k) ->
  cells_kept dc all k (Cells rs' ids' (cfields k ++ map (fun s => (s, Field None (repeat [dc s] (length (nodes k)))))
                                                    (filter (fun s => negb (has s (map fst (cfields k)))) names))).
Proof.
  intros Hn Hl. split; [exact Hl|]. cbn [cfields]. split.
  - intros s f H. now rewrite find_field_app, H.
  - intros s H Hs. rewrite find_field_app, H. rewrite (find_field_map s (fun s => Field None (repeat [dc s] (length (nodes k))))); [reflexivity|].
    apply filter_In. split; [now apply Hn|]. apply find_field_None in H. destruct (has s (map fst (cfields k))) eqn:E; [|reflexivity]. apply has_In in E. contradiction.
Qed.

Definition contains (X l : list vec) (n : nat) : Prop := forall i x, nth_error l i = Some x -> nth_error X (n + i) = Some x.
Lemma contains_app X l l' n : contains X (l ++ l') n -> contains X l n /\ contains X l' (n + length l).
Proof.
  intros H. split; intros i x E.
  - apply H. rewrite nth_error_app1; [assumption|]. apply nth_error_Some. congruence.
  - rewrite <- Nat.add_assoc. apply H. rewrite nth_error_app2 by lia. now replace (length l + i - length l) with i by lia.
Qed.
Definition rows_l (l : list block) : list (list nat) := concat (map nodes (flat_map cell_arrays l)).
Definition ids_l (l : list block) : list nat := concat (map cid (flat_map cell_arrays l)).
Lemma rows_l_cons b l : rows_l (b :: l) = rows_in b ++ rows_l l.
Proof. unfold rows_l, rows_in. cbn [flat_map]. now rewrite map_app, concat_app. Qed.
Lemma ids_l_cons b l : ids_l (b :: l) = ids_in b ++ ids_l l.
Proof. unfold ids_l, ids_in. cbn [flat_map]. now rewrite map_app, concat_app. Qed.
Lemma rows_in_block f pd cd subs : rows_in (Block f pd cd subs) = (match cd with Some k => nodes k | None => [] end) ++ rows_l subs.
Proof. unfold rows_in, rows_l. cbn [cell_arrays]. destruct cd; reflexivity. Qed.
Lemma ids_in_block f pd cd subs : ids_in (Block f pd cd subs) = (match cd with Some k => cid k | None => [] end) ++ ids_l subs.
Proof. unfold ids_in, ids_l. cbn [cell_arrays]. destruct cd; reflexivity. Qed.

Section Wire.
  Variables (t : option frame) (X : list vec) (dc : string -> value) (names : list string) (all : list fields).
  Hypothesis names_all : forall s, In s names <-> some_has s all.

  Definition wired_block (b : block) : Prop := forall up src ids n k,
    contains X (concat (map (shown_points t) (framed up b))) n -> source_ok t X src ids -> Forall in_source (cells_in up src b) ->
    exists b2, wire dc names (Some ids) k (renumber t up n b) = Ok (k + ncells b, b2) /\
      Forall2 (renamed t X) (cells_in up src b) (rows_in b2) /\ ids_in b2 = seq k (ncells b) /\ blocks_kept dc all b b2.
  Lemma wired_list l : Forall wired_block l -> forall up src ids n k,
    contains X (concat (map (shown_points t) (flat_map (framed up) l))) n -> source_ok t X src ids -> Forall in_source (flat_map (cells_in up src) l) ->
    exists l2, thread (wire dc names (Some ids)) k (outs npts (renumber t up) n l) = Ok (k + length (rows_l l), l2) /\
      Forall2 (renamed t X) (flat_map (cells_in up src) l) (rows_l l2) /\ ids_l l2 = seq k (length (rows_l l)) /\ Forall2 (blocks_kept dc all) l l2.
  Proof.
    induction 1 as [|b l Hb _ IH]; intros up src ids n k HX Hs Hr.
    - exists []. cbn. rewrite Nat.add_0_r. repeat split; constructor.
    - cbn [flat_map] in *. rewrite map_app, concat_app in HX. apply contains_app in HX as [HX1 HX2]. apply Forall_app in Hr as [Hr1 Hr2].
      rewrite shown_total, <- npts_total in HX2.
      destruct (Hb up src ids n k HX1 Hs Hr1) as (b2 & E1 & R1 & I1 & K1).
      destruct (IH up src ids (n + npts b) (k + ncells b) HX2 Hs Hr2) as (l2 & E2 & R2 & I2 & K2).
      exists (b2 :: l2). cbn [outs thread]. rewrite E1. cbn [bind fst snd]. rewrite E2. cbn [bind fst snd].
      rewrite !rows_l_cons, ids_l_cons, app_length, I1, I2, seq_app. fold (ncells b).
      split; [now rewrite Nat.add_assoc|]. split; [now apply Forall2_app|]. split; [reflexivity|now constructor].
  Qed.
  Lemma source_own up n f p cd subs g : frame_in up (Block f (Some p) cd subs) = Some g ->
    contains X (shown_points t (Some g, p)) n -> source_ok t X (Some (g, px p)) (seq n (length (px p))).
  Proof.
    intros _ H i x E. exists (n + i). split.
    - apply nth_error_seq. apply nth_error_Some. congruence.
    - apply H. unfold shown_points. cbn [fst snd]. rewrite show_map. cbn [new_cloud cframe array]. now apply map_nth_error.
  Qed.
  (** the cells of one block *)
  Lemma own_cells k ids src cd : source_ok t X src ids -> Forall in_source (match cd with Some c => map (fun r => (src, r)) (nodes c) | None => [] end) ->
    exists cd2, (match cd with
                 | None => Ok (k, None)
                 | Some c =>
                     do imap <- Ok ids;
                     do t <- remap_topo (nodes c) (MArr imap);
                     Ok (k + length (nodes c), Some (Cells t (seq k (length (nodes c)))
                                  (cfields c ++ map (fun s => (s, Field None (repeat [dc s] (length (nodes c)))))
                                                    (filter (fun s => negb (has s (map fst (cfields c)))) names))))
                 end) = Ok (k + match cd with Some c => length (nodes c) | None => 0 end, cd2) /\
      Forall2 (renamed t X) (match cd with Some c => map (fun r => (src, r)) (nodes c) | None => [] end) (match cd2 with Some c => nodes c | None => [] end) /\
      (match cd2 with Some c => cid c | None => [] end) = seq k (match cd with Some c => length (nodes c) | None => 0 end) /\
      match cd, cd2 with Some c, Some c' => cells_kept dc all c c' | None, None => True | _, _ => False end.
  Proof.
    intros Hs Hr. destruct cd as [c|].
    - destruct (rows_ok t X src ids (nodes c) Hs Hr) as (rs & E & HR). cbn [bind]. rewrite E. cbn [bind]. eexists. split; [reflexivity|]. cbn [nodes cid].
      split; [assumption|]. split; [reflexivity|]. apply cells_kept_ok; [assumption|]. apply Forall2_len in HR. rewrite map_length in HR. now symmetry.
    - exists None. rewrite Nat.add_0_r. repeat split. constructor.
  Qed.
  Lemma wire_ok b : wired_block b.
  Proof.
    induction b as [f pd cd subs IH] using block_induction. intros up src ids n k HX Hs Hr.
    cbn [cells_in framed renumber wire] in *. destruct pd as [p|].
    - destruct (frame_in_some up f p cd subs) as [g Eg]. rewrite Eg in *. cbn [app map concat option_map] in *. unfold renumbered at 1. cbn [pid].
      apply contains_app in HX as [HX1 HX2]. rewrite shown_length in HX2. cbn [snd] in HX2. apply Forall_app in Hr as [Hr1 Hr2].
      pose proof (source_own up n f p cd subs g Eg HX1) as Hs'.
      destruct (own_cells k _ _ cd Hs' Hr1) as (cd2 & E1 & R1 & I1 & K1).
      destruct (wired_list subs IH (Some g) _ _ (n + length (px p)) (k + match cd with Some c => length (nodes c) | None => 0 end) HX2 Hs' Hr2) as (l2 & E2 & R2 & I2 & K2).
      eexists. cbn [renumbered pid]. rewrite E1. cbn [bind fst snd]. rewrite E2. cbn [bind fst snd]. split.
      + unfold ncells. rewrite rows_in_block, app_length. rewrite Nat.add_assoc. destruct cd; reflexivity.
      + rewrite rows_in_block, ids_in_block. split; [now apply Forall2_app|]. split; [|now constructor].
        unfold ncells. rewrite rows_in_block, app_length, I1, I2, seq_app. destruct cd; reflexivity.
    - set (u := frame_in up (Block f None cd subs)) in *. cbn [app map concat option_map] in *. rewrite Nat.add_0_r in *. apply Forall_app in Hr as [Hr1 Hr2].
      destruct (own_cells k _ _ cd Hs Hr1) as (cd2 & E1 & R1 & I1 & K1).
      destruct (wired_list subs IH u _ _ n (k + match cd with Some c => length (nodes c) | None => 0 end) HX Hs Hr2) as (l2 & E2 & R2 & I2 & K2).
      eexists. rewrite E1. cbn [bind fst snd]. rewrite E2. cbn [bind fst snd]. split.
      + unfold ncells. rewrite rows_in_block, app_length. rewrite Nat.add_assoc. destruct cd; reflexivity.
      + rewrite rows_in_block, ids_in_block. split; [now apply Forall2_app|]. split; [|now constructor].
        unfold ncells. rewrite rows_in_block, app_length, I1, I2, seq_app. destruct cd; reflexivity.
  Qed.
End Wire.
