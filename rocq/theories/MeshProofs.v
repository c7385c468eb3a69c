(** * Proofs about standard forms, part 1: points and cells of the blocks *)
From Coq Require Import Reals Lra Lia ZArith List String.
From Verif Require Import Base BaseFacts TopoSpec TopoProofs4 FrameProofs MeshModel MeshSpec.
Import ListNotations.
Local Open Scope nat_scope.

(** induction over blocks *)
Lemma block_induction (P : block -> Prop) : (forall f pd cd subs, Forall P subs -> P (Block f pd cd subs)) -> forall b, P b.
Proof.
  intros H. fix IH 1. intros [f pd cd subs]. apply H. induction subs as [|b t IHt]; constructor; [apply IH|exact IHt].
Qed.
Lemma frame_in_eq up b : block_frame up b = frame_in up b.
Proof. destruct b as [[f|] [p|] cd subs]; try reflexivity. cbn. unfold points_frame. now destruct (pframe p). Qed.
Lemma frame_in_some up f p cd subs : exists g, frame_in up (Block f (Some p) cd subs) = Some g.
Proof. destruct f as [f|]; cbn; [now exists f|]. destruct (pframe p); eauto. Qed.

(** the loop that counts *)
Section ThreadFacts.
  Context {A B : Type} (step : nat -> A -> res (nat * B)) (size : A -> nat) (out : nat -> A -> B).
  Fixpoint outs (n : nat) (l : list A) : list B := match l with [] => [] | a :: t => out n a :: outs (n + size a) t end.
  Lemma thread_ok l : forall n, Forall (fun a => forall n, step n a = Ok (n + size a, out n a)) l -> thread step n l = Ok (n + list_sum (map size l), outs n l).
  Proof.
    induction l as [|a t IH]; intros n H; cbn; [now rewrite Nat.add_0_r|]. inversion H as [|? ? Ha Ht]; subst. rewrite Ha. cbn [bind fst snd].
    rewrite IH by assumption. cbn. now rewrite Nat.add_assoc.
  Qed.
End ThreadFacts.

(** what the first loop does *)
Fixpoint npts (b : block) : nat := let 'Block _ pd _ subs := b in (match pd with Some p => length (px p) | None => 0 end) + list_sum (map npts subs).
Definition renumbered (t here : option frame) (n : nat) (p : points) : points :=
  Points (show (new_cloud (px p) here None) t) (pframe p) (seq n (length (px p))) (pact p) (pfields p).
Fixpoint renumber (t up : option frame) (n : nat) (b : block) : block :=
  let 'Block f pd cd subs := b in
  Block f (option_map (renumbered t (frame_in up b) n) pd) cd
        (outs npts (renumber t (frame_in up b)) (n + match pd with Some p => length (px p) | None => 0 end) subs).
Lemma number_ok t b : Forall (fun p => length (px p) <> 1) (arrays b) -> forall up n, number t up n b = Ok (n + npts b, renumber t up n b).
Proof.
  induction b as [f pd cd subs IH] using block_induction. intros Hs up n. cbn [number]. rewrite frame_in_eq.
  cbn [arrays] in Hs. apply Forall_app in Hs. destruct Hs as [Hp Hc].
  assert (Ht : forall n, thread (number t (frame_in up (Block f pd cd subs))) n subs =
                         Ok (n + list_sum (map npts subs), outs npts (renumber t (frame_in up (Block f pd cd subs))) n subs)).
  { intros n'. apply thread_ok. rewrite Forall_forall in IH. apply Forall_forall. intros b Hb m. apply IH; [assumption|].
    rewrite Forall_forall in Hc. apply Forall_forall. intros p Hpp. apply Hc. apply in_flat_map. eauto. }
  destruct pd as [p|].
  - inversion Hp as [|? ? H1 _]; subst. unfold new_point_ids. destruct (Nat.eqb_spec (length (px p)) 1) as [E|_]; [contradiction|].
    cbn [bind fst snd]. rewrite Ht. cbn [bind fst snd]. cbn [npts renumber option_map]. unfold renumbered. now rewrite Nat.add_assoc.
  - cbn [bind fst snd]. rewrite Ht. cbn [bind fst snd]. cbn [npts renumber option_map]. rewrite Nat.add_0_r. reflexivity.
Qed.

(** the points of blocks that were renumbered *)
Fixpoint renum_points (t : option frame) (n : nat) (l : list (option frame * points)) : list points :=
  match l with [] => [] | (f, p) :: r => renumbered t f n p :: renum_points t (n + length (px p)) r end.
Definition total (l : list (option frame * points)) : nat := list_sum (map (fun fp => length (px (snd fp))) l).
Lemma renum_points_app t l : forall n l', renum_points t n (l ++ l') = renum_points t n l ++ renum_points t (n + total l) l'.
Proof.
  induction l as [|[f p] l IH]; intros n l'; cbn [app renum_points]; [unfold total; cbn; now rewrite Nat.add_0_r|]. rewrite IH. cbn [app]. unfold total. cbn [map list_sum fold_right snd].
  rewrite Nat.add_assoc. reflexivity.
Qed.
Lemma total_app l l' : total (l ++ l') = total l + total l'.
Proof. unfold total. now rewrite map_app, list_sum_app. Qed.
Lemma npts_total b : forall up, npts b = total (framed up b).
Proof.
  induction b as [f pd cd subs IH] using block_induction. intros up. cbn [npts framed]. rewrite total_app. f_equal.
  - destruct pd; [|reflexivity]. unfold total. cbn. lia.
  - generalize (frame_in up (Block f pd cd subs)). intros u. induction IH as [|b l Hb _ IHl]; [reflexivity|]. cbn [map list_sum fold_right flat_map].
    rewrite total_app, (Hb u). f_equal. exact IHl.
Qed.
Lemma arrays_renumber t b : forall up n, arrays (renumber t up n b) = renum_points t n (framed up b).
Proof.
  induction b as [f pd cd subs IH] using block_induction. intros up n. cbn [renumber arrays framed]. rewrite renum_points_app.
  set (u := frame_in up (Block f pd cd subs)). f_equal; [now destruct pd|].
  assert (E : total (match pd with Some p => [(u, p)] | None => [] end) = match pd with Some p => length (px p) | None => 0 end).
  { destruct pd; unfold total; cbn; [lia|reflexivity]. }
  rewrite E. generalize (n + match pd with Some p => length (px p) | None => 0 end). clear E. clearbody u.
  induction IH as [|b l Hb _ IHl]; intros n'; [reflexivity|]. cbn [outs flat_map]. rewrite Hb, IHl, renum_points_app, (npts_total b u). reflexivity.
Qed.
Lemma framed_arrays b : forall up, map snd (framed up b) = arrays b.
Proof.
  induction b as [f pd cd subs IH] using block_induction. intros up. cbn [framed arrays]. rewrite map_app. f_equal; [now destruct pd|].
  generalize (frame_in up (Block f pd cd subs)). intros u. induction IH as [|b l Hb _ IHl]; [reflexivity|]. cbn [flat_map]. now rewrite map_app, Hb, IHl.
Qed.
Lemma framed_some b : forall up, Forall (fun fp => exists f, fst fp = Some f) (framed up b).
Proof.
  induction b as [f pd cd subs IH] using block_induction. intros up. cbn [framed]. apply Forall_app. split.
  - destruct pd as [p|]; constructor; [|constructor]. apply frame_in_some.
  - generalize (frame_in up (Block f pd cd subs)). intros u. induction IH as [|b l Hb _ IHl]; [constructor|]. cbn [flat_map]. apply Forall_app. auto.
Qed.

(** the walk of the code visits the same blocks *)
Lemma pointblocks_app w w' : pointblocks (w ++ w') = pointblocks w ++ pointblocks w'.
Proof. unfold pointblocks. apply flat_map_app. Qed.
Lemma cellblocks_app w w' : cellblocks (w ++ w') = cellblocks w ++ cellblocks w'.
Proof. unfold cellblocks. apply flat_map_app. Qed.
Lemma walk_arrays b : forall c, map snd (pointblocks (walk c b)) = arrays b.
Proof.
  induction b as [f pd cd subs IH] using block_induction. intros c. cbn [walk bsub]. generalize (enter c (Block f pd cd subs)). intros c'.
  change (?a :: ?l) with ([a] ++ l). rewrite pointblocks_app, map_app. cbn [arrays]. f_equal; [destruct pd; reflexivity|].
  induction IH as [|b l Hb _ IHl]; [reflexivity|]. cbn [map concat flat_map]. now rewrite pointblocks_app, map_app, Hb, IHl.
Qed.
Lemma walk_cells b : forall c, map snd (cellblocks (walk c b)) = cell_arrays b.
Proof.
  induction b as [f pd cd subs IH] using block_induction. intros c. cbn [walk bsub]. generalize (enter c (Block f pd cd subs)). intros c'.
  change (?a :: ?l) with ([a] ++ l). rewrite cellblocks_app, map_app. cbn [cell_arrays]. f_equal; [destruct cd; reflexivity|].
  induction IH as [|b l Hb _ IHl]; [reflexivity|]. cbn [map concat flat_map]. now rewrite cellblocks_app, map_app, Hb, IHl.
Qed.
Lemma cell_arrays_renumber t b : forall up n, cell_arrays (renumber t up n b) = cell_arrays b.
Proof.
  induction b as [f pd cd subs IH] using block_induction. intros up n. cbn [renumber cell_arrays]. f_equal.
  set (u := frame_in up (Block f pd cd subs)). generalize (n + match pd with Some p => length (px p) | None => 0 end). clearbody u.
  induction IH as [|b l Hb _ IHl]; intros n'; [reflexivity|]. cbn [outs flat_map]. now rewrite Hb, IHl.
Qed.

(** the merged points: indices *)
Lemma renum_ids t l : forall n, concat (map pid (renum_points t n l)) = seq n (total l).
Proof.
  induction l as [|[f p] l IH]; intros n; [reflexivity|]. cbn [renum_points map concat renumbered pid]. rewrite IH.
  unfold total. cbn [map list_sum fold_right snd]. symmetry. apply seq_app.
Qed.
(** coordinates *)
Definition shown_points (t : option frame) (fp : option frame * points) : list vec := show (new_cloud (px (snd fp)) (fst fp) None) t.
Lemma renum_px t l : forall n, map px (renum_points t n l) = map (shown_points t) l.
Proof. induction l as [|[f p] l IH]; intros n; [reflexivity|]. cbn [renum_points map renumbered px]. rewrite IH. reflexivity. Qed.
Lemma renum_fields t l : forall n, map pfields (renum_points t n l) = map (fun fp => pfields (snd fp)) l.
Proof. induction l as [|[f p] l IH]; intros n; [reflexivity|]. cbn [renum_points map renumbered pfields]. rewrite IH. reflexivity. Qed.
Lemma shown_length t fp : length (shown_points t fp) = length (px (snd fp)).
Proof. unfold shown_points. rewrite show_map. now rewrite map_length. Qed.
Lemma concat_length {A} (l : list (list A)) : length (concat l) = list_sum (map (@length A) l).
Proof. induction l as [|a l IH]; [reflexivity|]. cbn. now rewrite app_length, IH. Qed.
Lemma shown_total t l : length (concat (map (shown_points t) l)) = total l.
Proof. rewrite concat_length, map_map. unfold total. f_equal. apply map_ext. intros fp. apply shown_length. Qed.
