(** * Lemmas about [TailModel.v] *)
From Coq Require Import Reals List Lia Arith Lra Permutation.
From Verif Require Import Base BaseFacts TailSpec TriProofs ShapeProofs3 ExchangeProofs2 EvalProofs NodalProofs4.
Import ListNotations.

Lemma dget_iff {A} (r : list (nat * A)) k v : NoDup (map fst r) -> dget r k = Ok v <-> In (k, v) r.
Proof.
  intros H. split; [apply dget_In|]. induction r as [|[k' v'] r IH]; [intros []|]. inversion H as [|? ? N1 N2]; subst. cbn [dget].
  intros [E|Hi].
  - injection E as -> ->. now rewrite Nat.eqb_refl.
  - destruct (Nat.eqb k k') eqn:E; [|now apply IH]. apply Nat.eqb_eq in E. subst. exfalso. apply N1. apply in_map_iff. exists (k', v). now split.
Qed.

Section Exports.
Context {V : Type}.
Notation rec := (list (nat * V)).

(** ** Names of records *)

Definition add_name (acc : list nat) (kv : nat * V) : list nat := if existsb (Nat.eqb (fst kv)) acc then acc else acc ++ [fst kv].
Lemma add_name_in acc kv k : In k (add_name acc kv) <-> In k acc \/ k = fst kv.
Proof.
  unfold add_name. destruct (existsb (Nat.eqb (fst kv)) acc) eqn:E.
  - apply existsb_exists in E. destruct E as (x & Hx & E). apply Nat.eqb_eq in E. subst. split; [now left|]. intros [H| ->]; assumption.
  - rewrite in_app_iff. cbn. split; [intros [H|[H|[]]]; [now left|right; now symmetry]|intros [H| ->]; [now left|right; now left]].
Qed.
Lemma add_name_nodup acc kv : NoDup acc -> NoDup (add_name acc kv).
Proof.
  intros H. unfold add_name. destruct (existsb (Nat.eqb (fst kv)) acc) eqn:E; [exact H|].
  apply (Permutation_NoDup (Permutation_cons_append acc (fst kv))). constructor; [|exact H].
  intros G. assert (existsb (Nat.eqb (fst kv)) acc = true) by (apply existsb_exists; exists (fst kv); split; [exact G|apply Nat.eqb_refl]). congruence.
Qed.
Definition names_of (rs : list rec) (acc : list nat) : list nat := fold_left (fun acc r => fold_left add_name r acc) rs acc.
Lemma fold_name_in (r : rec) : forall acc k, In k (fold_left add_name r acc) <-> In k acc \/ In k (map fst r).
Proof.
  induction r as [|kv r IH]; intros acc k; cbn [fold_left map]; [cbn; tauto|]. rewrite IH, add_name_in. cbn. split; [intros [[H|H]|H]|intros [H|[H|H]]]; auto.
Qed.
Lemma fold_name_nodup (r : rec) : forall acc, NoDup acc -> NoDup (fold_left add_name r acc).
Proof. induction r as [|kv r IH]; intros acc H; cbn [fold_left]; [exact H|]. now apply IH, add_name_nodup. Qed.
Lemma names_in rs : forall acc k, In k (names_of rs acc) <-> In k acc \/ exists r, In r rs /\ In k (map fst r).
Proof.
  induction rs as [|r rs IH]; intros acc k; unfold names_of; cbn [fold_left]; [split; [now left|intros [H|(r & [] & _)]; exact H]|].
  fold (names_of rs (fold_left add_name r acc)). rewrite IH, fold_name_in. split.
  - intros [[H|H]|(r' & H1 & H2)]; [now left|right; exists r; split; [now left|exact H]|right; exists r'; split; [now right|exact H2]].
  - intros [H|(r' & [->|H1] & H2)]; [left; now left|left; now right|right; exists r'; now split].
Qed.
Lemma names_nodup rs : forall acc, NoDup acc -> NoDup (names_of rs acc).
Proof. induction rs as [|r rs IH]; intros acc H; unfold names_of; cbn [fold_left]; [exact H|]. apply IH. now apply fold_name_nodup. Qed.
Lemma fold_name_absent (r : rec) : forall acc, NoDup (acc ++ map fst r) -> fold_left add_name r acc = acc ++ map fst r.
Proof.
  induction r as [|kv r IH]; intros acc H; cbn [fold_left map] in *; [now rewrite app_nil_r|].
  assert (N : ~ In (fst kv) acc) by (intros G; apply NoDup_remove_2 in H; apply H; apply in_or_app; now left).
  unfold add_name at 2. destruct (existsb (Nat.eqb (fst kv)) acc) eqn:E.
  - apply existsb_exists in E. destruct E as (x & Hx & E). apply Nat.eqb_eq in E. subst. contradiction.
  - rewrite IH; [now rewrite <- app_assoc|]. now rewrite <- app_assoc.
Qed.
Lemma fold_name_present (r : rec) : forall acc, incl (map fst r) acc -> fold_left add_name r acc = acc.
Proof.
  induction r as [|kv r IH]; intros acc H; cbn [fold_left map] in *; [reflexivity|].
  unfold add_name at 2. assert (E : existsb (Nat.eqb (fst kv)) acc = true) by (apply existsb_exists; exists (fst kv); split; [apply H; now left|apply Nat.eqb_refl]).
  rewrite E. apply IH. intros x Hx. apply H. now right.
Qed.
Lemma names_same rs fs : rs <> [] -> NoDup fs -> Forall (fun r : rec => map fst r = fs) rs -> names_of rs [] = fs.
Proof.
  intros Hn Hf H. destruct rs as [|r rs]; [contradiction|]. inversion H as [|? ? H1 H2]; subst. unfold names_of. cbn [fold_left].
  rewrite fold_name_absent by exact Hf. cbn [app]. clear - H2. induction H2 as [|r' rs Hr _ IH]; cbn [fold_left]; [reflexivity|].
  rewrite fold_name_present; [exact IH|]. rewrite Hr. apply incl_refl.
Qed.
Lemma from_iter_names (rs : list rec) : from_iter rs = map (fun k => (k, map (fun r => match dget r k with Ok v => Some v | Err _ => None end) rs)) (names_of rs []).
Proof. reflexivity. Qed.

Lemma from_iter_ok (rs : list rec) : Forall (fun r => NoDup (map fst r)) rs -> tabulates rs (from_iter rs).
Proof.
  intros H. rewrite from_iter_names. split; [|split].
  - rewrite map_map. cbn [fst]. rewrite map_id. apply names_nodup. constructor.
  - intros k. rewrite map_map. cbn [fst]. rewrite map_id, names_in. split; [intros [[]|G]; exact G|now right].
  - intros k col Hc. apply in_map_iff in Hc. destruct Hc as (k' & E & _). injection E as <- <-. split; [apply map_length|].
    intros i r Hr. eexists. split; [apply map_nth_error; exact Hr|]. intros v.
    rewrite Forall_forall in H. specialize (H r (nth_error_In _ _ Hr)). rewrite <- (dget_iff r k' v H).
    destruct (dget r k') as [v'|]; split; intros G; try discriminate G; injection G as ->; reflexivity.
Qed.

(** ** One database *)

Lemma records_complete (d s : list (nat * list V)) n fs rs : database n d -> (1 <= n)%nat -> NoDup fs -> columns_of fs d s -> records_of fs d rs ->
  from_iter rs = complete s.
Proof.
  intros HD Hn HF [HK HI] [HL HR]. pose proof HD as (_ & HN & HC). specialize (HL n HD). rewrite from_iter_names.
  assert (HA : Forall (fun r : rec => map fst r = fs) rs).
  { apply Forall_forall. intros r Hr. apply In_nth_error in Hr. destruct Hr as (i & Hi). now apply HR in Hi. }
  rewrite (names_same rs fs) by (try assumption; intros ->; cbn in HL; lia).
  unfold complete. rewrite <- HK. rewrite map_map. apply map_ext_in. intros [k col] Hkc. cbn [fst snd]. f_equal.
  assert (Hcol : length col = n).
  { specialize (HI _ Hkc). rewrite Forall_forall in HC. specialize (HC _ HI). exact HC. }
  apply nth_ext with (d := None) (d' := None); [etransitivity; [apply map_length|]; etransitivity; [exact HL|]; symmetry; etransitivity; [apply map_length|exact Hcol]|].
  intros i Hi. rewrite map_length in Hi. change (i < length rs)%nat in Hi. change (length rs = n) in HL.
  destruct (nth_error rs i) as [r|] eqn:Er; [|apply nth_error_None in Er; lia].
  destruct (nth_error col i) as [v|] eqn:Ec; [|apply nth_error_None in Ec; lia].
  rewrite (nth_error_nth (map _ rs) i None (x := match dget r k with Ok v => Some v | Err _ => None end)) by exact (map_nth_error _ i rs Er).
  rewrite (nth_error_nth (map Some col) i None (x := Some v)) by exact (map_nth_error _ i col Ec).
  destruct (HR i r Er) as [Hf Hv]. assert (Hk : In k (dkeys r)).
  { unfold dkeys. rewrite Hf, <- HK. apply in_map_iff. exists (k, col). now split. }
  apply dget_ok_iff in Hk. destruct Hk as (v' & Ev). rewrite Ev. f_equal. apply dget_In in Ev. destruct (Hv k v' Ev) as (col' & Hc' & Hn').
  apply (dget_iff d k col' HN) in Hc'. specialize (HI _ Hkc). apply (dget_iff d k col HN) in HI. congruence.
Qed.
Lemma exports_of : forall (d : list (nat * list V)) n args fields, database n d -> (forall l, fields <> GivenTuple l) ->
  fields = Absent \/ asked args fields <> [] -> NoDup (asked args fields) -> incl (asked args fields) (map fst d) ->
  exists s, columns_of (match asked args fields with [] => map fst d | fs => fs end) d s /\ to_akrecord d args fields = Ok s /\
    ((1 <= n)%nat -> to_akarray d args fields = Ok (complete s)) /\ (n = 0%nat -> to_akarray d args fields = Ok []).
Proof.
  intros d n args fields HD HT HE HN HI. destruct (dict_of_fields d n args fields HD HT HN HI) as (s & Es & HS).
  destruct (list_of_fields d n args fields HD HT HE HN HI) as (rs & Er & HR). set (fs := match asked args fields with [] => map fst d | fs => fs end) in *.
  assert (HF : NoDup fs /\ fs <> []).
  { pose proof HD as (D1 & D2 & _). unfold fs. destruct (asked args fields) eqn:E; [|split; [exact HN|discriminate]]. split; [exact D2|].
    intros G. apply D1. destruct d; [reflexivity|discriminate G]. }
  destruct HF as [HF HF0]. pose proof (columns_database d s fs n HD HS HF0 HF) as HDs. exists s. split; [exact HS|]. split; [|split].
  - unfold to_akrecord. rewrite Es. cbn [bind]. unfold zip_table. destruct HDs as (S1 & _ & S3). destruct s as [|[k c] s]; [contradiction|].
    replace (forallb _ s) with true; [reflexivity|]. symmetry. apply forallb_forall. intros kc Hkc. apply Nat.eqb_eq.
    rewrite Forall_forall in S3. rewrite (S3 kc (or_intror Hkc)). symmetry. exact (S3 (k, c) (or_introl eq_refl)).
  - intros Hn. unfold to_akarray. rewrite Er. cbn [bind]. now rewrite (records_complete d s n fs rs).
  - intros ->. unfold to_akarray. rewrite Er. cbn [bind]. destruct HR as [HL _]. specialize (HL 0%nat HD). destruct rs; [reflexivity|discriminate HL].
Qed.

Lemma exports_agree : forall (d : list (nat * list V)) n args fields, database n d -> (1 <= n)%nat -> (forall l, fields <> GivenTuple l) ->
  fields = Absent \/ asked args fields <> [] -> NoDup (asked args fields) -> incl (asked args fields) (map fst d) ->
  exists s, columns_of (match asked args fields with [] => map fst d | fs => fs end) d s /\ to_akrecord d args fields = Ok s /\
    to_akarray d args fields = Ok (complete s).
Proof.
  intros d n args fields HD Hn HT HE HN HI. destruct (exports_of d n args fields HD HT HE HN HI) as (s & H1 & H2 & H3 & _). exists s. auto.
Qed.
Lemma exports_empty : forall (d : list (nat * list V)) args fields, database 0 d -> (forall l, fields <> GivenTuple l) ->
  fields = Absent \/ asked args fields <> [] -> NoDup (asked args fields) -> incl (asked args fields) (map fst d) ->
  exists s, s <> [] /\ columns_of (match asked args fields with [] => map fst d | fs => fs end) d s /\ to_akrecord d args fields = Ok s /\
    to_akarray d args fields = Ok [].
Proof.
  intros d args fields HD HT HE HN HI. destruct (exports_of d 0 args fields HD HT HE HN HI) as (s & H1 & H2 & _ & H3). exists s.
  split; [|split; [exact H1|split; [exact H2|now apply H3]]]. intros ->. destruct H1 as [H1 _]. cbn [map] in H1. destruct HD as (D1 & _).
  destruct (asked args fields); [|discriminate H1]. destruct d; [now apply D1|discriminate H1].
Qed.

(** ** Meshes *)

Lemma all_names fields (ds : list (list (nat * list V))) l : Forall (fun d => (exists n, database n d) /\ available fields d) ds -> records_of_all fields ds l ->
  Forall (fun r : rec => NoDup (map fst r)) l.
Proof.
  intros H (parts & -> & HP). apply Forall_forall. intros r Hr. apply in_concat in Hr. destruct Hr as (part & Hp & Hr).
  induction HP as [|d part' ds parts HR _ IH]; [destruct Hp|]. inversion H as [|? ? [(n & HD) HA] H2]; subst. destruct Hp as [<-|Hp]; [|now apply IH].
  apply In_nth_error in Hr. destruct Hr as (i & Hi). destruct HR as [_ HR]. destruct (HR i r Hi) as [-> _]. unfold wanted.
  destruct fields as [fs|]; [exact (proj1 (proj2 HA))|exact (proj1 (proj2 HD))].
Qed.
Lemma mesh_export : forall (pts cls : list (list (nat * list V))) pf cf, pts <> [] -> cls <> [] ->
  Forall (fun d => (exists n, database n d) /\ available pf d) pts -> Forall (fun d => (exists n, database n d) /\ available cf d) cls ->
  exists lp lc tp tc, records_of_all pf pts lp /\ records_of_all cf cls lc /\ to_ak pts cls 0 pf cf = Ok (tp, tc) /\ tabulates lp tp /\ tabulates lc tc.
Proof.
  intros pts cls pf cf HP HC AP AC. destruct (lists_made pts cls pf cf HP HC AP AC) as (lp & lc & E & H1 & H2).
  exists lp, lc, (from_iter lp), (from_iter lc). split; [exact H1|]. split; [exact H2|]. split; [unfold to_ak; cbn [Nat.eqb guard bind]; rewrite E; reflexivity|].
  split; apply from_iter_ok; [exact (all_names pf pts lp AP H1)|exact (all_names cf cls lc AC H2)].
Qed.
Lemma mesh_export_positional : forall (pts cls : list (list (nat * list V))) nargs pf cf, (1 <= nargs)%nat -> to_ak pts cls nargs pf cf = Err TypeError.
Proof. intros pts cls [|nargs] pf cf H; [lia|reflexivity]. Qed.
End Exports.

(** ** Inputs *)
Section Inputs.
Context {M : Type}.
Lemma inputs_read : forall pv (args : list (@input M)) ms, Forall2 (mesh_of pv) args ms -> input_to_mesh pv args = Ok (OList (map OMesh ms)).
Proof.
  intros pv args ms H. unfold input_to_mesh.
  assert (E : mapM (read_candidate pv) args = Ok (map OMesh ms)); [|rewrite E; reflexivity].
  induction H as [|i m args ms H _ IH]; [reflexivity|]. cbn [mapM map]. rewrite IH.
  destruct H as [-> |[-> [-> | ->]]]; reflexivity.
Qed.
Lemma input_refused : forall pv (pre post : list (@input M)) i, unreadable pv i -> Forall (fun j => j = INone \/ exists m, mesh_of pv j m) pre ->
  input_to_mesh pv (pre ++ i :: post) = Err AssertionError.
Proof.
  intros pv pre post i [Hn Hm] H. unfold input_to_mesh.
  assert (E : mapM (read_candidate pv) (pre ++ i :: post) = Err AssertionError); [|rewrite E; reflexivity].
  induction H as [|j pre Hj _ IH]; cbn [app mapM].
  - assert (E : read_candidate pv i = Err AssertionError); [|rewrite E; reflexivity].
    destruct i as [|[m|]|m|m|]; try reflexivity; [now contradiction Hn|exfalso; apply (Hm m); now left| |]; cbn; destruct pv; try reflexivity; exfalso; apply (Hm m); right; auto.
  - assert (E : exists o, read_candidate pv j = Ok o).
    { destruct Hj as [-> |(m & [-> |[-> [-> | ->]]])]; eexists; reflexivity. }
    destruct E as (o & ->). cbn [bind]. rewrite IH. reflexivity.
Qed.
Lemma input_none : forall pv (pre post : list (@input M)) ms ms', Forall2 (mesh_of pv) pre ms -> Forall2 (mesh_of pv) post ms' ->
  input_to_mesh pv (pre ++ INone :: post) = Ok (OList (map OMesh ms ++ OList [] :: map OMesh ms')).
Proof.
  intros pv pre post ms ms' H1 H2. unfold input_to_mesh.
  assert (G : forall (args : list (@input M)) ms, Forall2 (mesh_of pv) args ms -> mapM (read_candidate pv) args = Ok (map OMesh ms)).
  { intros args ms0 H. apply inputs_read in H. unfold input_to_mesh in H. destruct (mapM (read_candidate pv) args); cbn [bind] in H; [|discriminate H]. now injection H as ->. }
  assert (E : mapM (read_candidate pv) (pre ++ INone :: post) = Ok (map OMesh ms ++ OList [] :: map OMesh ms')); [|rewrite E; reflexivity].
  induction H1 as [|i m pre ms H _ IH]; cbn [app mapM map].
  - cbn [read_candidate bind]. rewrite (G _ _ H2). reflexivity.
  - rewrite IH. destruct H as [-> |[-> [-> | ->]]]; reflexivity.
Qed.
End Inputs.

(** ** Triangles and cells *)
Local Open Scope R_scope.

Lemma truncate_whole x : EvalModel.truncate x = x <-> whole x.
Proof.
  split; [|intros (z & ->); apply truncate_IZR]. unfold EvalModel.truncate. destruct (Rle_dec 0 x); intros H; [exists (Int_part x); now symmetry|].
  exists (- Int_part (- x))%Z. rewrite opp_IZR. lra.
Qed.
Lemma tri_means d ec : ec <> [] -> Forall (has_dim d) ec -> forall a, (a < d)%nat -> column_mean ec a = Ok (rsum (map (at_ a) ec) / INR (length ec)).
Proof.
  intros HN HR a Ha. unfold column_mean. assert (E : mapM (fun r => get r a) ec = Ok (map (at_ a) ec)).
  { apply mapM_map. intros r Hr. rewrite Forall_forall in HR. specialize (HR r Hr). unfold has_dim in HR. destruct (nth_error_lt r a) as [x Hx]; [lia|].
    unfold at_. rewrite (nth_error_nth r a 0 Hx). now apply get_Ok. }
  rewrite E. cbn [bind]. rewrite map_length, ksum_rsum. destruct ec; [easy|]. reflexivity.
Qed.
Lemma tri_centers : forall ec, ec <> [] ->
  (Forall (has_dim 2) ec -> exists c, center_tri_2d EvalModel.Floating ec = Ok c /\ mean_row 2 ec c) /\
  (Forall (has_dim 3) ec -> exists c, center_tri_3d EvalModel.Floating ec = Ok c /\ mean_row 3 ec c).
Proof.
  intros ec HN. split; intros HR; pose proof (tri_means _ ec HN HR) as HC; pose proof (len_pos ec HN); eexists.
  - split; [unfold center_tri_2d; rewrite !HC by lia; reflexivity|]. cbn [EvalModel.store]. split; [reflexivity|]. intros a Ha.
    destruct a as [|[|a]]; [| |lia]; unfold at_ at 1; cbn [nth]; field; assumption.
  - split; [unfold center_tri_3d; rewrite !HC by lia; reflexivity|]. cbn [EvalModel.store]. split; [reflexivity|]. intros a Ha.
    destruct a as [|[|[|a]]]; [| | |lia]; unfold at_ at 1; cbn [nth]; field; assumption.
Qed.
Lemma tri_centers_integers : forall ec m, ec <> [] -> 
  (Forall (has_dim 2) ec -> mean_row 2 ec m -> (center_tri_2d EvalModel.Integral ec = Ok m <-> Forall whole m)) /\
  (Forall (has_dim 3) ec -> mean_row 3 ec m -> (center_tri_3d EvalModel.Integral ec = Ok m <-> Forall whole m)).
Proof.
  intros ec m HN. pose proof (len_pos ec HN) as HL. split; intros HR [Hd Hm]; pose proof (tri_means _ ec HN HR) as HC; unfold dim in Hd.
  - destruct m as [|x [|y [|z m]]]; try discriminate Hd. pose proof (Hm 0%nat ltac:(lia)) as H0. pose proof (Hm 1%nat ltac:(lia)) as H1. unfold at_ at 1 in H0. unfold at_ at 1 in H1. cbn [nth] in H0, H1.
    unfold center_tri_2d. rewrite !HC by lia. cbn [bind EvalModel.store]. rewrite <- H0, <- H1.
    replace (x * INR (length ec) / INR (length ec)) with x by (field; exact HL). replace (y * INR (length ec) / INR (length ec)) with y by (field; exact HL).
    split.
    + intros E. injection E as E1 E2. repeat constructor; now apply truncate_whole.
    + intros E. inversion E as [|? ? W1 E']; subst. inversion E' as [|? ? W2 _]; subst. apply truncate_whole in W1, W2. now rewrite W1, W2.
  - destruct m as [|x [|y [|z [|w m]]]]; try discriminate Hd. pose proof (Hm 0%nat ltac:(lia)) as H0. pose proof (Hm 1%nat ltac:(lia)) as H1. pose proof (Hm 2%nat ltac:(lia)) as H2.
    unfold at_ at 1 in H0. unfold at_ at 1 in H1. unfold at_ at 1 in H2. cbn [nth] in H0, H1, H2.
    unfold center_tri_3d. rewrite !HC by lia. cbn [bind EvalModel.store]. rewrite <- H0, <- H1, <- H2.
    replace (x * INR (length ec) / INR (length ec)) with x by (field; exact HL). replace (y * INR (length ec) / INR (length ec)) with y by (field; exact HL).
    replace (z * INR (length ec) / INR (length ec)) with z by (field; exact HL). split.
    + intros E. injection E as E1 E2 E3. repeat constructor; now apply truncate_whole.
    + intros E. inversion E as [|? ? W1 E']; subst. inversion E' as [|? ? W2 E'']; subst. inversion E'' as [|? ? W3 _]; subst. apply truncate_whole in W1, W2, W3. now rewrite W1, W2, W3.
Qed.
Lemma tri_center_image : forall a b c, dim 2 a -> dim 2 b -> dim 2 c ->
  shp_tri_loc lcenter_tri = Ok ncenter_tri /\ loc_to_glob_tri lcenter_tri [a; b; c] = center_tri_2d EvalModel.Floating [a; b; c].
Proof.
  intros a b c Ha Hb Hc. destruct a as [|a0 [|a1 [|]]]; try discriminate Ha. destruct b as [|b0 [|b1 [|]]]; try discriminate Hb. destruct c as [|c0 [|c1 [|]]]; try discriminate Hc.
  split.
  - unfold shp_tri_loc, lcenter_tri, ncenter_tri, get. cbn [nth_error bind]. do 2 f_equal. lra.
  - unfold loc_to_glob_tri, shp_tri_loc, lcenter_tri, get. cbn [nth_error bind]. rewrite vecmat3_2.
    unfold center_tri_2d, column_mean, get. cbn [mapM nth_error bind length Nat.eqb EvalModel.store]. rewrite !ksum_rsum. unfold rsum. cbn [fold_right INR]. do 2 f_equal; [field|f_equal; field].
Qed.
Lemma tri_monomials : forall ps, Forall (has_dim 2) ps -> exists rows, monoms_tri_loc_bulk ps = Ok rows /\ mapM monoms_tri_loc ps = Ok rows /\ 
  Forall2 (fun p r => r = [1; at_ 0 p; at_ 1 p]) ps rows.
Proof.
  intros ps H. unfold monoms_tri_loc_bulk. assert (E : exists rows, mapM monoms_tri_loc ps = Ok rows /\ Forall2 (fun p r => r = [1; at_ 0 p; at_ 1 p]) ps rows).
  { induction H as [|p ps Hp _ (rows & E & H2)]; [exists []; split; [reflexivity|constructor]|]. destruct p as [|x [|y p]]; try (exfalso; unfold has_dim in Hp; cbn in Hp; lia).
    exists ([1; x; y] :: rows). cbn [mapM]. rewrite E. split; [reflexivity|]. constructor; [reflexivity|exact H2]. }
  destruct E as (rows & E & H2). exists rows. auto.
Qed.
Lemma cell_coords_row : forall coords topo ecs i nodes ec, cells_coords coords topo = Ok ecs -> nth_error topo i = Some nodes -> nth_error ecs i = Some ec ->
  cell_coords coords nodes = Ok ec.
Proof.
  intros coords topo. unfold cells_coords, cell_coords. induction topo as [|t topo IH]; intros ecs i nodes ec E Ht Hec; [destruct i; discriminate Ht|].
  cbn [mapM] in E. destruct (mapM (get coords) t) as [e0|] eqn:E0; cbn [bind] in E; [|discriminate E].
  destruct (mapM (mapM (get coords)) topo) as [es|] eqn:E1; cbn [bind] in E; [|discriminate E]. injection E as <-.
  destruct i as [|i]; cbn [nth_error] in *; [injection Ht as <-; injection Hec as <-; exact E0|]. exact (IH es i nodes ec eq_refl Ht Hec).
Qed.
