(** * Proofs about [ExchangeModel.v]: lists of records, wrapped databases, classes *)
From Coq Require Import List Lia.
From Verif Require Import BaseFacts ExchangeModel ExchangeSpec ExchangeProofs TileProofs3 ExtrudeProofs4.
Import ListNotations.

Section Tables.
Context {V : Type}.
Notation tbl := (list (nat * list V)) (only parsing).

(** record [i] *)
Lemma record_ok (d : tbl) n i : Forall (fun kc => length (snd kc) = n) d -> i < n ->
  exists r, mapM (fun kc : nat * list V => do v <- get (snd kc) i; Ok (fst kc, v)) d = Ok r /\ map fst r = map fst d /\
    forall f v, In (f, v) r -> exists col, In (f, col) d /\ nth_error col i = Some v.
Proof.
  intros HL Hi. induction d as [|[k c] d IH]; [exists []; repeat split; intros f v []|].
  inversion HL as [|? ? H1 H2]; subst. cbn [snd] in *. destruct (IH H2) as (r & E & HM & HR). cbn [mapM fst snd].
  destruct (nth_error c i) as [v|] eqn:EV; [|apply nth_error_None in EV; lia].
  unfold get at 1. rewrite EV. cbn [bind]. rewrite E. cbn [bind]. exists ((k, v) :: r). split; [reflexivity|]. split; [cbn; f_equal; exact HM|].
  intros f w [H|H]; [injection H as <- <-; exists c; split; [left; reflexivity|exact EV]|].
  destruct (HR f w H) as (col & HC & HV). exists col. split; [right; exact HC|exact HV].
Qed.

Lemma mapM_seq {B} (f : nat -> res B) (P : nat -> B -> Prop) : forall n s, (forall i, s <= i < s + n -> exists b, f i = Ok b /\ P i b) ->
  exists l, mapM f (seq s n) = Ok l /\ length l = n /\ forall i b, nth_error l i = Some b -> P (s + i) b.
Proof.
  induction n as [|n IH]; intros s H; [exists []; repeat split; intros i b E; destruct i; discriminate|].
  destruct (H s ltac:(lia)) as (b & E & HP). destruct (IH (S s)) as (l & EL & HL & HQ). { intros i Hi. apply H. lia. }
  exists (b :: l). cbn [seq mapM]. rewrite E. cbn [bind]. rewrite EL. split; [reflexivity|]. split; [cbn; lia|].
  intros [|i] b' E'; cbn in E'; [injection E' as <-; rewrite Nat.add_0_r; exact HP|]. replace (s + S i) with (S s + i) by lia. exact (HQ i b' E').
Qed.

Lemma database_unique (d : tbl) n m : database n d -> database m d -> n = m.
Proof. intros (H & _ & H1) (_ & _ & H2). destruct d as [|kc d]; [congruence|]. inversion H1; inversion H2; subst. congruence. Qed.

Lemma to_records_ok (d : tbl) n : database n d -> exists l, to_records d = Ok l /\ records_of (map fst d) d l.
Proof.
  intros HD. pose proof HD as (HE & HN & HL). destruct d as [|[k c] d]; [congruence|]. unfold to_records.
  assert (HC : length c = n) by (inversion HL; assumption). rewrite HC.
  destruct (mapM_seq (fun i => mapM (fun kc : nat * list V => do v <- get (snd kc) i; Ok (fst kc, v)) ((k, c) :: d))
              (fun i r => map fst r = map fst ((k, c) :: d) /\ forall f v, In (f, v) r -> exists col, In (f, col) ((k, c) :: d) /\ nth_error col i = Some v) n 0) as (l & E & HLen & HR).
  { intros i Hi. apply (record_ok _ n); [exact HL|lia]. }
  exists l. split; [exact E|]. split; [intros m Hm; rewrite (database_unique _ _ _ Hm HD); exact HLen|]. intros i r Hr. exact (HR i r Hr).
Qed.

Lemma pick_ok (d : tbl) fs : NoDup (map fst d) -> NoDup fs -> incl fs (map fst d) -> exists s, pick d fs = Ok s /\ columns_of fs d s.
Proof.
  intros HD. unfold pick. enough (G : forall s, NoDup (map fst s ++ fs) -> incl fs (map fst d) -> incl s d ->
    exists s', foldM (fun s f => do c <- dget d f; Ok (dset s f c)) fs s = Ok s' /\ columns_of (map fst s ++ fs) d s').
  { intros HN HI. destruct (G [] HN HI (incl_nil_l _)) as (s & E & H). exists s. split; assumption. }
  induction fs as [|f fs IH]; intros s HN HI HS.
  - exists s. rewrite app_nil_r. split; [reflexivity|split; [reflexivity|exact HS]].
  - cbn [foldM]. destruct (proj2 (dget_ok_iff d f) (HI f (or_introl eq_refl))) as (c & E). rewrite E. cbn [bind].
    assert (HF : ~ In f (dkeys s)) by (apply NoDup_remove_2 in HN; intros H; apply HN, in_or_app; left; exact H).
    rewrite (dset_new _ _ _ HF). destruct (IH (s ++ [(f, c)])) as (s' & E' & H').
    + rewrite map_app. cbn [map fst]. rewrite <- app_assoc. exact HN.
    + intros x Hx. apply HI. right. exact Hx.
    + intros x Hx. apply in_app_or in Hx. destruct Hx as [Hx|[<-|[]]]; [apply HS; exact Hx|exact (dget_In _ _ _ E)].
    + exists s'. split; [exact E'|]. rewrite map_app in H'. cbn [map fst] in H'. rewrite <- app_assoc in H'. exact H'.
Qed.

Lemma pick_missing (d : tbl) fs f : In f fs -> ~ In f (map fst d) -> pick d fs = Err KeyError.
Proof.
  intros HF HD. unfold pick. enough (G : forall s, foldM (fun (s : tbl) f => do c <- dget d f; Ok (dset s f c)) fs s = Err KeyError) by apply G.
  induction fs as [|g fs IH]; [destruct HF|]. intros s. cbn [foldM]. destruct (dget d g) as [c|e] eqn:E; cbn [bind].
  - apply IH. destruct HF as [<-|H]; [|exact H]. exfalso. apply HD. apply (proj1 (dget_ok_iff d g)). exists c. exact E.
  - f_equal. clear -E. induction d as [|[k v] d IHd]; cbn in E; [congruence|]. destruct (Nat.eqb g k); [discriminate|exact (IHd E)].
Qed.

Lemma columns_database (d s : tbl) fs n : database n d -> columns_of fs d s -> fs <> [] -> NoDup fs -> database n s.
Proof.
  intros (_ & _ & HL) [HK HI] HE HN. split; [intros ->; cbn in HK; congruence|]. split; [rewrite HK; exact HN|].
  apply Forall_forall. intros x Hx. rewrite Forall_forall in HL. apply HL, HI, Hx.
Qed.

Lemma block_records_ok (d : tbl) n fields : database n d -> available fields d -> exists l, block_records fields d = Ok l /\ records_of (wanted fields d) d l.
Proof.
  intros HD HA. destruct fields as [fs|]; [|exact (to_records_ok d n HD)].
  destruct HA as (HE & HN & HI). pose proof HD as (_ & HK & _). destruct (pick_ok d fs HK HN HI) as (s & E & HC). cbn [block_records]. rewrite E. cbn [bind].
  pose proof (columns_database d s fs n HD HC HE HN) as HS. destruct (to_records_ok s n HS) as (l & EL & HR1 & HR2).
  exists l. split.
  - unfold wrapped_records. destruct s as [|x s]; [destruct HS as (H & _); congruence|exact EL].
  - split; [intros m Hm; rewrite (database_unique _ _ _ Hm HD); apply HR1, HS|]. intros i r Hr. destruct (HR2 i r Hr) as [HM HV]. split; [rewrite HM; exact (proj1 HC)|].
    intros f v Hf. destruct (HV f v Hf) as (col & H1 & H2). exists col. split; [apply (proj2 HC), H1|exact H2].
Qed.

Lemma fold_app {A} (l : list (list A)) : forall x, fold_left (@app A) l x = x ++ concat l.
Proof. induction l as [|y l IH]; intros x; cbn; [rewrite app_nil_r; reflexivity|]. rewrite IH, app_assoc. reflexivity. Qed.

Lemma all_records (ds : list tbl) fields : ds <> [] -> Forall (fun d => (exists n, database n d) /\ available fields d) ds ->
  exists l, (do p <- mapM (block_records fields) ds; reduce_app p) = Ok l /\ records_of_all fields ds l.
Proof.
  intros HE HA. assert (G : exists parts, mapM (block_records fields) ds = Ok parts /\ Forall2 (fun d part => records_of (wanted fields d) d part) ds parts).
  { clear HE. induction HA as [|d ds [(n & HD) HF] _ (parts & E & H2)]; [exists []; split; [reflexivity|constructor]|].
    destruct (block_records_ok d n fields HD HF) as (l & EL & HR). exists (l :: parts). cbn [mapM]. rewrite EL. cbn [bind]. rewrite E. split; [reflexivity|constructor; assumption]. }
  destruct G as (parts & E & H2). rewrite E. cbn [bind]. destruct parts as [|x parts]; [inversion H2; congruence|].
  exists (concat (x :: parts)). split; [cbn [reduce_app concat]; rewrite fold_app; reflexivity|]. exists (x :: parts). split; [reflexivity|exact H2].
Qed.

Lemma lists_made : forall (pts cls : list (list (nat * list V))) pf cf, pts <> [] -> cls <> [] ->
  Forall (fun d => (exists n, database n d) /\ available pf d) pts -> Forall (fun d => (exists n, database n d) /\ available cf d) cls ->
  exists lp lc, to_lists pts cls pf cf = Ok (lp, lc) /\ records_of_all pf pts lp /\ records_of_all cf cls lc.
Proof.
  intros pts cls pf cf HP HC AP AC. destruct (all_records pts pf HP AP) as (lp & E1 & H1). destruct (all_records cls cf HC AC) as (lc & E2 & H2).
  exists lp, lc. split; [|split; assumption]. unfold to_lists.
  destruct (mapM (block_records pf) pts) as [p|]; [|discriminate]. cbn [bind] in *. rewrite E1. cbn [bind].
  destruct (mapM (block_records cf) cls) as [q|]; [|discriminate]. cbn [bind] in *. rewrite E2. reflexivity.
Qed.

Lemma lists_no_cells : forall (pts : list (list (nat * list V))) pf cf, Forall (fun d => (exists n, database n d) /\ available pf d) pts ->
  to_lists pts [] pf cf = Err TypeError.
Proof.
  intros pts pf cf AP. unfold to_lists. destruct pts as [|d pts]; [reflexivity|]. destruct (all_records (d :: pts) pf ltac:(discriminate) AP) as (lp & E1 & _).
  destruct (mapM (block_records pf) (d :: pts)) as [p|]; [|discriminate]. cbn [bind] in *. rewrite E1. reflexivity.
Qed.

Lemma lists_missing : forall pre (d : list (nat * list V)) post cls fs f cf, Forall (fun d => (exists n, database n d) /\ available (Some fs) d) pre ->
  In f fs -> ~ In f (map fst d) -> to_lists (pre ++ d :: post) cls (Some fs) cf = Err KeyError.
Proof.
  intros pre d post cls fs f cf AP HF HD. unfold to_lists.
  enough (G : mapM (block_records (Some fs)) (pre ++ d :: post) = Err KeyError) by (rewrite G; reflexivity).
  induction AP as [|d0 pre [(n & HDb) HA] _ IH]; cbn [app mapM].
  - cbn [block_records]. rewrite (pick_missing d fs f HF HD). reflexivity.
  - destruct (block_records_ok d0 n _ HDb HA) as (l & E & _). rewrite E. cbn [bind]. rewrite IH. reflexivity.
Qed.

Lemma lists_no_fields : forall (d : list (nat * list V)) pts cls cf, to_lists (d :: pts) cls (Some []) cf = Err AttributeError.
Proof. reflexivity. Qed.

(** ** Wrapped databases *)

Lemma dict_of_fields : forall (d : list (nat * list V)) n args fields, database n d -> (forall l, fields <> GivenTuple l) ->
  NoDup (asked args fields) -> incl (asked args fields) (map fst d) ->
  exists s, fst (to_dict d args fields) = Ok s /\ columns_of (match asked args fields with [] => map fst d | fs => fs end) d s.
Proof.
  intros d n args fields (HE & HK & HL) HT HN HI. destruct fields as [|l|l]; [| |exfalso; exact (HT l eq_refl)]; cbn [to_dict fst asked] in *.
  - destruct args as [|a args]; [apply pick_ok; [exact HK|exact HK|apply incl_refl]|]. cbn [length Nat.eqb]. apply pick_ok; assumption.
  - destruct (l ++ args) as [|a fs] eqn:E; [apply pick_ok; [exact HK|exact HK|apply incl_refl]|]. cbn [length Nat.eqb]. apply pick_ok; assumption.
Qed.

Lemma list_of_fields : forall (d : list (nat * list V)) n args fields, database n d -> (forall l, fields <> GivenTuple l) -> (fields = Absent \/ asked args fields <> []) ->
  NoDup (asked args fields) -> incl (asked args fields) (map fst d) ->
  exists rs, fst (to_list d args fields) = Ok rs /\ records_of (match asked args fields with [] => map fst d | fs => fs end) d rs.
Proof.
  intros d n args fields HD HT HE HN HI. destruct fields as [|l|l]; [| |exfalso; exact (HT l eq_refl)]; cbn [to_list fst asked] in *.
  - destruct args as [|a args]; [exact (to_records_ok d n HD)|].
    assert (HA : available (Some (a :: args)) d) by (split; [discriminate|split; assumption]).
    destruct (block_records_ok d n (Some (a :: args)) HD HA) as (rs & E1 & H1). exists rs. split; [exact E1|exact H1].
  - destruct HE as [HE|HE]; [discriminate|]. destruct (l ++ args) as [|a fs] eqn:E; [congruence|].
    assert (HA : available (Some (a :: fs)) d) by (split; [discriminate|split; assumption]).
    destruct (block_records_ok d n (Some (a :: fs)) HD HA) as (rs & E1 & H1). exists rs. split; [exact E1|exact H1].
Qed.

Lemma fields_unknown : forall (d : list (nat * list V)) args fields f, (forall l, fields <> GivenTuple l) -> In f (asked args fields) -> ~ In f (map fst d) ->
  fst (to_dict d args fields) = Err KeyError /\ fst (to_list d args fields) = Err KeyError.
Proof.
  intros d args fields f HT HF HD. destruct fields as [|l|l]; [| |exfalso; exact (HT l eq_refl)]; cbn [to_dict to_list fst asked] in *.
  - destruct args as [|a args]; [destruct HF|]. cbn [length Nat.eqb]. rewrite (pick_missing d _ f HF HD). split; reflexivity.
  - destruct (l ++ args) as [|a fs] eqn:E; [destruct HF|]. cbn [length Nat.eqb]. rewrite (pick_missing d _ f HF HD). split; reflexivity.
Qed.

Lemma fields_changed : forall (d : list (nat * list V)) l args, args <> [] ->
  snd (to_dict d args (GivenList l)) <> GivenList l /\ snd (to_list d args (GivenList l)) <> GivenList l.
Proof.
  intros d l args HA. cbn. enough (G : l ++ args <> l) by (split; intros H; injection H as H; exact (G H)).
  intros H. apply HA. apply length_zero_iff_nil. apply (f_equal (@length nat)) in H. rewrite app_length in H. lia.
Qed.
Lemma fields_again : forall (d : list (nat * list V)) n l args args2 s, database n d -> NoDup (l ++ args ++ args2) -> incl (l ++ args ++ args2) (map fst d) -> args <> [] ->
  fst (to_dict d args2 (snd (to_dict d args (GivenList l)))) = Ok s -> map fst s = l ++ args ++ args2.
Proof.
  intros d n l args args2 s HD HN HI HA E. rewrite app_assoc in HN, HI.
  destruct (dict_of_fields d n args2 (GivenList (l ++ args)) HD ltac:(discriminate) HN HI) as (s' & E' & HC & _).
  change (snd (to_dict d args (GivenList l))) with (GivenList (l ++ args)) in E. rewrite E' in E. injection E as <-. cbn [asked] in HC. rewrite HC, app_assoc. destruct ((l ++ args) ++ args2) eqn:EE; [|reflexivity].
  exfalso. apply HA. apply app_eq_nil in EE. destruct EE as [EE _]. apply app_eq_nil in EE. exact (proj2 EE).
Qed.
Lemma fields_tuple : forall (d : list (nat * list V)) args l, fst (to_dict d args (GivenTuple l)) = Err AttributeError /\ fst (to_list d args (GivenTuple l)) = Err AttributeError.
Proof. split; reflexivity. Qed.
Lemma fields_empty : forall (d : list (nat * list V)) n, database n d ->
  fst (to_list d [] (GivenList [])) = Err AttributeError /\ exists s, fst (to_dict d [] (GivenList [])) = Ok s /\ columns_of (map fst d) d s.
Proof. intros d n (HE & HK & HL). split; [reflexivity|]. cbn. apply pick_ok; [exact HK|exact HK|apply incl_refl]. Qed.

Lemma wrapper_fold (kwargs : dict (@keyword V)) : forall start, NoDup (map fst start) -> (forall k, In k (map fst kwargs) -> ~ In k (map fst start)) -> NoDup (map fst kwargs) ->
  forall k c, In (k, c) (fold_left (fun s kv => match snd kv with KArray c => dset s (fst kv) c | KOther => s end) kwargs start) <-> In (k, c) start \/ In (k, KArray c) kwargs.
Proof.
  induction kwargs as [|[k0 [c0|]] kwargs IH]; intros start HS HF HN k c; cbn [fold_left snd fst map] in *.
  - cbn. tauto.
  - inversion HN as [|? ? N1 N2]; subst. assert (HK : ~ In k0 (dkeys start)) by (apply HF; left; reflexivity). rewrite (dset_new _ _ _ HK), IH.
    + rewrite in_app_iff. cbn. split; [intros [[H|[H|[]]]|H]; [tauto|injection H as -> ->; tauto|tauto]|intros [H|[H|H]]; [tauto|injection H as -> ->; tauto|tauto]].
    + rewrite map_app. apply NoDup_app'; [exact HS|constructor; [intros []|constructor]|]. intros x Hx [<-|[]]. exact (HK Hx).
    + intros x Hx. rewrite map_app, in_app_iff. intros [H|[<-|[]]]; [exact (HF x (or_intror Hx) H)|exact (N1 Hx)].
    + exact N2.
  - inversion HN as [|? ? N1 N2]; subst. rewrite IH by (try assumption; intros x Hx; apply HF; right; exact Hx). cbn. split; [tauto|intros [H|[H|H]]; [tauto|discriminate|tauto]].
Qed.

Lemma wrapper_content : forall (fields : option (list (nat * list V))) kwargs t, (match fields with Some f => NoDup (map fst f) /\ forall k, In k (map fst kwargs) -> ~ In k (map fst f) | None => True end) -> NoDup (map fst kwargs) ->
  fst (wrapper fields kwargs) = Some t -> forall k c, In (k, c) t <-> (exists f, fields = Some f /\ In (k, c) f) \/ In (k, KArray c) kwargs.
Proof.
  intros fields kwargs t HF HN E k c. destruct fields as [f|]; unfold wrapper in E; cbv zeta in E; cbn [fst] in E.
  - destruct HF as [HS HD]. pose proof (wrapper_fold kwargs f HS HD HN k c) as G.
    match type of E with match ?e with _ => _ end = _ => destruct e as [|x l] eqn:EF end; [discriminate|]. injection E as <-.
    etransitivity; [exact G|]. split; intros [H|H]; try tauto; [left; exists f; tauto|destruct H as (f' & H1 & H2); injection H1 as <-; tauto].
  - pose proof (wrapper_fold kwargs [] (NoDup_nil _) (fun k _ H => H) HN k c) as G.
    match type of E with match ?e with _ => _ end = _ => destruct e as [|x l] eqn:EF end; [discriminate|]. injection E as <-.
    etransitivity; [exact G|]. split; intros [H|H]; try tauto; destruct H as (f' & H1 & _); discriminate.
Qed.
Lemma wrapper_leaks : forall (f : list (nat * list V)) kwargs k c, NoDup (map fst f) -> NoDup (map fst kwargs) -> (forall k, In k (map fst kwargs) -> ~ In k (map fst f)) -> In (k, KArray c) kwargs ->
  exists f', snd (wrapper (Some f) kwargs) = Some f' /\ In (k, c) f' /\ ~ In k (map fst f).
Proof.
  intros f kwargs k c HN HK HD HI. unfold wrapper. cbn [snd]. eexists. split; [reflexivity|]. split; [apply (wrapper_fold kwargs f HN HD HK); right; exact HI|].
  apply HD. apply in_map_iff. exists (k, KArray c). split; [reflexivity|exact HI].
Qed.
End Tables.

(** ** Classes *)

Lemma update_get (b : dict nat) : forall a k, NoDup (dkeys b) -> dget (update a b) k = match dget b k with Ok v => Ok v | Err _ => dget a k end.
Proof.
  unfold update. induction b as [|[k0 v0] b IH]; intros a k HN; [reflexivity|]. cbn [fold_left fst snd dget]. inversion HN as [|? ? N1 N2]; subst. rewrite (IH _ _ N2), dget_dset.
  destruct (Nat.eqb_spec k k0) as [->|E]; [|reflexivity]. destruct (dget b k0) as [v|] eqn:G; [|reflexivity]. exfalso. apply N1. apply (dget_ok_iff b k0). exists v. exact G.
Qed.

Lemma map_of_class : forall names w d w' b battrs bvtk own, define_class names w d = Ok w' -> dbases d = [b] -> dget (wclasses w) b = Ok (battrs, bvtk) -> NoDup (map fst battrs) -> down d = Some own ->
  exists attrs vtk, dget (wclasses w') (dname d) = Ok (attrs, vtk) /\
    forall k v, entry attrs k v <-> entry battrs k v \/ (~ In k (map fst battrs) /\ entry own k v).
Proof.
  intros names w d w' b battrs bvtk own E HB HG HN HO. unfold define_class in E. rewrite HB, HO in E. cbn [mapM] in E. rewrite HG in E. cbn [bind fold_left fst] in E.
  assert (G : dget (wclasses w') (dname d) = Ok (update own battrs, vtk_of d [(battrs, bvtk)])).
  { destruct (vtk_of d [(battrs, bvtk)]); [destruct (dget names n); [|discriminate]|]; cbn [bind] in E; injection E as <-; cbn [wclasses]; rewrite dget_dset, Nat.eqb_refl; reflexivity. }
  exists (update own battrs), (vtk_of d [(battrs, bvtk)]). split; [exact G|]. intros k v. unfold entry. rewrite (update_get _ _ _ HN).
  destruct (dget battrs k) as [v0|] eqn:GB.
  - split; [intros H; left; exact H|intros [H|[H _]]; [exact H|]]. exfalso. apply H. apply (dget_ok_iff battrs k). exists v0. exact GB.
  - split; [intros H; right; split; [|exact H]|intros [H|[_ H]]; [discriminate|exact H]]. intros H'. apply (dget_ok_iff battrs k) in H'. destruct H' as (v0 & H'). congruence.
Qed.

Lemma map_not_overridden : forall names w d w' b battrs bvtk own k v v', define_class names w d = Ok w' -> dbases d = [b] -> dget (wclasses w) b = Ok (battrs, bvtk) -> NoDup (map fst battrs) -> down d = Some own ->
  entry battrs k v -> entry own k v' -> v' <> v ->
  exists attrs vtk, dget (wclasses w') (dname d) = Ok (attrs, vtk) /\ entry attrs k v /\ ~ entry attrs k v'.
Proof.
  intros names w d w' b battrs bvtk own k v v' E HB HG HN HO HE HV HD. destruct (map_of_class _ _ _ _ _ _ _ _ E HB HG HN HO) as (attrs & vtk & G & H).
  exists attrs, vtk. split; [exact G|]. assert (A : entry attrs k v) by (apply H; left; exact HE). split; [exact A|]. unfold entry in *. congruence.
Qed.

Lemma map_last_base : forall names w d w' b1 b2 a1 a2 t1 t2 k v1 v2, define_class names w d = Ok w' -> dbases d = [b1; b2] -> dget (wclasses w) b1 = Ok (a1, t1) -> dget (wclasses w) b2 = Ok (a2, t2) ->
  NoDup (map fst a1) -> NoDup (map fst a2) -> entry a1 k v1 -> entry a2 k v2 ->
  exists attrs vtk, dget (wclasses w') (dname d) = Ok (attrs, vtk) /\ entry attrs k v2.
Proof.
  intros names w d w' b1 b2 a1 a2 t1 t2 k v1 v2 E HB G1 G2 N1 N2 E1 E2. unfold define_class in E. rewrite HB in E. cbn [mapM] in E. rewrite G1, G2 in E. cbn [bind fold_left fst] in E.
  eexists. exists (vtk_of d [(a1, t1); (a2, t2)]). split.
  { destruct (vtk_of d [(a1, t1); (a2, t2)]); [destruct (dget names n); [|discriminate]|]; cbn [bind] in E; injection E as <-; cbn [wclasses]; rewrite dget_dset, Nat.eqb_refl; reflexivity. }
  unfold entry in *. rewrite (update_get _ _ _ N2), E2. reflexivity.
Qed.

Lemma type_of_class : forall names w d w' b battrs bvtk, define_class names w d = Ok w' -> dbases d = [b] -> dget (wclasses w) b = Ok (battrs, bvtk) ->
  exists attrs, dget (wclasses w') (dname d) = Ok (attrs, match dvtk d with NotSet => bvtk | SetNone => None | SetTo n => Some n end).
Proof.
  intros names w d w' b battrs bvtk E HB HG. unfold define_class in E. rewrite HB in E. cbn [mapM] in E. rewrite HG in E. cbn [bind] in E.
  assert (V : vtk_of d [(battrs, bvtk)] = match dvtk d with NotSet => bvtk | SetNone => None | SetTo n => Some n end) by (unfold vtk_of; destruct (dvtk d); try reflexivity; cbn; destruct bvtk; reflexivity).
  rewrite V in E. eexists. destruct (match dvtk d with NotSet => bvtk | SetNone => None | SetTo n => Some n end) as [n|]; [destruct (dget names n); [|discriminate]|]; cbn [bind] in E; injection E as <-; cbn [wclasses]; rewrite dget_dset, Nat.eqb_refl; reflexivity.
Qed.

(** what a class statement does *)
Lemma define_inv names w d w' : define_class names w d = Ok w' ->
  exists attrs vtk, wclasses w' = dset (wclasses w) (dname d) (attrs, vtk) /\
    match vtk with
    | Some n => exists name, dget names n = Ok name /\ wvtk w' = dset (wvtk w) n (dname d) /\ wmeshio w' = dset (wmeshio w) name (dname d)
    | None => wvtk w' = wvtk w /\ wmeshio w' = wmeshio w
    end.
Proof.
  intros E. unfold define_class in E. destruct (mapM _ (dbases d)) as [bases|]; [|discriminate]. cbn [bind] in E. eexists. exists (vtk_of d bases).
  destruct (vtk_of d bases) as [n|]; [destruct (dget names n) as [name|] eqn:EN; [|discriminate]; cbn [bind] in E; injection E as <-; cbn; split; [reflexivity|]; exists name; repeat split|injection E as <-; cbn; repeat split].
Qed.

Lemma classes_stable names ds : forall w w', define_classes names ds w = Ok w' -> forall c, ~ In c (map dname ds) -> dget (wclasses w') c = dget (wclasses w) c.
Proof.
  unfold define_classes. induction ds as [|d ds IH]; intros w w' E c HC; [injection E as <-; reflexivity|]. cbn [foldM] in E.
  destruct (define_class names w d) as [w1|] eqn:E1; [|discriminate]. cbn [bind] in E. rewrite (IH _ _ E c) by (intros H; apply HC; right; exact H).
  destruct (define_inv _ _ _ _ E1) as (attrs & vtk & -> & _). rewrite dget_dset. destruct (Nat.eqb_spec c (dname d)); [|reflexivity]. subst. exfalso. apply HC. left. reflexivity.
Qed.

Lemma define_classes_app names a b w : define_classes names (a ++ b) w = do w1 <- define_classes names a w; define_classes names b w1.
Proof. apply foldM_app. Qed.

Lemma nodup_app_left {A} (a b : list A) : NoDup (a ++ b) -> NoDup a.
Proof. induction a as [|x a IH]; intros H; [constructor|]. inversion H as [|? ? H1 H2]; subst. constructor; [intros HI; apply H1, in_or_app; left; exact HI|exact (IH H2)]. Qed.

Lemma last_with_ext {A} (P Q : A -> Prop) l x : (forall y, In y l -> (P y <-> Q y)) -> last_with P l x -> last_with Q l x.
Proof.
  intros H (pre & post & -> & HP & HF). exists pre, post. split; [reflexivity|]. split; [apply H; [apply in_or_app; right; left; reflexivity|exact HP]|].
  apply Forall_forall. intros y Hy HQ. rewrite Forall_forall in HF. apply (HF y Hy), H; [apply in_or_app; right; right; exact Hy|exact HQ].
Qed.
Lemma list_eq_nil_dec_snoc {A} (l : list A) : l = [] \/ exists l' z, l = l' ++ [z].
Proof. destruct (rev l) as [|z r] eqn:E; [left; rewrite <- (rev_involutive l), E; reflexivity|right]. exists (rev r), z. rewrite <- (rev_involutive l), E. reflexivity. Qed.
Lemma last_with_snoc {A} (P : A -> Prop) l y x : last_with P (l ++ [y]) x <-> (P y /\ x = y) \/ (~ P y /\ last_with P l x).
Proof.
  split.
  - intros (pre & post & E & HP & HF). destruct (list_eq_nil_dec_snoc post) as [->|(post' & z & ->)].
    + apply app_inj_tail in E. destruct E as [-> ->]. left. split; [exact HP|reflexivity].
    + rewrite app_comm_cons, app_assoc in E. apply app_inj_tail in E. destruct E as [-> ->]. right. apply Forall_app in HF. destruct HF as [HF HZ]. split; [inversion HZ; assumption|]. exists pre, post'. repeat split; assumption.
  - intros [[HP ->]|[HN (pre & post & -> & HP & HF)]]; [exists l, []; repeat split; [exact HP|constructor]|].
    exists pre, (post ++ [y]). split; [rewrite <- app_assoc; reflexivity|]. split; [exact HP|]. apply Forall_app. split; [exact HF|constructor; [exact HN|constructor]].
Qed.

Lemma registry_last : forall names ds w, NoDup (map dname ds) -> define_classes names ds (World [] [] []) = Ok w ->
  forall n c, dget (wvtk w) n = Ok c <-> exists d, last_with (fun d => exists attrs, dget (wclasses w) (dname d) = Ok (attrs, Some n)) ds d /\ dname d = c.
Proof.
  intros names ds. induction ds as [|d ds IH] using rev_ind; intros w HN E n c.
  - injection E as <-. cbn. split; [discriminate|]. intros (d & (pre & post & H & _) & _). destruct pre; discriminate.
  - rewrite define_classes_app in E. destruct (define_classes names ds (World [] [] [])) as [w1|] eqn:E1; [|discriminate]. cbn [bind] in E.
    unfold define_classes in E. cbn [foldM] in E. destruct (define_class names w1 d) as [w2|] eqn:E2; [|discriminate]. injection E as ->.
    rewrite map_app in HN. cbn [map] in HN. assert (HN1 := nodup_app_left _ _ HN). assert (HD : ~ In (dname d) (map dname ds)). { apply NoDup_remove_2 in HN. rewrite app_nil_r in HN. exact HN. }
    specialize (IH w1 HN1 eq_refl n c). destruct (define_inv _ _ _ _ E2) as (attrs & vtk & HC & HV).
    assert (HG : dget (wclasses w) (dname d) = Ok (attrs, vtk)) by (rewrite HC, dget_dset, Nat.eqb_refl; reflexivity).
    assert (HO : forall y, In y ds -> dget (wclasses w) (dname y) = dget (wclasses w1) (dname y)).
    { intros y Hy. rewrite HC, dget_dset. destruct (Nat.eqb_spec (dname y) (dname d)) as [EQ|]; [|reflexivity]. exfalso. apply HD. rewrite <- EQ. apply in_map. exact Hy. }
    assert (HX : forall x, last_with (fun d => exists attrs, dget (wclasses w) (dname d) = Ok (attrs, Some n)) ds x <-> last_with (fun d => exists attrs, dget (wclasses w1) (dname d) = Ok (attrs, Some n)) ds x).
    { intros x. split; apply last_with_ext; intros y Hy; rewrite (HO y Hy); reflexivity. }
    assert (HP : (exists attrs0, dget (wclasses w) (dname d) = Ok (attrs0, Some n)) <-> vtk = Some n).
    { rewrite HG. split; [intros (a & H); injection H as _ ->; reflexivity|intros ->; exists attrs; reflexivity]. }
    split.
    + intros H. destruct vtk as [m|]; [destruct HV as (name & _ & HV & _); rewrite HV, dget_dset in H; destruct (Nat.eqb_spec n m) as [->|NE]|destruct HV as [HV _]; rewrite HV in H].
      * injection H as <-. exists d. split; [|reflexivity]. apply last_with_snoc. left. split; [apply HP; reflexivity|reflexivity].
      * apply IH in H. destruct H as (x & H & HE). exists x. split; [|exact HE]. apply last_with_snoc. right. split; [intros Q; apply HP in Q; congruence|apply HX; exact H].
      * apply IH in H. destruct H as (x & H & HE). exists x. split; [|exact HE]. apply last_with_snoc. right. split; [intros Q; apply HP in Q; congruence|apply HX; exact H].
    + intros (x & H & HE). apply last_with_snoc in H. destruct H as [[Q ->]|[Q H]].
      * apply HP in Q. subst vtk. destruct HV as (name & _ & HV & _). rewrite HV, dget_dset, Nat.eqb_refl. f_equal. exact HE.
      * assert (NV : vtk <> Some n) by (intros R; apply Q, HP, R). assert (G : dget (wvtk w1) n = Ok c) by (apply IH; exists x; split; [apply HX; exact H|exact HE]).
        destruct vtk as [m|]; [destruct HV as (name & _ & HV & _); rewrite HV, dget_dset; destruct (Nat.eqb_spec n m); [congruence|exact G]|destruct HV as [HV _]; rewrite HV; exact G].
Qed.

Lemma registry_meshio : forall names ds w, NoDup (map dname ds) -> (forall n n' name, dget names n = Ok name -> dget names n' = Ok name -> n = n') -> define_classes names ds (World [] [] []) = Ok w ->
  forall n name, dget names n = Ok name -> dget (wmeshio w) name = dget (wvtk w) n.
Proof.
  intros names ds. induction ds as [|d ds IH] using rev_ind; intros w HN HI E n name Hn.
  - injection E as <-. reflexivity.
  - rewrite define_classes_app in E. destruct (define_classes names ds (World [] [] [])) as [w1|] eqn:E1; [|discriminate]. cbn [bind] in E.
    unfold define_classes in E. cbn [foldM] in E. destruct (define_class names w1 d) as [w2|] eqn:E2; [|discriminate]. injection E as ->.
    rewrite map_app in HN. specialize (IH w1 (nodup_app_left _ _ HN) HI eq_refl n name Hn).
    destruct (define_inv _ _ _ _ E2) as (attrs & [m|] & _ & HV); [|destruct HV as [-> ->]; exact IH].
    destruct HV as (name' & Hm & -> & ->). rewrite !dget_dset. destruct (Nat.eqb_spec n m) as [->|NE]; destruct (Nat.eqb_spec name name') as [->|NE']; [reflexivity|congruence| |exact IH].
    exfalso. exact (NE (HI _ _ _ Hn Hm)).
Qed.

Lemma subclass_takes_over : forall names w d w' b battrs n, define_class names w d = Ok w' -> dbases d = [b] -> dget (wclasses w) b = Ok (battrs, Some n) -> dvtk d = NotSet ->
  dget (wvtk w') n = Ok (dname d) /\ forall n', n' <> n -> dget (wvtk w') n' = dget (wvtk w) n'.
Proof.
  intros names w d w' b battrs n E HB HG HD. destruct (type_of_class _ _ _ _ _ _ _ E HB HG) as (attrs & HT). rewrite HD in HT.
  destruct (define_inv _ _ _ _ E) as (attrs' & vtk & HC & HV). rewrite HC, dget_dset, Nat.eqb_refl in HT. injection HT as -> ->.
  destruct HV as (name & _ & -> & _). split; [rewrite dget_dset, Nat.eqb_refl; reflexivity|]. intros n' HN. rewrite dget_dset. destruct (Nat.eqb_spec n' n); [congruence|reflexivity].
Qed.
