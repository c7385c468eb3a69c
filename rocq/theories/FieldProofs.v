(** * Lemmas about [FieldModel.v] *)
From Coq Require Import Reals String List Lia Bool Arith.
From Verif Require Import Base TrModel FrameProofs FieldSpec NodalProofs5.
Import ListNotations.
Local Open Scope string_scope.

(** ** Dictionaries *)

Lemma lookup_store d k v k' : lookup (store d k v) k' = if String.eqb k k' then Some v else lookup d k'.
Proof.
  induction d as [|[a w] d IH]; cbn [store lookup]; [reflexivity|].
  destruct (String.eqb a k) eqn:E; cbn [lookup].
  - apply String.eqb_eq in E. subst a. destruct (String.eqb k k'); reflexivity.
  - rewrite IH. destruct (String.eqb k k') eqn:F; [|reflexivity]. apply String.eqb_eq in F. subst k'. now rewrite E.
Qed.
Lemma lookup_store_same d k v : lookup (store d k v) k = Some v.
Proof. now rewrite lookup_store, String.eqb_refl. Qed.
Lemma lookup_store_other d k v k' : k <> k' -> lookup (store d k v) k' = lookup d k'.
Proof. intros H. rewrite lookup_store. destruct (String.eqb k k') eqn:E; [apply String.eqb_eq in E; contradiction|reflexivity]. Qed.
Lemma lookup_in d k v : lookup d k = Some v -> In (k, v) d.
Proof.
  induction d as [|[a w] d IH]; cbn [lookup]; [discriminate|]. destruct (String.eqb a k) eqn:E; [|auto with datatypes].
  apply String.eqb_eq in E. intros H. injection H as <-. subst. now left.
Qed.
Lemma in_lookup d k v : NoDup (map fst d) -> In (k, v) d -> lookup d k = Some v.
Proof.
  induction d as [|[a w] d IH]; cbn [lookup map fst]; [intros _ []|]. intros H Hi. inversion H as [|? ? Hn Hd]; subst.
  destruct Hi as [Hi|Hi].
  - injection Hi as -> ->. now rewrite String.eqb_refl.
  - destruct (String.eqb a k) eqn:E; [|auto]. apply String.eqb_eq in E. subst a. destruct Hn. apply (in_map fst) in Hi. exact Hi.
Qed.
Lemma store_in d k v k' v' : In (k', v') (store d k v) -> (k' = k /\ v' = v) \/ In (k', v') d.
Proof.
  induction d as [|[a w] d IH]; cbn [store]; [intros [H|[]]; injection H as <- <-; now left|].
  destruct (String.eqb a k) eqn:E.
  - apply String.eqb_eq in E. subst a. intros [H|H]; [injection H as <- <-; now left|right; now right].
  - intros [H|H]; [right; now left|]. destruct (IH H) as [G|G]; [now left|right; now right].
Qed.
Lemma store_length n d k v : of_length n d -> clen v = n -> of_length n (store d k v).
Proof. intros H Hv k' v' Hi. apply store_in in Hi. destruct Hi as [[_ ->]|Hi]; [assumption|now apply (H k')]. Qed.
Lemma store_not_nil d k v : store d k v <> [].
Proof. destruct d as [|[a w] d]; cbn [store]; [discriminate|]. destruct (String.eqb a k); discriminate. Qed.
Lemma zip_ok n d : of_length n d -> zip_columns d = Ok d.
Proof.
  intros H. destruct d as [|[k c] d]; [reflexivity|]. cbn [zip_columns].
  replace (forallb (fun kc => Nat.eqb (clen (snd kc)) (clen c)) d) with true; [reflexivity|].
  symmetry. apply forallb_forall. intros [k' c'] Hi. cbn [snd]. apply Nat.eqb_eq. rewrite (H k c) by now left. apply (H k'). now right.
Qed.
Lemma zip_fails d k v k' v' : In (k, v) d -> In (k', v') d -> clen v <> clen v' -> zip_columns d = Err ValueError.
Proof.
  intros H H' Hn. destruct d as [|[a c] d]; [destruct H|]. cbn [zip_columns].
  destruct (forallb (fun kc => Nat.eqb (clen (snd kc)) (clen c)) d) eqn:E; [|reflexivity]. rewrite forallb_forall in E. exfalso. apply Hn.
  assert (G : forall q w, In (q, w) ((a, c) :: d) -> clen w = clen c).
  { intros q w [Hq|Hq]; [now injection Hq as _ <-|]. specialize (E _ Hq). now apply Nat.eqb_eq in E. }
  now rewrite (G _ _ H), (G _ _ H').
Qed.
Lemma add_arrays_length n keep kw d : of_length n d -> arrays_of_length n kw -> of_length n (add_arrays keep kw d).
Proof.
  unfold add_arrays. revert d. induction kw as [|[k a] kw IH]; intros d Hd Hk; cbn [fold_left]; [assumption|]. apply IH.
  - cbn [snd fst]. destruct a as [c|]; [|assumption]. destruct (keep (clen c)); [|assumption]. apply store_length; [assumption|]. apply (Hk k). now left.
  - intros k' c Hi. apply (Hk k'). now right.
Qed.
Lemma add_arrays_other keep kw d k : ~ In k (map fst kw) -> lookup (add_arrays keep kw d) k = lookup d k.
Proof.
  unfold add_arrays. revert d. induction kw as [|[k' a] kw IH]; intros d H; cbn [fold_left]; [reflexivity|]. cbn [map fst] in H.
  rewrite IH by (intros G; apply H; now right). cbn [snd fst]. destruct a as [c|]; [|reflexivity]. destruct (keep (clen c)); [|reflexivity].
  apply lookup_store_other. intros ->. apply H. now left.
Qed.
Lemma add_arrays_same keep kw d k c : NoDup (map fst kw) -> In (k, Arr c) kw -> keep (clen c) = true -> lookup (add_arrays keep kw d) k = Some c.
Proof.
  unfold add_arrays. revert d. induction kw as [|[k' a] kw IH]; intros d Hn Hi Hk; [destruct Hi|]. cbn [map fst] in Hn. inversion Hn as [|? ? H1 H2]; subst.
  cbn [fold_left]. destruct Hi as [Hi|Hi].
  - injection Hi as -> ->. fold (add_arrays keep kw (match Arr c with Arr c0 => if keep (clen c0) then store d k c0 else d | Other => d end)).
    change (lookup (add_arrays keep kw (if keep (clen c) then store d k c else d)) k = Some c).
    rewrite add_arrays_other by exact H1. rewrite Hk. apply lookup_store_same.
  - now apply IH.
Qed.
Lemma add_arrays_not_nil keep kw d : d <> [] -> add_arrays keep kw d <> [].
Proof.
  unfold add_arrays. revert d. induction kw as [|[k a] kw IH]; intros d H; cbn [fold_left]; [assumption|]. apply IH. cbn [snd fst].
  destruct a as [c|]; [|assumption]. destruct (keep (clen c)); [apply store_not_nil|assumption].
Qed.
Lemma wrapper_ok n d kw : d <> [] -> of_length n d -> arrays_of_length n kw ->
  wrapper_init d kw = (Ok (Some (add_arrays (fun _ => true) kw d)), add_arrays (fun _ => true) kw d).
Proof.
  intros H Hd Hk. unfold wrapper_init. pose proof (add_arrays_not_nil (fun _ => true) kw d H) as Hn.
  destruct (add_arrays (fun _ => true) kw d) eqn:E; [contradiction|]. rewrite <- E.
  rewrite (zip_ok n) by now apply add_arrays_length. reflexivity.
Qed.
Lemma rows_length n d : d <> [] -> of_length n d -> table_rows d = n.
Proof. intros H Hd. destruct d as [|[k c] d]; [contradiction|]. cbn [table_rows]. apply (Hd k). now left. Qed.
Lemma set_column_ok n d k v : d <> [] -> of_length n d -> clen v = n -> set_column d k v = Ok (store d k v).
Proof.
  intros H Hd Hv. destruct d as [|[a c] d]; [contradiction|]. unfold set_column. rewrite Hv, (Hd a c) by now left. now rewrite Nat.eqb_refl.
Qed.

(** ** Names of attributes *)

Lemma known_class n : known_width n = true <-> class_width n.
Proof.
  unfold known_width, class_width. rewrite existsb_exists. split; [intros (x & Hx & E); apply Nat.eqb_eq in E; now subst|].
  intros H. exists n. split; [exact H|apply Nat.eqb_refl].
Qed.
Lemma column_key k : column_name k = cell_key k.
Proof.
  unfold column_name, cell_key. cbn [existsb].
  repeat match goal with |- context[String.eqb k ?s] => destruct (String.eqb k s) eqn:E; [apply String.eqb_eq in E; subst; reflexivity|]; clear E end. reflexivity.
Qed.
Lemma separate_key d : separate d -> NoDup (map (fun kv => cell_key (fst kv)) d).
Proof. unfold separate. intros H. erewrite map_ext; [exact H|]. intros kv. cbn beta. now rewrite column_key. Qed.
Lemma cell_key_twice k : cell_key (cell_key k) = cell_key k.
Proof.
  unfold cell_key. repeat match goal with |- context[String.eqb k ?s] => destruct (String.eqb k s) eqn:?; [reflexivity|] end.
  repeat match goal with H : String.eqb k ?s = false |- _ => rewrite H; clear H end. reflexivity.
Qed.
Fixpoint last_of (d : table) (key : string) : option column :=
  match d with
  | [] => None
  | (k, v) :: d' => match last_of d' key with Some w => Some w | None => if String.eqb (cell_key k) key then Some v else None end
  end.
Lemma lookup_mapped_acc d acc key :
  lookup (fold_left (fun r kv => store r (cell_key (fst kv)) (snd kv)) d acc) key = match last_of d key with Some w => Some w | None => lookup acc key end.
Proof.
  revert acc. induction d as [|[k v] d IH]; intros acc; cbn [fold_left last_of]; [reflexivity|]. rewrite IH. cbn [fst snd].
  destruct (last_of d key); [reflexivity|]. rewrite lookup_store. destruct (String.eqb (cell_key k) key); reflexivity.
Qed.
Lemma lookup_mapped d key : lookup (mapped d) key = last_of d key.
Proof. unfold mapped. rewrite lookup_mapped_acc. cbn [lookup]. destruct (last_of d key); reflexivity. Qed.
Lemma last_in d key : ~ In key (map (fun kv => cell_key (fst kv)) d) <-> last_of d key = None.
Proof.
  induction d as [|[k v] d IH]; cbn [map last_of fst]; [split; auto|]. split.
  - intros H. cbn in H. replace (last_of d key) with (@None column) by (symmetry; apply IH; tauto).
    destruct (String.eqb (cell_key k) key) eqn:E; [|reflexivity]. apply String.eqb_eq in E. tauto.
  - intros H [G|G].
    + rewrite G, String.eqb_refl in H. destruct (last_of d key); discriminate.
    + destruct (last_of d key) eqn:E; [discriminate|]. apply (proj2 IH); auto.
Qed.
Lemma last_store d k v : separate d -> last_of (store d k v) (cell_key k) = Some v.
Proof.
  intros HS0. apply separate_key in HS0. revert HS0. induction d as [|[a w] d IH]; cbn [store map fst]; intros H; cbn [last_of]; [now rewrite String.eqb_refl|].
  inversion H as [|? ? H1 H2]; subst. destruct (String.eqb a k) eqn:E; cbn [last_of].
  - apply String.eqb_eq in E. subst a. apply last_in in H1. rewrite H1. now rewrite String.eqb_refl.
  - rewrite IH by assumption. reflexivity.
Qed.
Lemma last_store_other d k v key : cell_key k <> key -> last_of (store d k v) key = last_of d key.
Proof.
  intros H. assert (E : String.eqb (cell_key k) key = false) by now apply String.eqb_neq.
  induction d as [|[a w] d IH]; cbn [store last_of]; [now rewrite E|]. destruct (String.eqb a k) eqn:F; cbn [last_of].
  - apply String.eqb_eq in F. subst a. now rewrite E.
  - rewrite IH. reflexivity.
Qed.
Lemma last_of_in d k v : separate d -> In (k, v) d -> last_of d (cell_key k) = Some v.
Proof.
  intros HS0. apply separate_key in HS0. revert HS0. induction d as [|[a w] d IH]; cbn [map fst last_of]; [intros _ []|]. intros H Hi. inversion H as [|? ? H1 H2]; subst.
  destruct Hi as [Hi|Hi].
  - injection Hi as -> ->. apply last_in in H1. now rewrite H1, String.eqb_refl.
  - now rewrite IH.
Qed.
Lemma mapped_in d k v : In (k, v) (mapped d) -> exists k', In (k', v) d /\ k = cell_key k'.
Proof.
  unfold mapped. assert (G : forall acc, In (k, v) (fold_left (fun r kv => store r (cell_key (fst kv)) (snd kv)) d acc) ->
    In (k, v) acc \/ exists k', In (k', v) d /\ k = cell_key k').
  { induction d as [|[a w] d IH]; intros acc; cbn [fold_left]; [auto|]. intros H. apply IH in H. cbn [fst snd] in H. destruct H as [H|(k' & H & E)].
    - apply store_in in H. destruct H as [[-> ->]|H]; [right; exists a; split; [now left|reflexivity]|now left].
    - right. exists k'. split; [now right|assumption]. }
  intros H. apply G in H. destruct H as [[]|H]. exact H.
Qed.
Lemma mapped_length n d : of_length n d -> of_length n (mapped d).
Proof. intros H k v Hi. apply mapped_in in Hi. destruct Hi as (k' & Hi & _). now apply (H k'). Qed.
Lemma last_store_after d k v : NoDup (map fst d) -> ~ In k (map fst d) \/ (forall a, In a (map fst d) -> cell_key a = cell_key k -> a = k) ->
  last_of (store d k v) (cell_key k) = Some v.
Proof.
  induction d as [|[a w] d IH]; cbn [store map fst]; intros Hn H; cbn [last_of]; [now rewrite String.eqb_refl|].
  inversion Hn as [|? ? H1 H2]; subst. destruct (String.eqb a k) eqn:E; cbn [last_of].
  - apply String.eqb_eq in E. subst a. destruct H as [H|H]; [destruct H; now left|].
    replace (last_of d (cell_key k)) with (@None column); [now rewrite String.eqb_refl|]. symmetry. apply last_in. intros G.
    apply in_map_iff in G. destruct G as ([b u] & G & Hb). cbn [fst] in G. apply (in_map fst) in Hb. cbn [fst] in Hb.
    apply H in G; [|now right]. subst b. contradiction.
  - rewrite IH; [reflexivity|assumption|]. destruct H as [H|H]; [left; intros G; apply H; now right|right; intros b Hb; apply H; now right].
Qed.
Lemma store_keys d k v k' : In k' (map fst (store d k v)) <-> k' = k \/ In k' (map fst d).
Proof.
  induction d as [|[a w] d IH]; cbn [store map fst]; [cbn; intuition|]. destruct (String.eqb a k) eqn:E; cbn [map fst In].
  - apply String.eqb_eq in E. subst a. intuition.
  - rewrite IH. intuition.
Qed.
Lemma store_nodup d k v : NoDup (map fst d) -> NoDup (map fst (store d k v)).
Proof.
  induction d as [|[a w] d IH]; cbn [store map fst]; intros H; [constructor; [intros []|constructor]|]. inversion H as [|? ? H1 H2]; subst.
  destruct (String.eqb a k) eqn:E; cbn [map fst].
  - apply String.eqb_eq in E. subst a. now constructor.
  - apply String.eqb_neq in E. constructor; [|now apply IH]. intros G. apply store_keys in G. destruct G as [G|G]; contradiction.
Qed.
Lemma separate_names d : separate d -> NoDup (map fst d).
Proof. intros HS0. apply separate_key in HS0. revert HS0. rewrite <- (map_map fst cell_key). apply NoDup_map_inv. Qed.
Lemma separate_same d k k' v v' : separate d -> In (k, v) d -> In (k', v') d -> cell_key k = cell_key k' -> k = k'.
Proof.
  intros HS0. apply separate_key in HS0. revert HS0. induction d as [|[a w] d IH]; cbn [map fst]; [intros _ []|]. intros H. inversion H as [|? ? H1 H2]; subst.
  intros [G|G] [G'|G'] E.
  - congruence.
  - injection G as -> ->. destruct H1. rewrite E. apply in_map_iff. exists (k', v'). auto.
  - injection G' as -> ->. destruct H1. rewrite <- E. apply in_map_iff. exists (k, v). auto.
  - now apply IH.
Qed.
