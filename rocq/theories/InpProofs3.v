(** * Proofs about [InpModel.v]: boxes, files, names *)
From Coq Require Import Reals ZArith List String Ascii Lia Lra Decimal DecimalString DecimalNat.
From Verif Require Import Base BaseFacts FrameModel FrameSpec FrameProofs FrameProofs2 FrameProofs3 InpModel InpSpec InpProofs InpProofs2.
Import ListNotations.
Local Open Scope R_scope.
Local Open Scope string_scope.

(** ** Boxes *)
Lemma box_one p : box_of [p] p p.
Proof.
  split.
  - constructor; [|constructor]. triple p. cbn. lra.
  - intros lo' hi' F. apply Forall_inv in F. now split.
Qed.
Lemma box_join ps qs lo hi lo' hi' : box_of ps lo hi -> box_of qs lo' hi' -> box_of (ps ++ qs) (vmin lo lo') (vmax hi hi').
Proof.
  intros (P1 & P2) (Q1 & Q2). split.
  - apply Forall_app. split; (eapply Forall_impl; [|eassumption]); intros q; triple q; triple lo; triple hi; triple lo'; triple hi'; cbn [within vmin vmax];
      intros (H0 & H1 & H2);
      repeat match goal with
        | |- context [Rmin ?a ?b] => pose proof (Rmin_l a b); pose proof (Rmin_r a b); generalize dependent (Rmin a b); intros
        | |- context [Rmax ?a ?b] => pose proof (Rmax_l a b); pose proof (Rmax_r a b); generalize dependent (Rmax a b); intros
        end; lra.
  - intros l h F. apply Forall_app in F. destruct F as (F1 & F2). destruct (P2 _ _ F1) as (A1 & A2). destruct (Q2 _ _ F2) as (B1 & B2).
    triple lo; triple hi; triple lo'; triple hi'; triple l; triple h; cbn [within vmin vmax] in *. unfold Rmin, Rmax.
    split; repeat split; repeat destruct (Rle_dec _ _); lra.
Qed.
Lemma mesh_box_from vs is ps : Forall2 (fun i p => entry_of vs i p) is ps -> forall acc lo hi, box_of acc lo hi ->
  exists lo' hi', foldM (fun box i => do p <- np_get vs i;
                      Ok (Some (match box with None => (p, p) | Some (lo, hi) => (vmin lo p, vmax hi p) end))) is (Some (lo, hi)) = Ok (Some (lo', hi')) /\
                  box_of (acc ++ ps) lo' hi'.
Proof.
  induction 1 as [|i p is ps E F IH]; intros acc lo hi B.
  - exists lo, hi. rewrite app_nil_r. now split.
  - cbn [foldM]. apply np_get_entry in E. rewrite E. cbn [bind]. destruct (IH (acc ++ [p])%list (vmin lo p) (vmax hi p)) as (lo' & hi' & H & B').
    + apply box_join; [exact B|apply box_one].
    + exists lo', hi'. split; [exact H|]. rewrite <- app_assoc in B'. exact B'.
Qed.
Lemma mesh_box vs m ps : Forall2 (fun i p => entry_of vs i p) (List.concat m) ps -> ps <> [] ->
  exists lo hi, mesh_bbox vs m = Ok (Some (lo, hi)) /\ box_of ps lo hi.
Proof.
  unfold mesh_bbox. intros F N. destruct F as [|i p is ps E F]; [easy|]. cbn [foldM]. apply np_get_entry in E. rewrite E. cbn [bind].
  apply (mesh_box_from vs is ps F [p] p p). apply box_one.
Qed.
Lemma mesh_boxes_from vs ms pss : Forall2 (fun m ps => Forall2 (fun i p => entry_of vs i p) (List.concat m) ps /\ ps <> []) ms pss -> forall acc lo hi, box_of acc lo hi ->
  exists lo' hi', foldM (fun box m => do t <- mesh_bbox vs m;
                          match box, t with
                          | Some (lo, hi), Some (tlo, thi) => Ok (Some (vmin lo tlo, vmax hi thi))
                          | _, _ => Err TypeError
                          end) ms (Some (lo, hi)) = Ok (Some (lo', hi')) /\ box_of (acc ++ List.concat pss) lo' hi'.
Proof.
  induction 1 as [|m ps ms pss (F & N) G IH]; intros acc lo hi B.
  - exists lo, hi. cbn. rewrite app_nil_r. now split.
  - cbn [foldM]. destruct (mesh_box _ _ _ F N) as (tl & th & -> & B'). cbn [bind]. destruct (IH (acc ++ ps)%list (vmin lo tl) (vmax hi th)) as (lo' & hi' & H & B2).
    + now apply box_join.
    + exists lo', hi'. split; [exact H|]. cbn [List.concat]. now rewrite app_assoc.
Qed.
Lemma get_bbox_smallest vs ms pss : ms <> [] ->
  Forall2 (fun m ps => Forall2 (fun i p => entry_of vs i p) (List.concat m) ps /\ ps <> []) ms pss ->
  exists lo hi, get_bbox vs ms = Ok (Some (lo, hi)) /\ box_of (List.concat pss) lo hi.
Proof.
  intros N F. destruct F as [|m ps ms pss (F & Q) G]; [easy|]. unfold get_bbox. destruct (mesh_box _ _ _ F Q) as (lo & hi & -> & B). cbn [bind].
  apply (mesh_boxes_from vs ms pss G ps lo hi B).
Qed.
Lemma get_bbox_empty vs ms : (1 < length ms)%nat -> Exists (fun m => m = []) ms -> forall b, get_bbox vs ms <> Ok b.
Proof.
  intros L X b H. destruct ms as [|m ms]; [cbn in L; lia|]. unfold get_bbox in H. destruct (mesh_bbox vs m) as [b0|] eqn:E; [|discriminate]. cbn [bind] in H.
  assert (G : forall ms b0, ms <> [] -> (b0 = None \/ Exists (fun m => m = []) ms) -> forall b,
    foldM (fun box m => do t <- mesh_bbox vs m; match box, t with Some (lo, hi), Some (tlo, thi) => Ok (Some (vmin lo tlo, vmax hi thi)) | _, _ => Err TypeError end) ms b0 <> Ok b).
  { clear. induction ms as [|m ms IH]; intros b0 N D b H; [easy|]. cbn [foldM] in H. destruct (mesh_bbox vs m) as [t|] eqn:E; [|discriminate]. cbn [bind] in H.
    destruct b0 as [[lo hi]|]; [|discriminate]. destruct t as [[tlo thi]|]; [|discriminate]. cbn [bind] in H. destruct D as [D|D]; [discriminate|].
    inversion D as [x l Hx|x l D']; subst; [discriminate E|]. apply (IH _ (fun E => ltac:(subst; inversion D')) (or_intror D') _ H). }
  apply (G ms b0) in H; [easy| |].
  - intros ->. cbn in L. lia.
  - inversion X as [x l Hx|x l D']; subst; [left|now right]. cbn in E. now injection E as <-.
Qed.

(** ** The points of meshes *)
Lemma triangle_points vs t u : triangle_at vs t u -> Forall2 (fun i p => entry_of vs i p) t (let '(a, b, c) := u in [a; b; c]).
Proof. destruct u as [[a b] c]. intros (i & j & k & -> & A & B & C). repeat constructor; eexists; (split; [eassumption|now left]). Qed.
Lemma mesh_points flip vs ts us : Forall2 (fun t u => exists v, triangle_at vs t v /\ turned_to (if flip : bool then reversed u else u) v) ts us ->
  exists ps, Forall2 (fun i p => entry_of vs i p) (List.concat ts) ps /\ (us <> [] -> ps <> []).
Proof.
  induction 1 as [|t u ts us (v & T & _) F IH]; [exists []; split; [constructor|easy]|]. destruct IH as (ps & P & _). exists ((let '(a, b, c) := v in [a; b; c]) ++ ps)%list.
  split; [|now destruct v as [[? ?] ?]]. cbn [List.concat]. apply Forall2_app; [now apply triangle_points|exact P].
Qed.
Lemma meshes_points flip vs ms sss : Forall2 (mesh_of flip vs) ms sss -> Forall (fun ss => ss <> []) sss ->
  exists pss, Forall2 (fun m ps => Forall2 (fun i p => entry_of vs i p) (List.concat m) ps /\ ps <> []) ms pss.
Proof.
  induction 1 as [|m ss ms sss M F IH]; intros N; [exists []; constructor|]. inversion N as [|x l N1 N2]; subst. destruct (IH N2) as (pss & P).
  destruct (mesh_points _ _ _ _ M) as (ps & Q & Z). exists (ps :: pss). constructor; [|exact P]. split; [exact Q|]. apply Z. destruct ss as [|[[[A B] C] D] ss]; [easy|discriminate].
Qed.

(** ** Names *)
Lemma length_append a b : String.length (a ++ b) = (String.length a + String.length b)%nat.
Proof. induction a as [|c a IH]; cbn; [reflexivity|]. now rewrite IH. Qed.
Lemma substring_behind a b n : substring (String.length a) n (a ++ b) = substring 0 n b.
Proof. induction a as [|c a IH]; [reflexivity|]. cbn. exact IH. Qed.
Lemma extension_stl s : has_extension ".stl" (s ++ ".stl") = true.
Proof.
  unfold has_extension. rewrite length_append. cbn [String.length]. replace (String.length s + 4 - 4)%nat with (String.length s) by lia.
  now rewrite substring_behind.
Qed.
Lemma file_name_stl output mats i : has_extension ".stl" (file_name output mats i) = true.
Proof.
  unfold file_name. set (stem := if has_extension ".stl" output then _ else _). destruct (nth_error mats i) as [m|].
  - rewrite <- !append_assoc_s. apply extension_stl.
  - rewrite <- !append_assoc_s. apply extension_stl.
Qed.
Definition no_dash (s : string) : Prop := ~ In "-"%char (list_ascii_of_string s).
Lemma digits_no_dash d : no_dash (NilEmpty.string_of_uint d).
Proof. unfold no_dash. induction d; cbn; intros H; try (destruct H as [H|H]; [discriminate|now apply IHd]). exact H. Qed.
Lemma str_no_dash n : no_dash (str_nat n).
Proof. unfold str_nat. destruct (Nat.to_uint n) eqn:E; try apply digits_no_dash. unfold no_dash. cbn. intros [H|[]]. discriminate. Qed.
Lemma to_uint_not_nil n : Nat.to_uint n <> Nil.
Proof. intros E. assert (H : n = 0%nat). { rewrite <- (Unsigned.of_to n), E. reflexivity. } subst. discriminate. Qed.
Lemma str_nat_inj m n : str_nat m = str_nat n -> m = n.
Proof.
  unfold str_nat. intros E. apply Unsigned.to_uint_inj. pose proof (NilZero.usu _ (to_uint_not_nil m)) as M. pose proof (NilZero.usu _ (to_uint_not_nil n)) as N.
  rewrite E in M. rewrite M in N. now injection N.
Qed.
Lemma after_dash (a b d e : list ascii) : ~ In "-"%char d -> ~ In "-"%char e -> (a ++ "-"%char :: d = b ++ "-"%char :: e)%list -> d = e.
Proof.
  intros D E H. apply app_eq_app in H. destruct H as (l & [(-> & H)|(-> & H)]).
  - destruct l as [|c l]; [now injection H|]. injection H as <- H. exfalso. apply E. rewrite H. apply in_or_app. right. now left.
  - destruct l as [|c l]; [now injection H|]. injection H as <- H. exfalso. apply D. rewrite H. apply in_or_app. right. now left.
Qed.
Lemma list_of_string_inj a b : list_ascii_of_string a = list_ascii_of_string b -> a = b.
Proof. intros H. rewrite <- (string_of_list_ascii_of_string a), <- (string_of_list_ascii_of_string b). now rewrite H. Qed.
Lemma name_tail s t d e : no_dash d -> no_dash e -> s ++ "-" ++ d ++ ".stl" = t ++ "-" ++ e ++ ".stl" -> d = e.
Proof.
  intros D E H. apply (f_equal list_ascii_of_string) in H. rewrite !list_of_append in H. apply list_of_string_inj.
  assert (H' : ((list_ascii_of_string s ++ "-"%char :: list_ascii_of_string d) ++ list_ascii_of_string ".stl" =
                (list_ascii_of_string t ++ "-"%char :: list_ascii_of_string e) ++ list_ascii_of_string ".stl")%list).
  { rewrite <- !app_assoc. exact H. }
  apply app_inv_tail in H'. now apply after_dash in H'.
Qed.
Lemma file_name_tail output mats i : exists s, file_name output mats i = s ++ "-" ++ str_nat (i + 1) ++ ".stl".
Proof.
  unfold file_name. set (stem := if has_extension ".stl" output then _ else _). destruct (nth_error mats i) as [m|].
  - exists (stem ++ "-" ++ m). now rewrite !append_assoc_s.
  - now exists stem.
Qed.
Lemma file_name_inj output mats i j : file_name output mats i = file_name output mats j -> i = j.
Proof.
  destruct (file_name_tail output mats i) as (s & ->). destruct (file_name_tail output mats j) as (t & ->). intros H.
  apply name_tail in H; [|apply str_no_dash|apply str_no_dash]. apply str_nat_inj in H. lia.
Qed.

(** ** The program *)
Lemma write_stl_name name vs ts f : write_stl name vs ts = Ok f -> fst f = name.
Proof.
  unfold write_stl. destruct (has_extension ".stl" name); cbn; [|discriminate]. destruct (mapM (write_facet vs) ts); cbn; [|discriminate]. intros E. now injection E as <-.
Qed.
Lemma written_names output mats vs ms k fs :
  mapM (fun im => write_stl (file_name output mats (fst im)) vs (snd im)) (enum_from k ms) = Ok fs ->
  map fst fs = map (file_name output mats) (seq k (length ms)).
Proof.
  revert k fs. induction ms as [|m ms IH]; intros k fs H; cbn in H.
  - injection H as <-. reflexivity.
  - destruct (write_stl _ vs m) as [f|] eqn:E; [|discriminate]. cbn in H. destruct (mapM _ (enum_from (S k) ms)) as [r|] eqn:R; [|discriminate]. injection H as <-.
    cbn [map length seq]. rewrite (write_stl_name _ _ _ _ E), (IH _ _ R). reflexivity.
Qed.
Lemma program_names int float input output flip lines files : inp_to_stl int float input output flip lines = Ok files -> NoDup (map fst files).
Proof.
  unfold inp_to_stl. destruct (read_inp int float input lines flip) as [[[vs ms] mats]|]; cbn [bind]; [|discriminate].
  destruct (get_bbox vs ms) as [box|]; cbn [bind]; [|discriminate]. destruct (guard _ _) as [[]|]; cbn [bind]; [|discriminate].
  assert (G : forall fs, mapM (fun im => write_stl (file_name output mats (fst im)) vs (snd im)) (enum ms) = Ok fs -> NoDup (map fst fs)).
  { intros fs H. apply written_names in H. rewrite H. apply FinFun.Injective_map_NoDup; [|apply seq_NoDup]. intros i j E. now apply file_name_inj in E. }
  destruct ms as [|m [|m' ms]]; [apply G| |apply G]. destruct (write_stl output vs m) as [f|]; cbn; [|discriminate]. intros E. injection E as <-. cbn. repeat constructor. easy.
Qed.
Lemma write_all flip (name : nat -> string) vs ms sss k : (forall i, has_extension ".stl" (name i) = true) -> Forall2 (mesh_of flip vs) ms sss ->
  Forall (Forall (fun s => volume6 s <> 0)) sss ->
  exists fs, mapM (fun im => write_stl (name (fst im)) vs (snd im)) (enum_from k ms) = Ok fs /\ Forall2 (fun f ss => Forall2 (facet_of flip) (snd f) (faces_with ss)) fs sss.
Proof.
  intros X F. revert k. induction F as [|m ss ms sss M F IH]; intros k V; [exists []; split; [reflexivity|constructor]|]. inversion V as [|x l V1 V2]; subst.
  destruct (write_mesh flip (name k) vs m ss (X k) M V1) as (f & E & H). destruct (IH (S k) V2) as (fs & E' & H'). exists ((name k, f) :: fs).
  cbn [enum_from mapM fst snd]. rewrite E. cbn [bind]. rewrite E'. split; [reflexivity|]. now constructor.
Qed.
Lemma program_facets int float d lines input output (flip : bool) solids :
  has_extension ".inp" input = true -> (length solids = 1%nat -> has_extension ".stl" output = true) ->
  deck_written int float d lines -> Forall plain_line lines -> labelled_in_order d -> means d solids ->
  solids <> [] -> Forall (fun ss => ss <> [] /\ Forall (fun s => volume6 s <> 0) ss) solids ->
  exists files, inp_to_stl int float input output flip lines = Ok files /\
    Forall2 (fun file ss => Forall2 (fun f su => turned_to (if flip then reversed (snd su) else snd su) (snd f) /\ unit_normal (fst f) (snd f) /\
                                       (right_sense flip (fst su) -> points_out (fst f) (snd f) (fst su)))
                                    (snd file) (faces_with ss)) files solids.
Proof.
  intros X O W P L M N V. destruct (read_inp_means int float d lines input flip solids X W P L M) as (vs & ms & mats & E & _ & F).
  assert (V1 : Forall (fun ss => ss <> []) solids) by (eapply Forall_impl; [|exact V]; cbn; tauto).
  assert (V2 : Forall (Forall (fun s => volume6 s <> 0)) solids) by (eapply Forall_impl; [|exact V]; cbn; tauto).
  unfold inp_to_stl. rewrite E. cbn [bind]. destruct (meshes_points _ _ _ _ F V1) as (pss & Q).
  assert (MN : ms <> []) by (intros ->; inversion F; now subst).
  destruct (get_bbox_smallest vs ms pss MN Q) as (lo & hi & -> & _). cbn [bind guard].
  assert (G : exists files, match ms with
                            | [m] => do f <- write_stl output vs m; Ok [f]
                            | _ => mapM (fun im => write_stl (file_name output mats (fst im)) vs (snd im)) (enum ms)
                            end = Ok files /\ Forall2 (fun f ss => Forall2 (facet_of flip) (snd f) (faces_with ss)) files solids).
  { destruct ms as [|m [|m' ms]]; [easy| |].
    - inversion F as [|x ss y l F1 F2]; subst. inversion F2; subst. inversion V2 as [|x y Vs _]; subst.
      destruct (write_mesh flip output vs m ss (O eq_refl) F1 Vs) as (fs & -> & H). cbn [bind]. eexists. split; [reflexivity|]. constructor; [exact H|constructor].
    - apply (write_all flip (file_name output mats) vs (m :: m' :: ms) solids 0); [apply file_name_stl|exact F|exact V2]. }
  destruct G as (files & E' & G). exists files. split; [exact E'|]. clear - G. induction G as [|f ss files solids H G IHG]; constructor; [|exact IHG].
  assert (I : Forall (fun su => In (snd su) (faces_of (fst su))) (faces_with ss)). { apply Forall_forall. intros su J. now apply faces_with_in in J. }
  destruct f as [nm fs]. cbn [snd] in *. generalize dependent (faces_with ss). intros fw H I.
  induction H as [|g su gs sus (T & U) H IH]; [constructor|]. inversion I as [|x l I1 I2]; subst. constructor; [|now apply IH].
  split; [exact T|]. split; [exact U|]. intros S. now apply (face_out flip (fst su) (snd su) (snd g) (fst g) I1 T U).
Qed.
