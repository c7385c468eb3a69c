(** * Proofs about [SectionModel.v], part 2: sections made from parameters *)
From Coq Require Import Reals Lra Lia List String ZArith Bool.
From Verif Require Import BaseFacts SectionModel SectionSpec SectionProofs.
Import ListNotations.
Local Open Scope R_scope.
Local Open Scope string_scope.

Lemma find_pick k keys params : find_arg k (pick_args keys params) = if in_dec string_dec k keys then find_arg k params else None.
Proof.
  induction keys as [|x keys IH]; [reflexivity|]. cbn [pick_args]. destruct (find_arg x params) as [v|] eqn:E.
  - cbn [find_arg]. destruct (String.eqb k x) eqn:K.
    + apply String.eqb_eq in K. subst x. destruct (in_dec string_dec k (k :: keys)) as [_|N]; [congruence|exfalso; apply N; now left].
    + apply String.eqb_neq in K. rewrite IH. destruct (in_dec string_dec k keys) as [I|I], (in_dec string_dec k (x :: keys)) as [J|J]; try reflexivity; [exfalso; apply J; now right|destruct J; [congruence|contradiction]].
  - rewrite IH. destruct (in_dec string_dec k keys) as [I|I], (in_dec string_dec k (x :: keys)) as [J|J]; try reflexivity; [exfalso; apply J; now right|destruct J; [congruence|contradiction]].
Qed.
Lemma pick_keys keys params kv : In kv (pick_args keys params) -> In (fst kv) keys.
Proof.
  induction keys as [|x keys IH]; [intros []|]. cbn [pick_args]. destruct (find_arg x params) as [v|]; [|intros H; right; auto]. intros [<-|H]; [now left|right; auto].
Qed.
Lemma construct_pick shape params : given (signature shape) params -> construct shape (pick_args (signature shape) params) = Ok (Geometry shape (pick_args (signature shape) params)).
Proof.
  intros H. unfold construct.
  assert (E1 : forallb (fun k => has_arg k (pick_args (signature shape) params)) (signature shape) = true).
  { apply forallb_forall. intros k Hk. unfold has_arg. rewrite find_pick. destruct (in_dec string_dec k (signature shape)) as [_|N]; [|contradiction]. now destruct (H k Hk) as [v ->]. }
  assert (E2 : forallb (fun kv : string * number => existsb (String.eqb (fst kv)) (signature shape)) (pick_args (signature shape) params) = true).
  { apply forallb_forall. intros kv Hkv. apply existsb_exists. exists (fst kv). split; [now apply pick_keys in Hkv|apply String.eqb_refl]. }
  rewrite E1, E2. reflexivity.
Qed.
Lemma made_pick shape names params : made_of shape names params (Geometry shape (pick_args names params)).
Proof. split; [reflexivity|]. intros k. apply find_pick. Qed.
Lemma arg_found k params v : find_arg k params = Some v -> arg k params = Ok v.
Proof. unfold arg. now intros ->. Qed.

(** the shapes that work *)
Lemma outline_made shape names thick params : In (shape, (names, thick)) shapes -> shape <> "RS" -> shape <> "RHS" -> given names params ->
  exists g ms, outline shape params = Ok (g, ms) /\ made_of shape names params g /\ forall m, least_thickness thick params m -> ms = Float m.
Proof.
  intros HI N1 N2 HG.
  assert (LT : forall tf tw m, find_arg "t_f" params = Some tf -> find_arg "t_w" params = Some tw -> least_thickness ["t_f"; "t_w"] params m -> min_number tf tw = Float m).
  { intros tf tw m Ef Ew (HA & k & Hk & HE). destruct (HA "t_f" ltac:(now left)) as (x & Ex & Hx). destruct (HA "t_w" ltac:(right; now left)) as (y & Ey & Hy). rewrite Ex in Ef. rewrite Ey in Ew. injection Ef as <-. injection Ew as <-.
    unfold min_number. cbn [value]. destruct Hk as [<-|[<-|[]]]; [rewrite Ex in HE|rewrite Ey in HE]; injection HE as HE; destruct (Rlt_dec y x) as [L|L]; f_equal; lra. }
  assert (FR : forall tf tw, find_arg "t_f" params = Some tf -> find_arg "t_w" params = Some tw -> thick = ["t_f"; "t_w"] -> signature shape = names ->
    outline shape params = (do g <- construct shape (pick_args (signature shape) params); do a <- arg "t_f" params; do b <- arg "t_w" params; Ok (g, min_number a b)) ->
    exists g ms, outline shape params = Ok (g, ms) /\ made_of shape names params g /\ forall m, least_thickness thick params m -> ms = Float m).
  { intros tf tw Ef Ew -> ES EO. rewrite EO, construct_pick by (now rewrite ES). cbn [bind]. rewrite (arg_found _ _ _ Ef), (arg_found _ _ _ Ew). cbn [bind]. do 2 eexists. split; [reflexivity|]. split; [rewrite ES; apply made_pick|]. intros m. now apply LT. }
  cbn [shapes In] in HI.
  repeat (destruct HI as [HI|HI]; [injection HI as <- <- <-|]); try (now destruct N1); try (now destruct N2); try contradiction;
    try (destruct (HG "t_f") as [tf Ef]; [cbn; tauto|]; destruct (HG "t_w") as [tw Ew]; [cbn; tauto|]; apply (FR tf tw Ef Ew); reflexivity).
  destruct (HG "d") as [d Ed]; [cbn; tauto|]. destruct (HG "t") as [t Et]; [cbn; tauto|]. destruct (HG "n") as [n En]; [cbn; tauto|].
  unfold outline. cbn [String.eqb]. rewrite (arg_found _ _ _ Ed), (arg_found _ _ _ Et), En. cbn [String.eqb Ascii.eqb Bool.eqb bind]. do 2 eexists. split; [reflexivity|]. split.
  - split; [reflexivity|]. intros k. cbn [gargs find_arg]. destruct (in_dec string_dec k ["d"; "t"; "n"]) as [I|I].
    + destruct I as [<-|[<-|[<-|[]]]]; cbn; congruence.
    + destruct (String.eqb k "d") eqn:K1; [apply String.eqb_eq in K1; subst k; exfalso; apply I; cbn; tauto|]. destruct (String.eqb k "t") eqn:K2; [apply String.eqb_eq in K2; subst k; exfalso; apply I; cbn; tauto|].
      destruct (String.eqb k "n") eqn:K3; [apply String.eqb_eq in K3; subst k; exfalso; apply I; cbn; tauto|]. reflexivity.
  - intros m (_ & k & [<-|[]] & Hk). congruence.
Qed.

Lemma section_default : forall area shape names thick params m, In (shape, (names, thick)) shapes -> shape <> "RS" -> shape <> "RHS" -> given names params -> least_thickness thick params m ->
  exists g, get_section area shape params None = Ok (g, Some (m * m * sqrt 3 / 4)%R) /\ made_of shape names params g.
Proof.
  intros area shape names thick params m HI N1 N2 HG HT. destruct (outline_made shape names thick params HI N1 N2 HG) as (g & ms & EO & HM & HL). exists g. split; [|exact HM].
  unfold get_section. rewrite EO. cbn [bind fst snd]. rewrite (HL m HT). reflexivity.
Qed.
Lemma section_limits : forall area shape names thick params mesh_params, In (shape, (names, thick)) shapes -> shape <> "RS" -> shape <> "RHS" -> given names params ->
  (forall k v, In (k, v) mesh_params -> In k ["l_max"; "a_max"; "n_max"]) ->
  exists g, made_of shape names params g /\
    get_section area shape params (Some mesh_params) =
      match mesh_size (area g) (find_arg "l_max" mesh_params) (find_arg "a_max" mesh_params) (find_arg "n_max" mesh_params) with Ok s => Ok (g, s) | Err e => Err e end.
Proof.
  intros area shape names thick params mp HI N1 N2 HG HK. destruct (outline_made shape names thick params HI N1 N2 HG) as (g & ms & EO & HM & _). exists g. split; [exact HM|].
  unfold get_section. rewrite EO. cbn [bind fst snd]. unfold generate_mesh.
  assert (E : forallb (fun kv : string * number => existsb (String.eqb (fst kv)) ["l_max"; "a_max"; "n_max"]) mp = true).
  { apply forallb_forall. intros [k v] Hkv. apply existsb_exists. exists k. split; [exact (HK k v Hkv)|apply String.eqb_refl]. }
  rewrite E. destruct (mesh_size _ _ _ _); reflexivity.
Qed.
(** the number of segments of a circle *)
Lemma circle_default : forall area params d t, find_arg "d" params = Some d -> find_arg "t" params = Some (Float t) -> find_arg "n" params = None ->
  get_section area "CHS" params None = Ok (Geometry "CHS" [("d", d); ("t", Float t); ("n", Int 64)], Some (t * t * sqrt 3 / 4)%R).
Proof.
  intros area params d t Ed Et En. unfold get_section, outline. cbn [String.eqb]. rewrite (arg_found _ _ _ Ed), (arg_found _ _ _ Et), En. reflexivity.
Qed.
(** rectangular hollow sections cannot be made *)
Lemma hollow_fails : forall area params mesh_params, get_section area "RHS" params mesh_params = Err TypeError.
Proof.
  intros area params mp. unfold get_section, outline. cbn [String.eqb Ascii.eqb Bool.eqb existsb orb].
  assert (E : construct "RHS" (pick_args (section_keys "RHS") params) = Err TypeError).
  { unfold construct.
    assert (F : forallb (fun k => has_arg k (pick_args (section_keys "RHS") params)) (signature "RHS") = false).
    { destruct (forallb _ _) eqn:E; [|reflexivity]. rewrite forallb_forall in E. specialize (E "r_out" ltac:(cbn; tauto)). unfold has_arg in E. rewrite find_pick in E.
      destruct (in_dec string_dec "r_out" (section_keys "RHS")) as [I|_]; [|discriminate]. cbn in I. repeat (destruct I as [I|I]; [discriminate|]). contradiction. }
    rewrite F. reflexivity. }
  cbv iota. rewrite E. reflexivity.
Qed.
(** rectangles need a thickness *)
Lemma rectangle_fails : forall area params mesh_params, given ["d"; "b"] params -> find_arg "t" params = None -> get_section area "RS" params mesh_params = Err KeyError.
Proof.
  intros area params mp HG Ht. unfold get_section, outline. cbn [String.eqb Ascii.eqb Bool.eqb existsb orb]. cbv iota.
  change (section_keys "RS") with (signature "RS"). rewrite construct_pick by exact HG. cbn [bind]. unfold arg. rewrite Ht. reflexivity.
Qed.
Lemma rectangle_with_thickness : forall area params t, given ["d"; "b"] params -> find_arg "t" params = Some (Float t) ->
  exists g, get_section area "RS" params None = Ok (g, Some (t * t * sqrt 3 / 4)%R) /\ made_of "RS" ["d"; "b"] params g.
Proof.
  intros area params t HG Ht. exists (Geometry "RS" (pick_args ["d"; "b"] params)). split; [|apply made_pick].
  unfold get_section, outline. cbn [String.eqb Ascii.eqb Bool.eqb existsb orb]. cbv iota. change (section_keys "RS") with (signature "RS"). rewrite construct_pick by exact HG. cbn [bind]. unfold arg. rewrite Ht. reflexivity.
Qed.
(** an integer thickness is no limit *)
Lemma integer_thickness : forall area params d t, find_arg "d" params = Some d -> find_arg "t" params = Some (Int t) -> exists g, get_section area "CHS" params None = Ok (g, None).
Proof.
  intros area params d t Ed Et. eexists. unfold get_section, outline. cbn [String.eqb]. rewrite (arg_found _ _ _ Ed), (arg_found _ _ _ Et). reflexivity.
Qed.
(** the example of the documentation *)
Lemma documented_example : forall area k k', get_section area "CHS" [("d", Float 1); ("t", Float (1 / 10)); ("n", Int 64)] (Some [("n_min", k); ("n_max", k')]) = Err TypeError.
Proof. reflexivity. Qed.
(** unknown shapes *)
Lemma unknown_shape : forall area shape params mesh_params, ~ In shape (map fst shapes) -> get_section area shape params mesh_params = Err NotImplementedError.
Proof.
  intros area shape params mp H. unfold get_section, outline.
  assert (N : forall s, In s (map fst shapes) -> String.eqb shape s = false) by (intros s Hs; apply String.eqb_neq; intros ->; contradiction).
  cbn [existsb]. rewrite !N by (cbn; tauto). reflexivity.
Qed.
(** missing parameters: an error, never a section *)
Lemma missing_parameter : forall area shape names thick params mesh_params k, In (shape, (names, thick)) shapes -> In k names -> (shape = "CHS" -> k <> "n") -> find_arg k params = None ->
  exists e, get_section area shape params mesh_params = Err e.
Proof.
  intros area shape names thick params mp k HI Hk HC HN.
  assert (FC : forall keys, keys = section_keys shape -> In k (signature shape) -> construct shape (pick_args keys params) = Err TypeError).
  { intros keys -> HS. unfold construct. assert (F : forallb (fun k => has_arg k (pick_args (section_keys shape) params)) (signature shape) = false).
    { destruct (forallb _ _) eqn:E; [|reflexivity]. rewrite forallb_forall in E. specialize (E k HS). unfold has_arg in E. rewrite find_pick, HN in E. destruct (in_dec _ _ _); discriminate. }
    rewrite F. reflexivity. }
  cbn [shapes In] in HI. unfold get_section, outline.
  repeat (destruct HI as [HI|HI]; [injection HI as <- <- <-|]); try contradiction;
    try (cbn [String.eqb Ascii.eqb Bool.eqb existsb orb]; cbv iota; rewrite FC by (try reflexivity; exact Hk); cbn [bind]; eexists; reflexivity).
  cbn [String.eqb Ascii.eqb Bool.eqb]. cbv iota. unfold arg at 1 2. destruct Hk as [<-|[<-|[<-|[]]]].
  - rewrite HN. cbn [bind]. eauto.
  - destruct (find_arg "d" params); cbn [bind]; [rewrite HN; cbn [bind]|]; eauto.
  - now destruct (HC eq_refl).
Qed.

(** LineSection *)
Lemma line_by_name : forall area s wrap shape params mesh_params,
  line_section area (Some (Text s)) wrap shape params mesh_params =
  match get_section area s params mesh_params with Ok g => Ok (Some g) | Err _ => Err RuntimeError end.
Proof. intros. unfold line_section. destruct (get_section _ _ _ _); reflexivity. Qed.
Lemma line_wraps : forall area g wrap params mesh_params, line_section area (Some (ASection g)) wrap None params mesh_params = Ok (Some g) /\ line_section area None (Some g) None params mesh_params = Ok (Some g).
Proof. intros. split; reflexivity. Qed.
(** a shape given by keyword only is not used *)
Lemma line_by_keyword : forall area shape params mesh_params, line_section area None None (Some shape) params mesh_params = Ok None.
Proof. reflexivity. Qed.
(** a section that is given is replaced if a shape is given as well *)
Lemma line_replaced : forall area g shape params mesh_params g', get_section area shape params mesh_params = Ok g' -> line_section area (Some (ASection g)) None (Some shape) params mesh_params = Ok (Some g').
Proof. intros area g shape params mp g' E. unfold line_section. rewrite E. reflexivity. Qed.
