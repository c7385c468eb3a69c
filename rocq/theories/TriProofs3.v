(** * Triangles: localize_points, approx_data_to_points *)
From Coq Require Import Reals Lra Lia List.
From Verif Require Import TriModel TriSpec TriProofs TriProofs2 BaseFacts ShapeProofs4.
Import ListNotations.
Local Open Scope R_scope.

Lemma le1_spec : forall l, forallb (fun n : R => kleb n 1) l = true <-> Forall (fun x => x <= 1) l.
Proof.
  intros l. rewrite forallb_forall, Forall_forall. cbn. split; intros H x Hx; specialize (H x Hx); destruct (Rle_dec x 1); try easy.
Qed.
Lemma hull_le1 : forall dim ec p l, weights_of dim l ec p -> Forall (fun x => 0 <= x) l -> Forall (fun x => x <= 1) l.
Proof.
  intros dim ec p l (_ & HS & _) H. rewrite <- HS. clear - H.
  assert (P : 0 <= fold_right Rplus 0 l) by (induction H; cbn [fold_right]; lra).
  induction H as [|x l Hx H IH]; [constructor|]. cbn [fold_right] in *.
  assert (P' : 0 <= fold_right Rplus 0 l) by (clear - H; induction H; cbn [fold_right]; lra).
  constructor; [lra|]. eapply Forall_impl; [|apply IH; exact P']. cbn. intros; lra.
Qed.
Lemma localize_from_spec : forall ecs x k, has_dim 2 x -> Forall ccw_cell ecs ->
  exists o, localize_from Floating k x ecs = Ok o /\
    match o with
    | None => forall ec, In ec ecs -> ~ in_hull 2 ec x
    | Some (i, l) => exists j ec, i = (k + j)%nat /\ nth_error ecs j = Some ec /\ weights_of 2 l ec x /\ Forall (fun w => w <= 1) l /\
        forall j' ec', (j' < j)%nat -> nth_error ecs j' = Some ec' -> beyond ec' x
    end.
Proof.
  intros ecs x k Hx H. revert k. induction H as [|ec ecs H Hr IH]; intros k.
  - exists None. split; [reflexivity|]. intros ec [].
  - destruct (nat_ccw_cell ec x H Hx) as (l & El & HW & HU). cbn [localize_from]. rewrite El. cbn [bind].
    destruct (forallb (fun n : R => kleb n 1) l) eqn:E1.
    + exists (Some (k, l)). split; [reflexivity|]. exists 0%nat, ec. split; [lia|]. split; [reflexivity|]. split; [assumption|].
      split; [now apply le1_spec|]. intros; lia.
    + assert (HB : beyond ec x).
      { exists l. split; [assumption|]. destruct (Exists_dec (fun w => 1 < w) l) as [He|He]; [intros w; apply Rlt_dec|assumption|].
        exfalso. assert (Forall (fun w => w <= 1) l) as HF.
        { rewrite Forall_forall. intros w Hw. apply Rnot_lt_le. intros Hgt. apply He. rewrite Exists_exists. now exists w. }
        apply le1_spec in HF. rewrite HF in E1. discriminate. }
      destruct (IH (S k)) as (o & Eo & Ho). exists o. split; [assumption|].
      destruct o as [[i l']|].
      * destruct Ho as (j & ec2 & -> & Hj & HW2 & HF & HB2). exists (S j), ec2. split; [lia|]. split; [assumption|]. split; [assumption|].
        split; [assumption|]. intros [|j'] ec' Hlt Hn; [cbn in Hn; congruence|]. apply (HB2 j' ec'); [lia|assumption].
      * intros ec2 [<-|Hin]; [|now apply Ho]. intros (l2 & HW2 & HF). destruct HB as (l3 & HW3 & He).
        rewrite (HU _ HW3), <- (HU _ HW2) in He. apply (hull_le1 _ _ _ _ HW2) in HF. rewrite Forall_forall in HF.
        rewrite Exists_exists in He. destruct He as (w & Hw & Hgt). specialize (HF w Hw). lra.
Qed.
Lemma localize_partial : forall points triangles coords ecs, cells_coords points triangles = Ok ecs -> Forall ccw_cell ecs ->
  Forall (has_dim 2) coords ->
  exists locs, localize_points Floating points triangles coords = Ok locs /\
    Forall2 (fun x o => match o with
      | None => forall ec, In ec ecs -> ~ in_hull 2 ec x
      | Some (i, l) => exists ec, nth_error ecs i = Some ec /\ weights_of 2 l ec x /\ Forall (fun w => w <= 1) l /\
          forall j ec', (j < i)%nat -> nth_error ecs j = Some ec' -> beyond ec' x
      end) coords locs.
Proof.
  intros points triangles coords ecs E HE HC. unfold localize_points. rewrite E. cbn [bind].
  induction HC as [|x coords Hx HC IH]; [exists []; split; [reflexivity|constructor]|].
  destruct IH as (locs & EL & F). destruct (localize_from_spec ecs x 0 Hx HE) as (o & Eo & Ho).
  exists (o :: locs). cbn [mapM]. rewrite Eo. cbn [bind]. rewrite EL. split; [reflexivity|]. constructor; [|assumption].
  destruct o as [[i l]|]; [|assumption]. destruct Ho as (j & ec & -> & H). now exists ec.
Qed.
Lemma localize_from_none : forall ecs x k, has_dim 2 x -> Forall ccw_cell ecs ->
  (localize_from Floating k x ecs = Ok None <-> forall ec, In ec ecs -> beyond ec x).
Proof.
  intros ecs x k Hx H. revert k. induction H as [|ec ecs H Hr IH]; intros k.
  - split; [intros _ ec []|reflexivity].
  - destruct (nat_ccw_cell ec x H Hx) as (l & El & HW & HU). cbn [localize_from]. rewrite El. cbn [bind].
    destruct (forallb (fun n : R => kleb n 1) l) eqn:E1.
    + split; [discriminate|]. intros HA. exfalso. destruct (HA ec (or_introl eq_refl)) as (l3 & HW3 & He).
      rewrite (HU _ HW3) in He. apply le1_spec in E1. rewrite Forall_forall in E1. rewrite Exists_exists in He.
      destruct He as (w & Hw & Hgt). specialize (E1 w Hw). lra.
    + assert (HB : beyond ec x).
      { exists l. split; [assumption|]. destruct (Exists_dec (fun w => 1 < w) l) as [He|He]; [intros w; apply Rlt_dec|assumption|].
        exfalso. assert (Forall (fun w => w <= 1) l) as HF.
        { rewrite Forall_forall. intros w Hw. apply Rnot_lt_le. intros Hgt. apply He. rewrite Exists_exists. now exists w. }
        apply le1_spec in HF. rewrite HF in E1. discriminate. }
      rewrite IH. split; [intros HA ec2 [<-|Hin]; auto|]. intros HA ec2 Hin. apply HA. now right.
Qed.
Lemma inside_triangles_exact : forall points triangles coords ecs, cells_coords points triangles = Ok ecs -> Forall ccw_cell ecs ->
  Forall (has_dim 2) coords ->
  exists found, get_points_inside_triangles Floating points triangles coords = Ok found /\
    Forall2 (fun x b => (b = false <-> forall ec, In ec ecs -> beyond ec x) /\
                        (forall ec, In ec ecs -> in_hull 2 ec x -> b = true)) coords found.
Proof.
  intros points triangles coords ecs E HE HC. unfold get_points_inside_triangles, localize_points. rewrite E. cbn [bind].
  induction HC as [|x coords Hx HC IH]; [exists []; split; [reflexivity|constructor]|].
  destruct IH as (found & EL & F). destruct (localize_from_spec ecs x 0 Hx HE) as (o & Eo & Ho).
  pose proof (localize_from_none ecs x 0 Hx HE) as HN.
  exists (match o with Some _ => true | None => false end :: found). cbn [mapM]. rewrite Eo. cbn [bind].
  destruct (mapM (fun x0 => localize_from Floating 0 x0 ecs) coords) as [ls|e]; [|discriminate]. cbn [bind map] in *.
  injection EL as ->. split; [reflexivity|]. constructor; [|assumption]. rewrite Eo in HN.
  destruct o as [[i l]|].
  - split; [|reflexivity]. split; [discriminate|]. intros HA. apply HN in HA. discriminate.
  - split; [split; [intros _; now apply HN|reflexivity]|]. intros ec Hin Hh. now destruct (Ho ec Hin).
Qed.
(** outside of every triangle there are points it accepts *)
Lemma localize_wrong : forall a b c, dim 2 a -> dim 2 b -> dim 2 c -> ccw a b c ->
  exists x l, ~ in_hull 2 [a; b; c] x /\ localize_points Floating [a; b; c] [[0; 1; 2]%nat] [x] = Ok [Some (0%nat, l)] /\
    get_points_inside_triangles Floating [a; b; c] [[0; 1; 2]%nat] [x] = Ok [true].
Proof.
  intros a b c Ha Hb Hc H.
  destruct (nat_tri_inverse a b c [3/4; 3/4; -1/2] Ha Hb Hc H eq_refl ltac:(cbn [fold_right]; lra)) as (x & E1 & Hx & E2).
  assert (HL : localize_points Floating [a; b; c] [[0; 1; 2]%nat] [x] = Ok [Some (0%nat, [3/4; 3/4; -1/2])]).
  { unfold localize_points, cells_coords, get. cbn [mapM nth_error bind localize_from]. rewrite E2. cbn [bind].
    replace (forallb (fun n : R => kleb n 1) [3/4; 3/4; -1/2]) with true; [reflexivity|].
    symmetry. apply le1_spec. repeat constructor; lra. }
  exists x, [3/4; 3/4; -1/2]. split; [|split; [assumption|]].
  - intros (l & HW & HF).
    destruct (nat_tri_correct a b c x Ha Hb Hc Hx H) as (l2 & F1 & F2 & F3 & F4). rewrite E2 in F1. injection F1 as <-.
    rewrite (F4 l HW) in HF. rewrite Forall_forall in HF. specialize (HF (-1/2) ltac:(cbn [In]; auto 6)). lra.
  - unfold get_points_inside_triangles. rewrite HL. reflexivity.
Qed.
Lemma localize_wrong_cell : 
  exists x l, in_hull 2 [[0; 0]; [1; 1]; [0; 1]] x /\ ~ in_hull 2 [[0; 0]; [1; 0]; [1; 1]] x /\
    localize_points Floating [[0; 0]; [1; 0]; [1; 1]; [0; 1]] [[0; 1; 2]%nat; [0; 2; 3]%nat] [x] = Ok [Some (0%nat, l)].
Proof.
  assert (C : ccw [0; 0] [1; 0] [1; 1]) by (unfold ccw, signed_area, px, py, at_; cbn [nth]; lra).
  destruct (nat_tri_correct [0; 0] [1; 0] [1; 1] [1/4; 3/4] eq_refl eq_refl eq_refl eq_refl C) as (l & E & HW & _ & HU).
  assert (HW2 : weights_of 2 [3/4; -1/2; 3/4] [[0; 0]; [1; 0]; [1; 1]] [1/4; 3/4]).
  { split; [reflexivity|]. split; [cbn [fold_right]; lra|]. intros [|[|]] Hd; [| |lia]; unfold weighted, at_; cbn [nth combine map fold_right fst snd]; lra. }
  rewrite <- (HU _ HW2) in *.
  exists [1/4; 3/4], [3/4; -1/2; 3/4]. split; [|split].
  - exists [1/4; 1/4; 1/2]. split; [|repeat constructor; lra].
    split; [reflexivity|]. split; [cbn [fold_right]; lra|]. intros [|[|]] Hd; [| |lia]; unfold weighted, at_; cbn [nth combine map fold_right fst snd]; lra.
  - intros (l' & HW' & HF). rewrite (HU _ HW'), <- (HU _ HW2) in HF. rewrite Forall_forall in HF. specialize (HF (-1/2) ltac:(cbn [In]; auto 6)). lra.
  - unfold localize_points, cells_coords, get. cbn [mapM nth_error bind localize_from]. rewrite E. cbn [bind].
    replace (forallb (fun n : R => kleb n 1) [3/4; -1/2; 3/4]) with true; [reflexivity|].
    symmetry. apply le1_spec. repeat constructor; lra.
Qed.

(** ** vecmat in general: linear combinations of three rows *)
Lemma vadd_rows : forall (a b : list R), length a = length b ->
  vadd a b = Ok (map (fun d => nth d a 0 + nth d b 0) (seq 0 (length a))).
Proof.
  unfold vadd. induction a as [|x a IH]; intros [|y b] H; try discriminate H; [reflexivity|].
  cbn [map2]. rewrite IH by (injection H; auto). cbn [bind length seq map nth]. f_equal. f_equal. rewrite <- seq_shift, map_map. reflexivity.
Qed.
Lemma list_nth_seq : forall (l : list R), l = map (fun d => nth d l 0) (seq 0 (length l)).
Proof. induction l as [|x l IH]; [reflexivity|]. cbn [length seq map nth]. f_equal. rewrite <- seq_shift, map_map. exact IH. Qed.
Lemma vscale_nth : forall s (a : list R) d, nth d (vscale s a) 0 = s * nth d a 0.
Proof. intros. unfold vscale. transitivity (nth d (map (kmul s) a) (kmul s 0)); [f_equal; cbn; ring|]. rewrite map_nth. reflexivity. Qed.
Lemma vscale_length : forall s (a : list R), length (vscale s a) = length a.
Proof. intros. unfold vscale. now rewrite map_length. Qed.
Lemma vecmat3 : forall (l0 l1 l2 : R) (a b c : list R) n, length a = n -> length b = n -> length c = n ->
  vecmat [l0; l1; l2] [a; b; c] = Ok (map (fun d => l0 * nth d a 0 + l1 * nth d b 0 + l2 * nth d c 0) (seq 0 n)).
Proof.
  intros l0 l1 l2 a b c n Ha Hb Hc. unfold vecmat. cbn [map2 bind vsum foldM].
  rewrite vadd_rows by (rewrite !vscale_length; congruence). cbn [bind].
  rewrite vadd_rows by (rewrite map_length, seq_length, !vscale_length; congruence). cbn [bind].
  rewrite map_length, seq_length, vscale_length, Ha. f_equal. apply map_ext_in. intros d Hd. apply in_seq in Hd.
  rewrite !vscale_nth.
  rewrite (nth_indep _ 0 ((fun d0 => nth d0 (vscale l0 a) 0 + nth d0 (vscale l1 b) 0) 0%nat)) by (rewrite map_length, seq_length; lia).
  rewrite (map_nth (fun d0 => nth d0 (vscale l0 a) 0 + nth d0 (vscale l1 b) 0)), seq_nth by lia. cbn [Nat.add]. rewrite !vscale_nth. reflexivity.
Qed.

(** ** approx_data_to_points *)

Lemma set_ok : forall {A} (a : list A) i v, (i < length a)%nat -> exists a', set a i v = Ok a' /\ length a' = length a /\
  nth_error a' i = Some v /\ forall j, j <> i -> nth_error a' j = nth_error a j.
Proof.
  induction a as [|x a IH]; intros [|i] v H; cbn in H; try lia.
  - eexists. split; [reflexivity|]. split; [reflexivity|]. split; [reflexivity|]. intros [|j] Hj; [lia|reflexivity].
  - destruct (IH i v ltac:(lia)) as (a' & E & L & N & O). exists (x :: a'). cbn [set]. rewrite E. split; [reflexivity|].
    split; [cbn; lia|]. split; [assumption|]. intros [|j] Hj; [reflexivity|]. apply O. lia.
Qed.
Lemma mapM_get3 : forall (data : list (list R)) tri n, Forall (fun r => length r = n) data -> length tri = 3%nat -> Forall (fun j => (j < length data)%nat) tri ->
  exists a b c, mapM (get data) tri = Ok [a; b; c] /\ length a = n /\ length b = n /\ length c = n /\ map (fun j => nth j data []) tri = [a; b; c].
Proof.
  intros data tri n HD HL HT. destruct tri as [|i [|j [|k [|]]]]; try discriminate HL.
  inversion HT as [|? ? Hi HT1]; subst. inversion HT1 as [|? ? Hj HT2]; subst. inversion HT2 as [|? ? Hk _]; subst.
  rewrite Forall_forall in HD.
  exists (nth i data []), (nth j data []), (nth k data []).
  assert (G : forall i, (i < length data)%nat -> get data i = Ok (nth i data []) /\ length (nth i data []) = n).
  { intros i0 H0. split; [|apply HD; now apply nth_In]. unfold get. now rewrite (nth_error_nth' data [] H0). }
  destruct (G i Hi) as (Ei & Li), (G j Hj) as (Ej & Lj), (G k Hk) as (Ek & Lk).
  cbn [mapM]. rewrite Ei. cbn [bind]. rewrite Ej. cbn [bind]. rewrite Ek. repeat split; assumption.
Qed.
(** if position number k is found in triangle number k *)
Lemma approx_partial : forall points triangles data coords n defval ecs,
  cells_coords points triangles = Ok ecs -> Forall ccw_cell ecs -> Forall (has_dim 2) coords ->
  Forall (fun r => length r = n) data -> data <> [] ->
  Forall (fun t => length t = 3%nat /\ Forall (fun j => (j < length data)%nat) t) triangles ->
  (forall k x, nth_error coords k = Some x -> exists ec, nth_error ecs k = Some ec /\ in_hull 2 ec x /\
     forall j ec', (j < k)%nat -> nth_error ecs j = Some ec' -> beyond ec' x) ->
  exists res, approx_data_to_points Floating points triangles data coords defval = Ok res /\ length res = length coords /\
    forall k x ec tri v, nth_error coords k = Some x -> nth_error ecs k = Some ec -> nth_error triangles k = Some tri -> nth_error res k = Some v ->
      exists l, weights_of 2 l ec x /\ interpolates l (map (fun j => nth j data []) tri) n v.
Proof.
  intros points triangles data coords n defval ecs E HE HC HD Hne HT HK.
  destruct (localize_partial points triangles coords ecs E HE HC) as (locs & EL & F).
  unfold approx_data_to_points. rewrite EL. cbn [bind].
  assert (Lt : length ecs = length triangles).
  { unfold cells_coords in E. eapply BaseFacts.mapM_length. exact E. }
  set (init := repeat (repeat defval (TrModel.ncols data)) (length coords)).
  (* the loop from position s on *)
  assert (G : forall xs os s (start : list (list R)), Forall2 (fun x o => match o with
      | None => forall ec, In ec ecs -> ~ in_hull 2 ec x
      | Some (i, l) => exists ec, nth_error ecs i = Some ec /\ weights_of 2 l ec x /\ Forall (fun w => w <= 1) l /\
          forall j ec', (j < i)%nat -> nth_error ecs j = Some ec' -> beyond ec' x
      end) xs os -> (forall k, nth_error xs k = nth_error coords (s + k)) -> (s + length xs <= length start)%nat ->
     exists res, foldM (fun res o => match o with None => Ok res | Some (i, shp) =>
        do tri <- get triangles i; do rows <- mapM (get data) tri; do v <- vecmat shp rows; set res i v end) os start = Ok res /\
      length res = length start /\ (forall k, (k < s)%nat -> nth_error res k = nth_error start k) /\
      forall k x ec tri v, nth_error xs k = Some x -> nth_error ecs (s + k) = Some ec -> nth_error triangles (s + k) = Some tri -> nth_error res (s + k) = Some v ->
        exists l, weights_of 2 l ec x /\ interpolates l (map (fun j => nth j data []) tri) n v).
  { intros xs os s start HF. revert s start. induction HF as [|x o xs os Ho HF IH]; intros s start HX HL.
    - exists start. split; [reflexivity|]. split; [reflexivity|]. split; [reflexivity|]. intros [|k]; discriminate.
    - cbn [length] in HL. pose proof (HX 0%nat) as Hx0. cbn in Hx0. rewrite Nat.add_0_r in Hx0. symmetry in Hx0.
      destruct (HK s x Hx0) as (ec & Hec & Hin & Hbe).
      destruct o as [[i l]|]; [|exfalso; apply (Ho ec); [now apply nth_error_In with s|assumption]].
      destruct Ho as (ec2 & Hec2 & HW & HF1 & HB2).
      assert (Hnb : forall e, In e ecs -> in_hull 2 e x -> beyond e x -> False).
      { intros e He (lh & HWh & HFh) (lb & HWb & HEb). rewrite Forall_forall in HE, HC.
        destruct (nat_ccw_cell e x (HE e He) (HC x (nth_error_In _ _ Hx0))) as (lu & _ & _ & HU).
        rewrite (HU _ HWb), <- (HU _ HWh) in HEb. apply (hull_le1 _ _ _ _ HWh) in HFh. rewrite Forall_forall in HFh.
        rewrite Exists_exists in HEb. destruct HEb as (w & Hw & Hgt). specialize (HFh w Hw). lra. }
      assert (i = s) as ->.
      { destruct (Nat.lt_trichotomy i s) as [Hlt|[He|Hgt]]; [exfalso|assumption|exfalso].
        - destruct (Hbe i ec2 Hlt Hec2) as (lb & HWb & HEb). rewrite Forall_forall in HE, HC.
          destruct (nat_ccw_cell ec2 x (HE _ (nth_error_In _ _ Hec2)) (HC x (nth_error_In _ _ Hx0))) as (lu & _ & _ & HU).
          rewrite (HU _ HWb), <- (HU _ HW) in HEb. rewrite Forall_forall in HF1. rewrite Exists_exists in HEb. destruct HEb as (w & Hw & Hg). specialize (HF1 w Hw). lra.
        - apply (Hnb ec (nth_error_In _ _ Hec) Hin). now apply (HB2 s ec). }
      rewrite Hec in Hec2. injection Hec2 as <-.
      assert (Hs : (s < length triangles)%nat) by (rewrite <- Lt; apply nth_error_Some; congruence).
      destruct (nth_error triangles s) as [tri|] eqn:Etri; [|apply nth_error_None in Etri; lia].
      rewrite Forall_forall in HT. destruct (HT tri (nth_error_In _ _ Etri)) as (Htl & Htb).
      destruct (mapM_get3 data tri n HD Htl Htb) as (a & b & c & Er & La & Lb & Lc & Emap).
      assert (Hl3 : length l = 3%nat).
      { destruct HW as (HWl & _). rewrite HWl. rewrite Forall_forall in HE. destruct (HE ec (nth_error_In _ _ Hec)) as (? & ? & ? & -> & _). reflexivity. }
      destruct l as [|l0 [|l1 [|l2 [|]]]]; try discriminate Hl3.
      set (v := map (fun d => l0 * nth d a 0 + l1 * nth d b 0 + l2 * nth d c 0) (seq 0 n)).
      destruct (set_ok start s v ltac:(lia)) as (start' & Es & Ls & Ns & Os).
      destruct (IH (S s) start') as (res & Ef & Lr & Kr & Pr).
      { intros k. specialize (HX (S k)). cbn in HX. rewrite HX. f_equal. lia. }
      { rewrite Ls. lia. }
      exists res. split.
      + cbn [foldM]. unfold get at 1. rewrite Etri. cbn [bind]. rewrite Er. cbn [bind]. rewrite (vecmat3 l0 l1 l2 a b c n La Lb Lc). cbn [bind]. fold v. rewrite Es. cbn [bind]. exact Ef.
      + split; [congruence|]. split; [intros k Hk; rewrite Kr by lia; apply Os; lia|].
        intros [|k] x' ec' tri' v' Hx' Hec' Htri' Hv'.
        * rewrite Nat.add_0_r in *. cbn in Hx'. rewrite Hec in Hec'. rewrite Etri in Htri'. injection Hx' as <-. injection Hec' as <-. injection Htri' as <-.
          rewrite Kr in Hv' by lia. rewrite Ns in Hv'. injection Hv' as <-. exists [l0; l1; l2]. split; [assumption|].
          rewrite Emap. split; [unfold v; now rewrite map_length, seq_length|]. intros d Hd. unfold at_ at 1, v.
          rewrite (nth_indep _ 0 ((fun d0 => l0 * nth d0 a 0 + l1 * nth d0 b 0 + l2 * nth d0 c 0) 0%nat)) by (rewrite map_length, seq_length; lia).
          rewrite (map_nth (fun d0 => l0 * nth d0 a 0 + l1 * nth d0 b 0 + l2 * nth d0 c 0)), seq_nth by lia. cbn [Nat.add].
          unfold weighted, at_. cbn [combine map fold_right fst snd]. lra.
        * apply (Pr k x' ec' tri' v'); [exact Hx'|rewrite <- Hec'; f_equal; lia|rewrite <- Htri'; f_equal; lia|rewrite <- Hv'; f_equal; lia]. }
  destruct (G coords locs 0%nat init F) as (res & Ef & Lr & _ & Pr); [reflexivity|unfold init; rewrite repeat_length; lia|].
  exists res. split; [exact Ef|]. split; [rewrite Lr; unfold init; apply repeat_length|].
  intros k x ec tri v. apply (Pr k x ec tri v).
Qed.

(** two separate triangles, two positions, data that are the first coordinates of the nodes *)
Definition two_points : list (list R) := [[0; 0]; [1; 0]; [0; 1]; [10; 0]; [11; 0]; [10; 1]].
Definition two_triangles : list (list nat) := [[0; 1; 2]; [3; 4; 5]]%nat.
Definition two_data : list (list R) := [[0]; [1]; [0]; [10]; [11]; [10]].
Lemma nat_at : forall a b c p l, has_dim 2 a -> has_dim 2 b -> has_dim 2 c -> has_dim 2 p -> ccw a b c -> weights_of 2 l [a; b; c] p ->
  glob_to_nat_tri Floating p [a; b; c] = Ok l.
Proof.
  intros a b c p l Ha Hb Hc Hp H HW. rewrite nat_ccw by assumption. f_equal. symmetry. apply weights_unique; [unfold ccw in H; lra|assumption].
Qed.
Ltac weights := split; [reflexivity|]; split; [cbn [fold_right]; lra|]; intros [|[|]] Hd; [| |lia]; unfold weighted, at_; cbn [nth combine map fold_right fst snd]; lra.
Ltac ccws := unfold ccw, signed_area, px, py, at_; cbn [nth]; lra.
Lemma localize_two : forall rest, localize_points Floating two_points two_triangles ([41/4; 1/4] :: rest) =
  do r <- localize_points Floating two_points two_triangles rest; Ok (Some (1%nat, [1/2; 1/4; 1/4]) :: r).
Proof.
  intros rest. unfold localize_points, cells_coords, two_points, two_triangles, get. cbn [mapM nth_error bind localize_from].
  rewrite (nat_at [0; 0] [1; 0] [0; 1] [41/4; 1/4] [- 19/2; 41/4; 1/4]); try (unfold has_dim; cbn; lia); [|ccws|weights]. cbn [bind].
  replace (forallb (fun n : R => kleb n 1) [- 19/2; 41/4; 1/4]) with false.
  2:{ symmetry. apply Bool.not_true_is_false. intros H. apply le1_spec in H. rewrite Forall_forall in H. specialize (H (41/4) ltac:(cbn [In]; auto 6)). lra. }
  rewrite (nat_at [10; 0] [11; 0] [10; 1] [41/4; 1/4] [1/2; 1/4; 1/4]); try (unfold has_dim; cbn; lia); [|ccws|weights]. cbn [bind].
  replace (forallb (fun n : R => kleb n 1) [1/2; 1/4; 1/4]) with true by (symmetry; apply le1_spec; repeat constructor; lra).
  reflexivity.
Qed.
Lemma localize_two_0 : forall rest, localize_points Floating two_points two_triangles ([1/4; 1/4] :: rest) =
  do r <- localize_points Floating two_points two_triangles rest; Ok (Some (0%nat, [1/2; 1/4; 1/4]) :: r).
Proof.
  intros rest. unfold localize_points, cells_coords, two_points, two_triangles, get. cbn [mapM nth_error bind localize_from].
  rewrite (nat_at [0; 0] [1; 0] [0; 1] [1/4; 1/4] [1/2; 1/4; 1/4]); try (unfold has_dim; cbn; lia); [|ccws|weights]. cbn [bind].
  replace (forallb (fun n : R => kleb n 1) [1/2; 1/4; 1/4]) with true by (symmetry; apply le1_spec; repeat constructor; lra).
  reflexivity.
Qed.
Lemma approx_wrong : exists a b : R, a = 1/4 /\ b = 41/4 /\
  approx_data_to_points Floating two_points two_triangles two_data [[41/4; 1/4]; [1/4; 1/4]] 0 = Ok [[a]; [b]].
Proof.
  exists (1/4), (41/4). split; [reflexivity|]. split; [reflexivity|].
  unfold approx_data_to_points. rewrite localize_two, localize_two_0. 
  unfold localize_points at 1. cbn [cells_coords two_triangles two_points get mapM nth_error bind].
  unfold two_triangles, two_data, get. cbn [nth_error bind mapM foldM].
  rewrite !(vecmat3 _ _ _ _ _ _ 1) by reflexivity. cbn [bind seq map nth set repeat length TrModel.ncols].
  f_equal. f_equal; [f_equal; lra|f_equal; f_equal; lra].
Qed.
Lemma approx_out_of_bounds : in_hull 2 [[10; 0]; [11; 0]; [10; 1]] [41/4; 1/4] /\
  approx_data_to_points Floating two_points two_triangles two_data [[41/4; 1/4]] 0 = Err IndexError.
Proof.
  split; [exists [1/2; 1/4; 1/4]; split; [weights|repeat constructor; lra]|].
  unfold approx_data_to_points. rewrite localize_two.
  unfold localize_points at 1. cbn [cells_coords two_triangles two_points get mapM nth_error bind].
  unfold two_triangles, two_data, get. cbn [nth_error bind mapM foldM].
  rewrite !(vecmat3 _ _ _ _ _ _ 1) by reflexivity. reflexivity.
Qed.
