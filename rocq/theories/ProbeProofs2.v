(** * Proofs about [ProbeModel.v]: local coordinates in cells *)
From Coq Require Import Reals List Lia Lra.
From Verif Require Import BaseFacts TrModel TrProofs ShapeProofs3 ShapeProofs4 LocSpec LocProofs9 ClassProofs.
From Verif Require Export ProbeProofs.
Import ListNotations.
Local Open Scope R_scope.

(** rows of monomials *)
Definition mon (k : kind) (p : list R) : list R := match monoms_of k p with Ok m => m | Err _ => [] end.
Lemma mon_ok k p : In k solids -> length p = 3%nat -> monoms_of k p = Ok (mon k p) /\ length (mon k p) = nodes_of k.
Proof. intros Hk Hp. destruct (solid_monoms k p Hk Hp) as (m & E & L). unfold mon. rewrite E. split; [reflexivity|exact L]. Qed.
Lemma multi_value k ps : In k solids -> rect 3 ps -> monoms_multi (nodes_of k) (monoms_of k) ps = Ok (map (mon k) ps).
Proof.
  intros Hk H. apply mapM_map. intros p Hp. unfold rect in H. rewrite Forall_forall in H. destruct (mon_ok k p Hk (H p Hp)) as [E L].
  rewrite E. cbn [bind]. rewrite L, Nat.eqb_refl. reflexivity.
Qed.
Lemma bulk_value k cs : In k solids -> cells3 (nodes_of k) cs -> monoms_bulk_multi (nodes_of k) (monoms_of k) cs = Ok (map (map (mon k)) cs).
Proof.
  intros Hk H. apply mapM_map. intros c Hc. unfold cells3 in H. rewrite Forall_forall in H. destruct (H c Hc) as [L Hr].
  rewrite (multi_value k c Hk Hr). cbn [bind]. rewrite map_length, L, Nat.eqb_refl. reflexivity.
Qed.
Lemma mon_rect k ps : In k solids -> rect 3 ps -> rect (nodes_of k) (map (mon k) ps).
Proof.
  intros Hk H. unfold rect in *. rewrite Forall_forall in *. intros m Hm. apply in_map_iff in Hm as (p & <- & Hp). apply (mon_ok k p Hk (H p Hp)).
Qed.
Definition lcoords_of (k : kind) : list (list R) := e_lcoords (element_of k).
Lemma lcoords_shape k : In k solids -> length (lcoords_of k) = nodes_of k /\ rect 3 (lcoords_of k) /\ (0 < nodes_of k)%nat.
Proof.
  intros Hk. destruct Hk as [<-|[<-|[<-|[<-|[<-|[]]]]]]; (split; [reflexivity|split; [|cbn; lia]]); unfold rect; repeat (constructor; [reflexivity|]); constructor.
Qed.

(** ** One point and one cell *)
Lemma list3 (v w : list R) : length v = 3%nat -> length w = 3%nat -> nth 0 v 0 = nth 0 w 0 -> nth 1 v 0 = nth 1 w 0 -> nth 2 v 0 = nth 2 w 0 -> v = w.
Proof.
  intros Hv Hw. destruct v as [|a [|b [|c [|? ?]]]]; try discriminate Hv. destruct w as [|a' [|b' [|c' [|? ?]]]]; try discriminate Hw.
  cbn. intros -> -> ->. reflexivity.
Qed.
Lemma span_value inv k cell p : In k solids -> length cell = nodes_of k -> rect 3 cell -> length p = 3%nat ->
  inverse_of (nodes_of k) (map (mon k) cell) (inv (map (mon k) cell)) ->
  exists v, glob_to_loc_monoms inv (lcoords_of k) (map (mon k) cell) (mon k p) = Ok v /\ length v = 3%nat /\
    forall a c, length c = nodes_of k -> map (fun q => nth a q 0) (lcoords_of k) = map (fun x => dot (mon k x) c) cell -> nth a v 0 = dot (mon k p) c.
Proof.
  intros Hk Hl Hr Hp [[HC [HrC _]] HL]. destruct (lcoords_shape k Hk) as (L1 & L2 & Hn).
  destruct (glob_value inv (nodes_of k) 3 (lcoords_of k) (map (mon k) cell) (mon k p)) as (v & E & Lv & Nv); try assumption.
  - apply (mon_ok k p Hk Hp).
  - exists v. split; [exact E|]. split; [exact Lv|]. intros a c Hc Ha. rewrite Nv, Ha.
    rewrite <- (map_map (mon k) (fun row => dot row c)). apply weights_span; try assumption. apply (mon_ok k p Hk Hp).
Qed.
Lemma affine_nth A b x a : length A = 3%nat -> length b = 3%nat -> (a < 3)%nat -> nth a (affine_map (A, b) x) 0 = dot (nth a A []) x + nth a b 0.
Proof.
  intros HA Hb Ha. destruct A as [|A0 [|A1 [|A2 [|? ?]]]]; try discriminate HA. destruct b as [|b0 [|b1 [|b2 [|? ?]]]]; try discriminate Hb.
  destruct a as [|[|[|a]]]; [reflexivity..|lia].
Qed.
Lemma affine_value inv k cell Ab p : In k solids -> length cell = nodes_of k -> rect 3 cell -> length p = 3%nat ->
  inverse_of (nodes_of k) (map (mon k) cell) (inv (map (mon k) cell)) -> maps_cell (lcoords_of k) cell Ab ->
  glob_to_loc_monoms inv (lcoords_of k) (map (mon k) cell) (mon k p) = Ok (affine_map Ab p).
Proof.
  intros Hk Hl Hr Hp HI (HA & HrA & Hb & Hm). destruct (span_value inv k cell p Hk Hl Hr Hp HI) as (v & E & Lv & Nv).
  rewrite E. f_equal. destruct Ab as [A b]. cbn [fst snd] in *.
  assert (HN : forall a, (a < 3)%nat -> nth a v 0 = nth a (affine_map (A, b) p) 0).
  { intros a Ha. assert (La : length (nth a A []) = 3%nat) by (apply rect_nth; [exact HrA|lia]).
    destruct (nth a A []) as [|a1 [|a2 [|a3 [|? ?]]]] eqn:EA; try discriminate La.
    destruct (solid_affine k (nth a b 0) a1 a2 a3 Hk) as (c & Lc & Hc).
    assert (Hx : forall x, length x = 3%nat -> dot (mon k x) c = nth a (affine_map (A, b) x) 0).
    { intros x Lx. rewrite affine_nth by assumption. rewrite EA. destruct (mon_ok k x Hk Lx) as [Em _].
      destruct x as [|x [|y [|z [|? ?]]]]; try discriminate Lx. rewrite (Hc x y z _ Em). unfold dot, rsum. cbn. numR. ring. }
    rewrite (Nv a c Lc).
    - apply Hx, Hp.
    - rewrite <- Hm, map_map. apply map_ext_in. intros x Hin. unfold rect in Hr. rewrite Forall_forall in Hr. symmetry. apply Hx, Hr, Hin. }
  assert (La : length (affine_map (A, b) p) = 3%nat) by (unfold affine_map; cbn [fst snd]; rewrite map_length, combine_length; lia).
  apply list3; try assumption; apply HN; lia.
Qed.

(** ** The functions *)
Lemma bulk_affine : forall inv k cells points maps,
  In k solids -> cells3 (nodes_of k) cells -> rect 3 points -> Forall2 (maps_cell (e_lcoords (element_of k))) cells maps ->
  exists Ms ms, monoms_bulk_multi (nodes_of k) (monoms_of k) cells = Ok Ms /\ monoms_multi (nodes_of k) (monoms_of k) points = Ok ms /\
    ((forall M, In M Ms -> inverse_of (nodes_of k) M (inv M)) ->
      glob_to_loc_bulk inv (e_lcoords (element_of k)) Ms ms = Ok (map (fun Ab => map (affine_map Ab) points) maps)).
Proof.
  intros inv k cells points maps Hk Hc Hp Hm. exists (map (map (mon k)) cells), (map (mon k) points).
  split; [now apply bulk_value|]. split; [now apply multi_value|]. intros HI. unfold glob_to_loc_bulk.
  revert Hc HI. induction Hm as [|c Ab cells maps HcA Hm IH]; intros Hc HI; [reflexivity|].
  cbn [map mapM]. inversion Hc as [|? ? [Lc Hr] Hc']; subst.
  assert (E : mapM (glob_to_loc_monoms inv (lcoords_of k) (map (mon k) c)) (map (mon k) points) = Ok (map (affine_map Ab) points)).
  { rewrite ShapeProofs2.mapM_map_compose. apply mapM_map. intros p Hin. unfold rect in Hp. rewrite Forall_forall in Hp.
    apply affine_value; try assumption; [apply Hp, Hin|]. apply HI. left. reflexivity. }
  fold (lcoords_of k). fold (lcoords_of k) in IH. rewrite E. cbn [bind]. rewrite IH; [reflexivity|exact Hc'|]. intros M HM. apply HI. right. exact HM.
Qed.
Lemma bulk_2_affine : forall inv k cells points maps,
  In k solids -> cells3 (nodes_of k) cells -> rect 3 points -> length points = length cells -> Forall2 (maps_cell (e_lcoords (element_of k))) cells maps ->
  exists Ms ms, monoms_bulk_multi (nodes_of k) (monoms_of k) cells = Ok Ms /\ monoms_multi (nodes_of k) (monoms_of k) points = Ok ms /\
    ((forall M, In M Ms -> inverse_of (nodes_of k) M (inv M)) ->
      glob_to_loc_bulk_2 inv (e_lcoords (element_of k)) Ms ms = Ok (map (fun mp => affine_map (fst mp) (snd mp)) (combine maps points))).
Proof.
  intros inv k cells points maps Hk Hc Hp HL Hm. exists (map (map (mon k)) cells), (map (mon k) points).
  split; [now apply bulk_value|]. split; [now apply multi_value|]. intros HI. unfold glob_to_loc_bulk_2, enum.
  assert (G : forall pre, mapM (fun ip => do c <- get (pre ++ map (map (mon k)) cells) (fst ip); glob_to_loc_monoms inv (lcoords_of k) c (snd ip)) (enum_from (length pre) (map (mon k) points))
    = Ok (map (fun mp => affine_map (fst mp) (snd mp)) (combine maps points))); [|exact (G [])].
  revert points Hp HL Hc HI. induction Hm as [|c Ab cells maps HcA Hm IH]; intros points Hp HL Hc HI pre; destruct points as [|p points]; try discriminate HL; [reflexivity|].
  inversion Hc as [|? ? [Lc Hr] Hc']; subst. inversion Hp as [|? ? Lp Hp']; subst.
  cbn [map enum_from mapM fst snd]. unfold get at 1. rewrite nth_error_app2, Nat.sub_diag by lia. cbn [nth_error bind].
  rewrite (affine_value inv k c Ab p) by (try assumption; apply HI; left; reflexivity). cbn [bind].
  specialize (IH points Hp' ltac:(cbn in HL; lia) Hc' ltac:(intros M HM; apply HI; right; exact HM) (pre ++ [map (mon k) c])).
  rewrite app_length in IH. cbn [length] in IH. rewrite Nat.add_1_r, <- app_assoc in IH. cbn [app] in IH. rewrite IH. reflexivity.
Qed.
Lemma mapM_Ok_nth {A B} (f : A -> res B) : forall l r, length l = length r -> (forall j x y, nth_error l j = Some x -> nth_error r j = Some y -> f x = Ok y) -> mapM f l = Ok r.
Proof.
  induction l as [|x l IH]; intros [|y r] HL H; try discriminate HL; [reflexivity|]. cbn [mapM]. rewrite (H 0%nat x y eq_refl eq_refl). cbn [bind].
  rewrite (IH r); [reflexivity|cbn in HL; lia|]. intros j a b Ha Hb. exact (H (S j) a b Ha Hb).
Qed.
Lemma at_nodes : forall inv k cell M,
  In k solids -> length cell = nodes_of k -> rect 3 cell -> monoms_multi (nodes_of k) (monoms_of k) cell = Ok M ->
  right_inverse (nodes_of k) M (inv M) ->
  glob_to_loc_bulk inv (e_lcoords (element_of k)) [M] M = Ok [e_lcoords (element_of k)].
Proof.
  intros inv k cell M Hk Hl Hr HM HI. rewrite (multi_value k cell Hk Hr) in HM. injection HM as <-. set (M := map (mon k) cell) in *.
  destruct (lcoords_shape k Hk) as (L1 & L2 & Hn). assert (LM : length M = nodes_of k) by (unfold M; now rewrite map_length).
  assert (RM : rect (nodes_of k) M) by (apply mon_rect; assumption). unfold glob_to_loc_bulk. cbn [mapM].
  assert (E : mapM (glob_to_loc_monoms inv (e_lcoords (element_of k)) M) M = Ok (e_lcoords (element_of k))); [|rewrite E; reflexivity].
  apply mapM_Ok_nth; [fold (lcoords_of k); lia|]. intros j m q Hm Hq.
  assert (Hj : (j < nodes_of k)%nat) by (rewrite <- LM; apply nth_error_Some; rewrite Hm; discriminate).
  assert (Em : m = nth j M []) by (symmetry; now apply nth_error_nth). assert (Eq : q = nth j (lcoords_of k) []) by (symmetry; now apply nth_error_nth).
  destruct HI as [HC [HrC HX]].
  destruct (glob_value inv (nodes_of k) 3 (lcoords_of k) M m) as (v & E & Lv & Nv); try assumption.
  - rewrite Em. apply rect_nth; [exact RM|lia].
  - unfold lcoords_of in E. rewrite E. f_equal.
    assert (HN : forall a, nth a v 0 = nth a q 0).
    { intros a. rewrite Nv, Em, (weights_node (nodes_of k) (inv M) M j (conj HC (conj HrC HX)) LM RM Hj).
      rewrite dot_delta by (rewrite ?map_length; lia). rewrite Eq. rewrite (nth_indep _ 0 (nth a [] 0)) by (rewrite map_length; lia).
      apply (map_nth (fun p => nth a p 0)). }
    apply list3; [exact Lv| |apply HN..]. rewrite Eq. apply rect_nth; [exact L2|lia].
Qed.

(** ** What is false *)
Lemma trapezoid_value : forall inv M m,
  monoms_multi 8 monoms_H8 trapezoid = Ok M -> monoms_H8 [9/10; 0; 0] = Ok m -> inverse_of 8 M (inv M) ->
  glob_to_loc_monoms inv lcoords_H8 M m = Ok [6/5; 0; 0].
Proof.
  intros inv M m HM Hm HI. assert (Hk : In KH8 solids) by (right; left; reflexivity).
  assert (Hr : rect 3 trapezoid) by (unfold rect, trapezoid; repeat (constructor; [reflexivity|]); constructor).
  pose proof (multi_value KH8 trapezoid Hk Hr) as E. change (monoms_multi 8 monoms_H8 trapezoid = Ok (map (mon KH8) trapezoid)) in E. rewrite E in HM. injection HM as <-.
  assert (Em : m = mon KH8 [9/10; 0; 0]) by (unfold mon; change (monoms_of KH8 [9/10; 0; 0]) with (monoms_H8 [9/10; 0; 0]); rewrite Hm; reflexivity).
  destruct (span_value inv KH8 trapezoid [9/10; 0; 0] Hk eq_refl Hr eq_refl HI) as (v & Ev & Lv & Nv). change (lcoords_of KH8) with (lcoords_H8 : list (list R)) in Ev.
  rewrite Em. refine (eq_trans Ev _). f_equal. apply list3; [exact Lv|reflexivity|..].
  - rewrite (Nv 0%nat [0; 4/3; 0; 0; -2/3; 0; 0; 0] eq_refl).
    + unfold dot, rsum, mon. cbn. numR. lra.
    + unfold lcoords_of, element_of, e_lcoords, lcoords_H8, trapezoid, mon. cbn. numR. repeat (f_equal; try lra).
  - rewrite (Nv 1%nat [0; 0; 1; 0; 0; 0; 0; 0] eq_refl).
    + unfold dot, rsum, mon. cbn. numR. lra.
    + unfold lcoords_of, element_of, e_lcoords, lcoords_H8, trapezoid, mon. cbn. numR. repeat (f_equal; try lra).
  - rewrite (Nv 2%nat [0; 0; 0; 1; 0; 0; 0; 0] eq_refl).
    + unfold dot, rsum, mon. cbn. numR. lra.
    + unfold lcoords_of, element_of, e_lcoords, lcoords_H8, trapezoid, mon. cbn. numR. repeat (f_equal; try lra).
Qed.
