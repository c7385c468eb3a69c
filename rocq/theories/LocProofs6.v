(** * Proofs about [LocModel.v], part 6: points that are not found, or found at wrong places *)
From Coq Require Import Reals Lra Lia List Permutation.
From Verif Require Import LocModel LocSpec QuadSpec SplitSpec BaseFacts TopoProofs5 TrProofs ShapeProofs4 TriProofs TriProofs2 TriProofs6 LocProofs LocProofs2 LocProofs3 LocProofs4 LocProofs5.
Import ListNotations.
Local Open Scope R_scope.

(** a mesh with one cell whose nodes are numbered in order *)
Lemma one_cell : forall coords, mesh_at coords [seq 0 (length coords)] [coords].
Proof.
  intros coords. constructor; [|constructor]. unfold nodes_at.
  assert (H : forall pre l : list (list R), Forall2 (fun n p => nth_error (pre ++ l) n = Some p) (seq (length pre) (length l)) l).
  { intros pre l. revert pre. induction l as [|a l IH]; intros pre; cbn [length seq]; constructor.
    - rewrite nth_error_app2 by lia. now rewrite Nat.sub_diag.
    - specialize (IH (pre ++ [a])). rewrite app_length in IH. cbn [length] in IH. rewrite Nat.add_1_r in IH.
      now rewrite <- app_assoc in IH. }
  exact (H [] coords).
Qed.
Ltac weights3 := split; [reflexivity|]; split; [cbn [fold_right]; lra|]; intros [|[|[|]]] Hd; [| | |lia]; unfold weighted, at_, pick, lcoords_H8, lcoords_W6; cbn [nth combine map fold_right fst snd]; numR; lra.
(** the weights of a point in a tetrahedron that is not flat are known: is it in the tetrahedron? *)
Lemma not_near : forall tol ec p l, solid_tet ec -> dim 3 p -> weights_of 3 l ec p -> Exists (fun w => w <= - tol \/ 1 + tol <= w) l -> ~ near_hull 3 tol ec p.
Proof.
  intros tol ec p l Hs Hp HW HE (l' & HW' & HF). destruct (nat_solid_tet ec p Hs Hp) as (l0 & _ & _ & HU). rewrite (HU l' HW'), <- (HU l HW) in HF.
  apply Exists_exists in HE. destruct HE as (w & Hw & Hlt). rewrite Forall_forall in HF. specialize (HF w Hw). lra.
Qed.
Lemma not_listed : forall x n found good src tgt locs i p, located_all x n found good src tgt locs -> nth_error x i = Some p -> ~ found p -> ~ In i src.
Proof. intros x n found good src tgt locs i p (_ & _ & _ & H & _) Hi Hn Hin. apply Hn. now apply (H i p Hi). Qed.

(** ** wedges *)
Lemma affine_self : forall lcoords, Forall (dim 3) lcoords -> affine_mesh lcoords [lcoords].
Proof.
  intros lcoords H. constructor; [|constructor]. exists [0; 0; 0], [1; 0; 0], [0; 1; 0], [0; 0; 1]. split.
  - unfold affine_cell. rewrite <- (map_id lcoords) at 1. apply map_ext_in. intros p Hp. rewrite Forall_forall in H. destruct (dim3 _ (H p Hp)) as (x & y & z & ->).
    unfold space_map, px, py, pz, at_. cbn [map nth]. f_equal; [ring|f_equal; [ring|f_equal; ring]].
  - unfold map_det, px, py, pz, at_. cbn [nth]. lra.
Qed.
Lemma wedge_gap : forall query sched k tol, any_order sched -> 0 < tol <= 2 / 5 ->
  open_prism (1/20) (1/20) 0 /\
  locate query sched lcoords_W6 (Ok tetmap_W6) lcoords_W6 [[0; 1; 2; 3; 4; 5]%nat] false k tol [[1/20; 1/20; 0]] = Ok ([], [], []).
Proof.
  intros query sched k tol Hs Ht. split; [unfold open_prism; lra|].
  assert (Hlc : Forall (dim 3) (lcoords_W6 (K := R))) by repeat constructor.
  destruct (locate_affine query sched lcoords_W6 tetmap_W6 lcoords_W6 [[0; 1; 2; 3; 4; 5]%nat] [lcoords_W6] k tol [[1/20; 1/20; 0]] Hs Hlc pieces_W6 solid_W6
    (one_cell lcoords_W6) (affine_self _ Hlc) ltac:(repeat constructor)) as (src & tgt & locs & E & H).
  rewrite E. assert (HN : ~ In 0%nat src).
  { apply (not_listed _ _ _ _ _ _ _ 0%nat [1/20; 1/20; 0] H eq_refl). intros (ec & [<-|[]] & q & Hq & HN).
    assert (HS : solid_tet (pick q (lcoords_W6 (K := R)))).
    { destruct (solid_W6 q Hq) as (a & b & c & d & Hpk & HV). rewrite Hpk.
      assert (HF : Forall (dim 3) (pick q (lcoords_W6 (K := R)))) by (cbn in Hq; repeat (destruct Hq as [<-|Hq]; [repeat constructor|]); destruct Hq).
      rewrite Hpk in HF. inversion HF as [|? ? H1 HF1]; subst. inversion HF1 as [|? ? H2 HF2]; subst. inversion HF2 as [|? ? H3 HF3]; subst. inversion HF3 as [|? ? H4 _]; subst. now apply solid_of_volume. }
    revert HN. cbn in Hq. destruct Hq as [<-|[<-|[<-|[]]]].
    - apply (not_near tol _ [1/20; 1/20; 0] [9/10; - 9/20; 1/20; 1/2] HS eq_refl); [weights3|]. apply Exists_cons_tl, Exists_cons_hd. lra.
    - apply (not_near tol _ [1/20; 1/20; 0] [9/10; - 9/20; 1/20; 1/2] HS eq_refl); [weights3|]. apply Exists_cons_tl, Exists_cons_hd. lra.
    - apply (not_near tol _ [1/20; 1/20; 0] [- 2/5; 9/20; 9/10; 1/20] HS eq_refl); [weights3|]. apply Exists_cons_hd. lra. }
  destruct src as [|i src].
  - destruct H as (H1 & H2 & _). destruct tgt; [|discriminate H1]. destruct locs; [|discriminate H2]. reflexivity.
  - exfalso. destruct (located_src _ _ _ _ _ _ _ H i (or_introl eq_refl)) as (p & Hp). destruct i as [|[|i]]; try discriminate Hp. apply HN. now left.
Qed.

(** ** distorted hexahedra *)
Definition distorted : list (list R) := [[-1; -1; -1]; [1; -1; -1]; [1; 1; -1]; [-1; 1; -1]; [-1; -1; 1]; [1; -1; 1]; [2; 2; 2]; [-1; 1; 1]].
Lemma distorted_solid : forall q, In q tetmap_H8 -> solid_tet (pick q distorted).
Proof.
  intros q Hq. cbn in Hq.
  repeat (destruct Hq as [<-|Hq]; [unfold pick; cbn [map nth distorted]; apply solid_of_volume; try reflexivity;
    first [apply Rlt_not_eq; unfold signed_volume, at_; cbn [nth]; lra | apply Rgt_not_eq; unfold signed_volume, at_; cbn [nth]; lra]|]). destruct Hq.
Qed.
Lemma H8_wrong : forall query sched k tol, any_order sched -> 0 < tol <= 1 / 5 ->
  exists loc, locate query sched lcoords_H8 (Ok tetmap_H8) distorted [[0; 1; 2; 3; 4; 5; 6; 7]%nat] false k tol [[0; 0; 0]] = Ok ([0%nat], [0%nat], [loc]) /\
    position shp_H8 distorted 0 loc = 1 / 8.
Proof.
  intros query sched k tol Hs Ht.
  assert (Hlc : Forall (dim 3) (lcoords_H8 (K := R))) by repeat constructor.
  assert (Hsolid : forall ec q, In ec [distorted] -> In q tetmap_H8 -> solid_tet (pick q ec)) by (intros ec q [<-|[]]; apply distorted_solid).
  destruct (locate_eager query sched lcoords_H8 tetmap_H8 distorted [[0; 1; 2; 3; 4; 5; 6; 7]%nat] [distorted] Hlc pieces_H8 (one_cell distorted)
    ltac:(repeat constructor) Hsolid tol [[0; 0; 0]] ltac:(repeat constructor) Hs k) as (src & tgt & locs & E & H).
  assert (HC : weights_of 3 [1/4; 1/4; 1/4; 1/4] (pick [0; 2; 7; 5]%nat distorted) [0; 0; 0]).
  { split; [reflexivity|]. split; [cbn [fold_right]; lra|]. intros [|[|[|]]] Hd; [| | |lia]; unfold weighted, at_, pick, distorted; cbn [nth combine map fold_right fst snd]; lra. }
  assert (HI : In 0%nat src).
  { apply (proj1 (proj2 (proj2 (proj2 H))) 0%nat [0; 0; 0] eq_refl). exists distorted. split; [now left|]. exists [0; 2; 7; 5]%nat. split; [cbn; auto 6|].
    exists [1/4; 1/4; 1/4; 1/4]. split; [exact HC|]. repeat (apply Forall_cons; [lra|]); apply Forall_nil. }
  assert (Hsrc : src = [0%nat]).
  { apply sorted_lists; [apply H| |].
    - intros a b i j Ha Hb Hab. destruct b as [|b]; [lia|]. destruct b; discriminate Hb.
    - intros i. split; [|intros [<-|[]]; exact HI]. intros Hi. destruct (located_src _ _ _ _ _ _ _ H i Hi) as (p & Hp). destruct i as [|[|i]]; try discriminate Hp. now left. }
  subst src. destruct H as (H1 & H2 & _ & _ & H5). destruct tgt as [|e [|]]; try discriminate H1. destruct locs as [|loc [|]]; try discriminate H2.
  destruct (H5 0%nat 0%nat e loc eq_refl eq_refl eq_refl) as (p & [= <-] & He & ec & Hec & q & l & Hq & HW & HF & HW' & HD).
  cbn [length] in He. assert (e = 0%nat) as -> by lia. injection Hec as <-. exists loc. split; [exact E|].
  assert (Hloc : loc = [0; 0; 0]).
  { assert (Hq0 : q = [0; 2; 7; 5]%nat).
    { cbn in Hq. assert (K : forall q l', In q tetmap_H8 -> weights_of 3 l' (pick q distorted) [0; 0; 0] -> Exists (fun w => w <= - tol \/ 1 + tol <= w) l' -> ~ near_hull 3 tol (pick q distorted) [0; 0; 0])
        by (intros q0 l' Hq0; apply not_near; [now apply distorted_solid|reflexivity]).
      assert (HN : near_hull 3 tol (pick q distorted) [0; 0; 0]) by now exists l.
      Local Ltac dw := split; [reflexivity|]; split; [cbn [fold_right]; lra|]; intros [|[|[|]]] Hd; [| | |lia]; unfold weighted, at_, pick, distorted; cbn [nth combine map fold_right fst snd]; lra.
      destruct Hq as [<-|[<-|[<-|[<-|[<-|[]]]]]]; [exfalso..|reflexivity]; revert HN.
      - apply (K _ [- 1/2; 1/2; 1/2; 1/2]); [cbn; auto 6|dw|]. apply Exists_cons_hd. lra.
      - apply (K _ [- 1/2; 1/2; 1/2; 1/2]); [cbn; auto 6|dw|]. apply Exists_cons_hd. lra.
      - apply (K _ [1/2; - 1/2; 1/2; 1/2]); [cbn; auto 6|dw|]. apply Exists_cons_tl, Exists_cons_hd. lra.
      - apply (K _ [- 1/5; 2/5; 2/5; 2/5]); [cbn; auto 6|dw|]. apply Exists_cons_hd. lra. }
    subst q. assert (l = [1/4; 1/4; 1/4; 1/4]) as ->.
    { destruct (nat_solid_tet (pick [0; 2; 7; 5]%nat distorted) [0; 0; 0]) as (l0 & _ & _ & HU); [apply distorted_solid; cbn; auto 6|reflexivity|].
      rewrite (HU _ HW). symmetry. now apply HU. }
    apply space_eq; [assumption|reflexivity|]. intros d Hd. rewrite (proj2 (proj2 HW') d Hd).
    destruct d as [|[|[|]]]; [| | |lia]; unfold weighted, at_, pick, lcoords_H8; cbn [nth combine map fold_right fst snd]; numR; lra. }
  subst loc. unfold position, shp_H8, distorted, dot, rsum. cbn [map nth combine fold_right fst snd]. numR. field.
Qed.
(** ** no tetrahedra *)
Lemma locate_none : forall query sched lcoords coords topo lazy k tol x,
  locate query sched lcoords tetmap_TET10 coords topo lazy k tol x = Err NotImplementedError /\
  locate query sched lcoords tetmap_H27 coords topo lazy k tol x = Err NotImplementedError /\
  pip_3d query tetmap_TET10 coords topo lazy k tol x = Err NotImplementedError /\ pip_3d query tetmap_H27 coords topo lazy k tol x = Err NotImplementedError.
Proof. intros. repeat split; reflexivity. Qed.
