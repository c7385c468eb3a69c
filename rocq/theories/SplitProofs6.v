(** * Proofs about [TrModel.v], part 10: quadratic tetrahedra, conformity, wedges *)
From Coq Require Import Reals Lra.
From Verif Require Export SplitProofs5.
Local Open Scope R_scope.
Arguments coord : simpl never.

(** ** Quadratic tetrahedra: the nodes on the edges are midpoints *)

Definition row_mid (L : list (list R)) (p : list nat) : Prop :=
  forall k a b, nth_error edgeIds_TET4 k = Some [a; b] ->
    exists qa qb qm ra sa ta rb sb tb rm sm tm,
      nth_error p a = Some qa /\ nth_error p b = Some qb /\ nth_error p (4 + k) = Some qm /\
      nth_error L qa = Some [ra; sa; ta] /\ nth_error L qb = Some [rb; sb; tb] /\ nth_error L qm = Some [rm; sm; tm] /\
      rm = (ra + rb) / 2 /\ sm = (sa + sb) / 2 /\ tm = (ta + tb) / 2.

Lemma TET10_rows : forall p, In p path_H27_to_TET10 -> row_mid lcoords_H27 p.
Proof.
  intros p Hp k a b Hk. unfold path_H27_to_TET10 in Hp. simpl in Hp. unfold edgeIds_TET4 in Hk.
  repeat (destruct Hp as [<-|Hp]; [
    (destruct k as [|[|[|[|[|[|k]]]]]]; [..|destruct k; discriminate]); injection Hk as <- <-;
    do 12 eexists; do 6 (split; [reflexivity|]); cbn [kofZ NumR]; repeat split; lra|]).
  contradiction.
Qed.

Lemma TET10_midpoints coords cell o u v w p k a b :
  affine_at lcoords_H27 coords cell o u v w -> In p path_H27_to_TET10 ->
  nth_error edgeIds_TET4 k = Some [a; b] ->
  exists na nb nm, nth_error (reorder p cell) a = Some na /\ nth_error (reorder p cell) b = Some nb /\
    nth_error (reorder p cell) (4 + k) = Some nm /\
    forall d, (d < 3)%nat -> coord coords nm d = (coord coords na d + coord coords nb d) / 2.
Proof.
  intros Haff Hp Hk.
  destruct (TET10_rows p Hp k a b Hk) as (qa & qb & qm & ra & sa & ta & rb & sb & tb & rm & sm & tm & Ha & Hb & Hm & La & Lb & Lm & -> & -> & ->).
  destruct (Haff _ _ _ _ La) as [na [Na Ca]], (Haff _ _ _ _ Lb) as [nb [Nb Cb]], (Haff _ _ _ _ Lm) as [nm [Nm Cm]].
  exists na, nb, nm. unfold reorder. rewrite !nth_error_map, Ha, Hb, Hm. simpl.
  rewrite (nth_error_nth _ _ _ Na), (nth_error_nth _ _ _ Nb), (nth_error_nth _ _ _ Nm). repeat split; auto.
  intros d Hd. rewrite (Ca d Hd), (Cb d Hd), (Cm d Hd). unfold image. field.
Qed.

(** the corners of an affine 27-node cell form an affine 8-node cell *)
Lemma H27_corners coords cell o u v w : affine_at lcoords_H27 coords cell o u v w ->
  affine_at lcoords_H8 coords (firstn 8 cell) o u v w.
Proof.
  intros Haff c r s t Hc.
  assert (Hlt : (c < 8)%nat) by (apply nth_error_Some_lt in Hc; auto).
  assert (HL : nth_error lcoords_H27 c = Some [r; s; t]).
  { rewrite <- Hc. destruct c as [|[|[|[|[|[|[|[|c]]]]]]]]; try lia; reflexivity. }
  destruct (Haff _ _ _ _ HL) as [n [Hn Hd]]. exists n. split; auto.
  rewrite <- Hn. clear - Hlt. revert cell Hlt. generalize 8%nat. induction c as [|c IH]; intros [|m] [|x cell] H; simpl; auto; try lia.
  apply IH; lia.
Qed.

Lemma TET10_tets coords cell p k q : nth_error path_H27_to_TET10 k = Some p -> (27 <= length cell)%nat ->
  exists p4, nth_error path_H8_to_TET4 k = Some p4 /\ exists rest, reorder p cell = reorder p4 (firstn 8 cell) ++ rest /\
  (in_tet coords (reorder p cell) q <-> in_tet coords (reorder p4 (firstn 8 cell)) q) /\
  (inside_tet coords (reorder p cell) q <-> inside_tet coords (reorder p4 (firstn 8 cell)) q).
Proof.
  intros Hk Hl.
  assert (Hb : forall a b c e rest l0 l1 l2 l3,
     barycentric coords ([a; b; c; e] ++ rest) q l0 l1 l2 l3 <-> barycentric coords [a; b; c; e] q l0 l1 l2 l3).
  { intros. unfold barycentric. split; intros [Hs (a' & b' & c' & e' & r' & [= <- <- <- <- E] & H)]; split; auto;
      do 5 eexists; (split; [reflexivity|]); auto. }
  do 8 (destruct cell as [|? cell]; [simpl in Hl; lia|]).
  unfold path_H27_to_TET10 in Hk.
  each_piece Hk; (eexists; split; [reflexivity|]); unfold reorder; cbn [map firstn nth];
    (eexists; split; [simpl app; reflexivity|]);
    (split; [unfold in_tet|unfold inside_tet]); split; intros (l0 & l1 & l2 & l3 & H & Hp);
    exists l0, l1, l2, l3; (split; [|exact Hp]);
    match goal with
    | H : barycentric _ [?a; ?b; ?c; ?e] _ _ _ _ _ |- barycentric _ (_ :: _ :: _ :: _ :: ?rest) _ _ _ _ _ => exact (proj2 (Hb a b c e rest l0 l1 l2 l3) H)
    | H : barycentric _ (?a :: ?b :: ?c :: ?e :: ?rest) _ _ _ _ _ |- _ => exact (proj1 (Hb a b c e rest l0 l1 l2 l3) H)
    end.
Qed.

(** ** Conformity inside one hexahedron *)

Section Within.
  Context (coords : list (list R)) (cell : list nat) (o u v w : nat -> R).
  Context (Haff : affine_at lcoords_H8 coords cell o u v w) (HD : det_uvw u v w <> 0).

  Ltac to_local_in H :=
    match type of H with
    | barycentric _ (reorder [?a; ?b; ?c; ?e] _) ?q ?l0 ?l1 ?l2 ?l3 =>
        apply (proj1 (barycentric_local lcoords_H8 coords cell o u v w [a; b; c; e] q l0 l1 l2 l3
          a b c e _ _ _ _ _ _ _ _ _ _ _ _ Haff eq_refl eq_refl eq_refl eq_refl eq_refl)) in H
    end.

  Lemma H8_conforming_cell p p' q : In p path_H8_to_TET4 -> In p' path_H8_to_TET4 ->
    in_tet coords (reorder p cell) q -> in_tet coords (reorder p' cell) q ->
    exists l0 l1 l2 l3, barycentric coords (reorder p cell) q l0 l1 l2 l3 /\
      forall k l n, nth_error [l0; l1; l2; l3] k = Some l -> nth_error (reorder p cell) k = Some n -> l <> 0 -> In n (reorder p' cell).
  Proof.
    intros Hp Hp' (l0 & l1 & l2 & l3 & Hb & Hl) (m0 & m1 & m2 & m3 & Hb' & Hm).
    exists l0, l1, l2, l3. split; auto. intros k l n Hk Hn Hnz.
    unfold path_H8_to_TET4 in Hp, Hp'. simpl in Hp, Hp'.
    repeat (destruct Hp as [<-|Hp]; [|]); try contradiction;
    (repeat (destruct Hp' as [<-|Hp']; [|]); try contradiction);
    to_local_in Hb; to_local_in Hb'; cbn [kofZ NumR] in Hb, Hb';
    destruct Hb as [Hs Hb], Hb' as [Hs' Hb'];
    destruct (same_point u v w _ _ _ _ _ _ o q HD Hb Hb') as [E0 [E1 E2]]; clear Hb Hb';
    unfold reorder in *; cbn [map] in *;
    (destruct k as [|[|[|[|k]]]]; [..|destruct k; discriminate]); cbn [nth_error] in Hk, Hn;
    injection Hk as <-; injection Hn as <-;
    first [simpl; tauto | exfalso; apply Hnz; lra].
  Qed.
End Within.

(** ** Neighbouring hexahedra: the diagonals on the common face cross *)

Lemma H8_neighbours_clash {A} (z : A) coords topo t i i' c c' :
  rect 8 topo -> H8_to_TET4 z coords topo DNone PNone = Ok (coords, (t, DNone)) ->
  nth_error topo i = Some c -> nth_error topo i' = Some c' -> NoDup c ->
  (* the face r = 1 of cell i is the face r = -1 of cell i' *)
  nth 1 c O = nth 0 c' O -> nth 2 c O = nth 3 c' O -> nth 6 c O = nth 7 c' O -> nth 5 c O = nth 4 c' O ->
  (* the other nodes of cell i' are different from those of cell i *)
  (forall k, In k [1;2;5;6]%nat -> ~ In (nth k c' O) c) ->
  (* the face is a parallelogram *)
  (forall d, (d < 3)%nat -> coord coords (nth 1 c O) d + coord coords (nth 6 c O) d
                            = coord coords (nth 2 c O) d + coord coords (nth 5 c O) d) ->
  ~ conforming coords t.
Proof.
  intros Hr Ht Hi Hi' Hnd E0 E3 E7 E4 Hout Hpar Hc.
  destruct (split_cells_value z 4 path_H8_to_TET4 None coords 8 topo PNone path_H8_to_TET4 eq_refl Hr ltac:(check_path)) as [t' [V T]].
  unfold H8_to_TET4 in Ht. rewrite T in Ht. injection Ht as <-.
  destruct (tr_value_get _ _ _ i 4 _ _ V Hi eq_refl) as [ra [Ra Ta]]. apply take_reorder in Ta.
  destruct (tr_value_get _ _ _ i' 4 _ _ V Hi' eq_refl) as [rb [Rb Tb]]. apply take_reorder in Tb.
  assert (Hlc : length c = 8%nat) by (eapply rect_nth; eauto).
  assert (Hlc' : length c' = 8%nat) by (eapply rect_nth; eauto).
  explode Hlc. explode Hlc'. unfold reorder in Ta, Tb. cbn [map nth] in *.
  match type of Ta with _ = [?a; ?b; ?e; ?f] => rename a into a0; rename b into a2; rename e into a7; rename f into a5 end.
  match type of Tb with _ = [?a; ?b; ?e; ?f] => rename a into b0; rename b into b2; rename e into b7; rename f into b5 end.
  destruct (Hc ra rb (fun d => (coord coords a2 d + coord coords a5 d) / 2)) as (l0 & l1 & l2 & l3 & [Hs Hb] & Hl).
  - eapply nth_error_In; eauto.
  - eapply nth_error_In; eauto.
  - subst ra. exists 0, (1/2), 0, (1/2). split; [|repeat split; lra]. split; [lra|].
    do 5 eexists. split; [reflexivity|]. intros d Hd. field.
  - subst rb. exists (1/2), 0, (1/2), 0. split; [|repeat split; lra]. split; [lra|].
    do 5 eexists. split; [reflexivity|]. intros d Hd. specialize (Hpar d Hd). subst. lra.
  - subst ra rb.
    pose proof (Hout 2%nat ltac:(simpl; auto)) as O2. pose proof (Hout 5%nat ltac:(simpl; auto)) as O5. cbn [nth] in O2, O5.
    assert (Hno : forall n, In n [a0; a2; a7; a5] -> ~ In n [b0; b2; b7; b5]).
    { intros x Hx Hy.
      assert (Hb2 : x <> b2) by (intros ->; apply O2; simpl in *; tauto).
      assert (Hb5 : x <> b5) by (intros ->; apply O5; simpl in *; tauto).
      repeat match goal with H : NoDup (_ :: _) |- _ => apply NoDup_cons_iff in H; destruct H end.
      simpl in *. subst. intuition congruence. }
    assert (Hz : forall k l n, nth_error [l0; l1; l2; l3] k = Some l -> nth_error [a0; a2; a7; a5] k = Some n -> l = 0).
    { intros k l x H1 H2. destruct (Req_dec l 0) as [|Hnz]; auto. exfalso.
      eapply Hno; [|exact (Hl k l x H1 H2 Hnz)]. eapply nth_error_In; eauto. }
    pose proof (Hz 0%nat _ _ eq_refl eq_refl). pose proof (Hz 1%nat _ _ eq_refl eq_refl).
    pose proof (Hz 2%nat _ _ eq_refl eq_refl). pose proof (Hz 3%nat _ _ eq_refl eq_refl). lra.
Qed.

(** ** Wedges: two tetrahedra overlap and leave a gap *)

Section Wedge.
  Context (coords : list (list R)) (cell : list nat) (o u v w : nat -> R).
  Context (Haff : affine_at lcoords_W6 coords cell o u v w) (HD : det_uvw u v w <> 0).

  Ltac local_form a b c e q l0 l1 l2 l3 :=
    constr:(barycentric_local lcoords_W6 coords cell o u v w [a; b; c; e] q l0 l1 l2 l3
       a b c e _ _ _ _ _ _ _ _ _ _ _ _ Haff eq_refl eq_refl eq_refl eq_refl eq_refl).
  Ltac to_local :=
    match goal with
    | |- barycentric _ (reorder [?a; ?b; ?c; ?e] _) ?q ?l0 ?l1 ?l2 ?l3 =>
        let h := local_form a b c e q l0 l1 l2 l3 in apply (proj2 h)
    end.
  Ltac to_local_in H :=
    match type of H with
    | barycentric _ (reorder [?a; ?b; ?c; ?e] _) ?q ?l0 ?l1 ?l2 ?l3 =>
        let h := local_form a b c e q l0 l1 l2 l3 in apply (proj1 h) in H
    end.

  Lemma W6_gap p : In p path_W6_to_TET4 -> ~ in_tet coords (reorder p cell) (image o u v w (1/10) (1/10) 0).
  Proof.
    intros Hp (l0 & l1 & l2 & l3 & Hb & Hl). unfold path_W6_to_TET4 in Hp. simpl in Hp.
    repeat (destruct Hp as [<-|Hp]; [|]); try contradiction; to_local_in Hb; cbn [kofZ NumR] in Hb; destruct Hb as [Hs Hb];
      destruct (same_point u v w _ _ _ _ _ _ o _ HD Hb (fun d _ => eq_refl)) as [E0 [E1 E2]]; lra.
  Qed.

  Lemma W6_overlap : inside_tet coords (reorder [3;5;4;2]%nat cell) (image o u v w (1/10) (8/10) 0) /\
    inside_tet coords (reorder [2;5;0;4]%nat cell) (image o u v w (1/10) (8/10) 0).
  Proof.
    split.
    - exists (1/10), (3/10), (1/10), (1/2). split; [|lra]. to_local. cbn [kofZ NumR]. split; [lra|]. intros d Hd. unfold image. field.
    - exists (4/10), (4/10), (1/10), (1/10). split; [|lra]. to_local. cbn [kofZ NumR]. split; [lra|]. intros d Hd. unfold image. field.
  Qed.
End Wedge.
