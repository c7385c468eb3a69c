(** * Proofs about the triangulation object, the export to VTK and the points of a rectangle *)
From Coq Require Import Reals Lra Lia List.
From Verif Require Import Base BaseFacts TrModel TrSpec SplitSpec SplitProofs TableModel TableSpec TableProofs TableProofs2 ShapeProofs4.
Import ListNotations.
Local Open Scope R_scope.

(** ** The triangulation object *)
Lemma triobj_T3 coords topo : ncols topo <> 6%nat -> to_triobj coords topo = Ok (coords, topo).
Proof. intros H. unfold to_triobj. apply Nat.eqb_neq in H. rewrite H. reflexivity. Qed.
Lemma triobj_T6 coords topo : rect 6 topo -> topo <> [] -> to_triobj coords topo = Ok (coords, pieces_along path_triobj topo).
Proof.
  intros H Hn. unfold to_triobj. destruct topo as [|c topo]; [contradiction|].
  assert (E : ncols (c :: topo) = 6%nat) by (inversion H; assumption). rewrite E. cbn [Nat.eqb]. unfold T6_to_T3.
  rewrite (split_pieces_along 0%nat 3 _ None coords 6 (c :: topo) (PArr path_triobj) path_triobj); [reflexivity|reflexivity|exact H|check_path].
Qed.

Lemma cons_eq {A} (x y : A) l m : x = y -> l = m -> x :: l = y :: m.
Proof. intros -> ->. reflexivity. Qed.
Section Straight.
  Context (points : list (list R)) (cell : list nat) (Hs : straight points cell) (HA : polygon_area points (firstn 3 cell) <> 0).
  (** three pieces of four have the wrong orientation *)
  Lemma triobj_orientation : map (fun p => polygon_area points (reorder p cell)) path_triobj =
    map (fun s => s * polygon_area points (firstn 3 cell) / 4) [-1; -1; -1; 1].
  Proof.
    destruct Hs as (a & b & c & p & q & r & -> & H). destruct (H 0%nat ltac:(lia)) as (P0 & Q0 & R0). destruct (H 1%nat ltac:(lia)) as (P1 & Q1 & R1).
    unfold path_triobj, reorder. cbn [map nth firstn]. unfold polygon_area. cbn. unfold cross2. rewrite P0, Q0, R0, P1, Q1, R1.
    repeat (apply cons_eq; [field|]). reflexivity.
  Qed.
  (** weights with respect to the corners are unique *)
  Lemma corner_weights a b c q x y z x' y' z' : firstn 3 cell = [a; b; c] ->
    tri_weights points [a; b; c] q x y z -> tri_weights points [a; b; c] q x' y' z' -> x = x' /\ y = y' /\ z = z'.
  Proof.
    intros E (S1 & i & j & k & E1 & H1) (S2 & i' & j' & k' & E2 & H2). injection E1 as <- <- <-. injection E2 as <- <- <-.
    rewrite E in HA. pose proof (H1 0%nat ltac:(lia)) as X1. pose proof (H1 1%nat ltac:(lia)) as Y1. rewrite (H2 0%nat) in X1 by lia. rewrite (H2 1%nat) in Y1 by lia.
    revert HA X1 Y1. unfold polygon_area. cbn. unfold cross2.
    generalize (coord points a 0) (coord points b 0) (coord points c 0) (coord points a 1) (coord points b 1) (coord points c 1). intros a0 b0 c0 a1 b1 c1 HA' X1 Y1.
    set (D := a0 * b1 - b0 * a1 + (b0 * c1 - c0 * b1 + (c0 * a1 - a0 * c1))) in *.
    assert (HD : D <> 0) by (intros F; apply HA'; unfold Rdiv; rewrite F; ring).
    replace a0 with (a0 * 1) in X1 by ring. 
    assert (Y : (y - y') * D = 0).
    { assert (x = 1 - y - z) by lra. assert (x' = 1 - y' - z') by lra. subst x x'. unfold D.
      assert (X1' : (y' - y) * (b0 - a0) + (z' - z) * (c0 - a0) = 0) by lra.
      assert (Y1' : (y' - y) * (b1 - a1) + (z' - z) * (c1 - a1) = 0) by lra.
      replace ((y - y') * (a0 * b1 - b0 * a1 + (b0 * c1 - c0 * b1 + (c0 * a1 - a0 * c1))))
        with ((c0 - a0) * ((y' - y) * (b1 - a1) + (z' - z) * (c1 - a1)) - (c1 - a1) * ((y' - y) * (b0 - a0) + (z' - z) * (c0 - a0))) by ring.
      rewrite X1', Y1'. ring. }
    assert (Z : (z - z') * D = 0).
    { assert (x = 1 - y - z) by lra. assert (x' = 1 - y' - z') by lra. subst x x'. unfold D.
      assert (X1' : (y' - y) * (b0 - a0) + (z' - z) * (c0 - a0) = 0) by lra.
      assert (Y1' : (y' - y) * (b1 - a1) + (z' - z) * (c1 - a1) = 0) by lra.
      replace ((z - z') * (a0 * b1 - b0 * a1 + (b0 * c1 - c0 * b1 + (c0 * a1 - a0 * c1))))
        with ((b1 - a1) * ((y' - y) * (b0 - a0) + (z' - z) * (c0 - a0)) - (b0 - a0) * ((y' - y) * (b1 - a1) + (z' - z) * (c1 - a1))) by ring.
      rewrite X1', Y1'. ring. }
    apply Rmult_integral in Y, Z. destruct Y as [Y|Y]; [|contradiction]. destruct Z as [Z|Z]; [|contradiction]. lra.
  Qed.
  (** a point in the triangle that is in none of the pieces, and a point in two of them *)
  Lemma triobj_gap : exists q, in_triangle points (firstn 3 cell) q /\ forall p, In p path_triobj -> ~ in_triangle points (reorder p cell) q.
  Proof.
    destruct Hs as (a & b & c & p & q & r & Hc & H).
    exists (fun d => 1/20 * coord points a d + 4/5 * coord points b d + 3/20 * coord points c d). split.
    - exists (1/20), (4/5), (3/20). rewrite Hc. cbn [firstn]. split; [|lra]. split; [lra|]. exists a, b, c. auto.
    - assert (W : forall x y z, tri_weights points [a; b; c] (fun d => 1/20 * coord points a d + 4/5 * coord points b d + 3/20 * coord points c d) x y z -> x = 1/20 /\ y = 4/5 /\ z = 3/20).
      { intros x y z T. apply (corner_weights a b c _ _ _ _ (1/20) (4/5) (3/20)) in T; [exact T|rewrite Hc; reflexivity|].
        split; [lra|]. exists a, b, c. auto. }
      intros t Ht (l0 & l1 & l2 & (S1 & i & j & k & E & Hq) & L0 & L1 & L2). rewrite Hc in E.
      destruct (H 0%nat ltac:(lia)) as (P0 & Q0 & R0). destruct (H 1%nat ltac:(lia)) as (P1 & Q1 & R1).
      assert (C : forall u v w, (forall d, (d < 2)%nat -> l0 * coord points i d + l1 * coord points j d + l2 * coord points k d = u * coord points a d + v * coord points b d + w * coord points c d) -> u + v + w = 1 -> u = 1/20 /\ v = 4/5 /\ w = 3/20).
      { intros u v w Hd Hu. apply W. split; [exact Hu|]. exists a, b, c. split; [reflexivity|]. intros d Hd'. rewrite <- Hd by exact Hd'. apply Hq, Hd'. }
      unfold reorder in E.
      repeat (destruct Ht as [<-|Ht]; [cbn [map nth] in E; injection E as <- <- <-|]); [..|contradiction].
      + destruct (C (l0 + l1/2) (l2/2) (l1/2 + l2/2)) as (? & ? & ?); [|lra|lra].
        intros [|[|d]] Hd; [rewrite Q0, R0|rewrite Q1, R1|lia]; field.
      + destruct (C (l0/2 + l2/2) (l1 + l2/2) (l0/2)) as (? & ? & ?); [|lra|lra].
        intros [|[|d]] Hd; [rewrite P0, R0|rewrite P1, R1|lia]; field.
      + destruct (C (l0/2) (l0/2 + l2/2) (l1 + l2/2)) as (? & ? & ?); [|lra|lra].
        intros [|[|d]] Hd; [rewrite P0, Q0|rewrite P1, Q1|lia]; field.
      + destruct (C (l0/2 + l1/2) (l1/2 + l2/2) (l0/2 + l2/2)) as (? & ? & ?); [|lra|lra].
        intros [|[|d]] Hd; [rewrite P0, Q0, R0|rewrite P1, Q1, R1|lia]; field.
  Qed.
  (** the middle of the triangle lies in the interior of all pieces of the corners' side *)
  Lemma triobj_overlap : exists q, in_triangle points (reorder [0;5;4]%nat cell) q /\ in_triangle points (reorder [5;3;4]%nat cell) q /\
    forall x y z, tri_weights points (reorder [0;5;4]%nat cell) q x y z -> 0 < x /\ 0 < y /\ 0 < z.
  Proof.
    destruct Hs as (a & b & c & p & q & r & Hc & H).
    destruct (H 0%nat ltac:(lia)) as (P0 & Q0 & R0). destruct (H 1%nat ltac:(lia)) as (P1 & Q1 & R1).
    exists (fun d => 4/10 * coord points a d + 2/10 * coord points b d + 4/10 * coord points c d).
    rewrite Hc. unfold reorder. cbn [map nth].
    split; [|split].
    - exists (1/5), (2/5), (2/5). split; [|lra]. split; [lra|]. exists a, r, q. split; [reflexivity|].
      intros [|[|d]] Hd; [rewrite Q0, R0|rewrite Q1, R1|lia]; field.
    - exists (3/5), (1/5), (1/5). split; [|lra]. split; [lra|]. exists r, p, q. split; [reflexivity|].
      intros [|[|d]] Hd; [rewrite P0, Q0, R0|rewrite P1, Q1, R1|lia]; field.
    - intros x y z (S1 & i & j & k & E & Hq). injection E as <- <- <-.
      assert (W : x + y / 2 = 4/10 /\ z / 2 = 2/10 /\ y / 2 + z / 2 = 4/10).
      { apply (corner_weights a b c (fun d => 4/10 * coord points a d + 2/10 * coord points b d + 4/10 * coord points c d)); [rewrite Hc; reflexivity| |].
        - split; [lra|]. exists a, b, c. split; [reflexivity|]. intros d Hd. rewrite (Hq d Hd).
          destruct d as [|[|d]]; [rewrite Q0, R0|rewrite Q1, R1|lia]; field.
        - split; [lra|]. exists a, b, c. auto. }
      lra.
  Qed.
End Straight.

(** ** VTK *)
Lemma vtk_read w topo : rect w topo -> reads (topo_vtk topo) topo.
Proof.
  intros H. unfold topo_vtk.
  assert (G : forall n t, (forall c, In c t -> length c = n) -> reads (concat (map (fun row => n :: row) t)) t).
  { intros n t. induction t as [|c t IH]; intros Hn; [constructor|]. cbn. rewrite <- (Hn c) at 1 by (left; reflexivity).
    change (length c :: c ++ concat (map (fun row => n :: row) t)) with (length c :: c ++ (concat (map (fun row => n :: row) t))).
    constructor. apply IH. intros c' Hc. apply Hn. right. exact Hc. }
  apply G. intros c Hc. destruct topo as [|c0 topo]; [contradiction|]. cbn [ncols].
  rewrite (proj1 (Forall_forall _ _) H c Hc). symmetry. apply (proj1 (Forall_forall _ _) H). left. reflexivity.
Qed.
Lemma reads_det l cells cells' : reads l cells -> reads l cells' -> cells = cells'.
Proof.
  intros H. revert cells'. remember l as l0. revert l Heql0. induction H as [|cell rest cells H IH]; intros l El cells' H'.
  - inversion H'. reflexivity.
  - inversion H' as [|cell' rest' cells'' Hr E1 E2].
    assert (L : cell = cell' /\ rest = rest').
    { assert (A : firstn (length cell) (cell ++ rest) = firstn (length cell) (cell' ++ rest')) by congruence.
      assert (B : skipn (length cell) (cell ++ rest) = skipn (length cell) (cell' ++ rest')) by congruence.
      assert (E : length cell = length cell') by congruence.
      assert (F : forall (u v : list nat), firstn (length u) (u ++ v) = u)
        by (intros u v; rewrite firstn_app, Nat.sub_diag, firstn_all, firstn_O, app_nil_r; reflexivity).
      assert (G : forall (u v : list nat), skipn (length u) (u ++ v) = v)
        by (intros u v; rewrite skipn_app, Nat.sub_diag, skipn_all; reflexivity).
      rewrite F in A. rewrite G in B. rewrite E, F in A. rewrite E, G in B. auto. }
    destruct L as [-> ->]. f_equal. eapply IH; eauto.
Qed.
Lemma vtk_unique w topo cells : rect w topo -> reads (topo_vtk topo) cells -> cells = topo.
Proof. intros H1 H2. eapply reads_det; [exact H2|eapply vtk_read; exact H1]. Qed.

Lemma numbering_check p q (scale shift : nat -> R) : length p = length q -> (forall d, 0 < scale d) ->
  Forall (fun xy => length (fst xy) = length (snd xy) /\ forall d, (d < length (fst xy))%nat -> nth d (fst xy) 0 = scale d * nth d (snd xy) 0 + shift d) (combine p q) ->
  same_numbering p q.
Proof.
  intros Hl Hs H. split; [exact Hl|]. exists scale, shift. split; [exact Hs|]. intros k x y Hx Hy.
  assert (E : nth_error (combine p q) k = Some (x, y)).
  { clear H Hl. revert q k Hx Hy. induction p as [|a p IH]; intros [|b q] [|k] Hx Hy; try discriminate; cbn in *; [congruence|auto]. }
  exact (proj1 (Forall_forall _ _) H _ (nth_error_In _ _ E)).
Qed.
Ltac numbering := repeat (apply Forall_cons; [split; [reflexivity|]; intros [|[|[|d]]] Hd; cbn in Hd |- *; try (exfalso; lia); unfold coord; cbn; numR; field|]); apply Forall_nil.
Definition third (d : nat) (x y : R) : R := match d with 2%nat => x | _ => y end.
Ltac numbered f g := apply (numbering_check _ _ f g);
  [reflexivity|intros [|[|[|d]]]; cbn; lra|unfold third; cbn [lcoords_of vtk_points vtkCellType];
   unfold means_of; cbn [vtk_line vtk_triangle vtk_quad vtk_tetra vtk_hexahedron vtk_wedge app map length nth seq];
   cbn [combine lcoords_L2 lcoords_T3 lcoords_T6 lcoords_Q4 lcoords_Q9 lcoords_TET4 lcoords_TET10 lcoords_H8 lcoords_H27 lcoords_W6 lcoords_W18]; numbering].
Lemma vtk_numbering c : same_numbering (lcoords_of c) (vtk_points (vtkCellType c)).
Proof.
  destruct c.
  - numbered (fun _ : nat => 2) (fun _ : nat => -1).
  - numbered (fun _ : nat => 1) (fun _ : nat => 0).
  - numbered (fun _ : nat => 1) (fun _ : nat => 0).
  - numbered (fun _ : nat => 2) (fun _ : nat => -1).
  - numbered (fun _ : nat => 2) (fun _ : nat => -1).
  - numbered (fun _ : nat => 1) (fun _ : nat => 0).
  - numbered (fun _ : nat => 1) (fun _ : nat => 0).
  - numbered (fun _ : nat => 2) (fun _ : nat => -1).
  - numbered (fun _ : nat => 2) (fun _ : nat => -1).
  - numbered (fun d => third d 2 1) (fun d => third d (-1) 0).
  - numbered (fun d => third d 2 1) (fun d => third d (-1) 0).
Qed.

(** ** Points of a rectangle *)
Lemma linspace_length a b n : length (linspace a b n) = n.
Proof. destruct n as [|[|n]]; [reflexivity..|]. unfold linspace. rewrite map_length, seq_length. reflexivity. Qed.
Lemma linspace_nth a b n i : (2 <= n)%nat -> (i < n)%nat -> nth i (linspace a b n) 0 = a + (b - a) * INR i / INR (n - 1).
Proof.
  intros Hn Hi. destruct n as [|[|n]]; [lia..|]. unfold linspace.
  rewrite (nth_indep _ 0 ((fun i => a + INR i * ((b - a) / INR (S (S n) - 1))) 0%nat)) by (rewrite map_length, seq_length; exact Hi).
  rewrite (map_nth (fun i => a + INR i * ((b - a) / INR (S (S n) - 1)))), seq_nth by exact Hi. cbn [plus].
  field. apply not_0_INR. lia.
Qed.
Lemma meshgrid_nth (x y : list R) i j : (i < length x)%nat -> (j < length y)%nat ->
  nth_error (flat_map (fun yj => map (fun xi => [xi; yj; 0]) x) y) (j * length x + i) = Some [nth i x 0; nth j y 0; 0].
Proof.
  intros Hi. revert j. induction y as [|y0 y IH]; intros j Hj; [cbn in Hj; lia|]. cbn [flat_map]. destruct j as [|j].
  - cbn. rewrite nth_error_app1 by (rewrite map_length; exact Hi). rewrite nth_error_map.
    rewrite (nth_error_nth' x 0 Hi). reflexivity.
  - rewrite nth_error_app2 by (rewrite map_length; lia). rewrite map_length.
    replace (S j * length x + i - length x)%nat with (j * length x + i)%nat by lia. cbn [nth]. apply IH. cbn in Hj. lia.
Qed.
Lemma meshgrid_length (x y : list R) : length (flat_map (fun yj => map (fun xi => [xi; yj; 0]) x) y) = (length x * length y)%nat.
Proof. induction y as [|y0 y IH]; cbn; [lia|]. rewrite app_length, map_length, IH. lia. Qed.
(** the position of the domain: with [origo] its corner is at -origo, the third entry is not used *)
Lemma rectangle_lattice lx ly nx ny ox oy rest : (2 <= nx)%nat -> (2 <= ny)%nat -> (length rest <= 1)%nat ->
  exists points, rectangle_points (Some (lx, ly)) (Shape2 nx ny) (Some (ox :: oy :: rest)) = Ok points /\
    length points = (nx * ny)%nat /\
    forall i j, (i < nx)%nat -> (j < ny)%nat ->
      nth_error points (j * nx + i) = Some [lx * INR i / INR (nx - 1) - ox; ly * INR j / INR (ny - 1) - oy; 0].
Proof.
  intros Hx Hy Hr. unfold rectangle_points.
  set (o := if Nat.eqb (length (ox :: oy :: rest)) 2 then (ox :: oy :: rest) ++ [0] else ox :: oy :: rest).
  assert (Ho : exists z, o = [ox; oy; z]).
  { unfold o. destruct rest as [|z [|]]; [exists 0; reflexivity|exists z; reflexivity|cbn in Hr; lia]. }
  destruct Ho as (z & ->). cbn [get nth_error bind]. eexists. split; [reflexivity|].
  split; [rewrite meshgrid_length, !linspace_length; reflexivity|].
  intros i j Hi Hj. pose proof (meshgrid_nth (linspace (- ox) (lx - ox) nx) (linspace (- oy) (ly - oy) ny) i j) as G.
  rewrite !linspace_length in G. rewrite (G Hi Hj). rewrite !linspace_nth by assumption.
  assert (A : INR (nx - 1) <> 0) by (apply not_0_INR; lia). assert (B : INR (ny - 1) <> 0) by (apply not_0_INR; lia).
  f_equal. apply cons_eq; [field; exact A|]. apply cons_eq; [field; exact B|reflexivity].
Qed.
(** no subdivision at all by default: one point *)
Lemma rectangle_default lx ly : rectangle_points (Some (lx, ly)) NoShape None = Ok [[- 0; - 0; 0]].
Proof. reflexivity. Qed.
Lemma rectangle_single lx ly ox oy rest : (length rest <= 1)%nat ->
  rectangle_points (Some (lx, ly)) (Shape2 1 1) (Some (ox :: oy :: rest)) = Ok [[- ox; - oy; 0]].
Proof. intros Hr. destruct rest as [|z [|]]; [reflexivity..|cbn in Hr; lia]. Qed.
Lemma rectangle_int size n origo : size <> None -> rectangle_points size (ShapeInt n) origo = Err TypeError.
Proof. destruct size as [[lx ly]|]; [reflexivity|contradiction]. Qed.
(** the shape counts points, not subdivisions *)
Lemma rectangle_subdivisions : forall lx ly nx ny, 0 < lx -> (2 <= nx)%nat -> (2 <= ny)%nat -> forall points,
  rectangle_points (Some (lx, ly)) (Shape2 nx ny) None = Ok points ->
  length points <> ((nx + 1) * (ny + 1))%nat /\
  forall i P Q, (i + 1 < nx)%nat -> nth_error points i = Some P -> nth_error points (i + 1) = Some Q ->
    nth 0 Q 0 - nth 0 P 0 = lx / INR (nx - 1).
Proof.
  intros lx ly nx ny Hl Hx Hy points E.
  destruct (rectangle_lattice lx ly nx ny 0 0 [0] Hx Hy (le_n _)) as (ps & E' & L & H).
  change (rectangle_points (Some (lx, ly)) (Shape2 nx ny) (Some [0; 0; 0])) with (rectangle_points (Some (lx, ly)) (Shape2 nx ny) None) in E'.
  rewrite E in E'. injection E' as <-. split; [rewrite L; lia|].
  intros i P Q Hi HP HQ.
  pose proof (H i 0%nat ltac:(lia) ltac:(lia)) as A. pose proof (H (i + 1)%nat 0%nat ltac:(lia) ltac:(lia)) as B.
  cbn [Nat.mul Nat.add] in A, B. rewrite A in HP. rewrite B in HQ. injection HP as <-. injection HQ as <-. cbn [nth].
  rewrite plus_INR. cbn [INR]. field. apply not_0_INR. lia.
Qed.
(** what a triangulation object of one straight triangle is made of *)
Lemma triobj_straight points cell : straight points cell -> polygon_area points (firstn 3 cell) <> 0 ->
  exists ts, to_triobj points [cell] = Ok (points, ts) /\
    (* three of four pieces are oriented the other way round *)
    map (polygon_area points) ts = map (fun s => s * polygon_area points (firstn 3 cell) / 4) [-1; -1; -1; 1] /\
    (* a point of the triangle is in none of the pieces *)
    (exists q, in_triangle points (firstn 3 cell) q /\ forall t, In t ts -> ~ in_triangle points t q) /\
    (* a point in the interior of a piece is in another piece *)
    exists q s t, In s ts /\ In t ts /\ s <> t /\ in_triangle points s q /\ in_triangle points t q /\
      forall x y z, tri_weights points s q x y z -> 0 < x /\ 0 < y /\ 0 < z.
Proof.
  intros Hs HA. exists (map (fun p => reorder p cell) path_triobj). split.
  - rewrite triobj_T6; [unfold pieces_along; cbn [flat_map]; rewrite app_nil_r; reflexivity| |discriminate].
    destruct Hs as (a & b & c & p & q & r & -> & _). repeat constructor.
  - split; [rewrite map_map; apply triobj_orientation; assumption|]. split.
    + destruct (triobj_gap points cell Hs HA) as (q & H1 & H2). exists q. split; [exact H1|]. intros t Ht. apply in_map_iff in Ht.
      destruct Ht as (p & <- & Hp). apply H2, Hp.
    + destruct (triobj_overlap points cell Hs HA) as (q & H1 & H2 & H3).
      exists q, (reorder [0;5;4]%nat cell), (reorder [5;3;4]%nat cell).
      split; [apply in_map_iff; eexists; split; [reflexivity|cbn; tauto]|]. split; [apply in_map_iff; eexists; split; [reflexivity|cbn; tauto]|].
      split; [|auto]. destruct Hs as (a & b & c & p & q' & r & -> & H). unfold reorder. cbn [map nth]. intros E. injection E as E1 E2.
      subst r. apply HA. cbn [firstn]. unfold polygon_area. cbn. unfold cross2.
      destruct (H 0%nat ltac:(lia)) as (P0 & Q0 & R0). destruct (H 1%nat ltac:(lia)) as (P1 & Q1 & R1).
      replace (coord points a 0) with (coord points c 0) by lra. replace (coord points a 1) with (coord points c 1) by lra. field.
Qed.
