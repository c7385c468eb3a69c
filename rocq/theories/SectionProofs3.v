(** * Proofs about [SectionModel.v], part 3: meshes of sections, extruded sections, properties *)
From Coq Require Import Reals Lra Lia List Bool Psatz.
From Verif Require Import BaseFacts FillFacts TrModel TrProofs TriProofs NodalProofs4 NodalProofs5 TableProofs2 SpaceModel SpaceSpec SpaceProofs SpaceProofs5 ExtrudeProofs3 ExtrudeProofs6 SectionModel SectionSpec.
From Verif Require TopoProofs5 DiskProofs SplitProofs TableProofs3.
Import ListNotations.
Local Open Scope R_scope.

Lemma F2_impl {A B} (P Q : A -> B -> Prop) l m : (forall x y, P x y -> Q x y) -> Forall2 P l m -> Forall2 Q l m.
Proof. intros H. induction 1; constructor; auto. Qed.
(** ** Moved points *)
Lemma moved_length t r rows : Forall2 (moved_by t) r rows -> length r = length rows.
Proof. apply Forall2_len. Qed.
Lemma moved_coord t r rows n d : rect 2 rows -> Forall2 (moved_by t) r rows -> (n < length rows)%nat -> (d < 2)%nat -> coord r n d = coord rows n d + at_ d t.
Proof.
  intros HR HM Hn Hd. destruct (nth_error_lt rows n Hn) as [q Hq]. assert (Hr : (n < length r)%nat) by (now rewrite (moved_length _ _ _ HM)). destruct (nth_error_lt r n Hr) as [p Hp].
  assert (M : moved_by t p q). { clear -HM Hp Hq. revert n Hp Hq. induction HM as [|x y r rows H HM IH]; intros [|n] Hp Hq; try discriminate; [cbn in Hp, Hq; congruence|eauto]. }
  unfold coord. rewrite (nth_error_nth _ _ _ Hp), (nth_error_nth _ _ _ Hq). destruct M as [_ M]. apply M. rewrite (rect_nth _ _ _ _ HR Hq). exact Hd.
Qed.
Lemma area3 points a b c : polygon_area points [a; b; c] =
  ((coord points b 0 - coord points a 0) * (coord points c 1 - coord points a 1) - (coord points b 1 - coord points a 1) * (coord points c 0 - coord points a 0)) / 2.
Proof. unfold polygon_area, shoelace, cross2. field. Qed.

Lemma neg_neg (l : list R) : map Ropp (map Ropp l) = l.
Proof. rewrite map_map. induction l as [|x l IH]; [reflexivity|]. cbn. rewrite IH. f_equal. ring. Qed.
Lemma centred vertices : vertices <> [] -> rect 2 vertices ->
  exists r t, centralize Floating vertices = Ok r /\ rect 2 r /\ Forall2 (moved_by t) r vertices /\ mean_row 2 vertices (map Ropp t) /\ mean_row 2 r [0; 0].
Proof.
  intros HN HR. destruct (centralize_value 2 vertices (or_introl eq_refl) HN HR) as (r & E & R2 & HM). exists r, (map Ropp (means 2 vertices)). split; [exact E|]. split; [exact R2|]. split; [exact HM|]. split.
  - rewrite neg_neg. now apply means_mean.
  - exact (moved_mean_zero 2 r vertices HN HR HM).
Qed.

(** ** The mesh of the corners *)
Lemma len3 {A} (l : list A) : length l = 3%nat -> exists a b c, l = [a; b; c].
Proof. destruct l as [|a [|b [|c [|]]]]; intros H; try discriminate. eauto. Qed.
Lemma firstn3_6 {A} (l : list A) : length l = 6%nat -> length (firstn 3 l) = 3%nat.
Proof. intros H. rewrite firstn_length. lia. Qed.
Lemma firstn_In {A} n (l : list A) x : In x (firstn n l) -> In x l.
Proof. intros H. rewrite <- (firstn_skipn n l). apply in_or_app. now left. Qed.

Lemma corner_detached vertices triangles : vertices <> [] -> rect 2 vertices -> rect 6 triangles -> in_range (length vertices) triangles ->
  exists r t points ts, centralize Floating vertices = Ok r /\ Forall2 (moved_by t) r vertices /\ mean_row 2 vertices (map Ropp t) /\ rect 2 r /\
    section_trimesh vertices triangles false 1 = Ok (points, ts) /\ detached r (corner_nodes triangles) points ts.
Proof.
  intros HN HR H6 HI. destruct (centred vertices HN HR) as (r & t & E & R2 & HM & HV & _).
  destruct (TopoProofs5.detach_bulk_ok r (corner_nodes triangles)) as (c & t' & inds & H1 & H2 & H3 & H4).
  { intros n Hn. rewrite (moved_length _ _ _ HM). destruct (DiskProofs.used_in _ _ Hn) as (u & Hu & Hin). apply in_map_iff in Hu. destruct Hu as (cell & <- & Hc). apply firstn_In in Hin.
    unfold in_range in HI. rewrite Forall_forall in HI. specialize (HI cell Hc). rewrite Forall_forall in HI. auto. }
  exists r, t, c, t'. repeat (split; [assumption|]). split; [|eapply TopoProofs5.detached_of; eauto].
  unfold section_trimesh. rewrite E. cbn [bind Nat.eqb]. exact H1.
Qed.
Lemma take_rect n (r : list (list R)) inds c : rect n r -> take r inds = Ok c -> rect n c.
Proof.
  intros HR HT. apply Forall_forall. intros p Hp. apply In_nth_error in Hp. destruct Hp as [i Hi].
  apply (proj1 (mapM_Ok _ _ _)) in HT. destruct (Forall2_nth_error_r _ _ _ _ _ HT Hi) as (k & _ & Hk). apply get_Ok in Hk. exact (rect_nth _ _ _ _ HR Hk).
Qed.

Lemma corner_mesh : forall vertices triangles, vertices <> [] -> rect 2 vertices -> rect 6 triangles -> in_range (length vertices) triangles ->
  exists points ts t, section_trimesh vertices triangles false 1 = Ok (points, ts) /\ mean_row 2 vertices (map Ropp t) /\ rect 2 points /\ rect 3 ts /\
    (forall n, used ts n <-> (n < length points)%nat) /\ Forall2 (same_corners t vertices points) triangles ts /\
    Forall2 (fun cell tri => polygon_area points tri = polygon_area vertices (firstn 3 cell)) triangles ts.
Proof.
  intros vertices triangles HN HR H6 HI. destruct (corner_detached vertices triangles HN HR H6 HI) as (r & t & points & ts & E & HM & HV & R2 & ET & HD). exists points, ts, t.
  split; [exact ET|]. split; [exact HV|]. pose proof (DiskProofs.same_rows _ _ _ _ HD) as HSR. destruct HD as (_ & _ & _ & HU & inds & _ & HT). split; [exact (take_rect _ _ _ _ R2 HT)|].
  assert (HSR' : Forall2 (fun cell tri => length tri = 3%nat /\ forall j n, nth_error (firstn 3 cell) j = Some n -> exists n', nth_error tri j = Some n' /\ nth_error points n' = nth_error r n) triangles ts).
  { clear -HSR H6. unfold corner_nodes in HSR. revert ts HSR. induction triangles as [|cell triangles IH]; intros ts HSR; cbn [map] in HSR; inversion HSR as [|? tri ? ts' [L H] HSR']; subst; [constructor|]. inversion H6; subst. constructor; [|auto]. split; [rewrite <- L; now apply firstn3_6|exact H]. }
  clear HSR. split; [|split; [exact HU|]].
  { apply Forall_forall. intros tri Htri. apply In_nth_error in Htri. destruct Htri as [i Hi]. destruct (Forall2_nth_error_r _ _ _ _ _ HSR' Hi) as (cell & _ & L & _). exact L. }
  assert (HC : Forall2 (fun cell tri => exists a b c a' b' c', firstn 3 cell = [a; b; c] /\ tri = [a'; b'; c'] /\ (a < length vertices)%nat /\ (b < length vertices)%nat /\ (c < length vertices)%nat /\
      nth_error points a' = nth_error r a /\ nth_error points b' = nth_error r b /\ nth_error points c' = nth_error r c) triangles ts).
  { clear -HSR' H6 HI. induction HSR' as [|cell tri triangles ts [L H] HSR' IH]; [constructor|]. inversion H6; subst. inversion HI as [|? ? HI1 HI2]; subst. constructor; [|auto].
    destruct (len3 (firstn 3 cell)) as (a & b & c & Ec); [now apply firstn3_6|]. destruct (len3 tri L) as (a' & b' & c' & ->). rewrite Ec in H.
    assert (HB : forall x, In x [a; b; c] -> (x < length vertices)%nat) by (intros x Hx; rewrite <- Ec in Hx; apply firstn_In in Hx; rewrite Forall_forall in HI1; auto).
    destruct (H 0%nat a eq_refl) as (x & Ex & Fx). destruct (H 1%nat b eq_refl) as (y & Ey & Fy). destruct (H 2%nat c eq_refl) as (z & Ez & Fz). cbn in Ex, Ey, Ez. injection Ex as <-. injection Ey as <-. injection Ez as <-.
    exists a, b, c, a', b', c'. repeat split; try assumption; apply HB; cbn; tauto. }
  assert (MV : forall n n', (n < length vertices)%nat -> nth_error points n' = nth_error r n -> exists p q, nth_error vertices n = Some p /\ nth_error points n' = Some q /\ moved_by t q p).
  { intros n n' Hn En. destruct (nth_error_lt vertices n Hn) as [p Hp]. destruct (nth_error_lt r n ltac:(now rewrite (moved_length _ _ _ HM))) as [q Hq]. exists p, q. split; [exact Hp|]. split; [congruence|].
    clear -HM Hp Hq. revert n Hp Hq. induction HM as [|x y r rows H HM IH]; intros [|n] Hp Hq; try discriminate; [cbn in Hp, Hq; congruence|eauto]. }
  assert (CO : forall n n' d, (n < length vertices)%nat -> nth_error points n' = nth_error r n -> (d < 2)%nat -> coord points n' d = coord vertices n d + at_ d t).
  { intros n n' d Hn En Hd. rewrite <- (moved_coord t r vertices n d HR HM Hn Hd). unfold coord. f_equal. destruct (nth_error_lt r n ltac:(now rewrite (moved_length _ _ _ HM))) as [q Hq]. rewrite Hq in En. now rewrite (nth_error_nth _ _ _ En), (nth_error_nth _ _ _ Hq). }
  split.
  - eapply F2_impl; [|exact HC]. cbv beta. intros cell tri (a & b & c & a' & b' & c' & Ec & -> & La & Lb & Lc & Ea & Eb & Ee). unfold same_corners. rewrite Ec. repeat constructor; apply MV; assumption.
  - eapply F2_impl; [|exact HC]. cbv beta. intros cell tri (a & b & c & a' & b' & c' & Ec & -> & La & Lb & Lc & Ea & Eb & Ee). rewrite Ec, !area3.
    rewrite !(CO a a'), !(CO b b'), !(CO c c') by (assumption || lia). field.
Qed.
Lemma order_refused : forall vertices triangles subdivide order, vertices <> [] -> rect 2 vertices -> order <> 1%nat -> section_trimesh vertices triangles subdivide order = Err NotImplementedError.
Proof.
  intros vertices triangles subdivide order HN HR HO. destruct (centred vertices HN HR) as (r & t & E & _). unfold section_trimesh. rewrite E. cbn [bind]. destruct (Nat.eqb order 1) eqn:EO; [apply Nat.eqb_eq in EO; contradiction|reflexivity].
Qed.

(** ** The mesh of the pieces *)
Lemma pieces_area points cell : opposite_middles points cell -> map (fun p => polygon_area points (reorder p cell)) path_triobj = repeat (polygon_area points (firstn 3 cell) / 4) 4.
Proof.
  intros (a & b & c & p & q & r & -> & H). destruct (H 0%nat ltac:(lia)) as (P0 & Q0 & R0). destruct (H 1%nat ltac:(lia)) as (P1 & Q1 & R1).
  unfold path_triobj, reorder. cbn [map nth firstn repeat]. rewrite !area3, P0, Q0, R0, P1, Q1, R1. repeat (apply TableProofs3.cons_eq; [field|]). reflexivity.
Qed.
Lemma pieces_fill points cell : opposite_middles points cell -> forall q, in_triangle points (firstn 3 cell) q <-> exists p, In p path_triobj /\ in_triangle points (reorder p cell) q.
Proof.
  intros (a & b & c & p & m & r & -> & H) q. cbn [firstn].
  assert (IN : forall i j k x y z, x + y + z = 1 -> 0 <= x -> 0 <= y -> 0 <= z -> (forall d, (d < 2)%nat -> q d = x * coord points i d + y * coord points j d + z * coord points k d) -> in_triangle points [i; j; k] q).
  { intros i j k x y z S X Y Z Hq. exists x, y, z. split; [|auto]. split; [exact S|]. exists i, j, k. auto. }
  split.
  - intros (x & y & z & (S & i & j & k & E & Hq) & X & Y & Z). injection E as <- <- <-.
    destruct (Rle_lt_dec (1 / 2) x) as [X2|X2]; [|destruct (Rle_lt_dec (1 / 2) y) as [Y2|Y2]; [|destruct (Rle_lt_dec (1 / 2) z) as [Z2|Z2]]].
    + exists [0; 5; 4]%nat. split; [cbn; tauto|]. unfold reorder. cbn [map nth]. apply (IN _ _ _ (2 * x - 1) (2 * y) (2 * z)); try lra. intros d Hd. rewrite (Hq d Hd). destruct (H d Hd) as (Fp & Fm & Fr). rewrite ?Fp, ?Fm, ?Fr. replace x with (1 - y - z) by lra. field.
    + exists [5; 1; 3]%nat. split; [cbn; tauto|]. unfold reorder. cbn [map nth]. apply (IN _ _ _ (2 * x) (2 * y - 1) (2 * z)); try lra. intros d Hd. rewrite (Hq d Hd). destruct (H d Hd) as (Fp & Fm & Fr). rewrite ?Fp, ?Fm, ?Fr. replace y with (1 - x - z) by lra. field.
    + exists [3; 2; 4]%nat. split; [cbn; tauto|]. unfold reorder. cbn [map nth]. apply (IN _ _ _ (2 * y) (2 * z - 1) (2 * x)); try lra. intros d Hd. rewrite (Hq d Hd). destruct (H d Hd) as (Fp & Fm & Fr). rewrite ?Fp, ?Fm, ?Fr. replace z with (1 - x - y) by lra. field.
    + exists [5; 3; 4]%nat. split; [cbn; tauto|]. unfold reorder. cbn [map nth]. apply (IN _ _ _ (1 - 2 * z) (1 - 2 * x) (1 - 2 * y)); try lra. intros d Hd. rewrite (Hq d Hd). destruct (H d Hd) as (Fp & Fm & Fr). rewrite ?Fp, ?Fm, ?Fr. replace z with (1 - x - y) by lra. field.
  - intros (s & Hs & x & y & z & (S & i & j & k & E & Hq) & X & Y & Z). unfold reorder in E.
    destruct Hs as [<-|[<-|[<-|[<-|[]]]]]; cbn [map nth] in E; injection E as <- <- <-.
    + apply (IN _ _ _ (x + y / 2 + z / 2) (y / 2) (z / 2)); try lra. intros d Hd. rewrite (Hq d Hd). destruct (H d Hd) as (Fp & Fm & Fr). rewrite ?Fp, ?Fm, ?Fr. field.
    + apply (IN _ _ _ (x / 2) (y + x / 2 + z / 2) (z / 2)); try lra. intros d Hd. rewrite (Hq d Hd). destruct (H d Hd) as (Fp & Fm & Fr). rewrite ?Fp, ?Fm, ?Fr. field.
    + apply (IN _ _ _ (z / 2) (x / 2) (y + x / 2 + z / 2)); try lra. intros d Hd. rewrite (Hq d Hd). destruct (H d Hd) as (Fp & Fm & Fr). rewrite ?Fp, ?Fm, ?Fr. field.
    + apply (IN _ _ _ (x / 2 + z / 2) (x / 2 + y / 2) (y / 2 + z / 2)); try lra. intros d Hd. rewrite (Hq d Hd). destruct (H d Hd) as (Fp & Fm & Fr). rewrite ?Fp, ?Fm, ?Fr. field.
Qed.
Lemma piece_mesh : forall vertices triangles, vertices <> [] -> rect 2 vertices -> rect 6 triangles -> in_range (length vertices) triangles -> Forall (opposite_middles vertices) triangles ->
  exists points ts t, section_trimesh vertices triangles true 1 = Ok (points, ts) /\ Forall2 (moved_by t) points vertices /\ mean_row 2 points [0; 0] /\ length ts = (4 * length triangles)%nat /\
    forall i cell, nth_error triangles i = Some cell -> exists T : nat -> list nat,
      (forall k, (k < 4)%nat -> nth_error ts (4 * i + k) = Some (T k) /\ polygon_area points (T k) = polygon_area vertices (firstn 3 cell) / 4) /\
      (forall q, in_triangle points (firstn 3 cell) q <-> exists k, (k < 4)%nat /\ in_triangle points (T k) q).
Proof.
  intros vertices triangles HN HR H6 HI HO. destruct (centred vertices HN HR) as (r & t & E & R2 & HM & _ & HZ). exists r, (pieces_along path_triobj triangles), t.
  split; [unfold section_trimesh; rewrite E; cbn [bind Nat.eqb]; unfold T6_to_T3; rewrite (split_pieces_along 0%nat 3 _ None r 6 triangles (PArr path_triobj) path_triobj); [reflexivity|reflexivity|exact H6|SplitProofs.check_path]|].
  split; [exact HM|]. split; [exact HZ|]. assert (LP : forall l, length (pieces_along path_triobj l) = (4 * length l)%nat) by (induction l as [|x l IH]; [reflexivity|unfold pieces_along in *; cbn [flat_map]; rewrite app_length, IH; cbn; lia]). split; [apply LP|].
  assert (MO : forall cell, In cell triangles -> opposite_middles vertices cell -> opposite_middles r cell).
  { intros cell Hc (a & b & c & p & q & m & -> & H). exists a, b, c, p, q, m. split; [reflexivity|]. unfold in_range in HI. rewrite Forall_forall in HI. specialize (HI _ Hc). rewrite Forall_forall in HI.
    intros d Hd. rewrite !(moved_coord t r vertices _ d HR HM) by (try assumption; apply HI; cbn; tauto). destruct (H d Hd) as (-> & -> & ->). repeat split; field. }
  assert (AR : forall cell, In cell triangles -> polygon_area r (firstn 3 cell) = polygon_area vertices (firstn 3 cell)).
  { intros cell Hc. assert (L : length cell = 6%nat) by exact (proj1 (Forall_forall _ _) H6 cell Hc). destruct (len3 (firstn 3 cell) (firstn3_6 _ L)) as (a & b & c & Ec).
    assert (HB : forall x, In x [a; b; c] -> (x < length vertices)%nat) by (intros x Hx; rewrite <- Ec in Hx; apply firstn_In in Hx; unfold in_range in HI; rewrite Forall_forall in HI; specialize (HI _ Hc); rewrite Forall_forall in HI; auto).
    rewrite Ec, !area3. rewrite !(moved_coord t r vertices _ _ HR HM) by (try lia; apply HB; cbn; tauto). field. }
  intros i cell Hi. pose proof (nth_error_In _ _ Hi) as Hc. pose proof (MO cell Hc (proj1 (Forall_forall _ _) HO cell Hc)) as HOr. exists (fun k => reorder (nth k path_triobj []) cell). split.
  - intros k Hk. split.
    + assert (P : forall l i, nth_error l i = Some cell -> nth_error (pieces_along path_triobj l) (4 * i + k) = Some (reorder (nth k path_triobj []) cell)).
      { induction l as [|x l IH]; intros [|j] Hj; try discriminate.
        - cbn in Hj. injection Hj as ->. unfold pieces_along. cbn [flat_map]. rewrite nth_error_app1 by (cbn; lia). rewrite nth_error_map. destruct k as [|[|[|[|k]]]]; [reflexivity..|lia].
        - unfold pieces_along. cbn [flat_map]. rewrite nth_error_app2 by (cbn; lia). change (length (map (fun ns => reorder ns x) path_triobj)) with 4%nat. replace (4 * S j + k - 4)%nat with (4 * j + k)%nat by lia. apply IH. exact Hj. }
      apply P. exact Hi.
    + pose proof (pieces_area r cell HOr) as PA. rewrite (AR cell Hc) in PA. unfold path_triobj in PA. cbn [map repeat] in PA. injection PA as E0 E1 E2 E3. destruct k as [|[|[|[|k]]]]; [exact E0|exact E1|exact E2|exact E3|lia].
  - intros q. rewrite (pieces_fill r cell HOr q). split.
    + intros (p & Hp & Hq). apply (In_nth _ _ []) in Hp. destruct Hp as (k & Hk & <-). exists k. split; [exact Hk|exact Hq].
    + intros (k & Hk & Hq). exists (nth k path_triobj []). split; [apply nth_In; exact Hk|exact Hq].
Qed.
