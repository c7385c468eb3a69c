(** * Proofs about [ExtrudeModel.v], part 4: common faces *)
From Coq Require Import Reals Lra Lia List Psatz.
From Verif Require Import BaseFacts FillFacts TrModel TrProofs EvalProofs ShapeProofs2 ShapeProofs4 TriProofs NodalProofs4 ExtrudeModel ExtrudeSpec ExtrudeProofs ExtrudeProofs2 ExtrudeProofs3.
Import ListNotations.
Local Open Scope R_scope.

(** weights as a function of the node *)
Definition wt (i j k : nat) (a b c : R) (v : nat) : R := (if Nat.eqb v i then a else 0) + (if Nat.eqb v j then b else 0) + (if Nat.eqb v k then c else 0).

Lemma NoDup_app' {A} (l l' : list A) : NoDup l -> NoDup l' -> (forall x, In x l -> ~ In x l') -> NoDup (l ++ l').
Proof.
  induction l as [|x l IH]; intros H H' HD; [exact H'|]. inversion H as [|? ? Hx Hl]; subst. cbn. constructor.
  - rewrite in_app_iff. intros [Hin|Hin]; [contradiction|]. apply (HD x); [now left|exact Hin].
  - apply IH; auto. intros y Hy. apply HD. now right.
Qed.
Lemma sum_support (g : nat -> R) n : forall l, NoDup l -> (forall u, In u l -> (u < n)%nat) -> (forall u, ~ In u l -> g u = 0) -> rsum (map g (seq 0 n)) = rsum (map g l).
Proof.
  intros l HN HL H0. set (rest := filter (fun u => negb (if in_dec Nat.eq_dec u l then true else false)) (seq 0 n)).
  assert (HP : Permutation (seq 0 n) (l ++ rest)).
  { apply NoDup_Permutation; [apply seq_NoDup| |].
    - apply NoDup_app'; [exact HN|apply NoDup_filter, seq_NoDup|]. intros u Hu Hr. apply filter_In in Hr. destruct Hr as [_ Hr]. destruct (in_dec Nat.eq_dec u l); [discriminate|contradiction].
    - intros u. rewrite in_app_iff. unfold rest. rewrite filter_In, in_seq. split.
      + intros Hu. destruct (in_dec Nat.eq_dec u l); [now left|right; split; [exact Hu|reflexivity]].
      + intros [Hu|[Hu _]]; [specialize (HL u Hu); lia|exact Hu]. }
  rewrite (rsum_permutation _ _ (Permutation_map g HP)), map_app, rsum_app.
  assert (Hr : rsum (map g rest) = 0).
  { rewrite (rsum_const g rest 0); [ring|]. intros u Hu. apply filter_In in Hu. destruct Hu as [_ Hu]. destruct (in_dec Nat.eq_dec u l); [discriminate|now apply H0]. }
  rewrite Hr. ring.
Qed.

Lemma sum_agree (g : nat -> R) l l' : NoDup l -> NoDup l' -> (forall u, g u <> 0 -> In u l /\ In u l') -> rsum (map g l) = rsum (map g l').
Proof.
  intros HN HN' H. set (n := S (fold_right max 0%nat (l ++ l'))).
  assert (Hmax : forall k u, In u k -> (u <= fold_right max 0%nat k)%nat) by (induction k as [|x k IH]; intros u Hu; [destruct Hu|]; destruct Hu as [->|Hu]; cbn; [lia|specialize (IH u Hu); lia]).
  rewrite <- (sum_support g n l), <- (sum_support g n l'); auto.
  - intros u Hu. unfold n. specialize (Hmax (l ++ l') u ltac:(apply in_app_iff; now right)). lia.
  - intros u Hu. destruct (Req_dec (g u) 0) as [E|E]; [exact E|]. now apply H in E.
  - intros u Hu. unfold n. specialize (Hmax (l ++ l') u ltac:(apply in_app_iff; now left)). lia.
  - intros u Hu. destruct (Req_dec (g u) 0) as [E|E]; [exact E|]. now apply H in E.
Qed.

Lemma wt_out i j k a b c v : ~ In v [i; j; k] -> wt i j k a b c v = 0.
Proof. intros H. unfold wt. cbn in H. destruct (Nat.eqb_spec v i); [subst; tauto|]. destruct (Nat.eqb_spec v j); [subst; tauto|]. destruct (Nat.eqb_spec v k); [subst; tauto|]. ring. Qed.
Lemma wt_in i j k a b c : i <> j -> i <> k -> j <> k -> wt i j k a b c i = a /\ wt i j k a b c j = b /\ wt i j k a b c k = c.
Proof.
  intros H1 H2 H3. unfold wt. rewrite !Nat.eqb_refl. destruct (Nat.eqb_spec i j); [contradiction|]. destruct (Nat.eqb_spec i k); [contradiction|]. destruct (Nat.eqb_spec j i); [congruence|]. destruct (Nat.eqb_spec j k); [contradiction|]. destruct (Nat.eqb_spec k i); [congruence|]. destruct (Nat.eqb_spec k j); [congruence|]. repeat split; ring.
Qed.

Lemma sum3 (g : nat -> R) i j k : rsum (map g [i; j; k]) = g i + g j + g k.
Proof. cbn. ring. Qed.

(** ** Weights in two triangles with a common point *)

Lemma same_weights points triangles s t q i j k a b c i' j' k' a' b' c' : conforming_plane points triangles -> In s triangles -> In t triangles -> s = [i; j; k] -> t = [i'; j'; k'] ->
  NoDup s -> NoDup t -> tri_area points s <> 0 -> tri_area points t <> 0 ->
  tri_weights points s q a b c -> 0 <= a -> 0 <= b -> 0 <= c -> tri_weights points t q a' b' c' -> 0 <= a' -> 0 <= b' -> 0 <= c' ->
  (forall v, wt i j k a b c v = wt i' j' k' a' b' c' v) /\ (forall v, wt i j k a b c v <> 0 -> In v s /\ In v t).
Proof.
  intros HC Hs Ht Es Et Ns Nt As At HW Pa Pb Pc HW' Pa' Pb' Pc'.
  destruct (HC s t q Hs Ht) as (x & y & z & HX & HIn); [do 3 eexists; split; [exact HW|auto]|do 3 eexists; split; [exact HW'|auto]|].
  destruct (weights_unique points s q _ _ _ _ _ _ As HX HW) as (-> & -> & ->).
  assert (D : i <> j /\ i <> k /\ j <> k) by (subst s; inversion Ns as [|? ? N1 N2]; subst; inversion N2 as [|? ? N3 N4]; subst; cbn in *; repeat split; intros ->; tauto).
  assert (D' : i' <> j' /\ i' <> k' /\ j' <> k') by (subst t; inversion Nt as [|? ? N1 N2]; subst; inversion N2 as [|? ? N3 N4]; subst; cbn in *; repeat split; intros ->; tauto).
  destruct D as (D1 & D2 & D3). destruct D' as (D1' & D2' & D3'). destruct (wt_in i j k a b c D1 D2 D3) as (Wi & Wj & Wk).
  set (f := wt i j k a b c) in *.
  assert (Supp : forall v, f v <> 0 -> In v s /\ In v t).
  { intros v Hv. assert (Hin : In v s) by (destruct (in_dec Nat.eq_dec v s) as [H|H]; [exact H|exfalso; apply Hv; subst s; unfold f; now apply wt_out]). split; [exact Hin|].
    subst s. destruct Hin as [<-|[<-|[<-|[]]]].
    - apply (HIn 0%nat a i); auto. now rewrite <- Wi.
    - apply (HIn 1%nat b j); auto. now rewrite <- Wj.
    - apply (HIn 2%nat c k); auto. now rewrite <- Wk. }
  split; [|exact Supp].
  assert (HF : tri_weights points t q (f i') (f j') (f k')).
  { split.
    - rewrite <- (sum3 f i' j' k'). rewrite <- Et. rewrite <- (sum_agree f s t Ns Nt Supp). rewrite Es, sum3, Wi, Wj, Wk. destruct HW as (S & _). exact S.
    - exists i', j', k'. split; [exact Et|]. intros d Hd. destruct HW as (S & i0 & j0 & k0 & E0 & H0). rewrite Es in E0. injection E0 as <- <- <-. rewrite (H0 d Hd).
      rewrite <- (sum3 (fun v => f v * coord points v d) i' j' k'). rewrite <- Et. rewrite <- (sum_agree (fun v => f v * coord points v d) s t Ns Nt); [rewrite Es, sum3, Wi, Wj, Wk; reflexivity|].
      intros u Hu. apply Supp. intros E. apply Hu. rewrite E. ring. }
  destruct (weights_unique points t q _ _ _ _ _ _ At HF HW') as (Ea & Eb & Ec). destruct (wt_in i' j' k' a' b' c' D1' D2' D3') as (Wi' & Wj' & Wk').
  intros v. destruct (in_dec Nat.eq_dec v t) as [Hin|Hin].
  - rewrite Et in Hin. destruct Hin as [<-|[<-|[<-|[]]]]; congruence.
  - rewrite (wt_out i' j' k' a' b' c' v) by (now rewrite <- Et). destruct (Req_dec (f v) 0) as [E|E]; [exact E|]. exfalso. apply Hin. now apply Supp.
Qed.

(** ** Weights in the tetrahedra of a prism: the mass is lifted node by node, the last node of the triangle first *)

Definition clamp (x y : R) : R := Rmax 0 (Rmin x y).
Lemma clamp_lo x y : x <= 0 -> clamp x y = 0.
Proof. intros H. unfold clamp, Rmax, Rmin. destruct (Rle_dec x y); destruct (Rle_dec 0 _); lra. Qed.
Lemma clamp_hi x y : 0 <= y -> y <= x -> clamp x y = y.
Proof. intros H1 H2. unfold clamp, Rmax, Rmin. destruct (Rle_dec x y); destruct (Rle_dec 0 _); lra. Qed.
Lemma clamp_mid x y : 0 <= x -> x <= y -> clamp x y = x.
Proof. intros H1 H2. unfold clamp, Rmax, Rmin. destruct (Rle_dec x y); destruct (Rle_dec 0 _); lra. Qed.

(** mass of the nodes after [v] *)
Definition above (rank : nat -> nat) (f : nat -> R) (t : list nat) (v : nat) : R := rsum (map (fun u => if (rank v <? rank u)%nat then f u else 0) t).
(** weight of node [v] in the upper and in the lower layer *)
Definition upper (rank : nat -> nat) (f : nat -> R) (t : list nat) (s : R) (v : nat) : R := clamp (s - above rank f t v) (f v).
Definition lower (rank : nat -> nat) (f : nat -> R) (t : list nat) (s : R) (v : nat) : R := f v - upper rank f t s v.

Lemma above3 rank f i j k : (rank i < rank j < rank k)%nat -> above rank f [i; j; k] i = f j + f k /\ above rank f [i; j; k] j = f k /\ above rank f [i; j; k] k = 0.
Proof.
  intros H. unfold above. cbn [map]. destruct (Nat.ltb_spec (rank i) (rank i)); [lia|]. destruct (Nat.ltb_spec (rank i) (rank j)); [|lia]. destruct (Nat.ltb_spec (rank i) (rank k)); [|lia].
  destruct (Nat.ltb_spec (rank j) (rank i)); [lia|]. destruct (Nat.ltb_spec (rank j) (rank j)); [lia|]. destruct (Nat.ltb_spec (rank j) (rank k)); [|lia].
  destruct (Nat.ltb_spec (rank k) (rank i)); [lia|]. destruct (Nat.ltb_spec (rank k) (rank j)); [lia|]. destruct (Nat.ltb_spec (rank k) (rank k)); [lia|]. cbn. repeat split; ring.
Qed.

Lemma row_weights rank nP n i j k kk l0 l1 l2 l3 : (rank i < rank j < rank k)%nat -> (kk < 3)%nat -> 0 <= l0 -> 0 <= l1 -> 0 <= l2 -> 0 <= l3 -> l0 + l1 + l2 + l3 = 1 ->
  let '(a, b, c, s) := tri_of kk l0 l1 l2 l3 in let f := wt i j k a b c in
  0 <= a /\ 0 <= b /\ 0 <= c /\ 0 <= s <= 1 /\
  (forall p l N, nth_error [l0; l1; l2; l3] p = Some l -> nth_error (tet_rows nP n [i; j; k] kk) p = Some N ->
    exists v, In v [i; j; k] /\ ((N = lift nP n v /\ l = lower rank f [i; j; k] s v) \/ (N = lift nP (n + 1) v /\ l = upper rank f [i; j; k] s v))) /\
  (forall v, In v [i; j; k] -> (lower rank f [i; j; k] s v <> 0 -> In (lift nP n v) (tet_rows nP n [i; j; k] kk)) /\ (upper rank f [i; j; k] s v <> 0 -> In (lift nP (n + 1) v) (tet_rows nP n [i; j; k] kk))).
Proof.
  intros HR Hk P0 P1 P2 P3 HS. assert (D : i <> j /\ i <> k /\ j <> k) by (repeat split; intros ->; lia). destruct D as (D1 & D2 & D3).
  destruct (tri_of kk l0 l1 l2 l3) as [[[a b] c] s] eqn:E. destruct (wt_in i j k a b c D1 D2 D3) as (Wi & Wj & Wk). cbv zeta. set (f := wt i j k a b c) in *. destruct (above3 rank f i j k HR) as (Ai & Aj & Ak).
  assert (Ui : upper rank f [i; j; k] s i = clamp (s - (b + c)) a) by (unfold upper; now rewrite Ai, Wi, Wj, Wk).
  assert (Uj : upper rank f [i; j; k] s j = clamp (s - c) b) by (unfold upper; now rewrite Aj, Wj, Wk).
  assert (Uk : upper rank f [i; j; k] s k = clamp (s - 0) c) by (unfold upper; now rewrite Ak, Wk).
  assert (Li : lower rank f [i; j; k] s i = a - clamp (s - (b + c)) a) by (unfold lower; now rewrite Ui, Wi).
  assert (Lj : lower rank f [i; j; k] s j = b - clamp (s - c) b) by (unfold lower; now rewrite Uj, Wj).
  assert (Lk : lower rank f [i; j; k] s k = c - clamp (s - 0) c) by (unfold lower; now rewrite Uk, Wk).
  destruct kk as [|[|[|kk]]]; [| | |lia]; cbn [tri_of] in E; injection E as <- <- <- <-.
  - rewrite clamp_lo in Ui, Li by lra. rewrite clamp_lo in Uj, Lj by lra. rewrite clamp_mid in Uk, Lk by lra. split; [lra|]. split; [lra|]. split; [lra|]. split; [lra|]. split.
    + intros p l N Hl HN. destruct p as [|[|[|[|p]]]]; cbn in Hl, HN; try (destruct p; discriminate); injection Hl as <-; injection HN as <-.
      * exists i. split; [cbn; auto|]. left. split; [reflexivity|]. rewrite Li. lra.
      * exists j. split; [cbn; auto|]. left. split; [reflexivity|]. rewrite Lj. lra.
      * exists k. split; [cbn; auto|]. left. split; [reflexivity|]. rewrite Lk. lra.
      * exists k. split; [cbn; auto|]. right. split; [reflexivity|]. rewrite Uk. lra.
    + intros v [<-|[<-|[<-|[]]]]; (split; intros HV; [try (cbn; tauto)|]); [rewrite Ui in HV; lra|rewrite Uj in HV; lra|cbn; auto].
  - rewrite clamp_lo in Ui, Li by lra. rewrite clamp_mid in Uj, Lj by lra. rewrite clamp_hi in Uk, Lk by lra. split; [lra|]. split; [lra|]. split; [lra|]. split; [lra|]. split.
    + intros p l N Hl HN. destruct p as [|[|[|[|p]]]]; cbn in Hl, HN; try (destruct p; discriminate); injection Hl as <-; injection HN as <-.
      * exists i. split; [cbn; auto|]. left. split; [reflexivity|]. rewrite Li. lra.
      * exists j. split; [cbn; auto|]. left. split; [reflexivity|]. rewrite Lj. lra.
      * exists k. split; [cbn; auto|]. right. split; [reflexivity|]. rewrite Uk. lra.
      * exists j. split; [cbn; auto|]. right. split; [reflexivity|]. rewrite Uj. lra.
    + intros v [<-|[<-|[<-|[]]]]; (split; intros HV); [cbn; auto|rewrite Ui in HV; lra|cbn; auto|cbn; auto|rewrite Lk in HV; lra|cbn; auto].
  - rewrite clamp_mid in Ui, Li by lra. rewrite clamp_hi in Uj, Lj by lra. rewrite clamp_hi in Uk, Lk by lra. split; [lra|]. split; [lra|]. split; [lra|]. split; [lra|]. split.
    + intros p l N Hl HN. destruct p as [|[|[|[|p]]]]; cbn in Hl, HN; try (destruct p; discriminate); injection Hl as <-; injection HN as <-.
      * exists i. split; [cbn; auto|]. left. split; [reflexivity|]. rewrite Li. lra.
      * exists j. split; [cbn; auto|]. right. split; [reflexivity|]. rewrite Uj. lra.
      * exists k. split; [cbn; auto|]. right. split; [reflexivity|]. rewrite Uk. lra.
      * exists i. split; [cbn; auto|]. right. split; [reflexivity|]. rewrite Ui. lra.
    + intros v [<-|[<-|[<-|[]]]]; (split; intros HV); [cbn; auto|cbn; auto|rewrite Lj in HV; lra|cbn; auto|rewrite Lk in HV; lra|cbn; auto].
Qed.

Lemma layer_cases i i' s s' h m : (0 < m)%nat -> h <> 0 -> 0 <= s <= 1 -> 0 <= s' <= 1 -> z_at h m i + s * (h / INR m) = z_at h m i' + s' * (h / INR m) ->
  (i = i' /\ s = s') \/ ((i + 1)%nat = i' /\ s = 1 /\ s' = 0) \/ (i = (i' + 1)%nat /\ s = 0 /\ s' = 1).
Proof.
  intros Hm Hh Hs Hs' E. assert (Hp : INR m <> 0) by (apply not_0_INR; lia). assert (Hd : h / INR m <> 0) by (unfold Rdiv; apply Rmult_integral_contrapositive_currified; [exact Hh|now apply Rinv_neq_0_compat]).
  assert (E' : INR i + s = INR i' + s').
  { apply (Rmult_eq_reg_r (h / INR m)); [|exact Hd]. unfold z_at in E. replace ((INR i + s) * (h / INR m)) with (h * INR i / INR m + s * (h / INR m)) by (field; exact Hp). rewrite E. field. exact Hp. }
  destruct (lt_eq_lt_dec i i') as [[Hlt|He]|Hgt].
  - right; left. assert (INR (S i) <= INR i') by (apply le_INR; lia). rewrite S_INR in H. assert (INR i' = INR (i + 1)) by (rewrite plus_INR; cbn; lra). apply INR_eq in H0. split; [lia|lra].
  - left. subst i'. split; [reflexivity|lra].
  - right; right. assert (INR (S i') <= INR i) by (apply le_INR; lia). rewrite S_INR in H. assert (INR i = INR (i' + 1)) by (rewrite plus_INR; cbn; lra). apply INR_eq in H0. split; [lia|lra].
Qed.

Lemma area_nodup points i j k : tri_area points [i; j; k] <> 0 -> i <> j /\ i <> k /\ j <> k.
Proof. rewrite tri_area3. intros H. repeat split; intros ->; apply H; field. Qed.

Lemma before3 u v i j k : before u v [i; j; k] -> (u = i /\ v = j) \/ (u = i /\ v = k) \/ (u = j /\ v = k).
Proof.
  intros (p & q & Hpq & Hp & Hq). destruct p as [|[|[|p]]]; cbn in Hp; try (destruct p; discriminate); destruct q as [|[|[|q]]]; cbn in Hq; try lia; try (destruct q; discriminate); injection Hp as <-; injection Hq as <-; auto.
Qed.

(** position in a list *)
Fixpoint pos (v : nat) (t : list nat) : nat := match t with [] => 0 | x :: r => if Nat.eqb x v then 0 else S (pos v r) end.
Lemma pos_nth v t : In v t -> nth_error t (pos v t) = Some v.
Proof. induction t as [|x t IH]; intros H; [destruct H|]. cbn. destruct (Nat.eqb_spec x v); [now subst|]. cbn. apply IH. destruct H; [contradiction|assumption]. Qed.
Lemma pos_before v u t : In v t -> In u t -> (pos v t < pos u t)%nat -> before v u t.
Proof. intros Hv Hu H. exists (pos v t), (pos u t). repeat split; auto using pos_nth. Qed.
Lemma pos_inj v u t : In v t -> In u t -> pos v t = pos u t -> v = u.
Proof. intros Hv Hu E. apply pos_nth in Hv, Hu. rewrite E in Hv. congruence. Qed.
Lemma pos3 i j k : i <> j -> i <> k -> j <> k -> (pos i [i; j; k] < pos j [i; j; k] < pos k [i; j; k])%nat.
Proof.
  intros H1 H2 H3. cbn. rewrite !Nat.eqb_refl. destruct (Nat.eqb_spec i j); [contradiction|]. destruct (Nat.eqb_spec i k); [contradiction|]. destruct (Nat.eqb_spec j k); [contradiction|]. lia.
Qed.

Lemma tets_conforming points triangles h m coords : layered points h m coords -> (0 < m)%nat -> h <> 0 -> triangles_of (length points) triangles -> solid_triangles points triangles -> conforming_plane points triangles -> same_order triangles ->
  conforming coords (tets (length points) triangles m).
Proof.
  intros HL Hm Hh HT HA HC HO A B p HInA HInB (l0 & l1 & l2 & l3 & HB & P0 & P1 & P2 & P3) (l0' & l1' & l2' & l3' & HB' & P0' & P1' & P2' & P3').
  apply In_nth_error in HInA. destruct HInA as [na Hna]. apply tets_inv in Hna. destruct Hna as (ia & ja & ta & ka & Hia & Hja & Hka & _ & ->). apply nth_error_In in Hja.
  apply In_nth_error in HInB. destruct HInB as [nb Hnb]. apply tets_inv in Hnb. destruct Hnb as (ib & jb & tb & kb & Hib & Hjb & Hkb & _ & ->). apply nth_error_In in Hjb.
  pose proof (proj1 (Forall_forall _ _) HT _ Hja) as Ta. pose proof (proj1 (Forall_forall _ _) HT _ Hjb) as Tb. pose proof (proj1 (Forall_forall _ _) HA _ Hja) as Aa. pose proof (proj1 (Forall_forall _ _) HA _ Hjb) as Ab. cbn beta in Aa, Ab.
  exists l0, l1, l2, l3. split; [exact HB|].
  pose proof (bary_tri points h m coords HL ia ta ka p _ _ _ _ Hia Ta Hka HB) as W. pose proof (bary_tri points h m coords HL ib tb kb p _ _ _ _ Hib Tb Hkb HB') as W'.
  destruct (three _ _ Ta) as (i & j & k & -> & _). destruct (three _ _ Tb) as (i' & j' & k' & -> & _).
  destruct (area_nodup _ _ _ _ Aa) as (D1 & D2 & D3). destruct (area_nodup _ _ _ _ Ab) as (D1' & D2' & D3').
  set (rank := fun v => pos v [i; j; k]). set (rank' := fun v => pos v [i'; j'; k']).
  assert (Ra : (rank i < rank j < rank k)%nat) by now apply pos3. assert (Rb : (rank' i' < rank' j' < rank' k')%nat) by now apply pos3.
  pose proof HB as (S & _). pose proof HB' as (S' & _).
  pose proof (row_weights rank (length points) ia i j k ka l0 l1 l2 l3 Ra Hka P0 P1 P2 P3 S) as Q. pose proof (row_weights rank' (length points) ib i' j' k' kb l0' l1' l2' l3' Rb Hkb P0' P1' P2' P3' S') as Q'.
  destruct (tri_of ka l0 l1 l2 l3) as [[[a b] c] s]. destruct (tri_of kb l0' l1' l2' l3') as [[[a' b'] c'] s']. destruct W as [W Z]. destruct W' as [W' Z']. cbv zeta in Q, Q'. destruct Q as (Pa & Pb & Pc & Ps & Q1 & _). destruct Q' as (Pa' & Pb' & Pc' & Ps' & _ & Q2).
  assert (Nd : NoDup [i; j; k]) by (repeat constructor; cbn; intros H; repeat (destruct H as [H|H]; [subst; lia|]); exact H).
  assert (Nd' : NoDup [i'; j'; k']) by (repeat constructor; cbn; intros H; repeat (destruct H as [H|H]; [subst; lia|]); exact H).
  destruct (same_weights points triangles [i; j; k] [i'; j'; k'] p i j k a b c i' j' k' a' b' c' HC Hja Hjb eq_refl eq_refl Nd Nd' Aa Ab W Pa Pb Pc W' Pa' Pb' Pc') as [SW Supp].
  set (f := wt i j k a b c) in *. set (f' := wt i' j' k' a' b' c') in *.
  assert (AB : forall v, f v <> 0 -> above rank f [i; j; k] v = above rank' f' [i'; j'; k'] v).
  { intros v Hfv. destruct (Supp v Hfv) as [Hv Hv']. unfold above. rewrite (sum_agree (fun u => if (rank v <? rank u)%nat then f u else 0) [i; j; k] [i'; j'; k'] Nd Nd').
    - apply rsum_ext. intros u Hu. rewrite <- SW. destruct (Req_dec (f u) 0) as [E|E]; [rewrite E; now destruct (rank v <? rank u)%nat, (rank' v <? rank' u)%nat|].
      destruct (Supp u E) as [Hu1 _]. destruct (Nat.ltb_spec (rank v) (rank u)) as [L|L]; destruct (Nat.ltb_spec (rank' v) (rank' u)) as [L'|L']; try reflexivity; exfalso.
      + assert (v <> u) by (intros ->; lia). assert (rank' v <> rank' u) by (intros Q; apply H; now apply pos_inj in Q). apply (HO [i; j; k] [i'; j'; k'] v u Hja Hjb); apply pos_before; auto. fold (rank' u) (rank' v). lia.
      + assert (v <> u) by (intros ->; lia). assert (rank v <> rank u) by (intros Q; apply H; now apply pos_inj in Q). apply (HO [i; j; k] [i'; j'; k'] u v Hja Hjb); apply pos_before; auto. fold (rank u) (rank v). lia.
    - intros u Hu. apply Supp. destruct (rank v <? rank u)%nat; [exact Hu|now exfalso]. }
  assert (UP : forall x v, f v <> 0 -> upper rank f [i; j; k] x v = upper rank' f' [i'; j'; k'] x v) by (intros x v H; unfold upper; now rewrite (AB v H), SW).
  assert (LO : forall x v, f v <> 0 -> lower rank f [i; j; k] x v = lower rank' f' [i'; j'; k'] x v) by (intros x v H; unfold lower; now rewrite (UP x v H), SW).
  destruct (wt_in i j k a b c D1 D2 D3) as (Wi & Wj & Wk). fold f in Wi, Wj, Wk. destruct (above3 rank f i j k Ra) as (Ai & Aj & Ak).
  assert (S1 : a + b + c = 1) by (destruct W as (S1 & _); exact S1).
  assert (FB : forall v, In v [i; j; k] -> 0 <= f v /\ 0 <= above rank f [i; j; k] v /\ f v <= 1 - above rank f [i; j; k] v) by (intros v [<-|[<-|[<-|[]]]]; rewrite ?Ai, ?Aj, ?Ak, ?Wi, ?Wj, ?Wk; lra).
  assert (U0 : forall v, In v [i; j; k] -> upper rank f [i; j; k] 0 v = 0) by (intros v Hv; destruct (FB v Hv) as (F1 & F2 & F3); unfold upper; apply clamp_lo; lra).
  assert (U1 : forall v, In v [i; j; k] -> upper rank f [i; j; k] 1 v = f v) by (intros v Hv; destruct (FB v Hv) as (F1 & F2 & F3); unfold upper; apply clamp_hi; lra).
  intros pos l N Hl HN Hnz. destruct (Q1 pos l N Hl HN) as (v & Hv & O).
  assert (Hfv : f v <> 0).
  { destruct (FB v Hv) as (F1 & F2 & F3). intros E. destruct O as [[_ ->]|[_ ->]]; apply Hnz; unfold lower, upper; rewrite E; unfold clamp, Rmax, Rmin; destruct (Rle_dec _ 0); destruct (Rle_dec 0 _); lra. }
  assert (Hv' : In v [i'; j'; k']) by now apply Supp. destruct (Q2 v Hv') as [QL QU]. rewrite Z in Z'.
  destruct (layer_cases ia ib s s' h m Hm Hh Ps Ps' Z') as [[-> ->]|[(<- & -> & ->)|(-> & -> & ->)]].
  - destruct O as [[-> ->]|[-> ->]]; [apply QL; now rewrite <- LO by exact Hfv|apply QU; now rewrite <- UP by exact Hfv].
  - destruct O as [[-> ->]|[-> ->]].
    + exfalso. apply Hnz. unfold lower. rewrite (U1 v Hv). ring.
    + apply QL. rewrite <- LO by exact Hfv. unfold lower. rewrite (U0 v Hv). intros E. apply Hfv. lra.
  - destruct O as [[-> ->]|[-> ->]].
    + apply QU. rewrite <- UP, (U1 v Hv) by exact Hfv. exact Hfv.
    + exfalso. apply Hnz. now apply U0.
Qed.

Lemma tet4_conforming : forall points triangles h m, plane_points points -> triangles_of (length points) triangles -> (0 < m)%nat -> h <> 0 ->
  solid_triangles points triangles -> conforming_plane points triangles -> same_order triangles ->
  exists coords topo, extrude_T3_TET4 Floating points triangles h m = Ok (coords, topo) /\ conforming coords topo.
Proof.
  intros points triangles h m HP HT Hm Hh HA HC HO. exists (layers Floating points h m), (tets (length points) triangles m). split; [now apply tet4_value|]. apply (tets_conforming points triangles h m); auto. now apply layers_layered.
Qed.
