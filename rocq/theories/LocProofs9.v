(** * Proofs about [LocModel.v], part 9: positions of local points *)
From Coq Require Import Reals Lra Lia List.
From Verif Require Import LocModel LocSpec QuadSpec BaseFacts TrModel TrProofs ElevProofs ShapeSpec ShapeProofs3 ShapeProofs4 TriProofs3 LocProofs3 LocProofs4.
Import ListNotations.
Local Open Scope R_scope.

(** ** combinations of rows *)
Lemma vecmat_value : forall d (w : list R) (rows : list (list R)), length w = length rows -> rows <> [] -> rect d rows ->
  exists v, vecmat w rows = Ok v /\ length v = d /\ forall a, at_ a v = dot w (map (fun p => nth a p 0) rows).
Proof.
  intros d w rows HL HN HR. destruct rows as [|r rows]; [easy|]. destruct w as [|w0 w]; [discriminate HL|]. injection HL as HL. inversion HR as [|? ? Hr HR']; subst.
  assert (E : map2 (fun s row => vscale s row) w rows = Ok (map (fun sr => vscale (fst sr) (snd sr)) (combine w rows))) by now apply map2_combine.
  unfold vecmat. cbn [map2]. rewrite E. cbn [bind vsum].
  assert (HR2 : rect (length r) (map (fun sr => vscale (fst sr) (snd sr)) (combine w rows))).
  { apply Forall_forall. intros row Hrow. apply in_map_iff in Hrow. destruct Hrow as ((s & p) & <- & H). cbn [fst snd]. rewrite vscale_length.
    unfold rect in HR'. rewrite Forall_forall in HR'. apply HR'. now apply in_combine_r in H. }
  destruct (vsum_R (length r) _ (vscale w0 r) (vscale_length w0 r) HR2) as (v & Ev & Hv & Hn). exists v. split; [exact Ev|]. split; [assumption|]. intros a. unfold at_. rewrite Hn, vscale_nth.
  unfold dot, rsum. cbn [map combine fold_right fst snd]. f_equal. rewrite map_map. clear.
  revert rows. induction w as [|x w IH]; intros [|p rows]; try reflexivity. cbn [map combine fold_right fst snd]. rewrite IH, vscale_nth. reflexivity.
Qed.
Lemma comb_loop : forall d (ec : list (list R)) (s : list R) preE preS acc, length preE = length preS -> length ec = length s -> rect d ec -> length acc = d ->
  exists v, foldM (fun acc i => do p <- get (preE ++ ec) i; do w <- get (preS ++ s) i; vadd acc (vscale w p)) (seq (length preE) (length ec)) acc = Ok v /\ length v = d /\
    forall a, at_ a v = at_ a acc + dot s (map (fun p => nth a p 0) ec).
Proof.
  intros d ec. induction ec as [|p ec IH]; intros [|w s] preE preS acc HP HL HR HA; try discriminate HL.
  - exists acc. split; [reflexivity|]. split; [assumption|]. intros a. unfold dot, rsum. cbn. lra.
  - inversion HR as [|? ? Hp HR']; subst. cbn [length seq foldM].
    assert (G1 : get (preE ++ p :: ec) (length preE) = Ok p) by (apply get_Ok; rewrite nth_error_app2 by lia; now rewrite Nat.sub_diag).
    assert (G2 : get (preS ++ w :: s) (length preE) = Ok w) by (apply get_Ok; rewrite nth_error_app2 by lia; now rewrite HP, Nat.sub_diag).
    rewrite G1. cbn [bind]. rewrite G2. cbn [bind].
    destruct (vadd_R (length acc) acc (vscale w p) eq_refl) as (acc' & E' & L' & N'); [rewrite vscale_length; congruence|]. rewrite E'. cbn [bind].
    destruct (IH s (preE ++ [p]) (preS ++ [w]) acc') as (v & Ev & Lv & Nv); [rewrite !app_length; cbn; lia|now injection HL|assumption|congruence|].
    rewrite app_length, Nat.add_1_r in Ev. rewrite <- !app_assoc in Ev. exists v. split; [exact Ev|]. split; [congruence|].
    intros a. rewrite Nv. unfold at_ at 1. rewrite N', vscale_nth. unfold at_, dot, rsum. cbn [map combine fold_right fst snd]. lra.
Qed.
Lemma comb_value : forall d (ec : list (list R)) (s : list R), length ec = length s -> rect d ec -> ec <> [] ->
  exists v, foldM (fun acc i => do p <- get ec i; do w <- get s i; vadd acc (vscale w p)) (seq 0 (length ec)) (repeat 0 (ncols ec)) = Ok v /\ length v = d /\
    forall a, at_ a v = dot s (map (fun p => nth a p 0) ec).
Proof.
  intros d ec s HL HR HN. destruct (comb_loop d ec s [] [] (repeat 0 (ncols ec)) eq_refl HL HR) as (v & E & L & N).
  { rewrite repeat_length. now apply rect_ncols. }
  exists v. split; [exact E|]. split; [assumption|]. intros a. rewrite N. unfold at_. rewrite nth_repeat. lra.
Qed.

Lemma mapM_Forall2 : forall {A B} (f : A -> res B) (P : A -> B -> Prop) l, (forall x, In x l -> exists y, f x = Ok y /\ P x y) -> exists r, mapM f l = Ok r /\ Forall2 P l r.
Proof.
  intros A B f P l. induction l as [|x l IH]; intros H; [exists []; split; [reflexivity|constructor]|].
  destruct (H x (or_introl eq_refl)) as (y & E & Hy). destruct IH as (r & Er & Hr); [intros z Hz; apply H; now right|].
  exists (y :: r). cbn [mapM]. rewrite E. cbn [bind]. rewrite Er. split; [reflexivity|now constructor].
Qed.
Lemma Forall2_weak : forall {A B} (P Q : A -> B -> Prop) l r, (forall a b, P a b -> Q a b) -> Forall2 P l r -> Forall2 Q l r.
Proof. intros A B P Q l r H F. induction F; constructor; auto. Qed.
Lemma mesh_cells : forall coords topo ecs d n, mesh_at coords topo ecs -> rect d coords -> rect n topo -> forall ec, In ec ecs -> length ec = n /\ rect d ec.
Proof.
  intros coords topo ecs d n HM HC HT ec He. apply In_nth_error in He. destruct He as (i & Hi). destruct (Forall2_nth_error_r _ _ _ _ _ HM Hi) as (c & Hc & HN).
  split; [rewrite (nodes_length _ _ _ HN); unfold rect in HT; rewrite Forall_forall in HT; apply HT; now apply nth_error_In with i|].
  apply Forall_forall. intros p Hp. apply In_nth_error in Hp. destruct Hp as (k & Hk). destruct (Forall2_nth_error_r _ _ _ _ _ HN Hk) as (m & Hm & Hp).
  unfold rect in HC. rewrite Forall_forall in HC. apply HC. now apply nth_error_In with m.
Qed.

Section Local.
  Context (shpfnc : list R -> res (list R)) (coords : list (list R)) (topo : list (list nat)) (ecs : list (list (list R))) (x : list (list R)) (n d : nat).
  Context (Hm : mesh_at coords topo ecs) (Hn : rect n topo) (Hd : rect d coords) (H0 : (0 < n)%nat).
  Context (Hshp : forall p, In p x -> exists N, shpfnc p = Ok N /\ length N = n).

  Lemma points_at_correct : exists r, points_of_cells_at shpfnc coords topo x = Ok r /\
    Forall2 (fun ec rows => Forall2 (fun p v => dim d v /\ forall a, (a < d)%nat -> at_ a v = position shpfnc ec a p) x rows) ecs r.
  Proof using Hm Hn Hd H0 Hshp.
    destruct (mapM_Forall2 shpfnc (fun p N => shpfnc p = Ok N /\ length N = n) x) as (shp & Es & Fs).
    { intros p Hp. destruct (Hshp p Hp) as (N & E & L). eauto. }
    unfold points_of_cells_at. rewrite (proj1 (mesh_mapM _ _ _) Hm). cbn [bind]. rewrite Es. cbn [bind]. unfold pcoords_to_coords.
    apply mapM_Forall2. intros ec He. destruct (mesh_cells _ _ _ _ _ Hm Hd Hn ec He) as (HL & HR).
    assert (HN : ec <> []) by (destruct ec; [cbn in HL; lia|discriminate]). clear Es He. induction Fs as [|p N x' shp' (EN & LN) Fs IH]; [exists []; split; [reflexivity|constructor]|].
    destruct IH as (rows & Er & Fr); [intros q Hq; apply Hshp; now right|].
    destruct (comb_value d ec N ltac:(congruence) HR HN) as (v & Ev & Lv & Nv). exists (v :: rows). cbn [mapM]. rewrite Ev. cbn [bind]. rewrite Er. split; [reflexivity|].
    constructor; [|assumption]. split; [assumption|]. intros a _. rewrite Nv. unfold position. now rewrite EN.
  Qed.

  (** the matrix with the values of the shape functions *)
  Context (shp : list (list R)) (Es : mapM shpfnc x = Ok shp).
  Lemma shp_rect : rect n shp.
  Proof using Hshp Es.
    apply Forall_forall. intros N HN. apply In_nth_error in HN. destruct HN as (i & Hi). destruct (mapM_nth_error_r _ _ _ _ _ Es Hi) as (p & Hp & E).
    destruct (Hshp p (nth_error_In _ _ Hp)) as (N' & E' & L). congruence.
  Qed.
  Lemma transpose_value : x <> [] -> exists T, transpose shp = Ok T /\ length T = n /\ rect (length x) T /\
    forall i j row, nth_error T j = Some row -> (i < length x)%nat -> nth i row 0 = nth j (nth i shp []) 0.
  Proof using Hshp Es.
    intros HX. pose proof (mapM_length _ _ _ Es) as HL. assert (HS : shp <> []) by (destruct shp; [destruct x; [easy|discriminate HL]|discriminate]).
    pose proof (rect_ncols _ _ shp_rect HS) as HC. unfold transpose. rewrite HC.
    destruct (mapM_Forall2 (fun j => mapM (fun row => get row j) shp) (fun j r => length r = length shp /\ forall i, (i < length shp)%nat -> nth i r 0 = nth j (nth i shp []) 0) (seq 0 n)) as (T & ET & FT).
    { intros j Hj. apply in_seq in Hj. pose proof shp_rect as HR. clear - Hj HR. induction shp as [|row shp' IH]; [exists []; split; [reflexivity|]; split; [reflexivity|]; intros i Hi; cbn in Hi; lia|].
      inversion HR as [|? ? Hrow HR']; subst. destruct (IH HR') as (r & Er & Lr & Nr). destruct (nth_error_lt row j ltac:(lia)) as (v & Hv).
      exists (v :: r). cbn [mapM]. rewrite (proj2 (get_Ok _ _ _) Hv). cbn [bind]. rewrite Er. split; [reflexivity|]. split; [cbn; congruence|].
      intros [|i] Hi; cbn [nth]; [symmetry; now apply nth_error_nth|apply Nr; cbn in Hi; lia]. }
    exists T. split; [exact ET|]. split; [rewrite (mapM_length _ _ _ ET); apply seq_length|]. split.
    - apply Forall_forall. intros r Hr. apply In_nth_error in Hr. destruct Hr as (j & Hj). destruct (Forall2_nth_error_r _ _ _ _ _ FT Hj) as (j' & _ & L & _). congruence.
    - intros i j row Hr Hi. destruct (Forall2_nth_error_r _ _ _ _ _ FT Hr) as (j' & Hj & _ & N). apply nth_error_seq_some in Hj. destruct Hj as (-> & _). apply N. congruence.
  Qed.

  (** the number of points must be the number of nodes *)
  Lemma loc_to_glob_raises : topo <> [] -> x <> [] -> length x <> n -> loc_to_glob shpfnc coords topo x = Err ValueError.
  Proof using Hm Hn Hd H0 Hshp Es.
    intros HT HX Hneq. destruct (transpose_value HX) as (T & ET & LT & RT & _). unfold loc_to_glob. rewrite Es. cbn [bind]. rewrite (proj1 (mesh_mapM _ _ _) Hm). cbn [bind]. rewrite ET. cbn [bind].
    unfold loc_to_glob_bulk. destruct ecs as [|ec ecs']; [inversion Hm; subst; easy|]. cbn [mapM].
    rewrite (rect_ncols _ _ RT) by (destruct T; [cbn in LT; lia|discriminate]). rewrite LT. replace (Nat.eqb n (length x)) with false by (symmetry; apply Nat.eqb_neq; congruence). reflexivity.
  Qed.
  (** what is computed then: the points take the place of the nodes *)
  Lemma loc_to_glob_value : length x = n -> exists r, loc_to_glob shpfnc coords topo x = Ok r /\
    Forall2 (fun ec rows => length rows = n /\ forall j v, nth_error rows j = Some v -> dim d v /\
       forall a, (a < d)%nat -> at_ a v = dot (map (fun N => nth j N 0) shp) (map (fun p => nth a p 0) ec)) ecs r.
  Proof using Hm Hn Hd H0 Hshp Es.
    intros Heq. assert (HX : x <> []) by (intros ->; cbn in Heq; lia). destruct (transpose_value HX) as (T & ET & LT & RT & NT). unfold loc_to_glob. rewrite Es. cbn [bind]. rewrite (proj1 (mesh_mapM _ _ _) Hm). cbn [bind]. rewrite ET. cbn [bind].
    unfold loc_to_glob_bulk. apply mapM_Forall2. intros ec He. destruct (mesh_cells _ _ _ _ _ Hm Hd Hn ec He) as (HL & HR).
    rewrite (rect_ncols _ _ RT) by (destruct T; [cbn in LT; lia|discriminate]). rewrite LT, Heq, Nat.eqb_refl. cbn [guard bind].
    assert (HN : ec <> []) by (destruct ec; [cbn in HL; lia|discriminate]). unfold matmul.
    destruct (mapM_Forall2 (fun row => vecmat row ec) (fun row v => length v = d /\ forall a, at_ a v = dot row (map (fun p => nth a p 0) ec)) T) as (r & Er & Fr).
    { intros row Hrow. unfold rect in RT. rewrite Forall_forall in RT. destruct (vecmat_value d row ec) as (v & Ev & Lv & Nv); [rewrite (RT row Hrow); congruence|assumption|assumption|]. eauto. }
    exists r. split; [exact Er|]. split; [rewrite (mapM_length _ _ _ Er); assumption|].
    intros j v Hv. destruct (Forall2_nth_error_r _ _ _ _ _ Fr Hv) as (row & Hrow & Lv & Nv). split; [assumption|]. intros a _. rewrite Nv. f_equal.
    assert (Lrow : length row = length x) by (unfold rect in RT; rewrite Forall_forall in RT; apply RT; now apply nth_error_In with j).
    pose proof (mapM_length _ _ _ Es) as HL'. apply nth_error_ext. intros i. destruct (le_lt_dec (length x) i) as [Hi|Hi].
    - rewrite !nth_error_ge by (rewrite ?map_length; lia). reflexivity.
    - destruct (nth_error_lt row i ltac:(lia)) as (w & Hw). destruct (nth_error_lt shp i ltac:(lia)) as (N & HN'). rewrite (map_nth_error _ _ _ HN'), Hw. f_equal.
      rewrite <- (nth_error_nth _ _ 0 Hw), (NT i j row Hrow Hi). now rewrite (nth_error_nth _ _ _ HN').
  Qed.
  (** right if the matrix is symmetric *)
  Lemma loc_to_glob_symmetric : length x = n -> (forall i j, (i < n)%nat -> (j < n)%nat -> nth j (nth i shp []) 0 = nth i (nth j shp []) 0) ->
    exists r, loc_to_glob shpfnc coords topo x = Ok r /\
    Forall2 (fun ec rows => Forall2 (fun p v => dim d v /\ forall a, (a < d)%nat -> at_ a v = position shpfnc ec a p) x rows) ecs r.
  Proof using Hm Hn Hd H0 Hshp Es.
    intros Heq HS. destruct (loc_to_glob_value Heq) as (r & E & F). exists r. split; [exact E|]. eapply Forall2_weak; [|exact F].
    intros ec rows (HL & HV). pose proof (mapM_length _ _ _ Es) as HL'.
    assert (K : forall (l : list (list R)) (r : list (list R)) (P : list R -> list R -> Prop), length r = length l -> (forall i a b, nth_error l i = Some a -> nth_error r i = Some b -> P a b) -> Forall2 P l r).
    { clear. induction l as [|a l IH]; intros [|b r] P HL H; try discriminate HL; constructor; [now apply (H 0%nat)|]. apply IH; [now injection HL|]. intros i. apply (H (S i)). }
    apply K; [congruence|]. intros j p v Hp Hv. destruct (HV j v Hv) as (HD & HA). split; [assumption|]. intros a Ha. rewrite (HA a Ha). unfold position.
    destruct (mapM_nth_error _ _ _ _ _ Es Hp) as (N & HN & EN). rewrite EN. f_equal. pose proof (nth_error_Some_lt _ _ _ Hp) as Hj.
    pose proof shp_rect as HRS. unfold rect in HRS. rewrite Forall_forall in HRS. pose proof (HRS N (nth_error_In _ _ HN)) as LN.
    apply nth_error_ext. intros i. destruct (le_lt_dec (length x) i) as [Hi|Hi].
    - rewrite !nth_error_ge by (rewrite ?map_length; lia). reflexivity.
    - destruct (nth_error_lt N i ltac:(lia)) as (w & Hw). destruct (nth_error_lt shp i ltac:(lia)) as (M & HM'). rewrite (map_nth_error _ _ _ HM'), Hw. f_equal.
      rewrite <- (nth_error_nth _ _ 0 Hw). specialize (HS i j ltac:(lia) ltac:(lia)). rewrite (nth_error_nth _ _ _ HM'), (nth_error_nth _ _ _ HN) in HS. exact HS.
  Qed.
End Local.

(** two local points at the first end of a line *)
Lemma loc_to_glob_line : forall p q : R, p <> q ->
  exists v w, loc_to_glob shp_L2 [[p]; [q]] [[0; 1]%nat] [[-1]; [-1]] = Ok [[v; w]] /\
    position shp_L2 [[p]; [q]] 0 [-1] = p /\ (at_ 0 v <> p \/ at_ 0 w <> p).
Proof.
  intros p q Hpq.
  assert (Es : mapM shp_L2 [[-1]; [-1]] = Ok [[(1 - -1) / 2; (1 + -1) / 2]; [(1 - -1) / 2; (1 + -1) / 2]]).
  { unfold shp_L2. cbn [mapM bind]. numR. reflexivity. }
  destruct (loc_to_glob_value shp_L2 [[p]; [q]] [[0; 1]%nat] [[[p]; [q]]] [[-1]; [-1]] 2 1) with (shp := [[(1 - -1) / 2; (1 + -1) / 2]; [(1 - -1) / 2; (1 + -1) / 2]])
    as (r & E & F); try reflexivity; try lia.
  - repeat constructor.
  - repeat constructor.
  - repeat constructor.
  - intros z [<-|[<-|[]]]; eexists; (split; [reflexivity|reflexivity]).
  - inversion F as [|? rows ? l (HL & HV) Fl]; subst. inversion Fl; subst. destruct rows as [|v [|w [|]]]; try discriminate HL.
    exists v, w. split; [exact E|]. split.
    + unfold position, shp_L2. numR. unfold dot, rsum. cbn [map combine fold_right fst snd nth]. lra.
    + destruct (HV 1%nat w eq_refl) as (_ & Hw). destruct (HV 0%nat v eq_refl) as (_ & Hv). specialize (Hv 0%nat ltac:(lia)). specialize (Hw 0%nat ltac:(lia)).
      unfold dot, rsum in Hv, Hw. cbn [map combine fold_right fst snd nth] in Hv, Hw.
      destruct (Req_EM_T p 0) as [->|Hp]; [left; intros G; apply Hpq; lra|right; intros G; apply Hp; lra].
Qed.
