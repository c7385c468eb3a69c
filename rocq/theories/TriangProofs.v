(** * Proofs about [TriangModel.v] *)
From Coq Require Import Reals List Lia Lra.
From Verif Require Import BaseFacts TrModel TrProofs ShapeProofs NetProofs.
From Verif Require Export TriangSpec.
Import ListNotations.
Local Open Scope R_scope.

Lemma map2_rows : forall (x y : list R), length x = length y -> map2 (fun a b => [a; b]) x y = Ok (map (fun ab => [fst ab; snd ab]) (combine x y)).
Proof.
  induction x as [|a x IH]; intros [|b y] H; try discriminate H; [reflexivity|]. cbn [map2 combine map fst snd]. rewrite IH by (cbn in H; lia). reflexivity.
Qed.
Lemma column_value k p : (k < 2)%nat -> flat p -> column k p = Ok (map (fun r => nth k r 0) p).
Proof.
  intros Hk H. unfold column. apply mapM_map. intros r Hr. unfold flat in H. rewrite Forall_forall in H. specialize (H r Hr).
  apply get_Ok, nth_error_nth'. lia.
Qed.
Lemma flat_rows p : flat p -> map (fun ab => [fst ab; snd ab]) (combine (map (fun r => nth 0 r 0) p) (map (fun r => nth 1 r 0) p)) = map (firstn 2) p.
Proof.
  induction p as [|r p IH]; intros H; [reflexivity|]. inversion H as [|? ? Hr Hp]; subst. cbn [map combine fst snd]. rewrite (IH Hp). f_equal.
  destruct r as [|a [|b r]]; cbn in Hr; try lia. reflexivity.
Qed.
Lemma checked n t : triangles_in n t -> forallb (fun r => Nat.eqb (length r) 3 && forallb (fun k => Nat.ltb k n) r) t = true.
Proof.
  intros H. apply forallb_forall. intros r Hr. unfold triangles_in in H. rewrite Forall_forall in H. destruct (H r Hr) as [L Hn].
  rewrite L. cbn [Nat.eqb andb]. apply forallb_forall. intros k Hk. rewrite Forall_forall in Hn. apply Nat.ltb_lt, Hn, Hk.
Qed.

(** ** Objects *)
Lemma object_data : forall sp mp pv rx ry o b,
  sound_object o -> triangulate sp mp pv rx ry (object_args o b) = Ok (points_of o, Some (triangles_of o), Some o).
Proof.
  intros sp mp pv rx ry o b H. destruct o as [p t|x y t|p t|]; cbn [sound_object] in H; try contradiction; [reflexivity|].
  unfold triangulate. cbn [t_first t_triobj object_args get_triobj_data]. rewrite map2_rows by exact H. reflexivity.
Qed.
Lemma object_kept : forall sp mp pv rx ry o b p t o',
  triangulate sp mp pv rx ry (object_args o b) = Ok (p, t, o') -> o' = Some o.
Proof.
  intros sp mp pv rx ry o b p t o' H. unfold triangulate in H. cbn [t_first t_triobj object_args] in H.
  destruct (get_triobj_data pv o (t_trim2d (object_args o b))) as [d|e]; [|discriminate H]. cbn [bind] in H. congruence.
Qed.
Lemma pv_again : forall sp mp pv rx ry ps f b t,
  pv ps = Ok t -> triangulate sp mp pv rx ry (object_args (Pv ps f) b) = Ok (points_of (Pv ps f), Some t, Some (Pv ps f)).
Proof.
  intros sp mp pv rx ry ps f b t H. unfold triangulate. cbn [t_first t_triobj t_trim2d object_args get_triobj_data points_of]. rewrite H. reflexivity.
Qed.
Lemma to_mpl : forall sp mp pv rx ry o,
  sound_object o -> flat (points_of o) -> triangles_in (length (points_of o)) (triangles_of o) ->
  exists o', triobj_to_mpl sp mp pv rx ry o = Ok (Some o') /\ backend_of o' = Some BMpl /\ points_of o' = map (firstn 2) (points_of o) /\ triangles_of o' = triangles_of o.
Proof.
  intros sp mp pv rx ry o HS HF HT. destruct o as [p t|x y t|p t|]; cbn [sound_object] in HS; try contradiction.
  - exists (Mpl (map (fun r => nth 0 r 0) p) (map (fun r => nth 1 r 0) p) t). cbn [points_of triangles_of backend_of] in *.
    split; [|split; [reflexivity|split; [now apply flat_rows|reflexivity]]].
    unfold triobj_to_mpl. cbn [is_triobj guard bind get_triobj_data fst snd]. unfold triangulate. cbn [t_first t_triobj t_points t_triangles t_backend guard bind].
    rewrite !column_value by (assumption || lia). cbn [bind]. unfold mpl_triangulation. rewrite !map_length, Nat.eqb_refl. cbn [guard bind].
    rewrite (checked _ _ HT). reflexivity.
  - exists (Mpl x y t). split; [reflexivity|]. split; [reflexivity|]. split; [|reflexivity]. cbn [points_of]. rewrite map_map. apply map_ext. intros [a b]. reflexivity.
Qed.
Lemma pv_to_mpl : forall sp mp pv rx ry ps f t,
  flat ps -> pv ps = Ok t -> triangles_in (length ps) t ->
  exists o', triobj_to_mpl sp mp pv rx ry (Pv ps f) = Ok (Some o') /\ backend_of o' = Some BMpl /\ points_of o' = points_of (Pv ps f) /\ triangles_of o' = t.
Proof.
  intros sp mp pv rx ry ps f t HF HP HT. set (q := map (firstn 2) ps). assert (Hq : flat q).
  { unfold flat, q in *. rewrite Forall_forall in *. intros r Hr. apply in_map_iff in Hr as (r0 & <- & Hr). specialize (HF r0 Hr). rewrite firstn_length. lia. }
  exists (Mpl (map (fun r => nth 0 r 0) q) (map (fun r => nth 1 r 0) q) t). split; [|split; [reflexivity|split; [|reflexivity]]].
  - unfold triobj_to_mpl. cbn [is_triobj guard bind get_triobj_data]. rewrite HP. cbn [bind fst snd]. fold q.
    unfold triangulate. cbn [t_first t_triobj t_points t_triangles t_backend guard bind].
    rewrite !column_value by (assumption || lia). cbn [bind]. unfold mpl_triangulation. rewrite !map_length, Nat.eqb_refl. cbn [guard bind].
    rewrite (checked (length q) t) by (unfold q; rewrite map_length; exact HT). reflexivity.
  - cbn [points_of]. rewrite (flat_rows q Hq). unfold q. rewrite map_map. apply map_ext. intros r. rewrite firstn_firstn. reflexivity.
Qed.
Lemma unknown_object : forall sp mp pv rx ry b,
  triangulate sp mp pv rx ry (object_args NoTriobj b) = Err RuntimeError /\ triobj_to_mpl sp mp pv rx ry NoTriobj = Err AssertionError /\ is_triobj NoTriobj = Nothing.
Proof. repeat split. Qed.
Lemma first_argument : forall sp mp pv rx ry o a,
  t_first a = Some o -> sound_object o -> triangulate sp mp pv rx ry a = Ok (points_of o, Some (triangles_of o), Some o).
Proof.
  intros sp mp pv rx ry o a Ha H. unfold triangulate. rewrite Ha. destruct o as [p t|x y t|p t|]; cbn [sound_object] in H; try contradiction; cbn [is_triobj get_triobj_data]; [reflexivity|].
  rewrite map2_rows by exact H. reflexivity.
Qed.

(** ** Points *)
Lemma points_data : forall sp mp pv rx ry p b t,
  flat p -> found_by sp mp pv b p = Ok t ->
  exists o, triangulate sp mp pv rx ry (points_args p b) = Ok (p, Some t, Some o) /\ backend_of o = Some b /\
    points_of o = map (firstn 2) p /\ triangles_of o = t /\ get_triobj_data pv o true = Ok (map (firstn 2) p, t).
Proof.
  intros sp mp pv rx ry p b t HF HT. unfold triangulate. destruct b; cbn [found_by] in HT; try discriminate HT; cbn [t_first t_triobj t_points t_triangles t_backend points_args].
  - eexists. cbn [bind]. rewrite !column_value by (assumption || lia). cbn [bind]. rewrite HT. cbn [bind]. split; [reflexivity|]. split; [reflexivity|].
    split; [now apply flat_rows|]. split; [reflexivity|]. cbn [get_triobj_data]. rewrite map2_rows by (now rewrite !map_length). cbn [bind]. now rewrite flat_rows.
  - eexists. cbn [bind]. rewrite HT. cbn [bind]. repeat split.
  - eexists. cbn [bind]. rewrite HT. cbn [bind]. split; [reflexivity|]. split; [reflexivity|]. split; [reflexivity|]. split; [reflexivity|]. cbn [get_triobj_data]. rewrite HT. reflexivity.
Qed.
Lemma points_fail : forall sp mp pv rx ry p b e,
  flat p -> b <> BOther -> found_by sp mp pv b p = Err e -> triangulate sp mp pv rx ry (points_args p b) = Err e.
Proof.
  intros sp mp pv rx ry p b e HF Hb HT. unfold triangulate. destruct b; cbn [found_by] in HT; try contradiction; cbn [t_first t_triobj t_points t_triangles t_backend points_args bind].
  - rewrite !column_value by (assumption || lia). cbn [bind]. rewrite HT. reflexivity.
  - rewrite HT. reflexivity.
  - rewrite HT. reflexivity.
Qed.
Lemma lines_data : forall sp mp pv rx ry a p t o,
  triangulate sp mp pv rx ry a = Ok (p, Some t, o) -> Forall (fun r => (3 <= length r)%nat) t ->
  exists e ids, triangulate_lines sp mp pv rx ry a = Ok (p, e, Some t, ids, o) /\ edges_of t e ids.
Proof.
  intros sp mp pv rx ry a p t o H H3. destruct (mesh_edges_ok t H3) as (e & ids & E & He). exists e, ids. unfold triangulate_lines. rewrite H. cbn [bind]. rewrite E. split; [reflexivity|exact He].
Qed.
Lemma given_mpl : forall sp mp pv rx ry p t,
  flat p -> triangles_in (length p) t ->
  exists o, triangulate sp mp pv rx ry (given_args p t BMpl) = Ok (p, Some t, Some o) /\ backend_of o = Some BMpl /\ points_of o = map (firstn 2) p /\ triangles_of o = t.
Proof.
  intros sp mp pv rx ry p t HF HT. exists (Mpl (map (fun r => nth 0 r 0) p) (map (fun r => nth 1 r 0) p) t).
  split; [|split; [reflexivity|split; [now apply flat_rows|reflexivity]]].
  unfold triangulate. cbn [t_first t_triobj t_points t_triangles t_backend given_args guard bind]. rewrite !column_value by (assumption || lia). cbn [bind].
  unfold mpl_triangulation. rewrite !map_length, Nat.eqb_refl. cbn [guard bind]. rewrite (checked _ _ HT). reflexivity.
Qed.
Lemma given_other : forall sp mp pv rx ry p t b, b <> BMpl -> triangulate sp mp pv rx ry (given_args p t b) = Err AssertionError.
Proof. intros sp mp pv rx ry p t b Hb. destruct b; [contradiction|reflexivity..]. Qed.
Lemma unknown_backend : forall sp mp pv rx ry p,
  triangulate sp mp pv rx ry (points_args p BOther) = Ok (p, None, None) /\ triangulate_lines sp mp pv rx ry (points_args p BOther) = Err TypeError.
Proof. repeat split. Qed.
Lemma positional : forall sp mp pv rx ry a,
  t_first a = Some NoTriobj -> t_triobj a = None -> t_points a = None -> t_size a = None -> triangulate sp mp pv rx ry a = Err AssertionError.
Proof. intros sp mp pv rx ry a H1 H2 H3 H4. unfold triangulate. rewrite H1. cbn [is_triobj]. rewrite H2, H3. unfold make_points. rewrite H4. reflexivity. Qed.

(** ** Random points *)
Lemma map2_value {A B C} (f : A -> B -> C) : forall l k, length l = length k -> map2 f l k = Ok (map (fun ab => f (fst ab) (snd ab)) (combine l k)).
Proof. induction l as [|x l IH]; intros [|y k] H; try discriminate H; [reflexivity|]. cbn [map2 combine map fst snd]. rewrite IH by (cbn in H; lia). reflexivity. Qed.
Lemma random_points : forall rx ry lx ly n ox oy oz,
  random_numbers rx -> random_numbers ry -> 0 < lx -> 0 < ly ->
  exists ps, make_points rx ry (rectangle_args lx ly (ShapeInt n) [ox; oy; oz] true) =
      Ok ([[- ox; - oy; - oz]; [lx - ox; - oy; - oz]; [lx - ox; ly - oy; - oz]; [- ox; ly - oy; - oz]] ++ ps) /\ length ps = n /\
    Forall (fun p => exists x y, p = [x; y; - oz] /\ - ox <= x < lx - ox /\ - oy <= y < ly - oy) ps.
Proof.
  intros rx ry lx ly n ox oy oz Hx Hy Lx Ly. destruct (Hx n) as [Nx Fx]. destruct (Hy n) as [Ny Fy].
  exists (map (fun ab => [fst ab * lx - ox; snd ab * ly - oy; 0 - oz]) (combine (rx n) (ry n))). split; [|split].
  - unfold make_points. cbn [t_size t_shape t_random t_origo rectangle_args length Nat.eqb get nth_error bind].
    rewrite map2_value by (rewrite !app_length; cbn [length]; lia). cbn [combine app map fst snd]. do 2 f_equal; [f_equal; [ring|f_equal; [ring|f_equal; ring]]|].
    f_equal; [f_equal; [ring|f_equal; [ring|f_equal; ring]]|]. f_equal; [f_equal; [ring|f_equal; [ring|f_equal; ring]]|].
    f_equal. f_equal; [ring|f_equal; [ring|f_equal; ring]].
  - rewrite map_length, combine_length. lia.
  - apply Forall_forall. intros p Hp. apply in_map_iff in Hp as ([a b] & <- & Hab). cbn [fst snd]. rewrite Forall_forall in Fx, Fy.
    specialize (Fx a (in_combine_l _ _ _ _ Hab)). specialize (Fy b (in_combine_r _ _ _ _ Hab)). exists (a * lx - ox), (b * ly - oy).
    split; [f_equal; f_equal; f_equal; ring|]. split; split; nra.
Qed.
Lemma heights : forall rx ry lx ly n nx ny ox oy oz p ps q qs,
  random_numbers rx -> random_numbers ry -> oz <> 0 ->
  make_points rx ry (rectangle_args lx ly (ShapeInt n) [ox; oy; oz] true) = Ok (p :: ps) ->
  make_points rx ry (rectangle_args lx ly (Shape2 nx ny) [ox; oy; oz] true) = Ok (q :: qs) ->
  nth 2 p 0 = - oz /\ nth 2 q 0 = 0.
Proof.
  intros rx ry lx ly n nx ny ox oy oz p ps q qs Hx Hy Hz H1 H2. destruct (Hx n) as [Nx _]. destruct (Hy n) as [Ny _]. split.
  - unfold make_points in H1. cbn [t_size t_shape t_random t_origo rectangle_args length Nat.eqb get nth_error bind] in H1.
    rewrite map2_value in H1 by (rewrite !app_length; cbn [length]; lia). cbn [combine app map fst snd] in H1. injection H1 as <- _. cbn [nth]. ring.
  - unfold make_points in H2. cbn [t_size t_shape t_random t_origo rectangle_args] in H2. unfold rectangle_points in H2. cbn [length Nat.eqb get nth_error bind] in H2.
    injection H2 as H2. assert (Hq : In q (q :: qs)) by (left; reflexivity). rewrite <- H2 in Hq. apply in_flat_map in Hq as (y & _ & Hq). apply in_map_iff in Hq as (x & <- & _). reflexivity.
Qed.
