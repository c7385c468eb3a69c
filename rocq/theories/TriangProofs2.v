(** * Proofs about [TriangModel.v]: constructors of meshes *)
From Coq Require Import Reals List Lia Lra.
From Verif Require Import BaseFacts TrModel TrProofs ElevProofs2 ShapeProofs NetProofs.
From Verif Require Export TriangProofs.
Import ListNotations.
Local Open Scope R_scope.

Lemma ncols_rect {A} w (t : list (list A)) : t <> [] -> rect w t -> ncols t = w.
Proof. intros Ht H. destruct t as [|r t]; [contradiction|]. exact (Forall_inv H). Qed.
Lemma mesh_given : forall sp mp pv rx ry p t c a lines,
  t <> [] -> rect 3 t /\ (c = None \/ c = Some ClsT3) \/ rect 6 t /\ (c = None \/ c = Some ClsT6) ->
  TriMesh_init sp mp pv rx ry (Some p) (Some t) None None c a lines = Ok (Some p, t).
Proof.
  intros sp mp pv rx ry p t c a lines Ht [[Hr Hc]|[Hr Hc]]; unfold TriMesh_init; cbn [bind fst snd]; rewrite (ncols_rect _ t Ht Hr); destruct Hc as [-> | ->]; cbn [Nat.eqb nnode andb bind fst snd]; rewrite (ncols_rect _ t Ht Hr); reflexivity.
Qed.
Lemma mesh_elevated : forall sp mp pv rx ry p t dim a lines,
  t <> [] -> is_mesh 3 dim p t ->
  exists p' t', TriMesh_init sp mp pv rx ry (Some p) (Some t) None None (Some ClsT6) a lines = Ok (Some p', t') /\ elevated dim plan_T6 p t p' t'.
Proof.
  intros sp mp pv rx ry p t dim a lines Ht Hm. destruct (T3_to_T6_ok dim p t Hm) as (p' & t' & E & HE). exists p', t'. split; [|exact HE].
  pose proof (el_cells _ _ _ _ _ _ HE) as L. assert (R6 : ncols t' = 6%nat).
  { destruct t as [|r t]; [contradiction|]. destruct (el_nodes _ _ _ _ _ _ HE 0%nat r eq_refl) as (r' & Hr' & L6 & _). destruct t' as [|r0 t']; [discriminate L|]. cbn in Hr'. injection Hr' as ->. exact L6. }
  unfold TriMesh_init. cbn [bind fst snd]. destruct Hm as (_ & Hr & _). rewrite (ncols_rect 3 t Ht Hr). cbn [Nat.eqb nnode andb].
  rewrite E. cbn [bind fst snd]. rewrite R6. reflexivity.
Qed.
Lemma mesh_triangulated : forall sp mp pv rx ry a p t o c,
  t_triangles a = None -> triangulate sp mp pv rx ry a = Ok (p, Some t, o) -> t <> [] -> rect 3 t -> c = None \/ c = Some ClsT3 ->
  TriMesh_init sp mp pv rx ry (t_points a) None None None c a false = Ok (Some p, t).
Proof.
  intros sp mp pv rx ry a p t o c Ha HT Ht Hr Hc. unfold TriMesh_init.
  assert (E : {| t_first := t_first a; t_points := match t_points a with Some p => Some p | None => None end; t_size := t_size a; t_shape := t_shape a; t_origo := t_origo a;
     t_backend := t_backend a; t_random := t_random a; t_triangles := None; t_triobj := t_triobj a; t_trim2d := t_trim2d a |} = a).
  { destruct a as [f1 f2 f3 f4 f5 f6 f7 f8 f9 f10]; cbn in *. subst. destruct f2; reflexivity. }
  rewrite E, HT. cbn [bind fst snd]. rewrite (ncols_rect 3 t Ht Hr). destruct Hc as [-> | ->]; cbn [Nat.eqb nnode andb bind fst snd]; rewrite (ncols_rect 3 t Ht Hr); reflexivity.
Qed.
Lemma mesh_failed : forall sp mp pv rx ry a e c,
  t_triangles a = None -> triangulate sp mp pv rx ry a = Err e -> TriMesh_init sp mp pv rx ry (t_points a) None None None c a false = Err RuntimeError.
Proof.
  intros sp mp pv rx ry a e c Ha HT. unfold TriMesh_init.
  assert (E : {| t_first := t_first a; t_points := match t_points a with Some p => Some p | None => None end; t_size := t_size a; t_shape := t_shape a; t_origo := t_origo a;
     t_backend := t_backend a; t_random := t_random a; t_triangles := None; t_triobj := t_triobj a; t_trim2d := t_trim2d a |} = a).
  { destruct a as [f1 f2 f3 f4 f5 f6 f7 f8 f9 f10]; cbn in *. subst. destruct f2; reflexivity. }
  rewrite E, HT. reflexivity.
Qed.
Lemma mesh_aliases : forall sp mp pv rx ry points triangles coords topo c a lines,
  coords <> None \/ topo <> None -> exists e, TriMesh_init sp mp pv rx ry points triangles coords topo c a lines = Err e.
Proof.
  intros sp mp pv rx ry points triangles coords topo c a lines H. unfold TriMesh_init.
  match goal with |- exists e, bind ?x ?f = _ => destruct x as [[q t]|e]; [cbn [bind fst snd]|exists e; reflexivity] end.
  destruct t as [t|]; [|eexists; reflexivity].
  match goal with |- exists e, match ?x with Some _ => _ | None => _ end = _ => destruct x as [c'|]; [|eexists; reflexivity] end.
  match goal with |- exists e, bind ?x ?f = _ => destruct x as [qt|e]; [cbn [bind fst snd]|exists e; reflexivity] end.
  destruct (Nat.eqb (ncols (snd qt)) (nnode c')); [|eexists; reflexivity]. cbn [guard bind].
  destruct coords, topo; try (eexists; reflexivity). destruct H as [H|H]; contradiction.
Qed.
Lemma mesh_coords_topo : forall sp mp pv rx ry p t a lines,
  t <> [] -> rect 3 t -> TriMesh_init sp mp pv rx ry None None (Some p) (Some t) None a lines = Err TypeError.
Proof.
  intros sp mp pv rx ry p t a lines Ht Hr. unfold TriMesh_init. cbn [bind fst snd]. rewrite (ncols_rect 3 t Ht Hr). cbn [Nat.eqb nnode andb bind fst snd]. rewrite (ncols_rect 3 t Ht Hr). reflexivity.
Qed.
Lemma mesh_copy : forall sp mp pv rx ry, TriMesh_copy sp mp pv rx ry = Err RuntimeError /\ TetMesh_copy = Err AssertionError.
Proof. repeat split. Qed.
Lemma mesh_from_data : forall sp mp pv rx ry c a,
  t_first a = Some NoTriobj -> t_triobj a = None -> t_size a = None -> TriMesh_init sp mp pv rx ry None None None None c a false = Err RuntimeError.
Proof.
  intros sp mp pv rx ry c a H1 H2 H3. unfold TriMesh_init, triangulate. cbn [t_first t_triobj t_points t_triangles t_backend]. rewrite H1. cbn [is_triobj]. rewrite H2. cbn [bind].
  unfold make_points. cbn [t_size t_shape t_random t_origo]. rewrite H3. reflexivity.
Qed.
Lemma mesh_other_width : forall sp mp pv rx ry p t c a lines,
  t <> [] -> rect 6 t -> c = Some ClsT3 -> TriMesh_init sp mp pv rx ry (Some p) (Some t) None None c a lines = Err AssertionError.
Proof.
  intros sp mp pv rx ry p t c a lines Ht Hr ->. unfold TriMesh_init. cbn [bind fst snd]. rewrite (ncols_rect 6 t Ht Hr). cbn [Nat.eqb nnode andb bind fst snd]. rewrite (ncols_rect 6 t Ht Hr). reflexivity.
Qed.
Lemma tets : forall c t w, t <> [] -> rect w t -> TetMesh_init (Some c) (Some t) = Ok c /\ (TetMesh_init None (Some t) = if Nat.eqb w 4 then Ok 4%nat else Err AssertionError).
Proof. intros c t w Ht Hr. split; [reflexivity|]. unfold TetMesh_init. rewrite (ncols_rect w t Ht Hr). reflexivity. Qed.
