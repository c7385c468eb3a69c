(** * Properties C145 to C147: triangulations, triangulation objects, constructors of triangle and tetrahedral meshes *)
From Coq Require Import Reals List Lia Lra.
From Verif Require Import TrModel TriangModel TriangSpec TriangProofs TriangProofs2.
Import ListNotations.
Local Open Scope R_scope.

(** ** C145 Triangulating points *)

(** The points that are given, the triangles the package finds for them and an object of the package with these points and triangles, whatever the packages find.  Missing: other names of packages (refuted below). *)
Theorem C145_partial :
  forall sp mp pv rx ry p b t,
  flat p -> found_by sp mp pv b p = Ok t ->
  exists o, triangulate sp mp pv rx ry (points_args p b) = Ok (p, Some t, Some o) /\ backend_of o = Some b /\
    points_of o = map (firstn 2) p /\ triangles_of o = t /\ get_triobj_data pv o true = Ok (map (firstn 2) p, t).
Proof. exact @points_data. Qed.
Print Assumptions C145_partial.
(** Exceptions of the package are passed on. *)
Theorem C145_fail :
  forall sp mp pv rx ry p b e,
  flat p -> b <> BOther -> found_by sp mp pv b p = Err e -> triangulate sp mp pv rx ry (points_args p b) = Err e.
Proof. exact @points_fail. Qed.
Print Assumptions C145_fail.
(** With lines: the edges of the triangles and the numbers of their sides. *)
Theorem C145_lines :
  forall sp mp pv rx ry a p t o,
  triangulate sp mp pv rx ry a = Ok (p, Some t, o) -> Forall (fun r => (3 <= length r)%nat) t ->
  exists e ids, triangulate_lines sp mp pv rx ry a = Ok (p, e, Some t, ids, o) /\ edges_of t e ids.
Proof. exact @lines_data. Qed.
Print Assumptions C145_lines.
(** Points and triangles that are given are put into an object of matplotlib.  Missing: the other packages (refuted next). *)
Theorem C145_given_partial :
  forall sp mp pv rx ry p t,
  flat p -> triangles_in (length p) t ->
  exists o, triangulate sp mp pv rx ry (given_args p t BMpl) = Ok (p, Some t, Some o) /\ backend_of o = Some BMpl /\ points_of o = map (firstn 2) p /\ triangles_of o = t.
Proof. exact @given_mpl. Qed.
Print Assumptions C145_given_partial.
(** For the other packages it is an error, although the function should create an object according to the argument backend. *)
Theorem C145_given_refuted :
  forall sp mp pv rx ry p t b, b <> BMpl -> triangulate sp mp pv rx ry (given_args p t b) = Err AssertionError.
Proof. exact @given_other. Qed.
Print Assumptions C145_given_refuted.
(** An unknown name is accepted: no triangles and no object are returned, or a TypeError is raised if lines are wanted. *)
Theorem C145_backend_refuted :
  forall sp mp pv rx ry p,
  triangulate sp mp pv rx ry (points_args p BOther) = Ok (p, None, None) /\ triangulate_lines sp mp pv rx ry (points_args p BOther) = Err TypeError.
Proof. exact @unknown_backend. Qed.
Print Assumptions C145_backend_refuted.
(** Points as first positional argument are ignored. *)
Theorem C145_positional_refuted :
  forall sp mp pv rx ry a,
  t_first a = Some NoTriobj -> t_triobj a = None -> t_points a = None -> t_size a = None -> triangulate sp mp pv rx ry a = Err AssertionError.
Proof. exact @positional. Qed.
Print Assumptions C145_positional_refuted.
(** Random points: the corners of the rectangle, moved by the origin, and as many points in it as wanted. *)
Theorem C145_random :
  forall rx ry lx ly n ox oy oz,
  random_numbers rx -> random_numbers ry -> 0 < lx -> 0 < ly ->
  exists ps, make_points rx ry (rectangle_args lx ly (ShapeInt n) [ox; oy; oz] true) =
      Ok ([[- ox; - oy; - oz]; [lx - ox; - oy; - oz]; [lx - ox; ly - oy; - oz]; [- ox; ly - oy; - oz]] ++ ps) /\ length ps = n /\
    Forall (fun p => exists x y, p = [x; y; - oz] /\ - ox <= x < lx - ox /\ - oy <= y < ly - oy) ps.
Proof. exact @random_points. Qed.
Print Assumptions C145_random.
(** Random points are moved along the third axis and regular points are not. *)
Theorem C145_height_refuted :
  forall rx ry lx ly n nx ny ox oy oz p ps q qs,
  random_numbers rx -> random_numbers ry -> oz <> 0 ->
  make_points rx ry (rectangle_args lx ly (ShapeInt n) [ox; oy; oz] true) = Ok (p :: ps) ->
  make_points rx ry (rectangle_args lx ly (Shape2 nx ny) [ox; oy; oz] true) = Ok (q :: qs) ->
  nth 2 p 0 = - oz /\ nth 2 q 0 = 0.
Proof. exact @heights. Qed.
Print Assumptions C145_height_refuted.
Example C145_ex : flat [[0; 0; 0]; [1; 0; 0]; [0; 1; 0]] /\ triangles_in 3 [[0; 1; 2]]%nat /\
  found_by (fun _ => Ok [[0; 1; 2]]%nat) (fun _ _ => Ok [[1; 2; 0]]%nat) (fun _ => Err ValueError) BMpl [[0; 0; 0]; [1; 0; 0]; [0; 1; 0]] = Ok [[1; 2; 0]]%nat.
Proof. split; [|split; [|reflexivity]]; repeat constructor; cbn; lia. Qed.
Example C145_random_ex : random_numbers (fun n => repeat (1/2) n) /\
  exists p q ps qs, make_points (fun n => repeat (1/2) n) (fun n => repeat (1/2) n) (rectangle_args 8 6 (ShapeInt 3) [0; 0; 5] true) = Ok (p :: ps) /\
    make_points (fun n => repeat (1/2) n) (fun n => repeat (1/2) n) (rectangle_args 8 6 (Shape2 2 2) [0; 0; 5] true) = Ok (q :: qs).
Proof.
  split.
  - intros n. split; [apply repeat_length|]. apply Forall_forall. intros x Hx. apply repeat_spec in Hx. subst. lra.
  - do 4 eexists. split; reflexivity.
Qed.

(** ** C146 Objects of other packages *)

(** The points and triangles of an object of scipy or matplotlib. *)
Theorem C146_partial :
  forall sp mp pv rx ry o b,
  sound_object o -> triangulate sp mp pv rx ry (object_args o b) = Ok (points_of o, Some (triangles_of o), Some o).
Proof. exact @object_data. Qed.
Print Assumptions C146_partial.
(** triobj_to_mpl makes an object of matplotlib with the same points in the plane and the same triangles of it.  Missing: objects of pyvista (refuted below). *)
Theorem C146_to_mpl_partial :
  forall sp mp pv rx ry o,
  sound_object o -> flat (points_of o) -> triangles_in (length (points_of o)) (triangles_of o) ->
  exists o', triobj_to_mpl sp mp pv rx ry o = Ok (Some o') /\ backend_of o' = Some BMpl /\ points_of o' = map (firstn 2) (points_of o) /\ triangles_of o' = triangles_of o.
Proof. exact @to_mpl. Qed.
Print Assumptions C146_to_mpl_partial.
(** An object as first positional argument counts, whatever the other arguments are. *)
Theorem C146_first :
  forall sp mp pv rx ry o a,
  t_first a = Some o -> sound_object o -> triangulate sp mp pv rx ry a = Ok (points_of o, Some (triangles_of o), Some o).
Proof. exact @first_argument. Qed.
Print Assumptions C146_first.
(** The object that is returned is the one that was given: triangulate does not transform between packages, the argument backend is ignored. *)
Theorem C146_refuted :
  forall sp mp pv rx ry o b p t o',
  triangulate sp mp pv rx ry (object_args o b) = Ok (p, t, o') -> o' = Some o.
Proof. exact @object_kept. Qed.
Print Assumptions C146_refuted.
(** The triangles of an object of pyvista are not used, its points are triangulated again ... *)
Theorem C146_pyvista_refuted :
  forall sp mp pv rx ry ps f b t,
  pv ps = Ok t -> triangulate sp mp pv rx ry (object_args (Pv ps f) b) = Ok (points_of (Pv ps f), Some t, Some (Pv ps f)).
Proof. exact @pv_again. Qed.
Print Assumptions C146_pyvista_refuted.
(** ... also by triobj_to_mpl. *)
Theorem C146_to_mpl_refuted :
  forall sp mp pv rx ry ps f t,
  flat ps -> pv ps = Ok t -> triangles_in (length ps) t ->
  exists o', triobj_to_mpl sp mp pv rx ry (Pv ps f) = Ok (Some o') /\ backend_of o' = Some BMpl /\ points_of o' = points_of (Pv ps f) /\ triangles_of o' = t.
Proof. exact @pv_to_mpl. Qed.
Print Assumptions C146_to_mpl_refuted.
(** Other objects are an error; is_triobj then returns None. *)
Theorem C146_unknown :
  forall sp mp pv rx ry b,
  triangulate sp mp pv rx ry (object_args NoTriobj b) = Err RuntimeError /\ triobj_to_mpl sp mp pv rx ry NoTriobj = Err AssertionError /\ is_triobj NoTriobj = Nothing.
Proof. exact @unknown_object. Qed.
Print Assumptions C146_unknown.
Example C146_ex : sound_object (Mpl [0; 1; 0] [0; 0; 1] [[0; 1; 2]]%nat) /\ flat (points_of (Scipy [[0; 0]; [1; 0]; [0; 1]] [[0; 1; 2]]%nat)) /\
  triangles_in (length (points_of (Scipy [[0; 0]; [1; 0]; [0; 1]] [[0; 1; 2]]%nat))) (triangles_of (Scipy [[0; 0]; [1; 0]; [0; 1]] [[0; 1; 2]]%nat)).
Proof. split; [reflexivity|]. split; repeat constructor; cbn; lia. Qed.
Example C146_refuted_ex : forall sp mp pv rx ry, exists p t o,
  triangulate sp mp pv rx ry (object_args (Scipy [[0; 0]; [1; 0]; [0; 1]] [[0; 1; 2]]%nat) BMpl) = Ok (p, t, Some o) /\ backend_of o = Some BScipy.
Proof. intros. do 3 eexists. split; reflexivity. Qed.
(** an object with one diagonal of a square, triangulated again with the other *)
Example C146_pyvista_ex : forall sp mp rx ry, let square := [[0; 0; 0]; [1; 0; 0]; [1; 1; 0]; [0; 1; 0]] in let other := [[0; 1; 3]; [1; 2; 3]]%nat in
  exists p t o, triangulate sp mp (fun _ => Ok other) rx ry (object_args (Pv square [[0; 1; 2]; [0; 2; 3]]%nat) BMpl) = Ok (p, Some t, Some o) /\ t <> triangles_of o.
Proof. intros. do 3 eexists. split; [reflexivity|discriminate]. Qed.

(** ** C147 Triangle and tetrahedral meshes *)

(** Points and triangles with three or six nodes are given to PolyData as they are.  Missing: the names coords and topo, objects of points and cells, copies (refuted below). *)
Theorem C147_partial :
  forall sp mp pv rx ry p t c a lines,
  t <> [] -> rect 3 t /\ (c = None \/ c = Some ClsT3) \/ rect 6 t /\ (c = None \/ c = Some ClsT6) ->
  TriMesh_init sp mp pv rx ry (Some p) (Some t) None None c a lines = Ok (Some p, t).
Proof. exact @mesh_given. Qed.
Print Assumptions C147_partial.
(** If cells with six nodes are wanted, triangles with three nodes get nodes in the middle of their sides. *)
Theorem C147_elevated :
  forall sp mp pv rx ry p t dim a lines,
  t <> [] -> is_mesh 3 dim p t ->
  exists p' t', TriMesh_init sp mp pv rx ry (Some p) (Some t) None None (Some ClsT6) a lines = Ok (Some p', t') /\ elevated dim plan_T6 p t p' t'.
Proof. exact @mesh_elevated. Qed.
Print Assumptions C147_elevated.
(** Without triangles the points, or a rectangle, are triangulated as C145 and C86 say. *)
Theorem C147_triangulated :
  forall sp mp pv rx ry a p t o c,
  t_triangles a = None -> triangulate sp mp pv rx ry a = Ok (p, Some t, o) -> t <> [] -> rect 3 t -> c = None \/ c = Some ClsT3 ->
  TriMesh_init sp mp pv rx ry (t_points a) None None None c a false = Ok (Some p, t).
Proof. exact @mesh_triangulated. Qed.
Print Assumptions C147_triangulated.
(** Every exception of the triangulation becomes a RuntimeError. *)
Theorem C147_failed :
  forall sp mp pv rx ry a e c,
  t_triangles a = None -> triangulate sp mp pv rx ry a = Err e -> TriMesh_init sp mp pv rx ry (t_points a) None None None c a false = Err RuntimeError.
Proof. exact @mesh_failed. Qed.
Print Assumptions C147_failed.
(** Triangles with six nodes and the class with three are an error. *)
Theorem C147_width :
  forall sp mp pv rx ry p t c a lines,
  t <> [] -> rect 6 t -> c = Some ClsT3 -> TriMesh_init sp mp pv rx ry (Some p) (Some t) None None c a lines = Err AssertionError.
Proof. exact @mesh_other_width. Qed.
Print Assumptions C147_width.
(** With the names coords or topo, said to be available still, no mesh can be made ... *)
Theorem C147_aliases_refuted :
  forall sp mp pv rx ry points triangles coords topo c a lines,
  coords <> None \/ topo <> None -> exists e, TriMesh_init sp mp pv rx ry points triangles coords topo c a lines = Err e.
Proof. exact @mesh_aliases. Qed.
Print Assumptions C147_aliases_refuted.
(** ... coords and topo together are a TypeError, given twice to PolyData. *)
Theorem C147_coords_topo_refuted :
  forall sp mp pv rx ry p t a lines,
  t <> [] -> rect 3 t -> TriMesh_init sp mp pv rx ry None None (Some p) (Some t) None a lines = Err TypeError.
Proof. exact @mesh_coords_topo. Qed.
Print Assumptions C147_coords_topo_refuted.
(** Points and cells as objects, as PolyData takes them, are a RuntimeError. *)
Theorem C147_data_refuted :
  forall sp mp pv rx ry c a,
  t_first a = Some NoTriobj -> t_triobj a = None -> t_size a = None -> TriMesh_init sp mp pv rx ry None None None None c a false = Err RuntimeError.
Proof. exact @mesh_from_data. Qed.
Print Assumptions C147_data_refuted.
(** Copies of a triangle mesh or a tetrahedral mesh fail, since __copy__ calls the constructor with a frame only. *)
Theorem C147_copy_refuted :
  forall sp mp pv rx ry, TriMesh_copy sp mp pv rx ry = Err RuntimeError /\ TetMesh_copy = Err AssertionError.
Proof. exact @mesh_copy. Qed.
Print Assumptions C147_copy_refuted.
(** Tetrahedral meshes: the class that is given, else that of four nodes for rows of four; rows of ten without a class are an error. *)
Theorem C147_tetrahedra :
  forall c t w, t <> [] -> rect w t -> TetMesh_init (Some c) (Some t) = Ok c /\ (TetMesh_init None (Some t) = if Nat.eqb w 4 then Ok 4%nat else Err AssertionError).
Proof. exact @tets. Qed.
Print Assumptions C147_tetrahedra.
Example C147_ex : [[0; 1; 2]; [0; 2; 3]]%nat <> [] /\ is_mesh 3 2 [[0; 0]; [1; 0]; [1; 1]; [0; 1]] [[0; 1; 2]; [0; 2; 3]]%nat.
Proof.
  split; [discriminate|]. split; [repeat constructor|]. split; [repeat constructor|]. intros cell n Hc Hn. cbn in Hc.
  destruct Hc as [<-|[<-|[]]]; cbn in Hn; cbn; lia.
Qed.
Example C147_triangulated_ex : forall sp pv rx ry, triangulate sp (fun _ _ => Ok [[0; 1; 2]]%nat) pv rx ry (points_args [[0; 0]; [1; 0]; [0; 1]] BMpl)
  = Ok ([[0; 0]; [1; 0]; [0; 1]], Some [[0; 1; 2]]%nat, Some (Mpl [0; 1; 0] [0; 0; 1] [[0; 1; 2]]%nat)).
Proof. reflexivity. Qed.
