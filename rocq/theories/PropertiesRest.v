(** * Properties C148 to C150: areas of quadrilaterals, cell types, meshes of triangles as cells *)
From Coq Require Import Reals String List Lia Lra.
From Verif Require Import TrModel TriModel RestModel RestSpec RestProofs.
Import ListNotations.
Local Open Scope R_scope.

(** ** C148 Areas of quadrilaterals *)

(** The signed areas of the polygons of the first two coordinates of the nodes, convex or not.  Missing: the area of cells that are not in the plane of the first two axes (refuted below). *)
Theorem C148_partial :
  forall ecs, Forall quad_cell ecs -> area_Q4_bulk ecs = Ok (map cell_area ecs).
Proof. exact @quad_areas. Qed.
Print Assumptions C148_partial.
(** Both diagonals give the same; so do the nodes from any corner on, and in the other direction it is the negative. *)
Theorem C148_split :
  forall a b c d,
  quad_area a b c d = signed_area a b c + signed_area a c d /\ quad_area a b c d = signed_area a b d + signed_area b c d /\
  quad_area b c d a = quad_area a b c d /\ quad_area d c b a = - quad_area a b c d.
Proof. exact @quad_split. Qed.
Print Assumptions C148_split.
(** An upright rectangle of space gets 0, its area is positive. *)
Theorem C148_refuted :
  forall x y z,
  x <> 0 \/ y <> 0 -> z <> 0 ->
  area_Q4_bulk [[[0; 0; 0]; [x; y; 0]; [x; y; z]; [0; 0; z]]] = Ok [0] /\ 0 < parallelogram_area2 [0; 0; 0] [x; y; 0] [0; 0; z].
Proof. exact @quad_upright. Qed.
Print Assumptions C148_refuted.
Example C148_ex : quad_cell [[0; 0]; [4; 0]; [1; 1]; [0; 4]] /\ area_Q4_bulk [[[0; 0]; [4; 0]; [1; 1]; [0; 4]]] = Ok [4].
Proof.
  assert (H : quad_cell [[0; 0]; [4; 0]; [1; 1]; [0; 4]]) by (do 4 eexists; split; [reflexivity|]; unfold has_dim; cbn; repeat split; lia).
  split; [exact H|]. rewrite quad_areas by (constructor; [exact H|constructor]). cbn [map cell_area]. unfold quad_area, edge_area, px, py, at_. cbn [nth].
  f_equal. f_equal. lra.
Qed.

(** ** C149 Names and numbers of cell types *)

(** The number of a name has this name and the other way around. *)
Theorem C149_inverse :
  forall s n, celltype (IdStr s) = Ok (s, n) <-> celltype (IdInt n) = Ok (s, n).
Proof. exact @type_inverse. Qed.
Print Assumptions C149_inverse.
(** Whatever is asked for, name and number that are returned are those of one type.  Missing: numbers that are not of the type int (refuted below). *)
Theorem C149_partial :
  forall i m, celltype i = Ok m -> celltype (IdStr (fst m)) = Ok m /\ celltype (IdInt (snd m)) = Ok m.
Proof. exact @type_same. Qed.
Print Assumptions C149_partial.
(** CellTypeId gives the number of a name. *)
Theorem C149_id :
  forall s n, CellTypeId (IdStr s) = Some n <-> celltype (IdStr s) = Ok (s, n).
Proof. exact @type_id_value. Qed.
Print Assumptions C149_id.
(** The types are those of the element classes. *)
Theorem C149_classes :
  forall n, In n class_types <-> exists s, celltype (IdInt n) = Ok (s, n).
Proof. exact @type_classes. Qed.
Print Assumptions C149_classes.
(** Other numbers are a ValueError, other names a KeyError; CellTypeId gives None for them. *)
Theorem C149_unknown :
  forall s n,
  (~ In n (map snd vtk_cell_types) -> celltype (IdInt n) = Err ValueError) /\
  (~ In s (map fst vtk_cell_types) -> celltype (IdStr s) = Err KeyError /\ CellTypeId (IdStr s) = None).
Proof. exact @type_unknown. Qed.
Print Assumptions C149_unknown.
(** A number of numpy is an error: a variable without a value is read. *)
Theorem C149_refuted :
  celltype IdOther = Err NameError.
Proof. exact @type_other. Qed.
Print Assumptions C149_refuted.
(** CellTypeId gives None for the numbers of types. *)
Theorem C149_id_refuted :
  forall n, CellTypeId (IdInt n) = None.
Proof. exact @type_id_number. Qed.
Print Assumptions C149_id_refuted.
(** meshio_to_vtk knows triangles only. *)
Theorem C149_meshio_refuted :
  forall s t, meshio_to_vtk s None = Some t -> s = "triangle"%string /\ t = "VTK_TRIANGLE"%string.
Proof. exact @meshio_only. Qed.
Print Assumptions C149_meshio_refuted.
Example C149_ex : celltype (IdInt 12) = Ok ("VTK_HEXAHEDRON"%string, 12%nat) /\ ~ In 7%nat (map snd vtk_cell_types).
Proof. split; [reflexivity|]. cbn. lia. Qed.

(** ** C150 Cells from meshes of triangles *)

(** Triangles with three nodes: points and cells of the mesh, or the arrays that are given. *)
Theorem C150_T3 :
  forall c t, T3_from_TriMesh (AMesh c t) = Ok (c, t) /\ T3_from_TriMesh (AArrays (Some c) (Some t)) = Ok (c, t).
Proof. exact @from_T3. Qed.
Print Assumptions C150_T3.
(** Triangles with six nodes from arrays: nodes in the middle of the sides are added.  Missing: meshes (refuted next). *)
Theorem C150_T6_partial :
  forall dim c t, is_mesh 3 dim c t ->
  exists c' t', T6_from_TriMesh (AArrays (Some c) (Some t)) = Ok (c', t') /\ elevated dim plan_T6 c t c' t'.
Proof. exact @from_T6. Qed.
Print Assumptions C150_T6_partial.
(** From a mesh it is an error, since the methods are called on the class TriMesh. *)
Theorem C150_T6_refuted :
  forall c t, T6_from_TriMesh (AMesh c t) = Err TypeError.
Proof. exact @from_T6_mesh. Qed.
Print Assumptions C150_T6_refuted.
(** Without a mesh and without both arrays: NotImplementedError. *)
Theorem C150_nothing :
  forall c t, c = None \/ t = None ->
  T3_from_TriMesh (AArrays c t) = Err NotImplementedError /\ T6_from_TriMesh (AArrays c t) = Err NotImplementedError.
Proof. exact @from_nothing. Qed.
Print Assumptions C150_nothing.
Example C150_ex : is_mesh 3 2 [[0; 0]; [1; 0]; [0; 1]; [1; 1]] [[0; 1; 2]; [1; 3; 2]]%nat.
Proof.
  split; [repeat constructor|]. split; [repeat constructor|]. intros cell n Hc Hn. cbn in Hc.
  destruct Hc as [<-|[<-|[]]]; cbn in Hn; cbn; lia.
Qed.
