(** * Properties C134 to C138: sections of beams *)
From Coq Require Import String Reals List Lia Lra ZArith.
From Verif Require Import SectionModel SectionSpec SectionProofs SectionProofs2 SectionProofs3 SectionProofs4.
Import ListNotations.
Local Open Scope string_scope.
Local Open Scope R_scope.

(** ** C134 The size of the elements *)

(** The size is the least of the limits of the right type; without one there is none. *)
Theorem C134_size :
  forall A l a n s, mesh_size A l a n = Ok s ->
  match s with
  | Some m => (forall x, l = Some (Float x) -> m <= x * x * sqrt 3 / 4) /\ (forall x, a = Some (Float x) -> m <= x) /\ (forall k, n = Some (Int k) -> m <= A / IZR k) /\
      ((exists x, l = Some (Float x) /\ m = x * x * sqrt 3 / 4) \/ (a = Some (Float m)) \/ (exists k, n = Some (Int k) /\ m = A / IZR k))
  | None => (forall x, l <> Some (Float x)) /\ (forall x, a <> Some (Float x)) /\ (forall k, n <> Some (Int k))
  end.
Proof. exact @mesh_size_value. Qed.
Print Assumptions C134_size.
(** Meshes of elements of this size: a greatest area given as float is respected, a greatest edge length by equilateral elements.  Missing: other elements, numbers of elements, values of the other type (refuted below). *)
Theorem C134_partial :
  forall A l a n s ts, mesh_size A l a n = Ok s -> elements A s ts ->
  (forall x, a = Some (Float x) -> Forall (fun t => area_of t <= x) ts) /\
  (forall x, l = Some (Float x) -> 0 <= x -> forall t e, In t ts -> equilateral t -> In e (edges_of t) -> e <= x).
Proof. exact @mesh_size_limits. Qed.
Print Assumptions C134_partial.
(** The size is calculated unless zero elements are asked for. *)
Theorem C134_total :
  forall A l a n, n <> Some (Int 0%Z) -> exists s, mesh_size A l a n = Ok s.
Proof. exact @mesh_size_total. Qed.
Print Assumptions C134_total.
(** Zero elements: an error. *)
Theorem C134_zero_refuted :
  forall A l a, mesh_size A l a (Some (Int 0%Z)) = Err ZeroDivisionError.
Proof. exact @number_zero. Qed.
Print Assumptions C134_zero_refuted.
(** The greatest number of elements is a least number: every mesh has more elements, unless it has exactly this number and all are equal in area. *)
Theorem C134_number_refuted :
  forall A l a n s ts, 0 < A -> (0 < n)%Z -> mesh_size A l a (Some (Int n)) = Ok s -> elements A s ts ->
  (n < Z.of_nat (List.length ts))%Z \/ (n = Z.of_nat (List.length ts) /\ Forall (fun t => area_of t = A / IZR n) ts).
Proof. exact @number_is_least. Qed.
Print Assumptions C134_number_refuted.
(** Elements that are small enough can have arbitrarily long edges. *)
Theorem C134_edge_refuted :
  forall A x a n s M, 0 < x -> mesh_size A (Some (Float x)) a n = Ok (Some s) -> 0 < s -> exists t, flat_triangle t /\ 0 < area_of t <= s /\ exists e, In e (edges_of t) /\ M < e.
Proof. exact @edge_not_limited. Qed.
Print Assumptions C134_edge_refuted.
(** An integer as length or area, a float as number: no limit at all. *)
Theorem C134_type_refuted :
  forall A z z' x, mesh_size A (Some (Int z)) (Some (Int z')) (Some (Float x)) = Ok None.
Proof. exact @wrong_type_dropped. Qed.
Print Assumptions C134_type_refuted.
Definition two_halves : list triangle := [([0; 0], [1; 0], [0; 1]); ([1; 0], [1; 1], [0; 1])].
Example C134_ex : mesh_size 1 None (Some (Float (3 / 4))) (Some (Int 2%Z)) = Ok (Some (1 / 2)) /\ elements 1 (Some (1 / 2)) two_halves.
Proof.
  split; [unfold mesh_size; cbn; do 2 f_equal; unfold Rmin; destruct (Rle_dec _ _); lra|]. split; [repeat constructor|].
  assert (E : Forall (fun t => area_of t = 1 / 2) two_halves) by (repeat constructor; unfold area_of, signed_area, px, py, at_; cbn [nth]; rewrite Rabs_right; lra).
  split; [|intros s Hs; injection Hs as <-; eapply Forall_impl; [|exact E]; cbn; intros t ->; lra]. inversion E as [|? ? E1 E2]; subst. inversion E2 as [|? ? E3 E4]; subst. unfold rsum. cbn [map two_halves fold_right]. rewrite E1, E3. lra.
Qed.
Example C134_edge_ex : mesh_size 1 (Some (Float 1)) None None = Ok (Some (1 * 1 * sqrt 3 / 4)) /\ 0 < 1 * 1 * sqrt 3 / 4.
Proof. split; [reflexivity|]. pose proof sqrt3_pos. lra. Qed.

(** ** C135 Sections made from parameters *)

(** All shapes but RS and RHS, with all parameters and float thicknesses: a section of this shape with these parameters, and elements of the size of an equilateral triangle whose edge is the least thickness.  Missing: RS, RHS, integer thicknesses (refuted below). *)
Theorem C135_partial :
  forall area shape names thick params m, In (shape, (names, thick)) shapes -> shape <> "RS" -> shape <> "RHS" -> given names params -> least_thickness thick params m ->
  exists g, get_section area shape params None = Ok (g, Some (m * m * sqrt 3 / 4)%R) /\ made_of shape names params g.
Proof. exact @section_default. Qed.
Print Assumptions C135_partial.
(** The same with limits for the mesh. *)
Theorem C135_limits_partial :
  forall area shape names thick params mesh_params, In (shape, (names, thick)) shapes -> shape <> "RS" -> shape <> "RHS" -> given names params ->
  (forall k v, In (k, v) mesh_params -> In k ["l_max"; "a_max"; "n_max"]) ->
  exists g, made_of shape names params g /\
    get_section area shape params (Some mesh_params) =
      match mesh_size (area g) (find_arg "l_max" mesh_params) (find_arg "a_max" mesh_params) (find_arg "n_max" mesh_params) with Ok s => Ok (g, s) | Err e => Err e end.
Proof. exact @section_limits. Qed.
Print Assumptions C135_limits_partial.
(** The number of segments of a circle is 64 if it is not given. *)
Theorem C135_circle :
  forall area params d t, find_arg "d" params = Some d -> find_arg "t" params = Some (Float t) -> find_arg "n" params = None ->
  get_section area "CHS" params None = Ok (Geometry "CHS" [("d", d); ("t", Float t); ("n", Int 64)], Some (t * t * sqrt 3 / 4)%R).
Proof. exact @circle_default. Qed.
Print Assumptions C135_circle.
(** If another parameter is missing there is no section. *)
Theorem C135_missing :
  forall area shape names thick params mesh_params k, In (shape, (names, thick)) shapes -> In k names -> (shape = "CHS" -> k <> "n") -> find_arg k params = None ->
  exists e, get_section area shape params mesh_params = Err e.
Proof. exact @missing_parameter. Qed.
Print Assumptions C135_missing.
(** Other shapes are rejected. *)
Theorem C135_unknown :
  forall area shape params mesh_params, ~ In shape (map fst shapes) -> get_section area shape params mesh_params = Err NotImplementedError.
Proof. exact @unknown_shape. Qed.
Print Assumptions C135_unknown.
(** Rectangles can be made if a thickness is given, which they do not have. *)
Theorem C135_rectangle_partial :
  forall area params t, given ["d"; "b"] params -> find_arg "t" params = Some (Float t) ->
  exists g, get_section area "RS" params None = Ok (g, Some (t * t * sqrt 3 / 4)%R) /\ made_of "RS" ["d"; "b"] params g.
Proof. exact @rectangle_with_thickness. Qed.
Print Assumptions C135_rectangle_partial.
(** Without it the parameters of a rectangle are not enough, not even with limits for the mesh. *)
Theorem C135_rectangle_refuted :
  forall area params mesh_params, given ["d"; "b"] params -> find_arg "t" params = None -> get_section area "RS" params mesh_params = Err KeyError.
Proof. exact @rectangle_fails. Qed.
Print Assumptions C135_rectangle_refuted.
(** Rectangular hollow sections cannot be made, whatever is given. *)
Theorem C135_hollow_refuted :
  forall area params mesh_params, get_section area "RHS" params mesh_params = Err TypeError.
Proof. exact @hollow_fails. Qed.
Print Assumptions C135_hollow_refuted.
(** An integer thickness does not limit the size of the elements. *)
Theorem C135_integer_refuted :
  forall area params d t, find_arg "d" params = Some d -> find_arg "t" params = Some (Int t) -> exists g, get_section area "CHS" params None = Ok (g, None).
Proof. exact @integer_thickness. Qed.
Print Assumptions C135_integer_refuted.
(** The example of the documentation is an error. *)
Theorem C135_example_refuted :
  forall area k k', get_section area "CHS" [("d", Float 1); ("t", Float (1 / 10)); ("n", Int 64)] (Some [("n_min", k); ("n_max", k')]) = Err TypeError.
Proof. exact @documented_example. Qed.
Print Assumptions C135_example_refuted.
(** LineSection with a shape as first argument: the section, or RuntimeError. *)
Theorem C135_line :
  forall area s wrap shape params mesh_params,
  line_section area (Some (Text s)) wrap shape params mesh_params =
  match get_section area s params mesh_params with Ok g => Ok (Some g) | Err _ => Err RuntimeError end.
Proof. exact @line_by_name. Qed.
Print Assumptions C135_line.
(** LineSection with a section. *)
Theorem C135_wrap :
  forall area g wrap params mesh_params, line_section area (Some (ASection g)) wrap None params mesh_params = Ok (Some g) /\ line_section area None (Some g) None params mesh_params = Ok (Some g).
Proof. exact @line_wraps. Qed.
Print Assumptions C135_wrap.
(** LineSection with a shape as keyword argument: no section is made. *)
Theorem C135_keyword_refuted :
  forall area shape params mesh_params, line_section area None None (Some shape) params mesh_params = Ok None.
Proof. exact @line_by_keyword. Qed.
Print Assumptions C135_keyword_refuted.
(** With a section and a shape the section is not used. *)
Theorem C135_replaced_refuted :
  forall area g shape params mesh_params g', get_section area shape params mesh_params = Ok g' -> line_section area (Some (ASection g)) None (Some shape) params mesh_params = Ok (Some g').
Proof. exact @line_replaced. Qed.
Print Assumptions C135_replaced_refuted.
Definition some_params : kwargs := [("d", Float 10); ("b", Int 5); ("t_f", Float 1); ("t_w", Float (1 / 2)); ("r", Float 0); ("n_r", Int 8); ("t", Float 1); ("n", Int 32)]%string.
Example C135_ex : In ("I", (["d"; "b"; "t_f"; "t_w"; "r"; "n_r"], ["t_f"; "t_w"]))%string shapes /\ given ["d"; "b"; "t_f"; "t_w"; "r"; "n_r"]%string some_params /\ least_thickness ["t_f"; "t_w"]%string some_params (1 / 2).
Proof.
  split; [cbn; tauto|]. split.
  - intros k Hk. cbn in Hk. repeat (destruct Hk as [<-|Hk]; [eexists; reflexivity|]). contradiction.
  - split; [|exists "t_w"%string; cbn; auto]. intros k [<-|[<-|[]]]; eexists; (split; [reflexivity|lra]).
Qed.
Example C135_limits_ex : forall k v, In (k, v) [("l_max", Float 1); ("n_max", Int 100)]%string -> In k ["l_max"; "a_max"; "n_max"]%string.
Proof. intros k v [H|[H|[]]]; injection H as <- <-; cbn; tauto. Qed.
Example C135_circle_ex : find_arg "d" some_params = Some (Float 10) /\ find_arg "t" some_params = Some (Float 1) /\ find_arg "n" [("d", Float 10); ("t", Float 1)]%string = None.
Proof. repeat split. Qed.
Example C135_missing_ex : In ("T", (["d"; "b"; "t_f"; "t_w"; "r"; "n_r"], ["t_f"; "t_w"]))%string shapes /\ find_arg "r" [("d", Float 10)]%string = None.
Proof. split; [cbn; tauto|reflexivity]. Qed.
Example C135_unknown_ex : ~ In "L"%string (map fst shapes).
Proof. cbn. intros H. repeat (destruct H as [H|H]; [discriminate|]). contradiction. Qed.
Example C135_rectangle_ex : given ["d"; "b"]%string some_params /\ find_arg "t" some_params = Some (Float 1) /\ given ["d"; "b"]%string [("d", Int 2); ("b", Int 1)]%string.
Proof. split; [|split; [reflexivity|]]; intros k [<-|[<-|[]]]; eexists; reflexivity. Qed.
Example C135_replaced_ex : exists g, get_section (fun _ => 1) "CHS" some_params None = Ok g.
Proof. eexists. reflexivity. Qed.

(** ** C136 The mesh of a section *)

(** The mesh of the corners: the triangles of the section, moved by one vector, the mean of all vertices going to the origin; no unused points, the areas are kept. *)
Theorem C136_corners :
  forall vertices triangles, vertices <> [] -> rect 2 vertices -> rect 6 triangles -> in_range (length vertices) triangles ->
  exists points ts t, section_trimesh vertices triangles false 1 = Ok (points, ts) /\ mean_row 2 vertices (map Ropp t) /\ rect 2 points /\ rect 3 ts /\
    (forall n, used ts n <-> (n < length points)%nat) /\ Forall2 (same_corners t vertices points) triangles ts /\
    Forall2 (fun cell tri => polygon_area points tri = polygon_area vertices (firstn 3 cell)) triangles ts.
Proof. exact @corner_mesh. Qed.
Print Assumptions C136_corners.
(** The mesh of the pieces: each cell is filled by four triangles with a quarter of its area and its orientation. *)
Theorem C136_subdivide :
  forall vertices triangles, vertices <> [] -> rect 2 vertices -> rect 6 triangles -> in_range (length vertices) triangles -> Forall (opposite_middles vertices) triangles ->
  exists points ts t, section_trimesh vertices triangles true 1 = Ok (points, ts) /\ Forall2 (moved_by t) points vertices /\ mean_row 2 points [0; 0] /\ length ts = (4 * length triangles)%nat /\
    forall i cell, nth_error triangles i = Some cell -> exists T : nat -> list nat,
      (forall k, (k < 4)%nat -> nth_error ts (4 * i + k) = Some (T k) /\ polygon_area points (T k) = polygon_area vertices (firstn 3 cell) / 4) /\
      (forall q, in_triangle points (firstn 3 cell) q <-> exists k, (k < 4)%nat /\ in_triangle points (T k) q).
Proof. exact @piece_mesh. Qed.
Print Assumptions C136_subdivide.
(** Meshes of another order cannot be made. *)
Theorem C136_order_refuted :
  forall vertices triangles subdivide order, vertices <> [] -> rect 2 vertices -> order <> 1%nat -> section_trimesh vertices triangles subdivide order = Err NotImplementedError.
Proof. exact @order_refused. Qed.
Print Assumptions C136_order_refuted.
(** The centre of the section is at the origin just if it is the mean of the vertices of the mesh, the nodes on the edges included. *)
Theorem C136_centre :
  forall vertices triangles, vertices <> [] -> rect 2 vertices -> rect 6 triangles -> in_range (length vertices) triangles ->
  exists points ts, section_trimesh vertices triangles false 1 = Ok (points, ts) /\
    (centre_of_area points ts [0; 0] <-> exists m, mean_row 2 vertices m /\ centre_of_area vertices (corner_nodes triangles) m).
Proof. exact @centre_moved. Qed.
Print Assumptions C136_centre.
(** In general it is not. *)
Theorem C136_centre_refuted :
  exists vertices triangles points ts, vertices <> [] /\ rect 2 vertices /\ rect 6 triangles /\ in_range (length vertices) triangles /\ Forall (opposite_middles vertices) triangles /\
  Forall (fun c => 0 < polygon_area vertices (firstn 3 c)) triangles /\ section_trimesh vertices triangles false 1 = Ok (points, ts) /\ ~ centre_of_area points ts [0; 0].
Proof. exact @centre_wrong. Qed.
Print Assumptions C136_centre_refuted.
Example C136_ex : rect 2 kite /\ rect 6 kite_cells /\ in_range (length kite) kite_cells /\ Forall (opposite_middles kite) kite_cells.
Proof. destruct kite_ready as (H1 & H2 & H3 & H4 & _). auto. Qed.

(** ** C137 Extruded sections *)

(** With the frame of space, for positively oriented triangles: layers of the mesh of the corners, three tetrahedra for each triangle and layer, and the volume is the area times the length.  Missing: no frame (refuted below), other frames. *)
Theorem C137_partial :
  forall vertices triangles tol h N, vertices <> [] -> rect 2 vertices -> rect 6 triangles -> triangles <> [] -> in_range (length vertices) triangles ->
  Forall (fun c => 0 < polygon_area vertices (firstn 3 c)) triangles -> 0 <= tol -> (0 < N)%nat ->
  exists points ts c tets, section_trimesh vertices triangles false 1 = Ok (points, ts) /\ section_extrude vertices triangles tol true h N = Ok (c, tets) /\
    layered points h N c /\ rect 4 tets /\ in_range (length c) tets /\ length tets = (3 * (length triangles * N))%nat /\
    rsum (map (tet_nodes_volume c) tets) = rsum (map (polygon_area vertices) (corner_nodes triangles)) * h.
Proof. exact @section_extruded. Qed.
Print Assumptions C137_partial.
(** Without a frame, which is the default, a section cannot be extruded. *)
Theorem C137_refuted :
  forall vertices triangles tol h N, vertices <> [] -> rect 2 vertices -> rect 6 triangles -> in_range (length vertices) triangles ->
  section_extrude vertices triangles tol false h N = Err AssertionError.
Proof. exact @extrude_plane_fails. Qed.
Print Assumptions C137_refuted.
Example C137_ex : kite_cells <> [] /\ Forall (fun c => 0 < polygon_area kite (firstn 3 c)) kite_cells.
Proof. split; [discriminate|]. exact (proj2 (proj2 (proj2 (proj2 kite_ready)))). Qed.

(** ** C138 The properties of a section *)

(** After any calls get_section_properties gives the area, the second moments and their sum, and gives the same again; after a calculation so do the attributes.  Missing: attributes before a calculation (refuted below). *)
Theorem C138_partial :
  forall lib calls, exists s, state_after lib calls fresh = Ok s /\
  (exists s', get_section_properties lib s = Ok (s', properties_of lib) /\ props s' = Some (properties_of lib) /\ get_section_properties lib s' = Ok (s', properties_of lib)) /\
  ((exists c, In c calls /\ c <> CWarping) -> section_A s = Some (r_area lib) /\ section_Iy s = Some (r_ixx lib) /\ section_Iz s = Some (r_iyy lib) /\ section_Ix s = Ok (r_ixx lib + r_iyy lib) /\ geometric_properties s = Ok (properties_of lib)).
Proof. exact @properties_after. Qed.
Print Assumptions C138_partial.
(** Before, the area and the moments are None and their sum is an error. *)
Theorem C138_refuted :
  forall lib calls, (forall c, In c calls -> c = CWarping) -> exists s, state_after lib calls fresh = Ok s /\ section_A s = None /\ section_Iy s = None /\ section_Iz s = None /\ section_Ix s = Err TypeError /\ geometric_properties s = Err TypeError /\ props s = None.
Proof. exact @nothing_before. Qed.
Print Assumptions C138_refuted.
(** After the geometry alone has been calculated, section_properties is still None. *)
Theorem C138_dictionary_refuted :
  forall lib, state_after lib [CGeometry] fresh = Ok (SState (Some lib) false None) /\ props (SState (Some lib) false None) = None.
Proof. exact @no_dictionary. Qed.
Print Assumptions C138_dictionary_refuted.
Example C138_ex : (exists c, In c [CWarping; CGet] /\ c <> CWarping) /\ forall c, In c [CWarping; CWarping] -> c = CWarping.
Proof. split; [exists CGet; split; [cbn; tauto|discriminate]|]. intros c [<-|[<-|[]]]; reflexivity. Qed.
