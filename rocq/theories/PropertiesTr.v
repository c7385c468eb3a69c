(** * Properties C12-C15, C19, C20: transformations of meshes (tr.py, topodata.py) *)
From Coq Require Import Reals Lra.
From Verif Require Import SplitProofs7 ElevProofs3.

(** ** C12 Cell subdivision indexing and composition *)

(** whatever the order in which the iterations of the parallel loops are executed *)
Theorem C12_transform_topology {A} (z : A) w its topo path :
  rect w topo -> valid_path w path ->
  Permutation its (tr_iterations (length topo) (length path) (ncols path)) ->
  exists r, transform_topology_in z its topo path = Ok r /\ split_along topo path r.
Proof. exact (transform_split z w its topo path). Qed.
Print Assumptions C12_transform_topology.

(** the description determines the result *)
Theorem C12_unique {A} w (topo : list (list A)) path r r' :
  rect w topo -> valid_path w path -> split_along topo path r -> split_along topo path r' -> r = r'.
Proof. exact (split_along_unique_mesh w topo path r r'). Qed.
Print Assumptions C12_unique.

Theorem C12_compose w n1 topo p1 p2 :
  rect w topo -> valid_path w p1 -> rect n1 p1 -> valid_path n1 p2 ->
  exists t1 t2 p12,
    transform_topology_ 0 topo p1 = Ok t1 /\ transform_topology_ 0 t1 p2 = Ok t2 /\
    compose_trmap p1 p2 = Ok p12 /\ transform_topology_ 0 topo p12 = Ok t2.
Proof. exact (compose_correct w n1 topo p1 p2). Qed.
Print Assumptions C12_compose.

(** an entry beyond the nodes of the cells is an out-of-range access *)
Theorem C12_bad_path {A} (z : A) w topo path p q :
  rect w topo -> topo <> [] -> (exists n, rect n path) -> In p path -> In q p -> w <= q ->
  transform_topology_ z topo path = Err IndexError.
Proof. exact (transform_bad_path z w topo path p q). Qed.
Print Assumptions C12_bad_path.

Definition ex_q4 := [[0;1;4;3];[1;2;5;4]].
Example C12_ex : rect 4 ex_q4 /\ valid_path 4 [[0;1;2];[0;2;3]] /\ valid_path 3 [[0;1];[1;2];[2;0]] /\
  transform_topology_ 0 ex_q4 [[0;1;2];[0;2;3]] = Ok [[0;1;4];[0;4;3];[1;2;5];[1;5;4]] /\
  compose_trmap [[0;1;2];[0;2;3]] [[0;1];[1;2];[2;0]] = Ok [[0;1];[1;2];[2;0];[0;2];[2;3];[3;0]].
Proof. split; [repeat constructor|]. split; [check_path|]. split; [check_path|]. split; reflexivity. Qed.
Example C12_ex2 : transform_topology_ 0 ex_q4 [[0;1;4]] = Err IndexError.
Proof. reflexivity. Qed.

(** ** C13 Data follows the cells *)

(** values given per cell and node *)
Theorem C13_nodal_data {A} (z : A) w topo d path :
  topo <> [] -> rect w topo -> length d = length topo -> rect w d -> valid_path w path ->
  exists t d', transform_topology z topo (P2 path) (DArr (D2 d)) = Ok (t, DArr (D2 d')) /\
    split_along topo path t /\ split_along d path d'.
Proof. exact (nodal_data_follows z w topo d path). Qed.
Print Assumptions C13_nodal_data.

(** hence a value that belongs to the node still belongs to it *)
Theorem C13_nodal_function {A} w (topo : list (list nat)) (d : list (list A)) (f : nat -> A) path t d' :
  rect w topo -> valid_path w path -> d = map (map f) topo ->
  split_along topo path t -> split_along d path d' -> d' = map (map f) t.
Proof. exact (split_along_map w topo d f path t d'). Qed.
Print Assumptions C13_nodal_function.

Theorem C13_cell_data {A} (z : A) w topo d path :
  rect w topo -> length d = length topo -> valid_path w path ->
  exists t d', transform_topology z topo (P2 path) (DArr (D1 d)) = Ok (t, DArr (D1 d')) /\
    split_along topo path t /\ length d' = length t /\
    forall i k x, nth_error d i = Some x -> k < length path -> nth_error d' (i * length path + k) = Some x.
Proof. exact (cell_data_1d z w topo d path). Qed.
Print Assumptions C13_cell_data.

(** cell data with several components: correct unless the number of components equals the
    number of nodes of a cell *)
Theorem C13_cell_data_2d_partial {A} (z : A) w topo (d : list (list A)) path :
  rect w topo -> length d = length topo -> ncols d <> ncols topo -> valid_path w path ->
  exists t d', transform_topology z topo (P2 path) (DArr (D2 d)) = Ok (t, DArr (D2 d')) /\
    split_along topo path t /\ length d' = length t /\
    forall i k x, nth_error d i = Some x -> k < length path -> nth_error d' (i * length path + k) = Some x.
Proof. exact (cell_data_2d z w topo d path). Qed.
Print Assumptions C13_cell_data_2d_partial.

(** with as many components as nodes the components of a cell's value are permuted and cut *)
Theorem C13_cell_data_2d_refuted : exists topo path (d : list (list nat)) t d',
  rect 4 topo /\ valid_path 4 path /\ length d = length topo /\
  transform_topology 0 topo (P2 path) (DArr (D2 d)) = Ok (t, DArr (D2 d')) /\
  exists i k x, nth_error d i = Some x /\ k < length path /\ nth_error d' (i * length path + k) <> Some x.
Proof. exact cell_data_ambiguous. Qed.
Print Assumptions C13_cell_data_2d_refuted.

Theorem C13_other_data {A} (z : A) topo (d : cdata A) path :
  (match d with D1 d => length d | D2 d => length d end) <> length topo ->
  transform_topology z topo (P2 path) (DArr d) = Err NotImplementedError.
Proof. exact (other_data_rejected z topo d path). Qed.
Print Assumptions C13_other_data.

(** several arrays: each is treated as if it were the only one *)
Theorem C13_sequence {A} (z : A) topo path ds t ds' :
  transform_topology z topo path (DSeq ds) = Ok (t, DSeq ds') <->
  transform_topology z topo path DNone = Ok (t, DNone) /\ length ds' = length ds /\
  forall i d d', nth_error ds i = Some d -> nth_error ds' i = Some d' ->
    transform_topology z topo path (DArr d) = Ok (t, DArr d').
Proof. exact (data_sequence z topo path ds t ds'). Qed.
Print Assumptions C13_sequence.

Example C13_ex : transform_topology 0 ex_q4 (P2 [[0;1;2];[0;2;3]]) (DSeq [D1 [7;8]; D2 [[10;11;14;13];[11;12;15;14]]])
  = Ok ([[0;1;4];[0;4;3];[1;2;5];[1;5;4]], DSeq [D1 [7;7;8;8]; D2 [[10;11;14];[10;14;13];[11;12;15];[11;15;14]]]).
Proof. reflexivity. Qed.
Example C13_ex2 : [[10;11;14;13];[11;12;15;14]] = map (map (fun n => 10 + n)) ex_q4.
Proof. reflexivity. Qed.
Example C13_ex3 : transform_topology 0 ex_q4 (P2 [[0;1;2];[0;2;3]]) (DArr (D2 [[7;1];[8;2]]))
  = Ok ([[0;1;4];[0;4;3];[1;2;5];[1;5;4]], DArr (D2 [[7;1];[7;1];[8;2];[8;2]])).
Proof. reflexivity. Qed.

(** ** C14 Order elevation *)

Theorem C14_T3_to_T6 dim coords topo : is_mesh 3 dim coords topo ->
  exists coords' topo', T3_to_T6 coords topo = Ok (coords', topo') /\ elevated dim plan_T6 coords topo coords' topo'.
Proof. exact (T3_to_T6_ok dim coords topo). Qed.
Print Assumptions C14_T3_to_T6.
Theorem C14_Q4_to_Q8 dim coords topo : is_mesh 4 dim coords topo ->
  exists coords' topo', Q4_to_Q8 coords topo = Ok (coords', topo') /\ elevated dim plan_Q8 coords topo coords' topo'.
Proof. exact (Q4_to_Q8_ok dim coords topo). Qed.
Print Assumptions C14_Q4_to_Q8.
Theorem C14_TET4_to_TET10 dim coords topo : is_mesh 4 dim coords topo ->
  exists coords' topo', TET4_to_TET10 coords topo = Ok (coords', topo') /\ elevated dim plan_TET10 coords topo coords' topo'.
Proof. exact (TET4_to_TET10_ok dim coords topo). Qed.
Print Assumptions C14_TET4_to_TET10.
Theorem C14_Q4_to_Q9 dim coords topo : is_mesh 4 dim coords topo ->
  exists coords' topo', Q4_to_Q9 coords topo = Ok (coords', topo') /\ elevated dim plan_Q9 coords topo coords' topo'.
Proof. exact (Q4_to_Q9_ok dim coords topo). Qed.
Print Assumptions C14_Q4_to_Q9.
Theorem C14_H8_to_H27 dim coords topo : is_mesh 8 dim coords topo ->
  exists coords' topo', H8_to_H27 coords topo = Ok (coords', topo') /\ elevated dim plan_H27 coords topo coords' topo'.
Proof. exact (H8_to_H27_ok dim coords topo). Qed.
Print Assumptions C14_H8_to_H27.
Theorem C14_L2_to_L3 dim coords topo : is_mesh 2 dim coords topo ->
  exists coords' topo', L2_to_L3 coords topo = Ok (coords', topo') /\ elevated dim plan_L3 coords topo coords' topo'.
Proof. exact (L2_to_L3_ok dim coords topo). Qed.
Print Assumptions C14_L2_to_L3.

Ltac concrete_mesh :=
  split; [repeat constructor|]; split; [repeat constructor|];
  let c := fresh in let n := fresh in let H1 := fresh in let H := fresh in
  intros c n H1 H; simpl in H1;
  repeat (destruct H1 as [<-|H1]; [simpl in H; repeat (destruct H as [<-|H]; [simpl; lia|]); contradiction|]); contradiction.
Definition ex_points : list (list R) := [[0;0];[1;0];[1;1];[0;1]]%R.
Example C14_ex : is_mesh 3 2 ex_points [[0;1;2];[0;2;3]].
Proof. concrete_mesh. Qed.
Example C14_ex_topo : exists c, T3_to_T6 ex_points [[0;1;2];[0;2;3]] = Ok (c, [[0;1;2;4;7;5];[0;2;3;5;8;6]]) /\ length c = 9.
Proof. eexists; split; reflexivity. Qed.
Example C14_ex_4 : is_mesh 4 2 ex_points [[0;1;2;3]] /\ is_mesh 2 2 ex_points [[0;1];[1;2];[2;3];[0;2]].
Proof. split; concrete_mesh. Qed.
Example C14_ex_8 : is_mesh 8 1 (map (fun n => [INR n]) (seq 0 12)) [[0;1;2;3;4;5;6;7];[4;5;6;7;8;9;10;11]].
Proof. concrete_mesh. Qed.

(** ** C15 Elevated cells match the reference elements *)

Theorem C15_T6 dim coords topo coords' topo' : is_mesh 3 dim coords topo -> T3_to_T6 coords topo = Ok (coords', topo') ->
  matches_reference dim shp_T3 lcoords_T6 coords topo coords' topo'.
Proof. exact (T3_to_T6_reference dim coords topo coords' topo'). Qed.
Print Assumptions C15_T6.
Theorem C15_Q9 dim coords topo coords' topo' : is_mesh 4 dim coords topo -> Q4_to_Q9 coords topo = Ok (coords', topo') ->
  matches_reference dim shp_Q4 lcoords_Q9 coords topo coords' topo'.
Proof. exact (Q4_to_Q9_reference dim coords topo coords' topo'). Qed.
Print Assumptions C15_Q9.
Theorem C15_TET10 dim coords topo coords' topo' : is_mesh 4 dim coords topo -> TET4_to_TET10 coords topo = Ok (coords', topo') ->
  matches_reference dim shp_TET4 lcoords_TET10 coords topo coords' topo'.
Proof. exact (TET4_to_TET10_reference dim coords topo coords' topo'). Qed.
Print Assumptions C15_TET10.
Theorem C15_H27 dim coords topo coords' topo' : is_mesh 8 dim coords topo -> H8_to_H27 coords topo = Ok (coords', topo') ->
  matches_reference dim shp_H8 lcoords_H27 coords topo coords' topo'.
Proof. exact (H8_to_H27_reference dim coords topo coords' topo'). Qed.
Print Assumptions C15_H27.
Theorem C15_L3 dim coords topo coords' topo' : is_mesh 2 dim coords topo -> L2_to_L3 coords topo = Ok (coords', topo') ->
  matches_reference dim shp_L2 lcoords_L3 coords topo coords' topo'.
Proof. exact (L2_to_L3_reference dim coords topo coords' topo'). Qed.
Print Assumptions C15_L3.
(** [C14_ex], [C14_ex_4] and [C14_ex_8] show meshes as required; the calls succeed by C14. *)
Example C15_ex : exists c t, T3_to_T6 ex_points [[0;1;2];[0;2;3]] = Ok (c, t).
Proof. do 2 eexists; reflexivity. Qed.

(** ** C19 Wedge elevation *)

(** As written, W6_to_W18 leaves an array's bounds for every mesh with at least one cell. *)
Theorem C19_wedges_refuted (coords : list (list R)) topo : rect 6 topo -> topo <> [] ->
  W6_to_W18 coords topo = Err IndexError.
Proof. exact (W6_to_W18_fails coords topo). Qed.
Print Assumptions C19_wedges_refuted.

(** Apart from the triangles, which are not used, everything is right. *)
Theorem C19_wedges_partial dim coords topo : is_mesh 6 dim coords topo ->
  exists faces coords' topo', faces_W6_quad topo = Ok faces /\
    W6_to_W18_with faces coords topo = Ok (coords', topo') /\ elevated dim plan_W18 coords topo coords' topo'.
Proof. exact (W6_to_W18_with_ok dim coords topo). Qed.
Print Assumptions C19_wedges_partial.

Example C19_ex : is_mesh 6 1 (map (fun n => [INR n]) (seq 0 9)) [[0;1;2;3;4;5];[3;4;5;6;7;8]].
Proof. concrete_mesh. Qed.

(** ** C20 Edge extraction *)

Theorem C20_T3_to_L2 {C} (coords : C) topo : rect 3 topo ->
  exists es, T3_to_L2 coords topo = Ok (coords, es) /\
    (forall e, edge_of triangle_edges topo e -> exists x, In x es /\ Permutation e x) /\
    (forall x, In x es -> exists e, edge_of triangle_edges topo e /\ Permutation e x) /\
    (forall i j x y, nth_error es i = Some x -> nth_error es j = Some y -> Permutation x y -> i = j).
Proof. exact (T3_to_L2_ok coords topo). Qed.
Print Assumptions C20_T3_to_L2.
Theorem C20_TET4_to_L2 {C} (coords : C) topo : rect 4 topo ->
  exists es, TET4_to_L2 coords topo = Ok (coords, es) /\
    (forall e, edge_of tetrahedron_edges topo e -> exists x, In x es /\ Permutation e x) /\
    (forall x, In x es -> exists e, edge_of tetrahedron_edges topo e /\ Permutation e x) /\
    (forall i j x y, nth_error es i = Some x -> nth_error es j = Some y -> Permutation x y -> i = j).
Proof. exact (TET4_to_L2_ok coords topo). Qed.
Print Assumptions C20_TET4_to_L2.
Theorem C20_H8_to_L2 {C} (coords : C) topo : rect 8 topo ->
  exists es, H8_to_L2 coords topo = Ok (coords, es) /\
    (forall e, edge_of hexahedron_edges topo e -> exists x, In x es /\ Permutation e x) /\
    (forall x, In x es -> exists e, edge_of hexahedron_edges topo e /\ Permutation e x) /\
    (forall i j x y, nth_error es i = Some x -> nth_error es j = Some y -> Permutation x y -> i = j).
Proof. exact (H8_to_L2_ok coords topo). Qed.
Print Assumptions C20_H8_to_L2.

Example C20_ex : T3_to_L2 tt [[0;1;2];[0;2;3]] = Ok (tt, [[0;1];[0;2];[0;3];[1;2];[2;3]]) /\ rect 3 [[0;1;2];[0;2;3]].
Proof. split; [reflexivity|repeat constructor]. Qed.
Example C20_ex2 : exists es, H8_to_L2 tt [[0;1;2;3;4;5;6;7];[4;5;6;7;8;9;10;11]] = Ok (tt, es) /\ length es = 20.
Proof. eexists; split; reflexivity. Qed.
