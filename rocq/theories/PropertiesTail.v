(** * Properties C159 to C161: exports as awkward arrays, meshes from inputs, centres of triangles *)
From Coq Require Import Reals List Lia Lra.
From Verif Require Import Base TailSpec TailProofs.
Import ListNotations.

(** ** C159 Exports as awkward arrays *)

(** A database with rows: the array and the record have the same columns, those of the fields asked for, otherwise all, with all values.  Missing: databases without rows (refuted below); names given as a tuple. *)
Theorem C159_partial :
  forall {V : Type} (d : list (nat * list V)) n args fields, database n d -> (1 <= n)%nat -> (forall l, fields <> GivenTuple l) ->
  fields = Absent \/ asked args fields <> [] -> NoDup (asked args fields) -> incl (asked args fields) (map fst d) ->
  exists s, columns_of (match asked args fields with [] => map fst d | fs => fs end) d s /\ to_akrecord d args fields = Ok s /\
    to_akarray d args fields = Ok (complete s).
Proof. exact @exports_agree. Qed.
Print Assumptions C159_partial.
(** Meshes: a table of the points of all blocks and one of the cells, one row for each, with the values of the block under the names it has and nothing under the others. *)
Theorem C159_mesh :
  forall {V : Type} (pts cls : list (list (nat * list V))) pf cf, pts <> [] -> cls <> [] ->
  Forall (fun d => (exists n, database n d) /\ available pf d) pts -> Forall (fun d => (exists n, database n d) /\ available cf d) cls ->
  exists lp lc tp tc, records_of_all pf pts lp /\ records_of_all cf cls lc /\ to_ak pts cls 0 pf cf = Ok (tp, tc) /\ tabulates lp tp /\ tabulates lc tc.
Proof. exact @mesh_export. Qed.
Print Assumptions C159_mesh.
(** Without rows the array has no fields, the record has them all. *)
Theorem C159_empty_refuted :
  forall {V : Type} (d : list (nat * list V)) args fields, database 0 d -> (forall l, fields <> GivenTuple l) ->
  fields = Absent \/ asked args fields <> [] -> NoDup (asked args fields) -> incl (asked args fields) (map fst d) ->
  exists s, s <> [] /\ columns_of (match asked args fields with [] => map fst d | fs => fs end) d s /\ to_akrecord d args fields = Ok s /\
    to_akarray d args fields = Ok [].
Proof. exact @exports_empty. Qed.
Print Assumptions C159_empty_refuted.
(** Positional arguments are a TypeError. *)
Theorem C159_positional_refuted :
  forall {V : Type} (pts cls : list (list (nat * list V))) nargs pf cf, (1 <= nargs)%nat -> to_ak pts cls nargs pf cf = Err TypeError.
Proof. exact @mesh_export_positional. Qed.
Print Assumptions C159_positional_refuted.
Example C159_ex : let d := [(0, [1; 2]); (1, [3; 4])]%nat in database 2 d /\ NoDup (asked [1]%nat Absent) /\ incl (asked [1]%nat Absent) (map fst d) /\
  available (Some [1]%nat) d /\ database 0 [(0, @nil nat)]%nat /\ to_akarray d [1]%nat Absent = Ok (complete [(1, [3; 4])]%nat) /\
  to_ak [d] [[(0, [5])]]%nat 0 None None = Ok (complete d, complete [(0, [5])])%nat.
Proof.
  cbv zeta. split; [split; [discriminate|split; [repeat constructor; cbn; lia|repeat constructor]]|]. split; [repeat constructor; intros []|].
  split; [intros x [<-|[]]; right; now left|]. split; [split; [discriminate|split; [repeat constructor; intros []|intros x [<-|[]]; right; now left]]|].
  split; [split; [discriminate|split; repeat constructor; intros []]|]. split; reflexivity.
Qed.

(** ** C160 Meshes from several inputs *)

(** The meshes of the inputs, one for each, in this order.  Missing: inputs that are None (refuted below). *)
Theorem C160_partial :
  forall {M : Type} pv (args : list (@input M)) ms, Forall2 (mesh_of pv) args ms -> input_to_mesh pv args = Ok (OList (map OMesh ms)).
Proof. exact @inputs_read. Qed.
Print Assumptions C160_partial.
(** The first input that is no mesh, a file that does not exist for example, is an AssertionError. *)
Theorem C160_unreadable :
  forall {M : Type} pv (pre post : list (@input M)) i, unreadable pv i -> Forall (fun j => j = INone \/ exists m, mesh_of pv j m) pre ->
  input_to_mesh pv (pre ++ i :: post) = Err AssertionError.
Proof. exact @input_refused. Qed.
Print Assumptions C160_unreadable.
(** None gives an empty list in place of a mesh. *)
Theorem C160_none_refuted :
  forall {M : Type} pv (pre post : list (@input M)) ms ms', Forall2 (mesh_of pv) pre ms -> Forall2 (mesh_of pv) post ms' ->
  input_to_mesh pv (pre ++ INone :: post) = Ok (OList (map OMesh ms ++ OList [] :: map OMesh ms')).
Proof. exact @input_none. Qed.
Print Assumptions C160_none_refuted.
Example C160_ex : Forall2 (mesh_of true) [IPath (Some 1); IPolyData 2]%nat [1; 2]%nat /\ unreadable true (@IPath nat None) /\ unreadable false (IPolyData 2)%nat.
Proof.
  split; [constructor; [now left|constructor; [right; split; [reflexivity|now left]|constructor]]|].
  split; (split; [discriminate|]); intros m [H|[H [G|G]]]; discriminate.
Qed.

(** ** C161 Centres of triangles and coordinates of a cell *)
Local Open Scope R_scope.

(** The centre of coordinates of floating type is the mean of their rows.  Missing: integers (refuted below). *)
Theorem C161_partial :
  forall ec, ec <> [] ->
  (Forall (has_dim 2) ec -> exists c, center_tri_2d EvalModel.Floating ec = Ok c /\ mean_row 2 ec c) /\
  (Forall (has_dim 3) ec -> exists c, center_tri_3d EvalModel.Floating ec = Ok c /\ mean_row 3 ec c).
Proof. exact @tri_centers. Qed.
Print Assumptions C161_partial.
(** It is the image of the centre in local coordinates, which has the natural coordinates of the centre. *)
Theorem C161_image :
  forall a b c, dim 2 a -> dim 2 b -> dim 2 c ->
  shp_tri_loc lcenter_tri = Ok ncenter_tri /\ loc_to_glob_tri lcenter_tri [a; b; c] = center_tri_2d EvalModel.Floating [a; b; c].
Proof. exact @tri_center_image. Qed.
Print Assumptions C161_image.
(** For integers the result is the mean only if the mean is whole. *)
Theorem C161_integers_refuted :
  forall ec m, ec <> [] -> 
  (Forall (has_dim 2) ec -> mean_row 2 ec m -> (center_tri_2d EvalModel.Integral ec = Ok m <-> Forall whole m)) /\
  (Forall (has_dim 3) ec -> mean_row 3 ec m -> (center_tri_3d EvalModel.Integral ec = Ok m <-> Forall whole m)).
Proof. exact @tri_centers_integers. Qed.
Print Assumptions C161_integers_refuted.
(** The monomials at several positions: one, and the two coordinates, for each. *)
Theorem C161_monomials :
  forall ps, Forall (has_dim 2) ps -> exists rows, monoms_tri_loc_bulk ps = Ok rows /\ mapM monoms_tri_loc ps = Ok rows /\ 
  Forall2 (fun p r => r = [1; at_ 0 p; at_ 1 p]) ps rows.
Proof. exact @tri_monomials. Qed.
Print Assumptions C161_monomials.
(** The coordinates of a single cell are those it has among the coordinates of all cells. *)
Theorem C161_cell :
  forall coords topo ecs i nodes ec, cells_coords coords topo = Ok ecs -> nth_error topo i = Some nodes -> nth_error ecs i = Some ec ->
  cell_coords coords nodes = Ok ec.
Proof. exact @cell_coords_row. Qed.
Print Assumptions C161_cell.
Example C161_ex : let ec := [[0; 0]; [1; 0]; [0; 3]] in ec <> [] /\ Forall (has_dim 2) ec /\ mean_row 2 ec [1 / 3; 1] /\ ~ whole (1 / 3) /\
  cells_coords ec [[2; 0]]%nat = Ok [[[0; 3]; [0; 0]]].
Proof.
  cbv zeta. split; [discriminate|]. split; [repeat constructor|]. split; [|split; [|reflexivity]].
  - split; [reflexivity|]. intros a Ha. destruct a as [|[|a]]; [| |lia]; unfold at_; cbn; lra.
  - intros (z & Hz). assert (H : IZR (3 * z) = 1) by (rewrite mult_IZR; lra). apply eq_IZR in H. lia.
Qed.
