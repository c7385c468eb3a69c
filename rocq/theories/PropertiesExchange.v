(** * Properties C113 to C116: meshes of other packages, lists and tables, classes of data *)
From Coq Require Import Reals List Lia Lra.
From Verif Require Import ExchangeModel ExchangeSpec ExchangeProofs ExchangeProofs2 SpaceProofs SpaceProofs5 TriProofs.
Import ListNotations.

(** ** C113 Meshes of meshio and pyvista *)

(** A mesh of meshio whose blocks are of different types: the points are the same, each block of a supported type becomes a block of cells of the class registered for it, with the same nodes, and each cell gets its frame.  Missing: several blocks of a type, types that are not supported (refuted below). *)
Theorem C113_partial :
  forall registry coords cells, rect 3 coords -> NoDup (map fst cells) -> all_importable registry coords cells ->
  exists m, from_meshio registry coords cells = Ok m /\ ipoints m = coords /\
    Forall2 (block_for registry coords) (filter (fun cb => supported registry (fst cb)) cells) (iblocks m).
Proof. exact @meshio_distinct. Qed.
Print Assumptions C113_partial.
(** Of two blocks of the same type only the second one is in the mesh: the cells of the first are lost. *)
Theorem C113_refuted :
  forall registry coords pre ty c t1 mid t2 post, rect 3 coords -> NoDup (map fst registry) -> In (ty, c) registry -> ~ In ty (map fst mid) -> ~ In ty (map fst post) ->
  all_importable registry coords (pre ++ (ty, t1) :: mid ++ (ty, t2) :: post) ->
  exists m b, from_meshio registry coords (pre ++ (ty, t1) :: mid ++ (ty, t2) :: post) = Ok m /\
    (forall b', In (ty, b') (iblocks m) <-> b' = b) /\ btopo b = t2 /\
    cells_made m + length t1 <= cells_given (pre ++ (ty, t1) :: mid ++ (ty, t2) :: post).
Proof. exact @meshio_twice. Qed.
Print Assumptions C113_refuted.
(** Blocks of other types are left out without notice. *)
Theorem C113_unknown_refuted :
  forall registry coords pre ty topo post, supported registry ty = false ->
  from_meshio registry coords (pre ++ (ty, topo) :: post) = from_meshio registry coords (pre ++ post).
Proof. exact @meshio_skips. Qed.
Print Assumptions C113_unknown_refuted.
(** A mesh of pyvista (a dictionary has each type once): all cells are there. *)
Theorem C113_pyvista :
  forall registry coords cells, rect 3 coords -> NoDup (map fst cells) -> all_importable registry coords cells -> Forall (fun cb => supported registry (fst cb) = true) cells ->
  exists m, from_pv registry coords cells = Ok m /\ ipoints m = coords /\ Forall2 (block_for registry coords) cells (iblocks m) /\ cells_made m = cells_given cells.
Proof. exact @pv_distinct. Qed.
Print Assumptions C113_pyvista.
(** If a type is not supported the mesh is refused. *)
Theorem C113_pyvista_unknown :
  forall registry coords cells, rect 3 coords -> all_importable registry coords cells -> ~ Forall (fun cb => supported registry (fst cb) = true) cells ->
  from_pv registry coords cells = Err NotImplementedError.
Proof. exact @pv_unknown. Qed.
Print Assumptions C113_pyvista_unknown.
Definition small_registry : dict cellclass := [(5, Class 1 2); (12, Class 2 3)].
Definition small_coords : list (list R) := [[0; 0; 0]; [1; 0; 0]; [0; 1; 0]; [1; 1; 0]]%R.
Lemma small_triangle : importable small_coords (Class 1 2) [[0; 1; 2]] /\ importable small_coords (Class 1 2) [[1; 3; 2]].
Proof.
  split; (right; left; split; [reflexivity|]).
  - exists [[[0; 0; 0]; [1; 0; 0]; [0; 1; 0]]%R]. split; [repeat constructor|]. constructor; [|constructor]. split; [cbn; lia|].
    intros p0 p1 pl (H0 & H1 & HL). cbn in H0, H1, HL. injection H0 as <-. injection H1 as <-. injection HL as <-.
    apply not_line; try reflexivity. unfold cross3, sub, px, py, pz, at_. cbn. intros E. injection E. lra.
  - exists [[[1; 0; 0]; [1; 1; 0]; [0; 1; 0]]%R]. split; [repeat constructor|]. constructor; [|constructor]. split; [cbn; lia|].
    intros p0 p1 pl (H0 & H1 & HL). cbn in H0, H1, HL. injection H0 as <-. injection H1 as <-. injection HL as <-.
    apply not_line; try reflexivity. unfold cross3, sub, px, py, pz, at_. cbn. intros E. injection E. lra.
Qed.
Example C113_ex : rect 3 small_coords /\ NoDup (map fst [(5, [[0; 1; 2]]); (12, [[0; 1; 2; 3; 0; 1; 2; 3]])]) /\ all_importable small_registry small_coords [(5, [[0; 1; 2]]); (12, [[0; 1; 2; 3; 0; 1; 2; 3]])] /\
  Forall (fun cb => supported small_registry (fst cb) = true) [(5, [[0; 1; 2]]); (12, [[0; 1; 2; 3; 0; 1; 2; 3]])].
Proof.
  split; [repeat constructor|]. split; [repeat constructor; cbn; intuition congruence|]. split; [|repeat constructor].
  intros ty topo c [H|[H|[]]] [G|[G|[]]]; injection H as <- <-; try discriminate; injection G as <-; [apply small_triangle|right; right; reflexivity].
Qed.
Example C113_twice_ex : NoDup (map fst small_registry) /\ In (5, Class 1 2) small_registry /\ all_importable small_registry small_coords ([] ++ (5, [[0; 1; 2]]) :: [] ++ (5, [[1; 3; 2]]) :: []) /\
  supported small_registry 22 = false /\ exists m, from_meshio small_registry small_coords [(5, [[0; 1; 2]]); (5, [[1; 3; 2]])] = Ok m /\ cells_made m = 1.
Proof.
  assert (HI : all_importable small_registry small_coords ([] ++ (5, [[0; 1; 2]]) :: [] ++ (5, [[1; 3; 2]]) :: [])).
  { intros ty topo c [H|[H|[]]] [G|[G|[]]]; injection H as <- <-; try discriminate; injection G as <-; apply small_triangle. }
  assert (HN : NoDup (map fst small_registry)) by (repeat constructor; cbn; intuition congruence).
  split; [exact HN|]. split; [left; reflexivity|]. split; [exact HI|]. split; [reflexivity|].
  destruct (meshio_twice small_registry small_coords [] 5 (Class 1 2) [[0; 1; 2]] [] [[1; 3; 2]] [] ltac:(repeat constructor) HN ltac:(left; reflexivity) ltac:(intros []) ltac:(intros []) HI) as (m & b & E & H1 & H2 & H3).
  exists m. split; [exact E|]. cbn [app cells_given map concat snd length] in H3. unfold cells_given in H3. cbn in H3.
  assert (G : 1 <= cells_made m); [|lia]. unfold cells_made. pose proof (proj2 (H1 b) eq_refl) as HB. apply in_split in HB. destruct HB as (l1 & l2 & ->).
  rewrite map_app, concat_app, app_length. cbn [map concat snd]. rewrite app_length, H2. cbn. lia.
Qed.

(** ** C114 Lists of points and cells *)

(** The records of all blocks one after the other, with all fields or with those asked for.  Missing: meshes without cells (refuted below). *)
Theorem C114_partial :
  forall (V : Type) (pts cls : list (list (nat * list V))) pf cf, pts <> [] -> cls <> [] ->
  Forall (fun d => (exists n, database n d) /\ available pf d) pts -> Forall (fun d => (exists n, database n d) /\ available cf d) cls ->
  exists lp lc, to_lists pts cls pf cf = Ok (lp, lc) /\ records_of_all pf pts lp /\ records_of_all cf cls lc.
Proof. exact @lists_made. Qed.
Print Assumptions C114_partial.
(** A mesh with points only cannot be exported (nor one with cells only). *)
Theorem C114_refuted :
  forall (V : Type) (pts : list (list (nat * list V))) pf cf, Forall (fun d => (exists n, database n d) /\ available pf d) pts ->
  to_lists pts [] pf cf = Err TypeError.
Proof. exact @lists_no_cells. Qed.
Print Assumptions C114_refuted.
(** A field that is missing in one of the blocks is reported, even if others have it. *)
Theorem C114_missing :
  forall (V : Type) pre (d : list (nat * list V)) post cls fs f cf, Forall (fun d => (exists n, database n d) /\ available (Some fs) d) pre ->
  In f fs -> ~ In f (map fst d) -> to_lists (pre ++ d :: post) cls (Some fs) cf = Err KeyError.
Proof. exact @lists_missing. Qed.
Print Assumptions C114_missing.
(** With an empty list of fields an unrelated error is raised. *)
Theorem C114_no_fields_refuted :
  forall (V : Type) (d : list (nat * list V)) pts cls cf, to_lists (d :: pts) cls (Some []) cf = Err AttributeError.
Proof. exact @lists_no_fields. Qed.
Print Assumptions C114_no_fields_refuted.
Example C114_ex : database 2 [(0, [7; 8]); (1, [1; 0])] /\ available (Some [1]) [(0, [7; 8]); (1, [1; 0])] /\
  to_lists [[(0, [7; 8]); (1, [1; 0])]; [(0, [9]); (1, [1])]] [[(2, [5])]] (Some [1]) None = Ok ([[(1, 1)]; [(1, 0)]; [(1, 1)]], [[(2, 5)]]).
Proof.
  split; [|split; [|reflexivity]].
  - split; [discriminate|]. split; [repeat constructor; cbn; intuition congruence|repeat constructor].
  - split; [discriminate|]. split; [repeat constructor; cbn; intuition congruence|]. intros x [<-|[]]. cbn. tauto.
Qed.

(** ** C115 Wrapped databases *)

(** The columns asked for, in the order in which they were asked for; all of them if none is.  Missing: tuples of names (refuted below). *)
Theorem C115_dict_partial :
  forall (V : Type) (d : list (nat * list V)) n args fields, database n d -> (forall l, fields <> GivenTuple l) ->
  NoDup (asked args fields) -> incl (asked args fields) (map fst d) ->
  exists s, fst (to_dict d args fields) = Ok s /\ columns_of (match asked args fields with [] => map fst d | fs => fs end) d s.
Proof. exact @dict_of_fields. Qed.
Print Assumptions C115_dict_partial.
(** The records of the columns asked for.  Missing: tuples and an empty list of names (refuted below). *)
Theorem C115_list_partial :
  forall (V : Type) (d : list (nat * list V)) n args fields, database n d -> (forall l, fields <> GivenTuple l) -> (fields = Absent \/ asked args fields <> []) ->
  NoDup (asked args fields) -> incl (asked args fields) (map fst d) ->
  exists rs, fst (to_list d args fields) = Ok rs /\ records_of (match asked args fields with [] => map fst d | fs => fs end) d rs.
Proof. exact @list_of_fields. Qed.
Print Assumptions C115_list_partial.
(** A name that is not among the fields is reported. *)
Theorem C115_unknown :
  forall (V : Type) (d : list (nat * list V)) args fields f, (forall l, fields <> GivenTuple l) -> In f (asked args fields) -> ~ In f (map fst d) ->
  fst (to_dict d args fields) = Err KeyError /\ fst (to_list d args fields) = Err KeyError.
Proof. exact @fields_unknown. Qed.
Print Assumptions C115_unknown.
(** The list that is given as [fields] is changed: the further arguments are appended to it, *)
Theorem C115_changed_refuted :
  forall (V : Type) (d : list (nat * list V)) l args, args <> [] ->
  snd (to_dict d args (GivenList l)) <> GivenList l /\ snd (to_list d args (GivenList l)) <> GivenList l.
Proof. exact @fields_changed. Qed.
Print Assumptions C115_changed_refuted.
(** so that a second call with the same list also returns what was asked for in the first. *)
Theorem C115_again_refuted :
  forall (V : Type) (d : list (nat * list V)) n l args args2 s, database n d -> NoDup (l ++ args ++ args2) -> incl (l ++ args ++ args2) (map fst d) -> args <> [] ->
  fst (to_dict d args2 (snd (to_dict d args (GivenList l)))) = Ok s -> map fst s = l ++ args ++ args2.
Proof. exact @fields_again. Qed.
Print Assumptions C115_again_refuted.
(** A tuple of names, which the documentation permits, fails. *)
Theorem C115_tuple_refuted :
  forall (V : Type) (d : list (nat * list V)) args l, fst (to_dict d args (GivenTuple l)) = Err AttributeError /\ fst (to_list d args (GivenTuple l)) = Err AttributeError.
Proof. exact @fields_tuple. Qed.
Print Assumptions C115_tuple_refuted.
(** With an empty list one method fails where the other one returns all fields. *)
Theorem C115_empty_refuted :
  forall (V : Type) (d : list (nat * list V)) n, database n d ->
  fst (to_list d [] (GivenList [])) = Err AttributeError /\ exists s, fst (to_dict d [] (GivenList [])) = Ok s /\ columns_of (map fst d) d s.
Proof. exact @fields_empty. Qed.
Print Assumptions C115_empty_refuted.
(** A new wrapper contains the given fields and the arrays among the keyword arguments, *)
Theorem C115_wrapper :
  forall (V : Type) (fields : option (list (nat * list V))) kwargs t, (match fields with Some f => NoDup (map fst f) /\ forall k, In k (map fst kwargs) -> ~ In k (map fst f) | None => True end) -> NoDup (map fst kwargs) ->
  fst (wrapper fields kwargs) = Some t -> forall k c, In (k, c) t <-> (exists f, fields = Some f /\ In (k, c) f) \/ In (k, KArray c) kwargs.
Proof. exact @wrapper_content. Qed.
Print Assumptions C115_wrapper.
(** and adds these arrays to the dictionary that was given. *)
Theorem C115_wrapper_refuted :
  forall (V : Type) (f : list (nat * list V)) kwargs k c, NoDup (map fst f) -> NoDup (map fst kwargs) -> (forall k, In k (map fst kwargs) -> ~ In k (map fst f)) -> In (k, KArray c) kwargs ->
  exists f', snd (wrapper (Some f) kwargs) = Some f' /\ In (k, c) f' /\ ~ In k (map fst f).
Proof. exact @wrapper_leaks. Qed.
Print Assumptions C115_wrapper_refuted.
Example C115_ex : database 2 [(0, [7; 8]); (1, [1; 0]); (2, [3; 4])] /\ NoDup (asked [2] (GivenList [0])) /\ incl (asked [2] (GivenList [0])) (map fst [(0, [7; 8]); (1, [1; 0]); (2, [3; 4])]) /\
  to_dict [(0, [7; 8]); (1, [1; 0]); (2, [3; 4])] [2] (GivenList [0]) = (Ok [(0, [7; 8]); (2, [3; 4])], GivenList [0; 2]) /\
  fst (to_dict [(0, [7; 8]); (1, [1; 0]); (2, [3; 4])] [1] (GivenList [0; 2])) = Ok [(0, [7; 8]); (2, [3; 4]); (1, [1; 0])] /\
  wrapper (Some [(0, [7; 8])]) [(1, KArray [1; 0]); (2, KOther)] = (Some [(0, [7; 8]); (1, [1; 0])], Some [(0, [7; 8]); (1, [1; 0])]).
Proof.
  split; [split; [discriminate|split; [repeat constructor; cbn; intuition congruence|repeat constructor]]|].
  split; [repeat constructor; cbn; intuition congruence|]. split; [intros x [<-|[<-|[]]]; cbn; tauto|]. repeat split.
Qed.

(** ** C116 Classes of data *)

(** The class for a number of VTK is the one defined last among those with this number (their own or inherited), *)
Theorem C116_registry :
  forall names ds w, NoDup (map dname ds) -> define_classes names ds (World [] [] []) = Ok w ->
  forall n c, dget (wvtk w) n = Ok c <-> exists d, last_with (fun d => exists attrs, dget (wclasses w) (dname d) = Ok (attrs, Some n)) ds d /\ dname d = c.
Proof. exact @registry_last. Qed.
Print Assumptions C116_registry.
(** and it is the one for the name that meshio uses for it. *)
Theorem C116_meshio :
  forall names ds w, NoDup (map dname ds) -> (forall n n' name, dget names n = Ok name -> dget names n' = Ok name -> n = n') -> define_classes names ds (World [] [] []) = Ok w ->
  forall n name, dget names n = Ok name -> dget (wmeshio w) name = dget (wvtk w) n.
Proof. exact @registry_meshio. Qed.
Print Assumptions C116_meshio.
(** A class has the number of its base unless it sets its own, *)
Theorem C116_inherit :
  forall names w d w' b battrs bvtk, define_class names w d = Ok w' -> dbases d = [b] -> dget (wclasses w) b = Ok (battrs, bvtk) ->
  exists attrs, dget (wclasses w') (dname d) = Ok (attrs, match dvtk d with NotSet => bvtk | SetNone => None | SetTo n => Some n end).
Proof. exact @type_of_class. Qed.
Print Assumptions C116_inherit.
(** so a subclass replaces its base. *)
Theorem C116_replace :
  forall names w d w' b battrs n, define_class names w d = Ok w' -> dbases d = [b] -> dget (wclasses w) b = Ok (battrs, Some n) -> dvtk d = NotSet ->
  dget (wvtk w') n = Ok (dname d) /\ forall n', n' <> n -> dget (wvtk w') n' = dget (wvtk w) n'.
Proof. exact @subclass_takes_over. Qed.
Print Assumptions C116_replace.
(** The names of the fields: those of the base, and those of the class itself for which the base has none.  Missing: a class that renames a field of its base, two bases (refuted below). *)
Theorem C116_partial :
  forall names w d w' b battrs bvtk own, define_class names w d = Ok w' -> dbases d = [b] -> dget (wclasses w) b = Ok (battrs, bvtk) -> NoDup (map fst battrs) -> down d = Some own ->
  exists attrs vtk, dget (wclasses w') (dname d) = Ok (attrs, vtk) /\
    forall k v, entry attrs k v <-> entry battrs k v \/ (~ In k (map fst battrs) /\ entry own k v).
Proof. exact @map_of_class. Qed.
Print Assumptions C116_partial.
(** A class cannot rename a field of its base: its own entry is overwritten by the one of the base. *)
Theorem C116_refuted :
  forall names w d w' b battrs bvtk own k v v', define_class names w d = Ok w' -> dbases d = [b] -> dget (wclasses w) b = Ok (battrs, bvtk) -> NoDup (map fst battrs) -> down d = Some own ->
  entry battrs k v -> entry own k v' -> v' <> v ->
  exists attrs vtk, dget (wclasses w') (dname d) = Ok (attrs, vtk) /\ entry attrs k v /\ ~ entry attrs k v'.
Proof. exact @map_not_overridden. Qed.
Print Assumptions C116_refuted.
(** With two bases the second one prevails, contrary to the inheritance of attributes. *)
Theorem C116_bases_refuted :
  forall names w d w' b1 b2 a1 a2 t1 t2 k v1 v2, define_class names w d = Ok w' -> dbases d = [b1; b2] -> dget (wclasses w) b1 = Ok (a1, t1) -> dget (wclasses w) b2 = Ok (a2, t2) ->
  NoDup (map fst a1) -> NoDup (map fst a2) -> entry a1 k v1 -> entry a2 k v2 ->
  exists attrs vtk, dget (wclasses w') (dname d) = Ok (attrs, vtk) /\ entry attrs k v2.
Proof. exact @map_last_base. Qed.
Print Assumptions C116_bases_refuted.
Definition small_names : dict nat := [(5, 100); (9, 101)].
Definition small_classes : list classdef := [ClassDef 1 (Some [(0, 10); (1, 11)]) [] NotSet; ClassDef 2 None [1] (SetTo 5); ClassDef 3 (Some [(1, 21); (2, 22)]) [2] NotSet; ClassDef 4 None [2] SetNone].
Example C116_ex : NoDup (map dname small_classes) /\ define_classes small_names small_classes (World [] [] []) =
  Ok (World [(1, ([(0, 10); (1, 11)], None)); (2, ([(0, 10); (1, 11)], Some 5)); (3, ([(1, 11); (2, 22); (0, 10)], Some 5)); (4, ([(0, 10); (1, 11)], None))] [(5, 3)] [(100, 3)]).
Proof. split; [repeat constructor; cbn; intuition congruence|reflexivity]. Qed.
Example C116_bases_ex : exists w w', define_classes [] [ClassDef 1 (Some [(0, 10)]) [] NotSet; ClassDef 2 (Some [(0, 20)]) [] NotSet] (World [] [] []) = Ok w /\
  define_class [] w (ClassDef 3 None [1; 2] NotSet) = Ok w' /\ dget (wclasses w') 3 = Ok ([(0, 20)], None).
Proof. eexists. eexists. split; [reflexivity|]. split; reflexivity. Qed.
