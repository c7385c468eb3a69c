(** * Model of src/polymesh/triang.py and of the constructors of TriMesh and TetMesh (trimesh.py 67-88, tetmesh.py 21-30)

    Definitions only.  Triangulation objects are modelled by their points and triangles; the triangulations that scipy,
    matplotlib and pyvista make of points are parameters.  All three packages and vtk are installed. *)
From Coq Require Import Reals List.
From Verif Require Import TrModel.
From Verif Require Export TableModel NetModel.
Import ListNotations.
Local Open Scope R_scope.

(** scipy.spatial.Delaunay (points, vertices), matplotlib.tri.Triangulation (x, y, triangles), pyvista.PolyData (points, faces), anything else *)
Inductive triobj :=
| Scipy (points : list (list R)) (vertices : list (list nat))
| Mpl (x y : list R) (triangles : list (list nat))
| Pv (points : list (list R)) (faces : list (list nat))
| NoTriobj.
(** the argument backend *)
Inductive backend := BMpl | BScipy | BPv | BOther.
(** Python's True and None, the results of is_triobj *)
Inductive verdict := Yes | Nothing.

(** the arguments of triangulate, 25-37; [t_first]: the first positional argument, if there is one *)
Record targs := {
  t_first : option triobj;
  t_points : option (list (list R));
  t_size : option (R * R);
  t_shape : shape_arg;
  t_origo : option (list R);
  t_backend : backend;
  t_random : bool;
  t_triangles : option (list (list nat));
  t_triobj : option triobj;
  t_trim2d : bool }.
(** the defaults; trim2d is an argument of get_triobj_data, 188 *)
Definition no_args : targs :=
  {| t_first := None; t_points := None; t_size := None; t_shape := NoShape; t_origo := None; t_backend := BMpl; t_random := false;
     t_triangles := None; t_triobj := None; t_trim2d := true |}.

Section Libraries.
(** the triangles scipy, matplotlib and pyvista (delaunay_2d; rows of three) find for points, or an exception *)
Context (sp : list (list R) -> res (list (list nat))) (mp : list R -> list R -> res (list (list nat))) (pv : list (list R) -> res (list (list nat))).
(** np.random.rand(n), the first and the second call *)
Context (rx ry : nat -> list R).

(** [a[:, k]] *)
Definition column (k : nat) (a : list (list R)) : res (list R) := mapM (fun r => get r k) a.
(** is_triobj, 216-226 *)
Definition is_triobj (o : triobj) : verdict := match o with NoTriobj => Nothing | _ => Yes end.
(** get_triobj_data, 188-213 *)
Definition get_triobj_data (o : triobj) (trim2d : bool) : res (list (list R) * list (list nat)) :=
  match o with
  | Scipy p v => Ok (p, v)
  | Mpl x y t => do c <- map2 (fun a b => [a; b]) x y; Ok (c, t)
  | Pv p _ => do t <- pv p; Ok (if trim2d then map (firstn 2) p else p, t)
  | NoTriobj => Err RuntimeError
  end.
(** matplotlib.tri.Triangulation(x, y, triangles): rows of three node numbers, else ValueError *)
Definition mpl_triangulation (x y : list R) (t : list (list nat)) : res triobj :=
  do _ <- guard (Nat.eqb (length x) (length y)) ValueError;
  do _ <- guard (forallb (fun r => Nat.eqb (length r) 3 && forallb (fun n => Nat.ltb n (length x)) r) t) ValueError;
  Ok (Mpl x y t).
(** triangulate, 106-139: the points of a rectangle; regular points as in TableModel, with an int as shape and random = True the
    corners of the unit square and random points, scaled *)
Definition make_points (a : targs) : res (list (list R)) :=
  match t_size a, t_shape a, t_random a with
  | Some (lx, ly), ShapeInt n, true =>
      let origo := match t_origo a with None => [0; 0; 0] | Some o => if Nat.eqb (length o) 2 then o ++ [0] else o end in
      do o0 <- get origo 0; do o1 <- get origo 1; do o2 <- get origo 2;
      map2 (fun x y => [x * lx - o0; y * ly - o1; 0 - o2]) ([0; 1; 1; 0] ++ rx n) ([0; 0; 1; 1] ++ ry n)
  | _, _, _ => rectangle_points (t_size a) (t_shape a) (t_origo a)
  end.
(** triangulate, 99-170, without return_lines *)
Definition triangulate (a : targs) : res (list (list R) * option (list (list nat)) * option triobj) :=
  let triobj := match t_first a with
                | Some o => match is_triobj o with Yes => Some o | Nothing => t_triobj a end
                | None => t_triobj a
                end in
  match triobj with
  | Some o => do d <- get_triobj_data o (t_trim2d a); Ok (fst d, Some (snd d), Some o)
  | None =>
      do points <- match t_points a with Some p => Ok p | None => make_points a end;
      match t_triangles a with
      | None =>
          match t_backend a with
          | BMpl => do x <- column 0 points; do y <- column 1 points; do t <- mp x y; Ok (points, Some t, Some (Mpl x y t))
          | BScipy => let p := map (firstn 2) points in do t <- sp p; Ok (points, Some t, Some (Scipy p t))
          | BPv => do t <- pv points; Ok (points, Some t, Some (Pv points t))
          | BOther => Ok (points, None, None)
          end
      | Some t =>
          do _ <- guard (match t_backend a with BMpl => true | _ => false end) AssertionError;
          do x <- column 0 points; do y <- column 1 points;
          do o <- mpl_triangulation x y t;
          Ok (points, Some t, Some o)
      end
  end.
(** with return_lines, 167-169; edges_tri of None is a TypeError *)
Definition triangulate_lines (a : targs)
    : res (list (list R) * list (list nat) * option (list (list nat)) * list (list nat) * option triobj) :=
  do r <- triangulate a;
  let '(points, triangles, o) := r in
  match triangles with
  | None => Err TypeError
  | Some t => do ei <- mesh_edges t; Ok (points, fst ei, triangles, snd ei, o)
  end.
(** triobj_to_mpl, 173-185, without other arguments *)
Definition triobj_to_mpl (o : triobj) : res (option triobj) :=
  do _ <- guard (match is_triobj o with Yes => true | Nothing => false end) AssertionError;
  match o with
  | Mpl _ _ _ => Ok (Some o)
  | _ =>
      do d <- get_triobj_data o true;
      do r <- triangulate {| t_first := None; t_points := Some (fst d); t_size := None; t_shape := NoShape; t_origo := None; t_backend := BMpl;
                             t_random := false; t_triangles := Some (snd d); t_triobj := None; t_trim2d := true |};
      Ok (snd r)
  end.

(** ** Triangle meshes *)

(** the argument celltype *)
Inductive tri_class := ClsT3 | ClsT6.
Definition nnode (c : tri_class) : nat := match c with ClsT3 => 3 | ClsT6 => 6 end.
(** TriMesh.__init__, trimesh.py 67-88: the points and triangles that are given to PolyData.  [coords] and [topo] are keyword arguments of
    these names; they stay in kwargs, so that the call in line 88 gives them twice, a TypeError.  [a]: the other arguments,
    [lines]: return_lines is given as True.  A triangulation with no rows is not distinguished from one with no columns. *)
Definition TriMesh_init (points : option (list (list R))) (triangles : option (list (list nat))) (coords : option (list (list R)))
    (topo : option (list (list nat))) (celltype : option tri_class) (a : targs) (lines : bool) : res (option (list (list R)) * list (list nat)) :=
  let points := match points with Some p => Some p | None => coords end in
  let triangles := match triangles with Some t => Some t | None => topo end in
  do pt <- match triangles with
           | Some t => Ok (points, Some t)
           | None =>
               if lines then Err RuntimeError
               else match triangulate {| t_first := t_first a; t_points := points; t_size := t_size a; t_shape := t_shape a; t_origo := t_origo a;
                                         t_backend := t_backend a; t_random := t_random a; t_triangles := None; t_triobj := t_triobj a;
                                         t_trim2d := t_trim2d a |} with
                    | Err _ => Err RuntimeError
                    | Ok (p, t, _) => Ok (Some p, t)
                    end
           end;
  match snd pt with
  | None => Err AttributeError
  | Some t =>
      let celltype := match celltype with
                      | Some c => Some c
                      | None => if Nat.eqb (ncols t) 3 then Some ClsT3 else if Nat.eqb (ncols t) 6 then Some ClsT6 else None
                      end in
      match celltype with
      | None => Err AttributeError
      | Some c =>
          do qt <- (if Nat.eqb (ncols t) 3 && Nat.eqb (nnode c) 6 then
                      match fst pt with
                      | None => Err TypeError
                      | Some p => do r <- T3_to_T6 p t; Ok (Some (fst r), snd r)
                      end
                    else Ok (fst pt, t));
          do _ <- guard (Nat.eqb (ncols (snd qt)) (nnode c)) AssertionError;
          match coords, topo with
          | None, None => Ok qt
          | _, _ => Err TypeError
          end
      end
  end.
(** PolyData.__copy__ of a TriMesh, polydata.py 312: [cls(frame=frame)] *)
Definition TriMesh_copy : res (option (list (list R)) * list (list nat)) := TriMesh_init None None None None None no_args false.
End Libraries.

(** ** Tetrahedral meshes *)

(** TetMesh.__init__, tetmesh.py 21-30: the class of cells that is given to PolyData; [celltype] is the number of nodes of the class *)
Definition TetMesh_init (celltype : option nat) (topo : option (list (list nat))) : res nat :=
  match celltype, topo with
  | Some c, _ => Ok c
  | None, Some t => if Nat.eqb (ncols t) 4 then Ok 4%nat else Err AssertionError
  | None, None => Err AssertionError
  end.
(** PolyData.__copy__ of a TetMesh, polydata.py 312 *)
Definition TetMesh_copy : res nat := TetMesh_init None None.
