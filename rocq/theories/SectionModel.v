(** * Model of src/polymesh/section.py: sections of beams

    Definitions only.  The package sectionproperties is modelled by the names of the parameters of its functions (all of them required), by
    the greatest area of an element it is asked for, by the vertices and the triangles of its mesh, and by the results of its
    calculations.  Whether it accepts the values of the parameters is not modelled; neither are materials. *)
From Coq Require Import Reals String ZArith.
From Verif Require Export ExtrudeModel NodalModel TableModel.
Local Open Scope R_scope.
Local Open Scope string_scope.

(** a number of the type int or float; numpy's float64 is a float *)
Inductive number := Int (z : Z) | Float (x : R).
Definition value (n : number) : R := match n with Int z => IZR z | Float x => x end.
(** keyword arguments *)
Definition kwargs := list (string * number).
Fixpoint find_arg (k : string) (kw : kwargs) : option number :=
  match kw with [] => None | (k', v) :: kw' => if String.eqb k k' then Some v else find_arg k kw' end.
(** [kw[k]] *)
Definition arg (k : string) (kw : kwargs) : res number := match find_arg k kw with Some v => Ok v | None => Err KeyError end.
(** [k in kw] *)
Definition has_arg (k : string) (kw : kwargs) : bool := match find_arg k kw with Some _ => true | None => false end.

(** ** The size of the elements *)

(** 55-56 *)
Definition size_of_edge (l_max : option number) : list R := match l_max with Some (Float l) => [l * l * sqrt 3 / 4] | _ => [] end.
(** 57-58 *)
Definition size_of_area (a_max : option number) : list R := match a_max with Some (Float a) => [a] | _ => [] end.
(** 59-60 *)
Definition size_of_number (area : R) (n_max : option number) : res (list R) :=
  match n_max with Some (Int n) => if Z.eqb n 0 then Err ZeroDivisionError else Ok [area / IZR n] | _ => Ok [] end.
(** [min(l)] of a list that is not empty, 62-64 *)
Definition smallest (l : list R) : option R := match l with [] => None | x :: l' => Some (fold_left Rmin l' x) end.
(** generate_mesh, 25-67: the greatest area of an element the mesh is made with; [area]: the area of the section *)
Definition mesh_size (area : R) (l_max a_max n_max : option number) : res (option R) :=
  do n <- size_of_number area n_max;
  Ok (smallest (size_of_edge l_max ++ size_of_area a_max ++ n)).
(** the call of generate_mesh with keyword arguments, 171: other names are an error *)
Definition generate_mesh (area : R) (mesh_params : kwargs) : res (option R) :=
  if forallb (fun kv => existsb (String.eqb (fst kv)) ["l_max"; "a_max"; "n_max"]) mesh_params
  then mesh_size area (find_arg "l_max" mesh_params) (find_arg "a_max" mesh_params) (find_arg "n_max" mesh_params)
  else Err TypeError.

(** ** Sections *)

(** the parameters of the functions of sectionproperties imported in 5-14 *)
Definition signature (shape : string) : list string :=
  if String.eqb shape "CHS" then ["d"; "t"; "n"]
  else if String.eqb shape "RS" then ["d"; "b"]
  else if String.eqb shape "RHS" then ["d"; "b"; "t"; "r_out"; "n_r"]
  else if existsb (String.eqb shape) ["I"; "PFC"; "T"] then ["d"; "b"; "t_f"; "t_w"; "r"; "n_r"]
  else ["d"; "b"; "t_f"; "t_w"; "r_r"; "r_f"; "alpha"; "n_r"].
(** a section without mesh: its shape and the parameters it was made with *)
Record geometry := Geometry { gshape : string; gargs : kwargs }.
(** the call of one of these functions *)
Definition construct (shape : string) (args : kwargs) : res geometry :=
  if forallb (fun k => has_arg k args) (signature shape) && forallb (fun kv => existsb (String.eqb (fst kv)) (signature shape)) args
  then Ok (Geometry shape args) else Err TypeError.
(** [getallfromkwargs(keys, **params)] of linkeddeepdict: those of the keys that are given *)
Fixpoint pick_args (keys : list string) (params : kwargs) : kwargs :=
  match keys with
  | [] => []
  | k :: keys' => match find_arg k params with Some v => (k, v) :: pick_args keys' params | None => pick_args keys' params end
  end.
(** [min(a, b)] of python *)
Definition min_number (a b : number) : number := if Rlt_dec (value b) (value a) then b else a.
(** 127, 132, 137, 142, 147, 152, 157: the keys *)
Definition section_keys (shape : string) : list string :=
  if String.eqb shape "RS" then ["d"; "b"]
  else if String.eqb shape "RHS" then ["d"; "b"; "t"; "n_out"; "n_r"]
  else if existsb (String.eqb shape) ["I"; "PFC"; "T"] then ["d"; "b"; "t_f"; "t_w"; "r"; "n_r"]
  else ["d"; "b"; "t_f"; "t_w"; "r_r"; "r_f"; "alpha"; "n_r"].
(** 117-164: the section and its least thickness *)
Definition outline (shape : string) (params : kwargs) : res (geometry * number) :=
  if String.eqb shape "CHS" then
    do d <- arg "d" params; do t <- arg "t" params;
    do g <- construct shape [("d", d); ("t", t); ("n", match find_arg "n" params with Some n => n | None => Int 64 end)];
    do ms <- arg "t" params; Ok (g, ms)
  else if existsb (String.eqb shape) ["RS"; "RHS"] then
    do g <- construct shape (pick_args (section_keys shape) params);
    do ms <- arg "t" params; Ok (g, ms)
  else if existsb (String.eqb shape) ["I"; "TFI"; "PFC"; "TFC"; "T"] then
    do g <- construct shape (pick_args (section_keys shape) params);
    do tf <- arg "t_f" params; do tw <- arg "t_w" params; Ok (g, min_number tf tw)
  else Err NotImplementedError.
(** get_section, 70-173: the section and the size its mesh is made with; [area]: the area sectionproperties calculates *)
Definition get_section (area : geometry -> R) (shape : string) (params : kwargs) (mesh_params : option kwargs) : res (geometry * option R) :=
  do gm <- outline shape params;
  do size <- generate_mesh (area (fst gm)) (match mesh_params with Some m => m | None => [("l_max", snd gm)] end);
  Ok (fst gm, size).

(** LineSection.__init__, 229-255: the first positional argument *)
Inductive first_arg := Text (s : string) | ASection (g : geometry * option R) | Other.
Definition invalid {A} (r : res A) : res A := match r with Ok x => Ok x | Err _ => Err RuntimeError end.
(** the section that is wrapped; None: there is none *)
Definition line_section (area : geometry -> R) (first : option first_arg) (wrap : option (geometry * option R)) (shape : option string)
    (params : kwargs) (mesh_params : option kwargs) : res (option (geometry * option R)) :=
  match first with
  | None => Ok wrap
  | Some (Text s) => invalid (do g <- get_section area s params mesh_params; Ok (Some g))
  | Some a =>
      match shape, a with
      | Some s, _ => invalid (do g <- get_section area s params mesh_params; Ok (Some g))
      | None, ASection g => Ok (Some g)
      | None, _ => Ok wrap
      end
  end.

(** ** The mesh of a section *)

(** LineSection.trimesh, 270-306, with coords, 257-262, and topology, 264-268; [vertices], [triangles]: the mesh of the section.
    The arrays given to TriMesh. *)
Definition section_trimesh (vertices : list (list R)) (triangles : list (list nat)) (subdivide : bool) (order : nat)
    : res (list (list R) * list (list nat)) :=
  do points <- centralize Floating vertices;
  if Nat.eqb order 1 then
    if subdivide then do r <- T6_to_T3 O true points triangles DNone (PArr path_triobj); Ok (fst r, fst (snd r))
    else detach_mesh_bulk points (map (firstn 3) triangles)
  else Err NotImplementedError.
(** the coordinates of the points of a TriMesh made of points of the plane, pointdata.py 86-100, 104-107 and polydata.py 956-971,
    1146-1170: with the standard frame of space they get a third coordinate, without a frame they stay in the plane.  Other frames
    are not modelled here. *)
Definition plane_coords (in_space : bool) (points : list (list R)) : list (list R) :=
  if in_space then map (fun p => (p ++ [0])%list) points else points.
(** LineSection.extrude, 308-325 *)
Definition section_extrude (vertices : list (list R)) (triangles : list (list nat)) (tol : R) (in_space : bool) (length : R) (N : nat)
    : res (list (list R) * list (list nat)) :=
  do pt <- section_trimesh vertices triangles false 1;
  trimesh_extrude (plane_coords in_space (fst pt)) (snd pt) tol 2 length N.

(** ** The properties of a section *)

(** what sectionproperties calculates: the area and the second moments about its axes x and y *)
Record results := Results { r_area : R; r_ixx : R; r_iyy : R }.
(** the values of the dictionary, 366: A, Ix, Iy, Iz *)
Record properties := Properties { p_A : R; p_Ix : R; p_Iy : R; p_Iz : R }.
(** what has been calculated, and the attribute [props] *)
Record sstate := SState { calculated : option results; warping : bool; props : option properties }.
(** 255: at the beginning *)
Definition fresh : sstate := SState None false None.
(** calculate_geometric_properties, 327-328; [lib]: the results *)
Definition calculate_geometry (lib : results) (s : sstate) : sstate := SState (Some lib) (warping s) (props s).
(** 330-331 *)
Definition calculate_warping (s : sstate) : sstate := SState (calculated s) true (props s).
(** the attributes area, ixx_c and iyy_c of sectionproperties are None before the calculation: 333-338, 347-352, 354-359 *)
Definition section_A (s : sstate) : option R := option_map r_area (calculated s).
Definition section_Iy (s : sstate) : option R := option_map r_ixx (calculated s).
Definition section_Iz (s : sstate) : option R := option_map r_iyy (calculated s).
(** 340-345; None cannot be added *)
Definition section_Ix (s : sstate) : res R :=
  match section_Iy s, section_Iz s with Some a, Some b => Ok (a + b) | _, _ => Err TypeError end.
(** geometric_properties, 361-366 *)
Definition geometric_properties (s : sstate) : res properties :=
  do ix <- section_Ix s;
  match section_A s, section_Iy s, section_Iz s with Some a, Some iy, Some iz => Ok (Properties a ix iy iz) | _, _, _ => Err TypeError end.
(** calculate_section_properties, 375-383 *)
Definition calculate_section_properties (lib : results) (s : sstate) : res (sstate * properties) :=
  let s1 := calculate_geometry lib s in
  do p <- geometric_properties s1;
  let s2 := calculate_warping s1 in
  Ok (SState (calculated s2) (warping s2) (Some p), p).
(** get_section_properties, 385-392 *)
Definition get_section_properties (lib : results) (s : sstate) : res (sstate * properties) :=
  match props s with Some p => Ok (s, p) | None => calculate_section_properties lib s end.
