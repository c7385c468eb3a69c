(** * Specification vocabulary: triangles of the plane, meshes of a section, parameters of sections *)
From Coq Require Import Reals String List.
From Verif Require Export TriSpec TableSpec ExtrudeSpec NodalSpec SectionModel.
Import ListNotations.
Local Open Scope R_scope.

(** a triangle given by the positions of its corners *)
Definition triangle := (list R * list R * list R)%type.
Definition area_of (t : triangle) : R := let '(a, b, c) := t in Rabs (signed_area a b c).
Definition edges_of (t : triangle) : list R := let '(a, b, c) := t in [dist a b; dist b c; dist c a].
Definition flat_triangle (t : triangle) : Prop := let '(a, b, c) := t in dim 2 a /\ dim 2 b /\ dim 2 c.
Definition equilateral (t : triangle) : Prop := forall e f, In e (edges_of t) -> In f (edges_of t) -> e = f.
(** triangles whose areas add up to [A], none of them greater than [size] if there is a size *)
Definition elements (A : R) (size : option R) (ts : list triangle) : Prop :=
  Forall flat_triangle ts /\ rsum (map area_of ts) = A /\ forall s, size = Some s -> Forall (fun t => area_of t <= s) ts.

(** the shapes, the parameters of sectionproperties for them and the names of their thicknesses *)
Definition shapes : list (string * (list string * list string)) :=
  [("CHS", (["d"; "t"; "n"], ["t"]));
   ("RS", (["d"; "b"], []));
   ("RHS", (["d"; "b"; "t"; "r_out"; "n_r"], ["t"]));
   ("I", (["d"; "b"; "t_f"; "t_w"; "r"; "n_r"], ["t_f"; "t_w"]));
   ("TFI", (["d"; "b"; "t_f"; "t_w"; "r_r"; "r_f"; "alpha"; "n_r"], ["t_f"; "t_w"]));
   ("PFC", (["d"; "b"; "t_f"; "t_w"; "r"; "n_r"], ["t_f"; "t_w"]));
   ("TFC", (["d"; "b"; "t_f"; "t_w"; "r_r"; "r_f"; "alpha"; "n_r"], ["t_f"; "t_w"]));
   ("T", (["d"; "b"; "t_f"; "t_w"; "r"; "n_r"], ["t_f"; "t_w"]))]%string.
(** a value is given for every one of these parameters *)
Definition given (names : list string) (params : kwargs) : Prop := forall k, In k names -> exists v, find_arg k params = Some v.
(** [m] is the least of the thicknesses, all of which are given as floats *)
Definition least_thickness (names : list string) (params : kwargs) (m : R) : Prop :=
  (forall k, In k names -> exists x, find_arg k params = Some (Float x) /\ m <= x) /\ exists k, In k names /\ find_arg k params = Some (Float m).
(** the section has the shape and, of the given parameters, exactly those of the shape *)
Definition made_of (shape : string) (names : list string) (params : kwargs) (g : geometry) : Prop :=
  gshape g = shape /\ forall k, find_arg k (gargs g) = if in_dec string_dec k names then find_arg k params else None.

(** nodes 3, 4, 5 are the midpoints of the edges opposite to the corners 0, 1, 2: the numbering of sectionproperties *)
Definition opposite_middles (points : list (list R)) (cell : list nat) : Prop :=
  exists a b c p q r, cell = [a; b; c; p; q; r] /\
    forall d, (d < 2)%nat ->
      coord points p d = (coord points b d + coord points c d) / 2 /\
      coord points q d = (coord points c d + coord points a d) / 2 /\
      coord points r d = (coord points a d + coord points b d) / 2.
(** the corners of the cells *)
Definition corner_nodes (triangles : list (list nat)) : list (list nat) := map (firstn 3) triangles.
(** the triangle [tri] has the corners of the cell, moved by [t] *)
Definition same_corners (t : list R) (vertices points : list (list R)) (cell tri : list nat) : Prop :=
  Forall2 (fun n k => exists p q, nth_error vertices n = Some p /\ nth_error points k = Some q /\ moved_by t q p) (firstn 3 cell) tri.
(** [c] is the centre of the area of the triangles: the mean of their centres weighted by their areas *)
Definition centre_of_area (points : list (list R)) (ts : list (list nat)) (c : list R) : Prop :=
  dim 2 c /\ forall d, (d < 2)%nat ->
    at_ d c * rsum (map (polygon_area points) ts) =
    rsum (map (fun t => polygon_area points t * (rsum (map (fun n => coord points n d) t) / 3)) ts).

(** calls of the methods of a section, in any order *)
Inductive call := CGeometry | CWarping | CCalculate | CGet.
Fixpoint state_after (lib : results) (calls : list call) (s : sstate) : res sstate :=
  match calls with
  | [] => Ok s
  | CGeometry :: l => state_after lib l (calculate_geometry lib s)
  | CWarping :: l => state_after lib l (calculate_warping s)
  | CCalculate :: l => do r <- calculate_section_properties lib s; state_after lib l (fst r)
  | CGet :: l => do r <- get_section_properties lib s; state_after lib l (fst r)
  end.
(** the area and the second moments; the polar one is the sum of the others *)
Definition properties_of (lib : results) : properties := Properties (r_area lib) (r_ixx lib + r_iyy lib) (r_ixx lib) (r_iyy lib).
