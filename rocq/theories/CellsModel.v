(** * Model of the reference elements: [src/polymesh/cells/*.py],
    [src/polymesh/utils/cells/*.py] and [PolyCell.generate_class_functions] (cell.py)

    Definitions only.  A local coordinate is a list of numbers (also for lines, where the
    code uses plain numbers).  The [_multi] and [_bulk] variants apply the functions below
    to every row of an array, in parallel; they are modelled by [mapM]. *)
From Verif Require Export NumBase.

Section Cells.
Context {K : Type} {NK : Num K}.
Local Open Scope num_scope.

(** [x**n] *)
Fixpoint kpow (x : K) (n : nat) : K :=
  match n with O => #1 | S O => x | S n' => x * kpow x n' end.
Local Infix "**" := kpow (at level 30, right associativity).

(** ** L2 *)
(** cells/l2.py lcoords, 55-63 *)
Definition lcoords_L2 : list (list K) :=
  [[#(-1)]; [#1]].
(** cells/l2.py lcenter, 66-74 *)
Definition lcenter_L2 : list K :=
  [#0].
(** cells/l2.py polybase, 39-52 *)
Definition polybase_L2 : list (list nat) :=
  [[0]; [1]].
(** utils/cells/l2.py monoms_L2, 9-10 *)
Definition monoms_L2 (p : list K) : res (list K) :=
  match p with
  | [r] => Ok
    [#1; r]
  | _ => Err ValueError
  end.
(** utils/cells/l2.py shp_L2, 14-18 *)
Definition shp_L2 (p : list K) : res (list K) :=
  match p with
  | [r] => Ok
    (map (fun x => x / #2) [#1 - r; #1 + r])
  | _ => Err ValueError
  end.
(** utils/cells/l2.py dshp_L2, 50-51; the array of shape (2,) is kept as (2, 1) *)
Definition dshp_L2 (p : list K) : res (list (list K)) := Ok
  [[#(-1) / #2]; [#1 / #2]].

(** ** L3 *)
(** cells/l3.py lcoords, 47-55 *)
Definition lcoords_L3 : list (list K) :=
  [[#(-1)]; [#0]; [#1]].
(** cells/l3.py lcenter, 58-66 *)
Definition lcenter_L3 : list K :=
  [#0].
(** cells/l3.py polybase, 31-44 *)
Definition polybase_L3 : list (list nat) :=
  [[0]; [1]; [2]].
(** utils/cells/l3.py monoms_L3, 9-10 *)
Definition monoms_L3 (p : list K) : res (list K) :=
  match p with
  | [r] => Ok
    [#1; r; r ** 2]
  | _ => Err ValueError
  end.

(** ** T3 *)
(** cells/t3.py lcoords, 52-60 *)
Definition lcoords_T3 : list (list K) :=
  [[#0; #0]; [#1; #0]; [#0; #1]].
(** cells/t3.py lcenter, 63-71 *)
Definition lcenter_T3 : list K :=
  [#1 / #3; #1 / #3].
(** cells/t3.py polybase, 36-49 *)
Definition polybase_T3 : list (list nat) :=
  [[0; 0]; [1; 0]; [0; 1]].
(** utils/cells/t3.py monoms_T3, 9-11 *)
Definition monoms_T3 (p : list K) : res (list K) :=
  match p with
  | [r; s] => Ok
    [#1; r; s]
  | _ => Err ValueError
  end.
(** utils/cells/t3.py shp_T3, 15-17 *)
Definition shp_T3 (p : list K) : res (list K) :=
  match p with
  | [r; s] => Ok
    ([#1 - r - s; r; s])
  | _ => Err ValueError
  end.
(** utils/cells/t3.py dshp_T3, 49-50 *)
Definition dshp_T3 (p : list K) : res (list (list K)) := Ok
  [[#(-1); #(-1)]; [#1; #0]; [#0; #1]].

(** ** T6 *)
(** cells/t6.py lcoords, 54-64 *)
Definition lcoords_T6 : list (list K) :=
  [[#0; #0]; [#1; #0]; [#0; #1]; [(#1 / #2); #0]; [(#1 / #2); (#1 / #2)]; [#0; (#1 / #2)]].
(** cells/t6.py lcenter, 67-75 *)
Definition lcenter_T6 : list K :=
  [#1 / #3; #1 / #3].
(** cells/t6.py polybase, 38-51 *)
Definition polybase_T6 : list (list nat) :=
  [[0; 0]; [1; 0]; [0; 1]; [2; 0]; [0; 2]; [1; 1]].
(** utils/cells/t6.py monoms_T6, 9-11 *)
Definition monoms_T6 (p : list K) : res (list K) :=
  match p with
  | [r; s] => Ok
    [#1; r; s; r ** 2; s ** 2; r * s]
  | _ => Err ValueError
  end.
(** utils/cells/t6.py shp_T6, 15-27 *)
Definition shp_T6 (p : list K) : res (list K) :=
  match p with
  | r :: s :: _ => Ok
    ([#2 * r ** 2 + #4 * r * s - #3 * r + #2 * s ** 2 - #3 * s + #1;
      #2 * r ** 2 - #1 * r;
      #2 * s ** 2 - #1 * s;
      #(-4) * r ** 2 - #4 * r * s + #4 * r;
      #4 * r * s;
      #(-4) * r * s - #4 * s ** 2 + #4 * s])
  | _ => Err ValueError
  end.
(** utils/cells/t6.py dshp_T6, 59-70 *)
Definition dshp_T6 (p : list K) : res (list (list K)) :=
  match p with
  | r :: s :: _ => Ok
    [[#4 * r + #4 * s - #3; #4 * r + #4 * s - #3];
      [#4 * r - #1; #0];
      [#0; #4 * s - #1];
      [#(-8) * r - #4 * s + #4; #(-4) * r];
      [#4 * s; #4 * r];
      [#(-4) * s; #(-4) * r - #8 * s + #4]]
  | _ => Err ValueError
  end.

(** ** Q4 *)
(** cells/q4.py lcoords, 52-60 *)
Definition lcoords_Q4 : list (list K) :=
  [[#(-1); #(-1)]; [#1; #(-1)]; [#1; #1]; [#(-1); #1]].
(** cells/q4.py lcenter, 63-71 *)
Definition lcenter_Q4 : list K :=
  [#0; #0].
(** cells/q4.py polybase, 36-49 *)
Definition polybase_Q4 : list (list nat) :=
  [[0; 0]; [1; 0]; [0; 1]; [1; 1]].
(** utils/cells/q4.py monoms_Q4, 13-15 *)
Definition monoms_Q4 (p : list K) : res (list K) :=
  match p with
  | [r; s] => Ok
    [#1; r; s; r * s]
  | _ => Err ValueError
  end.
(** utils/cells/q4.py shp_Q4, 28-38; the (n, 1) array is flattened by the callers *)
Definition shp_Q4 (p : list K) : res (list K) :=
  match p with
  | r :: s :: _ => Ok
    ([(#1 / #4) * (#1 - r) * (#1 - s);
      (#1 / #4) * (#1 + r) * (#1 - s);
      (#1 / #4) * (#1 + r) * (#1 + s);
      (#1 / #4) * (#1 - r) * (#1 + s)])
  | _ => Err ValueError
  end.
(** utils/cells/q4.py dshp_Q4, 51-61 *)
Definition dshp_Q4 (p : list K) : res (list (list K)) :=
  match p with
  | r :: s :: _ => Ok
    [[(s - #1) / #4; (r - #1) / #4];
      [(#1 - s) / #4; ((- r) - #1) / #4];
      [(s + #1) / #4; (r + #1) / #4];
      [((- s) - #1) / #4; (#1 - r) / #4]]
  | _ => Err ValueError
  end.

(** ** Q9 *)
(** cells/q9.py lcoords, 61-81 *)
Definition lcoords_Q9 : list (list K) :=
  [[#(-1); #(-1)]; [#1; #(-1)]; [#1; #1]; [#(-1); #1]; [#0; #(-1)]; [#1; #0]; [#0; #1]; [#(-1); #0];
    [#0; #0]].
(** cells/q9.py lcenter, 84-92 *)
Definition lcenter_Q9 : list K :=
  [#0; #0].
(** cells/q9.py polybase, 35-58 *)
Definition polybase_Q9 : list (list nat) :=
  [[0; 0]; [1; 0]; [0; 1]; [1; 1]; [2; 0]; [0; 2]; [1; 2]; [2; 1]; [2; 2]].
(** utils/cells/q9.py monoms_Q9, 10-25 *)
Definition monoms_Q9 (p : list K) : res (list K) :=
  match p with
  | [r; s] => Ok
    [#1; r; s; r * s; r ** 2; s ** 2; r * s ** 2; s * r ** 2; s ** 2 * r ** 2]
  | _ => Err ValueError
  end.
(** utils/cells/q9.py shp_Q9, 29-64; the (n, 1) array is flattened by the callers *)
Definition shp_Q9 (p : list K) : res (list K) :=
  match p with
  | r :: s :: _ => Ok
    ([(#1 / #4) * r ** 2 * s ** 2 - (#1 / #4) * r ** 2 * s - (#1 / #4) * r * s ** 2 + (#1 / #4) * r * s;
      (#1 / #4) * r ** 2 * s ** 2 - (#1 / #4) * r ** 2 * s + (#1 / #4) * r * s ** 2 - (#1 / #4) * r * s;
      (#1 / #4) * r ** 2 * s ** 2 + (#1 / #4) * r ** 2 * s + (#1 / #4) * r * s ** 2 + (#1 / #4) * r * s;
      (#1 / #4) * r ** 2 * s ** 2 + (#1 / #4) * r ** 2 * s - (#1 / #4) * r * s ** 2 - (#1 / #4) * r * s;
      (#(-1) / #2) * r ** 2 * s ** 2 + (#1 / #2) * r ** 2 * s + (#1 / #2) * s ** 2 - (#1 / #2) * s;
      (#(-1) / #2) * r ** 2 * s ** 2 + (#1 / #2) * r ** 2 - (#1 / #2) * r * s ** 2 + (#1 / #2) * r;
      (#(-1) / #2) * r ** 2 * s ** 2 - (#1 / #2) * r ** 2 * s + (#1 / #2) * s ** 2 + (#1 / #2) * s;
      (#(-1) / #2) * r ** 2 * s ** 2 + (#1 / #2) * r ** 2 + (#1 / #2) * r * s ** 2 - (#1 / #2) * r;
      #1 * r ** 2 * s ** 2 - #1 * r ** 2 - #1 * s ** 2 + #1])
  | _ => Err ValueError
  end.
(** utils/cells/q9.py dshp_Q9, 96-135 *)
Definition dshp_Q9 (p : list K) : res (list (list K)) :=
  match p with
  | r :: s :: _ => Ok
    [[(#1 / #2) * r * s ** 2 - (#1 / #2) * r * s - (#1 / #4) * s ** 2 + (#1 / #4) * s; (#1 / #2) * r **
        2 * s - (#1 / #4) * r ** 2 - (#1 / #2) * r * s + (#1 / #4) * r];
      [(#1 / #2) * r * s ** 2 - (#1 / #2) * r * s + (#1 / #4) * s ** 2 - (#1 / #4) * s; (#1 / #2) *
        r ** 2 * s - (#1 / #4) * r ** 2 + (#1 / #2) * r * s - (#1 / #4) * r];
      [(#1 / #2) * r * s ** 2 + (#1 / #2) * r * s + (#1 / #4) * s ** 2 + (#1 / #4) * s; (#1 / #2) *
        r ** 2 * s + (#1 / #4) * r ** 2 + (#1 / #2) * r * s + (#1 / #4) * r];
      [(#1 / #2) * r * s ** 2 + (#1 / #2) * r * s - (#1 / #4) * s ** 2 - (#1 / #4) * s; (#1 / #2) *
        r ** 2 * s + (#1 / #4) * r ** 2 - (#1 / #2) * r * s - (#1 / #4) * r];
      [#(-1) * r * s ** 2 + #1 * r * s; #(-1) * r ** 2 * s + (#1 / #2) * r ** 2 + #1 * s - (#1 / #2)];
      [#(-1) * r * s ** 2 + #1 * r - (#1 / #2) * s ** 2 + (#1 / #2); #(-1) * r ** 2 * s - #1 * r * s];
      [#(-1) * r * s ** 2 - #1 * r * s; #(-1) * r ** 2 * s - (#1 / #2) * r ** 2 + #1 * s + (#1 / #2)];
      [#(-1) * r * s ** 2 + #1 * r + (#1 / #2) * s ** 2 - (#1 / #2); #(-1) * r ** 2 * s + #1 * r * s];
      [#2 * r * s ** 2 - #2 * r; #2 * r ** 2 * s - #2 * s]]
  | _ => Err ValueError
  end.

(** ** TET4 *)
(** cells/tet4.py lcoords, 52-55 *)
Definition lcoords_TET4 : list (list K) :=
  [[#0; #0; #0]; [#1; #0; #0]; [#0; #1; #0]; [#0; #0; #1]].
(** cells/tet4.py lcenter, 58-59 *)
Definition lcenter_TET4 : list K :=
  [#1 / #3; #1 / #3; #1 / #3].
(** cells/tet4.py polybase, 36-49 *)
Definition polybase_TET4 : list (list nat) :=
  [[0; 0; 0]; [1; 0; 0]; [0; 1; 0]; [0; 0; 1]; [1; 1; 0]; [1; 0; 1]; [0; 1; 1]; [2; 0; 0]; [0; 2;
    0]; [0; 0; 2]].
(** utils/cells/tet4.py monoms_TET4_single, 9-13 *)
Definition monoms_TET4 (p : list K) : res (list K) :=
  match p with
  | [r; s; t] => Ok
    [#1; r; s; t; r * s; r * t; s * t; r ** 2; s ** 2; t ** 2]
  | _ => Err ValueError
  end.
(** utils/cells/tet4.py shp_TET4, 47-49 *)
Definition shp_TET4 (p : list K) : res (list K) :=
  match p with
  | [r; s; t] => Ok
    ([#1 - r - s - t; r; s; t])
  | _ => Err ValueError
  end.
(** utils/cells/tet4.py dshp_TET4, 81-84 *)
Definition dshp_TET4 (p : list K) : res (list (list K)) := Ok
  [[#(-1); #(-1); #(-1)]; [#1; #0; #0]; [#0; #1; #0]; [#0; #0; #1]].

(** ** TET10 *)
(** cells/tet10.py lcoords, 47-61 *)
Definition lcoords_TET10 : list (list K) :=
  [[#0; #0; #0]; [#1; #0; #0]; [#0; #1; #0]; [#0; #0; #1]; [(#1 / #2); #0; #0]; [(#1 / #2); (#1 /
    #2); #0]; [#0; (#1 / #2); #0]; [#0; #0; (#1 / #2)]; [(#1 / #2); #0; (#1 / #2)]; [#0; (#1 / #2);
    (#1 / #2)]].
(** cells/tet10.py lcenter, 64-65 *)
Definition lcenter_TET10 : list K :=
  [#1 / #3; #1 / #3; #1 / #3].
(** cells/tet10.py polybase, 31-44 *)
Definition polybase_TET10 : list (list nat) :=
  [[0; 0; 0]; [1; 0; 0]; [0; 1; 0]; [0; 0; 1]; [1; 1; 0]; [1; 0; 1]; [0; 1; 1]; [2; 0; 0]; [0; 2;
    0]; [0; 0; 2]].
(** utils/cells/tet10.py monoms_TET10_single, 9-13 *)
Definition monoms_TET10 (p : list K) : res (list K) :=
  match p with
  | [r; s; t] => Ok
    [#1; r; s; t; r * s; r * t; s * t; r ** 2; s ** 2; t ** 2]
  | _ => Err ValueError
  end.

(** ** H8 *)
(** cells/h8.py lcoords, 68-87 *)
Definition lcoords_H8 : list (list K) :=
  [[#(-1); #(-1); #(-1)]; [#1; #(-1); #(-1)]; [#1; #1; #(-1)]; [#(-1); #1; #(-1)]; [#(-1); #(-1);
    #1]; [#1; #(-1); #1]; [#1; #1; #1]; [#(-1); #1; #1]].
(** cells/h8.py lcenter, 90-98 *)
Definition lcenter_H8 : list K :=
  [#0; #0; #0].
(** cells/h8.py polybase, 52-65 *)
Definition polybase_H8 : list (list nat) :=
  [[0; 0; 0]; [1; 0; 0]; [0; 1; 0]; [0; 0; 1]; [1; 1; 0]; [1; 0; 1]; [0; 1; 1]; [1; 1; 1]].
(** utils/cells/h8.py monoms_H8_single, 9-11 *)
Definition monoms_H8 (p : list K) : res (list K) :=
  match p with
  | [r; s; t] => Ok
    [#1; r; s; t; r * s; r * t; s * t; r * s * t]
  | _ => Err ValueError
  end.
(** utils/cells/h8.py shp_H8, 70-139 *)
Definition shp_H8 (p : list K) : res (list K) :=
  match p with
  | [r; s; t] => Ok
    ([(#(-1) / #8) * r * s * t + (#1 / #8) * r * s + (#1 / #8) * r * t - (#1 / #8) * r + (#1 / #8) * s *
        t - (#1 / #8) * s - (#1 / #8) * t + (#1 / #8);
      (#1 / #8) * r * s * t - (#1 / #8) * r * s - (#1 / #8) * r * t + (#1 / #8) * r + (#1 / #8) * s
        * t - (#1 / #8) * s - (#1 / #8) * t + (#1 / #8);
      (#(-1) / #8) * r * s * t + (#1 / #8) * r * s - (#1 / #8) * r * t + (#1 / #8) * r - (#1 / #8) *
        s * t + (#1 / #8) * s - (#1 / #8) * t + (#1 / #8);
      (#1 / #8) * r * s * t - (#1 / #8) * r * s + (#1 / #8) * r * t - (#1 / #8) * r - (#1 / #8) * s
        * t + (#1 / #8) * s - (#1 / #8) * t + (#1 / #8);
      (#1 / #8) * r * s * t + (#1 / #8) * r * s - (#1 / #8) * r * t - (#1 / #8) * r - (#1 / #8) * s
        * t - (#1 / #8) * s + (#1 / #8) * t + (#1 / #8);
      (#(-1) / #8) * r * s * t - (#1 / #8) * r * s + (#1 / #8) * r * t + (#1 / #8) * r - (#1 / #8) *
        s * t - (#1 / #8) * s + (#1 / #8) * t + (#1 / #8);
      (#1 / #8) * r * s * t + (#1 / #8) * r * s + (#1 / #8) * r * t + (#1 / #8) * r + (#1 / #8) * s
        * t + (#1 / #8) * s + (#1 / #8) * t + (#1 / #8);
      (#(-1) / #8) * r * s * t - (#1 / #8) * r * s - (#1 / #8) * r * t - (#1 / #8) * r + (#1 / #8) *
        s * t + (#1 / #8) * s + (#1 / #8) * t + (#1 / #8)])
  | _ => Err ValueError
  end.
(** utils/cells/h8.py dshp_H8, 171-216 *)
Definition dshp_H8 (p : list K) : res (list (list K)) :=
  match p with
  | [r; s; t] => Ok
    [[(#(-1) / #8) * s * t + (#1 / #8) * s + (#1 / #8) * t - (#1 / #8); (#(-1) / #8) * r * t + (#1 / #8)
        * r + (#1 / #8) * t - (#1 / #8); (#(-1) / #8) * r * s + (#1 / #8) * r + (#1 / #8) * s - (#1
        / #8)];
      [(#1 / #8) * s * t - (#1 / #8) * s - (#1 / #8) * t + (#1 / #8); (#1 / #8) * r * t - (#1 / #8)
        * r + (#1 / #8) * t - (#1 / #8); (#1 / #8) * r * s - (#1 / #8) * r + (#1 / #8) * s - (#1 /
        #8)];
      [(#(-1) / #8) * s * t + (#1 / #8) * s - (#1 / #8) * t + (#1 / #8); (#(-1) / #8) * r * t + (#1
        / #8) * r - (#1 / #8) * t + (#1 / #8); (#(-1) / #8) * r * s - (#1 / #8) * r - (#1 / #8) * s
        - (#1 / #8)];
      [(#1 / #8) * s * t - (#1 / #8) * s + (#1 / #8) * t - (#1 / #8); (#1 / #8) * r * t - (#1 / #8)
        * r - (#1 / #8) * t + (#1 / #8); (#1 / #8) * r * s + (#1 / #8) * r - (#1 / #8) * s - (#1 /
        #8)];
      [(#1 / #8) * s * t + (#1 / #8) * s - (#1 / #8) * t - (#1 / #8); (#1 / #8) * r * t + (#1 / #8)
        * r - (#1 / #8) * t - (#1 / #8); (#1 / #8) * r * s - (#1 / #8) * r - (#1 / #8) * s + (#1 /
        #8)];
      [(#(-1) / #8) * s * t - (#1 / #8) * s + (#1 / #8) * t + (#1 / #8); (#(-1) / #8) * r * t - (#1
        / #8) * r - (#1 / #8) * t - (#1 / #8); (#(-1) / #8) * r * s + (#1 / #8) * r - (#1 / #8) * s
        + (#1 / #8)];
      [(#1 / #8) * s * t + (#1 / #8) * s + (#1 / #8) * t + (#1 / #8); (#1 / #8) * r * t + (#1 / #8)
        * r + (#1 / #8) * t + (#1 / #8); (#1 / #8) * r * s + (#1 / #8) * r + (#1 / #8) * s + (#1 /
        #8)];
      [(#(-1) / #8) * s * t - (#1 / #8) * s - (#1 / #8) * t - (#1 / #8); (#(-1) / #8) * r * t - (#1
        / #8) * r + (#1 / #8) * t + (#1 / #8); (#(-1) / #8) * r * s - (#1 / #8) * r + (#1 / #8) * s
        + (#1 / #8)]]
  | _ => Err ValueError
  end.

(** ** H27 *)
(** cells/h27.py lcoords, 107-146 *)
Definition lcoords_H27 : list (list K) :=
  [[#(-1); #(-1); #(-1)]; [#1; #(-1); #(-1)]; [#1; #1; #(-1)]; [#(-1); #1; #(-1)]; [#(-1); #(-1);
    #1]; [#1; #(-1); #1]; [#1; #1; #1]; [#(-1); #1; #1]; [#0; #(-1); #(-1)]; [#1; #0; #(-1)]; [#0;
    #1; #(-1)]; [#(-1); #0; #(-1)]; [#0; #(-1); #1]; [#1; #0; #1]; [#0; #1; #1]; [#(-1); #0; #1];
    [#(-1); #(-1); #0]; [#1; #(-1); #0]; [#1; #1; #0]; [#(-1); #1; #0]; [#(-1); #0; #0]; [#1; #0;
    #0]; [#0; #(-1); #0]; [#0; #1; #0]; [#0; #0; #(-1)]; [#0; #0; #1]; [#0; #0; #0]].
(** cells/h27.py lcenter, 149-157 *)
Definition lcenter_H27 : list K :=
  [#0; #0; #0].
(** cells/h27.py polybase, 62-104 *)
Definition polybase_H27 : list (list nat) :=
  [[0; 0; 0]; [1; 0; 0]; [0; 1; 0]; [0; 0; 1]; [0; 1; 1]; [1; 0; 1]; [1; 1; 0]; [1; 1; 1]; [2; 0;
    0]; [0; 2; 0]; [0; 0; 2]; [2; 1; 0]; [1; 2; 0]; [1; 0; 2]; [2; 0; 1]; [0; 2; 1]; [0; 1; 2]; [2;
    1; 1]; [1; 2; 1]; [1; 1; 2]; [2; 2; 0]; [0; 2; 2]; [2; 0; 2]; [2; 2; 2]; [2; 2; 1]; [2; 1; 2];
    [1; 2; 2]].
(** utils/cells/h27.py monoms_H27_single, 10-43 *)
Definition monoms_H27 (p : list K) : res (list K) :=
  match p with
  | [r; s; t] => Ok
    [#1; r; s; t; s * t; r * t; r * s; r * s * t; r ** 2; s ** 2; t ** 2; r ** 2 * s; r * s ** 2; r
      * t ** 2; r ** 2 * t; s ** 2 * t; s * t ** 2; r ** 2 * s * t; r * s ** 2 * t; r * s * t ** 2;
      r ** 2 * s ** 2; s ** 2 * t ** 2; r ** 2 * t ** 2; r ** 2 * s ** 2 * t ** 2; r ** 2 * s ** 2 *
      t; r ** 2 * s * t ** 2; r * s ** 2 * t ** 2]
  | _ => Err ValueError
  end.
(** utils/cells/h27.py shp_H27, 77-298 *)
Definition shp_H27 (p : list K) : res (list K) :=
  match p with
  | [r; s; t] => Ok
    ([(#1 / #8) * r ** 2 * s ** 2 * t ** 2 - (#1 / #8) * r ** 2 * s ** 2 * t - (#1 / #8) * r ** 2 * s *
        t ** 2 + (#1 / #8) * r ** 2 * s * t - (#1 / #8) * r * s ** 2 * t ** 2 + (#1 / #8) * r * s **
        2 * t + (#1 / #8) * r * s * t ** 2 - (#1 / #8) * r * s * t;
      (#1 / #8) * r ** 2 * s ** 2 * t ** 2 - (#1 / #8) * r ** 2 * s ** 2 * t - (#1 / #8) * r ** 2 *
        s * t ** 2 + (#1 / #8) * r ** 2 * s * t + (#1 / #8) * r * s ** 2 * t ** 2 - (#1 / #8) * r *
        s ** 2 * t - (#1 / #8) * r * s * t ** 2 + (#1 / #8) * r * s * t;
      (#1 / #8) * r ** 2 * s ** 2 * t ** 2 - (#1 / #8) * r ** 2 * s ** 2 * t + (#1 / #8) * r ** 2 *
        s * t ** 2 - (#1 / #8) * r ** 2 * s * t + (#1 / #8) * r * s ** 2 * t ** 2 - (#1 / #8) * r *
        s ** 2 * t + (#1 / #8) * r * s * t ** 2 - (#1 / #8) * r * s * t;
      (#1 / #8) * r ** 2 * s ** 2 * t ** 2 - (#1 / #8) * r ** 2 * s ** 2 * t + (#1 / #8) * r ** 2 *
        s * t ** 2 - (#1 / #8) * r ** 2 * s * t - (#1 / #8) * r * s ** 2 * t ** 2 + (#1 / #8) * r *
        s ** 2 * t - (#1 / #8) * r * s * t ** 2 + (#1 / #8) * r * s * t;
      (#1 / #8) * r ** 2 * s ** 2 * t ** 2 + (#1 / #8) * r ** 2 * s ** 2 * t - (#1 / #8) * r ** 2 *
        s * t ** 2 - (#1 / #8) * r ** 2 * s * t - (#1 / #8) * r * s ** 2 * t ** 2 - (#1 / #8) * r *
        s ** 2 * t + (#1 / #8) * r * s * t ** 2 + (#1 / #8) * r * s * t;
      (#1 / #8) * r ** 2 * s ** 2 * t ** 2 + (#1 / #8) * r ** 2 * s ** 2 * t - (#1 / #8) * r ** 2 *
        s * t ** 2 - (#1 / #8) * r ** 2 * s * t + (#1 / #8) * r * s ** 2 * t ** 2 + (#1 / #8) * r *
        s ** 2 * t - (#1 / #8) * r * s * t ** 2 - (#1 / #8) * r * s * t;
      (#1 / #8) * r ** 2 * s ** 2 * t ** 2 + (#1 / #8) * r ** 2 * s ** 2 * t + (#1 / #8) * r ** 2 *
        s * t ** 2 + (#1 / #8) * r ** 2 * s * t + (#1 / #8) * r * s ** 2 * t ** 2 + (#1 / #8) * r *
        s ** 2 * t + (#1 / #8) * r * s * t ** 2 + (#1 / #8) * r * s * t;
      (#1 / #8) * r ** 2 * s ** 2 * t ** 2 + (#1 / #8) * r ** 2 * s ** 2 * t + (#1 / #8) * r ** 2 *
        s * t ** 2 + (#1 / #8) * r ** 2 * s * t - (#1 / #8) * r * s ** 2 * t ** 2 - (#1 / #8) * r *
        s ** 2 * t - (#1 / #8) * r * s * t ** 2 - (#1 / #8) * r * s * t;
      (#(-1) / #4) * r ** 2 * s ** 2 * t ** 2 + (#1 / #4) * r ** 2 * s ** 2 * t + (#1 / #4) * r ** 2
        * s * t ** 2 - (#1 / #4) * r ** 2 * s * t + (#1 / #4) * s ** 2 * t ** 2 - (#1 / #4) * s ** 2
        * t - (#1 / #4) * s * t ** 2 + (#1 / #4) * s * t;
      (#(-1) / #4) * r ** 2 * s ** 2 * t ** 2 + (#1 / #4) * r ** 2 * s ** 2 * t + (#1 / #4) * r ** 2
        * t ** 2 - (#1 / #4) * r ** 2 * t - (#1 / #4) * r * s ** 2 * t ** 2 + (#1 / #4) * r * s ** 2
        * t + (#1 / #4) * r * t ** 2 - (#1 / #4) * r * t;
      (#(-1) / #4) * r ** 2 * s ** 2 * t ** 2 + (#1 / #4) * r ** 2 * s ** 2 * t - (#1 / #4) * r ** 2
        * s * t ** 2 + (#1 / #4) * r ** 2 * s * t + (#1 / #4) * s ** 2 * t ** 2 - (#1 / #4) * s ** 2
        * t + (#1 / #4) * s * t ** 2 - (#1 / #4) * s * t;
      (#(-1) / #4) * r ** 2 * s ** 2 * t ** 2 + (#1 / #4) * r ** 2 * s ** 2 * t + (#1 / #4) * r ** 2
        * t ** 2 - (#1 / #4) * r ** 2 * t + (#1 / #4) * r * s ** 2 * t ** 2 - (#1 / #4) * r * s ** 2
        * t - (#1 / #4) * r * t ** 2 + (#1 / #4) * r * t;
      (#(-1) / #4) * r ** 2 * s ** 2 * t ** 2 - (#1 / #4) * r ** 2 * s ** 2 * t + (#1 / #4) * r ** 2
        * s * t ** 2 + (#1 / #4) * r ** 2 * s * t + (#1 / #4) * s ** 2 * t ** 2 + (#1 / #4) * s ** 2
        * t - (#1 / #4) * s * t ** 2 - (#1 / #4) * s * t;
      (#(-1) / #4) * r ** 2 * s ** 2 * t ** 2 - (#1 / #4) * r ** 2 * s ** 2 * t + (#1 / #4) * r ** 2
        * t ** 2 + (#1 / #4) * r ** 2 * t - (#1 / #4) * r * s ** 2 * t ** 2 - (#1 / #4) * r * s ** 2
        * t + (#1 / #4) * r * t ** 2 + (#1 / #4) * r * t;
      (#(-1) / #4) * r ** 2 * s ** 2 * t ** 2 - (#1 / #4) * r ** 2 * s ** 2 * t - (#1 / #4) * r ** 2
        * s * t ** 2 - (#1 / #4) * r ** 2 * s * t + (#1 / #4) * s ** 2 * t ** 2 + (#1 / #4) * s ** 2
        * t + (#1 / #4) * s * t ** 2 + (#1 / #4) * s * t;
      (#(-1) / #4) * r ** 2 * s ** 2 * t ** 2 - (#1 / #4) * r ** 2 * s ** 2 * t + (#1 / #4) * r ** 2
        * t ** 2 + (#1 / #4) * r ** 2 * t + (#1 / #4) * r * s ** 2 * t ** 2 + (#1 / #4) * r * s ** 2
        * t - (#1 / #4) * r * t ** 2 - (#1 / #4) * r * t;
      (#(-1) / #4) * r ** 2 * s ** 2 * t ** 2 + (#1 / #4) * r ** 2 * s ** 2 + (#1 / #4) * r ** 2 * s
        * t ** 2 - (#1 / #4) * r ** 2 * s + (#1 / #4) * r * s ** 2 * t ** 2 - (#1 / #4) * r * s ** 2
        - (#1 / #4) * r * s * t ** 2 + (#1 / #4) * r * s;
      (#(-1) / #4) * r ** 2 * s ** 2 * t ** 2 + (#1 / #4) * r ** 2 * s ** 2 + (#1 / #4) * r ** 2 * s
        * t ** 2 - (#1 / #4) * r ** 2 * s - (#1 / #4) * r * s ** 2 * t ** 2 + (#1 / #4) * r * s ** 2
        + (#1 / #4) * r * s * t ** 2 - (#1 / #4) * r * s;
      (#(-1) / #4) * r ** 2 * s ** 2 * t ** 2 + (#1 / #4) * r ** 2 * s ** 2 - (#1 / #4) * r ** 2 * s
        * t ** 2 + (#1 / #4) * r ** 2 * s - (#1 / #4) * r * s ** 2 * t ** 2 + (#1 / #4) * r * s ** 2
        - (#1 / #4) * r * s * t ** 2 + (#1 / #4) * r * s;
      (#(-1) / #4) * r ** 2 * s ** 2 * t ** 2 + (#1 / #4) * r ** 2 * s ** 2 - (#1 / #4) * r ** 2 * s
        * t ** 2 + (#1 / #4) * r ** 2 * s + (#1 / #4) * r * s ** 2 * t ** 2 - (#1 / #4) * r * s ** 2
        + (#1 / #4) * r * s * t ** 2 - (#1 / #4) * r * s;
      (#1 / #2) * r ** 2 * s ** 2 * t ** 2 - (#1 / #2) * r ** 2 * s ** 2 - (#1 / #2) * r ** 2 * t **
        2 + (#1 / #2) * r ** 2 - (#1 / #2) * r * s ** 2 * t ** 2 + (#1 / #2) * r * s ** 2 + (#1 /
        #2) * r * t ** 2 - (#1 / #2) * r;
      (#1 / #2) * r ** 2 * s ** 2 * t ** 2 - (#1 / #2) * r ** 2 * s ** 2 - (#1 / #2) * r ** 2 * t **
        2 + (#1 / #2) * r ** 2 + (#1 / #2) * r * s ** 2 * t ** 2 - (#1 / #2) * r * s ** 2 - (#1 /
        #2) * r * t ** 2 + (#1 / #2) * r;
      (#1 / #2) * r ** 2 * s ** 2 * t ** 2 - (#1 / #2) * r ** 2 * s ** 2 - (#1 / #2) * r ** 2 * s *
        t ** 2 + (#1 / #2) * r ** 2 * s - (#1 / #2) * s ** 2 * t ** 2 + (#1 / #2) * s ** 2 + (#1 /
        #2) * s * t ** 2 - (#1 / #2) * s;
      (#1 / #2) * r ** 2 * s ** 2 * t ** 2 - (#1 / #2) * r ** 2 * s ** 2 + (#1 / #2) * r ** 2 * s *
        t ** 2 - (#1 / #2) * r ** 2 * s - (#1 / #2) * s ** 2 * t ** 2 + (#1 / #2) * s ** 2 - (#1 /
        #2) * s * t ** 2 + (#1 / #2) * s;
      (#1 / #2) * r ** 2 * s ** 2 * t ** 2 - (#1 / #2) * r ** 2 * s ** 2 * t - (#1 / #2) * r ** 2 *
        t ** 2 + (#1 / #2) * r ** 2 * t - (#1 / #2) * s ** 2 * t ** 2 + (#1 / #2) * s ** 2 * t + (#1
        / #2) * t ** 2 - (#1 / #2) * t;
      (#1 / #2) * r ** 2 * s ** 2 * t ** 2 + (#1 / #2) * r ** 2 * s ** 2 * t - (#1 / #2) * r ** 2 *
        t ** 2 - (#1 / #2) * r ** 2 * t - (#1 / #2) * s ** 2 * t ** 2 - (#1 / #2) * s ** 2 * t + (#1
        / #2) * t ** 2 + (#1 / #2) * t;
      #(-1) * r ** 2 * s ** 2 * t ** 2 + #1 * r ** 2 * s ** 2 + #1 * r ** 2 * t ** 2 - #1 * r ** 2 +
        #1 * s ** 2 * t ** 2 - #1 * s ** 2 - #1 * t ** 2 + #1])
  | _ => Err ValueError
  end.
(** utils/cells/h27.py dshp_H27, 330-929 *)
Definition dshp_H27 (p : list K) : res (list (list K)) :=
  match p with
  | [r; s; t] => Ok
    [[(#1 / #4) * r * s ** 2 * t ** 2 - (#1 / #4) * r * s ** 2 * t - (#1 / #4) * r * s * t ** 2 + (#1 /
        #4) * r * s * t - (#1 / #8) * s ** 2 * t ** 2 + (#1 / #8) * s ** 2 * t + (#1 / #8) * s * t
        ** 2 - (#1 / #8) * s * t; (#1 / #4) * r ** 2 * s * t ** 2 - (#1 / #4) * r ** 2 * s * t - (#1
        / #8) * r ** 2 * t ** 2 + (#1 / #8) * r ** 2 * t - (#1 / #4) * r * s * t ** 2 + (#1 / #4) *
        r * s * t + (#1 / #8) * r * t ** 2 - (#1 / #8) * r * t; (#1 / #4) * r ** 2 * s ** 2 * t -
        (#1 / #8) * r ** 2 * s ** 2 - (#1 / #4) * r ** 2 * s * t + (#1 / #8) * r ** 2 * s - (#1 /
        #4) * r * s ** 2 * t + (#1 / #8) * r * s ** 2 + (#1 / #4) * r * s * t - (#1 / #8) * r * s];
      [(#1 / #4) * r * s ** 2 * t ** 2 - (#1 / #4) * r * s ** 2 * t - (#1 / #4) * r * s * t ** 2 +
        (#1 / #4) * r * s * t + (#1 / #8) * s ** 2 * t ** 2 - (#1 / #8) * s ** 2 * t - (#1 / #8) * s
        * t ** 2 + (#1 / #8) * s * t; (#1 / #4) * r ** 2 * s * t ** 2 - (#1 / #4) * r ** 2 * s * t -
        (#1 / #8) * r ** 2 * t ** 2 + (#1 / #8) * r ** 2 * t + (#1 / #4) * r * s * t ** 2 - (#1 /
        #4) * r * s * t - (#1 / #8) * r * t ** 2 + (#1 / #8) * r * t; (#1 / #4) * r ** 2 * s ** 2 *
        t - (#1 / #8) * r ** 2 * s ** 2 - (#1 / #4) * r ** 2 * s * t + (#1 / #8) * r ** 2 * s + (#1
        / #4) * r * s ** 2 * t - (#1 / #8) * r * s ** 2 - (#1 / #4) * r * s * t + (#1 / #8) * r *
        s];
      [(#1 / #4) * r * s ** 2 * t ** 2 - (#1 / #4) * r * s ** 2 * t + (#1 / #4) * r * s * t ** 2 -
        (#1 / #4) * r * s * t + (#1 / #8) * s ** 2 * t ** 2 - (#1 / #8) * s ** 2 * t + (#1 / #8) * s
        * t ** 2 - (#1 / #8) * s * t; (#1 / #4) * r ** 2 * s * t ** 2 - (#1 / #4) * r ** 2 * s * t +
        (#1 / #8) * r ** 2 * t ** 2 - (#1 / #8) * r ** 2 * t + (#1 / #4) * r * s * t ** 2 - (#1 /
        #4) * r * s * t + (#1 / #8) * r * t ** 2 - (#1 / #8) * r * t; (#1 / #4) * r ** 2 * s ** 2 *
        t - (#1 / #8) * r ** 2 * s ** 2 + (#1 / #4) * r ** 2 * s * t - (#1 / #8) * r ** 2 * s + (#1
        / #4) * r * s ** 2 * t - (#1 / #8) * r * s ** 2 + (#1 / #4) * r * s * t - (#1 / #8) * r *
        s];
      [(#1 / #4) * r * s ** 2 * t ** 2 - (#1 / #4) * r * s ** 2 * t + (#1 / #4) * r * s * t ** 2 -
        (#1 / #4) * r * s * t - (#1 / #8) * s ** 2 * t ** 2 + (#1 / #8) * s ** 2 * t - (#1 / #8) * s
        * t ** 2 + (#1 / #8) * s * t; (#1 / #4) * r ** 2 * s * t ** 2 - (#1 / #4) * r ** 2 * s * t +
        (#1 / #8) * r ** 2 * t ** 2 - (#1 / #8) * r ** 2 * t - (#1 / #4) * r * s * t ** 2 + (#1 /
        #4) * r * s * t - (#1 / #8) * r * t ** 2 + (#1 / #8) * r * t; (#1 / #4) * r ** 2 * s ** 2 *
        t - (#1 / #8) * r ** 2 * s ** 2 + (#1 / #4) * r ** 2 * s * t - (#1 / #8) * r ** 2 * s - (#1
        / #4) * r * s ** 2 * t + (#1 / #8) * r * s ** 2 - (#1 / #4) * r * s * t + (#1 / #8) * r *
        s];
      [(#1 / #4) * r * s ** 2 * t ** 2 + (#1 / #4) * r * s ** 2 * t - (#1 / #4) * r * s * t ** 2 -
        (#1 / #4) * r * s * t - (#1 / #8) * s ** 2 * t ** 2 - (#1 / #8) * s ** 2 * t + (#1 / #8) * s
        * t ** 2 + (#1 / #8) * s * t; (#1 / #4) * r ** 2 * s * t ** 2 + (#1 / #4) * r ** 2 * s * t -
        (#1 / #8) * r ** 2 * t ** 2 - (#1 / #8) * r ** 2 * t - (#1 / #4) * r * s * t ** 2 - (#1 /
        #4) * r * s * t + (#1 / #8) * r * t ** 2 + (#1 / #8) * r * t; (#1 / #4) * r ** 2 * s ** 2 *
        t + (#1 / #8) * r ** 2 * s ** 2 - (#1 / #4) * r ** 2 * s * t - (#1 / #8) * r ** 2 * s - (#1
        / #4) * r * s ** 2 * t - (#1 / #8) * r * s ** 2 + (#1 / #4) * r * s * t + (#1 / #8) * r *
        s];
      [(#1 / #4) * r * s ** 2 * t ** 2 + (#1 / #4) * r * s ** 2 * t - (#1 / #4) * r * s * t ** 2 -
        (#1 / #4) * r * s * t + (#1 / #8) * s ** 2 * t ** 2 + (#1 / #8) * s ** 2 * t - (#1 / #8) * s
        * t ** 2 - (#1 / #8) * s * t; (#1 / #4) * r ** 2 * s * t ** 2 + (#1 / #4) * r ** 2 * s * t -
        (#1 / #8) * r ** 2 * t ** 2 - (#1 / #8) * r ** 2 * t + (#1 / #4) * r * s * t ** 2 + (#1 /
        #4) * r * s * t - (#1 / #8) * r * t ** 2 - (#1 / #8) * r * t; (#1 / #4) * r ** 2 * s ** 2 *
        t + (#1 / #8) * r ** 2 * s ** 2 - (#1 / #4) * r ** 2 * s * t - (#1 / #8) * r ** 2 * s + (#1
        / #4) * r * s ** 2 * t + (#1 / #8) * r * s ** 2 - (#1 / #4) * r * s * t - (#1 / #8) * r *
        s];
      [(#1 / #4) * r * s ** 2 * t ** 2 + (#1 / #4) * r * s ** 2 * t + (#1 / #4) * r * s * t ** 2 +
        (#1 / #4) * r * s * t + (#1 / #8) * s ** 2 * t ** 2 + (#1 / #8) * s ** 2 * t + (#1 / #8) * s
        * t ** 2 + (#1 / #8) * s * t; (#1 / #4) * r ** 2 * s * t ** 2 + (#1 / #4) * r ** 2 * s * t +
        (#1 / #8) * r ** 2 * t ** 2 + (#1 / #8) * r ** 2 * t + (#1 / #4) * r * s * t ** 2 + (#1 /
        #4) * r * s * t + (#1 / #8) * r * t ** 2 + (#1 / #8) * r * t; (#1 / #4) * r ** 2 * s ** 2 *
        t + (#1 / #8) * r ** 2 * s ** 2 + (#1 / #4) * r ** 2 * s * t + (#1 / #8) * r ** 2 * s + (#1
        / #4) * r * s ** 2 * t + (#1 / #8) * r * s ** 2 + (#1 / #4) * r * s * t + (#1 / #8) * r *
        s];
      [(#1 / #4) * r * s ** 2 * t ** 2 + (#1 / #4) * r * s ** 2 * t + (#1 / #4) * r * s * t ** 2 +
        (#1 / #4) * r * s * t - (#1 / #8) * s ** 2 * t ** 2 - (#1 / #8) * s ** 2 * t - (#1 / #8) * s
        * t ** 2 - (#1 / #8) * s * t; (#1 / #4) * r ** 2 * s * t ** 2 + (#1 / #4) * r ** 2 * s * t +
        (#1 / #8) * r ** 2 * t ** 2 + (#1 / #8) * r ** 2 * t - (#1 / #4) * r * s * t ** 2 - (#1 /
        #4) * r * s * t - (#1 / #8) * r * t ** 2 - (#1 / #8) * r * t; (#1 / #4) * r ** 2 * s ** 2 *
        t + (#1 / #8) * r ** 2 * s ** 2 + (#1 / #4) * r ** 2 * s * t + (#1 / #8) * r ** 2 * s - (#1
        / #4) * r * s ** 2 * t - (#1 / #8) * r * s ** 2 - (#1 / #4) * r * s * t - (#1 / #8) * r *
        s];
      [(#(-1) / #2) * r * s ** 2 * t ** 2 + (#1 / #2) * r * s ** 2 * t + (#1 / #2) * r * s * t ** 2
        - (#1 / #2) * r * s * t; (#(-1) / #2) * r ** 2 * s * t ** 2 + (#1 / #2) * r ** 2 * s * t +
        (#1 / #4) * r ** 2 * t ** 2 - (#1 / #4) * r ** 2 * t + (#1 / #2) * s * t ** 2 - (#1 / #2) *
        s * t - (#1 / #4) * t ** 2 + (#1 / #4) * t; (#(-1) / #2) * r ** 2 * s ** 2 * t + (#1 / #4) *
        r ** 2 * s ** 2 + (#1 / #2) * r ** 2 * s * t - (#1 / #4) * r ** 2 * s + (#1 / #2) * s ** 2 *
        t - (#1 / #4) * s ** 2 - (#1 / #2) * s * t + (#1 / #4) * s];
      [(#(-1) / #2) * r * s ** 2 * t ** 2 + (#1 / #2) * r * s ** 2 * t + (#1 / #2) * r * t ** 2 -
        (#1 / #2) * r * t - (#1 / #4) * s ** 2 * t ** 2 + (#1 / #4) * s ** 2 * t + (#1 / #4) * t **
        2 - (#1 / #4) * t; (#(-1) / #2) * r ** 2 * s * t ** 2 + (#1 / #2) * r ** 2 * s * t - (#1 /
        #2) * r * s * t ** 2 + (#1 / #2) * r * s * t; (#(-1) / #2) * r ** 2 * s ** 2 * t + (#1 / #4)
        * r ** 2 * s ** 2 + (#1 / #2) * r ** 2 * t - (#1 / #4) * r ** 2 - (#1 / #2) * r * s ** 2 * t
        + (#1 / #4) * r * s ** 2 + (#1 / #2) * r * t - (#1 / #4) * r];
      [(#(-1) / #2) * r * s ** 2 * t ** 2 + (#1 / #2) * r * s ** 2 * t - (#1 / #2) * r * s * t ** 2
        + (#1 / #2) * r * s * t; (#(-1) / #2) * r ** 2 * s * t ** 2 + (#1 / #2) * r ** 2 * s * t -
        (#1 / #4) * r ** 2 * t ** 2 + (#1 / #4) * r ** 2 * t + (#1 / #2) * s * t ** 2 - (#1 / #2) *
        s * t + (#1 / #4) * t ** 2 - (#1 / #4) * t; (#(-1) / #2) * r ** 2 * s ** 2 * t + (#1 / #4) *
        r ** 2 * s ** 2 - (#1 / #2) * r ** 2 * s * t + (#1 / #4) * r ** 2 * s + (#1 / #2) * s ** 2 *
        t - (#1 / #4) * s ** 2 + (#1 / #2) * s * t - (#1 / #4) * s];
      [(#(-1) / #2) * r * s ** 2 * t ** 2 + (#1 / #2) * r * s ** 2 * t + (#1 / #2) * r * t ** 2 -
        (#1 / #2) * r * t + (#1 / #4) * s ** 2 * t ** 2 - (#1 / #4) * s ** 2 * t - (#1 / #4) * t **
        2 + (#1 / #4) * t; (#(-1) / #2) * r ** 2 * s * t ** 2 + (#1 / #2) * r ** 2 * s * t + (#1 /
        #2) * r * s * t ** 2 - (#1 / #2) * r * s * t; (#(-1) / #2) * r ** 2 * s ** 2 * t + (#1 / #4)
        * r ** 2 * s ** 2 + (#1 / #2) * r ** 2 * t - (#1 / #4) * r ** 2 + (#1 / #2) * r * s ** 2 * t
        - (#1 / #4) * r * s ** 2 - (#1 / #2) * r * t + (#1 / #4) * r];
      [(#(-1) / #2) * r * s ** 2 * t ** 2 - (#1 / #2) * r * s ** 2 * t + (#1 / #2) * r * s * t ** 2
        + (#1 / #2) * r * s * t; (#(-1) / #2) * r ** 2 * s * t ** 2 - (#1 / #2) * r ** 2 * s * t +
        (#1 / #4) * r ** 2 * t ** 2 + (#1 / #4) * r ** 2 * t + (#1 / #2) * s * t ** 2 + (#1 / #2) *
        s * t - (#1 / #4) * t ** 2 - (#1 / #4) * t; (#(-1) / #2) * r ** 2 * s ** 2 * t - (#1 / #4) *
        r ** 2 * s ** 2 + (#1 / #2) * r ** 2 * s * t + (#1 / #4) * r ** 2 * s + (#1 / #2) * s ** 2 *
        t + (#1 / #4) * s ** 2 - (#1 / #2) * s * t - (#1 / #4) * s];
      [(#(-1) / #2) * r * s ** 2 * t ** 2 - (#1 / #2) * r * s ** 2 * t + (#1 / #2) * r * t ** 2 +
        (#1 / #2) * r * t - (#1 / #4) * s ** 2 * t ** 2 - (#1 / #4) * s ** 2 * t + (#1 / #4) * t **
        2 + (#1 / #4) * t; (#(-1) / #2) * r ** 2 * s * t ** 2 - (#1 / #2) * r ** 2 * s * t - (#1 /
        #2) * r * s * t ** 2 - (#1 / #2) * r * s * t; (#(-1) / #2) * r ** 2 * s ** 2 * t - (#1 / #4)
        * r ** 2 * s ** 2 + (#1 / #2) * r ** 2 * t + (#1 / #4) * r ** 2 - (#1 / #2) * r * s ** 2 * t
        - (#1 / #4) * r * s ** 2 + (#1 / #2) * r * t + (#1 / #4) * r];
      [(#(-1) / #2) * r * s ** 2 * t ** 2 - (#1 / #2) * r * s ** 2 * t - (#1 / #2) * r * s * t ** 2
        - (#1 / #2) * r * s * t; (#(-1) / #2) * r ** 2 * s * t ** 2 - (#1 / #2) * r ** 2 * s * t -
        (#1 / #4) * r ** 2 * t ** 2 - (#1 / #4) * r ** 2 * t + (#1 / #2) * s * t ** 2 + (#1 / #2) *
        s * t + (#1 / #4) * t ** 2 + (#1 / #4) * t; (#(-1) / #2) * r ** 2 * s ** 2 * t - (#1 / #4) *
        r ** 2 * s ** 2 - (#1 / #2) * r ** 2 * s * t - (#1 / #4) * r ** 2 * s + (#1 / #2) * s ** 2 *
        t + (#1 / #4) * s ** 2 + (#1 / #2) * s * t + (#1 / #4) * s];
      [(#(-1) / #2) * r * s ** 2 * t ** 2 - (#1 / #2) * r * s ** 2 * t + (#1 / #2) * r * t ** 2 +
        (#1 / #2) * r * t + (#1 / #4) * s ** 2 * t ** 2 + (#1 / #4) * s ** 2 * t - (#1 / #4) * t **
        2 - (#1 / #4) * t; (#(-1) / #2) * r ** 2 * s * t ** 2 - (#1 / #2) * r ** 2 * s * t + (#1 /
        #2) * r * s * t ** 2 + (#1 / #2) * r * s * t; (#(-1) / #2) * r ** 2 * s ** 2 * t - (#1 / #4)
        * r ** 2 * s ** 2 + (#1 / #2) * r ** 2 * t + (#1 / #4) * r ** 2 + (#1 / #2) * r * s ** 2 * t
        + (#1 / #4) * r * s ** 2 - (#1 / #2) * r * t - (#1 / #4) * r];
      [(#(-1) / #2) * r * s ** 2 * t ** 2 + (#1 / #2) * r * s ** 2 + (#1 / #2) * r * s * t ** 2 -
        (#1 / #2) * r * s + (#1 / #4) * s ** 2 * t ** 2 - (#1 / #4) * s ** 2 - (#1 / #4) * s * t **
        2 + (#1 / #4) * s; (#(-1) / #2) * r ** 2 * s * t ** 2 + (#1 / #2) * r ** 2 * s + (#1 / #4) *
        r ** 2 * t ** 2 - (#1 / #4) * r ** 2 + (#1 / #2) * r * s * t ** 2 - (#1 / #2) * r * s - (#1
        / #4) * r * t ** 2 + (#1 / #4) * r; (#(-1) / #2) * r ** 2 * s ** 2 * t + (#1 / #2) * r ** 2
        * s * t + (#1 / #2) * r * s ** 2 * t - (#1 / #2) * r * s * t];
      [(#(-1) / #2) * r * s ** 2 * t ** 2 + (#1 / #2) * r * s ** 2 + (#1 / #2) * r * s * t ** 2 -
        (#1 / #2) * r * s - (#1 / #4) * s ** 2 * t ** 2 + (#1 / #4) * s ** 2 + (#1 / #4) * s * t **
        2 - (#1 / #4) * s; (#(-1) / #2) * r ** 2 * s * t ** 2 + (#1 / #2) * r ** 2 * s + (#1 / #4) *
        r ** 2 * t ** 2 - (#1 / #4) * r ** 2 - (#1 / #2) * r * s * t ** 2 + (#1 / #2) * r * s + (#1
        / #4) * r * t ** 2 - (#1 / #4) * r; (#(-1) / #2) * r ** 2 * s ** 2 * t + (#1 / #2) * r ** 2
        * s * t - (#1 / #2) * r * s ** 2 * t + (#1 / #2) * r * s * t];
      [(#(-1) / #2) * r * s ** 2 * t ** 2 + (#1 / #2) * r * s ** 2 - (#1 / #2) * r * s * t ** 2 +
        (#1 / #2) * r * s - (#1 / #4) * s ** 2 * t ** 2 + (#1 / #4) * s ** 2 - (#1 / #4) * s * t **
        2 + (#1 / #4) * s; (#(-1) / #2) * r ** 2 * s * t ** 2 + (#1 / #2) * r ** 2 * s - (#1 / #4) *
        r ** 2 * t ** 2 + (#1 / #4) * r ** 2 - (#1 / #2) * r * s * t ** 2 + (#1 / #2) * r * s - (#1
        / #4) * r * t ** 2 + (#1 / #4) * r; (#(-1) / #2) * r ** 2 * s ** 2 * t - (#1 / #2) * r ** 2
        * s * t - (#1 / #2) * r * s ** 2 * t - (#1 / #2) * r * s * t];
      [(#(-1) / #2) * r * s ** 2 * t ** 2 + (#1 / #2) * r * s ** 2 - (#1 / #2) * r * s * t ** 2 +
        (#1 / #2) * r * s + (#1 / #4) * s ** 2 * t ** 2 - (#1 / #4) * s ** 2 + (#1 / #4) * s * t **
        2 - (#1 / #4) * s; (#(-1) / #2) * r ** 2 * s * t ** 2 + (#1 / #2) * r ** 2 * s - (#1 / #4) *
        r ** 2 * t ** 2 + (#1 / #4) * r ** 2 + (#1 / #2) * r * s * t ** 2 - (#1 / #2) * r * s + (#1
        / #4) * r * t ** 2 - (#1 / #4) * r; (#(-1) / #2) * r ** 2 * s ** 2 * t - (#1 / #2) * r ** 2
        * s * t + (#1 / #2) * r * s ** 2 * t + (#1 / #2) * r * s * t];
      [#1 * r * s ** 2 * t ** 2 - #1 * r * s ** 2 - #1 * r * t ** 2 + #1 * r - (#1 / #2) * s ** 2 *
        t ** 2 + (#1 / #2) * s ** 2 + (#1 / #2) * t ** 2 - (#1 / #2); #1 * r ** 2 * s * t ** 2 - #1
        * r ** 2 * s - #1 * r * s * t ** 2 + #1 * r * s; #1 * r ** 2 * s ** 2 * t - #1 * r ** 2 * t
        - #1 * r * s ** 2 * t + #1 * r * t];
      [#1 * r * s ** 2 * t ** 2 - #1 * r * s ** 2 - #1 * r * t ** 2 + #1 * r + (#1 / #2) * s ** 2 *
        t ** 2 - (#1 / #2) * s ** 2 - (#1 / #2) * t ** 2 + (#1 / #2); #1 * r ** 2 * s * t ** 2 - #1
        * r ** 2 * s + #1 * r * s * t ** 2 - #1 * r * s; #1 * r ** 2 * s ** 2 * t - #1 * r ** 2 * t
        + #1 * r * s ** 2 * t - #1 * r * t];
      [#1 * r * s ** 2 * t ** 2 - #1 * r * s ** 2 - #1 * r * s * t ** 2 + #1 * r * s; #1 * r ** 2 *
        s * t ** 2 - #1 * r ** 2 * s - (#1 / #2) * r ** 2 * t ** 2 + (#1 / #2) * r ** 2 - #1 * s * t
        ** 2 + #1 * s + (#1 / #2) * t ** 2 - (#1 / #2); #1 * r ** 2 * s ** 2 * t - #1 * r ** 2 * s *
        t - #1 * s ** 2 * t + #1 * s * t];
      [#1 * r * s ** 2 * t ** 2 - #1 * r * s ** 2 + #1 * r * s * t ** 2 - #1 * r * s; #1 * r ** 2 *
        s * t ** 2 - #1 * r ** 2 * s + (#1 / #2) * r ** 2 * t ** 2 - (#1 / #2) * r ** 2 - #1 * s * t
        ** 2 + #1 * s - (#1 / #2) * t ** 2 + (#1 / #2); #1 * r ** 2 * s ** 2 * t + #1 * r ** 2 * s *
        t - #1 * s ** 2 * t - #1 * s * t];
      [#1 * r * s ** 2 * t ** 2 - #1 * r * s ** 2 * t - #1 * r * t ** 2 + #1 * r * t; #1 * r ** 2 *
        s * t ** 2 - #1 * r ** 2 * s * t - #1 * s * t ** 2 + #1 * s * t; #1 * r ** 2 * s ** 2 * t -
        (#1 / #2) * r ** 2 * s ** 2 - #1 * r ** 2 * t + (#1 / #2) * r ** 2 - #1 * s ** 2 * t + (#1 /
        #2) * s ** 2 + #1 * t - (#1 / #2)];
      [#1 * r * s ** 2 * t ** 2 + #1 * r * s ** 2 * t - #1 * r * t ** 2 - #1 * r * t; #1 * r ** 2 *
        s * t ** 2 + #1 * r ** 2 * s * t - #1 * s * t ** 2 - #1 * s * t; #1 * r ** 2 * s ** 2 * t +
        (#1 / #2) * r ** 2 * s ** 2 - #1 * r ** 2 * t - (#1 / #2) * r ** 2 - #1 * s ** 2 * t - (#1 /
        #2) * s ** 2 + #1 * t + (#1 / #2)];
      [#(-2) * r * s ** 2 * t ** 2 + #2 * r * s ** 2 + #2 * r * t ** 2 - #2 * r; #(-2) * r ** 2 * s
        * t ** 2 + #2 * r ** 2 * s + #2 * s * t ** 2 - #2 * s; #(-2) * r ** 2 * s ** 2 * t + #2 * r
        ** 2 * t + #2 * s ** 2 * t - #2 * t]]
  | _ => Err ValueError
  end.

(** ** W6 *)
(** cells/w6.py lcoords, 45-55 *)
Definition lcoords_W6 : list (list K) :=
  [[#0; #0; #(-1)]; [#1; #0; #(-1)]; [#0; #1; #(-1)]; [#0; #0; #1]; [#1; #0; #1]; [#0; #1; #1]].
(** cells/w6.py lcenter, 58-59 *)
Definition lcenter_W6 : list K :=
  [#1 / #3; #1 / #3; #0].
(** cells/w6.py polybase, 29-42 *)
Definition polybase_W6 : list (list nat) :=
  [[0; 0; 0]; [1; 0; 0]; [0; 1; 0]; [0; 0; 1]; [1; 0; 1]; [0; 1; 1]].
(** utils/cells/w6.py monoms_W6_single, 9-11 *)
Definition monoms_W6 (p : list K) : res (list K) :=
  match p with
  | [r; s; t] => Ok
    [#1; r; s; t; r * t; s * t]
  | _ => Err ValueError
  end.

(** ** W18 *)
(** cells/w18.py lcoords, 64-86 *)
Definition lcoords_W18 : list (list K) :=
  [[#0; #0; #(-1)]; [#1; #0; #(-1)]; [#0; #1; #(-1)]; [#0; #0; #1]; [#1; #0; #1]; [#0; #1; #1]; [(#1
    / #2); #0; #(-1)]; [(#1 / #2); (#1 / #2); #(-1)]; [#0; (#1 / #2); #(-1)]; [(#1 / #2); #0; #1];
    [(#1 / #2); (#1 / #2); #1]; [#0; (#1 / #2); #1]; [#0; #0; #0]; [#1; #0; #0]; [#0; #1; #0]; [(#1
    / #2); #0; #0]; [(#1 / #2); (#1 / #2); #0]; [#0; (#1 / #2); #0]].
(** cells/w18.py lcenter, 89-90 *)
Definition lcenter_W18 : list K :=
  [#1 / #3; #1 / #3; #0].
(** cells/w18.py polybase, 29-61 *)
Definition polybase_W18 : list (list nat) :=
  [[0; 0; 0]; [1; 0; 0]; [0; 1; 0]; [2; 0; 0]; [0; 2; 0]; [1; 1; 0]; [0; 0; 1]; [1; 0; 1]; [0; 1;
    1]; [2; 0; 1]; [0; 2; 1]; [1; 1; 1]; [0; 0; 2]; [1; 0; 2]; [0; 1; 2]; [2; 0; 2]; [0; 2; 2]; [1;
    1; 2]].
(** utils/cells/w18.py monoms_W18_single, 9-33 *)
Definition monoms_W18 (p : list K) : res (list K) :=
  match p with
  | [r; s; t] => Ok
    [#1; r; s; r ** 2; s ** 2; r * s; t; t * r; t * s; t * r ** 2; t * s ** 2; t * r * s; t ** 2; t
      ** 2 * r; t ** 2 * s; t ** 2 * r ** 2; t ** 2 * s ** 2; t ** 2 * r * s]
  | _ => Err ValueError
  end.

(** ** Shape function matrices *)

(** [eye * x] with [np.eye(n)] *)
Definition eye_times (n : nat) (x : K) : list (list K) :=
  map (fun i => map (fun j => if Nat.eqb i j then #1 * x else #0 * x) (seq 0 n)) (seq 0 n).
(** [a[:, c0 : c0 + w] = b], both with the same number of rows; ValueError if the shapes differ *)
Definition set_columns (a : list (list K)) (c0 w : nat) (b : list (list K)) : res (list (list K)) :=
  do _ <- guard (Nat.eqb (length a) (length b)) ValueError;
  mapM (fun ab => do _ <- guard (Nat.eqb (length (snd ab)) w) ValueError;
                  Ok (firstn c0 (fst ab) ++ snd ab ++ skipn (c0 + w) (fst ab))) (combine a b).
(** utils/cells/l2.py 31-37, t3.py 30-36, t6.py 40-46, q4.py 74-80, q9.py 77-83,
    tet4.py 62-68, h27.py 311-317 (all with [neye = ndof]), h8.py 152-158 ([neye = 3]):
    [n] shape functions, [ndof] unknowns per node *)
Definition shape_function_matrix_ (n neye : nat) (shp : list K -> res (list K)) (pcoord : list K) (ndof : nat)
  : res (list (list K)) :=
  do N <- shp pcoord;
  foldM (fun res i => do x <- get N i; set_columns res (i * ndof) ndof (eye_times neye x))
        (seq 0 n) (zeros2 #0 ndof (ndof * n)).
Definition shape_function_matrix_L2 p ndof := shape_function_matrix_ 2 ndof shp_L2 p ndof.
Definition shape_function_matrix_T3 p ndof := shape_function_matrix_ 3 ndof shp_T3 p ndof.
Definition shape_function_matrix_T6 p ndof := shape_function_matrix_ 6 ndof shp_T6 p ndof.
Definition shape_function_matrix_Q4 p ndof := shape_function_matrix_ 4 ndof shp_Q4 p ndof.
Definition shape_function_matrix_Q9 p ndof := shape_function_matrix_ 9 ndof shp_Q9 p ndof.
Definition shape_function_matrix_TET4 p ndof := shape_function_matrix_ 4 ndof shp_TET4 p ndof.
Definition shape_function_matrix_H8 p ndof := shape_function_matrix_ 8 3 shp_H8 p ndof.
Definition shape_function_matrix_H27 p ndof := shape_function_matrix_ 27 ndof shp_H27 p ndof.

(** ** Generated shape functions: cell.py generate_class_functions, 113-192

    A monomial is the list of its exponents.  [np.linalg.inv] is not modelled: the
    coefficient matrix is a parameter. *)

(** value of a monomial *)
Definition meval (e : list nat) (p : list K) : K :=
  fold_left kmul (map (fun ex => kpow (snd ex) (fst ex)) (combine e p)) #1.
(** the matrix M (142-143): ones in the first column, the monomials but the first after it;
    ValueError unless it has [nN] columns *)
Definition gen_matrix (nN : nat) (lcoords : list (list K)) (monoms : list (list nat)) : res (list (list K)) :=
  do _ <- guard (Nat.eqb (length monoms) nN && Nat.eqb (length lcoords) nN)%bool ValueError;
  Ok (map (fun loc => #1 :: map (fun m => meval m loc) (tl monoms)) lcoords).
(** [shp = Matrix([np.dot(coeffs[:, i], monoms) for i in range(nN)])] (146), evaluated *)
Definition gen_shp (coeffs : list (list K)) (monoms : list (list nat)) (p : list K) : res (list K) :=
  mapM (fun i => do c <- mapM (fun row => get row i) coeffs; vdot c (map (fun m => meval m p) monoms))
       (seq 0 (length monoms)).
(** derivative of a monomial with respect to variable [j] ([f.diff(m)], 147) *)
Definition mdiff (e : list nat) (j : nat) (p : list K) : K :=
  let ej := nth j e 0%nat in
  match ej with
  | O => #0
  | S k => kofZ (Z.of_nat ej) * meval (firstn j e ++ k :: skipn (S j) e) p
  end.
Definition gen_dshp (nD : nat) (coeffs : list (list K)) (monoms : list (list nat)) (p : list K)
  : res (list (list K)) :=
  mapM (fun i => do c <- mapM (fun row => get row i) coeffs;
                 mapM (fun j => vdot c (map (fun m => mdiff m j p) monoms)) (seq 0 nD))
       (seq 0 (length monoms)).

End Cells.
