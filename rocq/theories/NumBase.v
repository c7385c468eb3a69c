(** * Numbers: the operations used by the numerical code

    Definitions only.  Floating point arithmetic is modelled by exact arithmetic:
    every numerical function is generic in a type [K] with the operations of class
    [Num]; the theorems use the instance for Coq's real numbers, the instance for
    rationals makes the model executable. *)
From Coq Require Import Reals QArith.
From Verif Require Export Base.

Class Num (K : Type) := {
  kofZ : Z -> K;              (* integer literal *)
  kadd : K -> K -> K;
  ksub : K -> K -> K;
  kmul : K -> K -> K;
  kdiv : K -> K -> K;
  kopp : K -> K;
  kleb : K -> K -> bool;      (* a <= b *)
  kltb : K -> K -> bool       (* a < b *)
}.

Declare Scope num_scope.
Delimit Scope num_scope with num.
Infix "+" := kadd : num_scope.
Infix "-" := ksub : num_scope.
Infix "*" := kmul : num_scope.
Infix "/" := kdiv : num_scope.
Notation "- x" := (kopp x) : num_scope.
Notation "'#' z" := (kofZ z%Z) (at level 1, format "# z") : num_scope.
Infix "<=?" := kleb : num_scope.
Infix "<?" := kltb : num_scope.

Global Instance NumR : Num R := {
  kofZ := IZR; kadd := Rplus; ksub := Rminus; kmul := Rmult; kdiv := Rdiv; kopp := Ropp;
  kleb := fun a b => if Rle_dec a b then true else false;
  kltb := fun a b => if Rlt_dec a b then true else false
}.

Global Instance NumQ : Num Q := {
  kofZ := inject_Z; kadd := fun a b => Qred (a + b); ksub := fun a b => Qred (a - b);
  kmul := fun a b => Qred (a * b); kdiv := fun a b => Qred (a / b); kopp := fun a => Qred (- a);
  kleb := Qle_bool; kltb := fun a b => (Qle_bool a b && negb (Qeq_bool a b))%bool
}.

Section Vectors.
  Context {K : Type} {NK : Num K}.
  Local Open Scope num_scope.

  (** [np.sum] of a list of numbers *)
  Definition ksum (l : list K) : K := fold_left kadd l #0.

  (** component-wise operations on rows of equal length (numpy broadcasting of equal
      shapes; ValueError otherwise) *)
  Fixpoint map2 {A B C} (f : A -> B -> C) (a : list A) (b : list B) : res (list C) :=
    match a, b with
    | [], [] => Ok []
    | x :: a', y :: b' => do r <- map2 f a' b'; Ok (f x y :: r)
    | _, _ => Err ValueError
    end.
  Definition vadd : list K -> list K -> res (list K) := map2 kadd.
  Definition vsub : list K -> list K -> res (list K) := map2 ksub.
  Definition vscale (s : K) (a : list K) : list K := map (kmul s) a.

  (** sum of rows; [np.sum(rows, axis=0)] of a non-empty array *)
  Definition vsum (rows : list (list K)) : res (list K) :=
    match rows with
    | [] => Err ValueError
    | r :: rs => foldM vadd rs r
    end.

  (** [np.mean(rows, axis=0)]; the mean of no rows is nan, reported as ValueError *)
  Definition vmean (rows : list (list K)) : res (list K) :=
    do s <- vsum rows;
    Ok (map (fun x => x / kofZ (Z.of_nat (length rows))) s).

  (** [np.dot] of two vectors *)
  Definition vdot (a b : list K) : res K := do p <- map2 kmul a b; Ok (ksum p).
End Vectors.
