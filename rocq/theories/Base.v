(** * Base: errors, arrays, dictionaries, sorting and [np.unique].

    Definitions only (the proofs about them are in [BaseFacts.v]).  These
    are the vocabulary in which the functions of PolyMesh are transcribed:
    numpy / numba primitives with their documented behaviour.  *)
From Coq Require Export List Arith ZArith Lia Bool Permutation Sorting.Sorted.
Export ListNotations.

(** ** Exceptions as values *)

(** Python exception classes raised by the modelled code.  [IndexError] also
    stands for an out-of-range access in compiled (numba) code, where no bounds
    check exists and the behaviour is undefined. *)
Inductive exn :=
| IndexError | KeyError | TypeError | ValueError | AssertionError
| NotImplementedError | ImportError | NameError | AttributeError
| ZeroDivisionError | RuntimeError.

Inductive res (A : Type) : Type :=
| Ok (a : A)
| Err (e : exn).
Arguments Ok {A} a.
Arguments Err {A} e.

Definition bind {A B} (m : res A) (k : A -> res B) : res B :=
  match m with Ok a => k a | Err e => Err e end.

Notation "'do' x <- m ; k" := (bind m (fun x => k))
  (at level 200, x pattern, m at level 100, k at level 200, right associativity).

(** Python [assert c] (or an explicit [if not c: raise e]). *)
Definition guard (c : bool) (e : exn) : res unit := if c then Ok tt else Err e.

Definition is_ok {A} (m : res A) : Prop := exists a, m = Ok a.

Fixpoint mapM {A B} (f : A -> res B) (l : list A) : res (list B) :=
  match l with
  | [] => Ok []
  | x :: xs => do y <- f x; do ys <- mapM f xs; Ok (y :: ys)
  end.

Fixpoint foldM {A S} (f : S -> A -> res S) (l : list A) (s : S) : res S :=
  match l with
  | [] => Ok s
  | x :: xs => do s' <- f s x; foldM f xs s'
  end.

(** ** Arrays *)

(** [a[i]] *)
Definition get {A} (a : list A) (i : nat) : res A :=
  match nth_error a i with Some x => Ok x | None => Err IndexError end.

(** [a[i, j]] *)
Definition get2 {A} (a : list (list A)) (i j : nat) : res A :=
  do r <- get a i; get r j.

(** [a[i] = v] *)
Fixpoint set {A} (a : list A) (i : nat) (v : A) : res (list A) :=
  match a, i with
  | [], _ => Err IndexError
  | _ :: xs, O => Ok (v :: xs)
  | x :: xs, S i' => do xs' <- set xs i' v; Ok (x :: xs')
  end.

(** [a[i, j] = v] *)
Definition set2 {A} (a : list (list A)) (i j : nat) (v : A) : res (list (list A)) :=
  do r <- get a i; do r' <- set r j v; set a i r'.

(** [a[inds]] (fancy indexing with an integer array) *)
Definition take {A} (a : list A) (inds : list nat) : res (list A) :=
  mapM (get a) inds.

(** A 2d array with rows of length [n]. *)
Definition rect {A} (n : nat) (t : list (list A)) : Prop :=
  Forall (fun r => length r = n) t.

(** [np.zeros((n, m))], [np.zeros(n)] with a given zero *)
Definition zeros {A} (z : A) (n : nat) : list A := repeat z n.
Definition zeros2 {A} (z : A) (n m : nat) : list (list A) := repeat (repeat z m) n.

(** enumeration with positions *)
Fixpoint enum_from {A} (k : nat) (l : list A) : list (nat * A) :=
  match l with
  | [] => []
  | x :: xs => (k, x) :: enum_from (S k) xs
  end.
Definition enum {A} (l : list A) : list (nat * A) := enum_from 0 l.

(** [a.max()]; numpy raises ValueError for an empty array *)
Definition np_max (l : list nat) : res nat :=
  match l with [] => Err ValueError | x :: xs => Ok (fold_left Nat.max xs x) end.
(** [a.min()] *)
Definition np_min (l : list nat) : res nat :=
  match l with [] => Err ValueError | x :: xs => Ok (fold_left Nat.min xs x) end.

(** [np.sum] of an integer array *)
Definition np_sum (l : list nat) : nat := fold_left Nat.add l 0.

(** [np.cumsum] with a leading 0: the [indptr] idiom
    [indptr = np.zeros(n+1); indptr[1:] = np.cumsum(widths)] *)
Fixpoint indptr_from (s : nat) (w : list nat) : list nat :=
  match w with
  | [] => [s]
  | x :: xs => s :: indptr_from (s + x) xs
  end.
Definition indptr (w : list nat) : list nat := indptr_from 0 w.

(** [a[i:j]] for [0 <= i], [0 <= j] (numpy clips the bounds) *)
Definition slice {A} (a : list A) (i j : nat) : list A := firstn (j - i) (skipn i a).

(** split a flat array by row widths: [JaggedArray(data, cuts=cuts)] of neumann *)
Fixpoint split_by {A} (cuts : list nat) (l : list A) : list (list A) :=
  match cuts with
  | [] => []
  | c :: cs => firstn c l :: split_by cs (skipn c l)
  end.

(** [reshape((n, m))] of a flat array into rows of length [m] *)
Definition reshape {A} (n m : nat) (l : list A) : list (list A) := split_by (repeat m n) l.

(** ** Insertion-ordered dictionaries (Python dict, numba typed Dict) *)

Definition dict (A : Type) := list (nat * A).

(** [d[k] = v]: overwrite in place, new keys go to the end *)
Fixpoint dset {A} (d : dict A) (k : nat) (v : A) : dict A :=
  match d with
  | [] => [(k, v)]
  | (k', v') :: r => if Nat.eqb k k' then (k, v) :: r else (k', v') :: dset r k v
  end.

(** [d[k]], KeyError when missing *)
Fixpoint dget {A} (d : dict A) (k : nat) : res A :=
  match d with
  | [] => Err KeyError
  | (k', v') :: r => if Nat.eqb k k' then Ok v' else dget r k
  end.

Definition dkeys {A} (d : dict A) : list nat := map fst d.

(** ** Sorting and unique *)

Section Unique.
  Context {A : Type} (cmp : A -> A -> comparison).

  (** insertion into a strictly increasing list, dropping duplicates *)
  Fixpoint ins_uniq (x : A) (l : list A) : list A :=
    match l with
    | [] => [x]
    | y :: ys => match cmp x y with
                 | Lt => x :: l
                 | Eq => l
                 | Gt => y :: ins_uniq x ys
                 end
    end.

  (** [np.unique(a)]: the sorted distinct entries *)
  Definition unique (l : list A) : list A := fold_right ins_uniq [] l.

  (** position of the first entry equal to [x] *)
  Fixpoint index_of (x : A) (l : list A) : res nat :=
    match l with
    | [] => Err KeyError
    | y :: ys => match cmp x y with
                 | Eq => Ok 0
                 | _ => do i <- index_of x ys; Ok (S i)
                 end
    end.

  (** [np.unique(a, return_inverse=True)] : unique entries and, for each entry
      of [a], its position among them *)
  Definition unique_inverse (l : list A) : res (list A * list nat) :=
    let u := unique l in
    do inv <- mapM (fun x => index_of x u) l; Ok (u, inv).

  (** insertion sort, duplicates kept: [np.sort] *)
  Fixpoint ins_sort (x : A) (l : list A) : list A :=
    match l with
    | [] => [x]
    | y :: ys => match cmp x y with
                 | Gt => y :: ins_sort x ys
                 | _ => x :: l
                 end
    end.
  Definition sort (l : list A) : list A := fold_right ins_sort [] l.
End Unique.

(** lexicographic comparison of integer rows (order used by
    [np.unique(a, axis=0)]) *)
Fixpoint lex_cmp (a b : list nat) : comparison :=
  match a, b with
  | [], [] => Eq
  | [], _ :: _ => Lt
  | _ :: _, [] => Gt
  | x :: xs, y :: ys => match Nat.compare x y with Eq => lex_cmp xs ys | c => c end
  end.

Definition np_unique (l : list nat) : list nat := unique Nat.compare l.
Definition np_sort (l : list nat) : list nat := sort Nat.compare l.

(** ** Scheduled writes

    A parallel loop that fills an array is modelled by the list of its
    single-cell writes [(index, value)], executed in list order.  A theorem about
    every thread schedule quantifies over all permutations of that list. *)
Definition run_writes {A} (ws : list (nat * A)) (a : list A) : res (list A) :=
  foldM (fun a w => set a (fst w) (snd w)) ws a.

Definition run_writes2 {A} (ws : list (nat * nat * A)) (a : list (list A)) : res (list (list A)) :=
  foldM (fun a w => set2 a (fst (fst w)) (snd (fst w)) (snd w)) ws a.

(** the writes of the slice assignment [a[start : start + len(vals)] = vals] *)
Definition slice_writes {A} (start : nat) (vals : list A) : list (nat * A) :=
  map (fun kv => (start + fst kv, snd kv)) (enum vals).

(** the writes of the loop [for i in prange(n): a[ptr[i] : ptr[i+1]] = rows[i]];
    numpy requires the lengths to agree (ValueError) *)
Definition scatter_writes {A} (ptr : list nat) (rows : list (list A)) : res (list (nat * A)) :=
  do wss <- mapM (fun ir =>
      do lo <- get ptr (fst ir);
      do hi <- get ptr (S (fst ir));
      do _ <- guard (Nat.eqb (length (snd ir)) (hi - lo)) ValueError;
      Ok (slice_writes lo (snd ir))) (enum rows);
  Ok (concat wss).

(** the whole loop, in list order, on an array of zeros of length [n] *)
Definition scatter {A} (z : A) (n : nat) (ptr : list nat) (rows : list (list A)) : res (list A) :=
  do ws <- scatter_writes ptr rows; run_writes ws (zeros z n).
