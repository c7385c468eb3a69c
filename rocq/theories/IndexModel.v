(** * Model of the index managers of [PolyData] (src/polymesh/polydata.py)

    What [generate] and [generate_np] return is a list of numbers here; for [n = 1] the code returns the number itself. *)
From Coq Require Import ZArith.
From Verif Require Export Base.
Local Open Scope Z_scope.

(** IndexManager.__init__, 2289-2291 *)
Record manager := { queue : list Z; next : Z }.
Definition new_manager (start : Z) : manager := {| queue := []; next := start |}.
(** the builtin [range(a, b)] *)
Definition zrange (a b : Z) : list Z := map (fun k => a + Z.of_nat k) (seq 0 (Z.to_nat (b - a))).
(** the builtin [list.pop()] on a list that is not empty: the last entry, and the others *)
Definition pop (l : list Z) : Z * list Z := (last l 0, removelast l).

(** IndexManager.generate, 2299-2320, and generate_np, 2293-2297 *)
Definition generate (n : nat) (m : manager) : list Z * manager :=
  let nQ := length (queue m) in
  if Nat.ltb 0 nQ then
    if Nat.eqb n 1 then
      let (res, q) := pop (queue m) in ([res], {| queue := q; next := next m |})
    else
      let '(res, q) :=
        if Nat.leb n nQ then (firstn n (queue m), skipn n (queue m))
        else (queue m ++ zrange (next m) (next m + Z.of_nat n - Z.of_nat nQ), []) in
      (res, {| queue := q; next := next m + (Z.of_nat n - Z.of_nat nQ) |})
  else
    if Nat.eqb n 1 then ([next m], {| queue := queue m; next := next m + Z.of_nat n |})
    else (zrange (next m) (next m + Z.of_nat n), {| queue := queue m; next := next m + Z.of_nat n |}).

(** IndexManager.recycle, 2322-2327: a number or a list of numbers *)
Definition recycle (ids : list Z) (m : manager) : manager := {| queue := queue m ++ ids; next := next m |}.

(** ** Blocks

    A block of a mesh (class [PolyData], polydata.py 172-292): its parent, the number of its cells if it has any, the numbers of
    its cells if they are set, the numbers of its points if it has any, and its two index managers.  Blocks are listed by the time
    of their creation.  The dictionaries that hold the children (class [DeepDict] of the package [linkeddeepdict], which is not
    part of the repository) are modelled by the parents. *)
Record block := { parent : option nat; ncells : option nat; cids : option (list Z); pids : option (list Z); cim : manager; pim : manager }.
Definition state := list block.

(** [DeepDict.root()]: follow the parents *)
Inductive root_of (s : state) : nat -> nat -> Prop :=
| root_here b B : nth_error s b = Some B -> parent B = None -> root_of s b b
| root_up b B p r : nth_error s b = Some B -> parent B = Some p -> root_of s p r -> root_of s b r.

Definition upd (s : state) (b : nat) (f : block -> block) : state := map (fun kb => if Nat.eqb (fst kb) b then f (snd kb) else snd kb) (enum s).
Definition with_parent (p : option nat) (B : block) : block :=
  {| parent := p; ncells := ncells B; cids := cids B; pids := pids B; cim := cim B; pim := pim B |}.
Definition with_cids (l : option (list Z)) (B : block) : block :=
  {| parent := parent B; ncells := ncells B; cids := l; pids := pids B; cim := cim B; pim := pim B |}.
Definition with_cim (m : manager) (B : block) : block :=
  {| parent := parent B; ncells := ncells B; cids := cids B; pids := pids B; cim := m; pim := pim B |}.

(** PolyData.__init__, 205-292, of a block without a parent: [np] points, if there are any, and [nc] cells; numbers are generated by
    the managers of the block itself, 224-225 and 230-231 (or 244-245, 282-283) *)
Definition new_block (np nc : option nat) : block :=
  let m := new_manager 0 in
  let '(pi, pm) := match np with Some n => let (g, m') := generate n m in (Some g, m') | None => (None, m) end in
  let '(ci, cm) := match nc with Some n => let (g, m') := generate n m in (Some g, m') | None => (None, m) end in
  {| parent := None; ncells := nc; cids := ci; pids := pi; cim := cm; pim := pm |}.

Inductive op := Create (np nc : option nat) | Join (b p : nat) | Leave (b : nat) | Copy (b : nat).

(** One operation.  [Join b p]: PolyData.__join_parent__, 2263-2270, of a block without a parent (how a block that has one is handled is
    up to [linkeddeepdict]).  [Leave b]: PolyData.__leave_parent__, 2272-2277.  [Copy b]: PolyData.__copy__, 297-351, of a block without
    children: the copy is made by the constructor without data, 312, and gets copies of the data, 317-320; the managers are those of the
    constructor, since 325-327 only sets attributes that are missing. *)
Inductive step (s : state) : op -> state -> Prop :=
| step_create np nc : step s (Create np nc) (s ++ [new_block np nc])
| step_join b p B r R : nth_error s b = Some B -> parent B = None -> (p < length s)%nat ->
    root_of (upd s b (with_parent (Some p))) b r -> nth_error (upd s b (with_parent (Some p))) r = Some R ->
    step s (Join b p)
      (match ncells B with
       | None => upd s b (with_parent (Some p))
       | Some n => let (g, m) := generate n (cim R) in upd (upd (upd s b (with_parent (Some p))) r (with_cim m)) b (with_cids (Some g))
       end)
| step_leave b B p r R s' : nth_error s b = Some B -> parent B = Some p -> root_of s b r -> nth_error s r = Some R ->
    match ncells B with
    | None => s' = upd s b (with_parent None)
    | Some _ => exists ids, cids B = Some ids /\
        s' = upd (upd (upd s r (with_cim (recycle ids (cim R)))) b (with_cids None)) b (with_parent None)
    end ->
    step s (Leave b) s'
| step_copy b B : nth_error s b = Some B -> (forall x X, nth_error s x = Some X -> parent X <> Some b) ->
    step s (Copy b) (s ++ [{| parent := None; ncells := ncells B; cids := cids B; pids := pids B; cim := new_manager 0; pim := new_manager 0 |}]).

Inductive steps : state -> list op -> state -> Prop :=
| steps_none s : steps s [] s
| steps_more s o s1 os s2 : step s o s1 -> steps s1 os s2 -> steps s (o :: os) s2.
