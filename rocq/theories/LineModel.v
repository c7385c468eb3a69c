(** * Model of src/polymesh/mesh1d.py, with the one-dimensional case of rgridMT (grid.py) *)
From Coq Require Import Reals String.
From Verif Require Export GridModel EvalModel.
Local Open Scope R_scope.

(** names bound by src/polymesh/space/__init__.py, 1-8: what is imported and the modules themselves *)
Definition space_names : list string := ["CartesianFrame"; "StandardFrame"; "Point"; "PointCloud"; "frame"; "point"; "pointcloud"]%string.
(** the statement [from module import name] *)
Definition import_from (names : list string) (name : string) : res unit :=
  guard (existsb (String.eqb name) names) ImportError.

(** rgridMT, grid.py 383-435 and 481-482, for [len(size) = 1] and integers [shape], [eshape]; [its]: the iterations (i, j) of
    the parallel loops 429-435 in the order in which they are done *)
Definition rgrid1_in (its : list (nat * nat)) (lX : R) (ndivX nNodeX : nat) (sx : R) (start : nat) : res (list (list R) * list (list nat)) :=
  let nX := (ndivX * (nNodeX - 1) + 1)%nat in
  do dX <- divn lX ndivX;
  do ddX <- divn dX (nNodeX - 1);
  do c <- run_writes2 (map (fun ij => ((((nNodeX - 1) * (fst ij - 1) + snd ij) - 1)%nat, 0%nat, sx + dX * INR (fst ij - 1) + ddX * INR (snd ij - 1))) its) (zeros2 0 nX 1);
  do t <- run_writes2 (map (fun ij => ((fst ij - 1)%nat, (snd ij - 1)%nat, ((nNodeX - 1) * (fst ij - 1) + snd ij)%nat)) its) (zeros2 0%nat ndivX nNodeX);
  Ok (c, add_start1 start t).

(** [a[-1]]: the position of the last entry *)
Definition last_pos {A} (l : list A) : nat := (length l - 1)%nat.
(** the point [p1 * (1 - s) + p2 * s], 36 *)
Definition point_between (p1 p2 : list R) (s : R) : list R := map (fun xy => fst xy * (1 - s) + snd xy * s) (combine p1 p2).

(** the loop 35-38: the state is (coords_new, cN) *)
Definition line_points (dt : dtype) (p1 p2 : list R) (subcoords : list (list R)) (js : list nat) (st : list (list R) * nat) : res (list (list R) * nat) :=
  foldM (fun (st : list (list R) * nat) j =>
      let (c, cN) := st in
      do s <- get2 subcoords j 0;
      do c <- set c cN (map (store dt) (point_between p1 p2 s));
      Ok (c, (cN + 1)%nat)) js st.
(** one iteration of the loop 29-40: the state is (coords_new, cN, values of topo_new in the order of the keys).  [subtopo_ + cN - 1] is
    cut off at 0 instead of giving -1 at the entry that is overwritten next. *)
Definition line_step (dt : dtype) (coords : list (list R)) (subcoords : list (list R)) (subtopo : list (list nat))
    (st : list (list R) * nat * list (list (list nat))) (row : list nat) : res (list (list R) * nat * list (list (list nat))) :=
  let '(c, cN, ts) := st in
  let sub := map (map (fun n => n + cN - 1)%nat) subtopo in
  do a <- get row 0;
  do sub <- set2 sub 0 0 a;
  do b <- get row (last_pos row);
  do lastrow <- get sub (last_pos sub);
  do sub <- set2 sub (last_pos sub) (last_pos lastrow) b;
  do p1 <- get coords a;
  do p2 <- get coords b;
  do r <- line_points dt p1 p2 subcoords (seq 1 (length subcoords - 2)) (c, cN);
  let (c, cN) := r in
  Ok (c, cN, ts ++ [sub]).
(** _mesh1d_uniform_, 18-43; [dt]: element type of [coords]; a frame is of any type.  The dictionaries are lists of their values. *)
Definition mesh1d_core {F} (its : list (nat * nat)) (dt : dtype) (coords : list (list R)) (topo : list (list nat)) (eshape N : nat) (frames : list F)
    : res (list (list R) * list (list (list nat)) * list (list F)) :=
  do g <- rgrid1_in its 1 N eshape 0 0;
  let (subcoords, subtopo) := g in
  let N_new := (length coords + length topo * (N - 1))%nat in
  do c <- run_writes (enum coords) (repeat (repeat 0 (ncols coords)) N_new);
  do r <- foldM (line_step dt coords subcoords subtopo) topo (c, length coords, []);
  let '(c, _, ts) := r in
  do fr <- mapM (fun i => do f <- get frames i; Ok (repeat f N)) (seq 0 (length topo));
  Ok (c, ts, fr).
(** mesh1d_uniform, 46-64, as seen by a user, who has to import the module first, 8; [frames]: what frames_of_lines returns *)
Definition mesh1d_uniform {F} (its : list (nat * nat)) (dt : dtype) (coords : list (list R)) (topo : list (list nat)) (eshape N : nat) (frames : list F)
    : res (list (list R) * list (list (list nat)) * list (list F)) :=
  do _ <- import_from space_names "frames_of_lines";
  mesh1d_core its dt coords topo eshape N frames.
