(** * Model of rotations: src/polymesh/space/pointcloud.py, src/polymesh/polydata.py, src/polymesh/cell.py

    Definitions only, over the reals and in three dimensions.  Of the package [neumann] these are used, as documented: the matrix [dcm()] of
    a frame has its axes as rows; [orient_new] gives a frame that is oriented relative to the frame it is called on; [Vector.orient(dcm=..)]
    multiplies the components with the transposed matrix; [Frame.rotate] replaces a frame by the one of [orient_new]. *)
From Coq Require Import Reals ZArith.
From Verif Require Export MeshModel.
Local Open Scope R_scope.

(** the product of two matrices, [a @ b] *)
Definition mmul (a b : mat) : mat := let '(a0, a1, a2) := a in (mvec (mtrans b) a0, mvec (mtrans b) a1, mvec (mtrans b) a2).
(** the arguments of [rotate]: a frame, or a description of an orientation (such as "Space", angles, "xyz"), given by the matrix whose rows are
    the components of the new axes for the old ones *)
Inductive orientation := ToFrame (g : frame) | By (r : mat).
(** [self.frame.orient_new(...)], its axes in ambient space *)
Definition orient_new (f : frame) (r : mat) : mat := mmul r (axes f).
(** [Vector.orient(dcm=..)] *)
Definition orient (dcm : mat) (x : list vec) : list vec := map (mvec (mtrans dcm)) x.
(** PointCloud.rotate, pointcloud.py 464-498 *)
Definition rotate (c : cloud) (o : orientation) : cloud :=
  let dcm := match o with ToFrame g => axes g | By r => orient_new (cframe c) r end in
  Cloud (orient dcm (array c)) (cframe c) (inds c).

(** the points of PolyData.rotate, polydata.py 1384-1391, and spin, 1417-1424: the block that has the points, its path and the points: all points, or the points
    of the source that are used by the block *)
Definition turned_points (m : block) (path : list nat) : res (frame * list nat * cloud) :=
  do cb <- block_at top m path;
  do own <- the_frame (enter (fst cb) (snd cb));
  match bpd (snd cb) with
  | Some _ => do pc <- points_of (fst cb) (snd cb); Ok (own, path, pc)
  | None =>
      do sp <- the_source m path;
      do sb <- block_at top m sp;
      let inds := np_unique (concat (topology_of (fst cb) (snd cb))) in
      do pc <- points_of (fst sb) (snd sb);
      do pc <- getitem pc (KList (map Z.of_nat inds));
      Ok (own, sp, pc)
  end.
(** PolyData.rotate, 1384-1395, in place (the frames of the cells, 1393, see below) *)
Definition mesh_rotate (m : block) (path : list nat) (o : orientation) : res block :=
  do t <- turned_points m path;
  let '(own, sp, pc) := t in
  update_at m sp (set_x (show (rotate pc o) (Some own))).
(** PolyData.spin, 1417-1432, in place *)
Definition mesh_spin (m : block) (path : list nat) (o : orientation) : res block :=
  do t <- turned_points m path;
  let '(own, sp, pc) := t in
  do ctr <- FrameModel.center pc None;
  do pc <- FrameModel.centralize pc None None;
  let pc := FrameModel.move (rotate pc o) (Array ctr) None in
  update_at m sp (set_x (show pc (Some own))).

(** PolyCell._rotate_, cell.py 648-657, for cells with frames: each frame is oriented relative to itself, its axes are shown in the frame [source] of
    the points *)
Definition rotate_frames (source : frame) (o : orientation) (frames : list mat) : list mat :=
  map (fun f => let '(a, b, c) := match o with ToFrame g => axes g | By r => orient_new (Plain f) r end in
                (vshow None a (Some source), vshow None b (Some source), vshow None c (Some source))) frames.
