(** * Properties C49, C58: tiles and colors *)
From Coq Require Import Reals Lra Lia List Permutation Sorted Ascii.
From Verif Require Import BaseFacts TrModel TileModel TileSpec TileProofs TileProofs2 TileProofs3 TileProofs4 ColorModel ColorSpec ColorProofs.
Import ListNotations.
Local Open Scope R_scope.

(** ** C49 Tiles *)

(** Each cell is repeated nX * nY times, each copy at its place; all points are used; the order of the iterations does not matter. *)
Theorem C49_copies :
  forall coords topo tol sx sy lx hx ly hy nX nY, tile_cell coords tol sx sy lx hx ly hy -> rect (ncols topo) topo -> (forall n, used topo n -> (n < length coords)%nat) ->
  exists c t, (forall its, Permutation (list_prod (seq 0 nX) (seq 0 nY)) its -> tile2d_in its coords topo nX nY tol = Ok (c, t)) /\
  length t = (nX * nY * length topo)%nat /\ (forall row, In row t -> length row = ncols topo) /\ (forall k, (k < length c)%nat <-> used t k) /\
  forall i j e k n, (i < nX)%nat -> (j < nY)%nat -> entry topo e k n ->
    exists m, entry t ((i * nY + j) * length topo + e) k m /\ nth_error c m = Some [coord coords n 0 + INR i * sx; coord coords n 1 + INR j * sy; coord coords n 2].
Proof. exact tiles_result. Qed.
Print Assumptions C49_copies.
(** The loops one iteration after the other give the same result as in any other order. *)
Theorem C49_in_order :
  forall coords topo tol sx sy lx hx ly hy nX nY, tile_cell coords tol sx sy lx hx ly hy -> rect (ncols topo) topo -> (forall n, used topo n -> (n < length coords)%nat) ->
  exists c t, tile2d coords topo nX nY tol = Ok (c, t) /\ length t = (nX * nY * length topo)%nat /\
  forall its, Permutation (list_prod (seq 0 nX) (seq 0 nY)) its -> tile2d_in its coords topo nX nY tol = Ok (c, t).
Proof.
  intros coords topo tol sx sy lx hx ly hy nX nY HT HR HU. destruct (tiles_result coords topo tol sx sy lx hx ly hy nX nY HT HR HU) as (c & t & E & L & _).
  exists c, t. split; [apply E, Permutation_refl|]. now split.
Qed.
Print Assumptions C49_in_order.
(** Different points of the result coincide at most where four tiles meet; missing: these crossings. *)
Theorem C49_partial :
  forall coords topo tol sx sy lx hx ly hy nX nY, tile_cell coords tol sx sy lx hx ly hy -> rect (ncols topo) topo -> (forall n, used topo n -> (n < length coords)%nat) ->
  forall its c t xmin xmax ymin ymax, sharp coords 0 tol -> sharp coords 1 tol -> 0 < tol -> NoDup coords ->
  bounds coords 0 xmin xmax -> bounds coords 1 ymin ymax -> Permutation (list_prod (seq 0 nX) (seq 0 nY)) its -> tile2d_in its coords topo nX nY tol = Ok (c, t) ->
  forall a b p, a <> b -> nth_error c a = Some p -> nth_error c b = Some p ->
    exists i j, (0 < i < nX)%nat /\ (0 < j < nY)%nat /\ nth 0 p 0 = xmin + INR i * sx /\ nth 1 p 0 = ymin + INR j * sy.
Proof. exact tiles_coincide. Qed.
Print Assumptions C49_partial.
(** A single row or column of tiles: no points coincide. *)
Theorem C49_strip :
  forall coords topo tol sx sy lx hx ly hy nX nY, tile_cell coords tol sx sy lx hx ly hy -> rect (ncols topo) topo -> (forall n, used topo n -> (n < length coords)%nat) ->
  forall its c t, sharp coords 0 tol -> sharp coords 1 tol -> 0 < tol -> NoDup coords -> (nX <= 1 \/ nY <= 1)%nat -> Permutation (list_prod (seq 0 nX) (seq 0 nY)) its -> tile2d_in its coords topo nX nY tol = Ok (c, t) -> NoDup c.
Proof. exact tiles_strip. Qed.
Print Assumptions C49_strip.
(** At least two rows and two columns of tiles, the corner of the cell and the next one in y direction are used: two points of the result coincide, and both are used by cells. *)
Theorem C49_refuted :
  forall coords topo tol sx sy lx hx ly hy nX nY, tile_cell coords tol sx sy lx hx ly hy -> rect (ncols topo) topo -> (forall n, used topo n -> (n < length coords)%nat) ->
  forall its c t sw nw, (1 < nX)%nat -> (1 < nY)%nat -> In sw lx -> In (sw, nw) (combine ly hy) -> used topo sw -> used topo nw ->
  Permutation (list_prod (seq 0 nX) (seq 0 nY)) its -> tile2d_in its coords topo nX nY tol = Ok (c, t) ->
  exists a b p, a <> b /\ nth_error c a = Some p /\ nth_error c b = Some p /\ used t a /\ used t b.
Proof. exact tiles_crossing. Qed.
Print Assumptions C49_refuted.

(** Opposite sides with different numbers of nodes: ValueError. *)
Theorem C49_sides :
  forall its coords topo nX nY tol xmin xmax ymin ymax lx hx, rect 3 coords -> rect (ncols topo) topo -> bounds coords 0 xmin xmax -> bounds coords 1 ymin ymax ->
  nodes_near coords 0 xmin tol lx -> nodes_near coords 0 xmax tol hx -> length lx <> length hx -> (1 < nX)%nat -> (0 < nY)%nat ->
  Permutation (list_prod (seq 0 nX) (seq 0 nY)) its -> tile2d_in its coords topo nX nY tol = Err ValueError.
Proof. exact tiles_mismatch. Qed.
Print Assumptions C49_sides.

(** The numbers of a rectangle run around it: tile2d joins the rows of tiles crosswise, the first node of the second tile is at the right instead of the left. *)
Theorem C49_order_refuted :
  forall x0 x1 y0 y1 tol nX nY its, 0 < tol -> tol <= x1 - x0 -> tol <= y1 - y0 -> (0 < nX)%nat -> (1 < nY)%nat -> Permutation (list_prod (seq 0 nX) (seq 0 nY)) its ->
  exists c t m m', tile2d_in its [[x0; y0; 0]; [x1; y0; 0]; [x1; y1; 0]; [x0; y1; 0]] [[0; 1; 2; 3]%nat] nX nY tol = Ok (c, t) /\ entry t 1 0 m /\ entry t 1 1 m' /\
    nth_error c m = Some [x1; y1; 0] /\ nth_error c m' = Some [x0; y1; 0].
Proof. exact tiles_twisted. Qed.
Print Assumptions C49_order_refuted.

(** a rectangle with an inner node, numbered row by row *)
Definition brick : list (list R) := [[0; 0; 0]; [2; 0; 0]; [1; 1/2; 0]; [0; 1; 0]; [2; 1; 0]].
Ltac dist := unfold Rabs; destruct Rcase_abs; lra.
Example C49_ex_cell : tile_cell brick (1/4) 2 1 [0; 3]%nat [1; 4]%nat [0; 1]%nat [3; 4]%nat.
Proof.
  assert (B : bounds brick 0 0 2 /\ bounds brick 1 0 1) by (split; (split; [exists 0%nat; split; [cbn; lia|reflexivity]|split; [exists 4%nat; split; [cbn; lia|reflexivity]|]]); intros n Hn; cbn in Hn; (destruct n as [|[|[|[|[|n]]]]]; [cbn; lra..|lia])).
  assert (Q : forall d v l, StronglySorted lt l -> (forall n, In n l -> (n < 5)%nat) -> (forall n, (n < 5)%nat -> (In n l /\ Rabs (coord brick n d - v) < 1/4) \/ (~ In n l /\ 1/4 <= Rabs (coord brick n d - v))) -> nodes_near brick d v (1/4) l).
  { intros d v l H1 H2 H3. split; [exact H1|]. intros n. split; [intros H; split; [now apply H2|]|intros [L H]]; [destruct (H3 n (H2 n H)) as [W|W]; tauto|destruct (H3 n L) as [W|W]; [tauto|lra]]. }
  assert (W : forall l : list nat, l = [0; 3]%nat \/ l = [1; 4]%nat \/ l = [0; 1]%nat \/ l = [3; 4]%nat -> StronglySorted lt l /\ forall n, In n l -> (n < 5)%nat).
  { intros l [-> |[-> |[-> | ->]]]; (split; [repeat constructor; lia|intros n Hn; cbn in Hn; repeat (destruct Hn as [<-|Hn]; [lia|]); contradiction]). }
  split; [repeat constructor|]. exists 0, 2, 0, 1. split; [tauto|]. split; [tauto|]. split; [lra|]. split; [lra|].
  repeat (split; [apply Q; [apply W; auto|apply W; auto|]; intros n Hn; destruct n as [|[|[|[|[|n]]]]]; [..|lia]; cbn; first [left; split; [now auto|dist]|right; split; [lia|dist]]|]).
  split; repeat (constructor; [split; [cbn; lra|intros e He Ne; destruct e as [|[|[|e]]]; try lia; reflexivity]|]); constructor.
Qed.
Example C49_ex_sharp : sharp brick 0 (1/4) /\ sharp brick 1 (1/4) /\ NoDup brick.
Proof.
  assert (B : forall d lo hi lo' hi', bounds brick d lo hi -> bounds brick d lo' hi' -> lo = lo' /\ hi = hi') by (intros; eapply bounds_unique; eassumption).
  destruct C49_ex_cell as (_ & x0 & x1 & y0 & y1 & BX & BY & _).
  assert (EX : bounds brick 0 0 2 /\ bounds brick 1 0 1) by (split; (split; [exists 0%nat; split; [cbn; lia|reflexivity]|split; [exists 4%nat; split; [cbn; lia|reflexivity]|]]); intros n Hn; cbn in Hn; (destruct n as [|[|[|[|[|n]]]]]; [cbn; lra..|lia])).
  split; [|split].
  - intros lo hi H. destruct (B _ _ _ _ _ H (proj1 EX)) as [-> ->]. split; [lra|]. intros n Hn. destruct n as [|[|[|[|[|n]]]]]; [..|cbn in Hn; lia]; cbn; split; intros D; try reflexivity; exfalso; revert D; dist.
  - intros lo hi H. destruct (B _ _ _ _ _ H (proj2 EX)) as [-> ->]. split; [lra|]. intros n Hn. destruct n as [|[|[|[|[|n]]]]]; [..|cbn in Hn; lia]; cbn; split; intros D; try reflexivity; exfalso; revert D; dist.
  - repeat constructor; cbn; intros H; repeat (destruct H as [H|H]; [injection H as; lra|]); contradiction.
Qed.
(** four triangles around the inner node: the corners 0 and 3 are used *)
Example C49_ex : exists c t a b p, tile2d brick [[0; 1; 2]; [1; 4; 2]; [4; 3; 2]; [3; 0; 2]]%nat 2 2 (1/4) = Ok (c, t) /\ length t = 16%nat /\ a <> b /\ nth_error c a = Some p /\ nth_error c b = Some p.
Proof.
  set (topo := [[0; 1; 2]; [1; 4; 2]; [4; 3; 2]; [3; 0; 2]]%nat).
  assert (HU : forall n, used topo n -> (n < length brick)%nat).
  { intros n (e & k & row & H1 & H2). apply nth_error_In in H1, H2. cbn in H1. repeat (destruct H1 as [<-|H1]; [cbn in H2; repeat (destruct H2 as [<-|H2]; [cbn; lia|]); contradiction|]). contradiction. }
  destruct (C49_copies brick topo (1/4) 2 1 _ _ _ _ 2 2 C49_ex_cell ltac:(repeat constructor) HU) as (c & t & E & L & _).
  destruct (C49_refuted brick topo (1/4) 2 1 _ _ _ _ 2 2 C49_ex_cell ltac:(repeat constructor) HU (list_prod (seq 0 2) (seq 0 2)) c t 0 3) as (a & b & p & N & A & B & _); try lia; try (cbn; now auto).
  - exists 0%nat, 0%nat, [0; 1; 2]%nat. split; reflexivity.
  - exists 2%nat, 1%nat, [4; 3; 2]%nat. split; reflexivity.
  - apply E, Permutation_refl.
  - exists c, t, a, b, p. split; [apply E, Permutation_refl|]. auto.
Qed.
(** a trapezoid with three nodes on the left: ValueError *)
Example C49_sides_ex : bounds [[0; 0; 0]; [2; 0; 0]; [2; 1; 0]; [0; 1; 0]; [0; 1/2; 0]] 0 0 2 /\ length [0; 3; 4]%nat <> length [1; 2]%nat.
Proof.
  split; [|discriminate]. split; [exists 0%nat; split; [cbn; lia|reflexivity]|split; [exists 2%nat; split; [cbn; lia|reflexivity]|]]. intros n Hn; cbn in Hn; destruct n as [|[|[|[|[|n]]]]]; [cbn; lra..|lia].
Qed.

Local Open Scope nat_scope.
(** ** C58 Colors *)

(** A color is written with six lower case digits and read back, with or without a leading #. *)
Theorem C58_round_trip :
  forall r g b, r < 256 -> g < 256 -> b < 256 ->
  exists s, rgb_to_hex [r; g; b] = Ok s /\ length s = 6 /\ (forall c, In c s -> In c digits) /\ hex_to_rgb s = Ok [r; g; b] /\ hex_to_rgb ("#"%char :: s) = Ok [r; g; b].
Proof. exact color_round. Qed.
Print Assumptions C58_round_trip.
(** Different colors are written differently. *)
Theorem C58_injective :
  forall r g b r' g' b' s, r < 256 -> g < 256 -> b < 256 -> r' < 256 -> g' < 256 -> b' < 256 ->
  rgb_to_hex [r; g; b] = Ok s -> rgb_to_hex [r'; g'; b'] = Ok s -> r = r' /\ g = g' /\ b = b'.
Proof. exact color_injective. Qed.
Print Assumptions C58_injective.
(** Six lower case digits are read as a color that is written with the same digits. *)
Theorem C58_back :
  forall s, length s = 6 -> (forall c, In c s -> In c digits) ->
  exists r g b, hex_to_rgb s = Ok [r; g; b] /\ r < 256 /\ g < 256 /\ b < 256 /\ rgb_to_hex [r; g; b] = Ok s.
Proof. exact color_back. Qed.
Print Assumptions C58_back.
(** A channel above 255 is not rejected: four numbers are read back. *)
Theorem C58_range :
  forall r g b s rgb, 256 <= r < 4096 -> g < 256 -> b < 256 -> rgb_to_hex [r; g; b] = Ok s -> hex_to_rgb s = Ok rgb -> length rgb = 4.
Proof. exact color_above. Qed.
Print Assumptions C58_range.
(** As many digits for each channel, any number of leading #: the three numbers that the thirds denote. *)
Theorem C58_thirds :
  forall n k A B C, length A = k -> length B = k -> length C = k -> 0 < k -> Forall (fun d => d < 16) (A ++ B ++ C) ->
  hex_to_rgb (repeat "#"%char n ++ map digit_of (A ++ B ++ C)) = Ok [denoted A; denoted B; denoted C].
Proof. exact color_thirds. Qed.
Print Assumptions C58_thirds.
Example C58_thirds_ex : hex_to_rgb ["#"; "f"; "0"; "a"]%char = Ok [15; 0; 10] /\ map digit_of ([15] ++ [0] ++ [10]) = ["f"; "0"; "a"]%char /\ denoted [15; 10] = 250.
Proof. repeat split; reflexivity. Qed.
(** Big and small letters may be mixed. *)
Theorem C58_any_case :
  forall n k A B C s, length A = k -> length B = k -> length C = k -> 0 < k -> Forall2 stands_for s (A ++ B ++ C) ->
  hex_to_rgb (repeat "#"%char n ++ s) = Ok [denoted A; denoted B; denoted C].
Proof. exact color_any_case. Qed.
Print Assumptions C58_any_case.
Example C58_any_case_ex : Forall2 stands_for ["F"; "f"; "0"; "a"; "B"; "9"]%char ([15; 15] ++ [0; 10] ++ [11; 9]).
Proof. repeat (constructor; [(left; reflexivity) || (right; reflexivity)|]). constructor. Qed.
(** Fewer than three characters behind the leading #: a ValueError. *)
Theorem C58_short :
  forall n s, length s < 3 -> hd_error s <> Some "#"%char -> hex_to_rgb (repeat "#"%char n ++ s) = Err ValueError.
Proof. exact color_short. Qed.
Print Assumptions C58_short.
Example C58_short_ex : length ["f"; "f"]%char < 3 /\ hd_error ["f"; "f"]%char <> Some "#"%char.
Proof. split; [cbn; lia|discriminate]. Qed.
(** Other than three channels: a TypeError. *)
Theorem C58_count :
  forall rgb, length rgb <> 3 -> rgb_to_hex rgb = Err TypeError.
Proof. exact color_count. Qed.
Print Assumptions C58_count.
Example C58_count_ex : length [255; 101; 186; 0] <> 3.
Proof. discriminate. Qed.
Example C58_ex : rgb_to_hex [255; 101; 186] = Ok ["f"; "f"; "6"; "5"; "b"; "a"]%char /\ hex_to_rgb ["f"; "f"; "6"; "5"; "b"; "a"]%char = Ok [255; 101; 186].
Proof. split; reflexivity. Qed.
Example C58_range_ex : rgb_to_hex [256; 0; 0] = Ok ["1"; "0"; "0"; "0"; "0"; "0"; "0"]%char /\ hex_to_rgb ["1"; "0"; "0"; "0"; "0"; "0"; "0"]%char = Ok [16; 0; 0; 0].
Proof. split; reflexivity. Qed.
