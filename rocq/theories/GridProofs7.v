(** * Proofs about [GridModel.v], part 7: the statements about [grid] *)
From Coq Require Import Reals Lra String.
From Verif Require Export GridProofs6.
Local Open Scope R_scope.
#[local] Arguments coord : simpl never.

(** ** What [grid] returns *)
Section Two.
  Context (nx ny ex ey start : nat).
  Hypothesis (Hnx : (1 <= nx)%nat) (Hny : (1 <= ny)%nat) (Hex : (2 <= ex)%nat) (Hey : (2 <= ey)%nat).
  Lemma grid2_value (lX lY sx sy : R) :
    grid (uargs [lX; lY] [nx; ny] [sx; sy] start) (ETuple [ex; ey]) =
    Ok (coords2 nx ny (ex - 1) (ey - 1) (uniform sx lX nx (ex - 1)) (uniform sy lY ny (ey - 1)), topo2 nx ny (ex - 1) (ey - 1) start).
  Proof. rewrite grid_uniform_tuple. apply rgridMT2_value; auto. Qed.
  Lemma grid2_lattice (lX lY sx sy : R) :
    lattice2 nx ny (ex - 1) (ey - 1) start (uniform sx lX nx (ex - 1)) (uniform sy lY ny (ey - 1))
     (coords2 nx ny (ex - 1) (ey - 1) (uniform sx lX nx (ex - 1)) (uniform sy lY ny (ey - 1))) (topo2 nx ny (ex - 1) (ey - 1) start).
  Proof. apply lattice2_ok; try lia; apply uniform_joined; lia. Qed.
  Lemma topo2_rect_e : rect (ex * ey) (topo2 nx ny (ex - 1) (ey - 1) start).
  Proof.
    clear Hnx Hny. pose proof (topo2_rect nx ny (ex - 1) (ey - 1) start) as H.
    replace ((ex - 1 + 1) * (ey - 1 + 1))%nat with (ex * ey)%nat in H by (f_equal; lia). exact H.
  Qed.
End Two.
Section Three.
  Context (nx ny nz ex ey ez start : nat).
  Hypothesis (Hnx : (1 <= nx)%nat) (Hny : (1 <= ny)%nat) (Hnz : (1 <= nz)%nat) (Hex : (2 <= ex)%nat) (Hey : (2 <= ey)%nat) (Hez : (2 <= ez)%nat).
  Lemma grid3_value (lX lY lZ sx sy sz : R) :
    grid (uargs [lX; lY; lZ] [nx; ny; nz] [sx; sy; sz] start) (ETuple [ex; ey; ez]) =
    Ok (coords3 nx ny nz (ex - 1) (ey - 1) (ez - 1) (uniform sx lX nx (ex - 1)) (uniform sy lY ny (ey - 1)) (uniform sz lZ nz (ez - 1)),
        topo3 nx ny nz (ex - 1) (ey - 1) (ez - 1) start).
  Proof. rewrite grid_uniform_tuple. apply rgridMT3_value; auto. Qed.
  Lemma grid3_lattice (lX lY lZ sx sy sz : R) :
    lattice3 nx ny nz (ex - 1) (ey - 1) (ez - 1) start (uniform sx lX nx (ex - 1)) (uniform sy lY ny (ey - 1)) (uniform sz lZ nz (ez - 1))
     (coords3 nx ny nz (ex - 1) (ey - 1) (ez - 1) (uniform sx lX nx (ex - 1)) (uniform sy lY ny (ey - 1)) (uniform sz lZ nz (ez - 1)))
     (topo3 nx ny nz (ex - 1) (ey - 1) (ez - 1) start).
  Proof. apply lattice3_ok; try lia; apply uniform_joined; lia. Qed.
  Lemma topo3_rect_e : rect (ex * ey * ez) (topo3 nx ny nz (ex - 1) (ey - 1) (ez - 1) start).
  Proof.
    clear Hnx Hny Hnz. pose proof (topo3_rect nx ny nz (ex - 1) (ey - 1) (ez - 1) start) as H.
    replace ((ex - 1 + 1) * (ey - 1 + 1) * (ez - 1 + 1))%nat with (ex * ey * ez)%nat in H by (f_equal; [f_equal|]; lia). exact H.
  Qed.
End Three.
Section TwoB.
  Context (xb yb : list R) (ex ey start : nat).
  Hypothesis (Hx : (2 <= length xb)%nat) (Hy : (2 <= length yb)%nat) (Hex : (2 <= ex)%nat) (Hey : (2 <= ey)%nat).
  Let nx := (length xb - 1)%nat.
  Let ny := (length yb - 1)%nat.
  Lemma gridb2_value (sx sy : R) e : e = ETuple [ex; ey] \/ e = ESeq [ex; ey] ->
    grid (bargs [xb; yb] [sx; sy] start) e =
    Ok (coords2 nx ny (ex - 1) (ey - 1) (binned sx xb (ex - 1)) (binned sy yb (ey - 1)), topo2 nx ny (ex - 1) (ey - 1) start).
  Proof. intros He. rewrite (grid_bins2 _ _ _ _ [ex; ey]) by auto. apply grid_2d_bins_value; auto. Qed.
  Lemma gridb2_lattice (sx sy : R) :
    lattice2 nx ny (ex - 1) (ey - 1) start (binned sx xb (ex - 1)) (binned sy yb (ey - 1))
     (coords2 nx ny (ex - 1) (ey - 1) (binned sx xb (ex - 1)) (binned sy yb (ey - 1))) (topo2 nx ny (ex - 1) (ey - 1) start).
  Proof. apply lattice2_ok; try lia; apply binned_joined; lia. Qed.
End TwoB.
Section ThreeB.
  Context (xb yb zb : list R) (ex ey ez start : nat).
  Hypothesis (Hx : (2 <= length xb)%nat) (Hy : (2 <= length yb)%nat) (Hz : (2 <= length zb)%nat).
  Hypothesis (Hex : (2 <= ex)%nat) (Hey : (2 <= ey)%nat) (Hez : (2 <= ez)%nat).
  Let nx := (length xb - 1)%nat.
  Let ny := (length yb - 1)%nat.
  Let nz := (length zb - 1)%nat.
  Lemma gridb3_value (sx sy sz : R) e : e = ETuple [ex; ey; ez] \/ e = ESeq [ex; ey; ez] ->
    grid (bargs [xb; yb; zb] [sx; sy; sz] start) e =
    Ok (coords3 nx ny nz (ex - 1) (ey - 1) (ez - 1) (binned sx xb (ex - 1)) (binned sy yb (ey - 1)) (binned sz zb (ez - 1)),
        topo3 nx ny nz (ex - 1) (ey - 1) (ez - 1) start).
  Proof. intros He. rewrite (grid_bins3 _ _ _ _ _ [ex; ey; ez]) by auto. apply (grid_3d_bins_value (fun x => x)); auto. Qed.
  Lemma gridb3_lattice (sx sy sz : R) :
    lattice3 nx ny nz (ex - 1) (ey - 1) (ez - 1) start (binned sx xb (ex - 1)) (binned sy yb (ey - 1)) (binned sz zb (ez - 1))
     (coords3 nx ny nz (ex - 1) (ey - 1) (ez - 1) (binned sx xb (ex - 1)) (binned sy yb (ey - 1)) (binned sz zb (ez - 1)))
     (topo3 nx ny nz (ex - 1) (ey - 1) (ez - 1) start).
  Proof. apply lattice3_ok; try lia; apply binned_joined; lia. Qed.
End ThreeB.

(** ** Numbering *)
Lemma grid2_numbering (lX lY sx sy : R) nx ny ex ey start :
  (1 <= nx)%nat -> (1 <= ny)%nat -> (2 <= ex)%nat -> (2 <= ey)%nat ->
  exists coords topo, grid (uargs [lX; lY] [nx; ny] [sx; sy] start) (ETuple [ex; ey]) = Ok (coords, topo) /\
    length coords = ((nx * (ex - 1) + 1) * (ny * (ey - 1) + 1))%nat /\ length topo = (nx * ny)%nat /\ rect (ex * ey) topo /\
    numbering_ok start (length coords) topo.
Proof.
  intros. do 2 eexists. split; [apply grid2_value; auto|]. split; [apply table2_length|]. split; [apply table2_length|].
  split; [apply topo2_rect_e; auto|]. eapply lattice2_numbering; [..|apply grid2_lattice]; auto; lia.
Qed.
Lemma grid3_numbering (lX lY lZ sx sy sz : R) nx ny nz ex ey ez start :
  (1 <= nx)%nat -> (1 <= ny)%nat -> (1 <= nz)%nat -> (2 <= ex)%nat -> (2 <= ey)%nat -> (2 <= ez)%nat ->
  exists coords topo, grid (uargs [lX; lY; lZ] [nx; ny; nz] [sx; sy; sz] start) (ETuple [ex; ey; ez]) = Ok (coords, topo) /\
    length coords = ((nx * (ex - 1) + 1) * (ny * (ey - 1) + 1) * (nz * (ez - 1) + 1))%nat /\ length topo = (nx * ny * nz)%nat /\
    rect (ex * ey * ez) topo /\ numbering_ok start (length coords) topo.
Proof.
  intros. do 2 eexists. split; [apply grid3_value; auto|]. split; [apply table2_length|]. split; [apply table2_length|].
  split; [apply topo3_rect_e; auto|]. eapply lattice3_numbering; [..|apply grid3_lattice]; auto; lia.
Qed.
Lemma gridb2_numbering (xb yb : list R) sx sy ex ey start :
  (2 <= length xb)%nat -> (2 <= length yb)%nat -> (2 <= ex)%nat -> (2 <= ey)%nat ->
  let nx := (length xb - 1)%nat in let ny := (length yb - 1)%nat in
  exists coords topo, grid (bargs [xb; yb] [sx; sy] start) (ETuple [ex; ey]) = Ok (coords, topo) /\
    length coords = ((nx * (ex - 1) + 1) * (ny * (ey - 1) + 1))%nat /\ length topo = (nx * ny)%nat /\ rect (ex * ey) topo /\
    numbering_ok start (length coords) topo.
Proof.
  intros. do 2 eexists. split; [apply (gridb2_value xb yb ex ey); auto|]. split; [apply table2_length|]. split; [apply table2_length|].
  split; [apply topo2_rect_e; auto|]. refine (lattice2_numbering _ _ _ _ _ _ _ _ _ _ _ _ _ (gridb2_lattice xb yb ex ey start _ _ _ _ sx sy)); lia.
Qed.
Lemma gridb3_numbering (xb yb zb : list R) sx sy sz ex ey ez start :
  (2 <= length xb)%nat -> (2 <= length yb)%nat -> (2 <= length zb)%nat -> (2 <= ex)%nat -> (2 <= ey)%nat -> (2 <= ez)%nat ->
  let nx := (length xb - 1)%nat in let ny := (length yb - 1)%nat in let nz := (length zb - 1)%nat in
  exists coords topo, grid (bargs [xb; yb; zb] [sx; sy; sz] start) (ETuple [ex; ey; ez]) = Ok (coords, topo) /\
    length coords = ((nx * (ex - 1) + 1) * (ny * (ey - 1) + 1) * (nz * (ez - 1) + 1))%nat /\ length topo = (nx * ny * nz)%nat /\
    rect (ex * ey * ez) topo /\ numbering_ok start (length coords) topo.
Proof.
  intros. do 2 eexists. split; [apply (gridb3_value xb yb zb ex ey ez); auto|]. split; [apply table2_length|]. split; [apply table2_length|].
  split; [apply topo3_rect_e; auto|]. refine (lattice3_numbering _ _ _ _ _ _ _ _ _ _ _ _ _ _ _ _ _ _ (gridb3_lattice xb yb zb ex ey ez start _ _ _ _ _ _ sx sy sz)); lia.
Qed.

(** ** Geometry *)
Lemma tiles_eq dim start coords topo s l s' l' : s = s' -> l = l' -> tiles_box dim start coords topo s l -> tiles_box dim start coords topo s' l'.
Proof. intros -> ->. auto. Qed.
Lemma grid2_tiles (lX lY sx sy : R) nx ny ex ey start :
  (1 <= nx)%nat -> (1 <= ny)%nat -> (2 <= ex)%nat -> (2 <= ey)%nat ->
  exists coords topo, grid (uargs [lX; lY] [nx; ny] [sx; sy] start) (ETuple [ex; ey]) = Ok (coords, topo) /\
    lattice2 nx ny (ex - 1) (ey - 1) start (uniform sx lX nx (ex - 1)) (uniform sy lY ny (ey - 1)) coords topo /\
    (0 <= lX -> 0 <= lY -> tiles_box 2 start coords topo [sx; sy] [lX; lY]) /\
    (0 < lX -> 0 < lY -> points_differ coords /\ shares_faces 2 start coords topo).
Proof.
  intros Hnx Hny Hex Hey. do 2 eexists. split; [apply grid2_value; auto|]. pose proof (grid2_lattice nx ny ex ey start Hnx Hny Hex Hey lX lY sx sy) as HL.
  split; [exact HL|]. split.
  - intros HlX HlY. eapply tiles_eq; [| |eapply lattice2_tiles; [exact HL|..]]; auto; try lia;
      try (apply uniform_joined; lia); try (apply uniform_le; auto; lia).
    + rewrite !uniform_first. reflexivity.
    + rewrite !uniform_first, !uniform_last by lia. f_equal; [|f_equal]; lra.
  - intros HlX HlY. split; [eapply lattice2_points_differ|eapply lattice2_shares]; try exact HL; auto; try lia;
      try (apply uniform_joined; lia); apply uniform_lt; auto; lia.
Qed.
Lemma grid3_tiles (lX lY lZ sx sy sz : R) nx ny nz ex ey ez start :
  (1 <= nx)%nat -> (1 <= ny)%nat -> (1 <= nz)%nat -> (2 <= ex)%nat -> (2 <= ey)%nat -> (2 <= ez)%nat ->
  exists coords topo, grid (uargs [lX; lY; lZ] [nx; ny; nz] [sx; sy; sz] start) (ETuple [ex; ey; ez]) = Ok (coords, topo) /\
    lattice3 nx ny nz (ex - 1) (ey - 1) (ez - 1) start
      (uniform sx lX nx (ex - 1)) (uniform sy lY ny (ey - 1)) (uniform sz lZ nz (ez - 1)) coords topo /\
    (0 <= lX -> 0 <= lY -> 0 <= lZ -> tiles_box 3 start coords topo [sx; sy; sz] [lX; lY; lZ]) /\
    (0 < lX -> 0 < lY -> 0 < lZ -> points_differ coords /\ shares_faces 3 start coords topo).
Proof.
  intros Hnx Hny Hnz Hex Hey Hez. do 2 eexists. split; [apply grid3_value; auto|].
  pose proof (grid3_lattice nx ny nz ex ey ez start Hnx Hny Hnz Hex Hey Hez lX lY lZ sx sy sz) as HL.
  split; [exact HL|]. split.
  - intros HlX HlY HlZ. eapply tiles_eq; [| |eapply lattice3_tiles; [exact HL|..]]; auto; try lia;
      try (apply uniform_joined; lia); try (apply uniform_le; auto; lia).
    + rewrite !uniform_first. reflexivity.
    + rewrite !uniform_first, !uniform_last by lia. f_equal; [|f_equal; [|f_equal]]; lra.
  - intros HlX HlY HlZ. split; [eapply lattice3_points_differ|eapply lattice3_shares]; try exact HL; auto; try lia;
      try (apply uniform_joined; lia); apply uniform_lt; auto; lia.
Qed.
Lemma gridb2_tiles (xb yb : list R) sx sy ex ey start e :
  (2 <= length xb)%nat -> (2 <= length yb)%nat -> (2 <= ex)%nat -> (2 <= ey)%nat -> e = ETuple [ex; ey] \/ e = ESeq [ex; ey] ->
  let nx := (length xb - 1)%nat in let ny := (length yb - 1)%nat in
  exists coords topo, grid (bargs [xb; yb] [sx; sy] start) e = Ok (coords, topo) /\
    lattice2 nx ny (ex - 1) (ey - 1) start (binned sx xb (ex - 1)) (binned sy yb (ey - 1)) coords topo /\
    (increasing xb -> increasing yb ->
       tiles_box 2 start coords topo [sx + nth 0 xb 0; sy + nth 0 yb 0] [nth nx xb 0 - nth 0 xb 0; nth ny yb 0 - nth 0 yb 0] /\
       points_differ coords /\ shares_faces 2 start coords topo).
Proof.
  intros Hx Hy Hex Hey He nx ny. do 2 eexists. split; [apply (gridb2_value xb yb ex ey); auto|].
  pose proof (gridb2_lattice xb yb ex ey start Hx Hy Hex Hey sx sy) as HL.
  split; [exact HL|]. intros Hix Hiy.
  assert (Lx : axis_lt (binned sx xb (ex - 1)) (ex - 1) (length xb - 1)) by (apply binned_lt; auto; lia).
  assert (Ly : axis_lt (binned sy yb (ey - 1)) (ey - 1) (length yb - 1)) by (apply binned_lt; auto; lia).
  split; [|split].
  - eapply tiles_eq; [| |eapply lattice2_tiles; [exact HL|..]]; auto; try lia; try (apply binned_joined; lia); try (apply axis_lt_le; auto).
    + rewrite !binned_first. reflexivity.
    + rewrite !binned_first, !binned_last by lia. fold nx ny. f_equal; [|f_equal]; lra.
  - eapply lattice2_points_differ; try exact HL; auto; try lia; apply binned_joined; lia.
  - eapply lattice2_shares; try exact HL; auto; try lia; apply binned_joined; lia.
Qed.
Lemma gridb3_tiles (xb yb zb : list R) sx sy sz ex ey ez start e :
  (2 <= length xb)%nat -> (2 <= length yb)%nat -> (2 <= length zb)%nat -> (2 <= ex)%nat -> (2 <= ey)%nat -> (2 <= ez)%nat ->
  e = ETuple [ex; ey; ez] \/ e = ESeq [ex; ey; ez] ->
  let nx := (length xb - 1)%nat in let ny := (length yb - 1)%nat in let nz := (length zb - 1)%nat in
  exists coords topo, grid (bargs [xb; yb; zb] [sx; sy; sz] start) e = Ok (coords, topo) /\
    lattice3 nx ny nz (ex - 1) (ey - 1) (ez - 1) start
      (binned sx xb (ex - 1)) (binned sy yb (ey - 1)) (binned sz zb (ez - 1)) coords topo /\
    (increasing xb -> increasing yb -> increasing zb ->
       tiles_box 3 start coords topo [sx + nth 0 xb 0; sy + nth 0 yb 0; sz + nth 0 zb 0]
         [nth nx xb 0 - nth 0 xb 0; nth ny yb 0 - nth 0 yb 0; nth nz zb 0 - nth 0 zb 0] /\
       points_differ coords /\ shares_faces 3 start coords topo).
Proof.
  intros Hx Hy Hz Hex Hey Hez He nx ny nz. do 2 eexists. split; [apply (gridb3_value xb yb zb ex ey ez); auto|].
  pose proof (gridb3_lattice xb yb zb ex ey ez start Hx Hy Hz Hex Hey Hez sx sy sz) as HL.
  split; [exact HL|]. intros Hix Hiy Hiz.
  assert (Lx : axis_lt (binned sx xb (ex - 1)) (ex - 1) (length xb - 1)) by (apply binned_lt; auto; lia).
  assert (Ly : axis_lt (binned sy yb (ey - 1)) (ey - 1) (length yb - 1)) by (apply binned_lt; auto; lia).
  assert (Lz : axis_lt (binned sz zb (ez - 1)) (ez - 1) (length zb - 1)) by (apply binned_lt; auto; lia).
  split; [|split].
  - eapply tiles_eq; [| |eapply lattice3_tiles; [exact HL|..]]; auto; try lia; try (apply binned_joined; lia); try (apply axis_lt_le; auto).
    + rewrite !binned_first. reflexivity.
    + rewrite !binned_first, !binned_last by lia. fold nx ny nz. f_equal; [|f_equal; [|f_equal]]; lra.
  - eapply lattice3_points_differ; try exact HL; auto; try lia; apply binned_joined; lia.
  - eapply lattice3_shares; try exact HL; auto; try lia; apply binned_joined; lia.
Qed.

(** ** Schedules *)
Lemma grid2_schedule (lX lY sx sy : R) nx ny ex ey start :
  (1 <= nx)%nat -> (1 <= ny)%nat -> (2 <= ex)%nat -> (2 <= ey)%nat ->
  exists coords topo nP nC nN cw tw,
    rgridST2 lX lY nx ny ex ey sx sy start = Ok (coords, topo) /\
    grid (uargs [lX; lY] [nx; ny] [sx; sy] start) (ETuple [ex; ey]) = Ok (coords, topo) /\
    rgrid_writes2 lX lY nx ny ex ey sx sy = Ok ((nP, cw), (nC, nN, tw)) /\
    forall cw' tw', Permutation cw cw' -> Permutation tw tw' ->
      run_writes2 cw' (zeros2 0 nP 2) = Ok coords /\
      exists t, run_writes2 tw' (zeros2 0%nat nC nN) = Ok t /\ add_start1 start t = topo.
Proof.
  intros Hnx Hny Hex Hey. destruct (rgrid2_filled lX lY nx ny ex ey sx sy Hnx Hny Hex Hey) as (cw & tw & E & Hc & Ht).
  do 7 eexists. split; [rewrite (rgridST2_writes _ _ _ _ _ _ _ _ _ []) by auto; apply rgridMT2_value; auto|].
  split; [apply grid2_value; auto|]. split; [exact E|]. intros cw' tw' Hcw Htw. split; [apply Hc; auto|].
  eexists. split; [apply Ht; auto|]. unfold add_start1. apply topo2_shift. intros; lia.
Qed.
Lemma grid3_schedule (lX lY lZ sx sy sz : R) nx ny nz ex ey ez start :
  (1 <= nx)%nat -> (1 <= ny)%nat -> (1 <= nz)%nat -> (2 <= ex)%nat -> (2 <= ey)%nat -> (2 <= ez)%nat ->
  exists coords topo nP nC nN cw tw,
    rgridST3 lX lY lZ nx ny nz ex ey ez sx sy sz start = Ok (coords, topo) /\
    grid (uargs [lX; lY; lZ] [nx; ny; nz] [sx; sy; sz] start) (ETuple [ex; ey; ez]) = Ok (coords, topo) /\
    rgrid_writes3 lX lY lZ nx ny nz ex ey ez sx sy sz = Ok ((nP, cw), (nC, nN, tw)) /\
    forall cw' tw', Permutation cw cw' -> Permutation tw tw' ->
      run_writes2 cw' (zeros2 0 nP 3) = Ok coords /\
      exists t, run_writes2 tw' (zeros2 0%nat nC nN) = Ok t /\ add_start1 start t = topo.
Proof.
  intros Hnx Hny Hnz Hex Hey Hez.
  destruct (rgrid3_filled lX lY lZ nx ny nz ex ey ez sx sy sz Hnx Hny Hnz Hex Hey Hez) as (cw & tw & E & Hc & Ht).
  do 7 eexists. split; [rewrite (rgridST3_writes _ _ _ _ _ _ _ _ _ _ _ _ _ []) by auto; apply rgridMT3_value; auto|].
  split; [apply grid3_value; auto|]. split; [exact E|]. intros cw' tw' Hcw Htw. split; [apply Hc; auto|].
  eexists. split; [apply Ht; auto|]. unfold add_start1. apply topo3_shift. intros; lia.
Qed.

(** ** Named grids *)
Lemma reordered_numbering start nP topo topo' path w : rect w topo -> Permutation path (seq 0 w) -> reordered path topo topo' ->
  numbering_ok start nP topo -> numbering_ok start nP topo'.
Proof.
  intros Hr Hp Hre [H1 H2].
  assert (Hcell : forall c cell', nth_error topo' c = Some cell' -> exists cell, nth_error topo c = Some cell /\ Permutation cell cell').
  { intros c cell' Hc'. destruct (nth_error topo c) as [cell|] eqn:Hc.
    - exists cell. split; auto. apply (reordered_perm path topo topo' c); auto.
      unfold rect in Hr. rewrite Forall_forall in Hr. rewrite (Hr cell) by (eapply nth_error_In; eauto). auto.
    - apply nth_error_None in Hc. destruct Hre as [Hl _]. pose proof (nth_error_Some_lt _ _ _ Hc'). lia. }
  split.
  - intros cell' Hin. apply In_nth_error in Hin. destruct Hin as [c Hc']. destruct (Hcell _ _ Hc') as (cell & Hc & Hpm).
    destruct (H1 cell) as [Hnd Hb]; [eapply nth_error_In; eauto|]. split.
    + eapply Permutation_NoDup; eauto.
    + intros n Hn. apply Hb. eapply Permutation_in; [apply Permutation_sym|]; eauto.
  - intros p Hpp. destruct (H2 p Hpp) as (cell & Hin & Hn). apply In_nth_error in Hin. destruct Hin as [c Hc].
    destruct Hre as [Hl Hre']. destruct (nth_error topo' c) as [cell'|] eqn:Hc'.
    + destruct (Hcell _ _ Hc') as (cell0 & Hc0 & Hpm). rewrite Hc in Hc0. injection Hc0 as <-.
      exists cell'. split; [eapply nth_error_In; eauto|]. eapply Permutation_in; eauto.
    + apply nth_error_None in Hc'. pose proof (nth_error_Some_lt _ _ _ Hc). lia.
Qed.
(** a decision procedure for permutations of 0, ..., n - 1 *)
Lemma perm_seq path n : length path = n -> NoDup path -> (forall q, In q path -> (q < n)%nat) -> Permutation path (seq 0 n).
Proof.
  intros Hl Hn Hb. apply NoDup_Permutation_bis; auto; [rewrite seq_length; lia|]. intros q Hq. apply in_seq. specialize (Hb q Hq). lia.
Qed.
Definition perm_seqb (path : list nat) : bool :=
  forallb (fun q => Nat.ltb q (length path)) path &&
  forallb (fun k => existsb (Nat.eqb k) path) (seq 0 (length path)).
Lemma perm_seqb_ok path : perm_seqb path = true -> Permutation path (seq 0 (length path)).
Proof.
  unfold perm_seqb. rewrite Bool.andb_true_iff, !forallb_forall. intros [H1 H2]. symmetry.
  apply NoDup_Permutation_bis; [apply seq_NoDup|rewrite seq_length; lia|].
  intros k Hk. specialize (H2 k Hk). apply existsb_exists in H2. destruct H2 as (x & Hx & E). apply Nat.eqb_eq in E. subst. auto.
Qed.
Lemma perm_all_lt path : Permutation path (seq 0 (length path)) -> Forall (fun q => (q < length path)%nat) path.
Proof. intros H. apply Forall_forall. intros q Hq. rewrite H in Hq. apply in_seq in Hq. lia. Qed.

Lemma grid2_named (lX lY sx sy : R) nx ny w start name path lcoords :
  (1 <= nx)%nat -> (1 <= ny)%nat -> (1 <= w)%nat ->
  named (uargs [lX; lY] [nx; ny] [sx; sy] start) name [w + 1; w + 1]%nat path -> path_table2 w path lcoords ->
  length path = ((w + 1) * (w + 1))%nat -> perm_seqb path = true ->
  exists coords topo, grid (uargs [lX; lY] [nx; ny] [sx; sy] start) (EName name) = Ok (coords, topo) /\
    length topo = (nx * ny)%nat /\ numbering_ok start (length coords) topo /\
    forall i j, (i < nx)%nat -> (j < ny)%nat -> exists cell, nth_error topo (i * ny + j) = Some cell /\
      box_placed 2 start coords cell lcoords
        (fun d => nth d [sx + lX / INR nx * INR i; sy + lY / INR ny * INR j] 0) (fun d => nth d [lX / INR nx; lY / INR ny] 0).
Proof.
  intros Hnx Hny Hw Hname Htab Hlp Hpb. apply perm_seqb_ok in Hpb.
  pose proof (grid2_value nx ny (w + 1) (w + 1) start Hnx Hny ltac:(lia) ltac:(lia) lX lY sx sy) as E.
  pose proof (topo2_rect_e nx ny (w + 1) (w + 1) start ltac:(lia) ltac:(lia)) as Hr.
  pose proof (grid2_lattice nx ny (w + 1) (w + 1) start Hnx Hny ltac:(lia) ltac:(lia) lX lY sx sy) as HL.
  replace (w + 1 - 1)%nat with w in * by lia. rewrite <- Hlp in Hr.
  destruct (Hname _ _ _ E Hr (perm_all_lt _ Hpb)) as (topo' & E' & Hre). do 2 eexists. split; [exact E'|].
  split; [destruct Hre as [-> _]; apply table2_length|].
  split; [eapply reordered_numbering; [exact Hr|exact Hpb|exact Hre|]; eapply lattice2_numbering; [..|exact HL]; auto|].
  intros i j Hi Hj.
  apply (placed2 nx ny w start _ _ _ _ topo' path lcoords (fun i => sx + lX / INR nx * INR i) (fun _ => lX / INR nx)
           (fun j => sy + lY / INR ny * INR j) (fun _ => lY / INR ny) Hw HL Htab Hre); auto; intros; reflexivity.
Qed.
Lemma grid3_named (lX lY lZ sx sy sz : R) nx ny nz w start name path lcoords :
  (1 <= nx)%nat -> (1 <= ny)%nat -> (1 <= nz)%nat -> (1 <= w)%nat ->
  named (uargs [lX; lY; lZ] [nx; ny; nz] [sx; sy; sz] start) name [w + 1; w + 1; w + 1]%nat path -> path_table3 w path lcoords ->
  length path = ((w + 1) * (w + 1) * (w + 1))%nat -> perm_seqb path = true ->
  exists coords topo, grid (uargs [lX; lY; lZ] [nx; ny; nz] [sx; sy; sz] start) (EName name) = Ok (coords, topo) /\
    length topo = (nx * ny * nz)%nat /\ numbering_ok start (length coords) topo /\
    forall i j l, (i < nx)%nat -> (j < ny)%nat -> (l < nz)%nat -> exists cell, nth_error topo ((i * ny + j) * nz + l) = Some cell /\
      box_placed 3 start coords cell lcoords
        (fun d => nth d [sx + lX / INR nx * INR i; sy + lY / INR ny * INR j; sz + lZ / INR nz * INR l] 0)
        (fun d => nth d [lX / INR nx; lY / INR ny; lZ / INR nz] 0).
Proof.
  intros Hnx Hny Hnz Hw Hname Htab Hlp Hpb. apply perm_seqb_ok in Hpb.
  pose proof (grid3_value nx ny nz (w + 1) (w + 1) (w + 1) start Hnx Hny Hnz ltac:(lia) ltac:(lia) ltac:(lia) lX lY lZ sx sy sz) as E.
  pose proof (topo3_rect_e nx ny nz (w + 1) (w + 1) (w + 1) start ltac:(lia) ltac:(lia) ltac:(lia)) as Hr.
  pose proof (grid3_lattice nx ny nz (w + 1) (w + 1) (w + 1) start Hnx Hny Hnz ltac:(lia) ltac:(lia) ltac:(lia) lX lY lZ sx sy sz) as HL.
  replace (w + 1 - 1)%nat with w in * by lia. rewrite <- Hlp in Hr.
  destruct (Hname _ _ _ E Hr (perm_all_lt _ Hpb)) as (topo' & E' & Hre). do 2 eexists. split; [exact E'|].
  split; [destruct Hre as [-> _]; apply table2_length|].
  split; [eapply reordered_numbering; [exact Hr|exact Hpb|exact Hre|]; eapply lattice3_numbering; [..|exact HL]; auto|].
  intros i j l Hi Hj Hl.
  apply (placed3 nx ny nz w start _ _ _ _ _ topo' path lcoords (fun i => sx + lX / INR nx * INR i) (fun _ => lX / INR nx)
           (fun j => sy + lY / INR ny * INR j) (fun _ => lY / INR ny) (fun l => sz + lZ / INR nz * INR l) (fun _ => lZ / INR nz)
           Hw HL Htab Hre); auto; intros; reflexivity.
Qed.
Lemma gridb2_named (xb yb : list R) sx sy w start name path lcoords :
  (2 <= length xb)%nat -> (2 <= length yb)%nat -> (1 <= w)%nat ->
  named (bargs [xb; yb] [sx; sy] start) name [w + 1; w + 1]%nat path -> path_table2 w path lcoords ->
  length path = ((w + 1) * (w + 1))%nat -> perm_seqb path = true ->
  let nx := (length xb - 1)%nat in let ny := (length yb - 1)%nat in
  exists coords topo, grid (bargs [xb; yb] [sx; sy] start) (EName name) = Ok (coords, topo) /\
    length topo = (nx * ny)%nat /\ numbering_ok start (length coords) topo /\
    forall i j, (i < nx)%nat -> (j < ny)%nat -> exists cell, nth_error topo (i * ny + j) = Some cell /\
      box_placed 2 start coords cell lcoords
        (fun d => nth d [sx + nth i xb 0; sy + nth j yb 0] 0)
        (fun d => nth d [nth (i + 1) xb 0 - nth i xb 0; nth (j + 1) yb 0 - nth j yb 0] 0).
Proof.
  intros Hx Hy Hw Hname Htab Hlp Hpb nx ny. apply perm_seqb_ok in Hpb.
  pose proof (gridb2_value xb yb (w + 1) (w + 1) start Hx Hy ltac:(lia) ltac:(lia) sx sy _ (or_introl eq_refl)) as E.
  pose proof (topo2_rect_e nx ny (w + 1) (w + 1) start ltac:(lia) ltac:(lia)) as Hr.
  pose proof (gridb2_lattice xb yb (w + 1) (w + 1) start Hx Hy ltac:(lia) ltac:(lia) sx sy) as HL.
  fold nx ny in E, HL. replace (w + 1 - 1)%nat with w in * by lia. rewrite <- Hlp in Hr.
  destruct (Hname _ _ _ E Hr (perm_all_lt _ Hpb)) as (topo' & E' & Hre). do 2 eexists. split; [exact E'|].
  split; [destruct Hre as [-> _]; apply table2_length|].
  split; [eapply reordered_numbering; [exact Hr|exact Hpb|exact Hre|]; eapply lattice2_numbering; [..|exact HL]; auto; unfold nx, ny; lia|].
  intros i j Hi Hj.
  apply (placed2 nx ny w start _ _ _ _ topo' path lcoords (fun i => sx + nth i xb 0) (fun i => nth (i + 1) xb 0 - nth i xb 0)
           (fun j => sy + nth j yb 0) (fun j => nth (j + 1) yb 0 - nth j yb 0) Hw HL Htab Hre); auto; intros; reflexivity.
Qed.
Lemma gridb3_named (xb yb zb : list R) sx sy sz w start name path lcoords :
  (2 <= length xb)%nat -> (2 <= length yb)%nat -> (2 <= length zb)%nat -> (1 <= w)%nat ->
  named (bargs [xb; yb; zb] [sx; sy; sz] start) name [w + 1; w + 1; w + 1]%nat path -> path_table3 w path lcoords ->
  length path = ((w + 1) * (w + 1) * (w + 1))%nat -> perm_seqb path = true ->
  let nx := (length xb - 1)%nat in let ny := (length yb - 1)%nat in let nz := (length zb - 1)%nat in
  exists coords topo, grid (bargs [xb; yb; zb] [sx; sy; sz] start) (EName name) = Ok (coords, topo) /\
    length topo = (nx * ny * nz)%nat /\ numbering_ok start (length coords) topo /\
    forall i j l, (i < nx)%nat -> (j < ny)%nat -> (l < nz)%nat -> exists cell, nth_error topo ((i * ny + j) * nz + l) = Some cell /\
      box_placed 3 start coords cell lcoords
        (fun d => nth d [sx + nth i xb 0; sy + nth j yb 0; sz + nth l zb 0] 0)
        (fun d => nth d [nth (i + 1) xb 0 - nth i xb 0; nth (j + 1) yb 0 - nth j yb 0; nth (l + 1) zb 0 - nth l zb 0] 0).
Proof.
  intros Hx Hy Hz Hw Hname Htab Hlp Hpb nx ny nz. apply perm_seqb_ok in Hpb.
  pose proof (gridb3_value xb yb zb (w + 1) (w + 1) (w + 1) start Hx Hy Hz ltac:(lia) ltac:(lia) ltac:(lia) sx sy sz _ (or_introl eq_refl)) as E.
  pose proof (topo3_rect_e nx ny nz (w + 1) (w + 1) (w + 1) start ltac:(lia) ltac:(lia) ltac:(lia)) as Hr.
  pose proof (gridb3_lattice xb yb zb (w + 1) (w + 1) (w + 1) start Hx Hy Hz ltac:(lia) ltac:(lia) ltac:(lia) sx sy sz) as HL.
  fold nx ny nz in E, HL. replace (w + 1 - 1)%nat with w in * by lia. rewrite <- Hlp in Hr.
  destruct (Hname _ _ _ E Hr (perm_all_lt _ Hpb)) as (topo' & E' & Hre). do 2 eexists. split; [exact E'|].
  split; [destruct Hre as [-> _]; apply table2_length|].
  split; [eapply reordered_numbering; [exact Hr|exact Hpb|exact Hre|]; eapply lattice3_numbering; [..|exact HL]; auto; unfold nx, ny, nz; lia|].
  intros i j l Hi Hj Hl.
  apply (placed3 nx ny nz w start _ _ _ _ _ topo' path lcoords (fun i => sx + nth i xb 0) (fun i => nth (i + 1) xb 0 - nth i xb 0)
           (fun j => sy + nth j yb 0) (fun j => nth (j + 1) yb 0 - nth j yb 0) (fun l => sz + nth l zb 0) (fun l => nth (l + 1) zb 0 - nth l zb 0)
           Hw HL Htab Hre); auto; intros; reflexivity.
Qed.

(** ** Equally spaced bins *)
Lemma even_bins_length l n : length (even_bins l n) = (n + 1)%nat.
Proof. unfold even_bins. rewrite map_length, seq_length. reflexivity. Qed.
Lemma even_bins_nth l n i : (i <= n)%nat -> nth i (even_bins l n) 0 = l / INR n * INR i.
Proof.
  intros. unfold even_bins. apply nth_error_nth. rewrite nth_error_map, nth_error_seq by lia. reflexivity.
Qed.
Lemma even_binned s l n w i k : (1 <= w)%nat -> (1 <= n)%nat -> (i < n)%nat -> binned s (even_bins l n) w i k = uniform s l n w i k.
Proof.
  intros Hw Hn Hi. unfold binned, uniform. rewrite !even_bins_nth by lia. rewrite plus_INR. simpl (INR 1).
  pose proof (INR_pos w Hw). pose proof (INR_pos n Hn). field. lra.
Qed.
Lemma line_ext {A} (V W : nat -> nat -> A) w n a : (1 <= n)%nat -> (forall i k, (i < n)%nat -> V i k = W i k) -> line V w n a = line W w n a.
Proof. intros Hn H. unfold line. apply H. lia. Qed.
Lemma even_bins2 (lX lY sx sy : R) nx ny ex ey start :
  (1 <= nx)%nat -> (1 <= ny)%nat -> (2 <= ex)%nat -> (2 <= ey)%nat ->
  grid (bargs [even_bins lX nx; even_bins lY ny] [sx; sy] start) (ETuple [ex; ey]) =
  grid (uargs [lX; lY] [nx; ny] [sx; sy] start) (ETuple [ex; ey]).
Proof.
  intros. rewrite grid2_value by auto. rewrite (gridb2_value _ _ ex ey); auto; rewrite ?even_bins_length; try lia.
  replace (nx + 1 - 1)%nat with nx by lia. replace (ny + 1 - 1)%nat with ny by lia. do 2 f_equal.
  unfold coords2, table2. apply map_ext. intros ab. f_equal; [|f_equal]; apply line_ext; auto; intros; apply even_binned; auto; lia.
Qed.
Lemma even_bins3 (lX lY lZ sx sy sz : R) nx ny nz ex ey ez start :
  (1 <= nx)%nat -> (1 <= ny)%nat -> (1 <= nz)%nat -> (2 <= ex)%nat -> (2 <= ey)%nat -> (2 <= ez)%nat ->
  grid (bargs [even_bins lX nx; even_bins lY ny; even_bins lZ nz] [sx; sy; sz] start) (ETuple [ex; ey; ez]) =
  grid (uargs [lX; lY; lZ] [nx; ny; nz] [sx; sy; sz] start) (ETuple [ex; ey; ez]).
Proof.
  intros. rewrite grid3_value by auto. rewrite (gridb3_value _ _ _ ex ey ez); auto; rewrite ?even_bins_length; try lia.
  replace (nx + 1 - 1)%nat with nx by lia. replace (ny + 1 - 1)%nat with ny by lia. replace (nz + 1 - 1)%nat with nz by lia. do 2 f_equal.
  unfold coords3, table2. apply map_ext. intros ab. f_equal; [|f_equal; [|f_equal]]; apply line_ext; auto; intros; apply even_binned; auto; lia.
Qed.

(** ** Integer bins in three dimensions *)
Lemma truncate_half : truncate (1 / 2) = 0.
Proof.
  unfold truncate. destruct (Rle_dec 0 (1 / 2)); [|lra].
  assert (E : Int_part (1 / 2) = 0%Z).
  { symmetry. unfold Int_part. assert (H : up (1 / 2) = 1%Z); [|rewrite H; reflexivity].
    symmetry. apply tech_up; simpl; lra. }
  rewrite E. reflexivity.
Qed.
Lemma truncate_0 : truncate 0 = 0.
Proof.
  unfold truncate. destruct (Rle_dec 0 0); [|lra].
  assert (E : Int_part 0 = 0%Z).
  { symmetry. unfold Int_part. assert (H : up 0 = 1%Z); [|rewrite H; reflexivity].
    symmetry. apply tech_up; simpl; lra. }
  rewrite E. reflexivity.
Qed.
Lemma int_bins_bad : exists coords topo, grid int_args (ETuple [3; 3; 3]%nat) = Ok (coords, topo) /\
  nth_error coords 0 = Some [0; 0; 0] /\ nth_error coords 1 = Some [0; 0; 0] /\ ~ points_differ coords.
Proof.
  assert (E : grid int_args (ETuple [3; 3; 3]%nat) = grid_3d_bins (store Integral) [0; 1] [0; 1] [0; 1] [3; 3; 3]%nat [0; 0; 0] 0).
  { unfold grid, grid_tail. cbn [int_args a_size a_bins a_shape a_shift a_start a_cast a_centralize a_path grid_dim grid_shift bind].
    destruct (grid_3d_bins (store Integral) [0; 1] [0; 1] [0; 1] [3; 3; 3]%nat [0; 0; 0] 0) as [[c t]|x]; reflexivity. }
  rewrite E, grid_3d_bins_value by (cbn [length]; lia). do 2 eexists. split; [reflexivity|]. cbn [length Nat.sub].
  assert (HJ : joined (fun i k => store Integral (binned 0 [0; 1] 2 i k)) 2 1) by (intros i Hi; lia).
  assert (H0 : store Integral (binned 0 [0; 1] 2 0 0) = 0).
  { cbn [store]. unfold binned. cbn [nth Nat.add]. simpl INR. replace (0 + 0 + (1 - 0) / (1 + 1) * 0) with 0 by lra. apply truncate_0. }
  assert (H1 : store Integral (binned 0 [0; 1] 2 0 1) = 0).
  { cbn [store]. unfold binned. cbn [nth Nat.add]. simpl INR. replace (0 + 0 + (1 - 0) / (1 + 1) * 1) with (1 / 2) by lra. apply truncate_half. }
  pose proof (coords3_at 1 1 1 2 2 2 _ _ _ ltac:(lia) ltac:(lia) ltac:(lia) HJ HJ HJ 0 0 0 0 0 0 ltac:(lia) ltac:(lia) ltac:(lia) ltac:(lia) ltac:(lia) ltac:(lia))%nat as C0.
  pose proof (coords3_at 1 1 1 2 2 2 _ _ _ ltac:(lia) ltac:(lia) ltac:(lia) HJ HJ HJ 0 0 0 0 0 1 ltac:(lia) ltac:(lia) ltac:(lia) ltac:(lia) ltac:(lia) ltac:(lia))%nat as C1.
  cbv beta in C0, C1. rewrite !H0 in C0. rewrite !H0, H1 in C1. change (pos3 1 1 2 2 2 0 0 0 0 0 0) with 0%nat in C0. change (pos3 1 1 2 2 2 0 0 0 0 0 1) with 1%nat in C1.
  split; [exact C0|]. split; [exact C1|]. intros Hd. specialize (Hd _ _ _ C0 C1). discriminate.
Qed.

(** ** Optional arguments *)
Lemma grid_default_eshape (a : grid_args (K := R)) n : a_bins a = None -> grid_dim a = Ok n -> grid a ENone = Err AssertionError.
Proof. intros Hb Hd. unfold grid, grid_tail. rewrite Hd, Hb. reflexivity. Qed.
Lemma grid_named_ignores_path (a : grid_args (K := R)) s p : a_path a = None -> grid (with_path a p) (EName s) = grid a (EName s).
Proof. intros. unfold grid. cbn. reflexivity. Qed.
Lemma grid_path (a : grid_args (K := R)) es coords topo w p : a_path a = None -> grid a (ETuple es) = Ok (coords, topo) ->
  rect w topo -> Forall (fun q => (q < w)%nat) p ->
  exists topo', grid (with_path a p) (ETuple es) = Ok (coords, topo') /\ reordered p topo topo'.
Proof.
  intros Hp E Hr Hf. destruct (reorder_ok w topo p Hr Hf) as (t & Et & Hre). exists t. split; auto.
  unfold grid in *. cbn [with_path a_path a_centralize a_bins a_shape a_size a_start a_cast grid_dim] in *.
  change (grid_dim (with_path a p)) with (grid_dim a). change (grid_shift (with_path a p)) with (grid_shift a).
  destruct (grid_dim a) as [n|]; cbn [bind] in *; [|discriminate].
  unfold grid_tail in *. rewrite Hp in E. cbn [with_path a_path a_centralize a_bins a_shape a_size a_start a_cast].
  match goal with |- (do _ <- ?f; _) = _ => destruct f as [[c0 t0]|x] end; cbn [bind] in *; [|discriminate].
  destruct (a_centralize a).
  - destruct (grid_centralize c0) as [c1|x]; cbn [bind] in *; [|discriminate]. injection E as -> ->. rewrite Et. reflexivity.
  - cbn [bind] in *. injection E as -> ->. rewrite Et. reflexivity.
Qed.
Lemma grid_1d (a : grid_args (K := R)) l es : a_size a = Some [l] -> a_bins a = None -> grid a (ETuple es) = Err TypeError.
Proof. intros Hs Hb. unfold grid, grid_dim, grid_tail. rewrite Hs, Hb. reflexivity. Qed.

(** ** Schedules of the grids from bins *)
Lemma gridb2_schedule (xb yb : list R) sx sy ex ey start :
  (2 <= length xb)%nat -> (2 <= length yb)%nat -> (2 <= ex)%nat -> (2 <= ey)%nat ->
  exists coords topo nP nC nN cw tw,
    grid (bargs [xb; yb] [sx; sy] start) (ETuple [ex; ey]) = Ok (coords, topo) /\
    bins_writes2 xb yb ex ey sx sy = Ok ((nP, cw), (nC, nN, tw)) /\
    forall cw' tw', Permutation cw cw' -> Permutation tw tw' ->
      run_writes2 cw' (zeros2 0 nP 2) = Ok coords /\
      exists t, run_writes2 tw' (zeros2 0%nat nC nN) = Ok t /\ map (map (fun n => n + start)%nat) t = topo.
Proof.
  intros Hx Hy Hex Hey. destruct (bins2_filled xb yb ex ey sx sy Hx Hy Hex Hey) as (cw & tw & E & Hc & Ht).
  do 7 eexists. split; [apply (gridb2_value xb yb ex ey); auto|]. split; [exact E|].
  intros cw' tw' Hcw Htw. split; [apply Hc; auto|].
  eexists. split; [apply Ht; auto|]. apply topo2_shift. intros; lia.
Qed.
Lemma gridb3_schedule (cast : R -> R) (xb yb zb : list R) sx sy sz ex ey ez start :
  (2 <= length xb)%nat -> (2 <= length yb)%nat -> (2 <= length zb)%nat -> (2 <= ex)%nat -> (2 <= ey)%nat -> (2 <= ez)%nat ->
  exists coords topo nP nC nN cw tw,
    grid_3d_bins cast xb yb zb [ex; ey; ez] [sx; sy; sz] start = Ok (coords, topo) /\
    bins_writes3 cast xb yb zb ex ey ez sx sy sz = Ok ((nP, cw), (nC, nN, tw)) /\
    forall cw' tw', Permutation cw cw' -> Permutation tw tw' ->
      run_writes2 cw' (zeros2 0 nP 3) = Ok coords /\
      exists t, run_writes2 tw' (zeros2 0%nat nC nN) = Ok t /\ map (map (fun n => n + start)%nat) t = topo.
Proof.
  intros Hx Hy Hz Hex Hey Hez. destruct (bins3_filled cast xb yb zb ex ey ez sx sy sz Hx Hy Hz Hex Hey Hez) as (cw & tw & E & Hc & Ht).
  do 7 eexists. split; [apply (grid_3d_bins_value cast xb yb zb ex ey ez); auto|]. split; [exact E|].
  intros cw' tw' Hcw Htw. split; [apply Hc; auto|].
  eexists. split; [apply Ht; auto|]. apply topo3_shift. intros; lia.
Qed.

(** ** Without [shift] *)
Lemma no_shift (a : grid_args (K := R)) d e : a_shift a = None ->
  (exists s, a_size a = Some s /\ length s = d) \/ (a_size a = None /\ exists b, a_bins a = Some b /\ length b = d) ->
  let b := with_shift a (repeat 0 d) in
  grid a e = grid b e /\ gridQ4 a = gridQ4 b /\ gridQ9 a = gridQ9 b /\ gridH8 a = gridH8 b /\ gridH27 a = gridH27 b.
Proof.
  intros Hs Hd b. assert (Ed : grid_dim a = Ok d /\ grid_dim b = Ok d).
  { unfold b, grid_dim, with_shift. cbn [a_size a_bins a_shape]. destruct Hd as [(s & -> & <-)|(-> & l & -> & <-)]; split; reflexivity. }
  destruct Ed as [E1 E2]. assert (Es : grid_shift a d = repeat 0 d) by (unfold grid_shift; now rewrite Hs).
  assert (Es' : grid_shift b d = repeat 0 d) by reflexivity.
  split; [|unfold gridQ4, gridQ9, gridH8, gridH27, grid_named, grid_tuple; rewrite E1, E2; cbn [bind]; rewrite Es, Es'; repeat split; reflexivity].
  unfold grid. rewrite E1, E2. cbn [bind]. rewrite Es, Es'. destruct e; reflexivity.
Qed.
