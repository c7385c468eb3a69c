(** * Proofs about the tables of the cell classes *)
From Coq Require Import Reals Lra Lia List.
From Verif Require Import Base BaseFacts TrModel TrSpec TrProofs SplitSpec TableModel TableSpec ShapeProofs4.
Import ListNotations.
Local Open Scope R_scope.

Lemma assign_table w nD nN asg table topo :
  (forall cell, length cell = w ->
     foldM (fun a x => do n <- get cell (snd x); set2 a (fst (fst x)) (snd (fst x)) n) asg (zeros2 0%nat nD nN)
     = Ok (map (fun ns => reorder ns cell) table)) ->
  rect w topo -> table_of table topo (assign_columns nD nN asg topo).
Proof.
  intros H Ht. unfold table_of, assign_columns. apply mapM_map.
  intros cell Hc. apply H. exact (proj1 (Forall_forall _ _) Ht _ Hc).
Qed.

Tactic Notation "table" integer(w) constr(k) :=
  apply (assign_table k); intros cell Hc;
  do w (destruct cell as [|? cell]; [discriminate Hc|]); (destruct cell; [|discriminate Hc]); reflexivity.

Definition sides_T3 := [[0;1];[1;2];[2;0]]%nat.
Definition sides_Q4 := [[0;1];[1;2];[2;3];[3;0]]%nat.
Definition faces_of_TET4 := [[0;1;3];[1;2;3];[2;0;3];[0;2;1]]%nat.
Definition edges_of_W6 := [[0;1];[1;2];[2;0];[3;4];[4;5];[5;3];[0;3];[1;4];[2;5]]%nat.
Definition quads_of_W6 := [[4;3;0;1];[5;4;1;2];[3;5;2;0]]%nat.

Lemma edges_tri_table topo : rect 3 topo -> table_of sides_T3 topo (edges_tri topo).
Proof. table 3 3%nat. Qed.
Lemma edges_Q4_table topo : rect 4 topo -> table_of sides_Q4 topo (edges_Q4 topo).
Proof. table 4 4%nat. Qed.
Lemma edges_TET4_table topo : rect 4 topo -> table_of edgeIds_TET4 topo (edges_TET4 topo).
Proof. table 4 4%nat. Qed.
Lemma faces_TET4_table topo : rect 4 topo -> table_of faces_of_TET4 topo (faces_TET4 topo).
Proof. table 4 4%nat. Qed.
Lemma edges_H8_table topo : rect 8 topo -> table_of edgeIds_H8 topo (edges_H8 topo).
Proof. table 8 8%nat. Qed.
Lemma faces_H8_table topo : rect 8 topo -> table_of path_H8_to_Q4 topo (faces_H8 topo).
Proof. table 8 8%nat. Qed.
Lemma edges_W6_table topo : rect 6 topo -> table_of edges_of_W6 topo (edges_W6 topo).
Proof. table 6 6%nat. Qed.
Lemma quads_W6_table topo : rect 6 topo -> table_of quads_of_W6 topo (faces_W6_quad topo).
Proof. table 6 6%nat. Qed.

(** ** Decision of finite tables *)
Definition pair_dec (p q : nat * nat) : {p = q} + {p <> q}.
Proof. decide equality; apply Nat.eq_dec. Defined.
Lemma nodup_check {A} (dec : forall x y : A, {x = y} + {x <> y}) l : nodup dec l = l -> NoDup l.
Proof. intros <-. apply NoDup_nodup. Qed.
Definition sym_b (l : list (nat * nat)) : bool :=
  forallb (fun p => if in_dec pair_dec (snd p, fst p) l then true else false) l.
Lemma closed_check faces :
  nodup pair_dec (concat (map sides faces)) = concat (map sides faces) -> sym_b (concat (map sides faces)) = true ->
  closed faces.
Proof.
  intros H1 H2. split; [exact (nodup_check _ _ H1)|]. intros a b H.
  apply (proj1 (forallb_forall _ _) H2) in H. cbn in H. destruct (in_dec pair_dec (b, a) _); [assumption|discriminate].
Qed.
Definition row_dec : forall p q : list nat, {p = q} + {p <> q} := list_eq_dec Nat.eq_dec.
Definition edges_b (faces edges : list (list nat)) : bool :=
  let s := concat (map sides faces) in
  (forallb (fun e => match e with
     [a; b] => (if in_dec pair_dec (a, b) s then true else false) && (if in_dec pair_dec (b, a) s then true else false)
               && (if in_dec row_dec [b; a] edges then false else true)
     | _ => false end) edges &&
   forallb (fun p => (if in_dec row_dec [fst p; snd p] edges then true else false)
                  || (if in_dec row_dec [snd p; fst p] edges then true else false)) s)%bool.
Lemma edges_check faces edges : nodup row_dec edges = edges -> edges_b faces edges = true -> edges_of faces edges.
Proof.
  intros H1 H2. apply Bool.andb_true_iff in H2. destruct H2 as [H2 H3].
  assert (A : forall e, In e edges -> exists a b, e = [a; b] /\ In (a, b) (concat (map sides faces)) /\
              In (b, a) (concat (map sides faces)) /\ ~ In [b; a] edges).
  { intros e He. apply (proj1 (forallb_forall _ _) H2) in He. destruct e as [|a [|b [|]]]; try discriminate.
    exists a, b. destruct (in_dec pair_dec (a, b) _); [|discriminate]. destruct (in_dec pair_dec (b, a) _); [|discriminate].
    destruct (in_dec row_dec [b; a] edges); [discriminate|]. auto. }
  split; [|split; [|split]].
  - intros e He. destruct (A e He) as (a & b & -> & _). reflexivity.
  - intros a b. split.
    + intros H. apply (proj1 (forallb_forall _ _) H3) in H. cbn in H.
      destruct (in_dec row_dec [a; b] edges); [auto|]. destruct (in_dec row_dec [b; a] edges); [auto|discriminate].
    + intros [H|H]; destruct (A _ H) as (x & y & E & I1 & I2 & _); injection E as -> ->; assumption.
  - exact (nodup_check _ _ H1).
  - intros a b H. destruct (A _ H) as (x & y & E & _ & _ & I). injection E as -> ->. exact I.
Qed.

(** the points of a face *)
Lemma outer_check points face a b c rest :
  face = a :: b :: c :: rest -> nodup Nat.eq_dec face = face ->
  (forall n, In n (seq 0 (length points)) ->
     if in_dec Nat.eq_dec n face then tet_volume points a b c n = 0 else tet_volume points a b c n < 0) ->
  outer_face points face.
Proof.
  intros -> H1 H2. split; [exact (nodup_check _ _ H1)|]. exists a, b, c, rest. split; [reflexivity|].
  intros n Hn. apply H2. apply in_seq. lia.
Qed.
Ltac outer :=
  eapply outer_check; [reflexivity|reflexivity|];
  let n := fresh "n" in let Hn := fresh "Hn" in
  intros n Hn; cbn in Hn;
  repeat (destruct Hn as [<-|Hn]; [cbn; unfold tet_volume, coord; cbn; numR; lra|]); contradiction.
Ltac each_face := let f := fresh "f" in let Hf := fresh "Hf" in
  intros f Hf; repeat (destruct Hf as [<-|Hf]; [outer|]); contradiction.
Lemma boundary_check points faces :
  (forall f, In f faces -> outer_face points f) -> nodup pair_dec (concat (map sides faces)) = concat (map sides faces) ->
  sym_b (concat (map sides faces)) = true ->
  forallb (fun n => if in_dec Nat.eq_dec n (concat faces) then true else false) (seq 0 (length points)) = true ->
  boundary points faces.
Proof.
  intros H1 H2 H3 H4. split; [exact H1|]. split; [exact (closed_check _ H2 H3)|].
  intros n Hn. assert (I : In n (seq 0 (length points))) by (apply in_seq; lia).
  apply (proj1 (forallb_forall _ _) H4) in I. destruct (in_dec Nat.eq_dec n (concat faces)) as [J|]; [|discriminate].
  apply in_concat in J. exact J.
Qed.

Lemma boundary_TET4 : boundary (lcoords_TET4 (K := R)) faces_of_TET4.
Proof. apply boundary_check; [each_face|reflexivity..]. Qed.
Lemma boundary_H8 : boundary (lcoords_H8 (K := R)) path_H8_to_Q4.
Proof. apply boundary_check; [each_face|reflexivity..]. Qed.
Lemma boundary_W6 : boundary (lcoords_W6 (K := R)) hull_W6.
Proof. apply boundary_check; [each_face|reflexivity..]. Qed.

Lemma edges_ok_TET4 : edges_of faces_of_TET4 edgeIds_TET4.
Proof. apply edges_check; reflexivity. Qed.
Lemma edges_ok_H8 : edges_of path_H8_to_Q4 edgeIds_H8.
Proof. apply edges_check; reflexivity. Qed.
Lemma edges_ok_W6 : edges_of hull_W6 edges_of_W6.
Proof. apply edges_check; reflexivity. Qed.

Lemma below_seq n k : (n < k)%nat -> In n (seq 0 k).
Proof. intros H. apply in_seq. lia. Qed.
Ltac loop := let e := fresh "e" in let He := fresh "He" in
  intros e He; repeat (destruct He as [<-|He]; [do 2 eexists; split; [reflexivity|]; split; [discriminate|];
    let n := fresh "n" in let Hn := fresh "Hn" in intros n Hn; apply below_seq in Hn; cbn in Hn;
    repeat (destruct Hn as [<-|Hn]; [cbn; unfold polygon_area; cbn; unfold cross2, coord; cbn; numR; lra|]);
    contradiction|]); contradiction.
Ltac all_nodes := let n := fresh "n" in let Hn := fresh "Hn" in
  intros n Hn; apply below_seq in Hn; exact Hn.
Lemma boundary_T3 : boundary_2d (lcoords_T3 (K := R)) sides_T3.
Proof.
  split; [loop|]. exists [0;1;2]%nat. split; [apply (nodup_check Nat.eq_dec); reflexivity|]. split; [reflexivity|all_nodes].
Qed.
Lemma boundary_Q4 : boundary_2d (lcoords_Q4 (K := R)) sides_Q4.
Proof.
  split; [loop|]. exists [0;1;2;3]%nat. split; [apply (nodup_check Nat.eq_dec); reflexivity|]. split; [reflexivity|all_nodes].
Qed.

(** ** The tables are those of the boundary *)
Lemma tables_T3 topo : rect 3 topo -> exists edges, table_of edges topo (edges_tri topo) /\ edgeIds_T3 = edges /\ boundary_2d (lcoords_T3 (K := R)) edges.
Proof. intros H. exists sides_T3. split; [apply edges_tri_table, H|]. split; [reflexivity|apply boundary_T3]. Qed.
Lemma tables_Q4 topo : rect 4 topo -> exists edges, table_of edges topo (edges_Q4 topo) /\ boundary_2d (lcoords_Q4 (K := R)) edges.
Proof. intros H. exists sides_Q4. split; [apply edges_Q4_table, H|apply boundary_Q4]. Qed.
Lemma tables_TET4 topo : rect 4 topo -> exists faces edges,
  table_of faces topo (faces_TET4 topo) /\ boundary (lcoords_TET4 (K := R)) faces /\
  table_of edges topo (edges_TET4 topo) /\ edgeIds_TET4 = edges /\ edges_of faces edges.
Proof.
  intros H. exists faces_of_TET4, edgeIds_TET4. split; [apply faces_TET4_table, H|]. split; [apply boundary_TET4|].
  split; [apply edges_TET4_table, H|]. split; [reflexivity|apply edges_ok_TET4].
Qed.
Lemma tables_H8 topo : rect 8 topo -> exists faces edges,
  table_of faces topo (faces_H8 topo) /\ boundary (lcoords_H8 (K := R)) faces /\
  table_of edges topo (edges_H8 topo) /\ edgeIds_H8 = edges /\ edges_of faces edges.
Proof.
  intros H. exists path_H8_to_Q4, edgeIds_H8. split; [apply faces_H8_table, H|]. split; [apply boundary_H8|].
  split; [apply edges_H8_table, H|]. split; [reflexivity|apply edges_ok_H8].
Qed.
Lemma tables_W6 topo : rect 6 topo -> exists triangles quads edges,
  boundary (lcoords_W6 (K := R)) (triangles ++ quads) /\
  table_of quads topo (faces_W6_quad topo) /\ table_of edges topo (edges_W6 topo) /\ edges_of (triangles ++ quads) edges.
Proof.
  intros H. exists [[0;2;1];[3;4;5]]%nat, quads_of_W6, edges_of_W6.
  split; [apply boundary_check; [each_face|reflexivity..]|].
  split; [apply quads_W6_table, H|]. split; [apply edges_W6_table, H|]. apply edges_check; reflexivity.
Qed.
(** the triangles of wedges are written outside of their array *)
Lemma faces_W6_fails topo : rect 6 topo -> topo <> [] -> faces_W6 topo = Err IndexError.
Proof.
  intros H Hn. destruct topo as [|cell topo]; [contradiction|]. inversion H; subst.
  unfold faces_W6, faces_W6_tri, assign_columns. cbn [mapM].
  do 6 (destruct cell as [|? cell]; [discriminate|]). destruct cell; [|discriminate]. reflexivity.
Qed.

