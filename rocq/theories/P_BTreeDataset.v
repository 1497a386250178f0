(** Properties C17-C22: [BTreeDataset].

    [cmp] is the order of the resources (any total order whose [Eq] is equality),
    [keep] the unspecified behaviour of the B-tree on equal items.  A history is
    any list of operations of SetSpec.v applied to a new dataset;
    [spec_outs]/[spec_set] are the results and final set of a plain set. *)
From Coq Require Import List Bool Arith Sorted.
Import ListNotations.
From Verif Require Import Base SlabModel TripleModel SetSpec ContainerSpec Machine BaseProofs
  BResourceModel BTreeDatasetModel BTreeDatasetProofs.

(** C17: every history returns exactly what a set of quads returns. *)
Theorem c17_btree_dataset_is_a_set :
  forall R (cmp : R -> R -> comparison), ord_laws cmp ->
  forall keep (ops : list (op (quad R))),
    exists d, run (bd_step cmp keep) bd_new ops = Some (spec_outs (quad_cmp cmp) ops, d).
Proof. exact @bd_run_ok. Qed.
Print Assumptions c17_btree_dataset_is_a_set.

(** A history with a repeated insertion, a removal, and slot reuse. *)
Definition ex_ops : list (op (quad nat)) :=
  [Insert (Quad 1 2 3 None); Insert (Quad 1 2 3 (Some 4)); Insert (Quad 1 2 3 None);
   Remove (Quad 1 2 3 None); Insert (Quad 0 2 3 (Some 4)); Contains (Quad 1 2 3 None); Len; Iter;
   Extend [Quad 5 5 5 None; Quad 0 2 3 (Some 4)]; IntoIter; IsEmpty].

Example c17_ex :
  option_map fst (run (bd_step Nat.compare true) bd_new ex_ops) =
  Some [OBool true; OBool true; OBool false; OBool true; OBool true; OBool false; ONat 2;
        OList [Quad 0 2 3 (Some 4); Quad 1 2 3 (Some 4)]; OUnit;
        OList [Quad 0 2 3 (Some 4); Quad 1 2 3 (Some 4); Quad 5 5 5 None]; OBool false].
Proof. vm_compute. reflexivity. Qed.

Example c17_ex_hyp : ord_laws Nat.compare.
Proof. exact nat_compare_laws. Qed.

(** C18: iteration yields exactly the quads present, in strictly increasing
    order. *)
Theorem c18_iteration_in_order :
  forall R (cmp : R -> R -> comparison), ord_laws cmp ->
  forall keep ops xs d,
    run (bd_step cmp keep) bd_new ops = Some (xs, d) ->
    exists l, bd_iter d = Some l /\ bd_into_iter d = Some l /\
      increasing (quad_cmp cmp) l /\
      (forall q, In q l <-> In q (spec_set (quad_cmp cmp) ops)).
Proof. exact @bd_iteration. Qed.
Print Assumptions c18_iteration_in_order.

(** C19: no history panics. *)
Theorem c19_no_panic :
  forall R (cmp : R -> R -> comparison), ord_laws cmp ->
  forall keep (ops : list (op (quad R))), run (bd_step cmp keep) bd_new ops <> None.
Proof. exact @bd_run_total. Qed.
Print Assumptions c19_no_panic.

(** C20: equality, order and hash depend on the contents only. *)
Theorem c20_equality_by_contents :
  forall R (cmp : R -> R -> comparison), ord_laws cmp ->
  forall keep (eqb : R -> R -> bool) ops1 ops2 xs1 xs2 d1 d2,
    (forall x y, eqb x y = true <-> x = y) ->
    run (bd_step cmp keep) bd_new ops1 = Some (xs1, d1) ->
    run (bd_step cmp keep) bd_new ops2 = Some (xs2, d2) ->
    exists b h1 h2, bd_eqb eqb d1 d2 = Some b /\
      bd_hash_input d1 = Some h1 /\ bd_hash_input d2 = Some h2 /\
      (b = true <->
         forall q, In q (spec_set (quad_cmp cmp) ops1) <-> In q (spec_set (quad_cmp cmp) ops2)) /\
      (b = true <-> bd_cmp cmp d1 d2 = Some Eq) /\
      (b = true <-> h1 = h2).
Proof. exact @bd_equality. Qed.
Print Assumptions c20_equality_by_contents.

(** C20: the order is the lexicographic order of the sorted sequences of quads,
    a total order. *)
Theorem c20_lexicographic_total_order :
  forall R (cmp : R -> R -> comparison), ord_laws cmp ->
  forall keep ops1 ops2 xs1 xs2 d1 d2,
    run (bd_step cmp keep) bd_new ops1 = Some (xs1, d1) ->
    run (bd_step cmp keep) bd_new ops2 = Some (xs2, d2) ->
    exists l1 l2, bd_iter d1 = Some l1 /\ bd_iter d2 = Some l2 /\
      bd_cmp cmp d1 d2 = Some (list_cmp (quad_cmp cmp) l1 l2) /\
      ord_laws (list_cmp (quad_cmp cmp)).
Proof. exact @bd_ordering. Qed.
Print Assumptions c20_lexicographic_total_order.

(** Two different histories of the same set: different slabs, equal datasets. *)
Example c20_ex :
  match run (bd_step Nat.compare true) bd_new
          [Insert (Quad 1 2 3 None); Insert (Quad 1 2 3 (Some 4)); Remove (Quad 1 2 3 None);
           Insert (Quad 0 2 3 None)],
        run (bd_step Nat.compare true) bd_new
          [Insert (Quad 0 2 3 None); Insert (Quad 1 2 3 (Some 4))] with
  | Some (_, a), Some (_, b) =>
      bd_quads a <> bd_quads b /\ bd_eqb Nat.eqb a b = Some true
  | _, _ => False
  end.
Proof. vm_compute. split; [discriminate|reflexivity]. Qed.

(** C21, soundness: whatever the history, only resources in use are reported. *)
Theorem c21_resources_sound_partial :
  forall R (cmp : R -> R -> comparison), ord_laws cmp ->
  forall keep ops xs d,
    run (bd_step cmp keep) bd_new ops = Some (xs, d) ->
    exists l, bd_resources_iter d = Some l /\ increasing cmp l /\
      (forall r, bd_contains_resource cmp d r = Some (mem cmp r l)) /\
      (forall r, In r l -> occurs quad_comps r (spec_set (quad_cmp cmp) ops)).
Proof. exact @bd_resources_used. Qed.
Print Assumptions c21_resources_sound_partial.

(** C21, exactness for each resource that no inserted quad repeats while it is not
    yet in use ([known_history ... (eq r)]).  Missing: the other resources, for
    which it is false (below). *)
Theorem c21_resources_exact_partial :
  forall R (cmp : R -> R -> comparison), ord_laws cmp ->
  forall keep ops xs d,
    run (bd_step cmp keep) bd_new ops = Some (xs, d) ->
    exists l, bd_resources_iter d = Some l /\ increasing cmp l /\
      (forall r, bd_contains_resource cmp d r = Some (mem cmp r l)) /\
      (forall r, known_history (quad_cmp cmp) quad_comps (eq r) [] ops ->
         (In r l <-> occurs quad_comps r (spec_set (quad_cmp cmp) ops))).
Proof. exact @bd_resources_exactly. Qed.
Print Assumptions c21_resources_exact_partial.

(** A resource that is repeated once in use, in a history whose first insertion
    repeats another new resource. *)
Example c21_ex :
  known_history (quad_cmp Nat.compare) quad_comps (eq 2) []
    [Insert (Quad 1 1 2 None); Insert (Quad 2 2 4 None); Remove (Quad 1 1 2 None)].
Proof.
  split; [|split; [|split; exact I]].
  - intros [|[|[|[|i]]]] [|[|[|[|j]]]] r <- H; cbn; intros E F; inv E; inv F;
      repeat match goal with H : S _ < S _ |- _ => apply Nat.succ_lt_mono in H end;
      try (inversion H; fail);
      try (destruct i; discriminate); try (destruct j; discriminate).
  - intros [|[|[|[|i]]]] [|[|[|[|j]]]] r <- H; cbn; intros E F; inv E; inv F;
      repeat match goal with H : S _ < S _ |- _ => apply Nat.succ_lt_mono in H end;
      try (inversion H; fail);
      try (destruct i; discriminate); try (destruct j; discriminate);
      exists (Quad 1 1 2 None); cbn; auto.
Qed.

(** C21 is false in general: after these three operations resource 1 is the
    predicate of the only quad, and the dataset says it does not contain it. *)
Theorem c21_resources_exact_refuted :
  exists (ops : list (op (quad nat))) xs d r,
    forall keep,
      run (bd_step Nat.compare keep) bd_new ops = Some (xs, d keep) /\
      occurs quad_comps r (spec_set (quad_cmp Nat.compare) ops) /\
      bd_contains_resource Nat.compare (d keep) r = Some false.
Proof. exact bd_resources_counterexample. Qed.
Print Assumptions c21_resources_exact_refuted.

(** C22: collecting a sequence keeps exactly its quads. *)
Theorem c22_collect :
  forall R (cmp : R -> R -> comparison), ord_laws cmp ->
  forall keep (l : list (quad R)),
    exists d, bd_from_iter cmp keep l = Some d /\
      exists m, bd_iter d = Some m /\ increasing (quad_cmp cmp) m /\ forall q, In q m <-> In q l.
Proof. exact @bd_collect. Qed.
Print Assumptions c22_collect.

(** C22: extending adds exactly the quads of the sequence. *)
Theorem c22_extend :
  forall R (cmp : R -> R -> comparison), ord_laws cmp ->
  forall keep ops xs d l,
    run (bd_step cmp keep) bd_new ops = Some (xs, d) ->
    exists d' m, bd_extend cmp keep d l = Some d' /\ bd_iter d' = Some m /\
      increasing (quad_cmp cmp) m /\
      forall q, In q m <-> In q (spec_set (quad_cmp cmp) ops) \/ In q l.
Proof. exact @bd_extending. Qed.
Print Assumptions c22_extend.

(** C22: rebuilding a dataset from its iteration or its serialization gives an
    equal dataset. *)
Theorem c22_rebuild :
  forall R (cmp : R -> R -> comparison), ord_laws cmp ->
  forall keep (eqb : R -> R -> bool) ops xs d,
    (forall x y, eqb x y = true <-> x = y) ->
    run (bd_step cmp keep) bd_new ops = Some (xs, d) ->
    exists l d', bd_iter d = Some l /\ bd_serialize d = Some (length l, l) /\
      bd_from_iter cmp keep l = Some d' /\ bd_eqb eqb d d' = Some true.
Proof. exact @bd_rebuild. Qed.
Print Assumptions c22_rebuild.

Example c22_ex : forall x y, Nat.eqb x y = true <-> x = y.
Proof. exact Nat.eqb_eq. Qed.
