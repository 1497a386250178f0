(** Properties C23-C25: [BTreeGraph].  Same conventions as P_BTreeDataset.v. *)
From Coq Require Import List Bool Arith Sorted.
Import ListNotations.
From Verif Require Import Base SlabModel TripleModel SetSpec ContainerSpec Machine BaseProofs
  BResourceModel BTreeGraphModel BTreeGraphProofs.

(** C23: every history returns exactly what a set of triples returns. *)
Theorem c23_btree_graph_is_a_set :
  forall R (cmp : R -> R -> comparison), ord_laws cmp ->
  forall keep (ops : list (op (triple R))),
    exists g, run (bg_step cmp keep) bg_new ops = Some (spec_outs (triple_cmp cmp) ops, g).
Proof. exact @bg_run_ok. Qed.
Print Assumptions c23_btree_graph_is_a_set.

Example c23_ex :
  option_map fst (run (bg_step Nat.compare false) bg_new
    [Insert (Triple 1 2 3); Insert (Triple 4 4 4); Insert (Triple 1 2 3); Remove (Triple 1 2 3);
     Insert (Triple 0 4 1); Contains (Triple 1 2 3); Len; Iter; Extend [Triple 0 0 0]; IntoIter]) =
  Some [OBool true; OBool true; OBool false; OBool true; OBool true; OBool false; ONat 2;
        OList [Triple 0 4 1; Triple 4 4 4]; OUnit;
        OList [Triple 0 0 0; Triple 0 4 1; Triple 4 4 4]].
Proof. vm_compute. reflexivity. Qed.

Example c23_ex_hyp : ord_laws Nat.compare.
Proof. exact nat_compare_laws. Qed.

(** C23: iteration. *)
Theorem c23_iteration_in_order :
  forall R (cmp : R -> R -> comparison), ord_laws cmp ->
  forall keep ops xs g,
    run (bg_step cmp keep) bg_new ops = Some (xs, g) ->
    exists l, bg_iter g = Some l /\ bg_into_iter g = Some l /\
      increasing (triple_cmp cmp) l /\
      (forall t, In t l <-> In t (spec_set (triple_cmp cmp) ops)).
Proof. exact @bg_iteration. Qed.
Print Assumptions c23_iteration_in_order.

(** C23: no panic. *)
Theorem c23_no_panic :
  forall R (cmp : R -> R -> comparison), ord_laws cmp ->
  forall keep (ops : list (op (triple R))), run (bg_step cmp keep) bg_new ops <> None.
Proof. exact @bg_run_total. Qed.
Print Assumptions c23_no_panic.

(** C23: collecting a sequence, and rebuilding a graph from its iteration or
    serialization. *)
Theorem c23_collect :
  forall R (cmp : R -> R -> comparison), ord_laws cmp ->
  forall keep (l : list (triple R)),
    exists g, bg_from_iter cmp keep l = Some g /\
      exists m, bg_iter g = Some m /\ increasing (triple_cmp cmp) m /\ forall t, In t m <-> In t l.
Proof. exact @bg_collect. Qed.
Print Assumptions c23_collect.

Theorem c23_rebuild :
  forall R (cmp : R -> R -> comparison), ord_laws cmp ->
  forall keep (eqb : R -> R -> bool) ops xs g,
    (forall x y, eqb x y = true <-> x = y) ->
    run (bg_step cmp keep) bg_new ops = Some (xs, g) ->
    exists l g', bg_iter g = Some l /\ bg_serialize g = Some (length l, l) /\
      bg_from_iter cmp keep l = Some g' /\ bg_eqb eqb g g' = Some true.
Proof. exact @bg_rebuild. Qed.
Print Assumptions c23_rebuild.

(** C24: equality, order and hash depend on the contents only. *)
Theorem c24_equality_by_contents :
  forall R (cmp : R -> R -> comparison), ord_laws cmp ->
  forall keep (eqb : R -> R -> bool) ops1 ops2 xs1 xs2 g1 g2,
    (forall x y, eqb x y = true <-> x = y) ->
    run (bg_step cmp keep) bg_new ops1 = Some (xs1, g1) ->
    run (bg_step cmp keep) bg_new ops2 = Some (xs2, g2) ->
    exists b h1 h2, bg_eqb eqb g1 g2 = Some b /\
      bg_hash_input g1 = Some h1 /\ bg_hash_input g2 = Some h2 /\
      (b = true <->
         forall t, In t (spec_set (triple_cmp cmp) ops1) <-> In t (spec_set (triple_cmp cmp) ops2)) /\
      (b = true <-> bg_cmp cmp g1 g2 = Some Eq) /\
      (b = true <-> h1 = h2).
Proof. exact @bg_equality. Qed.
Print Assumptions c24_equality_by_contents.

Theorem c24_lexicographic_total_order :
  forall R (cmp : R -> R -> comparison), ord_laws cmp ->
  forall keep ops1 ops2 xs1 xs2 g1 g2,
    run (bg_step cmp keep) bg_new ops1 = Some (xs1, g1) ->
    run (bg_step cmp keep) bg_new ops2 = Some (xs2, g2) ->
    exists l1 l2, bg_iter g1 = Some l1 /\ bg_iter g2 = Some l2 /\
      bg_cmp cmp g1 g2 = Some (list_cmp (triple_cmp cmp) l1 l2) /\
      ord_laws (list_cmp (triple_cmp cmp)).
Proof. exact @bg_ordering. Qed.
Print Assumptions c24_lexicographic_total_order.

Example c24_ex :
  match run (bg_step Nat.compare true) bg_new
          [Insert (Triple 1 2 3); Insert (Triple 1 2 4); Remove (Triple 1 2 3);
           Insert (Triple 0 2 3)],
        run (bg_step Nat.compare true) bg_new [Insert (Triple 0 2 3); Insert (Triple 1 2 4)] with
  | Some (_, a), Some (_, b) =>
      bg_triples a <> bg_triples b /\ bg_eqb Nat.eqb a b = Some true
  | _, _ => False
  end.
Proof. vm_compute. split; [discriminate|reflexivity]. Qed.

(** C25, soundness for all histories. *)
Theorem c25_resources_sound_partial :
  forall R (cmp : R -> R -> comparison), ord_laws cmp ->
  forall keep ops xs g,
    run (bg_step cmp keep) bg_new ops = Some (xs, g) ->
    exists l, bg_resources_iter g = Some l /\ increasing cmp l /\
      (forall r, bg_contains_resource cmp g r = Some (mem cmp r l)) /\
      (forall r, In r l -> occurs triple_comps r (spec_set (triple_cmp cmp) ops)).
Proof. exact @bg_resources_used. Qed.
Print Assumptions c25_resources_sound_partial.

(** C25, exactness for each resource that no inserted triple repeats while it is
    not yet in use.  Missing: the other resources (refuted below). *)
Theorem c25_resources_exact_partial :
  forall R (cmp : R -> R -> comparison), ord_laws cmp ->
  forall keep ops xs g,
    run (bg_step cmp keep) bg_new ops = Some (xs, g) ->
    exists l, bg_resources_iter g = Some l /\ increasing cmp l /\
      (forall r, bg_contains_resource cmp g r = Some (mem cmp r l)) /\
      (forall r, known_history (triple_cmp cmp) triple_comps (eq r) [] ops ->
         (In r l <-> occurs triple_comps r (spec_set (triple_cmp cmp) ops))).
Proof. exact @bg_resources_exactly. Qed.
Print Assumptions c25_resources_exact_partial.

(** A resource that is repeated once in use, in a history whose first insertion
    repeats another new resource. *)
Example c25_ex :
  known_history (triple_cmp Nat.compare) triple_comps (eq 2) []
    [Insert (Triple 1 1 2); Insert (Triple 2 2 4); Remove (Triple 1 1 2)].
Proof.
  split; [|split; [|split; exact I]].
  - intros [|[|[|i]]] [|[|[|j]]] r <- H; cbn; intros E F; inv E; inv F;
      repeat match goal with H : S _ < S _ |- _ => apply Nat.succ_lt_mono in H end;
      try (inversion H; fail);
      try (destruct i; discriminate); try (destruct j; discriminate).
  - intros [|[|[|i]]] [|[|[|j]]] r <- H; cbn; intros E F; inv E; inv F;
      repeat match goal with H : S _ < S _ |- _ => apply Nat.succ_lt_mono in H end;
      try (inversion H; fail);
      try (destruct i; discriminate); try (destruct j; discriminate);
      exists (Triple 1 1 2); cbn; auto.
Qed.

(** C25 is false in general (same cause as C21). *)
Theorem c25_resources_exact_refuted :
  exists (ops : list (op (triple nat))) xs g r,
    forall keep,
      run (bg_step Nat.compare keep) bg_new ops = Some (xs, g keep) /\
      occurs triple_comps r (spec_set (triple_cmp Nat.compare) ops) /\
      bg_contains_resource Nat.compare (g keep) r = Some false.
Proof. exact bg_resources_counterexample. Qed.
Print Assumptions c25_resources_exact_refuted.
