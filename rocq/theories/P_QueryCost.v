(** C91: the work of a query on an indexed container.

    [..._counted] runs the query to its end and also returns the work it took:
    [looked] is the number of elements looked at (rounds of the loop), [passed] the
    number of entries of the indexes passed over.  [s_share f s c] is the number of
    elements of [s] whose component [f] is the subject that [c] gives, if it gives
    one, and so on (QueryCostSpec.v).

    The whole property, that the work is at most proportional to the number of
    elements that share any one of the components given, is refuted; what holds is
    in the theorems [..._partial]. *)
From Coq Require Import List Bool Arith Lia.
Import ListNotations.
From Verif Require Import Base TripleModel TriplePatternModel QuadPatternModel SetSpec ContainerSpec IndexedSpec
  BTreeDatasetModel BTreeGraphModel IndexedDatasetModel IndexedGraphModel IndexedGraphRunProofs HeapSpec
  QueryCostModel QueryCostSpec QueryCostProofs QueryCostTopProofs QueryCostWorstProofs.

(** One triple has the subject given, but the index of the predicate is passed over. *)
Theorem c91_subject_refuted :
  forall a b keep, exists ops g c n,
    ig_reached Nat.compare keep [] ops g /\
    s_share Nat.compare t_s (spec_set (triple_cmp Nat.compare) ops) (ct_subject c) = Some n /\
    forall spare, exists out w, ig_pattern_matching_counted Nat.compare g spare c = Some (out, w) /\
      a * n + b < passed w.
Proof. exact query_passes. Qed.
Print Assumptions c91_subject_refuted.

(** One triple has the object given, nothing matches, but all triples are looked at:
    the pattern is [?x ?x o]. *)
Theorem c91_object_refuted :
  forall a b keep, exists ops g c n,
    ig_reached Nat.compare keep [] ops g /\
    o_share Nat.compare t_o (spec_set (triple_cmp Nat.compare) ops) (ct_object c) = Some n /\
    forall spare, exists w, ig_pattern_matching_counted Nat.compare g spare c = Some ([], w) /\
      a * n + b < looked w.
Proof. exact query_looks. Qed.
Print Assumptions c91_object_refuted.

(** C91, what holds, for datasets: a query passes over no more entries than the
    elements that share a component given.  It looks at no more elements, but one,
    than have the subject given, at most twice as many, and one, as have the
    predicate given, and so for the object if the predicate can be anything, and the
    graph if the predicate and object can be anything.  In any case it looks at no
    more elements, but one, than the dataset ever held at once. *)
Theorem c91_dataset_partial :
  forall {R} {cmp : R -> R -> comparison}, ord_laws cmp ->
  forall keep ops0 ops xs (d : @idataset R) spare c,
  id_reached cmp keep ops0 ops xs d ->
  let s := final_set cmp ops0 ops xs in
  exists out w, id_pattern_matching_counted cmp d spare c = Some (out, w) /\
    passed w <= total (quad_shares cmp s c) /\
    looked w <= S (peak (quad_cmp cmp) (@length (quad R)) [] (full_log cmp ops0 ops xs)) /\
    (forall n, s_share cmp q_s s (cq_subject c) = Some n -> looked w <= S n) /\
    (forall n, p_share cmp q_p s (cq_predicate c) = Some n -> looked w <= S (2 * n)) /\
    (forall n, cq_predicate c = PP_Any -> o_share cmp q_o s (cq_object c) = Some n ->
       looked w <= S (2 * n)) /\
    (forall n, cq_predicate c = PP_Any -> cq_object c = PO_Any ->
       g_share cmp q_g s (cq_graph c) = Some n -> looked w <= S (2 * n)).
Proof. exact @id_query_work. Qed.
Print Assumptions c91_dataset_partial.

(** The same for graphs. *)
Theorem c91_graph_partial :
  forall {R} {cmp : R -> R -> comparison}, ord_laws cmp ->
  forall keep ops0 ops (g : @igraph R) spare c,
  ig_reached cmp keep ops0 ops g ->
  let s := spec_set (triple_cmp cmp) (ops0 ++ ops) in
  exists out w, ig_pattern_matching_counted cmp g spare c = Some (out, w) /\
    passed w <= total (triple_shares cmp s c) /\
    looked w <= S (peak (triple_cmp cmp) (@length (triple R)) [] (set_log (triple_cmp cmp) [] (ops0 ++ ops))) /\
    (forall n, s_share cmp t_s s (ct_subject c) = Some n -> looked w <= S n) /\
    (forall n, p_share cmp t_p s (ct_predicate c) = Some n -> looked w <= S (2 * n)) /\
    (forall n, ct_predicate c = PP_Any -> o_share cmp t_o s (ct_object c) = Some n ->
       looked w <= S (2 * n)).
Proof. exact @ig_query_work. Qed.
Print Assumptions c91_graph_partial.

(** Counting does not change what a query returns, whatever the container. *)
Theorem c91_dataset_counted :
  forall R (cmp : R -> R -> comparison) d spare c,
  option_map fst (id_pattern_matching_counted cmp d spare c) = id_pattern_matching cmp d spare c.
Proof. exact @id_counted_same. Qed.
Print Assumptions c91_dataset_counted.

Theorem c91_graph_counted :
  forall R (cmp : R -> R -> comparison) g spare c,
  option_map fst (ig_pattern_matching_counted cmp g spare c) = ig_pattern_matching cmp g spare c.
Proof. exact @ig_counted_same. Qed.
Print Assumptions c91_graph_counted.

(** Six triples; the predicates 0 and 5 alternate. *)
Definition e_ops : list (op (triple nat)) :=
  [Insert (Triple 1 0 20); Insert (Triple 2 5 20); Insert (Triple 1 0 21);
   Insert (Triple 2 5 21); Insert (Triple 1 0 22); Insert (Triple 3 5 22)].
Example c91_case :
  ig_pattern_matching_counted Nat.compare (gafter e_ops true) 2 (CT_GivenS 3 (TG_GivenP 5 TGG_Any)) =
    Some ([Triple 3 5 22], Work 2 3) /\
  ig_pattern_matching_counted Nat.compare (gafter e_ops true) 2 (CT_AnyS (TA_GivenP 5 TAG_Any)) =
    Some ([Triple 2 5 20; Triple 2 5 21; Triple 3 5 22], Work 7 2) /\
  ig_pattern_matching_counted Nat.compare (gafter e_ops true) 2 (CT_AnyS (TA_SameS (TAG_Given 22))) =
    Some ([], Work 7 0) /\
  triple_shares Nat.compare (spec_set (triple_cmp Nat.compare) e_ops) (CT_GivenS 3 (TG_GivenP 5 TGG_Any)) =
    [Some 1; Some 3; None].
Proof. repeat split; vm_compute; reflexivity. Qed.

(** The hypotheses are met by a dataset. *)
Definition e_qops : list (op (quad nat)) :=
  [Insert (Quad 1 0 20 None); Insert (Quad 2 5 20 (Some 9)); Insert (Quad 1 0 21 (Some 9));
   Insert (Quad 2 5 21 None)].
Example c91_dataset_case : exists xs d,
  id_reached Nat.compare true e_qops [IOp (Remove (Quad 1 0 20 None))] xs d /\
  id_pattern_matching_counted Nat.compare d 0 (CQ_AnyS (QA_GivenP 5 (QAG_Any (QAGA_Given (Some 9))))) =
    Some ([], Work 1 0) /\
  id_pattern_matching_counted Nat.compare d 0 (CQ_GivenS 2 (QG_AnyP (QGA_Any (QGAA_Given (Some 9))))) =
    Some ([Quad 2 5 20 (Some 9)], Work 2 3) /\
  quad_shares Nat.compare (final_set Nat.compare e_qops [IOp (Remove (Quad 1 0 20 None))] xs)
    (CQ_GivenS 2 (QG_AnyP (QGA_Any (QGAA_Given (Some 9))))) = [Some 2; None; None; Some 2].
Proof.
  do 2 eexists; split.
  { do 3 eexists; split; [vm_compute; reflexivity|]; split; vm_compute; reflexivity. }
  repeat split; vm_compute; reflexivity.
Qed.
