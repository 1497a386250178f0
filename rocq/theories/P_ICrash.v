(** Property C64: an [IndexedBTreeDataset] or [IndexedBTreeGraph] whose
    user-supplied comparison panics in the middle of an operation can still be used.

    As for C63, an operation of a history is given with the number of comparisons
    that it may make; the next one panics, the panic is caught, and the history goes
    on with the container as the operation left it (CrashModel.v, ICrashModel.v). *)
From Coq Require Import List Bool Arith.
Import ListNotations.
From Verif Require Import Base SlabModel TripleModel TriplePatternModel QuadPatternModel SetSpec ContainerSpec
  IndexedSpec Machine BaseProofs BResourceModel BTreeDatasetModel BTreeGraphModel IResourceModel
  IndexedDatasetModel IndexedGraphModel CrashModel CrashSpec ICrashSpec ICrashModel ICrashHistory CrashIdle CrashCallsProofs.

(** Take any dataset that was reached without a panic, by conversion, extraction,
    removal of graphs or otherwise.  From there on no history panics by itself,
    wherever the comparisons panic; an interrupted insertion or membership test
    leaves the set as it was, an interrupted removal leaves it as it was or without
    the quad, an interrupted extension leaves the set extended by a prefix, and all
    other operations return what they return on a set.  The resources stay listed in
    order.  The queries do not panic, and return only quads of the set and losses, that
    is, quads whose insertion was interrupted, each at most once ([among]).  Missing for
    the full property: the queries may miss quads or return others than were asked for,
    and the losses are counted by [len] and [is_empty]. *)
Theorem c64_indexed_dataset_partial :
  forall R (cmp : R -> R -> comparison), ord_laws cmp ->
  forall keep ops0 ops xs d0 (l : list (op (quad R) * nat)),
    id_reached cmp keep ops0 ops xs d0 ->
    exists ys d s lost vs,
      m_run (m_id_step cmp keep) d0 l = Some (ys, d) /\
      history (quad_cmp cmp) (final_set cmp ops0 ops xs) [] (map fst l) ys s lost /\
      id_len d = length s + length lost /\ id_iter d = Some (sorted_elements (quad_cmp cmp) s) /\
      id_resources_iter d = Some vs /\ increasing cmp vs /\
      (forall v, id_contains_resource cmp d v = Some (mem cmp v vs)) /\
      id_queries_within cmp d (s ++ lost).
Proof. exact @id_interrupted. Qed.
Print Assumptions c64_indexed_dataset_partial.

(** The same from a [BTreeDataset] that was itself interrupted, then converted.  Here
    the queries are only known as above if the [BTreeDataset] had no loss. *)
Theorem c64_converted_dataset_partial :
  forall R (cmp : R -> R -> comparison), ord_laws cmp ->
  forall keep (l0 l : list (op (quad R) * nat)),
    exists ys0 b s0 lost0 d0,
      m_run (m_bd_step cmp keep) bd_new l0 = Some (ys0, b) /\
      history (quad_cmp cmp) [] [] (map fst l0) ys0 s0 lost0 /\
      id_from_non_indexed b = Some d0 /\
      exists ys d s lost vs,
        m_run (m_id_step cmp keep) d0 l = Some (ys, d) /\
        history (quad_cmp cmp) s0 lost0 (map fst l) ys s lost /\
        id_len d = length s + length lost /\ id_iter d = Some (sorted_elements (quad_cmp cmp) s) /\
        id_resources_iter d = Some vs /\ increasing cmp vs /\
        (forall v, id_contains_resource cmp d v = Some (mem cmp v vs)) /\
        (lost0 = [] ->
         id_queries_within cmp d (s ++ lost)).
Proof. exact @id_interrupted_converted. Qed.
Print Assumptions c64_converted_dataset_partial.

(** The graph, also from an interrupted [BTreeGraph]; [l0 = []] is the empty graph. *)
Theorem c64_indexed_graph_partial :
  forall R (cmp : R -> R -> comparison), ord_laws cmp ->
  forall keep (l0 l : list (op (triple R) * nat)),
    exists ys0 b s0 lost0 g0,
      m_run (m_bg_step cmp keep) bg_new l0 = Some (ys0, b) /\
      history (triple_cmp cmp) [] [] (map fst l0) ys0 s0 lost0 /\
      ig_from_non_indexed b = Some g0 /\
      exists ys g s lost vs,
        m_run (m_ig_step cmp keep) g0 l = Some (ys, g) /\
        history (triple_cmp cmp) s0 lost0 (map fst l) ys s lost /\
        ig_len g = length s + length lost /\ ig_iter g = Some (sorted_elements (triple_cmp cmp) s) /\
        ig_resources_iter g = Some vs /\ increasing cmp vs /\
        (forall v, ig_contains_resource cmp g v = Some (mem cmp v vs)) /\
        (lost0 = [] ->
         ig_queries_within cmp g (s ++ lost)).
Proof. exact @ig_interrupted. Qed.
Print Assumptions c64_indexed_graph_partial.

(** An interrupted [remove_graph] only takes quads of that graph away; the dataset it
    leaves can be used as above. *)
Theorem c64_remove_graph_partial :
  forall R (cmp : R -> R -> comparison), ord_laws cmp ->
  forall keep ops0 ops xs d g n d',
    id_reached cmp keep ops0 ops xs d ->
    m_id_remove_graph cmp keep g n d = Interrupted d' ->
    exists s0, NoDup s0 /\
      (forall q, In q s0 -> In q (final_set cmp ops0 ops xs)) /\
      (forall q, In q (final_set cmp ops0 ops xs) -> q_g q <> g -> In q s0) /\
      id_iter d' = Some (sorted_elements (quad_cmp cmp) s0) /\ id_len d' = length s0 /\
      forall l, exists ys d2 s lost,
        m_run (m_id_step cmp keep) d' l = Some (ys, d2) /\
        history (quad_cmp cmp) s0 [] (map fst l) ys s lost /\
        id_len d2 = length s + length lost /\ id_iter d2 = Some (sorted_elements (quad_cmp cmp) s) /\
        id_queries_within cmp d2 (s ++ lost).
Proof. exact @id_remove_graph_interrupted. Qed.
Print Assumptions c64_remove_graph_partial.

(** Whatever was interrupted before, an operation that does not change the set leaves
    the container exactly as it was, interrupted or not. *)
Theorem c64_idle_dataset_partial :
  forall R (cmp : R -> R -> comparison), ord_laws cmp ->
  forall keep ops0 ops xs d0 (l : list (op (quad R) * nat)),
    id_reached cmp keep ops0 ops xs d0 ->
    exists ys d s lost,
      m_run (m_id_step cmp keep) d0 l = Some (ys, d) /\
      history (quad_cmp cmp) (final_set cmp ops0 ops xs) [] (map fst l) ys s lost /\
      forall o, idle (quad_cmp cmp) s o ->
        leaves_as_is (m_id_step cmp keep o) d (answer (quad_cmp cmp) s lost o).
Proof. exact @id_idle. Qed.
Print Assumptions c64_idle_dataset_partial.

Theorem c64_idle_converted_partial :
  forall R (cmp : R -> R -> comparison), ord_laws cmp ->
  forall keep (l0 l : list (op (quad R) * nat)),
    exists ys0 b s0 lost0 d0,
      m_run (m_bd_step cmp keep) bd_new l0 = Some (ys0, b) /\
      history (quad_cmp cmp) [] [] (map fst l0) ys0 s0 lost0 /\
      id_from_non_indexed b = Some d0 /\
      exists ys d s lost,
        m_run (m_id_step cmp keep) d0 l = Some (ys, d) /\
        history (quad_cmp cmp) s0 lost0 (map fst l) ys s lost /\
        forall o, idle (quad_cmp cmp) s o ->
          leaves_as_is (m_id_step cmp keep o) d (answer (quad_cmp cmp) s lost o).
Proof. exact @id_idle_converted. Qed.
Print Assumptions c64_idle_converted_partial.

Theorem c64_idle_graph_partial :
  forall R (cmp : R -> R -> comparison), ord_laws cmp ->
  forall keep (l0 l : list (op (triple R) * nat)),
    exists ys0 b s0 lost0 g0,
      m_run (m_bg_step cmp keep) bg_new l0 = Some (ys0, b) /\
      history (triple_cmp cmp) [] [] (map fst l0) ys0 s0 lost0 /\
      ig_from_non_indexed b = Some g0 /\
      exists ys g s lost,
        m_run (m_ig_step cmp keep) g0 l = Some (ys, g) /\
        history (triple_cmp cmp) s0 lost0 (map fst l) ys s lost /\
        forall o, idle (triple_cmp cmp) s o ->
          leaves_as_is (m_ig_step cmp keep o) g (answer (triple_cmp cmp) s lost o).
Proof. exact @ig_idle. Qed.
Print Assumptions c64_idle_graph_partial.

(** The operations that may be interrupted are those of the other properties: with
    enough comparisons they return the same and leave the same container, and so do
    those of a history of which none was interrupted. *)
Theorem c64_same_dataset_partial :
  forall R (cmp : R -> R -> comparison) keep d0 (ops : list (op (quad R))) ys d,
    run (id_step cmp keep) d0 (map IOp ops) = Some (map IOut ys, d) ->
    exists k, forall n, k <= n ->
      m_run (m_id_step cmp keep) d0 (map (fun o => (o, n)) ops) = Some (map Some ys, d).
Proof. exact @id_enough. Qed.
Print Assumptions c64_same_dataset_partial.

Theorem c64_same_dataset_done_partial :
  forall R (cmp : R -> R -> comparison) keep d0 (l : list (op (quad R) * nat)) ys d,
    m_run (m_id_step cmp keep) d0 l = Some (map Some ys, d) ->
    run (id_step cmp keep) d0 (map IOp (map fst l)) = Some (map IOut ys, d).
Proof. exact @id_all_done. Qed.
Print Assumptions c64_same_dataset_done_partial.

Theorem c64_same_remove_graph_partial :
  forall R (cmp : R -> R -> comparison), ord_laws cmp ->
  forall keep ops0 ops xs d g,
    id_reached cmp keep ops0 ops xs d ->
    exists r d', id_remove_graph cmp keep d g = Some (r, d') /\
      exists k, forall n,
        (k <= n -> m_id_remove_graph cmp keep g n d = Done r (n - k) d') /\
        (n < k -> exists d', m_id_remove_graph cmp keep g n d = Interrupted d').
Proof. exact @id_remove_graph_same. Qed.
Print Assumptions c64_same_remove_graph_partial.

Theorem c64_same_graph_partial :
  forall R (cmp : R -> R -> comparison) keep g0 (ops : list (op (triple R))) ys g,
    run (ig_step cmp keep) g0 ops = Some (ys, g) ->
    exists k, forall n, k <= n ->
      m_run (m_ig_step cmp keep) g0 (map (fun o => (o, n)) ops) = Some (map Some ys, g).
Proof. exact @ig_enough. Qed.
Print Assumptions c64_same_graph_partial.

Theorem c64_same_graph_done_partial :
  forall R (cmp : R -> R -> comparison) keep g0 (l : list (op (triple R) * nat)) ys g,
    m_run (m_ig_step cmp keep) g0 l = Some (map Some ys, g) ->
    run (ig_step cmp keep) g0 (map fst l) = Some (ys, g).
Proof. exact @ig_all_done. Qed.
Print Assumptions c64_same_graph_done_partial.

(** What may panic: to test whether a container of one element has another one makes
    one call for each component that both have, up to the first that differs, and
    panics at the first call that does. *)
Theorem c64_dataset_calls_partial :
  forall R (cmp : R -> R -> comparison) keep d a b,
    id_iter d = Some [a] ->
    makes_calls (m_id_step cmp keep (Contains b)) d (component_calls cmp (quad_parts a) (quad_parts b))
      (OBool (match quad_cmp cmp a b with Eq => true | _ => false end)).
Proof. exact @id_calls. Qed.
Print Assumptions c64_dataset_calls_partial.

Theorem c64_graph_calls_partial :
  forall R (cmp : R -> R -> comparison) keep g a b,
    ig_iter g = Some [a] ->
    makes_calls (m_ig_step cmp keep (Contains b)) g (component_calls cmp (triple_parts a) (triple_parts b))
      (OBool (match triple_cmp cmp a b with Eq => true | _ => false end)).
Proof. exact @ig_calls. Qed.
Print Assumptions c64_graph_calls_partial.

(** The full property fails.  After an interrupted insertion, the quads of a subject
    include one that has another subject. *)
Theorem c64_wrong_subject_refuted :
  exists l : list (op (quad nat) * nat), forall keep, exists ys d,
    m_run (m_id_step Nat.compare keep) id_new l = Some (ys, d) /\
    forall spare, id_pattern_matching Nat.compare d spare (CQ_GivenS 4 (QG_AnyP (QGA_Any QGAA_Any))) =
      Some [Quad 4 2 3 None; Quad 5 2 3 None].
Proof.
  exists [(Insert (Quad 4 2 3 None), 60); (Insert (Quad 4 7 3 None), 11); (Insert (Quad 5 2 3 None), 60)].
  intros []; do 2 eexists; (split; [vm_compute; reflexivity|]); intros [|[|[|[|spare]]]]; vm_compute; reflexivity.
Qed.
Print Assumptions c64_wrong_subject_refuted.

Theorem c64_wrong_subject_graph_refuted :
  exists l : list (op (triple nat) * nat), forall keep, exists ys g,
    m_run (m_ig_step Nat.compare keep) ig_new l = Some (ys, g) /\
    forall spare, ig_pattern_matching Nat.compare g spare (CT_GivenS 4 (TG_AnyP TGA_Any)) =
      Some [Triple 4 2 3; Triple 5 2 3].
Proof.
  exists [(Insert (Triple 4 2 3), 60); (Insert (Triple 4 7 3), 11); (Insert (Triple 5 2 3), 60)].
  intros []; do 2 eexists; (split; [vm_compute; reflexivity|]); intros [|[|[|[|spare]]]]; vm_compute; reflexivity.
Qed.
Print Assumptions c64_wrong_subject_graph_refuted.

(** After an interrupted insertion, the only quad of a subject is not found. *)
Theorem c64_missed_refuted :
  exists l : list (op (quad nat) * nat), forall keep, exists ys d,
    m_run (m_id_step Nat.compare keep) id_new l = Some (ys, d) /\
    id_iter d = Some [Quad 4 2 3 None] /\
    forall spare, id_pattern_matching Nat.compare d spare (CQ_GivenS 4 (QG_AnyP (QGA_Any QGAA_Any))) = Some [].
Proof.
  exists [(Insert (Quad 1 2 3 None), 60); (Insert (Quad 4 2 3 None), 60); (Remove (Quad 1 2 3 None), 60);
          (Insert (Quad 4 7 3 None), 11)].
  intros []; do 2 eexists; (split; [vm_compute; reflexivity|]); (split; [vm_compute; reflexivity|]);
    intros [|[|[|[|spare]]]]; vm_compute; reflexivity.
Qed.
Print Assumptions c64_missed_refuted.

(** A quad whose insertion was interrupted is not in the dataset, is not iterated
    over, but is found by queries and counted by [len]. *)
Theorem c64_ghost_refuted :
  exists l : list (op (quad nat) * nat), forall keep, exists ys d,
    m_run (m_id_step Nat.compare keep) id_new l = Some (ys, d) /\
    id_contains Nat.compare d (Quad 4 2 3 None) = Some false /\
    id_iter d = Some [Quad 1 2 3 None] /\ id_len d = 2 /\
    forall spare, id_pattern_matching Nat.compare d spare (CQ_AnyS (QA_AnyP (QAA_Any QAAA_Any))) =
      Some [Quad 1 2 3 None; Quad 4 2 3 None].
Proof.
  exists [(Insert (Quad 1 2 3 None), 60); (Insert (Quad 4 2 3 None), 12)].
  intros []; do 2 eexists; (split; [vm_compute; reflexivity|]); (split; [vm_compute; reflexivity|]);
    (split; [vm_compute; reflexivity|]); (split; [vm_compute; reflexivity|]);
    intros [|[|[|[|spare]]]]; vm_compute; reflexivity.
Qed.
Print Assumptions c64_ghost_refuted.

(** After an interrupted removal, [remove_graph] panics by itself, for the default
    graph and for a named graph. *)
Theorem c64_remove_default_graph_refuted :
  exists l : list (op (quad nat) * nat), forall keep, exists ys d,
    m_run (m_id_step Nat.compare keep) id_new l = Some (ys, d) /\
    id_iter d = Some [] /\ id_remove_graph Nat.compare keep d None = None.
Proof.
  exists [(Insert (Quad 1 2 3 None), 60); (Remove (Quad 1 2 3 None), 4)].
  intros []; do 2 eexists; (split; [vm_compute; reflexivity|]); (split; [vm_compute; reflexivity|]);
    vm_compute; reflexivity.
Qed.
Print Assumptions c64_remove_default_graph_refuted.

Theorem c64_remove_named_graph_refuted :
  exists l : list (op (quad nat) * nat), forall keep, exists ys d,
    m_run (m_id_step Nat.compare keep) id_new l = Some (ys, d) /\
    id_iter d = Some [Quad 1 2 3 (Some 4)] /\ id_remove_graph Nat.compare keep d (Some 4) = None.
Proof.
  exists [(Insert (Quad 1 2 3 (Some 4)), 60); (Insert (Quad 1 5 3 (Some 4)), 60);
          (Remove (Quad 1 5 3 (Some 4)), 8)].
  intros []; do 2 eexists; (split; [vm_compute; reflexivity|]); (split; [vm_compute; reflexivity|]);
    vm_compute; reflexivity.
Qed.
Print Assumptions c64_remove_named_graph_refuted.

(** An interrupted [remove_graph] loses the quads that it had removed so far. *)
Theorem c64_remove_graph_refuted :
  exists ops xs d, forall keep,
    id_reached Nat.compare keep [] ops xs (d keep) /\
    id_iter (d keep) = Some [Quad 1 2 3 None; Quad 4 2 3 None; Quad 5 2 3 (Some 7)] /\
    exists d', m_id_remove_graph Nat.compare keep None 8 (d keep) = Interrupted d' /\
      id_iter d' = Some [Quad 4 2 3 None; Quad 5 2 3 (Some 7)].
Proof.
  pose (ops := map IOp [Insert (Quad 1 2 3 None); Insert (Quad 4 2 3 None); Insert (Quad 5 2 3 (Some 7))]).
  exists ops, (map IOut [OBool true; OBool true; OBool true]).
  exists (fun keep => match run (id_step Nat.compare keep) id_new ops with
                      | Some (_, d) => d | None => id_new end).
  intros []; (split; [exists [], bd_new, id_new; split; [reflexivity|]; split;
                        [reflexivity|vm_compute; reflexivity]|]);
    (split; [vm_compute; reflexivity|]); eexists; (split; [vm_compute; reflexivity|]);
    vm_compute; reflexivity.
Qed.
Print Assumptions c64_remove_graph_refuted.

(** When an interrupted [BTreeDataset] is converted, a query may panic later. *)
Theorem c64_converted_query_refuted :
  exists (l0 l : list (op (quad nat) * nat)), forall keep, exists ys0 b d0 ys d,
    m_run (m_bd_step Nat.compare keep) bd_new l0 = Some (ys0, b) /\
    id_from_non_indexed b = Some d0 /\
    m_run (m_id_step Nat.compare keep) d0 l = Some (ys, d) /\
    forall spare, id_pattern_matching Nat.compare d spare (CQ_AnyS (QA_AnyP (QAA_Any QAAA_Any))) = None.
Proof.
  exists [(Insert (Quad 1 2 3 None), 60); (Insert (Quad 4 5 6 None), 22); (Insert (Quad 4 7 8 None), 60)],
    [(Remove (Quad 4 7 8 None), 60)].
  intros []; do 5 eexists; (split; [vm_compute; reflexivity|]); (split; [vm_compute; reflexivity|]);
    (split; [vm_compute; reflexivity|]); intros [|[|[|[|spare]]]]; vm_compute; reflexivity.
Qed.
Print Assumptions c64_converted_query_refuted.

(** The laws of the order hold for numbers, and histories may have interruptions of
    every kind, in a dataset that was reached without one. *)
Example c64_ex :
  ord_laws Nat.compare /\
  (forall keep, id_reached Nat.compare keep [] [] [] (@id_new nat)) /\
  forall keep,
    option_map fst (m_run (m_id_step Nat.compare keep) id_new
      [(Extend [Quad 1 2 3 None; Quad 4 5 6 (Some 7); Quad 8 9 8 None], 25); (Iter, 0);
       (Contains (Quad 1 2 3 None), 1); (Remove (Quad 1 2 3 None), 1); (Iter, 0);
       (Remove (Quad 1 2 3 None), 4); (Insert (Quad 4 5 6 (Some 7)), 60); (Iter, 0);
       (Insert (Quad 4 5 6 (Some 8)), 40); (Insert (Quad 4 5 6 (Some 8)), 40); (Iter, 0); (Len, 0)]) =
    Some [None; Some (OList [Quad 1 2 3 None]); None; None; Some (OList [Quad 1 2 3 None]);
          None; Some (OBool true); Some (OList [Quad 4 5 6 (Some 7)]);
          Some (OBool true); Some (OBool false);
          Some (OList [Quad 4 5 6 (Some 7); Quad 4 5 6 (Some 8)]); Some (ONat 2)].
Proof.
  split; [exact nat_compare_laws|]; split.
  - intros keep; exists [], bd_new, id_new; repeat split; reflexivity.
  - intros []; vm_compute; reflexivity.
Qed.
