(** Property C60: what the queries of the indexed containers find, for every
    history.

    [cmp], [keep], [id_reached] and [ig_reached] are as in P_IndexedDataset.v and
    P_IndexedGraph.v; the places of the elements are those of C56 (ScanSpec.v).
    [sight], [multi_sight] and [triple_sight] (SightSpec.v) are the walks of C56,
    over elements labelled by the accounts of their resources (C59); they mention
    neither slots nor trees.  Nothing is assumed about the history. *)
From Coq Require Import List Bool Arith.
Import ListNotations.
From Verif Require Import Base TripleModel TriplePatternModel QuadPatternModel SetSpec ContainerSpec
  IndexedSpec ScanSpec Machine BaseProofs IResourceModel IndexedDatasetModel IndexedGraphModel LedgerSpec
  SightSpec SightProofs BTreeGraphModel GraphSightProofs.

(** Queries for a pattern, queries for a multi pattern, and extractions. *)
Theorem c60_dataset_queries :
  forall R (cmp : R -> R -> comparison), ord_laws cmp ->
  forall keep ops0 ops xs d,
    id_reached cmp keep ops0 ops xs d ->
    let s := places_after cmp ops0 ops xs in
    let l := full_log cmp ops0 ops xs in
    (forall spare c, id_pattern_matching cmp d spare c = Some (sight cmp keep l c s)) /\
    (forall spare c, id_multi_pattern_matching cmp d spare c = Some (multi_sight cmp keep l c s)) /\
    (forall spare c n, exists d', id_extract cmp d spare c n = Some (firstn n (sight cmp keep l c s), d')).
Proof. exact @id_sights. Qed.
Print Assumptions c60_dataset_queries.

Theorem c60_graph_queries :
  forall R (cmp : R -> R -> comparison), ord_laws cmp ->
  forall keep ops0 ops g,
    ig_reached cmp keep ops0 ops g ->
    forall spare c,
      ig_pattern_matching cmp g spare c =
      Some (triple_sight cmp keep (set_log (triple_cmp cmp) [] (ops0 ++ ops)) c
                         (fst (place_ops (triple_cmp cmp) (ops0 ++ ops)))).
Proof. exact @ig_sight. Qed.
Print Assumptions c60_graph_queries.

(** The quads that have a given subject: those whose subject is found, according
    to the account of this resource. *)
Theorem c60_dataset_subject :
  forall R (cmp : R -> R -> comparison), ord_laws cmp ->
  forall keep ops0 ops xs d,
    id_reached cmp keep ops0 ops xs d ->
    let l := full_log cmp ops0 ops xs in
    forall spare a, id_pattern_matching cmp d spare (CQ_GivenS a (QG_AnyP (QGA_Any QGAA_Any))) =
      Some (filter (fun q => finds cmp a (label (quad_cmp cmp) cmp quad_comps keep l q 0 (q_s q)))
                   (present (places_after cmp ops0 ops xs))).
Proof. exact @id_subject. Qed.
Print Assumptions c60_dataset_subject.

(** The quads [remove_graph] removes from a named graph: those whose graph is
    found, according to the account of its name. *)
Theorem c60_dataset_remove_graph :
  forall R (cmp : R -> R -> comparison), ord_laws cmp ->
  forall keep ops0 ops xs d g,
    id_reached cmp keep ops0 ops xs d ->
    let found q := In q (final_set cmp ops0 ops xs) /\ q_g q = Some g /\
      finds cmp g (label (quad_cmp cmp) cmp quad_comps keep (full_log cmp ops0 ops xs) q 3 g) = true in
    exists r d', id_remove_graph cmp keep d (Some g) = Some (r, d') /\
      match r with
      | None => forall q, ~ found q
      | Some b => exists ts, bg_iter b = Some ts /\ increasing (triple_cmp cmp) ts /\
          forall t, In t ts <-> found (Quad (t_s t) (t_p t) (t_o t) (Some g))
      end.
Proof. exact @id_graph_sight. Qed.
Print Assumptions c60_dataset_remove_graph.

(** [<1>] is new, and twice in the first quad, which is marked. *)
Definition ex_ops : list (iop nat) :=
  [IOp (Insert (Quad 1 1 2 None)); IOp (Insert (Quad 1 3 4 None))].
Definition ex_xs : list (iout nat) := [IOut (OBool true); IOut (OBool true)].
(** Then the first quad is removed, and another one uses [<1>]. *)
Definition ex_more : list (iop nat) :=
  ex_ops ++ [IOp (Remove (Quad 1 1 2 None)); IOp (Insert (Quad 1 5 6 None))].
Definition ex_more_xs : list (iout nat) := ex_xs ++ [IOut (OBool true); IOut (OBool true)].

Example c60_ex : forall keep, exists d d',
  id_reached Nat.compare keep [] ex_ops ex_xs d /\
  id_reached Nat.compare keep [] ex_more ex_more_xs d'.
Proof.
  intros [|]; eexists; eexists; split; exists []; eexists; eexists; vm_compute; repeat split.
Qed.

Definition ex_sight (keep : bool) (ops : list (iop nat)) (xs : list (iout nat)) (c : cqp nat)
  : list (quad nat) :=
  sight Nat.compare keep (full_log Nat.compare [] ops xs) c (places_after Nat.compare [] ops xs).

(** [<1> ?p ?o ?g] finds the two quads, [?s <1> ?o ?g] and [?s ?s ?o ?g] do not find
    the first one. *)
Example c60_ex_marked :
  ex_sight true ex_ops ex_xs (CQ_GivenS 1 (QG_AnyP (QGA_Any QGAA_Any))) =
    [Quad 1 1 2 None; Quad 1 3 4 None] /\
  ex_sight true ex_ops ex_xs (CQ_AnyS (QA_GivenP 1 (QAG_Any QAGA_Any))) = [] /\
  ex_sight true ex_ops ex_xs (CQ_AnyS (QA_SameS (QAG_Any QAGA_Any))) = [].
Proof. repeat split. Qed.

(** If the trees replaced equal items: the other occurrence would be found. *)
Example c60_ex_replacing :
  ex_sight false ex_ops ex_xs (CQ_GivenS 1 (QG_AnyP (QGA_Any QGAA_Any))) = [Quad 1 3 4 None] /\
  ex_sight false ex_ops ex_xs (CQ_AnyS (QA_GivenP 1 (QAG_Any QAGA_Any))) = [Quad 1 1 2 None].
Proof. repeat split. Qed.

(** After the removal, the quad [1 3 4] is filed under a number that no query
    finds. *)
Example c60_ex_removed : forall keep,
  ex_sight keep ex_more ex_more_xs (CQ_GivenS 1 (QG_AnyP (QGA_Any QGAA_Any))) = [Quad 1 5 6 None].
Proof. intros []; reflexivity. Qed.

Definition ex_graph : list (op (triple nat)) :=
  [Insert (Triple 1 1 2); Insert (Triple 3 1 4); Remove (Triple 1 1 2); Insert (Triple 5 1 6)].

Example c60_graph_ex : forall keep, exists g,
  ig_reached Nat.compare keep [] ex_graph g /\
  triple_sight Nat.compare keep (set_log (triple_cmp Nat.compare) [] ([] ++ ex_graph))
    (CT_AnyS (TA_GivenP 1 TAG_Any)) (fst (place_ops (triple_cmp Nat.compare) ([] ++ ex_graph))) =
  [Triple 5 1 6].
Proof.
  intros [|]; eexists; (split; [|reflexivity]); do 4 eexists; vm_compute; repeat split.
Qed.

(** [<9>] is new, and twice in the first quad; the second one is in the graph
    [<9>] as well.  Both are removed with this graph, or the second one only,
    depending on the trees. *)
Example c60_remove_graph_ex : forall keep, exists xs d b d',
  id_reached Nat.compare keep []
    [IOp (Insert (Quad 9 1 2 (Some 9))); IOp (Insert (Quad 3 4 5 (Some 9)))] xs d /\
  id_remove_graph Nat.compare keep d (Some 9) = Some (Some b, d') /\
  bg_iter b = Some (if keep then [Triple 3 4 5] else [Triple 3 4 5; Triple 9 1 2]).
Proof.
  intros [|]; do 4 eexists; (split; [exists []; do 2 eexists; vm_compute; repeat split|]);
    vm_compute; repeat split.
Qed.
