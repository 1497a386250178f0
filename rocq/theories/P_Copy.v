(** Property C95: indexed containers filled from a sequence, and copies.

    [cmp], [keep], [id_reached] and [ig_reached] are as in P_IndexedDataset.v and
    P_IndexedGraph.v.  [introduced comps l]: a resource that is twice in an element
    of [l] is in an element before it (CopySpec.v). *)
From Coq Require Import List Bool Arith.
Import ListNotations.
From Verif Require Import Base TripleModel TriplePatternModel QuadPatternModel SetSpec ContainerSpec PatternSpec
  IndexedSpec Machine BaseProofs IndexedDatasetModel IndexedGraphModel CopyModel CopySpec CopyProofs.

(** A dataset collected from different quads answers all pattern queries with all
    the matching quads, in the order of the sequence, if the resources are
    introduced.  Otherwise, each quad that repeats a resource not introduced is
    missed by some query. *)
Theorem c95_dataset_collected :
  forall R (cmp : R -> R -> comparison), ord_laws cmp ->
  forall keep l, NoDup l -> exists d, id_from_iter cmp keep l = Some d /\
    (introduced quad_comps l ->
     forall spare c f, (forall q, f q = true <-> cq_matches c q) ->
       id_pattern_matching cmp d spare c = Some (filter f l)) /\
    (forall before q after r i j, l = before ++ q :: after -> ~ occurs quad_comps r before -> i < j ->
       nth_error (quad_comps q) i = Some r -> nth_error (quad_comps q) j = Some r ->
     exists c, cq_matches c q /\
       forall spare, exists a, id_pattern_matching cmp d spare c = Some a /\ ~ In q a).
Proof. exact @id_collected. Qed.
Print Assumptions c95_dataset_collected.

Theorem c95_graph_collected :
  forall R (cmp : R -> R -> comparison), ord_laws cmp ->
  forall keep l, NoDup l -> exists g, ig_from_iter cmp keep l = Some g /\
    (introduced triple_comps l ->
     forall spare c f, (forall t, f t = true <-> ct_matches c t) ->
       ig_pattern_matching cmp g spare c = Some (filter f l)) /\
    (forall before t after r i j, l = before ++ t :: after -> ~ occurs triple_comps r before -> i < j ->
       nth_error (triple_comps t) i = Some r -> nth_error (triple_comps t) j = Some r ->
     exists c, ct_matches c t /\
       forall spare, exists a, ig_pattern_matching cmp g spare c = Some a /\ ~ In t a).
Proof. exact @ig_collected. Qed.
Print Assumptions c95_graph_collected.

(** Whatever was done to a dataset before, its copy has the same quads, and
    answers all pattern queries exactly and in order, under the same condition on
    the order of iteration. *)
Theorem c95_dataset_copied :
  forall R (cmp : R -> R -> comparison), ord_laws cmp ->
  forall keep ops0 ops xs d, id_reached cmp keep ops0 ops xs d ->
    exists l d', id_iter d = Some l /\ id_copy cmp keep d = Some d' /\ id_iter d' = Some l /\
      (introduced quad_comps l ->
       forall spare c f, (forall q, f q = true <-> cq_matches c q) ->
         id_pattern_matching cmp d' spare c = Some (filter f l)).
Proof. exact @id_copied. Qed.
Print Assumptions c95_dataset_copied.

Theorem c95_graph_copied :
  forall R (cmp : R -> R -> comparison), ord_laws cmp ->
  forall keep ops0 ops g, ig_reached cmp keep ops0 ops g ->
    exists l g', ig_iter g = Some l /\ ig_copy cmp keep g = Some g' /\ ig_iter g' = Some l /\
      (introduced triple_comps l ->
       forall spare c f, (forall t, f t = true <-> ct_matches c t) ->
         ig_pattern_matching cmp g' spare c = Some (filter f l)).
Proof. exact @ig_copied. Qed.
Print Assumptions c95_graph_copied.

(** After a removal the dataset finds nothing without a given subject; its copy
    does.  The second quad of the copy repeats [<1>], which is in the first one. *)
Example c95_ex : forall keep, exists xs d d',
  id_reached Nat.compare keep []
    [IOp (Extend [Quad 0 8 9 None; Quad 1 2 3 None; Quad 1 4 1 (Some 7)]); IOp (Remove (Quad 0 8 9 None))] xs d /\
  id_pattern_matching Nat.compare d 0 (CQ_AnyS (QA_AnyP (QAA_SameS QAAG_Any))) = Some [] /\
  id_copy Nat.compare keep d = Some d' /\
  id_pattern_matching Nat.compare d' 0 (CQ_AnyS (QA_AnyP (QAA_SameS QAAG_Any))) = Some [Quad 1 4 1 (Some 7)].
Proof.
  intros []; do 3 eexists; (split; [exists []; do 2 eexists; vm_compute; repeat split|]);
    vm_compute; repeat split.
Qed.
Example c95_introduced : introduced quad_comps [Quad 1 2 3 None; Quad 1 4 1 (Some 7)].
Proof.
  intros [|x [|y b]] q a E; inversion E; subst; [| |destruct b; discriminate].
  - intros i j r _ Hij Hi Hj; exfalso.
    destruct i as [|[|[|[|i]]]], j as [|[|[|[|j]]]]; cbn in *; try discriminate; try congruence;
      try (destruct i; discriminate); try (destruct j; discriminate); now apply Nat.lt_irrefl in Hij.
  - intros i j r _ Hij Hi Hj; exists (Quad 1 2 3 None); split; [now left|].
    destruct i as [|[|[|[|i]]]], j as [|[|[|[|j]]]]; cbn in *; try discriminate; try congruence;
      try (destruct i; discriminate); try (destruct j; discriminate);
      try (inversion Hi; subst; now left); now apply Nat.lt_irrefl in Hij.
Qed.
(** The other order is no good: then [?s ?p ?s ?g] does not find the quad. *)
Example c95_other_order : forall keep, exists d,
  id_from_iter Nat.compare keep [Quad 1 4 1 (Some 7); Quad 1 2 3 None] = Some d /\
  id_pattern_matching Nat.compare d 0 (CQ_AnyS (QA_AnyP (QAA_SameS QAAG_Any))) = Some [].
Proof. intros []; eexists; split; vm_compute; reflexivity. Qed.
