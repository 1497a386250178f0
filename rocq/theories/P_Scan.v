(** Property C56: what the queries of the indexed containers find, exactly and in
    which order.

    [cmp], [keep], [id_reached], [ig_reached], [final_set] and the restriction
    [known_log] are as in P_IndexedDataset.v and P_IndexedGraph.v; the places of
    the elements and the walk along them are specified in ScanSpec.v. *)
From Coq Require Import List Bool Arith.
Import ListNotations.
From Verif Require Import Base SlabModel TripleModel TriplePatternModel QuadPatternModel
  PatternSpec SetSpec ContainerSpec IndexedSpec ScanSpec Machine BaseProofs IResourceModel
  IndexedDatasetModel IndexedRunProofs IndexedGraphModel IndexedGraphRunProofs ScanProofs
  SightProofs.

(** The places hold the quads of the dataset, whatever the history. *)
Theorem c56_places :
  forall R (cmp : R -> R -> comparison), ord_laws cmp ->
  forall keep ops0 ops xs d,
    id_reached cmp keep ops0 ops xs d ->
    forall q, In q (present (places_after cmp ops0 ops xs)) <-> In q (final_set cmp ops0 ops xs).
Proof. exact @id_places. Qed.
Print Assumptions c56_places.

(** Queries for a pattern, queries for a multi pattern, and extractions. *)
Theorem c56_dataset_answers :
  forall R (cmp : R -> R -> comparison), ord_laws cmp ->
  forall keep ops0 ops xs d,
    id_reached cmp keep ops0 ops xs d ->
    known_log (quad_cmp cmp) quad_comps any_resource [] (full_log cmp ops0 ops xs) ->
    let s := places_after cmp ops0 ops xs in
    (forall spare c, id_pattern_matching cmp d spare c = Some (answer cmp c s)) /\
    (forall spare c, id_multi_pattern_matching cmp d spare c = Some (multi_answer cmp c s)) /\
    (forall spare c n, exists d', id_extract cmp d spare c n = Some (firstn n (answer cmp c s), d')).
Proof. exact @id_answers. Qed.
Print Assumptions c56_dataset_answers.

Theorem c56_graph_answers :
  forall R (cmp : R -> R -> comparison), ord_laws cmp ->
  forall keep ops0 ops g,
    ig_reached cmp keep ops0 ops g ->
    known_log (triple_cmp cmp) triple_comps any_resource [] (set_log (triple_cmp cmp) [] (ops0 ++ ops)) ->
    forall spare c,
      ig_pattern_matching cmp g spare c =
      Some (triple_answer cmp c (fst (place_ops (triple_cmp cmp) (ops0 ++ ops)))).
Proof. exact @ig_answers. Qed.
Print Assumptions c56_graph_answers.

(** The query [?s ?p ?o ?g] finds the quads before the first vacant place,
    whatever the history. *)
Theorem c56_dataset_wildcards :
  forall R (cmp : R -> R -> comparison), ord_laws cmp ->
  forall keep ops0 ops xs d,
    id_reached cmp keep ops0 ops xs d ->
    forall spare, id_pattern_matching cmp d spare (CQ_AnyS (QA_AnyP (QAA_Any QAAA_Any))) =
      Some (up_to_vacant (places_after cmp ops0 ops xs)).
Proof. exact @id_all_wildcards. Qed.
Print Assumptions c56_dataset_wildcards.

Theorem c56_graph_wildcards :
  forall R (cmp : R -> R -> comparison), ord_laws cmp ->
  forall keep ops0 ops g,
    ig_reached cmp keep ops0 ops g ->
    forall spare, ig_pattern_matching cmp g spare (CT_AnyS (TA_AnyP TAA_Any)) =
      Some (up_to_vacant (fst (place_ops (triple_cmp cmp) (ops0 ++ ops)))).
Proof. exact @ig_all_wildcards. Qed.
Print Assumptions c56_graph_wildcards.

(** When nothing was ever removed, all the matching quads are found, in the order
    in which they were inserted.  (A set lists its elements most recent first.) *)
Theorem c56_dataset_insertion_order :
  forall R (cmp : R -> R -> comparison), ord_laws cmp ->
  forall keep ops0 ops xs d,
    id_reached cmp keep ops0 ops xs d ->
    known_log (quad_cmp cmp) quad_comps any_resource [] (full_log cmp ops0 ops xs) ->
    only_added (full_log cmp ops0 ops xs) ->
    forall spare c f, (forall q, f q = true <-> cq_matches c q) ->
      id_pattern_matching cmp d spare c = Some (filter f (rev (final_set cmp ops0 ops xs))).
Proof. exact @id_in_order. Qed.
Print Assumptions c56_dataset_insertion_order.

Theorem c56_graph_insertion_order :
  forall R (cmp : R -> R -> comparison), ord_laws cmp ->
  forall keep ops0 ops g,
    ig_reached cmp keep ops0 ops g ->
    known_log (triple_cmp cmp) triple_comps any_resource [] (set_log (triple_cmp cmp) [] (ops0 ++ ops)) ->
    only_added (set_log (triple_cmp cmp) [] (ops0 ++ ops)) ->
    forall spare c f, (forall t, f t = true <-> ct_matches c t) ->
      ig_pattern_matching cmp g spare c =
      Some (filter f (rev (spec_set (triple_cmp cmp) (ops0 ++ ops)))).
Proof. exact @ig_in_order. Qed.
Print Assumptions c56_graph_insertion_order.

(** Five quads, two removals (the places 1 and 3 are vacated), one insertion: it
    takes the place 3, and the place 1 stays vacant. *)
Definition ex_ops : list (iop nat) :=
  [IOp (Extend [Quad 1 2 3 None; Quad 4 5 6 None; Quad 7 5 8 None; Quad 1 5 9 None; Quad 7 2 1 None]);
   IOp (Remove (Quad 4 5 6 None)); IOp (Remove (Quad 1 5 9 None));
   IOp (Insert (Quad 7 5 3 (Some 1)))].
Definition ex_xs : list (iout nat) :=
  [IOut OUnit; IOut (OBool true); IOut (OBool true); IOut (OBool true)].

Example c56_ex_places : places_after Nat.compare [] ex_ops ex_xs =
  [Some (Quad 1 2 3 None); None; Some (Quad 7 5 8 None); Some (Quad 7 5 3 (Some 1)); Some (Quad 7 2 1 None)].
Proof. reflexivity. Qed.

(** [?s ?p ?o ?g] stops at the vacant place; [?s <5> ?o ?g] jumps over it, and so
    sees all that follows; [?s <2> ?o ?g] does not; [<7> ?p ?o ?g] is complete. *)
Example c56_ex_answers :
  let s := places_after Nat.compare [] ex_ops ex_xs in
  answer Nat.compare (CQ_AnyS (QA_AnyP (QAA_Any QAAA_Any))) s = [Quad 1 2 3 None] /\
  answer Nat.compare (CQ_AnyS (QA_GivenP 5 (QAG_Any QAGA_Any))) s =
    [Quad 7 5 8 None; Quad 7 5 3 (Some 1)] /\
  answer Nat.compare (CQ_AnyS (QA_GivenP 2 (QAG_Any QAGA_Any))) s = [Quad 1 2 3 None] /\
  answer Nat.compare (CQ_GivenS 7 (QG_AnyP (QGA_Any QGAA_Any))) s =
    [Quad 7 5 8 None; Quad 7 5 3 (Some 1); Quad 7 2 1 None].
Proof. repeat split. Qed.

Example c56_ex : forall keep, exists d,
  id_reached Nat.compare keep [] ex_ops ex_xs d /\
  known_log (quad_cmp Nat.compare) quad_comps any_resource [] (full_log Nat.compare [] ex_ops ex_xs).
Proof.
  intros keep; eexists; split.
  - exists []; eexists; eexists; destruct keep; vm_compute; repeat split.
  - known.
Qed.

Definition ex_added : list (op (triple nat)) :=
  [Insert (Triple 5 2 3); Extend [Triple 4 2 5; Triple 5 2 3]; Insert (Triple 1 3 3)].

Example c56_graph_ex : forall keep, exists g,
  ig_reached Nat.compare keep [] ex_added g /\
  known_log (triple_cmp Nat.compare) triple_comps any_resource [] (set_log (triple_cmp Nat.compare) [] ([] ++ ex_added)) /\
  only_added (set_log (triple_cmp Nat.compare) [] ([] ++ ex_added)) /\
  rev (spec_set (triple_cmp Nat.compare) ([] ++ ex_added)) = [Triple 5 2 3; Triple 4 2 5; Triple 1 3 3].
Proof.
  intros keep; eexists; split; [|split; [|split]].
  - do 4 eexists; destruct keep; vm_compute; repeat split.
  - known.
  - repeat (apply Forall_cons; [reflexivity|]); apply Forall_nil.
  - reflexivity.
Qed.
