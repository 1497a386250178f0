(** Property C73: the counting methods of the traits.

    [number P n] (CountSpec.v): exactly [n] elements have the property [P].  The
    counts of subjects, predicates, objects and named graphs of the indexed
    containers are in C29, C35 and C61. *)
From Coq Require Import List Bool Arith.
Import ListNotations.
From Verif Require Import Base TripleModel SetSpec ContainerSpec IndexedSpec Machine BResourceModel
  BTreeDatasetModel BTreeGraphModel IResourceModel IndexedDatasetModel IndexedGraphModel
  ConsumeModel IterSpec CountModel CountSpec CountProofs.

(** [quads_count] and [triples_count] never panic and return the number of elements
    present, for every history.  [resource_count] returns the number of resources
    that [resources] yields: never more than are in use, and all of them if no
    inserted quad repeats a new resource.  Missing: the other histories. *)
Theorem c73_btree_dataset_partial :
  forall R (cmp : R -> R -> comparison), ord_laws cmp ->
  forall keep ops xs d,
    run (bd_step cmp keep) bd_new ops = Some (xs, d) ->
    bd_quads_count d = Some (bd_len d) /\
    number (fun q => In q (spec_set (quad_cmp cmp) ops)) (bd_len d) /\
    exists l m, bd_resources_iter d = Some l /\ bd_resource_count d = Some (length l) /\
      number (fun r => occurs quad_comps r (spec_set (quad_cmp cmp) ops)) m /\ length l <= m /\
      (known_history (quad_cmp cmp) quad_comps any_resource [] ops -> length l = m).
Proof. exact @bd_counts. Qed.
Print Assumptions c73_btree_dataset_partial.

(** The same for a graph, also seen as a dataset: its quads are its triples, in the
    default graph. *)
Theorem c73_btree_graph_partial :
  forall R (cmp : R -> R -> comparison), ord_laws cmp ->
  forall keep ops xs g,
    run (bg_step cmp keep) bg_new ops = Some (xs, g) ->
    exists ts, bg_iter g = Some ts /\
      bg_triples_count g = Some (bg_len g) /\
      number (fun t => In t (spec_set (triple_cmp cmp) ops)) (bg_len g) /\
      streams (bg_quads_next g) (bg_ti g) (map (fun t => Quad (t_s t) (t_p t) (t_o t) None) ts) /\
      bg_quads_count g = Some (bg_len g) /\
    exists l m, bg_resources_iter g = Some l /\ bg_resource_count g = Some (length l) /\
      number (fun r => occurs triple_comps r (spec_set (triple_cmp cmp) ops)) m /\ length l <= m /\
      (known_history (triple_cmp cmp) triple_comps any_resource [] ops -> length l = m).
Proof. exact @bg_counts. Qed.
Print Assumptions c73_btree_graph_partial.

(** [resource_count] of the indexed containers counts the slots: the number of
    resources in use lies between what [resources] yields and what it returns. *)
Theorem c73_indexed_dataset_partial :
  forall R (cmp : R -> R -> comparison), ord_laws cmp ->
  forall keep ops0 ops xs d,
    id_reached cmp keep ops0 ops xs d ->
    let s := final_set cmp ops0 ops xs in
    id_quads_count d = Some (id_len d) /\ number (fun q => In q s) (id_len d) /\
    exists l m, id_resources_iter d = Some l /\
      number (fun r => occurs quad_comps r s) m /\ length l <= m <= id_resource_count d /\
      (known_log (quad_cmp cmp) quad_comps any_resource [] (full_log cmp ops0 ops xs) ->
       length l = m /\ id_resource_count d = m).
Proof. exact @id_counts. Qed.
Print Assumptions c73_indexed_dataset_partial.

Theorem c73_indexed_graph_partial :
  forall R (cmp : R -> R -> comparison), ord_laws cmp ->
  forall keep ops0 ops g,
    ig_reached cmp keep ops0 ops g ->
    let s := spec_set (triple_cmp cmp) (ops0 ++ ops) in
    exists ts, ig_iter g = Some ts /\
      ig_triples_count g = Some (ig_len g) /\ number (fun t => In t s) (ig_len g) /\
      streams (ig_quads_next g) (ig_ti g) (map (fun t => Quad (t_s t) (t_p t) (t_o t) None) ts) /\
      ig_quads_count g = Some (ig_len g) /\
    exists l m, ig_resources_iter g = Some l /\
      number (fun r => occurs triple_comps r s) m /\ length l <= m <= ig_resource_count g /\
      (known_log (triple_cmp cmp) triple_comps any_resource []
         (set_log (triple_cmp cmp) [] (ops0 ++ ops)) ->
       length l = m /\ ig_resource_count g = m).
Proof. exact @ig_counts. Qed.
Print Assumptions c73_indexed_graph_partial.

(** Histories with a removal and the counts after them. *)
Example c73_btree_example :
  let ops := [Insert (Quad 1 2 3 (Some 4)); Insert (Quad 1 2 5 None); Remove (Quad 1 2 3 (Some 4))] in
  forall keep,
    match run (bd_step Nat.compare keep) bd_new ops with
    | Some (_, d) => bd_quads_count d = Some 1 /\ bd_resource_count d = Some 3
    | None => False
    end.
Proof. intros ops []; vm_compute; split; reflexivity. Qed.
Example c73_indexed_example :
  let ops := [Insert (Triple 1 2 3); Insert (Triple 1 2 5); Remove (Triple 1 2 3)] in
  forall keep,
    match run (ig_step Nat.compare keep) ig_new ops with
    | Some (_, g) => ig_quads_count g = Some 1 /\ ig_resource_count g = 3 /\
        calls (ig_quads_next g) 2 (ig_ti g) = Some ([Some (Quad 1 2 5 None); None], [])
    | None => False
    end.
Proof. intros ops []; vm_compute; repeat split; reflexivity. Qed.

(** Too few: of the three resources of the only quad, two are counted. *)
Theorem c73_btree_dataset_resources_refuted :
  exists ops xs d, forall keep,
    run (bd_step Nat.compare keep) bd_new ops = Some (xs, d keep) /\
    number (fun r => occurs quad_comps r (spec_set (quad_cmp Nat.compare) ops)) 3 /\
    bd_resource_count (d keep) = Some 2.
Proof. exact bd_count_counterexample. Qed.
Print Assumptions c73_btree_dataset_resources_refuted.
Theorem c73_btree_graph_resources_refuted :
  exists ops xs g, forall keep,
    run (bg_step Nat.compare keep) bg_new ops = Some (xs, g keep) /\
    number (fun r => occurs triple_comps r (spec_set (triple_cmp Nat.compare) ops)) 3 /\
    bg_resource_count (g keep) = Some 2.
Proof. exact bg_count_counterexample. Qed.
Print Assumptions c73_btree_graph_resources_refuted.

(** Too many: the only quad has two resources, [resources] yields two, and three are
    counted. *)
Theorem c73_indexed_dataset_resources_refuted :
  exists ops xs d l, forall keep,
    id_reached Nat.compare keep [] ops xs (d keep) /\
    id_resources_iter (d keep) = Some l /\ length l = 2 /\
    number (fun r => occurs quad_comps r (final_set Nat.compare [] ops xs)) 2 /\
    id_resource_count (d keep) = 3.
Proof. exact id_count_counterexample. Qed.
Print Assumptions c73_indexed_dataset_resources_refuted.
Theorem c73_indexed_graph_resources_refuted :
  exists ops g l, forall keep,
    ig_reached Nat.compare keep [] ops (g keep) /\
    ig_resources_iter (g keep) = Some l /\ length l = 2 /\
    number (fun r => occurs triple_comps r (spec_set (triple_cmp Nat.compare) ops)) 2 /\
    ig_resource_count (g keep) = 3.
Proof. exact ig_count_counterexample. Qed.
Print Assumptions c73_indexed_graph_resources_refuted.
