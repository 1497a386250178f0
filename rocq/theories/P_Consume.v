(** C72: what happens when [Clone] panics in a consuming iterator or in a setter of
    a canonical triple pattern; and C57 for the iterators over the contents of the
    containers. *)
From Coq Require Import List Bool Arith.
Import ListNotations.
From Verif Require Import Base SlabModel TripleModel TriplePatternModel SetSpec ContainerSpec
  IndexedSpec Machine BaseProofs BTreeDatasetModel BTreeGraphModel IndexedDatasetModel
  IndexedGraphModel CrashModel IterSpec ShelfSpec ConsumeModel ConsumeSpec ConsumeProofs
  PollProofs.

(** ** Consuming iterators

    For any history and any numbers of clones made in the successive calls of [next]
    before one panics: the contents [l] of the container, in order, are gone through
    as [consumed] says (ConsumeSpec.v).  An interrupted call loses the element it was
    about to return and no other, elements are never returned twice, and no call
    panics by itself. *)

Theorem c72_btree_dataset_consumed :
  forall R (cmp : R -> R -> comparison), ord_laws cmp ->
  forall keep ops xs d,
    run (bd_step cmp keep) bd_new ops = Some (xs, d) ->
    exists l, increasing (quad_cmp cmp) l /\
      (forall x, In x l <-> In x (spec_set (quad_cmp cmp) ops)) /\
      forall budgets, exists s,
        m_run (fun _ : unit => m_bd_into_next) (bd_consume d) (map (pair tt) budgets) =
          Some (consumed quad_parts l budgets, s).
Proof. exact @bd_consumed. Qed.
Print Assumptions c72_btree_dataset_consumed.

Theorem c72_btree_graph_consumed :
  forall R (cmp : R -> R -> comparison), ord_laws cmp ->
  forall keep ops xs g,
    run (bg_step cmp keep) bg_new ops = Some (xs, g) ->
    exists l, increasing (triple_cmp cmp) l /\
      (forall x, In x l <-> In x (spec_set (triple_cmp cmp) ops)) /\
      forall budgets, exists s,
        m_run (fun _ : unit => m_bg_into_next) (bg_consume g) (map (pair tt) budgets) =
          Some (consumed triple_parts l budgets, s).
Proof. exact @bg_consumed. Qed.
Print Assumptions c72_btree_graph_consumed.

Theorem c72_indexed_dataset_consumed :
  forall R (cmp : R -> R -> comparison), ord_laws cmp ->
  forall keep ops0 ops xs d,
    id_reached cmp keep ops0 ops xs d ->
    exists l, increasing (quad_cmp cmp) l /\
      (forall x, In x l <-> In x (final_set cmp ops0 ops xs)) /\
      forall budgets, exists s,
        m_run (fun _ : unit => m_id_into_next) (id_consume d) (map (pair tt) budgets) =
          Some (consumed quad_parts l budgets, s).
Proof. exact @id_consumed. Qed.
Print Assumptions c72_indexed_dataset_consumed.

Theorem c72_indexed_graph_consumed :
  forall R (cmp : R -> R -> comparison), ord_laws cmp ->
  forall keep ops0 ops g,
    ig_reached cmp keep ops0 ops g ->
    exists l, increasing (triple_cmp cmp) l /\
      (forall x, In x l <-> In x (spec_set (triple_cmp cmp) (ops0 ++ ops))) /\
      forall budgets, exists s,
        m_run (fun _ : unit => m_ig_into_next) (ig_consume g) (map (pair tt) budgets) =
          Some (consumed triple_parts l budgets, s).
Proof. exact @ig_consumed. Qed.
Print Assumptions c72_indexed_graph_consumed.

(** Three quads; the first call panics at the third clone, the second has enough, the
    third panics at the clone of the graph name, the fourth is past the end. *)
Example c72_consumed_example : forall keep,
  let ops := [Insert (Quad 7 8 9 (Some 1)); Insert (Quad 1 2 3 None); Insert (Quad 4 5 6 None)] in
  exists xs d, run (bd_step Nat.compare keep) bd_new ops = Some (xs, d) /\
    option_map fst
      (m_run (fun _ : unit => m_bd_into_next) (bd_consume d) (map (pair tt) [2; 3; 3; 0])) =
      Some [None; Some (Some (Quad 4 5 6 None)); None; Some None].
Proof. intros keep; destruct keep; do 2 eexists; (split; [reflexivity|]); vm_compute; reflexivity. Qed.

(** In particular for a container left by an interrupted operation (C63, C64), whose
    elements are [l]: nothing is used of the history. *)

Theorem c72_any_btree_dataset_consumed :
  forall R (d : @bdataset R) l,
    bd_into_iter d = Some l -> forall budgets, exists s,
      m_run (fun _ : unit => m_bd_into_next) (bd_consume d) (map (pair tt) budgets) =
        Some (consumed quad_parts l budgets, s).
Proof. exact @bd_any_consumed. Qed.
Print Assumptions c72_any_btree_dataset_consumed.

Theorem c72_any_btree_graph_consumed :
  forall R (g : @bgraph R) l,
    bg_into_iter g = Some l -> forall budgets, exists s,
      m_run (fun _ : unit => m_bg_into_next) (bg_consume g) (map (pair tt) budgets) =
        Some (consumed triple_parts l budgets, s).
Proof. exact @bg_any_consumed. Qed.
Print Assumptions c72_any_btree_graph_consumed.

Theorem c72_any_indexed_dataset_consumed :
  forall R (d : @idataset R) l,
    id_into_iter d = Some l -> forall budgets, exists s,
      m_run (fun _ : unit => m_id_into_next) (id_consume d) (map (pair tt) budgets) =
        Some (consumed quad_parts l budgets, s).
Proof. exact @id_any_consumed. Qed.
Print Assumptions c72_any_indexed_dataset_consumed.

Theorem c72_any_indexed_graph_consumed :
  forall R (g : @igraph R) l,
    ig_into_iter g = Some l -> forall budgets, exists s,
      m_run (fun _ : unit => m_ig_into_next) (ig_consume g) (map (pair tt) budgets) =
        Some (consumed triple_parts l budgets, s).
Proof. exact @ig_any_consumed. Qed.
Print Assumptions c72_any_indexed_graph_consumed.

(** ** Setters

    A setter makes as many clones as there are resources to come out of it (in the new
    pattern and in the value returned) beyond those that went in, all of its argument:
    no resource is cloned without need and none is dropped.  If one of them panics the
    process is aborted; otherwise the pattern and the value are those of the setter
    (C41).  A pattern left half-written is thus never seen. *)

Theorem c72_set_subject :
  forall T (x : T) c log n,
    let (old, c') := ct_set_subject x c in
    exists k, k + 1 + resources_in c = resources_in c' + resources_in_s old /\
      m_set_subject x c (log, n) =
        if n <? k then Aborted else Written ((old, c'), (log ++ repeat x k, n - k)).
Proof. exact @set_subject_clones. Qed.
Print Assumptions c72_set_subject.

Theorem c72_set_predicate :
  forall T (x : T) c log n,
    let (old, c') := ct_set_predicate x c in
    exists k, k + 1 + resources_in c = resources_in c' + resources_in_p old /\
      m_set_predicate x c (log, n) =
        if n <? k then Aborted else Written ((old, c'), (log ++ repeat x k, n - k)).
Proof. exact @set_predicate_clones. Qed.
Print Assumptions c72_set_predicate.

Theorem c72_set_object :
  forall T (x : T) c log n,
    let (old, c') := ct_set_object x c in
    exists k, k + 1 + resources_in c = resources_in c' + resources_in_o old /\
      m_set_object x c (log, n) =
        if n <? k then Aborted else Written ((old, c'), (log ++ repeat x k, n - k)).
Proof. exact @set_object_clones. Qed.
Print Assumptions c72_set_object.

Theorem c72_any_subject_set_predicate :
  forall T (x : T) c log n,
    let (old, c') := tas_set_predicate x c in
    exists k, k + 1 + resources_in (CT_AnyS c) = resources_in (CT_AnyS c') + resources_in_p old /\
      m_tas_set_predicate x c (log, n) =
        if n <? k then Aborted else Written ((old, c'), (log ++ repeat x k, n - k)).
Proof. exact @any_subject_set_predicate_clones. Qed.
Print Assumptions c72_any_subject_set_predicate.

Theorem c72_any_subject_set_object :
  forall T (x : T) c log n,
    let (old, c') := tas_set_object x c in
    exists k, k + 1 + resources_in (CT_AnyS c) = resources_in (CT_AnyS c') + resources_in_o old /\
      m_tas_set_object x c (log, n) =
        if n <? k then Aborted else Written ((old, c'), (log ++ repeat x k, n - k)).
Proof. exact @any_subject_set_object_clones. Qed.
Print Assumptions c72_any_subject_set_object.

(** [?x ?x ?x] with the subject 7 takes two clones. *)
Example c72_set_subject_example :
  let c : ctp nat := CT_AnyS (TA_SameS TAG_SameS) in
  m_set_subject 7 c ([], 1) = Aborted /\
  m_set_subject 7 c ([], 5) = Written ((PS_Any, CT_GivenS 7 (TG_GivenP 7 (TGG_Given 7))), ([7; 7], 3)).
Proof. split; reflexivity. Qed.
Example c72_set_object_example :
  m_set_object 7 (CT_AnyS (TA_AnyP TAA_SameP)) ([], 0) = Aborted /\
  m_set_object 7 (CT_AnyS (TA_GivenP 1 (TAG_Given 2))) ([], 0) =
    Written ((PO_Given 2, CT_AnyS (TA_GivenP 1 (TAG_Given 7))), ([], 0)).
Proof. split; reflexivity. Qed.

(** ** C57: iterators over the contents

    [named_graphs] may panic (C30); when it does not, it too goes item by item and
    stays at its end. *)

Theorem c57_btree_dataset_iterators :
  forall R (cmp : R -> R -> comparison), ord_laws cmp ->
  forall keep ops xs d,
    run (bd_step cmp keep) bd_new ops = Some (xs, d) ->
    (exists l, bd_iter d = Some l /\ streams (bd_quads_next d) (bd_qi d) l) /\
    (exists l, bd_resources_iter d = Some l /\ streams (bd_resources_next d) (bd_ri d) l).
Proof. exact @bd_iter_streams. Qed.
Print Assumptions c57_btree_dataset_iterators.

Theorem c57_btree_graph_iterators :
  forall R (cmp : R -> R -> comparison), ord_laws cmp ->
  forall keep ops xs g,
    run (bg_step cmp keep) bg_new ops = Some (xs, g) ->
    (exists l, bg_iter g = Some l /\ streams (bg_triples_next g) (bg_ti g) l) /\
    (exists l, bg_resources_iter g = Some l /\ streams (bg_resources_next g) (bg_ri g) l).
Proof. exact @bg_iter_streams. Qed.
Print Assumptions c57_btree_graph_iterators.

Theorem c57_indexed_dataset_iterators :
  forall R (cmp : R -> R -> comparison), ord_laws cmp ->
  forall keep ops0 ops xs d,
    id_reached cmp keep ops0 ops xs d ->
    (exists l, id_iter d = Some l /\ streams (id_quads_next d) (id_qi d) l) /\
    (exists l, id_resources_iter d = Some l /\ streams (id_values_next d) (id_ri d) l) /\
    (exists l, id_subjects d = Some l /\ streams (id_values_next d) (id_s d) l) /\
    (exists l, id_predicates d = Some l /\ streams (id_values_next d) (id_p d) l) /\
    (exists l, id_objects d = Some l /\ streams (id_values_next d) (id_o d) l) /\
    (forall l, id_named_graphs d = Some l -> streams (id_values_next d) (id_ng d) l).
Proof. exact @id_iter_streams. Qed.
Print Assumptions c57_indexed_dataset_iterators.

Theorem c57_indexed_graph_iterators :
  forall R (cmp : R -> R -> comparison), ord_laws cmp ->
  forall keep ops0 ops g,
    ig_reached cmp keep ops0 ops g ->
    (exists l, ig_iter g = Some l /\ streams (ig_triples_next g) (ig_ti g) l) /\
    (exists l, ig_resources_iter g = Some l /\ streams (ig_values_next g) (ig_ri g) l) /\
    (exists l, ig_subjects g = Some l /\ streams (ig_values_next g) (ig_s g) l) /\
    (exists l, ig_predicates g = Some l /\ streams (ig_values_next g) (ig_p g) l) /\
    (exists l, ig_objects g = Some l /\ streams (ig_values_next g) (ig_o g) l).
Proof. exact @ig_iter_streams. Qed.
Print Assumptions c57_indexed_graph_iterators.

Example c57_iterators_example : forall keep,
  let ops := [Insert (Quad 4 5 6 None); Insert (Quad 1 2 3 None)] in
  exists xs d, run (bd_step Nat.compare keep) bd_new ops = Some (xs, d) /\
    option_map fst (calls (bd_quads_next d) 4 (bd_qi d)) =
      Some [Some (Quad 1 2 3 None); Some (Quad 4 5 6 None); None; None].
Proof. intros keep; destruct keep; do 2 eexists; (split; [reflexivity|]); vm_compute; reflexivity. Qed.

(** [named_graphs] called again after a panic, for any history.  The marks of the
    shelf (ShelfSpec.v) say which places are listed: a call about a vacant place
    panics, the next call is about the next marked place, and past the last one all
    calls return nothing.  The whole listing panics exactly when a call does. *)
Theorem c57_named_graphs_calls :
  forall R (cmp : R -> R -> comparison), ord_laws cmp ->
  forall keep ops0 ops xs d,
    id_reached cmp keep ops0 ops xs d ->
    let sh := shelf_after cmp keep ops0 ops xs in
    let l := glimpses (marked sh 3) (fst (seats sh)) in
    (forall n, polls (id_values_poll d) n (id_ng d) =
       map (fun k => match nth_error l k with Some e => option_map Some e | None => Some None end)
           (seq 0 n)) /\
    (id_named_graphs d = None <-> In None l) /\
    (forall n, calls (id_values_next d) n (id_ng d) = None <->
       In None (polls (id_values_poll d) n (id_ng d))) /\
    (forall n, In None (polls (id_values_poll d) n (id_ng d)) -> id_named_graphs d = None) /\
    (id_named_graphs d = None ->
       In None (polls (id_values_poll d) (id_named_graph_count d) (id_ng d))).
Proof. exact @named_graphs_polls. Qed.
Print Assumptions c57_named_graphs_calls.

(** The name 4 of a graph goes away while marked; the graph 9 is still there. *)
Example c57_named_graphs_calls_example : forall keep,
  let ops := [IOp (Insert (Quad 1 2 3 (Some 4))); IOp (Insert (Quad 4 2 3 None));
              IOp (Insert (Quad 1 2 3 (Some 9)));
              IOp (Remove (Quad 1 2 3 (Some 4))); IOp (Remove (Quad 4 2 3 None))] in
  exists xs d, id_reached Nat.compare keep [] ops xs d /\
    polls (id_values_poll d) 4 (id_ng d) = [None; Some (Some 9); Some None; Some None] /\
    id_named_graphs d = None.
Proof.
  intros keep; destruct keep; do 2 eexists;
    (split; [exists [], bd_new, id_new; split; [reflexivity|split; [reflexivity|vm_compute; reflexivity]]|]);
    split; vm_compute; reflexivity.
Qed.
