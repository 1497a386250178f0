(** Properties C26-C32, C49 and C50: [IndexedBTreeDataset].

    [cmp] is the order of the resources (any total order whose [Eq] is equality),
    [keep] the unspecified behaviour of the B-tree on equal items.
    [id_reached cmp keep ops0 ops xs d] says that [d] is obtained from a new
    [BTreeDataset] by the operations [ops0], the conversion to an indexed
    dataset, then the operations [ops], which returned [xs].  An indexed dataset
    that starts empty is the case [ops0 = []] (c26_new_is_reached).
    [final_set cmp ops0 ops xs] is the set of quads this history leaves,
    computed on a plain set (IndexedSpec.v).

    Two restrictions occur below, both on the changes [full_log] of a history:
    - [known_log ... W]: no inserted quad repeats a resource among [W] that is not
      yet in use; [W] is one resource ([eq r]), the resources of one quad that a
      pattern checks ([cq_checked]), or all ([any_resource]);
    - [vacancies ... = 0]: insertions have filled the slots of all removed quads. *)
From Coq Require Import List Bool Arith Sorted.
Import ListNotations.
From Verif Require Import Base SlabModel TripleModel TriplePatternModel QuadPatternModel
  PatternSpec SetSpec ContainerSpec IndexedSpec Machine BaseProofs BResourceModel
  BTreeDatasetModel BTreeGraphModel IResourceModel IndexedDatasetModel IndexedRunProofs.

(** The history used in the examples: a quad repeating a known resource, a
    removal, slot reuse, the removal of a graph and an extraction. *)
Definition ex_ops0 : list (op (quad nat)) :=
  [Insert (Quad 1 2 3 None); Insert (Quad 1 2 3 (Some 4)); Remove (Quad 1 2 3 None)].
Definition ex_ops : list (iop nat) :=
  [IOp (Insert (Quad 4 2 1 (Some 1))); IOp (Insert (Quad 1 2 5 None));
   IOp (Extend [Quad 7 8 9 None; Quad 7 8 3 (Some 6); Quad 7 8 9 None]);
   IRemoveGraph (Some 4); IOp Iter;
   IExtract (CQ_GivenS 7 (QG_AnyP (QGA_Any QGAA_Any))) 5 0; IRemoveGraph (Some 9);
   IOp (Insert (Quad 5 8 9 None)); IOp (Insert (Quad 5 8 2 (Some 1)));
   IOp (Insert (Quad 5 8 4 None)); IOp Len].
Definition ex_xs : list (iout nat) :=
  [IOut (OBool true); IOut (OBool true); IOut OUnit; IGraph (Some [Triple 1 2 3]);
   IOut (OList [Quad 1 2 5 None; Quad 4 2 1 (Some 1); Quad 7 8 3 (Some 6); Quad 7 8 9 None]);
   IQuads [Quad 7 8 9 None; Quad 7 8 3 (Some 6)]; IGraph None; IOut (OBool true);
   IOut (OBool true); IOut (OBool true); IOut (ONat 5)].

(** ** C26 *)

(** Every history runs to its end without panicking, every operation returning
    what a set of quads allows. *)
Theorem c26_indexed_dataset_is_a_set :
  forall R (cmp : R -> R -> comparison), ord_laws cmp ->
  forall keep ops0 ops,
    exists xs d, id_reached cmp keep ops0 ops xs d /\
      allowed_run cmp (spec_set (quad_cmp cmp) ops0) ops xs.
Proof. exact @id_total. Qed.
Print Assumptions c26_indexed_dataset_is_a_set.

(** Whatever history leads to a dataset, its observers agree with the set. *)
Theorem c26_contents :
  forall R (cmp : R -> R -> comparison), ord_laws cmp ->
  forall keep ops0 ops xs d,
    id_reached cmp keep ops0 ops xs d ->
    let s := final_set cmp ops0 ops xs in
    exists l, id_iter d = Some l /\ id_into_iter d = Some l /\
      increasing (quad_cmp cmp) l /\ (forall q, In q l <-> In q s) /\
      id_len d = length l /\ (id_is_empty d = true <-> l = []) /\
      (forall q, id_contains cmp d q = Some (mem (quad_cmp cmp) q l)).
Proof. exact @id_contents. Qed.
Print Assumptions c26_contents.

Theorem c26_new_is_reached : forall R, id_from_non_indexed (@bd_new R) = Some id_new.
Proof. exact @id_new_converted. Qed.
Print Assumptions c26_new_is_reached.

Example c26_ex : forall keep, exists d, id_reached Nat.compare keep ex_ops0 ex_ops ex_xs d.
Proof.
  intros keep; eexists; exists [OBool true; OBool true; OBool true]; eexists; eexists.
  destruct keep; vm_compute; repeat split.
Qed.

(** ** C27 *)

(** The conversion of any dataset succeeds and keeps its quads.  The histories
    of every theorem of this file start with it. *)
Theorem c27_conversion_preserves :
  forall R (cmp : R -> R -> comparison), ord_laws cmp ->
  forall keep ops xs b,
    run (bd_step cmp keep) bd_new ops = Some (xs, b) ->
    exists d l, id_from_non_indexed b = Some d /\ bd_iter b = Some l /\ id_iter d = Some l /\
      id_len d = bd_len b /\ (forall q, id_contains cmp d q = bd_contains cmp b q).
Proof. exact @id_converted. Qed.
Print Assumptions c27_conversion_preserves.

Example c27_ex : forall keep, exists xs b d,
  run (bd_step Nat.compare keep) bd_new ex_ops0 = Some (xs, b) /\ id_from_non_indexed b = Some d /\
  id_iter d = Some [Quad 1 2 3 (Some 4)].
Proof. intros keep; eexists; eexists; eexists; destruct keep; vm_compute; repeat split. Qed.

(** ** C28 *)

(** For all histories: every quad yielded is present, matches, and is yielded
    once. *)
Theorem c28_pattern_sound_partial :
  forall R (cmp : R -> R -> comparison), ord_laws cmp ->
  forall keep ops0 ops xs d spare c,
    id_reached cmp keep ops0 ops xs d ->
    exists l, id_pattern_matching cmp d spare c = Some l /\ NoDup l /\
      forall q, In q l -> In q (final_set cmp ops0 ops xs) /\ cq_matches c q.
Proof. exact @id_pattern_sound. Qed.
Print Assumptions c28_pattern_sound_partial.

(** When all slots are filled, or the subject is given: a matching quad is
    yielded as soon as no resource that the pattern checks in it (those in the
    positions that are not wildcards) was repeated while new.  Missing: the other
    histories, for which it is false (below). *)
Theorem c28_pattern_complete_partial :
  forall R (cmp : R -> R -> comparison), ord_laws cmp ->
  forall keep ops0 ops xs d spare c,
    id_reached cmp keep ops0 ops xs d ->
    subject_given c \/ vacancies 0 (full_log cmp ops0 ops xs) = 0 ->
    exists l, id_pattern_matching cmp d spare c = Some l /\ NoDup l /\
      (forall q, In q l -> In q (final_set cmp ops0 ops xs) /\ cq_matches c q) /\
      (forall q, In q (final_set cmp ops0 ops xs) -> cq_matches c q ->
         known_log (quad_cmp cmp) quad_comps (fun r => In r (cq_checked c q)) []
           (full_log cmp ops0 ops xs) ->
         In q l).
Proof. exact @id_pattern_complete. Qed.
Print Assumptions c28_pattern_complete_partial.

(** In particular a pattern that checks nothing yields everything when all slots
    are filled, whatever was repeated. *)
Theorem c28_pattern_all_partial :
  forall R (cmp : R -> R -> comparison), ord_laws cmp ->
  forall keep ops0 ops xs d spare c,
    id_reached cmp keep ops0 ops xs d ->
    vacancies 0 (full_log cmp ops0 ops xs) = 0 ->
    (forall q : quad R, cq_matches c q) -> (forall q : quad R, cq_checked c q = []) ->
    exists l, id_pattern_matching cmp d spare c = Some l /\ NoDup l /\
      forall q, In q l <-> In q (final_set cmp ops0 ops xs).
Proof. exact @id_pattern_all. Qed.
Print Assumptions c28_pattern_all_partial.

(** A history whose first insertion repeats a new resource (1), a slot reused. *)
Definition ex_repeat : list (iop nat) :=
  [IOp (Insert (Quad 1 1 2 None)); IOp (Insert (Quad 3 2 4 (Some 5)));
   IOp (Insert (Quad 2 2 5 None)); IOp (Remove (Quad 3 2 4 (Some 5)));
   IOp (Insert (Quad 6 2 7 (Some 5)))].
Definition ex_repeat_xs : list (iout nat) :=
  [IOut (OBool true); IOut (OBool true); IOut (OBool true); IOut (OBool true); IOut (OBool true)].
Definition ex_repeat_c : cqp nat := CQ_AnyS (QA_GivenP 2 (QAG_Any (QAGA_Given (Some 5)))).
Example c28_complete_ex :
  let q := Quad 6 2 7 (Some 5) in
  (forall keep, id_reached Nat.compare keep [] ex_repeat ex_repeat_xs (after ex_repeat keep)) /\
  vacancies 0 (full_log Nat.compare [] ex_repeat ex_repeat_xs) = 0 /\
  cq_checked ex_repeat_c q = [2; 5] /\
  known_log (quad_cmp Nat.compare) quad_comps (fun r => In r (cq_checked ex_repeat_c q)) []
    (full_log Nat.compare [] ex_repeat ex_repeat_xs) /\
  (forall keep, id_pattern_matching Nat.compare (after ex_repeat keep) 0 ex_repeat_c = Some [q]).
Proof.
  cbn zeta; split; [intros keep; reach|]; split; [vm_compute; reflexivity|]; split; [reflexivity|].
  split; [known_in [2; 5]|intros keep; destruct keep; vm_compute; reflexivity].
Qed.
Example c28_all_ex : forall keep,
  id_pattern_matching Nat.compare (after ex_repeat keep) 0 (CQ_AnyS (QA_AnyP (QAA_Any QAAA_Any))) =
  Some [Quad 1 1 2 None; Quad 6 2 7 (Some 5); Quad 2 2 5 None].
Proof. intros keep; destruct keep; vm_compute; reflexivity. Qed.

(** If no new resource was repeated at all, the answer is exact. *)
Theorem c28_pattern_exact_partial :
  forall R (cmp : R -> R -> comparison), ord_laws cmp ->
  forall keep ops0 ops xs d spare c,
    id_reached cmp keep ops0 ops xs d ->
    known_log (quad_cmp cmp) quad_comps any_resource [] (full_log cmp ops0 ops xs) ->
    subject_given c \/ vacancies 0 (full_log cmp ops0 ops xs) = 0 ->
    exists l, id_pattern_matching cmp d spare c = Some l /\ NoDup l /\
      forall q, In q l <-> In q (final_set cmp ops0 ops xs) /\ cq_matches c q.
Proof. exact @id_pattern_exact. Qed.
Print Assumptions c28_pattern_exact_partial.

Example c28_ex :
  known_log (quad_cmp Nat.compare) quad_comps any_resource [] (full_log Nat.compare ex_ops0 ex_ops ex_xs) /\
  vacancies 0 (full_log Nat.compare ex_ops0 ex_ops ex_xs) = 0 /\
  subject_given (CQ_GivenS 5 (QG_AnyP (QGA_SameP QGAG_Any))).
Proof. split; [known|]; split; [vm_compute; reflexivity|exact I]. Qed.

(** [?x ?x ?o] misses the quad that was just inserted. *)
Theorem c28_repeated_resource_refuted :
  exists ops xs d c q, forall keep,
    id_reached Nat.compare keep [] ops xs (d keep) /\
    In q (final_set Nat.compare [] ops xs) /\ cq_matches c q /\
    forall spare, exists l, id_pattern_matching Nat.compare (d keep) spare c = Some l /\ ~ In q l.
Proof. exact id_pattern_counterexample_repeat. Qed.
Print Assumptions c28_repeated_resource_refuted.

(** [?s ?p ?o ?g] misses quads after a removal. *)
Theorem c28_after_removal_refuted :
  exists ops xs d c q, forall keep,
    id_reached Nat.compare keep [] ops xs (d keep) /\
    known_log (quad_cmp Nat.compare) quad_comps any_resource [] (full_log Nat.compare [] ops xs) /\
    In q (final_set Nat.compare [] ops xs) /\ cq_matches c q /\
    forall spare, exists l, id_pattern_matching Nat.compare (d keep) spare c = Some l /\ ~ In q l.
Proof. exact id_pattern_counterexample_hole. Qed.
Print Assumptions c28_after_removal_refuted.

(** ** C29 *)

(** For all histories: everything reported occurs, and counts agree. *)
Theorem c29_positions_sound_partial :
  forall R (cmp : R -> R -> comparison), ord_laws cmp ->
  forall keep ops0 ops xs d,
    id_reached cmp keep ops0 ops xs d ->
    let s := final_set cmp ops0 ops xs in
    (exists v, id_subjects d = Some v /\ id_subject_count d = length v /\
       forall r, In r v -> exists q, In q s /\ q_s q = r) /\
    (exists v, id_predicates d = Some v /\ id_predicate_count d = length v /\
       forall r, In r v -> exists q, In q s /\ q_p q = r) /\
    (exists v, id_objects d = Some v /\ id_object_count d = length v /\
       forall r, In r v -> exists q, In q s /\ q_o q = r).
Proof. exact @id_positions_sound. Qed.
Print Assumptions c29_positions_sound_partial.

(** For each resource never repeated while new: reported at most once, and exactly
    when the last change since the conversion to a quad with that resource in that
    position was not a removal. *)
Theorem c29_positions_each_partial :
  forall R (cmp : R -> R -> comparison), ord_laws cmp ->
  forall keep ops0 ops xs d,
    id_reached cmp keep ops0 ops xs d ->
    let s := final_set cmp ops0 ops xs in
    let l := late_log cmp ops0 ops xs in
    exists vs vp vo, id_subjects d = Some vs /\ id_predicates d = Some vp /\ id_objects d = Some vo /\
      forall r, known_log (quad_cmp cmp) quad_comps (eq r) [] (full_log cmp ops0 ops xs) ->
        once r vs /\ (In r vs <-> stable cmp q_s s l r) /\
        once r vp /\ (In r vp <-> stable cmp q_p s l r) /\
        once r vo /\ (In r vo <-> stable cmp q_o s l r).
Proof. exact @id_positions_each. Qed.
Print Assumptions c29_positions_each_partial.

(** If moreover no quad with that resource in that position was removed while
    another one had it, the report is exact for this resource. *)
Theorem c29_positions_at_partial :
  forall R (cmp : R -> R -> comparison), ord_laws cmp ->
  forall keep ops0 ops xs d,
    id_reached cmp keep ops0 ops xs d ->
    let s := final_set cmp ops0 ops xs in
    let s0 := spec_set (quad_cmp cmp) ops0 in
    let l := late_log cmp ops0 ops xs in
    exists vs vp vo, id_subjects d = Some vs /\ id_predicates d = Some vp /\ id_objects d = Some vo /\
      forall r, known_log (quad_cmp cmp) quad_comps (eq r) [] (full_log cmp ops0 ops xs) ->
        (lonely_at (quad_cmp cmp) q_s r s0 l -> (In r vs <-> exists q, In q s /\ q_s q = r)) /\
        (lonely_at (quad_cmp cmp) q_p r s0 l -> (In r vp <-> exists q, In q s /\ q_p q = r)) /\
        (lonely_at (quad_cmp cmp) q_o r s0 l -> (In r vo <-> exists q, In q s /\ q_o q = r)).
Proof. exact @id_positions_at. Qed.
Print Assumptions c29_positions_at_partial.

(** In the history of c28_complete_ex, whose predicate 2 is lost: subject 6, and
    object 5 in spite of the removal. *)
Example c29_at_ex :
  let l := late_log Nat.compare [] ex_repeat ex_repeat_xs in
  known_log (quad_cmp Nat.compare) quad_comps (eq 6) [] (full_log Nat.compare [] ex_repeat ex_repeat_xs) /\
  lonely_at (quad_cmp Nat.compare) q_s 6 [] l /\ lonely_at (quad_cmp Nat.compare) q_o 5 [] l /\
  ~ lonely (quad_cmp Nat.compare) q_p [] l.
Proof.
  cbn zeta; split; [known_in [6]|]; vm_compute; repeat split; try discriminate.
  intros (_ & _ & _ & H & _); exact (H _ (or_introl eq_refl) eq_refl) || exact (H _ (or_intror (or_introl eq_refl)) eq_refl).
Qed.

(** Without repeated new resources: reported once each, and exactly those
    such that the last change since the conversion to a quad with that resource
    in that position was not a removal. *)
Theorem c29_positions_stable_partial :
  forall R (cmp : R -> R -> comparison), ord_laws cmp ->
  forall keep ops0 ops xs d,
    id_reached cmp keep ops0 ops xs d ->
    known_log (quad_cmp cmp) quad_comps any_resource [] (full_log cmp ops0 ops xs) ->
    let s := final_set cmp ops0 ops xs in
    let l := late_log cmp ops0 ops xs in
    (exists v, id_subjects d = Some v /\ NoDup v /\ forall r, In r v <-> stable cmp q_s s l r) /\
    (exists v, id_predicates d = Some v /\ NoDup v /\ forall r, In r v <-> stable cmp q_p s l r) /\
    (exists v, id_objects d = Some v /\ NoDup v /\ forall r, In r v <-> stable cmp q_o s l r).
Proof. exact @id_positions_stable. Qed.
Print Assumptions c29_positions_stable_partial.

(** If moreover quads are only removed when no other quad has the same subject
    (predicate, object), what is reported is exact. *)
Theorem c29_positions_exact_partial :
  forall R (cmp : R -> R -> comparison), ord_laws cmp ->
  forall keep ops0 ops xs d,
    id_reached cmp keep ops0 ops xs d ->
    known_log (quad_cmp cmp) quad_comps any_resource [] (full_log cmp ops0 ops xs) ->
    let s := final_set cmp ops0 ops xs in
    let l := late_log cmp ops0 ops xs in
    (lonely (quad_cmp cmp) q_s (spec_set (quad_cmp cmp) ops0) l ->
     exists v, id_subjects d = Some v /\ NoDup v /\
       forall r, In r v <-> exists q, In q s /\ q_s q = r) /\
    (lonely (quad_cmp cmp) q_p (spec_set (quad_cmp cmp) ops0) l ->
     exists v, id_predicates d = Some v /\ NoDup v /\
       forall r, In r v <-> exists q, In q s /\ q_p q = r) /\
    (lonely (quad_cmp cmp) q_o (spec_set (quad_cmp cmp) ops0) l ->
     exists v, id_objects d = Some v /\ NoDup v /\
       forall r, In r v <-> exists q, In q s /\ q_o q = r).
Proof. exact @id_positions_exact. Qed.
Print Assumptions c29_positions_exact_partial.

(** For all histories in which the iteration does not panic: every name of a
    graph in use is reported. *)
Theorem c29_named_graphs_complete_partial :
  forall R (cmp : R -> R -> comparison), ord_laws cmp ->
  forall keep ops0 ops xs d,
    id_reached cmp keep ops0 ops xs d ->
    forall v, id_named_graphs d = Some v ->
      id_named_graph_count d = length v /\
      forall g q, In q (final_set cmp ops0 ops xs) -> q_g q = Some g -> In g v.
Proof. exact @id_named_complete. Qed.
Print Assumptions c29_named_graphs_complete_partial.

(** Without repeated new resources, if no graph name occurs in another position
    when the last quad of the graph is removed: exactly the names in use. *)
Theorem c29_named_graphs_exact_partial :
  forall R (cmp : R -> R -> comparison), ord_laws cmp ->
  forall keep ops0 ops xs d,
    id_reached cmp keep ops0 ops xs d ->
    known_log (quad_cmp cmp) quad_comps any_resource [] (full_log cmp ops0 ops xs) ->
    tidy cmp (spec_set (quad_cmp cmp) ops0) (late_log cmp ops0 ops xs) ->
    exists v, id_named_graphs d = Some v /\ id_named_graph_count d = length v /\ NoDup v /\
      forall g, In g v <-> exists q, In q (final_set cmp ops0 ops xs) /\ q_g q = Some g.
Proof. exact @id_named_exact. Qed.
Print Assumptions c29_named_graphs_exact_partial.

(** The resources of an indexed dataset. *)
Theorem c29_resources_partial :
  forall R (cmp : R -> R -> comparison), ord_laws cmp ->
  forall keep ops0 ops xs d,
    id_reached cmp keep ops0 ops xs d ->
    exists l, id_resources_iter d = Some l /\ increasing cmp l /\
      (forall r, id_contains_resource cmp d r = Some (mem cmp r l)) /\
      (forall r, In r l -> occurs quad_comps r (final_set cmp ops0 ops xs)) /\
      (forall r, known_log (quad_cmp cmp) quad_comps (eq r) [] (full_log cmp ops0 ops xs) ->
         (In r l <-> occurs quad_comps r (final_set cmp ops0 ops xs))) /\
      (known_log (quad_cmp cmp) quad_comps any_resource [] (full_log cmp ops0 ops xs) ->
       id_resource_count d = length l).
Proof. exact @id_resources_used. Qed.
Print Assumptions c29_resources_partial.

(** A history with removals that meets all the hypotheses. *)
Definition ex_lonely : list (iop nat) :=
  [IOp (Insert (Quad 1 2 3 (Some 4))); IOp (Insert (Quad 5 6 7 (Some 4)));
   IOp (Insert (Quad 1 8 9 None)); IOp (Remove (Quad 5 6 7 (Some 4)))].
Example c29_ex :
  let xs := [IOut (OBool true); IOut (OBool true); IOut (OBool true); IOut (OBool true)] in
  (forall keep, id_reached Nat.compare keep [] ex_lonely xs (after ex_lonely keep)) /\
  known_log (quad_cmp Nat.compare) quad_comps any_resource [] (full_log Nat.compare [] ex_lonely xs) /\
  lonely (quad_cmp Nat.compare) q_s [] (late_log Nat.compare [] ex_lonely xs) /\
  tidy Nat.compare [] (late_log Nat.compare [] ex_lonely xs).
Proof.
  cbn zeta; split; [intros keep; reach|]; split; [known|]; split.
  - vm_compute; repeat split; intros y [<-|[<-|[]]]; discriminate.
  - vm_compute; repeat split; left; eexists; split; [right; left; reflexivity|reflexivity].
Qed.

(** A subject and a predicate in use are not reported, nor an object. *)
Theorem c29_subjects_predicates_refuted :
  exists ops xs d q, forall keep,
    id_reached Nat.compare keep [] ops xs (d keep) /\
    known_log (quad_cmp Nat.compare) quad_comps any_resource [] (full_log Nat.compare [] ops xs) /\
    In q (final_set Nat.compare [] ops xs) /\
    id_subjects (d keep) = Some [] /\ id_predicates (d keep) = Some [].
Proof. exact id_positions_counterexample. Qed.
Print Assumptions c29_subjects_predicates_refuted.

Theorem c29_objects_refuted :
  exists ops xs d q, forall keep,
    id_reached Nat.compare keep [] ops xs (d keep) /\
    known_log (quad_cmp Nat.compare) quad_comps any_resource [] (full_log Nat.compare [] ops xs) /\
    In q (final_set Nat.compare [] ops xs) /\ id_objects (d keep) = Some [].
Proof. exact id_objects_counterexample. Qed.
Print Assumptions c29_objects_refuted.

(** A named graph without quads is reported. *)
Theorem c29_named_graphs_refuted :
  exists ops xs d g, forall keep,
    id_reached Nat.compare keep [] ops xs (d keep) /\
    known_log (quad_cmp Nat.compare) quad_comps any_resource [] (full_log Nat.compare [] ops xs) /\
    (forall q, In q (final_set Nat.compare [] ops xs) -> q_g q <> Some g) /\
    id_named_graphs (d keep) = Some [g].
Proof. exact id_named_counterexample. Qed.
Print Assumptions c29_named_graphs_refuted.

(** A resource that was never the name of a graph is reported as one. *)
Theorem c29_phantom_graph_refuted :
  exists ops xs d r, forall keep,
    id_reached Nat.compare keep [] ops xs (d keep) /\
    known_log (quad_cmp Nat.compare) quad_comps any_resource [] (full_log Nat.compare [] ops xs) /\
    (forall q, In q (map snd (full_log Nat.compare [] ops xs)) -> q_g q <> Some r) /\
    id_named_graphs (d keep) = Some [r].
Proof. exact id_phantom_counterexample. Qed.
Print Assumptions c29_phantom_graph_refuted.

(** A subject or a predicate is reported twice. *)
Theorem c29_once_refuted :
  exists ops xs d v w, forall keep,
    id_reached Nat.compare keep [] ops xs (d keep) /\
    id_subjects (d keep) = Some (v keep) /\ id_predicates (d keep) = Some (w keep) /\
    ~ (NoDup (v keep) /\ NoDup (w keep)).
Proof. exact id_duplicate_counterexample. Qed.
Print Assumptions c29_once_refuted.

(** ** C30 *)

(** For all histories, only [named_graphs] may panic.  It does not under the
    conditions of c29_named_graphs_exact_partial. *)
Theorem c30_no_panic_partial :
  forall R (cmp : R -> R -> comparison), ord_laws cmp ->
  forall keep ops0 ops xs d,
    id_reached cmp keep ops0 ops xs d ->
    id_iter d <> None /\ id_into_iter d <> None /\ id_resources_iter d <> None /\
    id_subjects d <> None /\ id_predicates d <> None /\ id_objects d <> None /\
    (forall spare c, id_pattern_matching cmp d spare c <> None) /\
    (forall spare c, id_multi_pattern_matching cmp d spare c <> None) /\
    (forall spare c n, id_extract cmp d spare c n <> None) /\
    (forall g, id_remove_graph cmp keep d g <> None).
Proof. exact @id_no_panic. Qed.
Print Assumptions c30_no_panic_partial.

Theorem c30_named_graphs_panic_refuted :
  exists ops xs d, forall keep,
    id_reached Nat.compare keep [] ops xs (d keep) /\
    known_log (quad_cmp Nat.compare) quad_comps any_resource [] (full_log Nat.compare [] ops xs) /\
    id_named_graphs (d keep) = None.
Proof. exact id_panic_counterexample. Qed.
Print Assumptions c30_named_graphs_panic_refuted.

(** ** C31 *)

(** For all histories: what is returned was in the graph, and is what is
    removed.  For the default graph, and for the graphs whose name was never
    repeated while new: all of the graph is removed and returned, and [None] means
    there was none.  Missing: the other graphs, for which it is false. *)
Theorem c31_remove_graph_partial :
  forall R (cmp : R -> R -> comparison), ord_laws cmp ->
  forall keep ops0 ops xs d g,
    id_reached cmp keep ops0 ops xs d ->
    let s := final_set cmp ops0 ops xs in
    exists r d' l', id_remove_graph cmp keep d g = Some (r, d') /\ id_iter d' = Some l' /\
      match r with
      | None => forall q, In q l' <-> In q s
      | Some b => exists ts, bg_iter b = Some ts /\ increasing (triple_cmp cmp) ts /\
          (forall t, In t ts -> In (Quad (t_s t) (t_p t) (t_o t) g) s) /\
          (forall q, In q l' <->
             In q s /\ ~ (q_g q = g /\ In (Triple (q_s q) (q_p q) (q_o q)) ts))
      end /\
      ((forall r, g = Some r ->
          known_log (quad_cmp cmp) quad_comps (eq r) [] (full_log cmp ops0 ops xs)) ->
       (forall q, In q l' <-> In q s /\ q_g q <> g) /\
       match r with
       | None => forall q, In q s -> q_g q <> g
       | Some b => exists ts, bg_iter b = Some ts /\
           forall t, In t ts <-> In (Quad (t_s t) (t_p t) (t_o t) g) s
       end).
Proof. exact @id_remove_graph_each. Qed.
Print Assumptions c31_remove_graph_partial.

(** The graph returned behaves as a set of triples from then on. *)
Theorem c31_returned_graph_is_a_set :
  forall R (cmp : R -> R -> comparison), ord_laws cmp ->
  forall keep ops0 ops xs d g b d',
    id_reached cmp keep ops0 ops xs d -> id_remove_graph cmp keep d g = Some (Some b, d') ->
    exists ts, bg_iter b = Some ts /\
      forall ops', exists b' l,
        run (bg_step cmp keep) b ops' = Some (fst (spec_run (triple_cmp cmp) ts ops'), b') /\
        bg_iter b' = Some l /\ increasing (triple_cmp cmp) l /\
        forall t, In t l <-> In t (snd (spec_run (triple_cmp cmp) ts ops')).
Proof. exact @id_removed_graph_usable. Qed.
Print Assumptions c31_returned_graph_is_a_set.

Example c31_ex : forall keep, exists d b d',
  id_reached Nat.compare keep ex_ops0 ex_ops ex_xs d /\
  id_remove_graph Nat.compare keep d (Some 1) = Some (Some b, d') /\
  bg_iter b = Some [Triple 4 2 1; Triple 5 8 2] /\
  id_iter d' = Some [Quad 1 2 5 None; Quad 5 8 4 None; Quad 5 8 9 None].
Proof.
  intros keep; do 3 eexists; split.
  - exists [OBool true; OBool true; OBool true]; do 2 eexists.
    destruct keep; vm_compute; repeat split.
  - destruct keep; vm_compute; repeat split.
Qed.

(** A quad of the graph is present and nothing is removed. *)
Theorem c31_remove_graph_refuted :
  exists ops xs d g q, forall keep,
    id_reached Nat.compare keep [] ops xs (d keep) /\
    In q (final_set Nat.compare [] ops xs) /\ q_g q = g /\
    id_remove_graph Nat.compare keep (d keep) g = Some (None, d keep).
Proof. exact id_remove_graph_counterexample. Qed.
Print Assumptions c31_remove_graph_refuted.

(** ** C32 *)

(** For all histories, after taking [n] items of an extraction: they are the
    first [n] that pattern matching yields, and are what is removed. *)
Theorem c32_extract_removes_what_it_yields_partial :
  forall R (cmp : R -> R -> comparison), ord_laws cmp ->
  forall keep ops0 ops xs d spare c n,
    id_reached cmp keep ops0 ops xs d ->
    let s := final_set cmp ops0 ops xs in
    exists all d' l', id_pattern_matching cmp d spare c = Some all /\
      id_extract cmp d spare c n = Some (firstn n all, d') /\ id_iter d' = Some l' /\
      (forall q, In q (firstn n all) -> In q s /\ cq_matches c q) /\
      (forall q, In q l' <-> In q s /\ ~ In q (firstn n all)).
Proof. exact @id_extract_any. Qed.
Print Assumptions c32_extract_removes_what_it_yields_partial.

(** Under the conditions of c28_pattern_complete_partial a full extraction takes
    the quads that match and whose checked resources were never repeated while
    new. *)
Theorem c32_extract_complete_partial :
  forall R (cmp : R -> R -> comparison), ord_laws cmp ->
  forall keep ops0 ops xs d spare c n,
    id_reached cmp keep ops0 ops xs d ->
    subject_given c \/ vacancies 0 (full_log cmp ops0 ops xs) = 0 ->
    let s := final_set cmp ops0 ops xs in
    length s <= n ->
    exists l d' l', id_extract cmp d spare c n = Some (l, d') /\ id_iter d' = Some l' /\ NoDup l /\
      (forall q, In q l -> In q s /\ cq_matches c q) /\
      (forall q, In q l' <-> In q s /\ ~ In q l) /\
      (forall q, In q s -> cq_matches c q ->
         known_log (quad_cmp cmp) quad_comps (fun r => In r (cq_checked c q)) []
           (full_log cmp ops0 ops xs) ->
         In q l).
Proof. exact @id_extract_complete. Qed.
Print Assumptions c32_extract_complete_partial.

(** Under the conditions of c28_pattern_exact_partial a full extraction takes
    exactly the matching quads. *)
Theorem c32_extract_exact_partial :
  forall R (cmp : R -> R -> comparison), ord_laws cmp ->
  forall keep ops0 ops xs d spare c n,
    id_reached cmp keep ops0 ops xs d ->
    known_log (quad_cmp cmp) quad_comps any_resource [] (full_log cmp ops0 ops xs) ->
    subject_given c \/ vacancies 0 (full_log cmp ops0 ops xs) = 0 ->
    let s := final_set cmp ops0 ops xs in
    length s <= n ->
    exists l d' l', id_extract cmp d spare c n = Some (l, d') /\ id_iter d' = Some l' /\ NoDup l /\
      (forall q, In q l <-> In q s /\ cq_matches c q) /\
      (forall q, In q l' <-> In q s /\ ~ cq_matches c q).
Proof. exact @id_extract_exact. Qed.
Print Assumptions c32_extract_exact_partial.

(** After a removal, an extraction of everything takes nothing. *)
Theorem c32_extract_refuted :
  exists ops xs d c q, forall keep,
    id_reached Nat.compare keep [] ops xs (d keep) /\
    known_log (quad_cmp Nat.compare) quad_comps any_resource [] (full_log Nat.compare [] ops xs) /\
    In q (final_set Nat.compare [] ops xs) /\ cq_matches c q /\
    forall spare n, id_extract Nat.compare (d keep) spare c n = Some ([], d keep).
Proof. exact id_extract_counterexample. Qed.
Print Assumptions c32_extract_refuted.

(** ** C49 *)
Theorem c49_multi_pattern_sound_partial :
  forall R (cmp : R -> R -> comparison), ord_laws cmp ->
  forall keep ops0 ops xs d spare c,
    id_reached cmp keep ops0 ops xs d ->
    exists l, id_multi_pattern_matching cmp d spare c = Some l /\ NoDup l /\
      forall q, In q l ->
        In q (final_set cmp ops0 ops xs) /\ exists e, choice c e /\ cq_matches e q.
Proof. exact @id_multi_sound. Qed.
Print Assumptions c49_multi_pattern_sound_partial.

(** As c28_pattern_complete_partial. *)
Theorem c49_multi_pattern_complete_partial :
  forall R (cmp : R -> R -> comparison), ord_laws cmp ->
  forall keep ops0 ops xs d spare c,
    id_reached cmp keep ops0 ops xs d ->
    subject_given c \/ vacancies 0 (full_log cmp ops0 ops xs) = 0 ->
    exists l, id_multi_pattern_matching cmp d spare c = Some l /\ NoDup l /\
      (forall q, In q l ->
         In q (final_set cmp ops0 ops xs) /\ exists e, choice c e /\ cq_matches e q) /\
      (forall q e, In q (final_set cmp ops0 ops xs) -> choice c e -> cq_matches e q ->
         known_log (quad_cmp cmp) quad_comps (fun r => In r (cq_checked c q)) []
           (full_log cmp ops0 ops xs) ->
         In q l).
Proof. exact @id_multi_complete. Qed.
Print Assumptions c49_multi_pattern_complete_partial.

Theorem c49_multi_pattern_exact_partial :
  forall R (cmp : R -> R -> comparison), ord_laws cmp ->
  forall keep ops0 ops xs d spare c,
    id_reached cmp keep ops0 ops xs d ->
    known_log (quad_cmp cmp) quad_comps any_resource [] (full_log cmp ops0 ops xs) ->
    subject_given c \/ vacancies 0 (full_log cmp ops0 ops xs) = 0 ->
    exists l, id_multi_pattern_matching cmp d spare c = Some l /\ NoDup l /\
      forall q, In q l <->
        In q (final_set cmp ops0 ops xs) /\ exists e, choice c e /\ cq_matches e q.
Proof. exact @id_multi_exact. Qed.
Print Assumptions c49_multi_pattern_exact_partial.

Example c49_ex : forall keep, exists d,
  id_reached Nat.compare keep ex_ops0 ex_ops ex_xs d /\
  id_multi_pattern_matching Nat.compare d 0
    (CQ_GivenS [1; 4; 6] (QG_AnyP (QGA_Given [1; 5; 9] QGAG_Any))) =
  Some [Quad 4 2 1 (Some 1); Quad 1 2 5 None].
Proof.
  intros keep; eexists; split.
  - exists [OBool true; OBool true; OBool true]; do 2 eexists.
    destruct keep; vm_compute; repeat split.
  - destruct keep; vm_compute; repeat split.
Qed.

Theorem c49_multi_pattern_refuted :
  exists ops xs d c e q, forall keep,
    id_reached Nat.compare keep [] ops xs (d keep) /\
    known_log (quad_cmp Nat.compare) quad_comps any_resource [] (full_log Nat.compare [] ops xs) /\
    In q (final_set Nat.compare [] ops xs) /\ choice c e /\ cq_matches e q /\
    forall spare, id_multi_pattern_matching Nat.compare (d keep) spare c = Some [].
Proof. exact id_multi_counterexample. Qed.
Print Assumptions c49_multi_pattern_refuted.

(** ** C50 *)

(** Equality, order and hash depend on the contents only. *)
Theorem c50_equality_by_contents :
  forall R (cmp : R -> R -> comparison), ord_laws cmp ->
  forall keep (eqb : R -> R -> bool) ops01 ops1 xs1 d1 ops02 ops2 xs2 d2,
    (forall x y, eqb x y = true <-> x = y) ->
    id_reached cmp keep ops01 ops1 xs1 d1 -> id_reached cmp keep ops02 ops2 xs2 d2 ->
    exists b h1 h2, id_eqb eqb d1 d2 = Some b /\
      id_hash_input d1 = Some h1 /\ id_hash_input d2 = Some h2 /\
      (b = true <->
         forall q, In q (final_set cmp ops01 ops1 xs1) <-> In q (final_set cmp ops02 ops2 xs2)) /\
      (b = true <-> id_cmp cmp d1 d2 = Some Eq) /\
      (b = true <-> h1 = h2).
Proof. exact @id_equality. Qed.
Print Assumptions c50_equality_by_contents.

Theorem c50_lexicographic_total_order :
  forall R (cmp : R -> R -> comparison), ord_laws cmp ->
  forall keep ops01 ops1 xs1 d1 ops02 ops2 xs2 d2,
    id_reached cmp keep ops01 ops1 xs1 d1 -> id_reached cmp keep ops02 ops2 xs2 d2 ->
    exists l1 l2, id_iter d1 = Some l1 /\ id_iter d2 = Some l2 /\
      id_cmp cmp d1 d2 = Some (list_cmp (quad_cmp cmp) l1 l2) /\
      ord_laws (list_cmp (quad_cmp cmp)).
Proof. exact @id_ordering. Qed.
Print Assumptions c50_lexicographic_total_order.

(** Collecting a sequence keeps exactly its quads. *)
Theorem c50_collect :
  forall R (cmp : R -> R -> comparison), ord_laws cmp ->
  forall keep l,
    exists d, id_from_iter cmp keep l = Some d /\
      exists m, id_iter d = Some m /\ increasing (quad_cmp cmp) m /\ forall q, In q m <-> In q l.
Proof. exact @id_collect. Qed.
Print Assumptions c50_collect.

(** What is serialised is announced correctly and gives back an equal dataset. *)
Theorem c50_rebuild :
  forall R (cmp : R -> R -> comparison), ord_laws cmp ->
  forall keep (eqb : R -> R -> bool) ops0 ops xs d,
    (forall x y, eqb x y = true <-> x = y) ->
    id_reached cmp keep ops0 ops xs d ->
    exists l d', id_iter d = Some l /\ id_serialize d = Some (length l, l) /\
      id_from_iter cmp keep l = Some d' /\ id_eqb eqb d d' = Some true.
Proof. exact @id_rebuild. Qed.
Print Assumptions c50_rebuild.

Example c50_ex :
  id_eqb Nat.eqb (after [IOp (Insert (Quad 1 2 3 None)); IOp (Insert (Quad 4 5 6 (Some 1)));
                         IOp (Remove (Quad 1 2 3 None)); IOp (Insert (Quad 1 1 1 None))] true)
    (after [IOp (Insert (Quad 1 1 1 None)); IOp (Insert (Quad 4 5 6 (Some 1)))] true) = Some true.
Proof. vm_compute. reflexivity. Qed.
