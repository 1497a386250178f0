(** Properties C33-C35 and C51: [IndexedBTreeGraph].

    [cmp] is the order of the resources (any total order whose [Eq] is equality),
    [keep] the unspecified behaviour of the B-tree on equal items.
    [ig_reached cmp keep ops0 ops g] says that [g] is obtained from a new
    [BTreeGraph] by the operations [ops0], the conversion to an indexed graph,
    then the operations [ops].  An indexed graph that starts empty is the case
    [ops0 = []] (c33_new_is_reached).  [spec_set (triple_cmp cmp) (ops0 ++ ops)]
    is the set these operations leave, computed on a plain set (SetSpec.v).

    Two restrictions occur below, both on the changes [set_log] of a history:
    - [known_log ... W]: no inserted triple repeats a resource among [W] that is
      not yet in use; [W] is one resource ([eq r]), the resources of one triple that
      a pattern checks ([ct_checked]), or all ([any_resource]);
    - [vacancies ... = 0]: insertions have filled the slots of all removed triples. *)
From Coq Require Import List Bool Arith Sorted.
Import ListNotations.
From Verif Require Import Base SlabModel TripleModel TriplePatternModel PatternSpec SetSpec
  ContainerSpec IndexedSpec Machine BaseProofs BResourceModel BTreeGraphModel IResourceModel
  IndexedGraphModel IndexedRunProofs IndexedGraphRunProofs.

(** The history used in the examples: a triple repeating a known resource, a
    removal before and after the conversion, and slot reuse. *)
Definition ex_ops0 : list (op (triple nat)) :=
  [Insert (Triple 1 2 3); Insert (Triple 1 2 4); Remove (Triple 1 2 3)].
Definition ex_ops : list (op (triple nat)) :=
  [Insert (Triple 4 2 4); Insert (Triple 5 6 7); Remove (Triple 1 2 4); Contains (Triple 1 2 4);
   Extend [Triple 8 6 9; Triple 5 6 7]; Iter; Len].

(** ** C33 *)

(** Every history runs to its end without panicking, and returns what a set of
    triples returns. *)
Theorem c33_indexed_graph_is_a_set :
  forall R (cmp : R -> R -> comparison), ord_laws cmp ->
  forall keep ops0 ops,
    exists b g0 xs g, run (bg_step cmp keep) bg_new ops0 = Some (spec_outs (triple_cmp cmp) ops0, b) /\
      ig_from_non_indexed b = Some g0 /\ run (ig_step cmp keep) g0 ops = Some (xs, g) /\
      spec_outs (triple_cmp cmp) (ops0 ++ ops) = spec_outs (triple_cmp cmp) ops0 ++ xs.
Proof. exact @ig_behaves. Qed.
Print Assumptions c33_indexed_graph_is_a_set.

(** Whatever history leads to a graph, its observers agree with the set. *)
Theorem c33_contents :
  forall R (cmp : R -> R -> comparison), ord_laws cmp ->
  forall keep ops0 ops g,
    ig_reached cmp keep ops0 ops g ->
    let s := spec_set (triple_cmp cmp) (ops0 ++ ops) in
    exists l, ig_iter g = Some l /\ ig_into_iter g = Some l /\
      increasing (triple_cmp cmp) l /\ (forall t, In t l <-> In t s) /\
      ig_len g = length l /\ (ig_is_empty g = true <-> l = []) /\
      (forall t, ig_contains cmp g t = Some (mem (triple_cmp cmp) t l)).
Proof. exact @ig_contents. Qed.
Print Assumptions c33_contents.

Theorem c33_new_is_reached : forall R, ig_from_non_indexed (@bg_new R) = Some ig_new.
Proof. exact @ig_new_converted. Qed.
Print Assumptions c33_new_is_reached.

(** Nothing panics, whatever the history. *)
Theorem c33_no_panic :
  forall R (cmp : R -> R -> comparison), ord_laws cmp ->
  forall keep ops0 ops g,
    ig_reached cmp keep ops0 ops g ->
    ig_iter g <> None /\ ig_into_iter g <> None /\ ig_resources_iter g <> None /\
    ig_subjects g <> None /\ ig_predicates g <> None /\ ig_objects g <> None /\
    (forall t, ig_contains cmp g t <> None) /\
    (forall r, ig_contains_resource cmp g r <> None) /\
    (forall spare c, ig_pattern_matching cmp g spare c <> None) /\
    (forall o, ig_step cmp keep g o <> None).
Proof. exact @ig_no_panic. Qed.
Print Assumptions c33_no_panic.

(** The conversion of any graph succeeds and keeps its triples. *)
Theorem c33_conversion_preserves :
  forall R (cmp : R -> R -> comparison), ord_laws cmp ->
  forall keep ops xs b,
    run (bg_step cmp keep) bg_new ops = Some (xs, b) ->
    exists g l, ig_from_non_indexed b = Some g /\ bg_iter b = Some l /\ ig_iter g = Some l /\
      ig_len g = bg_len b /\ (forall t, ig_contains cmp g t = bg_contains cmp b t).
Proof. exact @ig_converted. Qed.
Print Assumptions c33_conversion_preserves.

Example c33_ex : forall keep, exists g,
  ig_reached Nat.compare keep ex_ops0 ex_ops g /\
  ig_iter g = Some [Triple 4 2 4; Triple 5 6 7; Triple 8 6 9].
Proof.
  intros keep; eexists; split.
  - do 4 eexists; destruct keep; vm_compute; repeat split.
  - destruct keep; vm_compute; reflexivity.
Qed.

(** ** C34 *)

(** For all histories: every triple yielded is present, matches, and is yielded
    once. *)
Theorem c34_pattern_sound_partial :
  forall R (cmp : R -> R -> comparison), ord_laws cmp ->
  forall keep ops0 ops g spare c,
    ig_reached cmp keep ops0 ops g ->
    exists l, ig_pattern_matching cmp g spare c = Some l /\ NoDup l /\
      forall t, In t l -> In t (spec_set (triple_cmp cmp) (ops0 ++ ops)) /\ ct_matches c t.
Proof. exact @ig_pattern_sound. Qed.
Print Assumptions c34_pattern_sound_partial.

(** When all slots are filled, or the subject is given: a matching triple is
    yielded as soon as no resource that the pattern checks in it (those in the
    positions that are not wildcards) was repeated while new.  Missing: the other
    histories, for which it is false (below). *)
Theorem c34_pattern_complete_partial :
  forall R (cmp : R -> R -> comparison), ord_laws cmp ->
  forall keep ops0 ops g spare c,
    ig_reached cmp keep ops0 ops g ->
    t_subject_given c \/ vacancies 0 (set_log (triple_cmp cmp) [] (ops0 ++ ops)) = 0 ->
    exists l, ig_pattern_matching cmp g spare c = Some l /\ NoDup l /\
      (forall t, In t l -> In t (spec_set (triple_cmp cmp) (ops0 ++ ops)) /\ ct_matches c t) /\
      (forall t, In t (spec_set (triple_cmp cmp) (ops0 ++ ops)) -> ct_matches c t ->
         known_log (triple_cmp cmp) triple_comps (fun r => In r (ct_checked c t)) []
           (set_log (triple_cmp cmp) [] (ops0 ++ ops)) ->
         In t l).
Proof. exact @ig_pattern_complete. Qed.
Print Assumptions c34_pattern_complete_partial.

(** In particular [?s ?p ?o] yields everything when all slots are filled,
    whatever was repeated. *)
Theorem c34_pattern_all_partial :
  forall R (cmp : R -> R -> comparison), ord_laws cmp ->
  forall keep ops0 ops g spare,
    ig_reached cmp keep ops0 ops g ->
    vacancies 0 (set_log (triple_cmp cmp) [] (ops0 ++ ops)) = 0 ->
    exists l, ig_pattern_matching cmp g spare (CT_AnyS (TA_AnyP TAA_Any)) = Some l /\ NoDup l /\
      forall t, In t l <-> In t (spec_set (triple_cmp cmp) (ops0 ++ ops)).
Proof. exact @ig_pattern_all. Qed.
Print Assumptions c34_pattern_all_partial.

(** A history whose first insertion repeats a new resource (1), a slot reused. *)
Definition ex_repeat : list (op (triple nat)) :=
  [Insert (Triple 1 1 2); Insert (Triple 3 2 4); Insert (Triple 2 2 5); Remove (Triple 3 2 4);
   Insert (Triple 6 2 7)].
Definition ex_repeat_c : ctp nat := CT_AnyS (TA_GivenP 2 (TAG_Given 7)).
Example c34_complete_ex :
  let t := Triple 6 2 7 in
  (forall keep, ig_reached Nat.compare keep [] ex_repeat (gafter ex_repeat keep)) /\
  vacancies 0 (set_log (triple_cmp Nat.compare) [] ex_repeat) = 0 /\
  ct_checked ex_repeat_c t = [2; 7] /\
  known_log (triple_cmp Nat.compare) triple_comps (fun r => In r (ct_checked ex_repeat_c t)) []
    (set_log (triple_cmp Nat.compare) [] ex_repeat) /\
  (forall keep, ig_pattern_matching Nat.compare (gafter ex_repeat keep) 0 ex_repeat_c = Some [t]).
Proof.
  cbn zeta; split; [intros keep; greach|]; split; [vm_compute; reflexivity|]; split; [reflexivity|].
  split; [known_in [2; 7]|intros keep; destruct keep; vm_compute; reflexivity].
Qed.

(** If no new resource was repeated at all, the answer is exact. *)
Theorem c34_pattern_exact_partial :
  forall R (cmp : R -> R -> comparison), ord_laws cmp ->
  forall keep ops0 ops g spare c,
    ig_reached cmp keep ops0 ops g ->
    known_log (triple_cmp cmp) triple_comps any_resource [] (set_log (triple_cmp cmp) [] (ops0 ++ ops)) ->
    t_subject_given c \/ vacancies 0 (set_log (triple_cmp cmp) [] (ops0 ++ ops)) = 0 ->
    exists l, ig_pattern_matching cmp g spare c = Some l /\ NoDup l /\
      forall t, In t l <-> In t (spec_set (triple_cmp cmp) (ops0 ++ ops)) /\ ct_matches c t.
Proof. exact @ig_pattern_exact. Qed.
Print Assumptions c34_pattern_exact_partial.

Example c34_ex :
  known_log (triple_cmp Nat.compare) triple_comps any_resource []
    (set_log (triple_cmp Nat.compare) [] (ex_ops0 ++ ex_ops)) /\
  vacancies 0 (set_log (triple_cmp Nat.compare) [] (ex_ops0 ++ ex_ops)) = 0 /\
  t_subject_given (CT_GivenS 4 (TG_AnyP TGA_SameP)) /\
  ct_matches (CT_AnyS (TA_GivenP 2 TAG_SameS)) (Triple 4 2 4).
Proof. split; [known|]; split; [vm_compute; reflexivity|]; split; [exact I|]; split; reflexivity. Qed.

(** [?x ?x ?o] misses the triple that was just inserted. *)
Theorem c34_repeated_resource_refuted :
  exists ops g c t, forall keep,
    ig_reached Nat.compare keep [] ops (g keep) /\
    In t (spec_set (triple_cmp Nat.compare) ops) /\ ct_matches c t /\
    forall spare, exists l, ig_pattern_matching Nat.compare (g keep) spare c = Some l /\ ~ In t l.
Proof. exact ig_pattern_counterexample_repeat. Qed.
Print Assumptions c34_repeated_resource_refuted.

(** [?s ?p ?o] misses triples after a removal. *)
Theorem c34_after_removal_refuted :
  exists ops g c t, forall keep,
    ig_reached Nat.compare keep [] ops (g keep) /\
    known_log (triple_cmp Nat.compare) triple_comps any_resource [] (set_log (triple_cmp Nat.compare) [] ops) /\
    In t (spec_set (triple_cmp Nat.compare) ops) /\ ct_matches c t /\
    forall spare, exists l, ig_pattern_matching Nat.compare (g keep) spare c = Some l /\ ~ In t l.
Proof. exact ig_pattern_counterexample_hole. Qed.
Print Assumptions c34_after_removal_refuted.

(** ** C35 *)

(** For all histories: everything reported occurs, and counts agree. *)
Theorem c35_positions_sound_partial :
  forall R (cmp : R -> R -> comparison), ord_laws cmp ->
  forall keep ops0 ops g,
    ig_reached cmp keep ops0 ops g ->
    let s := spec_set (triple_cmp cmp) (ops0 ++ ops) in
    (exists v, ig_subjects g = Some v /\ ig_subject_count g = length v /\
       forall r, In r v -> exists t, In t s /\ t_s t = r) /\
    (exists v, ig_predicates g = Some v /\ ig_predicate_count g = length v /\
       forall r, In r v -> exists t, In t s /\ t_p t = r) /\
    (exists v, ig_objects g = Some v /\ ig_object_count g = length v /\
       forall r, In r v -> exists t, In t s /\ t_o t = r).
Proof. exact @ig_positions_sound. Qed.
Print Assumptions c35_positions_sound_partial.

(** For each resource never repeated while new: reported at most once, and exactly
    when the last change since the conversion to a triple with that resource in
    that position was not a removal. *)
Theorem c35_positions_each_partial :
  forall R (cmp : R -> R -> comparison), ord_laws cmp ->
  forall keep ops0 ops g,
    ig_reached cmp keep ops0 ops g ->
    let s := spec_set (triple_cmp cmp) (ops0 ++ ops) in
    let l := set_log (triple_cmp cmp) (spec_set (triple_cmp cmp) ops0) ops in
    exists vs vp vo, ig_subjects g = Some vs /\ ig_predicates g = Some vp /\ ig_objects g = Some vo /\
      forall r, known_log (triple_cmp cmp) triple_comps (eq r) []
          (set_log (triple_cmp cmp) [] (ops0 ++ ops)) ->
        once r vs /\ (In r vs <-> stable cmp t_s s l r) /\
        once r vp /\ (In r vp <-> stable cmp t_p s l r) /\
        once r vo /\ (In r vo <-> stable cmp t_o s l r).
Proof. exact @ig_positions_each. Qed.
Print Assumptions c35_positions_each_partial.

(** If moreover no triple with that resource in that position was removed while
    another one had it, the report is exact for this resource. *)
Theorem c35_positions_at_partial :
  forall R (cmp : R -> R -> comparison), ord_laws cmp ->
  forall keep ops0 ops g,
    ig_reached cmp keep ops0 ops g ->
    let s := spec_set (triple_cmp cmp) (ops0 ++ ops) in
    let s0 := spec_set (triple_cmp cmp) ops0 in
    let l := set_log (triple_cmp cmp) s0 ops in
    exists vs vp vo, ig_subjects g = Some vs /\ ig_predicates g = Some vp /\ ig_objects g = Some vo /\
      forall r, known_log (triple_cmp cmp) triple_comps (eq r) []
          (set_log (triple_cmp cmp) [] (ops0 ++ ops)) ->
        (lonely_at (triple_cmp cmp) t_s r s0 l -> (In r vs <-> exists t, In t s /\ t_s t = r)) /\
        (lonely_at (triple_cmp cmp) t_p r s0 l -> (In r vp <-> exists t, In t s /\ t_p t = r)) /\
        (lonely_at (triple_cmp cmp) t_o r s0 l -> (In r vo <-> exists t, In t s /\ t_o t = r)).
Proof. exact @ig_positions_at. Qed.
Print Assumptions c35_positions_at_partial.

Example c35_at_ex :
  let l := set_log (triple_cmp Nat.compare) [] ex_repeat in
  known_log (triple_cmp Nat.compare) triple_comps (eq 6) [] l /\
  lonely_at (triple_cmp Nat.compare) t_s 6 [] l /\ lonely_at (triple_cmp Nat.compare) t_o 5 [] l /\
  ~ lonely (triple_cmp Nat.compare) t_p [] l.
Proof.
  cbn zeta; split; [known_in [6]|]; vm_compute; repeat split; try discriminate.
  intros (_ & _ & _ & H & _); exact (H _ (or_introl eq_refl) eq_refl) || exact (H _ (or_intror (or_introl eq_refl)) eq_refl).
Qed.

(** Without repeated new resources: reported once each, and exactly those such
    that the last change since the conversion to a triple with that resource in
    that position was not a removal. *)
Theorem c35_positions_stable_partial :
  forall R (cmp : R -> R -> comparison), ord_laws cmp ->
  forall keep ops0 ops g,
    ig_reached cmp keep ops0 ops g ->
    known_log (triple_cmp cmp) triple_comps any_resource [] (set_log (triple_cmp cmp) [] (ops0 ++ ops)) ->
    let s := spec_set (triple_cmp cmp) (ops0 ++ ops) in
    let l := set_log (triple_cmp cmp) (spec_set (triple_cmp cmp) ops0) ops in
    (exists v, ig_subjects g = Some v /\ NoDup v /\ forall r, In r v <-> stable cmp t_s s l r) /\
    (exists v, ig_predicates g = Some v /\ NoDup v /\ forall r, In r v <-> stable cmp t_p s l r) /\
    (exists v, ig_objects g = Some v /\ NoDup v /\ forall r, In r v <-> stable cmp t_o s l r).
Proof. exact @ig_positions_stable. Qed.
Print Assumptions c35_positions_stable_partial.

(** If moreover triples are only removed when no other triple has the same
    subject (predicate, object), what is reported is exact. *)
Theorem c35_positions_exact_partial :
  forall R (cmp : R -> R -> comparison), ord_laws cmp ->
  forall keep ops0 ops g,
    ig_reached cmp keep ops0 ops g ->
    known_log (triple_cmp cmp) triple_comps any_resource [] (set_log (triple_cmp cmp) [] (ops0 ++ ops)) ->
    let s := spec_set (triple_cmp cmp) (ops0 ++ ops) in
    let s0 := spec_set (triple_cmp cmp) ops0 in
    let l := set_log (triple_cmp cmp) s0 ops in
    (lonely (triple_cmp cmp) t_s s0 l ->
     exists v, ig_subjects g = Some v /\ NoDup v /\ forall r, In r v <-> exists t, In t s /\ t_s t = r) /\
    (lonely (triple_cmp cmp) t_p s0 l ->
     exists v, ig_predicates g = Some v /\ NoDup v /\ forall r, In r v <-> exists t, In t s /\ t_p t = r) /\
    (lonely (triple_cmp cmp) t_o s0 l ->
     exists v, ig_objects g = Some v /\ NoDup v /\ forall r, In r v <-> exists t, In t s /\ t_o t = r).
Proof. exact @ig_positions_exact. Qed.
Print Assumptions c35_positions_exact_partial.

(** The resources of an indexed graph. *)
Theorem c35_resources_partial :
  forall R (cmp : R -> R -> comparison), ord_laws cmp ->
  forall keep ops0 ops g,
    ig_reached cmp keep ops0 ops g ->
    exists l, ig_resources_iter g = Some l /\ increasing cmp l /\
      (forall r, ig_contains_resource cmp g r = Some (mem cmp r l)) /\
      (forall r, In r l -> occurs triple_comps r (spec_set (triple_cmp cmp) (ops0 ++ ops))) /\
      (forall r, known_log (triple_cmp cmp) triple_comps (eq r) []
           (set_log (triple_cmp cmp) [] (ops0 ++ ops)) ->
         (In r l <-> occurs triple_comps r (spec_set (triple_cmp cmp) (ops0 ++ ops)))) /\
      (known_log (triple_cmp cmp) triple_comps any_resource []
         (set_log (triple_cmp cmp) [] (ops0 ++ ops)) ->
       ig_resource_count g = length l).
Proof. exact @ig_resources_used. Qed.
Print Assumptions c35_resources_partial.

(** A history with a removal that meets all the hypotheses. *)
Example c35_ex :
  let ops := [Insert (Triple 1 2 3); Insert (Triple 5 6 7); Insert (Triple 1 8 9);
              Remove (Triple 5 6 7)] in
  (forall keep, ig_reached Nat.compare keep [] ops (gafter ops keep)) /\
  known_log (triple_cmp Nat.compare) triple_comps any_resource [] (set_log (triple_cmp Nat.compare) [] ops) /\
  lonely (triple_cmp Nat.compare) t_s [] (set_log (triple_cmp Nat.compare) [] ops).
Proof.
  cbn zeta; split; [intros keep; greach|]; split; [known|].
  vm_compute; repeat split; intros y [<-|[<-|[]]]; discriminate.
Qed.

(** A subject and a predicate in use are not reported, nor an object. *)
Theorem c35_subjects_predicates_refuted :
  exists ops g t, forall keep,
    ig_reached Nat.compare keep [] ops (g keep) /\
    known_log (triple_cmp Nat.compare) triple_comps any_resource [] (set_log (triple_cmp Nat.compare) [] ops) /\
    In t (spec_set (triple_cmp Nat.compare) ops) /\
    ig_subjects (g keep) = Some [] /\ ig_predicates (g keep) = Some [].
Proof. exact ig_positions_counterexample. Qed.
Print Assumptions c35_subjects_predicates_refuted.

Theorem c35_objects_refuted :
  exists ops g t, forall keep,
    ig_reached Nat.compare keep [] ops (g keep) /\
    known_log (triple_cmp Nat.compare) triple_comps any_resource [] (set_log (triple_cmp Nat.compare) [] ops) /\
    In t (spec_set (triple_cmp Nat.compare) ops) /\ ig_objects (g keep) = Some [].
Proof. exact ig_objects_counterexample. Qed.
Print Assumptions c35_objects_refuted.

(** A subject or a predicate is reported twice. *)
Theorem c35_once_refuted :
  exists ops g v w, forall keep,
    ig_reached Nat.compare keep [] ops (g keep) /\
    ig_subjects (g keep) = Some (v keep) /\ ig_predicates (g keep) = Some (w keep) /\
    ~ (NoDup (v keep) /\ NoDup (w keep)).
Proof. exact ig_duplicate_counterexample. Qed.
Print Assumptions c35_once_refuted.

(** ** C51 *)

(** Equality, ordering and hash depend only on the set of triples. *)
Theorem c51_equality :
  forall R (cmp : R -> R -> comparison), ord_laws cmp ->
  forall keep (eqb : R -> R -> bool) ops01 ops1 g1 ops02 ops2 g2,
    (forall x y, eqb x y = true <-> x = y) ->
    ig_reached cmp keep ops01 ops1 g1 -> ig_reached cmp keep ops02 ops2 g2 ->
    exists b h1 h2, ig_eqb eqb g1 g2 = Some b /\
      ig_hash_input g1 = Some h1 /\ ig_hash_input g2 = Some h2 /\
      (b = true <->
         forall t, In t (spec_set (triple_cmp cmp) (ops01 ++ ops1)) <-> In t (spec_set (triple_cmp cmp) (ops02 ++ ops2))) /\
      (b = true <-> ig_cmp cmp g1 g2 = Some Eq) /\
      (b = true <-> h1 = h2).
Proof. exact @ig_equality. Qed.
Print Assumptions c51_equality.

Theorem c51_ordering :
  forall R (cmp : R -> R -> comparison), ord_laws cmp ->
  forall keep ops01 ops1 g1 ops02 ops2 g2,
    ig_reached cmp keep ops01 ops1 g1 -> ig_reached cmp keep ops02 ops2 g2 ->
    exists l1 l2, ig_iter g1 = Some l1 /\ ig_iter g2 = Some l2 /\
      ig_cmp cmp g1 g2 = Some (list_cmp (triple_cmp cmp) l1 l2) /\ ord_laws (list_cmp (triple_cmp cmp)).
Proof. exact @ig_ordering. Qed.
Print Assumptions c51_ordering.

(** Collecting triples makes the graph with these triples; what a graph yields
    or serializes rebuilds an equal graph. *)
Theorem c51_collect :
  forall R (cmp : R -> R -> comparison), ord_laws cmp ->
  forall keep l,
    exists g, ig_from_iter cmp keep l = Some g /\
      exists m, ig_iter g = Some m /\ increasing (triple_cmp cmp) m /\ forall t, In t m <-> In t l.
Proof. exact @ig_collect. Qed.
Print Assumptions c51_collect.

Theorem c51_rebuild :
  forall R (cmp : R -> R -> comparison), ord_laws cmp ->
  forall keep (eqb : R -> R -> bool) ops0 ops g,
    (forall x y, eqb x y = true <-> x = y) ->
    ig_reached cmp keep ops0 ops g ->
    exists l g', ig_iter g = Some l /\ ig_serialize g = Some (length l, l) /\
      ig_from_iter cmp keep l = Some g' /\ ig_eqb eqb g g' = Some true.
Proof. exact @ig_rebuild. Qed.
Print Assumptions c51_rebuild.

Example c51_ex : forall keep,
  ig_eqb Nat.eqb (gafter [Insert (Triple 1 1 2); Insert (Triple 1 3 4); Remove (Triple 1 1 2)] keep)
                 (gafter [Insert (Triple 1 3 4)] keep) = Some true.
Proof. intros []; vm_compute; reflexivity. Qed.
