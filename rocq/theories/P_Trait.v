(** Property C36: the provided methods of the dataset and graph traits; and
    C28, C34 for the provided queries of the indexed containers.

    A container is given by its pattern matching: iterators of type [I], their
    [next] function, and the function [start] from patterns to iterators.
    [yields next i l]: calling [next] from the state [i] returns the items [l],
    then [None].  [exact_quads next start s]: every pattern yields exactly the
    matching quads of [s], once each. *)
From Coq Require Import List Bool Arith.
Import ListNotations.
From Verif Require Import Base SlabModel TripleModel TriplePatternModel QuadPatternModel
  PatternSpec SetSpec ContainerSpec IndexedSpec Machine BaseProofs BResourceModel
  BTreeDatasetModel BTreeGraphModel IResourceModel IndexedDatasetModel IndexedGraphModel
  IndexedRunProofs IndexedGraphRunProofs TraitSpec TraitModel TraitInstModel TraitProofs
  TraitRunProofs P_IndexedDataset.

(** ** Datasets *)

Theorem c36_dataset_contains :
  forall R I (next : I -> option (quad R) * I) (start : cqp R -> I) s,
    exact_quads next start s ->
    (forall q, contains_quad next start q = true <-> In q s) /\
    (forall r, contains_quad_subject next start r = true <-> exists q, In q s /\ q_s q = r) /\
    (forall r, contains_quad_predicate next start r = true <-> exists q, In q s /\ q_p q = r) /\
    (forall r, contains_quad_object next start r = true <-> exists q, In q s /\ q_o q = r) /\
    (forall r, contains_named_graph next start r = true <-> exists q, In q s /\ q_g q = Some r).
Proof. exact @ds_contains. Qed.
Print Assumptions c36_dataset_contains.

(** Only the exactness of the pattern [r p ?o g] is needed. *)
Theorem c36_quad_objects :
  forall R I (next : I -> option (quad R) * I) (start : cqp R -> I) s g r p,
    exact_quads_at next start s (CQ_GivenS r (QG_GivenP p (QGG_Any (QGGA_Given g)))) ->
    exists l, yields (quad_objects_next next) (quad_objects start g r p) l /\ NoDup l /\
      forall o, In o l <-> In (Quad r p o g) s.
Proof. exact @ds_objects. Qed.
Print Assumptions c36_quad_objects.

(** [ps] are the predicates listed by the dataset: without repetition, and all
    those in use.  The predicates of the subject are yielded, each once and with
    an iterator over exactly its objects. *)
Theorem c36_quad_predicates_objects :
  forall R I (next : I -> option (quad R) * I) (start : cqp R -> I) s g r ps,
    (forall p, exact_quads_at next start s (CQ_GivenS r (QG_GivenP p (QGG_Any (QGGA_Given g))))) ->
    NoDup ps -> (forall q, In q s -> In (q_p q) ps) ->
    exists l,
      yields (quad_predicates_objects_next next start g r) ps l /\
      NoDup (map fst l) /\
      (forall p, In p (map fst l) <-> exists o, In (Quad r p o g) s) /\
      (forall p i, In (p, i) l -> exists os,
         yields (quad_objects_next next) i os /\ NoDup os /\
         forall o, In o os <-> In (Quad r p o g) s).
Proof. exact @ds_predicates_objects. Qed.
Print Assumptions c36_quad_predicates_objects.

(** The fallible view of a dataset never fails and yields the same items;
    [try_contains_triple] looks in all graphs. *)
Theorem c36_dataset_try :
  forall R I (next : I -> option (quad R) * I) (start : cqp R -> I) s Er,
    exact_quads next start s ->
    (forall c l, yields next (start c) l ->
       yields (infallible_next (E := Er) next) (start c) (map Ok l)) /\
    forall t, exists b,
      try_dataset_contains_triple (infallible_next (E := Er) next) start t = Ok b /\
      (b = true <-> exists g, In (into_quad t g) s).
Proof. exact @ds_try. Qed.
Print Assumptions c36_dataset_try.

(** For any fallible dataset, an error met first is returned, and only then. *)
Theorem c36_dataset_try_error :
  forall R I Er (next : I -> option (result Er (quad R)) * I) start (t : triple R) l,
    yields next (start (cq_from_triple t)) l ->
    try_dataset_contains_triple next start t =
    match l with [] => Ok false | Ok _ :: _ => Ok true | Err e :: _ => Err e end.
Proof. exact @ds_try_error. Qed.
Print Assumptions c36_dataset_try_error.

(** ** Graphs *)

Theorem c36_graph_contains :
  forall R I (next : I -> option (triple R) * I) (start : ctp R -> I) s,
    exact_triples next start s ->
    (forall t, contains_triple next start t = true <-> In t s) /\
    (forall r, contains_triple_subject next start r = true <-> exists t, In t s /\ t_s t = r) /\
    (forall r, contains_triple_predicate next start r = true <-> exists t, In t s /\ t_p t = r) /\
    (forall r, contains_triple_object next start r = true <-> exists t, In t s /\ t_o t = r).
Proof. exact @gr_contains. Qed.
Print Assumptions c36_graph_contains.

Theorem c36_triple_objects :
  forall R I (next : I -> option (triple R) * I) (start : ctp R -> I) s r p,
    exact_triples_at next start s (CT_GivenS r (TG_GivenP p TGG_Any)) ->
    exists l, yields (triple_objects_next next) (triple_objects start r p) l /\ NoDup l /\
      forall o, In o l <-> In (Triple r p o) s.
Proof. exact @gr_objects. Qed.
Print Assumptions c36_triple_objects.

Theorem c36_triple_predicates_objects :
  forall R I (next : I -> option (triple R) * I) (start : ctp R -> I) s r ps,
    (forall p, exact_triples_at next start s (CT_GivenS r (TG_GivenP p TGG_Any))) ->
    NoDup ps -> (forall t, In t s -> In (t_p t) ps) ->
    exists l,
      yields (triple_predicates_objects_next next start r) ps l /\
      NoDup (map fst l) /\
      (forall p, In p (map fst l) <-> exists o, In (Triple r p o) s) /\
      (forall p i, In (p, i) l -> exists os,
         yields (triple_objects_next next) i os /\ NoDup os /\
         forall o, In o os <-> In (Triple r p o) s).
Proof. exact @gr_predicates_objects. Qed.
Print Assumptions c36_triple_predicates_objects.

Theorem c36_graph_try :
  forall R I (next : I -> option (triple R) * I) (start : ctp R -> I) s Er,
    exact_triples next start s ->
    (forall c l, yields next (start c) l ->
       yields (infallible_next (E := Er) next) (start c) (map Ok l)) /\
    forall t, exists b,
      try_graph_contains_triple (infallible_next (E := Er) next) start t = Ok b /\
      (b = true <-> In t s).
Proof. exact @gr_try. Qed.
Print Assumptions c36_graph_try.

Theorem c36_graph_try_error :
  forall R I Er (next : I -> option (result Er (triple R)) * I) start (t : triple R) l,
    yields next (start (ct_from_triple t)) l ->
    try_graph_contains_triple next start t =
    match l with [] => Ok false | Ok _ :: _ => Ok true | Err e :: _ => Err e end.
Proof. exact @gr_try_error. Qed.
Print Assumptions c36_graph_try_error.

(** ** A graph seen as a dataset *)

(** Its quads are its triples, in the default graph. *)
Theorem c36_graph_quads :
  forall R I (next : I -> option (triple R) * I) i l,
    yields next i l -> yields (t2q_next next) i (map in_default l).
Proof. exact @gr_quads. Qed.
Print Assumptions c36_graph_quads.

(** Its pattern matching is exact for these quads, hence all of the above. *)
Theorem c36_graph_as_dataset :
  forall R I (next : I -> option (triple R) * I) (start : ctp R -> I) s,
    exact_triples next start s ->
    exact_quads (graph_next next) (graph_start start) (map in_default s).
Proof. exact @gr_exact_quads. Qed.
Print Assumptions c36_graph_as_dataset.

(** ** The indexed containers as instances *)

(** Subject queries are right if no inserted quad repeats a new resource; if
    moreover the slots of the removed quads have been reused, all are.
    Missing: the other histories, for which it is false (below). *)
Theorem c28_provided_queries_partial :
  forall R (cmp : R -> R -> comparison), ord_laws cmp ->
  forall keep ops0 ops xs d spare,
    id_reached cmp keep ops0 ops xs d ->
    known_log (quad_cmp cmp) quad_comps any_resource [] (full_log cmp ops0 ops xs) ->
    let s := final_set cmp ops0 ops xs in
    (forall r, contains_quad_subject list_next (id_start cmp d spare) r = true <->
       exists q, In q s /\ q_s q = r) /\
    (forall g r p, exists l,
       yields (quad_objects_next list_next) (quad_objects (id_start cmp d spare) g r p) l /\
       NoDup l /\ forall o, In o l <-> In (Quad r p o g) s) /\
    (vacancies 0 (full_log cmp ops0 ops xs) = 0 ->
     exact_quads list_next (id_start cmp d spare) s).
Proof. exact @id_trait_queries. Qed.
Print Assumptions c28_provided_queries_partial.

(** A dataset whose pattern matching is exact, after a removal and the reuse of
    the slot. *)
Example c28_provided_ex : forall keep,
  let ops := [IOp (Insert (Quad 1 2 3 None)); IOp (Insert (Quad 1 2 4 (Some 5)));
              IOp (Remove (Quad 1 2 3 None)); IOp (Insert (Quad 1 2 6 (Some 5)));
              IOp (Insert (Quad 6 5 6 None))] in
  let s := [Quad 6 5 6 None; Quad 1 2 6 (Some 5); Quad 1 2 4 (Some 5)] in
  exact_quads list_next (id_start Nat.compare (after ops keep) 0) s /\
  contains_quad_predicate list_next (id_start Nat.compare (after ops keep) 0) 2 = true /\
  contains_quad_predicate list_next (id_start Nat.compare (after ops keep) 0) 3 = false /\
  contains_named_graph list_next (id_start Nat.compare (after ops keep) 0) 5 = true /\
  yields (quad_objects_next list_next)
    (quad_objects (id_start Nat.compare (after ops keep) 0) (Some 5) 1 2) [6; 4].
Proof.
  intros keep ops s. split; [|split; [|split; [|split]]].
  - change s with (final_set Nat.compare [] ops (repeat (IOut (OBool true)) 5)).
    apply (c28_provided_queries_partial nat Nat.compare nat_compare_laws keep [] ops).
    + reach.
    + known.
    + vm_compute; reflexivity.
  - destruct keep; vm_compute; reflexivity.
  - destruct keep; vm_compute; reflexivity.
  - destruct keep; vm_compute; reflexivity.
  - destruct keep; (eapply yields_item; [vm_compute; reflexivity|]);
      (eapply yields_item; [vm_compute; reflexivity|]);
      eapply yields_end; vm_compute; reflexivity.
Qed.

Theorem c34_provided_queries_partial :
  forall R (cmp : R -> R -> comparison), ord_laws cmp ->
  forall keep ops0 ops g spare,
    ig_reached cmp keep ops0 ops g ->
    known_log (triple_cmp cmp) triple_comps any_resource [] (set_log (triple_cmp cmp) [] (ops0 ++ ops)) ->
    let s := spec_set (triple_cmp cmp) (ops0 ++ ops) in
    (forall r, contains_triple_subject list_next (ig_start cmp g spare) r = true <->
       exists t, In t s /\ t_s t = r) /\
    (forall r p, exists l,
       yields (triple_objects_next list_next) (triple_objects (ig_start cmp g spare) r p) l /\
       NoDup l /\ forall o, In o l <-> In (Triple r p o) s) /\
    (vacancies 0 (set_log (triple_cmp cmp) [] (ops0 ++ ops)) = 0 ->
     exact_triples list_next (ig_start cmp g spare) s).
Proof. exact @ig_trait_queries. Qed.
Print Assumptions c34_provided_queries_partial.

(** After a removal an indexed dataset denies having a predicate, an object and
    a named graph in use. *)
Theorem c28_provided_queries_refuted :
  exists ops xs d q g, forall keep,
    id_reached Nat.compare keep [] ops xs (d keep) /\
    known_log (quad_cmp Nat.compare) quad_comps any_resource [] (full_log Nat.compare [] ops xs) /\
    In q (final_set Nat.compare [] ops xs) /\ q_g q = Some g /\
    forall spare,
      contains_quad_predicate list_next (id_start Nat.compare (d keep) spare) (q_p q) = false /\
      contains_quad_object list_next (id_start Nat.compare (d keep) spare) (q_o q) = false /\
      contains_named_graph list_next (id_start Nat.compare (d keep) spare) g = false.
Proof. exact id_trait_counterexample. Qed.
Print Assumptions c28_provided_queries_refuted.

(** After a removal an indexed graph denies having a predicate in use, and its
    [triple_predicates_objects] yields nothing for a subject in use. *)
Theorem c34_provided_queries_refuted :
  exists ops g t, forall keep,
    ig_reached Nat.compare keep [] ops (g keep) /\
    known_log (triple_cmp Nat.compare) triple_comps any_resource [] (set_log (triple_cmp Nat.compare) [] ops) /\
    In t (spec_set (triple_cmp Nat.compare) ops) /\
    forall spare, exists ps, ig_predicates (g keep) = Some ps /\
      fst (triple_predicates_objects_next list_next (ig_start Nat.compare (g keep) spare) (t_s t) ps)
      = None /\
      contains_triple_predicate list_next (ig_start Nat.compare (g keep) spare) (t_p t) = false.
Proof. exact ig_trait_counterexample. Qed.
Print Assumptions c34_provided_queries_refuted.
