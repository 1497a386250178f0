(** The provided methods of the dataset and graph traits
    (/repo/src/dataset/mod.rs, /repo/src/dataset/graph/mod.rs,
    /repo/src/dataset/fallible.rs, /repo/src/dataset/graph/fallible.rs) and the
    iterator adaptors they use (/repo/src/utils.rs).

    A container is described by what the traits require of it: the type [I] of
    its pattern matching iterators, their [next] function (returning the item
    and the next state) and the function [start] from patterns to iterators
    ([quad_pattern_matching] or [triple_pattern_matching]).

    Simplifications: references are values; an iterator over predicates is the
    list of its remaining items (the loop over it must be a total function). *)
From Coq Require Import List.
Import ListNotations.
From Verif Require Import Base TripleModel TriplePatternModel QuadPatternModel.

(** [Option::is_some] of an item. *)
Definition found {I X} (r : option X * I) : bool :=
  match fst r with Some _ => true | None => false end.

(** The iterator over a list. *)
Definition list_next {X} (l : list X) : option X * list X :=
  match l with [] => (None, []) | x :: r => (Some x, r) end.

(** Rust's [Result]. *)
Inductive result (E A : Type) := Ok (a : A) | Err (e : E).
Arguments Ok {E A} _.
Arguments Err {E A} _.

Section Adaptors.
  Context {I X : Type} (next : I -> option X * I).

  (** utils.rs 7-13 [InfallibleIterator::next]. *)
  Definition infallible_next {E} (i : I) : option (result E X) * I :=
    let (x, j) := next i in (option_map Ok x, j).

  (** utils.rs 33-39 [OptionIterator::next]. *)
  Definition option_next (i : option I) : option X * option I :=
    match i with
    | Some i => let (x, j) := next i in (x, Some j)
    | None => (None, None)
    end.
End Adaptors.

(** utils.rs 23-29 [TripleToQuadIterator::next]. *)
Definition t2q_next {I R} (next : I -> option (triple R) * I) (i : I) : option (quad R) * I :=
  let (t, j) := next i in (option_map (fun t => into_quad t None) t, j).

(** ** Datasets *)
Section Dataset.
  Context {R I : Type} (next : I -> option (quad R) * I) (start : cqp R -> I).

  (** dataset/mod.rs 225-227 [contains_quad]. *)
  Definition contains_quad (q : quad R) : bool := found (next (start (cq_from_quad q))).
  (** 230-242 [contains_quad_subject]. *)
  Definition contains_quad_subject (s : R) : bool :=
    found (next (start (CQ_GivenS s (QG_AnyP (QGA_Any QGAA_Any))))).
  (** 245-257 [contains_quad_predicate]. *)
  Definition contains_quad_predicate (p : R) : bool :=
    found (next (start (CQ_AnyS (QA_GivenP p (QAG_Any QAGA_Any))))).
  (** 260-272 [contains_quad_object]. *)
  Definition contains_quad_object (o : R) : bool :=
    found (next (start (CQ_AnyS (QA_AnyP (QAA_Given o QAAG_Any))))).
  (** 275-286 [contains_named_graph]. *)
  Definition contains_named_graph (g : R) : bool :=
    found (next (start (CQ_AnyS (QA_AnyP (QAA_Any (QAAA_Given (Some g))))))).

  (** 395-401 (struct [QuadObjects]). *)
  Record quad_objects_st := QObjects { qo_first : option R; qo_inner : I }.
  (** 403-414 [QuadObjects::next]. *)
  Definition quad_objects_next (i : quad_objects_st) : option R * quad_objects_st :=
    match qo_first i with
    | Some o => (Some o, QObjects None (qo_inner i))
    | None => let (q, j) := next (qo_inner i) in (option_map q_o q, QObjects None j)
    end.
  (** 307-322 [quad_objects]. *)
  Definition quad_objects (g : option R) (s p : R) : quad_objects_st :=
    QObjects None (start (cq_from_option_quad (Quad (Some s) (Some p) None (Some g)))).

  (** 357-393 [QuadPredicatesObjects::next]; the state is what remains of the
      predicates. *)
  Fixpoint quad_predicates_objects_next (g : option R) (s : R) (ps : list R)
    : option (R * quad_objects_st) * list R :=
    match ps with
    | [] => (None, [])
    | p :: r =>
        let (q, j) := next (start (CQ_GivenS s (QG_GivenP p (QGG_Any (QGGA_Given g))))) in
        match q with
        | Some q => (Some (p, QObjects (Some (q_o q)) j), r)
        | None => quad_predicates_objects_next g s r
        end
    end.

End Dataset.

(** dataset/fallible.rs 54-60 [try_contains_triple] of a dataset. *)
Definition try_dataset_contains_triple {R I E} (next : I -> option (result E (quad R)) * I)
  (start : cqp R -> I) (t : triple R) : result E bool :=
  match fst (next (start (cq_from_triple t))) with
  | Some (Err e) => Err e
  | Some (Ok _) => Ok true
  | None => Ok false
  end.

(** ** Graphs *)
Section Graph.
  Context {R I : Type} (next : I -> option (triple R) * I) (start : ctp R -> I).

  (** dataset/graph/mod.rs 86-88 [contains_triple]. *)
  Definition contains_triple (t : triple R) : bool := found (next (start (ct_from_triple t))).
  (** 90-99 [contains_triple_subject]. *)
  Definition contains_triple_subject (s : R) : bool :=
    found (next (start (CT_GivenS s (TG_AnyP TGA_Any)))).
  (** 101-109 [contains_triple_predicate]. *)
  Definition contains_triple_predicate (p : R) : bool :=
    found (next (start (CT_AnyS (TA_GivenP p TAG_Any)))).
  (** 111-119 [contains_triple_object]. *)
  Definition contains_triple_object (o : R) : bool :=
    found (next (start (CT_AnyS (TA_AnyP (TAA_Given o))))).

  (** 192-198 (struct [TripleObjects]). *)
  Record triple_objects_st := TObjects { to_first : option R; to_inner : I }.
  (** 200-211 [TripleObjects::next]. *)
  Definition triple_objects_next (i : triple_objects_st) : option R * triple_objects_st :=
    match to_first i with
    | Some o => (Some o, TObjects None (to_inner i))
    | None => let (t, j) := next (to_inner i) in (option_map t_o t, TObjects None j)
    end.
  (** 136-148 [triple_objects]. *)
  Definition triple_objects (s p : R) : triple_objects_st :=
    TObjects None (start (ct_from_option_triple (Triple (Some s) (Some p) None))).

  (** 161-190 [TriplePredicatesObjects::next]. *)
  Fixpoint triple_predicates_objects_next (s : R) (ps : list R)
    : option (R * triple_objects_st) * list R :=
    match ps with
    | [] => (None, [])
    | p :: r =>
        let (t, j) := next (start (CT_GivenS s (TG_GivenP p TGG_Any))) in
        match t with
        | Some t => (Some (p, TObjects (Some (t_o t)) j), r)
        | None => triple_predicates_objects_next s r
        end
    end.

  (** dataset/mod.rs 325-344 [quad_pattern_matching] of a graph seen as a
      dataset: the state of the [OptionIterator]. *)
  Definition graph_start (c : cqp R) : option I :=
    let (t, g) := cq_into_triple c in
    match g with
    | PG_Given None | PG_Any => Some (start t)
    | _ => None
    end.
  (** ... and its [next]. *)
  Definition graph_next : option I -> option (quad R) * option I := option_next (t2q_next next).

End Graph.

(** dataset/graph/fallible.rs 49-55 [try_contains_triple] of a graph. *)
Definition try_graph_contains_triple {R I E} (next : I -> option (result E (triple R)) * I)
  (start : ctp R -> I) (t : triple R) : result E bool :=
  match fst (next (start (ct_from_triple t))) with
  | Some (Err e) => Err e
  | Some (Ok _) => Ok true
  | None => Ok false
  end.

(** dataset/mod.rs 44-57: the [quads] of a graph are its [triples] read with
    [t2q_next].  The counting methods are [Iterator::count] and are not
    modelled; 179-192: a graph has no named graph. *)
