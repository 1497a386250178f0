(** Vocabulary of the properties of the dataset and graph traits: what calling
    an iterator until it ends returns, and what it means for the pattern
    matching of a container to be exact.  Nothing here uses the functions of
    the model. *)
From Coq Require Import List.
Import ListNotations.
From Verif Require Import Base TripleModel TriplePatternModel QuadPatternModel PatternSpec.

(** Calling [next] repeatedly from the state [i] returns the items of the list,
    in order, then [None]. *)
Inductive yields {I X : Type} (next : I -> option X * I) : I -> list X -> Prop :=
| yields_end i j : next i = (None, j) -> yields next i []
| yields_item i j x l : next i = (Some x, j) -> yields next j l -> yields next i (x :: l).

(** The iterator [start c] finds exactly the quads (triples) of [s] that match
    the pattern [c], each once. *)
Definition exact_quads_at {R I : Type} (next : I -> option (quad R) * I) (start : cqp R -> I)
  (s : list (quad R)) (c : cqp R) : Prop :=
  exists l, yields next (start c) l /\ NoDup l /\ forall q, In q l <-> In q s /\ cq_matches c q.
Definition exact_triples_at {R I : Type} (next : I -> option (triple R) * I) (start : ctp R -> I)
  (s : list (triple R)) (c : ctp R) : Prop :=
  exists l, yields next (start c) l /\ NoDup l /\ forall t, In t l <-> In t s /\ ct_matches c t.
(** The pattern matching of a container is exact. *)
Definition exact_quads {R I : Type} (next : I -> option (quad R) * I) (start : cqp R -> I)
  (s : list (quad R)) : Prop := forall c, exact_quads_at next start s c.
Definition exact_triples {R I : Type} (next : I -> option (triple R) * I) (start : ctp R -> I)
  (s : list (triple R)) : Prop := forall c, exact_triples_at next start s c.

(** A triple as a quad of the default graph. *)
Definition in_default {R} (t : triple R) : quad R := Quad (t_s t) (t_p t) (t_o t) None.
