(** What graphs and datasets state, after the model theory of RDF: an
    interpretation gives a thing to each IRI and literal, and says which triples
    (and quads) of things hold; blank nodes stand for things that exist. *)
From Coq Require Import List.
Import ListNotations.
From Verif Require Import TextModel DisplayModel TripleModel.

Record world := World {
  thing : Type;
  denotes : term -> thing;
  holds : quad thing -> Prop
}.

Section World.
  Context (W : world).

  (** The thing a local term stands for, [a] choosing those of the blank nodes. *)
  Definition thing_of (a : text -> thing W) (t : local_term) : thing W :=
    match t with Anonymous b => a b | Named n => denotes W n end.

  (** The quads are true, for some choice of what their blank nodes stand for. *)
  Definition true_in (l : list (quad local_term)) : Prop :=
    exists a, forall q, In q l ->
      holds W (Quad (thing_of a (q_s q)) (thing_of a (q_p q)) (thing_of a (q_o q)) (option_map (thing_of a) (q_g q))).

  (** The same for triples. *)
  Definition triples_true_in (l : list (triple local_term)) : Prop :=
    exists a, forall t, In t l ->
      holds W (Quad (thing_of a (t_s t)) (thing_of a (t_p t)) (thing_of a (t_o t)) None).
End World.

(** [b] follows from [a]: simple entailment. *)
Definition follows (a b : list (triple local_term)) : Prop :=
  forall W, triples_true_in W a -> triples_true_in W b.

(** Two datasets state the same. *)
Definition same_meaning (a b : list (quad local_term)) : Prop :=
  forall W, true_in W a <-> true_in W b.
