(** Isomorphism of RDF datasets: equality up to a renaming of blank nodes. *)
From Coq Require Import List Bool Arith Permutation.
Import ListNotations.
From Verif Require Import TripleModel ContainerSpec SetSpec InterpretationModel DisplayModel TermModel TextModel.

(** The quad obtained by changing every component. *)
Definition qmap {R T} (f : R -> T) (q : quad R) : quad T :=
  Quad (f (q_s q)) (f (q_p q)) (f (q_o q)) (option_map f (q_g q)).

Section Spec.
  Context {R : Type} (cmp : R -> R -> comparison) (blank : R -> bool).

  (** [x] is one of the blank nodes of [a]. *)
  Definition blank_of (a : list (quad R)) (x : R) : Prop :=
    blank x = true /\ exists q, In q a /\ In x (quad_comps q).

  (** [h] is a bijection between the blank nodes of [a] and those of [b]. *)
  Record blank_bijection (a b : list (quad R)) (h : R -> R) : Prop := {
    bb_into : forall x, blank_of a x -> blank_of b (h x);
    bb_inj : forall x y, blank_of a x -> blank_of a y -> h x = h y -> x = y;
    bb_onto : forall y, blank_of b y -> exists x, blank_of a x /\ h x = y
  }.

  (** [h] is a bijection of blank nodes that turns the quads of [a] into those of
      [b], other resources being left as they are. *)
  Definition isomorphism (a b : list (quad R)) (h : R -> R) : Prop :=
    blank_bijection a b h /\ (forall x, blank x = false -> h x = x) /\
    (forall q, In q b <-> exists p, In p a /\ qmap h p = q).

  (** What remains of a quad when its blank nodes are forgotten, and what remains
      when the other resources are (the blank nodes being renamed by [h]). *)
  Definition named_part (q : quad R) : quad (option R) :=
    qmap (fun r => if blank r then None else Some r) q.
  Definition blank_part (h : R -> R) (q : quad R) : quad (option R) :=
    qmap (fun r => if blank r then Some (h r) else None) q.
  Definition has_blank (q : quad R) : bool := existsb blank (quad_comps q).
  (** Number of occurrences of blank nodes. *)
  Definition blanks (q : quad R) : nat := length (filter blank (quad_comps q)).
  (** The quads [x] occurs in, each as many times as it does. *)
  Definition around (a : list (quad R)) (x : R) : list (quad R) :=
    flat_map (fun q => map (fun _ => q) (filter (same cmp x) (quad_comps q))) a.

  (** Weaker than an isomorphism: the two halves of the quads are respected, but
      apart from each other. *)
  Definition half_isomorphism (a b : list (quad R)) (h : R -> R) : Prop :=
    blank_bijection a b h /\ length a = length b /\
    Permutation (map (blank_part h) (filter has_blank a))
                (map (blank_part (fun x => x)) (filter has_blank b)) /\
    (forall x, blank_of a x ->
       Permutation (map named_part (around a x)) (map named_part (around b (h x)))).

  (** Two quads with blank nodes in the same places. *)
  Definition same_shape (p q : quad R) : Prop := qmap blank p = qmap blank q.
  (** Every quad of [a] with several occurrences of blank nodes has a blank node [x]
      such that no quad around [x] with blank nodes in the same places has
      different named resources. *)
  Definition identifiable (a : list (quad R)) : Prop :=
    forall p, In p a -> 2 <= blanks p ->
      exists x, blank x = true /\ In x (quad_comps p) /\
        forall q, In q a -> In x (quad_comps q) -> same_shape p q -> named_part q = named_part p.
End Spec.

(** ** Interpretations *)

(** No two resources have the same IRI or the same literal, up to the equality of
    IRIs and literals. *)
Definition terms_apart {St R} (iri_eq : text -> text -> bool)
    (lit_eq : literal_cow -> literal_cow -> bool) (I : interp_rev St R) (st : St) : Prop :=
  (forall x y i j, In i (i_iris_of I st x) -> In j (i_iris_of I st y) ->
     iri_eq (cow_text i) (cow_text j) = true -> x = y) /\
  (forall x y i j, In i (i_literals_of I st x) -> In j (i_literals_of I st y) ->
     lit_eq i j = true -> x = y).
(** Two resources have an IRI or a literal in common. *)
Definition common_term {St R} (iri_eq : text -> text -> bool)
    (lit_eq : literal_cow -> literal_cow -> bool) (I : interp_rev St R) (st : St) (x y : R) : Prop :=
  (exists i j, In i (i_iris_of I st x) /\ In j (i_iris_of I st y) /\
     iri_eq (cow_text i) (cow_text j) = true) \/
  (exists i j, In i (i_literals_of I st x) /\ In j (i_literals_of I st y) /\ lit_eq i j = true).
(** A blank node is a resource without IRI or literal. *)
Definition nameless {St R} (I : interp_rev St R) (st : St) (r : R) : bool :=
  match i_iris_of I st r, i_literals_of I st r with [], [] => true | _, _ => false end.

(** The function a list of pairs stands for, the identity elsewhere. *)
Fixpoint as_function {R} (cmp : R -> R -> comparison) (m : list (R * R)) (x : R) : R :=
  match m with
  | [] => x
  | (a, b) :: m => if same cmp a x then b else as_function cmp m x
  end.

(** ** Terms that compare equal without being the same
    When IRIs are compared by their normal forms [ki] and language tags by theirs
    [kt], a local term stands for the one made of normal forms. *)
Definition normal_term (ki kt : text -> text) (t : local_term) : local_term :=
  match t with
  | Anonymous b => Anonymous b
  | Named (TIri i) => Named (TIri (ki i))
  | Named (TLit (Literal v (LAny i))) => Named (TLit (Literal v (LAny (ki i))))
  | Named (TLit (Literal v (LLang l))) => Named (TLit (Literal v (LLang (kt l))))
  end.
