(** What a user expects of an interpretation of terms of type [T] (terms, or local
    terms). *)
From Coq Require Import List Bool.
Import ListNotations.
From Verif Require Import DisplayModel TermModel InterpretationModel.

Section Spec.
  Context {St R T : Type}.
  (** Looking a term up; inserting a term. *)
  Context (lookup : St -> T -> option R) (insert : St -> T -> R * St).

  (** An insertion answers what the term denotes from then on, and what other
      terms denote does not change. *)
  Record faithful : Prop := {
    faith_new : forall st t, lookup (snd (insert st t)) t = Some (fst (insert st t));
    faith_old : forall st t u r, lookup st u = Some r -> lookup (snd (insert st t)) u = Some r
  }.
  (** Different terms denote different resources. *)
  Definition separate (st : St) : Prop :=
    forall t u r, lookup st t = Some r -> lookup st u = Some r -> t = u.
End Spec.

(** The term a copy-on-write term stands for. *)
Definition local_cow_value (t : local_cow) : local_term :=
  match t with CAnonymous b => Anonymous (cow_text b) | CNamed t => Named (term_cow_into_owned t) end.

(** A generator in state [g] produces the terms [l] one after the other, and then
    is in state [g']. *)
Inductive draws {G T} (next : G -> option (T * G)) : G -> list T -> G -> Prop :=
| draws_none g : draws next g [] g
| draws_one g t g1 l g2 :
    next g = Some (t, g1) -> draws next g1 l g2 -> draws next g (t :: l) g2.

(** Of the answers [l] to a sequence of calls, those to [new_resource]. *)
Fixpoint answers_to_new {T A} (calls : list (call T)) (l : list A) : list A :=
  match calls, l with
  | New :: calls, a :: l => a :: answers_to_new calls l
  | Insert _ :: calls, _ :: l => answers_to_new calls l
  | _, _ => []
  end.
(** The answer to an insertion is about the term inserted. *)
Definition answers {T R} (c : call T) (a : T * R) : Prop :=
  match c with Insert t => fst a = t | New => True end.
