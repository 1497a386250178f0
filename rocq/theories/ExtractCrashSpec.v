(** What the calls of [next] return, and what they take away, when calls may be
    interrupted.  Independent of the models. *)
From Coq Require Import List.
Import ListNotations.

Section Spec.
  Context {X : Type}.

  (** Every further call returns [None]. *)
  Definition over (ys : list (option (option X))) : Prop := forall y, In y ys -> y = Some None.

  (** [drained rest ys taken]: from an iterator that has [rest] still to return,
      calls end as in [ys] ([None]: interrupted) and remove the items [taken]. *)
  Inductive drained : list X -> list (option (option X)) -> list X -> Prop :=
  | drained_nil rest : drained rest [] []
  | drained_item x rest ys taken :
      drained rest ys taken -> drained (x :: rest) (Some (Some x) :: ys) (x :: taken)
  (** interrupted before the item is removed: the next call tries it again *)
  | drained_again x rest ys taken :
      drained (x :: rest) ys taken -> drained (x :: rest) (None :: ys) taken
  (** interrupted after the item is removed: it is lost, and the iterator ends *)
  | drained_lost x rest ys : over ys -> drained (x :: rest) (None :: ys) [x]
  | drained_end ys : over ys -> drained [] (Some None :: ys) [].

  (** The items returned by the calls. *)
  Fixpoint items (ys : list (option (option X))) : list X :=
    match ys with
    | [] => []
    | Some (Some x) :: ys => x :: items ys
    | _ :: ys => items ys
    end.
End Spec.
