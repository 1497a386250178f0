(** Vocabulary of the properties of iterators: successive calls of [next].
    Nothing here uses the functions of the model. *)
From Coq Require Import List.
Import ListNotations.
From Verif Require Import Base.
Open Scope panic_scope.

Section Calls.
  (** A call of [next] may panic ([None]); it returns an item or [None], and the
      next state. *)
  Context {I X : Type} (next : I -> option (option X * I)).

  (** What [n] successive calls return, whether or not some of them return
      [None], and the state after them. *)
  Fixpoint calls (n : nat) (i : I) : option (list (option X) * I) :=
    match n with
    | 0 => Some ([], i)
    | S n => '(x, i) <- next i ;; '(l, i) <- calls n i ;; Some (x :: l, i)
    end.

  (** However often [next] is called from the state [i], no call panics and the
      call number [k] (from 0) returns the element number [k] of [l], or [None] if
      there is none: the iterator yields [l] and is fused. *)
  Definition streams (i : I) (l : list X) : Prop :=
    forall n, exists j, calls n i = Some (map (nth_error l) (seq 0 n), j).
End Calls.

(** An iterator that does not panic. *)
Definition total {I X : Type} (next : I -> option X * I) (i : I) : option (option X * I) :=
  Some (next i).
