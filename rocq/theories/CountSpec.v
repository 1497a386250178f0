(** How many there are.  Nothing here uses the functions of the model. *)
From Coq Require Import List.

(** Exactly [n] elements have the property [P]. *)
Definition number {A} (P : A -> Prop) (n : nat) : Prop :=
  exists l, NoDup l /\ (forall x, In x l <-> P x) /\ length l = n.
