(** Vocabulary of the undoing of a batch.  Nothing here uses the model. *)
From Coq Require Import List.
Import ListNotations.
From Verif Require Import TripleModel SetSpec IndexedSpec.

(** All the elements of [b] are inserted, then removed, the last one first. *)
Definition tried {X} (b : list X) : list (op X) := map Insert b ++ map Remove (rev b).

(** What an operation returned, without the distinction between no graph and an
    empty graph. *)
Definition graph_or_empty {R} (x : iout R) : iout R :=
  match x with IGraph None => IGraph (Some []) | x => x end.
