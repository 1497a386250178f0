(** Running a container: a step function that may panic ([None]), and runs over
    a list of operations, collecting what each returns. *)
From Coq Require Import List.
Import ListNotations.

Section Machine.
  Context {S O X : Type} (step : S -> O -> option (X * S)).

  Fixpoint run (s : S) (l : list O) : option (list X * S) :=
    match l with
    | [] => Some ([], s)
    | o :: r =>
        match step s o with
        | None => None
        | Some (x, s') =>
            match run s' r with
            | None => None
            | Some (xs, s'') => Some (x :: xs, s'')
            end
        end
    end.
End Machine.
