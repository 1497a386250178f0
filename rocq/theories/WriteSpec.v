(** Writers that may fail, and what it means to write a text to one. *)
From Coq Require Import List Arith NArith Bool.
Import ListNotations.
Local Open Scope nat_scope.

(** A writer takes pieces of text (lists of code points) one by one; [true] says
    that it took the piece.  Something that can be displayed uses any writer, from
    any state of it; [None] is a panic. *)
Definition writer (W : Type) : Type := W -> list N -> W * bool.
Definition display : Type := forall W, writer W -> W -> option (W * bool).

(** The pieces are given to the writer in order, until it refuses one. *)
Fixpoint feed {W} (wr : writer W) (ps : list (list N)) (w : W) : W * bool :=
  match ps with
  | [] => (w, true)
  | p :: ps => let (w', ok) := wr w p in if ok then feed wr ps w' else (w', false)
  end.

(** [d] is the display of the text [s]: it has pieces, which do not depend on the
    writer and make up [s]. *)
Definition writes (d : display) (s : list N) : Prop :=
  exists ps, concat ps = s /\ forall W (wr : writer W) w, d W wr w = Some (feed wr ps w).

(** A writer with room for [n] characters in all, which takes as much as it can. *)
Definition bounded (n : nat) : writer (list N) := fun w p =>
  if length w + length p <=? n then (w ++ p, true) else (w ++ firstn (n - length w) p, false).

(** A writer seen from outside: what it was given, and what it answered. *)
Definition observed {W} (wr : writer W) : writer (W * list (list N * bool)) := fun w p =>
  let (w', ok) := wr (fst w) p in ((w', snd w ++ [(p, ok)]), ok).

(** [got w] is the text that the writer has kept: a piece that it takes is kept, and
    of a piece that it refuses at most the beginning. *)
Definition keeps {W} (wr : writer W) (got : W -> list N) : Prop :=
  forall w p, exists kept left, p = kept ++ left /\ got (fst (wr w p)) = got w ++ kept /\
    (snd (wr w p) = true -> left = []).
