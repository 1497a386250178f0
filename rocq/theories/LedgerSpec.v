(** Which resources a container reports: an account of one resource, kept from
    the changes made to the set.  It knows nothing of slots, counters or trees.

    A resource is filed under a number when an element brings it in while it is
    not reported; the elements that bring it again while it is reported are
    filed under the same number.  An element that brings it in several times at
    once, while it is not reported, is marked.  The resource stops being reported
    when a marked element leaves, or the last element filed under some number,
    even if others remain. *)
From Coq Require Import List Bool Arith.
Import ListNotations.
From Verif Require Import SetSpec IndexedSpec.

Section Ledger.
  Context {X R : Type} (xcmp : X -> X -> comparison) (cmp : R -> R -> comparison).
  Context (comps : X -> list R) (r : R).

  Record ledger := Ledger {
    reported : bool;
    number : nat;                     (* the last number given *)
    filed : list (X * (nat * bool))   (* element, its number, is it marked? *)
  }.

  Definition ledger_new : ledger := Ledger false 0 [].

  (** How often [r] is a component of [x]. *)
  Definition times (x : X) : nat := length (filter (same cmp r) (comps x)).

  Definition file (x : X) (a : ledger) : ledger :=
    if times x =? 0 then a
    else if reported a then Ledger true (number a) ((x, (number a, false)) :: filed a)
    else Ledger true (S (number a)) ((x, (S (number a), 1 <? times x)) :: filed a).

  Definition unfile (x : X) (a : ledger) : ledger :=
    match find (fun m => same xcmp x (fst m)) (filed a) with
    | None => a
    | Some (_, (n, marked)) =>
        let rest := filter (fun m => negb (same xcmp x (fst m))) (filed a) in
        let last := negb (existsb (fun m => fst (snd m) =? n) rest) in
        Ledger (reported a && negb (marked || last)) (number a) rest
    end.

  Definition entry (a : ledger) (c : change X) : ledger :=
    if fst c then file (snd c) a else unfile (snd c) a.

  (** The account of a list of changes, starting from the empty set. *)
  Definition account (l : list (change X)) : ledger := fold_left entry l ledger_new.
End Ledger.
Arguments ledger : clear implicits.
