(** What the calls of a consuming iterator return when [Clone] may panic, and how
    many positions of a pattern are given.  Nothing here uses the functions of the
    models. *)
From Coq Require Import List Arith.
Import ListNotations.
From Verif Require Import TripleModel TriplePatternModel.

(** [budgets] holds, for each call of [next], the number of clones made before one
    panics; [parts x] is the number of clones that the element [x] takes.  Call
    number [k] (from 0) is about the element number [k] of [l]: it returns it
    ([Some (Some x)]) or, if the budget does not suffice, panics ([None]), and in
    both cases the next call is about the next element.  Past the end of [l] the
    calls return [Some None]. *)
Fixpoint consumed {X} (parts : X -> nat) (l : list X) (budgets : list nat)
  : list (option (option X)) :=
  match budgets, l with
  | [], _ => []
  | n :: bs, x :: l => (if n <? parts x then None else Some (Some x)) :: consumed parts l bs
  | _ :: bs, [] => Some None :: consumed parts [] bs
  end.

(** The resources in a quad, in a triple. *)
Definition quad_parts {R} (q : quad R) : nat := match q_g q with Some _ => 4 | None => 3 end.
Definition triple_parts {R} (t : triple R) : nat := 3.

(** The number of resources written in a pattern. *)
Definition resources_in {T} (c : ctp T) : nat :=
  match c with
  | CT_AnyS (TA_AnyP (TAA_Given _)) => 1
  | CT_AnyS (TA_AnyP _) => 0
  | CT_AnyS (TA_SameS (TAG_Given _)) => 1
  | CT_AnyS (TA_SameS _) => 0
  | CT_AnyS (TA_GivenP _ (TAG_Given _)) => 2
  | CT_AnyS (TA_GivenP _ _) => 1
  | CT_GivenS _ (TG_AnyP (TGA_Given _)) => 2
  | CT_GivenS _ (TG_AnyP _) => 1
  | CT_GivenS _ (TG_GivenP _ (TGG_Given _)) => 3
  | CT_GivenS _ (TG_GivenP _ TGG_Any) => 2
  end.
Definition resources_in_s {T} (p : pat_s T) : nat := match p with PS_Given _ => 1 | _ => 0 end.
Definition resources_in_p {T} (p : pat_p T) : nat := match p with PP_Given _ => 1 | _ => 0 end.
Definition resources_in_o {T} (p : pat_o T) : nat := match p with PO_Given _ => 1 | _ => 0 end.

(** The answers to [n] calls of an iterator that can be called again after a panic
    ([None]). *)
Fixpoint polls {X S} (poll : S -> option (option X) * S) (n : nat) (s : S)
  : list (option (option X)) :=
  match n with
  | 0 => []
  | Datatypes.S n => fst (poll s) :: polls poll n (snd (poll s))
  end.
(** The marked places of a row, in order: what is there, or [None]. *)
Fixpoint glimpses {R} (mark : nat -> bool) (s : list (option R)) : list (option R) :=
  match s with
  | [] => []
  | e :: s => (if mark 0 then [e] else []) ++ glimpses (fun k => mark (S k)) s
  end.
