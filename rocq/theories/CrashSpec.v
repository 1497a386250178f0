(** What remains of a set when an operation on it is interrupted, independent of
    any implementation.

    The state is a set (SetSpec.v) and a list of losses: elements whose insertion
    was interrupted after it had taken a place, which is never given back.  Only
    [leaves_as_is] speaks of the actions of CrashModel.v. *)
From Coq Require Import List Bool Arith Permutation.
Import ListNotations.
From Verif Require Import TripleModel SetSpec CrashModel.

Section Spec.
  Context {X : Type} (cmp : X -> X -> comparison).

  (** An operation that ends: as on a set, except that the losses are counted by
      [len] and [is_empty]. *)
  Definition answer (s lost : list X) (o : op X) : out X :=
    match o with
    | Len => ONat (length s + length lost)
    | IsEmpty => OBool (length s + length lost =? 0)
    | _ => fst (spec_step cmp s o)
    end.

  (** An operation that is interrupted. *)
  Definition left_over (s lost : list X) (o : op X) (s' lost' : list X) : Prop :=
    match o with
    | Insert x => s' = s /\ (lost' = lost \/ mem cmp x s = false /\ lost' = x :: lost)
    | Remove x => (s' = s \/ s' = del cmp x s) /\ lost' = lost
    | Extend l =>
        exists l1 x l2, l = l1 ++ x :: l2 /\ s' = fold_left (fun s x => add cmp x s) l1 s /\
          (lost' = lost \/ mem cmp x s' = false /\ lost' = x :: lost)
    | Contains _ => s' = s /\ lost' = lost
    | Len | IsEmpty | Iter | IntoIter => False (* never compare *)
    end.

  (** [history s lost l ys s' lost']: from the set [s], the operations [l] return
      [ys] ([None] for the interrupted ones) and leave the set [s']. *)
  Inductive history : list X -> list X -> list (op X) -> list (option (out X)) ->
      list X -> list X -> Prop :=
  | h_nil s lost : history s lost [] [] s lost
  | h_done s lost o l ys s' lost' :
      history (snd (spec_step cmp s o)) lost l ys s' lost' ->
      history s lost (o :: l) (Some (answer s lost o) :: ys) s' lost'
  | h_interrupted s lost o l ys s1 lost1 s' lost' :
      left_over s lost o s1 lost1 ->
      history s1 lost1 l ys s' lost' ->
      history s lost (o :: l) (None :: ys) s' lost'.
End Spec.

(** The interrupted operations of a history. *)
Definition interruptions {X : Type} (ys : list (option X)) : nat :=
  length (filter (fun y => match y with None => true | _ => false end) ys).

(** What the interrupted operations of a history were asked to insert. *)
Fixpoint not_inserted {X : Type} (ops : list (op X)) (ys : list (option (out X))) : list X :=
  match ops, ys with
  | Insert x :: ops, None :: ys => x :: not_inserted ops ys
  | Extend l :: ops, None :: ys => l ++ not_inserted ops ys
  | _ :: ops, _ :: ys => not_inserted ops ys
  | _, _ => []
  end.

(** [l] consists of elements of [m], each at most as often as in [m]. *)
Definition among {X : Type} (l m : list X) : Prop := exists rest, Permutation (l ++ rest) m.

(** The operations that do not change the set. *)
Definition idle {X : Type} (cmp : X -> X -> comparison) (s : list X) (o : op X) : Prop :=
  match o with
  | Insert x => mem cmp x s = true
  | Remove x => mem cmp x s = false
  | Extend l => forall x, In x l -> mem cmp x s = true
  | _ => True
  end.

(** The operation ends normally with [x] or is interrupted, and in both cases the
    state is the one before. *)
Definition leaves_as_is {St X : Type} (a : act St X) (st : St) (x : X) : Prop :=
  forall n,
    match a n st with
    | Done y _ st' => y = x /\ st' = st
    | Interrupted st' => st' = st
    | Failed _ => False
    end.

(** The number of calls that a comparison of two lists of components makes: one for each
    component that both have, up to the first difference. *)
Fixpoint component_calls {X : Type} (cmp : X -> X -> comparison) (xs ys : list (option X)) : nat :=
  match xs, ys with
  | Some x :: xs, Some y :: ys => S match cmp x y with Eq => component_calls cmp xs ys | _ => 0 end
  | None :: xs, None :: ys => component_calls cmp xs ys
  | _, _ => 0
  end.

(** The action makes [k] calls, any of which may panic, returns [x] and changes nothing. *)
Definition makes_calls {St X : Type} (a : act St X) (st : St) (k : nat) (x : X) : Prop :=
  forall n, a n st = if n <? k then Interrupted st else Done x (n - k) st.

Definition quad_parts {R : Type} (q : quad R) : list (option R) := [Some (q_s q); Some (q_p q); Some (q_o q); q_g q].
Definition triple_parts {R : Type} (t : triple R) : list (option R) := [Some (t_s t); Some (t_p t); Some (t_o t)].
