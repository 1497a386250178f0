(** What remains of a set when an operation on it is interrupted, also at its end, by the destructor of
    a value that it was given (compare [left_over] of CrashSpec.v). *)
From Coq Require Import List Bool Arith.
Import ListNotations.
From Verif Require Import TripleModel SetSpec CrashModel CrashSpec.

Section Spec.
  Context {X : Type} (cmp : X -> X -> comparison).

  (** An insertion that is interrupted has done nothing, or has lost the element, or is complete. *)
  Definition insertion_cut (s lost : list X) (x : X) (s' lost' : list X) : Prop :=
    s' = s /\ lost' = lost \/
    mem cmp x s = false /\ s' = s /\ lost' = x :: lost \/
    s' = add cmp x s /\ lost' = lost.

  Definition cut (s lost : list X) (o : op X) (s' lost' : list X) : Prop :=
    match o with
    | Insert x => insertion_cut s lost x s' lost'
    | Extend l =>
        exists l1 x l2, l = l1 ++ x :: l2 /\
          insertion_cut (fold_left (fun s x => add cmp x s) l1 s) lost x s' lost'
    | Remove x => (s' = s \/ s' = del cmp x s) /\ lost' = lost
    | Contains _ => s' = s /\ lost' = lost
    | Len | IsEmpty | Iter | IntoIter => False (* neither compare nor drop anything *)
    end.

  (** As [history] of CrashSpec.v. *)
  Inductive cut_history : list X -> list X -> list (op X) -> list (option (out X)) ->
      list X -> list X -> Prop :=
  | ch_nil s lost : cut_history s lost [] [] s lost
  | ch_done s lost o l ys s' lost' :
      cut_history (snd (spec_step cmp s o)) lost l ys s' lost' ->
      cut_history s lost (o :: l) (Some (answer cmp s lost o) :: ys) s' lost'
  | ch_cut s lost o l ys s1 lost1 s' lost' :
      cut s lost o s1 lost1 ->
      cut_history s1 lost1 l ys s' lost' ->
      cut_history s lost (o :: l) (None :: ys) s' lost'.
End Spec.

(** [a'] is [a] followed by calls that do not change the state: whichever of them panics, the changes of
    [a] are there. *)
Definition then_calls {St A : Type} (a a' : act St A) : Prop :=
  forall n st, match a n st with
    | Done x _ st' =>
        match a' n st with Done y _ t => y = x /\ t = st' | Interrupted t => t = st' | Failed _ => False end
    | Interrupted st' => a' n st = Interrupted st'
    | Failed st' => a' n st = Failed st'
    end.

(** Up to some call of the user's code a panic leaves the state as it was; from that call on, whether a
    later one panics or none does, the state satisfies [after]. *)
Definition turns {St A : Type} (a : act St A) (st : St) (after : St -> Prop) : Prop :=
  exists k, forall n,
    (n < k -> a n st = Interrupted st) /\
    (k <= n -> match a n st with Done _ _ t | Interrupted t => after t | Failed _ => False end).

(** The action calls the user's code [k] times, returns [x] and leaves [st'], if no call panics. *)
Definition costs {St A : Type} (a : act St A) (st : St) (k : nat) (x : A) (st' : St) : Prop :=
  forall n,
    (n < k -> exists t, a n st = Interrupted t) /\
    (k <= n -> a n st = Done x (n - k) st').

(** Actions one after the other. *)
Fixpoint all_of {St O A : Type} (step : O -> act St A) (l : list O) : act St (list A) :=
  match l with
  | [] => ret []
  | o :: l => andthen (step o) (fun x => andthen (all_of step l) (fun xs => ret (x :: xs)))
  end.

(** The values that a quad or a triple is made of. *)
Definition quad_values {R : Type} (q : quad R) : nat := match q_g q with Some _ => 4 | None => 3 end.
Definition triple_values {R : Type} (t : triple R) : nat := 3.

(** The values given to a container by operations ([count]: those of an element). *)
Definition given {X : Type} (count : X -> nat) (o : op X) : nat :=
  match o with
  | Insert x => count x
  | Extend l => fold_right (fun x n => count x + n) 0 l
  | _ => 0
  end.
Definition all_given {X : Type} (count : X -> nat) (l : list (op X)) : nat :=
  fold_right (fun o n => given count o + n) 0 l.
