(** Specification of a mutable set, independent of any implementation: the
    state is the list of its elements, most recent first, without duplicates.
    Used for all four containers ([X] is a triple or a quad). *)
From Coq Require Import List Bool Arith.
Import ListNotations.

Section Set_spec.
  Context {X : Type} (cmp : X -> X -> comparison).

  Definition same (x y : X) : bool :=
    match cmp x y with Eq => true | _ => false end.

  (** Is [x] an element? *)
  Definition mem (x : X) (s : list X) : bool := existsb (same x) s.
  Definition add (x : X) (s : list X) : list X := if mem x s then s else x :: s.
  Definition del (x : X) (s : list X) : list X := filter (fun y => negb (same x y)) s.

  (** The elements in increasing order (insertion sort). *)
  Fixpoint place (x : X) (s : list X) : list X :=
    match s with
    | [] => [x]
    | y :: r => match cmp x y with Gt => y :: place x r | _ => x :: s end
    end.
  Definition sorted_elements (s : list X) : list X := fold_right place [] s.

  (** Operations a user performs, and what each returns. *)
  Inductive op :=
  | Insert (x : X)   (* was it absent? *)
  | Remove (x : X)   (* was it present? *)
  | Extend (l : list X)
  | Contains (x : X)
  | Len
  | IsEmpty
  | Iter             (* all the elements, in order *)
  | IntoIter.        (* the same, consuming a copy *)

  Inductive out :=
  | OUnit
  | OBool (b : bool)
  | ONat (n : nat)
  | OList (l : list X).

  Definition spec_step (s : list X) (o : op) : out * list X :=
    match o with
    | Insert x => (OBool (negb (mem x s)), add x s)
    | Remove x => (OBool (mem x s), del x s)
    | Extend l => (OUnit, fold_left (fun s x => add x s) l s)
    | Contains x => (OBool (mem x s), s)
    | Len => (ONat (length s), s)
    | IsEmpty => (OBool (length s =? 0), s)
    | Iter => (OList (sorted_elements s), s)
    | IntoIter => (OList (sorted_elements s), s)
    end.

  Fixpoint spec_run (s : list X) (l : list op) : list out * list X :=
    match l with
    | [] => ([], s)
    | o :: r =>
        let '(x, s') := spec_step s o in
        let '(xs, s'') := spec_run s' r in
        (x :: xs, s'')
    end.

  (** What a history that starts with the empty set returns, and the set
      after it. *)
  Definition spec_outs (l : list op) : list out := fst (spec_run [] l).
  Definition spec_set (l : list op) : list X := snd (spec_run [] l).

  (** ** Resources
      [comps x] lists the resources a triple or quad is made of. *)
  Context {R : Type} (comps : X -> list R).

  (** [r] is a component of some element. *)
  Definition occurs (r : R) (s : list X) : Prop := exists x, In x s /\ In r (comps x).

  (** The only resources among [W] that [x] repeats are resources already in use. *)
  Definition repeats_known (W : R -> Prop) (s : list X) (x : X) : Prop :=
    forall i j r, W r -> i < j -> nth_error (comps x) i = Some r -> nth_error (comps x) j = Some r ->
      occurs r s.

  (** Histories in which no inserted element repeats a resource among [W] that
      is new. *)
  Fixpoint extend_known (W : R -> Prop) (s : list X) (l : list X) : Prop :=
    match l with
    | [] => True
    | x :: r => repeats_known W s x /\ extend_known W (add x s) r
    end.
  Fixpoint known_history (W : R -> Prop) (s : list X) (l : list op) : Prop :=
    match l with
    | [] => True
    | o :: r =>
        match o with
        | Insert x => repeats_known W s x
        | Extend l => extend_known W s l
        | _ => True
        end /\ known_history W (snd (spec_step s o)) r
    end.
End Set_spec.

(** All the resources. *)
Definition any_resource {R : Type} (r : R) : Prop := True.

Arguments op : clear implicits.
Arguments out : clear implicits.
Arguments Insert {X} _.
Arguments Remove {X} _.
Arguments Extend {X} _.
Arguments Contains {X} _.
Arguments Len {X}.
Arguments IsEmpty {X}.
Arguments Iter {X}.
Arguments IntoIter {X}.
Arguments OUnit {X}.
Arguments OBool {X} _.
Arguments ONat {X} _.
Arguments OList {X} _.
