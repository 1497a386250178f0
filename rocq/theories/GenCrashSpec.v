(** What a program sees of generators and interpretations that may panic, when it catches the panics and
    goes on. *)
From Coq Require Import List NArith Bool.
Import ListNotations.
From Verif Require Import Base DisplayModel TermModel InterpretationModel.

(** A call returned a value, or panicked. *)
Inductive result (A : Type) := Returned (x : A) | Panicked.
Arguments Returned {A} _.
Arguments Panicked {A}.

(** The values returned by the calls that returned. *)
Fixpoint returned {A} (l : list (result A)) : list A :=
  match l with
  | [] => []
  | Returned x :: l => x :: returned l
  | Panicked :: l => returned l
  end.

(** [n] calls of a generator, one after the other, and its last state. *)
Fixpoint draw {G T} (next : G -> result T * G) (n : nat) (g : G) : list (result T) * G :=
  match n with
  | 0 => ([], g)
  | S n => let '(t, g) := next g in let '(l, g) := draw next n g in (t :: l, g)
  end.

(** The terms that a sequence of calls is about: those inserted by the program and those that the
    generator, being in state [g], returns ([Panicked] where it panics); and its last state. *)
Fixpoint terms {G T} (next : G -> result T * G) (g : G) (calls : list (call T)) : list (result T) * G :=
  match calls with
  | [] => ([], g)
  | Insert t :: calls => let '(l, g) := terms next g calls in (Returned t :: l, g)
  | New :: calls => let '(t, g) := next g in let '(l, g) := terms next g calls in (t :: l, g)
  end.

(** Of the answers [l] to a sequence of calls, those to [new_resource]; and how many they are. *)
Fixpoint to_new {T A} (calls : list (call T)) (l : list A) : list A :=
  match calls, l with
  | New :: calls, a :: l => a :: to_new calls l
  | Insert _ :: calls, _ :: l => to_new calls l
  | _, _ => []
  end.
Fixpoint news {T} (calls : list (call T)) : nat :=
  match calls with
  | [] => 0
  | Insert _ :: calls => news calls
  | New :: calls => S (news calls)
  end.

(** The given terms are inserted one after the other; where there is none, nothing is done, and the
    answer is a panic. *)
Fixpoint insert_each {St R T} (insert : St -> T -> result R * St) (st : St) (l : list (result T))
  : list (result R) * St :=
  match l with
  | [] => ([], st)
  | Panicked :: l => let '(ys, st) := insert_each insert st l in (Panicked :: ys, st)
  | Returned t :: l =>
      let '(y, st) := insert st t in let '(ys, st) := insert_each insert st l in (y :: ys, st)
  end.

(** The method of the interpretation that a term is given to, by value: one for each kind of term. *)
Definition give {A} (iri : cow -> A) (literal : literal_cow -> A) (t : term) : A :=
  match t with
  | TIri i => iri (Owned i)
  | TLit (Literal v (LAny i)) => literal (LiteralCow (Owned v) (CAny (Owned i)))
  | TLit (Literal v (LLang l)) => literal (LiteralCow (Owned v) (CLang (Owned l)))
  end.
Definition give_local {A} (iri : cow -> A) (literal : literal_cow -> A) (blank : cow -> A) (t : local_term) : A :=
  match t with
  | Anonymous b => blank (Owned b)
  | Named t => give iri literal t
  end.

(** An insertion that returns answers what the term denotes from then on; and what terms denote does not
    change, whether the insertion returns or panics. *)
Record survives {St R T} (lookup : St -> T -> option R) (insert : St -> T -> result R * St) : Prop := {
  survives_new : forall st t r st', insert st t = (Returned r, st') -> lookup st' t = Some r;
  survives_old : forall st t y st' u s,
    insert st t = (y, st') -> lookup st u = Some s -> lookup st' u = Some s
}.

(** A generator that may call [new_resource] of the interpretation that holds it: it ends, leaving its
    state, or its state is [g] and it calls, and goes on with the answer (a panic, unless caught, being
    the end) and its state then. *)
Inductive behaviour (G T : Type) :=
| Ends (r : result T) (g : G)
| Calls (g : G) (k : result T -> G -> behaviour G T).
Arguments Ends {G T} _ _.
Arguments Calls {G T} _ _.

(** How it ends if all its calls panic and do nothing. *)
Fixpoint alone {G T} (b : behaviour G T) : result T * G :=
  match b with
  | Ends r g => (r, g)
  | Calls g k => alone (k Panicked g)
  end.
