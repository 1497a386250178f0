(** Total orders given by a comparison function, the option monad used for
    panics, and small list functions shared by the model and the
    specifications.  No proofs here. *)
From Coq Require Import List Bool Arith NArith Lia.
Import ListNotations.

(** The laws of Rust's [Ord]/[Eq]: [cmp] is a total order whose [Equal] is
    identity.  Simplification: Rust's [==] is modelled by Leibniz equality. *)
Record ord_laws {A : Type} (cmp : A -> A -> comparison) : Prop := {
  ord_eq : forall x y, cmp x y = Eq <-> x = y;
  ord_sym : forall x y, cmp y x = CompOpp (cmp x y);
  ord_trans : forall x y z, cmp x y = Lt -> cmp y z = Lt -> cmp x z = Lt
}.

(** Panics: [None] means that the Rust code panics. *)
Definition bind {A B : Type} (x : option A) (f : A -> option B) : option B :=
  match x with Some a => f a | None => None end.

Declare Scope panic_scope.
Delimit Scope panic_scope with panic.
Notation "x <- a ;; b" := (bind a (fun x => b))
  (at level 61, a at next level, right associativity) : panic_scope.
Notation "' p <- a ;; b" := (bind a (fun p => b))
  (at level 61, p pattern, a at next level, right associativity) : panic_scope.

(** [mapM f l]: [f] on every element, panicking if one panics. *)
Fixpoint mapM {A B : Type} (f : A -> option B) (l : list A) : option (list B) :=
  match l with
  | [] => Some []
  | x :: r =>
      match f x with
      | None => None
      | Some y => match mapM f r with None => None | Some ys => Some (y :: ys) end
      end
  end.

(** Lexicographic comparison of sequences, as [Iterator::cmp] and [slice::cmp]
    in Rust's standard library. *)
Fixpoint list_cmp {A B : Type} (cmp : A -> B -> comparison) (l : list A) (m : list B)
  : comparison :=
  match l, m with
  | [], [] => Eq
  | [], _ :: _ => Lt
  | _ :: _, [] => Gt
  | x :: l', y :: m' =>
      match cmp x y with Eq => list_cmp cmp l' m' | c => c end
  end.

(** [Option]'s derived order: [None] first. *)
Definition option_cmp {A B : Type} (cmp : A -> B -> comparison) (x : option A) (y : option B)
  : comparison :=
  match x, y with
  | None, None => Eq
  | None, Some _ => Lt
  | Some _, None => Gt
  | Some a, Some b => cmp a b
  end.

(** [Ordering::then]. *)
Definition then_cmp (c d : comparison) : comparison :=
  match c with Eq => d | _ => c end.
