(** Models of the data structures of other crates that the containers are
    built on.  Their source is not in the repository; this is the behaviour we
    rely on (trusted, see DESIGN.md section 2). *)
From Coq Require Import List Bool Arith.
Import ListNotations.
From Verif Require Import Base.
Open Scope panic_scope.

(** ** [slab::Slab] (crate slab 0.4): a vector of entries, and the list of
    vacant keys, most recently freed first (slab threads it through the vacant
    entries). *)
Record slab (T : Type) := Slab { ents : list (option T); free : list nat }.
Arguments Slab {T} _ _.
Arguments ents {T} _.
Arguments free {T} _.

Definition slab_new {T} : slab T := Slab [] [].

(** [Slab::get]; indexing [slab[i]] is the same with [None] as a panic. *)
Definition sget {T} (s : slab T) (i : nat) : option T :=
  match nth_error (ents s) i with Some (Some x) => Some x | _ => None end.

(** Replace the entry at position [i]. *)
Fixpoint list_set {A} (l : list A) (i : nat) (x : A) : list A :=
  match l, i with
  | [], _ => []
  | _ :: r, 0 => x :: r
  | y :: r, S j => y :: list_set r j x
  end.

(** Key of [Slab::vacant_entry]. *)
Definition vacant_key {T} (s : slab T) : nat :=
  match free s with k :: _ => k | [] => length (ents s) end.

(** [Slab::insert] / [VacantEntry::insert]: fills the vacant key. *)
Definition sinsert {T} (s : slab T) (x : T) : slab T :=
  match free s with
  | k :: f => Slab (list_set (ents s) k (Some x)) f
  | [] => Slab (ents s ++ [Some x]) []
  end.

(** Assignment through [slab[i]] (the caller has read the entry before). *)
Definition sset {T} (s : slab T) (i : nat) (x : T) : slab T :=
  Slab (list_set (ents s) i (Some x)) (free s).

(** [Slab::remove]: panics on a vacant key. *)
Definition sremove {T} (s : slab T) (i : nat) : option (T * slab T) :=
  match sget s i with
  | Some x => Some (x, Slab (list_set (ents s) i None) (i :: free s))
  | None => None
  end.

(** Keys and values by increasing key: [Slab]'s [IntoIterator]. *)
Fixpoint spairs_from {T} (n : nat) (l : list (option T)) : list (nat * T) :=
  match l with
  | [] => []
  | Some x :: r => (n, x) :: spairs_from (S n) r
  | None :: r => spairs_from (S n) r
  end.
Definition spairs {T} (s : slab T) : list (nat * T) := spairs_from 0 (ents s).

(** [Slab::len] (slab keeps a counter; here it is recomputed). *)
Definition slen {T} (s : slab T) : nat := length (spairs s).

(** [Slab]'s [FromIterator<(usize, T)>] on increasing keys: gaps become
    vacant entries, the last gap first in the free list. *)
Fixpoint gap {T} (s : slab T) (n : nat) : slab T :=
  match n with
  | 0 => s
  | S m => gap (Slab (ents s ++ [None]) (length (ents s) :: free s)) m
  end.
Fixpoint scollect_from {T} (s : slab T) (l : list (nat * T)) : slab T :=
  match l with
  | [] => s
  | (k, x) :: r =>
      let s1 := gap s (k - length (ents s)) in
      scollect_from (Slab (ents s1 ++ [Some x]) (free s1)) r
  end.
Definition scollect {T} (l : list (nat * T)) : slab T := scollect_from slab_new l.

(** ** [raw_btree::RawBTree<usize>] (crate raw-btree 0.2): a sequence searched
    with the comparison passed at each call.  The comparison may panic.
    [RawBTree::get]. *)
Fixpoint bt_get {K} (cmp : nat -> K -> option comparison) (k : K) (l : list nat)
  : option (option nat) :=
  match l with
  | [] => Some None
  | i :: r =>
      c <- cmp i k ;;
      match c with
      | Lt => bt_get cmp k r
      | Eq => Some (Some i)
      | Gt => Some None
      end
  end.

(** [RawBTree::insert]; [keep] says what happens to an item that compares equal to
    the new one: kept if [true], replaced if [false]. *)
Fixpoint bt_insert (keep : bool) (cmp : nat -> nat -> option comparison) (x : nat) (l : list nat)
  : option (list nat) :=
  match l with
  | [] => Some [x]
  | i :: r =>
      c <- cmp i x ;;
      match c with
      | Lt => r' <- bt_insert keep cmp x r ;; Some (i :: r')
      | Eq => Some ((if keep then i else x) :: r)
      | Gt => Some (x :: i :: r)
      end
  end.

(** [RawBTree::remove]: the removed item, if any, and the rest. *)
Fixpoint bt_remove {K} (cmp : nat -> K -> option comparison) (k : K) (l : list nat)
  : option (option nat * list nat) :=
  match l with
  | [] => Some (None, [])
  | i :: r =>
      c <- cmp i k ;;
      match c with
      | Lt => '(x, r') <- bt_remove cmp k r ;; Some (x, i :: r')
      | Eq => Some (Some i, r)
      | Gt => Some (None, i :: r)
      end
  end.

(** ** [std::collections::BTreeSet<usize>]: strictly increasing lists. *)
Fixpoint ns_insert (x : nat) (l : list nat) : list nat :=
  match l with
  | [] => [x]
  | y :: r =>
      match Nat.compare x y with
      | Lt => x :: l
      | Eq => l
      | Gt => y :: ns_insert x r
      end
  end.

Fixpoint ns_remove (x : nat) (l : list nat) : list nat :=
  match l with
  | [] => []
  | y :: r =>
      match Nat.compare x y with
      | Lt => l
      | Eq => r
      | Gt => y :: ns_remove x r
      end
  end.

Fixpoint ns_mem (x : nat) (l : list nat) : bool :=
  match l with
  | [] => false
  | y :: r =>
      match Nat.compare x y with
      | Lt => false
      | Eq => true
      | Gt => ns_mem x r
      end
  end.
