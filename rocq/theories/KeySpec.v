(** What the order, the equality and the hash of patterns should be, in terms of
    their accessors.  Nothing here uses the functions of KeyModel.v. *)
From Coq Require Import List Arith Bool.
Import ListNotations.
From Verif Require Import Base TriplePatternModel QuadPatternModel.

Section Keys.
  Context {T : Type}.
  (** What a pattern says of one component: unconstrained (0), same as the subject
      (1), the predicate (2) or the object (3), given (4) and then what it is; for the
      graph, nothing is the default graph. *)
  Definition key : Type := nat * option T.
  Definition s_key (p : pat_s T) : key :=
    match p with PS_Any => (0, None) | PS_Given t => (4, Some t) end.
  Definition p_key (p : pat_p T) : key :=
    match p with PP_Any => (0, None) | PP_SameS => (1, None) | PP_Given t => (4, Some t) end.
  Definition o_key (p : pat_o T) : key :=
    match p with
    | PO_Any => (0, None) | PO_SameS => (1, None) | PO_SameP => (2, None) | PO_Given t => (4, Some t)
    end.
  Definition g_key (p : pat_g T) : key :=
    match p with
    | PG_Any => (0, None) | PG_SameS => (1, None) | PG_SameP => (2, None) | PG_SameO => (3, None)
    | PG_Given g => (4, g)
    end.
  Definition triple_keys (c : ctp T) : list key :=
    [s_key (ct_subject c); p_key (ct_predicate c); o_key (ct_object c)].
  Definition quad_keys (c : cqp T) : list key :=
    [s_key (cq_subject c); p_key (cq_predicate c); o_key (cq_object c); g_key (cq_graph c)].

  (** Equality, partial order and order of keys, and of lists of them: the first
      difference decides. *)
  Definition key_eq (eq : T -> T -> bool) (a b : key) : bool :=
    (fst a =? fst b) &&
    match snd a, snd b with Some x, Some y => eq x y | None, None => true | _, _ => false end.
  Definition key_pcmp (pcmp : T -> T -> option comparison) (a b : key) : option comparison :=
    match Nat.compare (fst a) (fst b), snd a, snd b with
    | Eq, Some x, Some y => pcmp x y
    | Eq, Some _, None => Some Gt
    | Eq, None, Some _ => Some Lt
    | c, _, _ => Some c
    end.
  Definition key_cmp (cmp : T -> T -> comparison) (a b : key) : comparison :=
    match Nat.compare (fst a) (fst b), snd a, snd b with
    | Eq, Some x, Some y => cmp x y
    | Eq, Some _, None => Gt
    | Eq, None, Some _ => Lt
    | c, _, _ => c
    end.
  Fixpoint keys_eq (eq : T -> T -> bool) (l m : list key) : bool :=
    match l, m with
    | [], [] => true
    | a :: l, b :: m => key_eq eq a b && keys_eq eq l m
    | _, _ => false
    end.
  Fixpoint keys_pcmp (pcmp : T -> T -> option comparison) (l m : list key) : option comparison :=
    match l, m with
    | [], [] => Some Eq
    | a :: l, b :: m =>
        match key_pcmp pcmp a b with Some Eq => keys_pcmp pcmp l m | c => c end
    | [], _ :: _ => Some Lt
    | _ :: _, [] => Some Gt
    end.
  Fixpoint keys_cmp (cmp : T -> T -> comparison) (l m : list key) : comparison :=
    match l, m with
    | [], [] => Eq
    | a :: l, b :: m => match key_cmp cmp a b with Eq => keys_cmp cmp l m | c => c end
    | [], _ :: _ => Lt
    | _ :: _, [] => Gt
    end.
End Keys.
Arguments key : clear implicits.

(** What the standard collections ask of a key: a total order, [==] and [<] that
    agree with it, and a hash.  Equal keys are the same value here, so what they feed
    to the hasher is the same; it also ends where it must for sequences of keys to be
    told apart. *)
Record key_laws {A F : Type} (eq : A -> A -> bool) (pcmp : A -> A -> option comparison)
    (cmp : A -> A -> comparison) (hash : A -> list F) : Prop := {
  key_ord : ord_laws cmp;
  key_same : forall x y, eq x y = true <-> x = y;
  key_partial : forall x y, pcmp x y = Some (cmp x y);
  key_hash : forall x y l m, hash x ++ l = hash y ++ m -> x = y /\ l = m
}.
