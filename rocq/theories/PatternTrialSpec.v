(** What interrupted insertions and unions leave: the pairs that are held, and the keys that are
    used.  A key may be used without a pair, after an interrupted insertion. *)
From Coq Require Import Arith.
From Verif Require Import PatternCrashSpec PatternTrialModel.

Section Leaves.
  Context {P V : Type} (same_key : P -> P -> Prop) (lookups : P -> nat) (rank : P -> nat).

  (** What [n] look-ups take of the pairs [held] and the keys [used]: a key is taken with all of its pairs,
      no pair without its key, nothing before all of lower rank, and [n] entries, or all if there are
      less. *)
  Definition some_of (n : nat) (held : P -> V -> Prop) (used : P -> Prop) (x : P -> V -> Prop) (y : P -> Prop) : Prop :=
    (forall c v, x c v -> held c v) /\ (forall c, y c -> used c) /\
    (forall c v, y c -> held c v -> x c v) /\
    (forall c v, x c v -> used c -> y c) /\
    (forall c c', same_key c c' -> (y c <-> y c')) /\
    (forall c c', y c \/ (exists v, x c v) -> rank c' < rank c ->
      (forall v, held c' v -> x c' v) /\ (used c' -> y c')) /\
    exists total, amount same_key held used total /\ amount same_key x y (Nat.min n total) /\
      (total <= n -> (forall c v, held c v -> x c v) /\ (forall c, used c -> y c)).

  Inductive leaves : trial P V -> (P -> V -> Prop) -> (P -> Prop) -> Prop :=
    | leaves_fresh : leaves TFresh (fun _ _ => False) (fun _ => False)
    | leaves_inserted n e c v held used : leaves e held used -> lookups c <= n ->
        leaves (TInserted n e c v)
          (fun c' v' => held c' v' \/ (c' = c /\ v' = v)) (fun c' => used c' \/ same_key c c')
    | leaves_interrupted n e c v held used : leaves e held used -> n < lookups c ->
        leaves (TInserted n e c v) held (fun c' => used c' \/ (1 <= n /\ same_key c c'))
    | leaves_united a b held1 used1 held2 used2 : leaves a held1 used1 -> leaves b held2 used2 ->
        leaves (TUnited None a b)
          (fun c v => held2 c v \/ (held1 c v /\ ~ used2 c)) (fun c => used1 c \/ used2 c)
    | leaves_united_at n a b held1 used1 held2 used2 x y : leaves a held1 used1 -> leaves b held2 used2 ->
        some_of n held2 used2 x y ->
        leaves (TUnited (Some n) a b)
          (fun c v => x c v \/ (held1 c v /\ ~ y c)) (fun c => used1 c \/ y c).

  (** The pairs whose insertion came to its end; *)
  Fixpoint finished (e : trial P V) (c : P) (v : V) : Prop :=
    match e with
    | TFresh => False
    | TInserted n e c' v' => (lookups c' <= n /\ c = c' /\ v = v') \/ finished e c v
    | TUnited _ a b => finished a c v \/ finished b c v
    end.
  (** of these, the ones that are in no map that was the argument of an interrupted union. *)
  Fixpoint safe (e : trial P V) (c : P) (v : V) : Prop :=
    match e with
    | TFresh => False
    | TInserted n e c' v' => (lookups c' <= n /\ c = c' /\ v = v') \/ safe e c v
    | TUnited (Some _) a b => safe a c v
    | TUnited None a b => safe a c v \/ safe b c v
    end.
  (** The keys an insertion, finished or not, has used. *)
  Fixpoint touched (e : trial P V) (c : P) : Prop :=
    match e with
    | TFresh => False
    | TInserted n e c' _ => (1 <= n /\ same_key c' c) \/ touched e c
    | TUnited _ a b => touched a c \/ touched b c
    end.
  (** At every union, the argument has used no key of a pair of the map. *)
  Fixpoint disjoint (e : trial P V) : Prop :=
    match e with
    | TFresh => True
    | TInserted _ e _ _ => disjoint e
    | TUnited _ a b => disjoint a /\ disjoint b /\ forall c v, finished a c v -> ~ touched b c
    end.
  (** No union was interrupted. *)
  Fixpoint whole (e : trial P V) : Prop :=
    match e with
    | TFresh => True
    | TInserted _ e _ _ => whole e
    | TUnited n a b => n = None /\ whole a /\ whole b
    end.
End Leaves.
