(** The maps of /repo/src/pattern/triple/map.rs built by insertions and unions in any order
    and nesting, of which some were interrupted by a panic of [Hash] or [Eq]. *)
From Coq Require Import List.

(** An insertion with the number of look-ups that succeed, and a union that no panic
    interrupts or with the number of look-ups that succeed (PatternCrashModel.v). *)
Inductive trial (P V : Type) :=
  | TFresh
  | TInserted (n : nat) (e : trial P V) (c : P) (v : V)
  | TUnited (n : option nat) (a b : trial P V).
Arguments TFresh {P V}. Arguments TInserted {P V}. Arguments TUnited {P V}.

(** The maps that may result: [Default::default()], derived (map.rs 54-55, 110-111, 177-178, 233-234,
    300-301, 378-379), [insert] (62-69, 119-127, 185-192, 242-250, 310-319, 387-395) and [union_with]
    (82-85, 153-157, 212-215, 276-280, 351-356, 421-425).  Which map results is not determined, because
    at any time the tables may be iterated in any order. *)
Inductive tried {P V M} (d : M) (insert_at : nat -> P -> V -> M -> option bool * M)
    (union : M -> M -> M) (union_at : nat -> M -> M -> option nat * M) (order : M -> M -> Prop)
  : trial P V -> M -> Prop :=
  | tried_fresh : tried d insert_at union union_at order TFresh d
  | tried_inserted n e c v m : tried d insert_at union union_at order e m ->
      tried d insert_at union union_at order (TInserted n e c v) (snd (insert_at n c v m))
  | tried_united a b m o : tried d insert_at union union_at order a m ->
      tried d insert_at union union_at order b o ->
      tried d insert_at union union_at order (TUnited None a b) (union m o)
  | tried_united_at n a b m o : tried d insert_at union union_at order a m ->
      tried d insert_at union union_at order b o ->
      tried d insert_at union union_at order (TUnited (Some n) a b) (snd (union_at n m o))
  | tried_order e m m' : tried d insert_at union union_at order e m -> order m m' ->
      tried d insert_at union union_at order e m'.
