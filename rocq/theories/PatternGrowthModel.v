(** The maps of /repo/src/pattern/triple/map.rs built by insertions and unions in any
    order and nesting.  [insert] and [union_with] take [&mut self], [union_with] also
    the other map by value (and the maps are not [Clone]), so every map a program
    holds is described by a tree. *)
From Coq Require Import List.

Inductive growth (P V : Type) :=
  | Fresh
  | Inserted (e : growth P V) (c : P) (v : V)
  | United (a b : growth P V).
Arguments Fresh {P V}. Arguments Inserted {P V}. Arguments United {P V}.

(** [Default::default()], derived (map.rs 54-55, 110-111, 177-178, 233-234, 300-301, 378-379), [insert]
    (62-69, 119-127, 185-192, 242-250, 310-319, 387-395) and [union_with]
    (82-85, 153-157, 212-215, 276-280, 351-356, 421-425) of one of the maps. *)
Fixpoint grow {P V M} (d : M) (insert : P -> V -> M -> bool * M) (union : M -> M -> M)
    (e : growth P V) : M :=
  match e with
  | Fresh => d
  | Inserted e c v => snd (insert c v (grow d insert union e))
  | United a b => union (grow d insert union a) (grow d insert union b)
  end.
