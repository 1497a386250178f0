(** What a map built by insertions and unions holds: a union keeps what the other map
    holds, and of this map what is under a key the other map does not use. *)
From Verif Require Import PatternGrowthModel.

Fixpoint kept {P V} (same_key : P -> P -> Prop) (e : growth P V) (c : P) (v : V) : Prop :=
  match e with
  | Fresh => False
  | Inserted e c' v' => (c = c' /\ v = v') \/ kept same_key e c v
  | United a b => kept same_key b c v \/
      (kept same_key a c v /\ ~ exists c' v', kept same_key b c' v' /\ same_key c' c)
  end.

(** Every pair inserted somewhere. *)
Fixpoint inserted {P V} (e : growth P V) (c : P) (v : V) : Prop :=
  match e with
  | Fresh => False
  | Inserted e c' v' => (c = c' /\ v = v') \/ inserted e c v
  | United a b => inserted a c v \/ inserted b c v
  end.
(** At every union, the two maps use no key in common. *)
Fixpoint apart {P V} (same_key : P -> P -> Prop) (e : growth P V) : Prop :=
  match e with
  | Fresh => True
  | Inserted e _ _ => apart same_key e
  | United a b => apart same_key a /\ apart same_key b /\
      forall c v c' v', inserted a c v -> inserted b c' v' -> ~ same_key c' c
  end.
