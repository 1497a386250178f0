(** Pattern maps whose resources and values have an equality that is not identity: the values a map
    holds are the representatives of their classes that came first. *)
From Coq Require Import List.
Import ListNotations.
From Verif Require Import Base TripleModel TriplePatternModel MapSpec PatternGrowthModel PatternTrialModel.

(** The patterns and trees with other resources and values. *)
Definition tgs_map {A B} (f : A -> B) (c : t_gs A) : t_gs B :=
  match c with TG_AnyP r => TG_AnyP (tga_map f r) | TG_GivenP k r => TG_GivenP (f k) (tgg_map f r) end.
Definition tas_map {A B} (f : A -> B) (c : t_as A) : t_as B :=
  match c with
  | TA_AnyP r => TA_AnyP (taa_map f r)
  | TA_SameS r => TA_SameS (tag_map f r)
  | TA_GivenP k r => TA_GivenP (f k) (tag_map f r)
  end.
Fixpoint growth_map {P V P' V'} (fP : P -> P') (fV : V -> V') (e : growth P V) : growth P' V' :=
  match e with
  | Fresh => Fresh
  | Inserted e c v => Inserted (growth_map fP fV e) (fP c) (fV v)
  | United a b => United (growth_map fP fV a) (growth_map fP fV b)
  end.
Fixpoint trial_map {P V P' V'} (fP : P -> P') (fV : V -> V') (e : trial P V) : trial P' V' :=
  match e with
  | TFresh => TFresh
  | TInserted n e c v => TInserted n (trial_map fP fV e) (fP c) (fV v)
  | TUnited n a b => TUnited n (trial_map fP fV a) (trial_map fP fV b)
  end.

(** The values held, [kv] being the class of a value: an insertion is ignored if a value of the class is
    held; a union takes what the other map holds under a key instead of what this map holds
    under it, and of what is under no key what this map holds instead of what the other holds. *)
Fixpoint reps {P V K} (kv : V -> K) (same_key : P -> P -> Prop) (e : growth P V) (c : P) (v : V) : Prop :=
  match e with
  | Fresh => False
  | Inserted e c' v' => reps kv same_key e c v \/
      (c = c' /\ v = v' /\ ~ exists w, reps kv same_key e c w /\ kv w = kv v)
  | United a b =>
      let used := exists c' v', reps kv same_key b c' v' /\ same_key c' c in
      (reps kv same_key a c v /\ ~ used) \/
      (reps kv same_key b c v /\ (used \/ ~ exists w, reps kv same_key a c w /\ kv w = kv v))
  end.
(** Of a sequence of insertions, the first of each class. *)
Definition first_of {P V K} (kv : V -> K) (l : list (P * V)) (c : P) (v : V) : Prop :=
  exists l1 l2, l = l1 ++ (c, v) :: l2 /\ ~ exists w, In (c, w) l1 /\ kv w = kv v.
