(** Two patterns share a hash key: the resource under which the map stores
    them is the same.  Used to state exactly what [union_with] loses. *)
From Coq Require Import List Permutation.
From Verif Require Import Base TripleModel TriplePatternModel.

Section Keys.
  Context {T : Type}.

  (** The given object of an object-level pattern. *)
  Definition same_key_ga (c c' : t_ga T) : Prop :=
    match c, c' with TGA_Given k, TGA_Given k' => k = k' | _, _ => False end.
  Definition same_key_gg (c c' : t_gg T) : Prop :=
    match c, c' with TGG_Given k, TGG_Given k' => k = k' | _, _ => False end.
  Definition same_key_aa (c c' : t_aa T) : Prop :=
    match c, c' with TAA_Given k, TAA_Given k' => k = k' | _, _ => False end.
  Definition same_key_ag (c c' : t_ag T) : Prop :=
    match c, c' with TAG_Given k, TAG_Given k' => k = k' | _, _ => False end.

  (** The given predicate or, without one, the given object. *)
  Definition same_key_gs (c c' : t_gs T) : Prop :=
    match c, c' with
    | TG_AnyP r, TG_AnyP r' => same_key_ga r r'
    | TG_GivenP k _, TG_GivenP k' _ => k = k'
    | _, _ => False
    end.
  Definition same_key_as (c c' : t_as T) : Prop :=
    match c, c' with
    | TA_AnyP r, TA_AnyP r' => same_key_aa r r'
    | TA_SameS r, TA_SameS r' => same_key_ag r r'
    | TA_GivenP k _, TA_GivenP k' _ => k = k'
    | _, _ => False
    end.
End Keys.

(** [answers l R]: the list [l] holds, in some order, the value [v] once for
    each pair (pattern, [v]) satisfying [R]. *)
Definition answers {P V} (l : list V) (R : P -> V -> Prop) : Prop :=
  exists ps : list (P * V),
    NoDup ps /\ (forall c v, In (c, v) ps <-> R c v) /\ Permutation l (map snd ps).
