(** What remains of insertions of which some were interrupted. *)
From Coq Require Import List Arith.
Import ListNotations.
From Verif Require Import Base TripleModel TriplePatternModel PatternMapModel.

(** The pairs whose insertion came to its end, and what these insertions returned. *)
Fixpoint completed {X} (l : list (nat * X)) (rs : list (option bool)) : list X :=
  match l, rs with
  | (_, x) :: l, Some _ :: rs => x :: completed l rs
  | _ :: l, None :: rs => completed l rs
  | _, _ => []
  end.
Fixpoint returned (rs : list (option bool)) : list bool :=
  match rs with
  | [] => []
  | Some b :: rs => b :: returned rs
  | None :: rs => returned rs
  end.

(** The number of resources that a pattern gives. *)
Definition gives_ga {T} (c : t_ga T) : nat := match c with TGA_Given _ => 1 | _ => 0 end.
Definition gives_gg {T} (c : t_gg T) : nat := match c with TGG_Given _ => 1 | _ => 0 end.
Definition gives_aa {T} (c : t_aa T) : nat := match c with TAA_Given _ => 1 | _ => 0 end.
Definition gives_ag {T} (c : t_ag T) : nat := match c with TAG_Given _ => 1 | _ => 0 end.
Definition gives_gs {T} (c : t_gs T) : nat :=
  match c with TG_AnyP r => gives_ga r | TG_GivenP _ r => S (gives_gg r) end.
Definition gives_as {T} (c : t_as T) : nat :=
  match c with TA_AnyP r => gives_aa r | TA_SameS r => gives_ag r | TA_GivenP _ r => S (gives_ag r) end.
Definition gives {T} (c : ctp T) : nat :=
  match c with CT_AnyS r => gives_as r | CT_GivenS _ r => S (gives_gs r) end.

(** The number of values and keys that [union_with] moves out of its argument. *)
Definition entries_ga {V T} (o : m_ga V T) : nat :=
  length (mga_any o) + (length (mga_samep o) + length (mga_given o)).
Definition entries_gg {V T} (o : m_gg V T) : nat := length (mgg_any o) + length (mgg_given o).
Definition entries_aa {V T} (o : m_aa V T) : nat :=
  length (maa_any o) + (length (maa_sames o) + (length (maa_samep o) + length (maa_given o))).
Definition entries_ag {V T} (o : m_ag V T) : nat :=
  length (mag_any o) + (length (mag_sames o) + length (mag_given o)).
Definition entries_gs {V T} (o : m_gs V T) : nat := entries_ga (mgs_any o) + length (mgs_given o).
Definition entries_as {V T} (o : m_as V T) : nat :=
  entries_aa (mas_any o) + (entries_ag (mas_sames o) + length (mas_given o)).

(** The order in which [union_with] moves what its argument holds. *)
Definition rank_ga {T} (c : t_ga T) : nat := match c with TGA_Any => 0 | TGA_SameP => 1 | TGA_Given _ => 2 end.
Definition rank_gg {T} (c : t_gg T) : nat := match c with TGG_Any => 0 | TGG_Given _ => 1 end.
Definition rank_aa {T} (c : t_aa T) : nat :=
  match c with TAA_Any => 0 | TAA_SameS => 1 | TAA_SameP => 2 | TAA_Given _ => 3 end.
Definition rank_ag {T} (c : t_ag T) : nat := match c with TAG_Any => 0 | TAG_SameS => 1 | TAG_Given _ => 2 end.
Definition rank_gs {T} (c : t_gs T) : nat := match c with TG_AnyP r => rank_ga r | TG_GivenP _ _ => 3 end.
Definition rank_as {T} (c : t_as T) : nat :=
  match c with TA_AnyP r => rank_aa r | TA_SameS r => 4 + rank_ag r | TA_GivenP _ _ => 7 end.

(** There are [n] entries: pairs [held] without a key, and keys [used]. *)
Definition amount {P V} (same_key : P -> P -> Prop) (held : P -> V -> Prop) (used : P -> Prop) (n : nat) : Prop :=
  exists vs ks,
    NoDup vs /\ (forall c v, In (c, v) vs <-> held c v /\ ~ same_key c c) /\
    ForallOrdPairs (fun c c' => ~ same_key c c') ks /\ (forall c, In c ks -> used c) /\
    (forall c, used c <-> exists c', In c' ks /\ same_key c' c) /\
    n = length vs + length ks.
