(** Patterns as keys: the derived [PartialEq], [PartialOrd], [Ord] and [Hash] of
    pattern/triple/canonical.rs, pattern/quad/canonical.rs and
    pattern/resource_or_variable.rs, and [Hash] of triples and quads.

    A derived comparison of an enumeration compares the numbers of the variants, in
    the order of their declaration, then the fields from left to right.  A derived
    [hash] feeds the number of the variant, then the fields.  Simplification: what
    is fed to the hasher is a list. *)
From Coq Require Import List Bool Arith.
Import ListNotations.
From Verif Require Import Base TripleModel TriplePatternModel QuadPatternModel.

(** What is fed to a hasher: the number of a variant, or something of a component. *)
Inductive fed (K : Type) := FVariant (n : nat) | FOther (k : K).
Arguments FVariant {K}. Arguments FOther {K}.

(** The next field is compared when those before it are equal ([partial_cmp]). *)
Definition then_pcmp (c d : option comparison) : option comparison :=
  match c with Some Eq => d | _ => c end.

Section Option.
  Context {T K : Type}.
  (** std [Option] (derived). *)
  Definition option_eq (eq : T -> T -> bool) (x y : option T) : bool :=
    match x, y with Some a, Some b => eq a b | None, None => true | _, _ => false end.
  Definition option_pcmp (pcmp : T -> T -> option comparison) (x y : option T) : option comparison :=
    match x, y with
    | Some a, Some b => pcmp a b
    | Some _, None => Some Gt | None, Some _ => Some Lt | None, None => Some Eq
    end.
  Definition option_hash (hash : T -> list (fed K)) (x : option T) : list (fed K) :=
    match x with None => [FVariant 0] | Some a => FVariant 1 :: hash a end.
End Option.

Section Keys.
  Context {T K : Type} (eq : T -> T -> bool) (pcmp : T -> T -> option comparison)
    (cmp : T -> T -> comparison) (hash : T -> list (fed K)).

  (** pattern/triple/canonical.rs 361-365, pattern/quad/canonical.rs 247-251 ([PatternSubject]). *)
  Definition pat_s_number (x : pat_s T) : nat :=
    match x with PS_Any => 0 | PS_Given _ => 1 end.
  Definition pat_s_eq (x y : pat_s T) : bool :=
    (pat_s_number x =? pat_s_number y) &&
    match x, y with
    | PS_Given a0, PS_Given b0 => eq a0 b0
    | _, _ => true
    end.
  Definition pat_s_pcmp (x y : pat_s T) : option comparison :=
    match x, y with
    | PS_Given a0, PS_Given b0 => pcmp a0 b0
    | _, _ => Some (Nat.compare (pat_s_number x) (pat_s_number y))
    end.
  Definition pat_s_cmp (x y : pat_s T) : comparison :=
    then_cmp (Nat.compare (pat_s_number x) (pat_s_number y))
    match x, y with
    | PS_Given a0, PS_Given b0 => cmp a0 b0
    | _, _ => Eq
    end.
  Definition pat_s_hash (x : pat_s T) : list (fed K) :=
    FVariant (pat_s_number x) :: match x with PS_Given a0 => hash a0 | _ => [] end.

  (** pattern/triple/canonical.rs 395-400, pattern/quad/canonical.rs 281-286 ([PatternPredicate]). *)
  Definition pat_p_number (x : pat_p T) : nat :=
    match x with PP_Any => 0 | PP_SameS => 1 | PP_Given _ => 2 end.
  Definition pat_p_eq (x y : pat_p T) : bool :=
    (pat_p_number x =? pat_p_number y) &&
    match x, y with
    | PP_Given a0, PP_Given b0 => eq a0 b0
    | _, _ => true
    end.
  Definition pat_p_pcmp (x y : pat_p T) : option comparison :=
    match x, y with
    | PP_Given a0, PP_Given b0 => pcmp a0 b0
    | _, _ => Some (Nat.compare (pat_p_number x) (pat_p_number y))
    end.
  Definition pat_p_cmp (x y : pat_p T) : comparison :=
    then_cmp (Nat.compare (pat_p_number x) (pat_p_number y))
    match x, y with
    | PP_Given a0, PP_Given b0 => cmp a0 b0
    | _, _ => Eq
    end.
  Definition pat_p_hash (x : pat_p T) : list (fed K) :=
    FVariant (pat_p_number x) :: match x with PP_Given a0 => hash a0 | _ => [] end.

  (** pattern/triple/canonical.rs 433-439, pattern/quad/canonical.rs 319-325 ([PatternObject]). *)
  Definition pat_o_number (x : pat_o T) : nat :=
    match x with PO_Any => 0 | PO_SameS => 1 | PO_SameP => 2 | PO_Given _ => 3 end.
  Definition pat_o_eq (x y : pat_o T) : bool :=
    (pat_o_number x =? pat_o_number y) &&
    match x, y with
    | PO_Given a0, PO_Given b0 => eq a0 b0
    | _, _ => true
    end.
  Definition pat_o_pcmp (x y : pat_o T) : option comparison :=
    match x, y with
    | PO_Given a0, PO_Given b0 => pcmp a0 b0
    | _, _ => Some (Nat.compare (pat_o_number x) (pat_o_number y))
    end.
  Definition pat_o_cmp (x y : pat_o T) : comparison :=
    then_cmp (Nat.compare (pat_o_number x) (pat_o_number y))
    match x, y with
    | PO_Given a0, PO_Given b0 => cmp a0 b0
    | _, _ => Eq
    end.
  Definition pat_o_hash (x : pat_o T) : list (fed K) :=
    FVariant (pat_o_number x) :: match x with PO_Given a0 => hash a0 | _ => [] end.

  (** pattern/quad/canonical.rs 1231-1238 ([PatternGraph]). *)
  Definition pat_g_number (x : pat_g T) : nat :=
    match x with PG_Any => 0 | PG_SameS => 1 | PG_SameP => 2 | PG_SameO => 3 | PG_Given _ => 4 end.
  Definition pat_g_eq (x y : pat_g T) : bool :=
    (pat_g_number x =? pat_g_number y) &&
    match x, y with
    | PG_Given a0, PG_Given b0 => option_eq eq a0 b0
    | _, _ => true
    end.
  Definition pat_g_pcmp (x y : pat_g T) : option comparison :=
    match x, y with
    | PG_Given a0, PG_Given b0 => option_pcmp pcmp a0 b0
    | _, _ => Some (Nat.compare (pat_g_number x) (pat_g_number y))
    end.
  Definition pat_g_cmp (x y : pat_g T) : comparison :=
    then_cmp (Nat.compare (pat_g_number x) (pat_g_number y))
    match x, y with
    | PG_Given a0, PG_Given b0 => option_cmp cmp a0 b0
    | _, _ => Eq
    end.
  Definition pat_g_hash (x : pat_g T) : list (fed K) :=
    FVariant (pat_g_number x) :: match x with PG_Given a0 => option_hash hash a0 | _ => [] end.

  (** pattern/triple/canonical.rs 629-635 ([AnySubjectAnyPredicate]). *)
  Definition t_aa_number (x : t_aa T) : nat :=
    match x with TAA_Any => 0 | TAA_SameS => 1 | TAA_SameP => 2 | TAA_Given _ => 3 end.
  Definition t_aa_eq (x y : t_aa T) : bool :=
    (t_aa_number x =? t_aa_number y) &&
    match x, y with
    | TAA_Given a0, TAA_Given b0 => eq a0 b0
    | _, _ => true
    end.
  Definition t_aa_pcmp (x y : t_aa T) : option comparison :=
    match x, y with
    | TAA_Given a0, TAA_Given b0 => pcmp a0 b0
    | _, _ => Some (Nat.compare (t_aa_number x) (t_aa_number y))
    end.
  Definition t_aa_cmp (x y : t_aa T) : comparison :=
    then_cmp (Nat.compare (t_aa_number x) (t_aa_number y))
    match x, y with
    | TAA_Given a0, TAA_Given b0 => cmp a0 b0
    | _, _ => Eq
    end.
  Definition t_aa_hash (x : t_aa T) : list (fed K) :=
    FVariant (t_aa_number x) :: match x with TAA_Given a0 => hash a0 | _ => [] end.

  (** pattern/triple/canonical.rs 701-706 ([AnySubjectGivenPredicate]). *)
  Definition t_ag_number (x : t_ag T) : nat :=
    match x with TAG_Any => 0 | TAG_SameS => 1 | TAG_Given _ => 2 end.
  Definition t_ag_eq (x y : t_ag T) : bool :=
    (t_ag_number x =? t_ag_number y) &&
    match x, y with
    | TAG_Given a0, TAG_Given b0 => eq a0 b0
    | _, _ => true
    end.
  Definition t_ag_pcmp (x y : t_ag T) : option comparison :=
    match x, y with
    | TAG_Given a0, TAG_Given b0 => pcmp a0 b0
    | _, _ => Some (Nat.compare (t_ag_number x) (t_ag_number y))
    end.
  Definition t_ag_cmp (x y : t_ag T) : comparison :=
    then_cmp (Nat.compare (t_ag_number x) (t_ag_number y))
    match x, y with
    | TAG_Given a0, TAG_Given b0 => cmp a0 b0
    | _, _ => Eq
    end.
  Definition t_ag_hash (x : t_ag T) : list (fed K) :=
    FVariant (t_ag_number x) :: match x with TAG_Given a0 => hash a0 | _ => [] end.

  (** pattern/triple/canonical.rs 874-879 ([GivenSubjectAnyPredicate]). *)
  Definition t_ga_number (x : t_ga T) : nat :=
    match x with TGA_Any => 0 | TGA_SameP => 1 | TGA_Given _ => 2 end.
  Definition t_ga_eq (x y : t_ga T) : bool :=
    (t_ga_number x =? t_ga_number y) &&
    match x, y with
    | TGA_Given a0, TGA_Given b0 => eq a0 b0
    | _, _ => true
    end.
  Definition t_ga_pcmp (x y : t_ga T) : option comparison :=
    match x, y with
    | TGA_Given a0, TGA_Given b0 => pcmp a0 b0
    | _, _ => Some (Nat.compare (t_ga_number x) (t_ga_number y))
    end.
  Definition t_ga_cmp (x y : t_ga T) : comparison :=
    then_cmp (Nat.compare (t_ga_number x) (t_ga_number y))
    match x, y with
    | TGA_Given a0, TGA_Given b0 => cmp a0 b0
    | _, _ => Eq
    end.
  Definition t_ga_hash (x : t_ga T) : list (fed K) :=
    FVariant (t_ga_number x) :: match x with TGA_Given a0 => hash a0 | _ => [] end.

  (** pattern/triple/canonical.rs 945-949 ([GivenSubjectGivenPredicate]). *)
  Definition t_gg_number (x : t_gg T) : nat :=
    match x with TGG_Any => 0 | TGG_Given _ => 1 end.
  Definition t_gg_eq (x y : t_gg T) : bool :=
    (t_gg_number x =? t_gg_number y) &&
    match x, y with
    | TGG_Given a0, TGG_Given b0 => eq a0 b0
    | _, _ => true
    end.
  Definition t_gg_pcmp (x y : t_gg T) : option comparison :=
    match x, y with
    | TGG_Given a0, TGG_Given b0 => pcmp a0 b0
    | _, _ => Some (Nat.compare (t_gg_number x) (t_gg_number y))
    end.
  Definition t_gg_cmp (x y : t_gg T) : comparison :=
    then_cmp (Nat.compare (t_gg_number x) (t_gg_number y))
    match x, y with
    | TGG_Given a0, TGG_Given b0 => cmp a0 b0
    | _, _ => Eq
    end.
  Definition t_gg_hash (x : t_gg T) : list (fed K) :=
    FVariant (t_gg_number x) :: match x with TGG_Given a0 => hash a0 | _ => [] end.

  (** pattern/triple/canonical.rs 482-487 ([AnySubject]). *)
  Definition t_as_number (x : t_as T) : nat :=
    match x with TA_AnyP _ => 0 | TA_SameS _ => 1 | TA_GivenP _ _ => 2 end.
  Definition t_as_eq (x y : t_as T) : bool :=
    (t_as_number x =? t_as_number y) &&
    match x, y with
    | TA_AnyP a0, TA_AnyP b0 => t_aa_eq a0 b0
    | TA_SameS a0, TA_SameS b0 => t_ag_eq a0 b0
    | TA_GivenP a0 a1, TA_GivenP b0 b1 => eq a0 b0 && t_ag_eq a1 b1
    | _, _ => true
    end.
  Definition t_as_pcmp (x y : t_as T) : option comparison :=
    match x, y with
    | TA_AnyP a0, TA_AnyP b0 => t_aa_pcmp a0 b0
    | TA_SameS a0, TA_SameS b0 => t_ag_pcmp a0 b0
    | TA_GivenP a0 a1, TA_GivenP b0 b1 => then_pcmp (pcmp a0 b0) (t_ag_pcmp a1 b1)
    | _, _ => Some (Nat.compare (t_as_number x) (t_as_number y))
    end.
  Definition t_as_cmp (x y : t_as T) : comparison :=
    then_cmp (Nat.compare (t_as_number x) (t_as_number y))
    match x, y with
    | TA_AnyP a0, TA_AnyP b0 => t_aa_cmp a0 b0
    | TA_SameS a0, TA_SameS b0 => t_ag_cmp a0 b0
    | TA_GivenP a0 a1, TA_GivenP b0 b1 => then_cmp (cmp a0 b0) (t_ag_cmp a1 b1)
    | _, _ => Eq
    end.
  Definition t_as_hash (x : t_as T) : list (fed K) :=
    FVariant (t_as_number x) :: match x with TA_AnyP a0 => t_aa_hash a0 | TA_SameS a0 => t_ag_hash a0 | TA_GivenP a0 a1 => hash a0 ++ t_ag_hash a1 end.

  (** pattern/triple/canonical.rs 765-769 ([GivenSubject]). *)
  Definition t_gs_number (x : t_gs T) : nat :=
    match x with TG_AnyP _ => 0 | TG_GivenP _ _ => 1 end.
  Definition t_gs_eq (x y : t_gs T) : bool :=
    (t_gs_number x =? t_gs_number y) &&
    match x, y with
    | TG_AnyP a0, TG_AnyP b0 => t_ga_eq a0 b0
    | TG_GivenP a0 a1, TG_GivenP b0 b1 => eq a0 b0 && t_gg_eq a1 b1
    | _, _ => true
    end.
  Definition t_gs_pcmp (x y : t_gs T) : option comparison :=
    match x, y with
    | TG_AnyP a0, TG_AnyP b0 => t_ga_pcmp a0 b0
    | TG_GivenP a0 a1, TG_GivenP b0 b1 => then_pcmp (pcmp a0 b0) (t_gg_pcmp a1 b1)
    | _, _ => Some (Nat.compare (t_gs_number x) (t_gs_number y))
    end.
  Definition t_gs_cmp (x y : t_gs T) : comparison :=
    then_cmp (Nat.compare (t_gs_number x) (t_gs_number y))
    match x, y with
    | TG_AnyP a0, TG_AnyP b0 => t_ga_cmp a0 b0
    | TG_GivenP a0 a1, TG_GivenP b0 b1 => then_cmp (cmp a0 b0) (t_gg_cmp a1 b1)
    | _, _ => Eq
    end.
  Definition t_gs_hash (x : t_gs T) : list (fed K) :=
    FVariant (t_gs_number x) :: match x with TG_AnyP a0 => t_ga_hash a0 | TG_GivenP a0 a1 => hash a0 ++ t_gg_hash a1 end.

  (** pattern/triple/canonical.rs 9-13 ([CanonicalTriplePattern]). *)
  Definition ctp_number (x : ctp T) : nat :=
    match x with CT_AnyS _ => 0 | CT_GivenS _ _ => 1 end.
  Definition ctp_eq (x y : ctp T) : bool :=
    (ctp_number x =? ctp_number y) &&
    match x, y with
    | CT_AnyS a0, CT_AnyS b0 => t_as_eq a0 b0
    | CT_GivenS a0 a1, CT_GivenS b0 b1 => eq a0 b0 && t_gs_eq a1 b1
    | _, _ => true
    end.
  Definition ctp_pcmp (x y : ctp T) : option comparison :=
    match x, y with
    | CT_AnyS a0, CT_AnyS b0 => t_as_pcmp a0 b0
    | CT_GivenS a0 a1, CT_GivenS b0 b1 => then_pcmp (pcmp a0 b0) (t_gs_pcmp a1 b1)
    | _, _ => Some (Nat.compare (ctp_number x) (ctp_number y))
    end.
  Definition ctp_cmp (x y : ctp T) : comparison :=
    then_cmp (Nat.compare (ctp_number x) (ctp_number y))
    match x, y with
    | CT_AnyS a0, CT_AnyS b0 => t_as_cmp a0 b0
    | CT_GivenS a0 a1, CT_GivenS b0 b1 => then_cmp (cmp a0 b0) (t_gs_cmp a1 b1)
    | _, _ => Eq
    end.
  Definition ctp_hash (x : ctp T) : list (fed K) :=
    FVariant (ctp_number x) :: match x with CT_AnyS a0 => t_as_hash a0 | CT_GivenS a0 a1 => hash a0 ++ t_gs_hash a1 end.

  (** pattern/quad/canonical.rs 1240-1247 ([AnySubjectAnyPredicateAnyObject]). *)
  Definition q_aaa_number (x : q_aaa T) : nat :=
    match x with QAAA_Any => 0 | QAAA_SameS => 1 | QAAA_SameP => 2 | QAAA_SameO => 3 | QAAA_Given _ => 4 end.
  Definition q_aaa_eq (x y : q_aaa T) : bool :=
    (q_aaa_number x =? q_aaa_number y) &&
    match x, y with
    | QAAA_Given a0, QAAA_Given b0 => option_eq eq a0 b0
    | _, _ => true
    end.
  Definition q_aaa_pcmp (x y : q_aaa T) : option comparison :=
    match x, y with
    | QAAA_Given a0, QAAA_Given b0 => option_pcmp pcmp a0 b0
    | _, _ => Some (Nat.compare (q_aaa_number x) (q_aaa_number y))
    end.
  Definition q_aaa_cmp (x y : q_aaa T) : comparison :=
    then_cmp (Nat.compare (q_aaa_number x) (q_aaa_number y))
    match x, y with
    | QAAA_Given a0, QAAA_Given b0 => option_cmp cmp a0 b0
    | _, _ => Eq
    end.
  Definition q_aaa_hash (x : q_aaa T) : list (fed K) :=
    FVariant (q_aaa_number x) :: match x with QAAA_Given a0 => option_hash hash a0 | _ => [] end.

  (** pattern/quad/canonical.rs 1356-1362 ([GivenSubjectAnyPredicateAnyObject]). *)
  Definition q_gaa_number (x : q_gaa T) : nat :=
    match x with QGAA_Any => 0 | QGAA_SameP => 1 | QGAA_SameO => 2 | QGAA_Given _ => 3 end.
  Definition q_gaa_eq (x y : q_gaa T) : bool :=
    (q_gaa_number x =? q_gaa_number y) &&
    match x, y with
    | QGAA_Given a0, QGAA_Given b0 => option_eq eq a0 b0
    | _, _ => true
    end.
  Definition q_gaa_pcmp (x y : q_gaa T) : option comparison :=
    match x, y with
    | QGAA_Given a0, QGAA_Given b0 => option_pcmp pcmp a0 b0
    | _, _ => Some (Nat.compare (q_gaa_number x) (q_gaa_number y))
    end.
  Definition q_gaa_cmp (x y : q_gaa T) : comparison :=
    then_cmp (Nat.compare (q_gaa_number x) (q_gaa_number y))
    match x, y with
    | QGAA_Given a0, QGAA_Given b0 => option_cmp cmp a0 b0
    | _, _ => Eq
    end.
  Definition q_gaa_hash (x : q_gaa T) : list (fed K) :=
    FVariant (q_gaa_number x) :: match x with QGAA_Given a0 => option_hash hash a0 | _ => [] end.

  (** pattern/quad/canonical.rs 1461-1467 ([AnySubjectGivenPredicateAnyObject]). *)
  Definition q_aga_number (x : q_aga T) : nat :=
    match x with QAGA_Any => 0 | QAGA_SameS => 1 | QAGA_SameO => 2 | QAGA_Given _ => 3 end.
  Definition q_aga_eq (x y : q_aga T) : bool :=
    (q_aga_number x =? q_aga_number y) &&
    match x, y with
    | QAGA_Given a0, QAGA_Given b0 => option_eq eq a0 b0
    | _, _ => true
    end.
  Definition q_aga_pcmp (x y : q_aga T) : option comparison :=
    match x, y with
    | QAGA_Given a0, QAGA_Given b0 => option_pcmp pcmp a0 b0
    | _, _ => Some (Nat.compare (q_aga_number x) (q_aga_number y))
    end.
  Definition q_aga_cmp (x y : q_aga T) : comparison :=
    then_cmp (Nat.compare (q_aga_number x) (q_aga_number y))
    match x, y with
    | QAGA_Given a0, QAGA_Given b0 => option_cmp cmp a0 b0
    | _, _ => Eq
    end.
  Definition q_aga_hash (x : q_aga T) : list (fed K) :=
    FVariant (q_aga_number x) :: match x with QAGA_Given a0 => option_hash hash a0 | _ => [] end.

  (** pattern/quad/canonical.rs 1566-1572 ([AnySubjectAnyPredicateGivenObject]). *)
  Definition q_aag_number (x : q_aag T) : nat :=
    match x with QAAG_Any => 0 | QAAG_SameS => 1 | QAAG_SameP => 2 | QAAG_Given _ => 3 end.
  Definition q_aag_eq (x y : q_aag T) : bool :=
    (q_aag_number x =? q_aag_number y) &&
    match x, y with
    | QAAG_Given a0, QAAG_Given b0 => option_eq eq a0 b0
    | _, _ => true
    end.
  Definition q_aag_pcmp (x y : q_aag T) : option comparison :=
    match x, y with
    | QAAG_Given a0, QAAG_Given b0 => option_pcmp pcmp a0 b0
    | _, _ => Some (Nat.compare (q_aag_number x) (q_aag_number y))
    end.
  Definition q_aag_cmp (x y : q_aag T) : comparison :=
    then_cmp (Nat.compare (q_aag_number x) (q_aag_number y))
    match x, y with
    | QAAG_Given a0, QAAG_Given b0 => option_cmp cmp a0 b0
    | _, _ => Eq
    end.
  Definition q_aag_hash (x : q_aag T) : list (fed K) :=
    FVariant (q_aag_number x) :: match x with QAAG_Given a0 => option_hash hash a0 | _ => [] end.

  (** pattern/quad/canonical.rs 1671-1676 ([AnySubjectGivenPredicateGivenObject]). *)
  Definition q_agg_number (x : q_agg T) : nat :=
    match x with QAGG_Any => 0 | QAGG_SameS => 1 | QAGG_Given _ => 2 end.
  Definition q_agg_eq (x y : q_agg T) : bool :=
    (q_agg_number x =? q_agg_number y) &&
    match x, y with
    | QAGG_Given a0, QAGG_Given b0 => option_eq eq a0 b0
    | _, _ => true
    end.
  Definition q_agg_pcmp (x y : q_agg T) : option comparison :=
    match x, y with
    | QAGG_Given a0, QAGG_Given b0 => option_pcmp pcmp a0 b0
    | _, _ => Some (Nat.compare (q_agg_number x) (q_agg_number y))
    end.
  Definition q_agg_cmp (x y : q_agg T) : comparison :=
    then_cmp (Nat.compare (q_agg_number x) (q_agg_number y))
    match x, y with
    | QAGG_Given a0, QAGG_Given b0 => option_cmp cmp a0 b0
    | _, _ => Eq
    end.
  Definition q_agg_hash (x : q_agg T) : list (fed K) :=
    FVariant (q_agg_number x) :: match x with QAGG_Given a0 => option_hash hash a0 | _ => [] end.

  (** pattern/quad/canonical.rs 1765-1770 ([GivenSubjectAnyPredicateGivenObject]). *)
  Definition q_gag_number (x : q_gag T) : nat :=
    match x with QGAG_Any => 0 | QGAG_SameP => 1 | QGAG_Given _ => 2 end.
  Definition q_gag_eq (x y : q_gag T) : bool :=
    (q_gag_number x =? q_gag_number y) &&
    match x, y with
    | QGAG_Given a0, QGAG_Given b0 => option_eq eq a0 b0
    | _, _ => true
    end.
  Definition q_gag_pcmp (x y : q_gag T) : option comparison :=
    match x, y with
    | QGAG_Given a0, QGAG_Given b0 => option_pcmp pcmp a0 b0
    | _, _ => Some (Nat.compare (q_gag_number x) (q_gag_number y))
    end.
  Definition q_gag_cmp (x y : q_gag T) : comparison :=
    then_cmp (Nat.compare (q_gag_number x) (q_gag_number y))
    match x, y with
    | QGAG_Given a0, QGAG_Given b0 => option_cmp cmp a0 b0
    | _, _ => Eq
    end.
  Definition q_gag_hash (x : q_gag T) : list (fed K) :=
    FVariant (q_gag_number x) :: match x with QGAG_Given a0 => option_hash hash a0 | _ => [] end.

  (** pattern/quad/canonical.rs 1859-1864 ([GivenSubjectGivenPredicateAnyObject]). *)
  Definition q_gga_number (x : q_gga T) : nat :=
    match x with QGGA_Any => 0 | QGGA_SameO => 1 | QGGA_Given _ => 2 end.
  Definition q_gga_eq (x y : q_gga T) : bool :=
    (q_gga_number x =? q_gga_number y) &&
    match x, y with
    | QGGA_Given a0, QGGA_Given b0 => option_eq eq a0 b0
    | _, _ => true
    end.
  Definition q_gga_pcmp (x y : q_gga T) : option comparison :=
    match x, y with
    | QGGA_Given a0, QGGA_Given b0 => option_pcmp pcmp a0 b0
    | _, _ => Some (Nat.compare (q_gga_number x) (q_gga_number y))
    end.
  Definition q_gga_cmp (x y : q_gga T) : comparison :=
    then_cmp (Nat.compare (q_gga_number x) (q_gga_number y))
    match x, y with
    | QGGA_Given a0, QGGA_Given b0 => option_cmp cmp a0 b0
    | _, _ => Eq
    end.
  Definition q_gga_hash (x : q_gga T) : list (fed K) :=
    FVariant (q_gga_number x) :: match x with QGGA_Given a0 => option_hash hash a0 | _ => [] end.

  (** pattern/quad/canonical.rs 1953-1957 ([GivenSubjectGivenPredicateGivenObject]). *)
  Definition q_ggg_number (x : q_ggg T) : nat :=
    match x with QGGG_Any => 0 | QGGG_Given _ => 1 end.
  Definition q_ggg_eq (x y : q_ggg T) : bool :=
    (q_ggg_number x =? q_ggg_number y) &&
    match x, y with
    | QGGG_Given a0, QGGG_Given b0 => option_eq eq a0 b0
    | _, _ => true
    end.
  Definition q_ggg_pcmp (x y : q_ggg T) : option comparison :=
    match x, y with
    | QGGG_Given a0, QGGG_Given b0 => option_pcmp pcmp a0 b0
    | _, _ => Some (Nat.compare (q_ggg_number x) (q_ggg_number y))
    end.
  Definition q_ggg_cmp (x y : q_ggg T) : comparison :=
    then_cmp (Nat.compare (q_ggg_number x) (q_ggg_number y))
    match x, y with
    | QGGG_Given a0, QGGG_Given b0 => option_cmp cmp a0 b0
    | _, _ => Eq
    end.
  Definition q_ggg_hash (x : q_ggg T) : list (fed K) :=
    FVariant (q_ggg_number x) :: match x with QGGG_Given a0 => option_hash hash a0 | _ => [] end.

  (** pattern/quad/canonical.rs 529-535 ([AnySubjectAnyPredicate]). *)
  Definition q_aa_number (x : q_aa T) : nat :=
    match x with QAA_Any _ => 0 | QAA_SameS _ => 1 | QAA_SameP _ => 2 | QAA_Given _ _ => 3 end.
  Definition q_aa_eq (x y : q_aa T) : bool :=
    (q_aa_number x =? q_aa_number y) &&
    match x, y with
    | QAA_Any a0, QAA_Any b0 => q_aaa_eq a0 b0
    | QAA_SameS a0, QAA_SameS b0 => q_aag_eq a0 b0
    | QAA_SameP a0, QAA_SameP b0 => q_aag_eq a0 b0
    | QAA_Given a0 a1, QAA_Given b0 b1 => eq a0 b0 && q_aag_eq a1 b1
    | _, _ => true
    end.
  Definition q_aa_pcmp (x y : q_aa T) : option comparison :=
    match x, y with
    | QAA_Any a0, QAA_Any b0 => q_aaa_pcmp a0 b0
    | QAA_SameS a0, QAA_SameS b0 => q_aag_pcmp a0 b0
    | QAA_SameP a0, QAA_SameP b0 => q_aag_pcmp a0 b0
    | QAA_Given a0 a1, QAA_Given b0 b1 => then_pcmp (pcmp a0 b0) (q_aag_pcmp a1 b1)
    | _, _ => Some (Nat.compare (q_aa_number x) (q_aa_number y))
    end.
  Definition q_aa_cmp (x y : q_aa T) : comparison :=
    then_cmp (Nat.compare (q_aa_number x) (q_aa_number y))
    match x, y with
    | QAA_Any a0, QAA_Any b0 => q_aaa_cmp a0 b0
    | QAA_SameS a0, QAA_SameS b0 => q_aag_cmp a0 b0
    | QAA_SameP a0, QAA_SameP b0 => q_aag_cmp a0 b0
    | QAA_Given a0 a1, QAA_Given b0 b1 => then_cmp (cmp a0 b0) (q_aag_cmp a1 b1)
    | _, _ => Eq
    end.
  Definition q_aa_hash (x : q_aa T) : list (fed K) :=
    FVariant (q_aa_number x) :: match x with QAA_Any a0 => q_aaa_hash a0 | QAA_SameS a0 => q_aag_hash a0 | QAA_SameP a0 => q_aag_hash a0 | QAA_Given a0 a1 => hash a0 ++ q_aag_hash a1 end.

  (** pattern/quad/canonical.rs 694-699 ([AnySubjectGivenPredicate]). *)
  Definition q_ag_number (x : q_ag T) : nat :=
    match x with QAG_Any _ => 0 | QAG_SameS _ => 1 | QAG_Given _ _ => 2 end.
  Definition q_ag_eq (x y : q_ag T) : bool :=
    (q_ag_number x =? q_ag_number y) &&
    match x, y with
    | QAG_Any a0, QAG_Any b0 => q_aga_eq a0 b0
    | QAG_SameS a0, QAG_SameS b0 => q_agg_eq a0 b0
    | QAG_Given a0 a1, QAG_Given b0 b1 => eq a0 b0 && q_agg_eq a1 b1
    | _, _ => true
    end.
  Definition q_ag_pcmp (x y : q_ag T) : option comparison :=
    match x, y with
    | QAG_Any a0, QAG_Any b0 => q_aga_pcmp a0 b0
    | QAG_SameS a0, QAG_SameS b0 => q_agg_pcmp a0 b0
    | QAG_Given a0 a1, QAG_Given b0 b1 => then_pcmp (pcmp a0 b0) (q_agg_pcmp a1 b1)
    | _, _ => Some (Nat.compare (q_ag_number x) (q_ag_number y))
    end.
  Definition q_ag_cmp (x y : q_ag T) : comparison :=
    then_cmp (Nat.compare (q_ag_number x) (q_ag_number y))
    match x, y with
    | QAG_Any a0, QAG_Any b0 => q_aga_cmp a0 b0
    | QAG_SameS a0, QAG_SameS b0 => q_agg_cmp a0 b0
    | QAG_Given a0 a1, QAG_Given b0 b1 => then_cmp (cmp a0 b0) (q_agg_cmp a1 b1)
    | _, _ => Eq
    end.
  Definition q_ag_hash (x : q_ag T) : list (fed K) :=
    FVariant (q_ag_number x) :: match x with QAG_Any a0 => q_aga_hash a0 | QAG_SameS a0 => q_agg_hash a0 | QAG_Given a0 a1 => hash a0 ++ q_agg_hash a1 end.

  (** pattern/quad/canonical.rs 969-974 ([GivenSubjectAnyPredicate]). *)
  Definition q_ga_number (x : q_ga T) : nat :=
    match x with QGA_Any _ => 0 | QGA_SameP _ => 1 | QGA_Given _ _ => 2 end.
  Definition q_ga_eq (x y : q_ga T) : bool :=
    (q_ga_number x =? q_ga_number y) &&
    match x, y with
    | QGA_Any a0, QGA_Any b0 => q_gaa_eq a0 b0
    | QGA_SameP a0, QGA_SameP b0 => q_gag_eq a0 b0
    | QGA_Given a0 a1, QGA_Given b0 b1 => eq a0 b0 && q_gag_eq a1 b1
    | _, _ => true
    end.
  Definition q_ga_pcmp (x y : q_ga T) : option comparison :=
    match x, y with
    | QGA_Any a0, QGA_Any b0 => q_gaa_pcmp a0 b0
    | QGA_SameP a0, QGA_SameP b0 => q_gag_pcmp a0 b0
    | QGA_Given a0 a1, QGA_Given b0 b1 => then_pcmp (pcmp a0 b0) (q_gag_pcmp a1 b1)
    | _, _ => Some (Nat.compare (q_ga_number x) (q_ga_number y))
    end.
  Definition q_ga_cmp (x y : q_ga T) : comparison :=
    then_cmp (Nat.compare (q_ga_number x) (q_ga_number y))
    match x, y with
    | QGA_Any a0, QGA_Any b0 => q_gaa_cmp a0 b0
    | QGA_SameP a0, QGA_SameP b0 => q_gag_cmp a0 b0
    | QGA_Given a0 a1, QGA_Given b0 b1 => then_cmp (cmp a0 b0) (q_gag_cmp a1 b1)
    | _, _ => Eq
    end.
  Definition q_ga_hash (x : q_ga T) : list (fed K) :=
    FVariant (q_ga_number x) :: match x with QGA_Any a0 => q_gaa_hash a0 | QGA_SameP a0 => q_gag_hash a0 | QGA_Given a0 a1 => hash a0 ++ q_gag_hash a1 end.

  (** pattern/quad/canonical.rs 1112-1116 ([GivenSubjectGivenPredicate]). *)
  Definition q_gg_number (x : q_gg T) : nat :=
    match x with QGG_Any _ => 0 | QGG_Given _ _ => 1 end.
  Definition q_gg_eq (x y : q_gg T) : bool :=
    (q_gg_number x =? q_gg_number y) &&
    match x, y with
    | QGG_Any a0, QGG_Any b0 => q_gga_eq a0 b0
    | QGG_Given a0 a1, QGG_Given b0 b1 => eq a0 b0 && q_ggg_eq a1 b1
    | _, _ => true
    end.
  Definition q_gg_pcmp (x y : q_gg T) : option comparison :=
    match x, y with
    | QGG_Any a0, QGG_Any b0 => q_gga_pcmp a0 b0
    | QGG_Given a0 a1, QGG_Given b0 b1 => then_pcmp (pcmp a0 b0) (q_ggg_pcmp a1 b1)
    | _, _ => Some (Nat.compare (q_gg_number x) (q_gg_number y))
    end.
  Definition q_gg_cmp (x y : q_gg T) : comparison :=
    then_cmp (Nat.compare (q_gg_number x) (q_gg_number y))
    match x, y with
    | QGG_Any a0, QGG_Any b0 => q_gga_cmp a0 b0
    | QGG_Given a0 a1, QGG_Given b0 b1 => then_cmp (cmp a0 b0) (q_ggg_cmp a1 b1)
    | _, _ => Eq
    end.
  Definition q_gg_hash (x : q_gg T) : list (fed K) :=
    FVariant (q_gg_number x) :: match x with QGG_Any a0 => q_gga_hash a0 | QGG_Given a0 a1 => hash a0 ++ q_ggg_hash a1 end.

  (** pattern/quad/canonical.rs 368-373 ([AnySubject]). *)
  Definition q_as_number (x : q_as T) : nat :=
    match x with QA_AnyP _ => 0 | QA_SameS _ => 1 | QA_GivenP _ _ => 2 end.
  Definition q_as_eq (x y : q_as T) : bool :=
    (q_as_number x =? q_as_number y) &&
    match x, y with
    | QA_AnyP a0, QA_AnyP b0 => q_aa_eq a0 b0
    | QA_SameS a0, QA_SameS b0 => q_ag_eq a0 b0
    | QA_GivenP a0 a1, QA_GivenP b0 b1 => eq a0 b0 && q_ag_eq a1 b1
    | _, _ => true
    end.
  Definition q_as_pcmp (x y : q_as T) : option comparison :=
    match x, y with
    | QA_AnyP a0, QA_AnyP b0 => q_aa_pcmp a0 b0
    | QA_SameS a0, QA_SameS b0 => q_ag_pcmp a0 b0
    | QA_GivenP a0 a1, QA_GivenP b0 b1 => then_pcmp (pcmp a0 b0) (q_ag_pcmp a1 b1)
    | _, _ => Some (Nat.compare (q_as_number x) (q_as_number y))
    end.
  Definition q_as_cmp (x y : q_as T) : comparison :=
    then_cmp (Nat.compare (q_as_number x) (q_as_number y))
    match x, y with
    | QA_AnyP a0, QA_AnyP b0 => q_aa_cmp a0 b0
    | QA_SameS a0, QA_SameS b0 => q_ag_cmp a0 b0
    | QA_GivenP a0 a1, QA_GivenP b0 b1 => then_cmp (cmp a0 b0) (q_ag_cmp a1 b1)
    | _, _ => Eq
    end.
  Definition q_as_hash (x : q_as T) : list (fed K) :=
    FVariant (q_as_number x) :: match x with QA_AnyP a0 => q_aa_hash a0 | QA_SameS a0 => q_ag_hash a0 | QA_GivenP a0 a1 => hash a0 ++ q_ag_hash a1 end.

  (** pattern/quad/canonical.rs 837-841 ([GivenSubject]). *)
  Definition q_gs_number (x : q_gs T) : nat :=
    match x with QG_AnyP _ => 0 | QG_GivenP _ _ => 1 end.
  Definition q_gs_eq (x y : q_gs T) : bool :=
    (q_gs_number x =? q_gs_number y) &&
    match x, y with
    | QG_AnyP a0, QG_AnyP b0 => q_ga_eq a0 b0
    | QG_GivenP a0 a1, QG_GivenP b0 b1 => eq a0 b0 && q_gg_eq a1 b1
    | _, _ => true
    end.
  Definition q_gs_pcmp (x y : q_gs T) : option comparison :=
    match x, y with
    | QG_AnyP a0, QG_AnyP b0 => q_ga_pcmp a0 b0
    | QG_GivenP a0 a1, QG_GivenP b0 b1 => then_pcmp (pcmp a0 b0) (q_gg_pcmp a1 b1)
    | _, _ => Some (Nat.compare (q_gs_number x) (q_gs_number y))
    end.
  Definition q_gs_cmp (x y : q_gs T) : comparison :=
    then_cmp (Nat.compare (q_gs_number x) (q_gs_number y))
    match x, y with
    | QG_AnyP a0, QG_AnyP b0 => q_ga_cmp a0 b0
    | QG_GivenP a0 a1, QG_GivenP b0 b1 => then_cmp (cmp a0 b0) (q_gg_cmp a1 b1)
    | _, _ => Eq
    end.
  Definition q_gs_hash (x : q_gs T) : list (fed K) :=
    FVariant (q_gs_number x) :: match x with QG_AnyP a0 => q_ga_hash a0 | QG_GivenP a0 a1 => hash a0 ++ q_gg_hash a1 end.

  (** pattern/quad/canonical.rs 10-14 ([CanonicalQuadPattern]). *)
  Definition cqp_number (x : cqp T) : nat :=
    match x with CQ_AnyS _ => 0 | CQ_GivenS _ _ => 1 end.
  Definition cqp_eq (x y : cqp T) : bool :=
    (cqp_number x =? cqp_number y) &&
    match x, y with
    | CQ_AnyS a0, CQ_AnyS b0 => q_as_eq a0 b0
    | CQ_GivenS a0 a1, CQ_GivenS b0 b1 => eq a0 b0 && q_gs_eq a1 b1
    | _, _ => true
    end.
  Definition cqp_pcmp (x y : cqp T) : option comparison :=
    match x, y with
    | CQ_AnyS a0, CQ_AnyS b0 => q_as_pcmp a0 b0
    | CQ_GivenS a0 a1, CQ_GivenS b0 b1 => then_pcmp (pcmp a0 b0) (q_gs_pcmp a1 b1)
    | _, _ => Some (Nat.compare (cqp_number x) (cqp_number y))
    end.
  Definition cqp_cmp (x y : cqp T) : comparison :=
    then_cmp (Nat.compare (cqp_number x) (cqp_number y))
    match x, y with
    | CQ_AnyS a0, CQ_AnyS b0 => q_as_cmp a0 b0
    | CQ_GivenS a0 a1, CQ_GivenS b0 b1 => then_cmp (cmp a0 b0) (q_gs_cmp a1 b1)
    | _, _ => Eq
    end.
  Definition cqp_hash (x : cqp T) : list (fed K) :=
    FVariant (cqp_number x) :: match x with CQ_AnyS a0 => q_as_hash a0 | CQ_GivenS a0 a1 => hash a0 ++ q_gs_hash a1 end.

End Keys.

(** pattern/resource_or_variable.rs 2-7 ([ResourceOrVar]). *)
Section Variables.
  Context {T X K : Type}.
  Definition rv_number (x : res_or_var T X) : nat := match x with Res _ => 0 | Var _ => 1 end.
  Definition rv_eq (eqt : T -> T -> bool) (eqx : X -> X -> bool) (x y : res_or_var T X) : bool :=
    (rv_number x =? rv_number y) &&
    match x, y with Res a, Res b => eqt a b | Var a, Var b => eqx a b | _, _ => true end.
  Definition rv_pcmp (ct : T -> T -> option comparison) (cx : X -> X -> option comparison)
      (x y : res_or_var T X) : option comparison :=
    match x, y with
    | Res a, Res b => ct a b | Var a, Var b => cx a b
    | _, _ => Some (Nat.compare (rv_number x) (rv_number y))
    end.
  Definition rv_cmp (ct : T -> T -> comparison) (cx : X -> X -> comparison)
      (x y : res_or_var T X) : comparison :=
    then_cmp (Nat.compare (rv_number x) (rv_number y))
    match x, y with Res a, Res b => ct a b | Var a, Var b => cx a b | _, _ => Eq end.
  Definition rv_hash (ht : T -> list (fed K)) (hx : X -> list (fed K)) (x : res_or_var T X)
    : list (fed K) :=
    FVariant (rv_number x) :: match x with Res a => ht a | Var a => hx a end.
End Variables.

(** triple.rs 12-14, quad.rs 14-16: derived [Hash], of structures. *)
Definition triple_hash {S P O K} (hs : S -> list (fed K)) (hp : P -> list (fed K))
    (ho : O -> list (fed K)) (t : gtriple S P O) : list (fed K) :=
  hs (t_s t) ++ hp (t_p t) ++ ho (t_o t).
Definition quad_hash {S P O G K} (hs : S -> list (fed K)) (hp : P -> list (fed K))
    (ho : O -> list (fed K)) (hg : G -> list (fed K)) (q : gquad S P O G) : list (fed K) :=
  hs (q_s q) ++ hp (q_p q) ++ ho (q_o q) ++ option_hash hg (q_g q).
