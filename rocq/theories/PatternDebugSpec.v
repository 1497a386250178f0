(** What [{:?}] and [{:#?}] should show of a pattern map, from the pairs (pattern, value) it
    holds.  Nothing here uses the models of the maps or of [Debug]. *)
From Coq Require Import List NArith Bool Ascii String.
Import ListNotations.
From Verif Require Import Base TextModel DisplayModel TriplePatternModel WriteSpec DebugSpec.
Local Open Scope N_scope.

Section Trees.
  (** The trees of values and of resources. *)
  Context {V T : Type} (value : V -> tree) (key : T -> tree).

  (** A set of the values that satisfy [P], each once, in some order. *)
  Definition set_shown (P : V -> Prop) (t : tree) : Prop := exists vs,
    t = SetOf (map value vs) /\ NoDup vs /\ forall v, In v vs <-> P v.
  (** A map from the resources under which there is something, each once, in some order, to what is
      under them. *)
  Definition map_shown {C} (some : C -> Prop) (sub : C -> tree -> Prop) (R : T -> C) (t : tree) : Prop :=
    exists es : list (T * tree),
      t = MapOf (map (fun e => (key (fst e), snd e)) es) /\ NoDup (map fst es) /\
      (forall k, In k (map fst es) <-> some (R k)) /\
      (forall k u, In (k, u) es -> sub (R k) u).
  Definition some_value (P : V -> Prop) : Prop := exists v, P v.
  Definition some_pair {C} (R : C -> V -> Prop) : Prop := exists c v, R c v.

  (** The pairs are given by [R]. *)
  Definition ga_shown (R : t_ga T -> V -> Prop) (t : tree) : Prop := exists a b c,
    t = Struct "GivenSubjectAnyPredicateMap"
          [("any"%string, a); ("same_as_predicate"%string, b); ("given"%string, c)] /\
    set_shown (R TGA_Any) a /\ set_shown (R TGA_SameP) b /\
    map_shown some_value set_shown (fun k => R (TGA_Given k)) c.
  Definition gg_shown (R : t_gg T -> V -> Prop) (t : tree) : Prop := exists a b,
    t = Struct "GivenSubjectGivenPredicateMap" [("any"%string, a); ("given"%string, b)] /\
    set_shown (R TGG_Any) a /\ map_shown some_value set_shown (fun k => R (TGG_Given k)) b.
  Definition aa_shown (R : t_aa T -> V -> Prop) (t : tree) : Prop := exists a b c d,
    t = Struct "AnySubjectAnyPredicateMap"
          [("any"%string, a); ("same_as_subject"%string, b); ("same_as_predicate"%string, c);
           ("given"%string, d)] /\
    set_shown (R TAA_Any) a /\ set_shown (R TAA_SameS) b /\ set_shown (R TAA_SameP) c /\
    map_shown some_value set_shown (fun k => R (TAA_Given k)) d.
  Definition ag_shown (R : t_ag T -> V -> Prop) (t : tree) : Prop := exists a b c,
    t = Struct "AnySubjectGivenPredicateMap"
          [("any"%string, a); ("same_as_subject"%string, b); ("given"%string, c)] /\
    set_shown (R TAG_Any) a /\ set_shown (R TAG_SameS) b /\
    map_shown some_value set_shown (fun k => R (TAG_Given k)) c.
  Definition gs_shown (R : t_gs T -> V -> Prop) (t : tree) : Prop := exists a b,
    t = Struct "GivenSubjectMap" [("any"%string, a); ("given"%string, b)] /\
    ga_shown (fun r => R (TG_AnyP r)) a /\
    map_shown some_pair gg_shown (fun k r => R (TG_GivenP k r)) b.
  Definition as_shown (R : t_as T -> V -> Prop) (t : tree) : Prop := exists a b c,
    t = Struct "AnySubjectMap"
          [("any"%string, a); ("same_as_subject"%string, b); ("given"%string, c)] /\
    aa_shown (fun r => R (TA_AnyP r)) a /\ ag_shown (fun r => R (TA_SameS r)) b /\
    map_shown some_pair ag_shown (fun k r => R (TA_GivenP k r)) c.
  Definition tp_shown (R : ctp T -> V -> Prop) (t : tree) : Prop := exists a b,
    t = Struct "TriplePatternMap" [("any"%string, a); ("given"%string, b)] /\
    as_shown (fun r => R (CT_AnyS r)) a /\
    map_shown some_pair gs_shown (fun k r => R (CT_GivenS k r)) b.
End Trees.

(** The text of a key, which a colon follows, tells which key it is. *)
Definition key_readable {A} (s : A -> text) : Prop := forall a b x y,
  s a ++ chars ": " ++ x = s b ++ chars ": " ++ y -> a = b /\ x = y.
(** A text which is not empty, nor taken for the end of a set. *)
Definition opens {A} (s : A -> text) : Prop := forall a, exists c r, s a = c :: r /\ [c] <> chars "}".
(** The values show themselves with a text that can be read, also as a key.  In the plain one, only
    characters of a given class occur. *)
Definition tells_key {A} (class : char -> Prop) (d : A -> debug) : Prop := exists s : bool -> A -> text,
  (forall a, shows (d a) (fun pretty => s pretty a)) /\
  (forall pretty, readable (s pretty) /\ key_readable (s pretty) /\ opens (s pretty)) /\
  (forall a c, In c (s false a) -> class c).
