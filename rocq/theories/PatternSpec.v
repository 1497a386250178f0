(** What patterns mean.  Nothing here uses the functions of the model, only
    its types. *)
From Coq Require Import List Bool.
Import ListNotations.
From Verif Require Import Base TripleModel TriplePatternModel QuadPatternModel.

Section Meaning.
  Context {T X : Type}.

  (** ** Patterns with variables *)

  (** A term of a pattern under an assignment of resources to the variables. *)
  Definition assigned (a : X -> T) (r : res_or_var T X) : T :=
    match r with Res t => t | Var x => a x end.

  (** A triple is an instance of a pattern: one assignment turns every
      component of the pattern into the component of the triple. *)
  Definition triple_instance (p : triple_pattern T X) (t : triple T) : Prop :=
    exists a : X -> T,
      assigned a (t_s p) = t_s t /\ assigned a (t_p p) = t_p t /\ assigned a (t_o p) = t_o t.

  (** Same for quads, where the variables range over graph labels: a resource,
      or [None] for the default graph.  In the first three positions a
      variable must stand for a resource. *)
  Definition label (a : X -> option T) (r : res_or_var T X) : option T :=
    match r with Res t => Some t | Var x => a x end.

  Definition quad_instance (p : quad_pattern T X) (q : quad T) : Prop :=
    exists a : X -> option T,
      label a (q_s p) = Some (q_s q) /\ label a (q_p p) = Some (q_p q) /\
      label a (q_o p) = Some (q_o q) /\
      match q_g p with None => None | Some r => label a r end = q_g q.

  (** The strict reading: variables stand for resources everywhere. *)
  Definition strict_quad_instance (p : quad_pattern T X) (q : quad T) : Prop :=
    exists a : X -> T,
      assigned a (q_s p) = q_s q /\ assigned a (q_p p) = q_p q /\
      assigned a (q_o p) = q_o q /\ option_map (assigned a) (q_g p) = q_g q.

  (** ** Optional components: [None] is a wildcard *)
  Definition agrees {A} (given : option A) (x : A) : Prop :=
    match given with None => True | Some y => x = y end.

  (** ** Canonical patterns, read off the names of their variants *)
  Definition taa_m (c : t_aa T) (s p o : T) : Prop :=
    match c with TAA_Any => True | TAA_SameS => o = s | TAA_SameP => o = p | TAA_Given x => o = x end.
  Definition tag_m (c : t_ag T) (s o : T) : Prop :=
    match c with TAG_Any => True | TAG_SameS => o = s | TAG_Given x => o = x end.
  Definition tga_m (c : t_ga T) (p o : T) : Prop :=
    match c with TGA_Any => True | TGA_SameP => o = p | TGA_Given x => o = x end.
  Definition tgg_m (c : t_gg T) (o : T) : Prop :=
    match c with TGG_Any => True | TGG_Given x => o = x end.
  Definition tas_m (c : t_as T) (s p o : T) : Prop :=
    match c with
    | TA_AnyP c => taa_m c s p o
    | TA_SameS c => p = s /\ tag_m c s o
    | TA_GivenP x c => p = x /\ tag_m c s o
    end.
  Definition tgs_m (c : t_gs T) (p o : T) : Prop :=
    match c with
    | TG_AnyP c => tga_m c p o
    | TG_GivenP x c => p = x /\ tgg_m c o
    end.
  Definition ct_matches (c : ctp T) (t : triple T) : Prop :=
    match c with
    | CT_AnyS c => tas_m c (t_s t) (t_p t) (t_o t)
    | CT_GivenS x c => t_s t = x /\ tgs_m c (t_p t) (t_o t)
    end.

  Definition qaaa_m (c : q_aaa T) (s p o : T) (g : option T) : Prop :=
    match c with
    | QAAA_Any => True | QAAA_SameS => g = Some s | QAAA_SameP => g = Some p
    | QAAA_SameO => g = Some o | QAAA_Given x => g = x
    end.
  Definition qgaa_m (c : q_gaa T) (p o : T) (g : option T) : Prop :=
    match c with
    | QGAA_Any => True | QGAA_SameP => g = Some p | QGAA_SameO => g = Some o | QGAA_Given x => g = x
    end.
  Definition qaga_m (c : q_aga T) (s o : T) (g : option T) : Prop :=
    match c with
    | QAGA_Any => True | QAGA_SameS => g = Some s | QAGA_SameO => g = Some o | QAGA_Given x => g = x
    end.
  Definition qaag_m (c : q_aag T) (s p : T) (g : option T) : Prop :=
    match c with
    | QAAG_Any => True | QAAG_SameS => g = Some s | QAAG_SameP => g = Some p | QAAG_Given x => g = x
    end.
  Definition qagg_m (c : q_agg T) (s : T) (g : option T) : Prop :=
    match c with QAGG_Any => True | QAGG_SameS => g = Some s | QAGG_Given x => g = x end.
  Definition qgag_m (c : q_gag T) (p : T) (g : option T) : Prop :=
    match c with QGAG_Any => True | QGAG_SameP => g = Some p | QGAG_Given x => g = x end.
  Definition qgga_m (c : q_gga T) (o : T) (g : option T) : Prop :=
    match c with QGGA_Any => True | QGGA_SameO => g = Some o | QGGA_Given x => g = x end.
  Definition qggg_m (c : q_ggg T) (g : option T) : Prop :=
    match c with QGGG_Any => True | QGGG_Given x => g = x end.
  Definition qaa_m (c : q_aa T) (s p o : T) (g : option T) : Prop :=
    match c with
    | QAA_Any c => qaaa_m c s p o g
    | QAA_SameS c => o = s /\ qaag_m c s p g
    | QAA_SameP c => o = p /\ qaag_m c s p g
    | QAA_Given x c => o = x /\ qaag_m c s p g
    end.
  Definition qag_m (c : q_ag T) (s o : T) (g : option T) : Prop :=
    match c with
    | QAG_Any c => qaga_m c s o g
    | QAG_SameS c => o = s /\ qagg_m c s g
    | QAG_Given x c => o = x /\ qagg_m c s g
    end.
  Definition qga_m (c : q_ga T) (p o : T) (g : option T) : Prop :=
    match c with
    | QGA_Any c => qgaa_m c p o g
    | QGA_SameP c => o = p /\ qgag_m c p g
    | QGA_Given x c => o = x /\ qgag_m c p g
    end.
  Definition qgg_m (c : q_gg T) (o : T) (g : option T) : Prop :=
    match c with
    | QGG_Any c => qgga_m c o g
    | QGG_Given x c => o = x /\ qggg_m c g
    end.
  Definition qas_m (c : q_as T) (s p o : T) (g : option T) : Prop :=
    match c with
    | QA_AnyP c => qaa_m c s p o g
    | QA_SameS c => p = s /\ qag_m c s o g
    | QA_GivenP x c => p = x /\ qag_m c s o g
    end.
  Definition qgs_m (c : q_gs T) (p o : T) (g : option T) : Prop :=
    match c with
    | QG_AnyP c => qga_m c p o g
    | QG_GivenP x c => p = x /\ qgg_m c o g
    end.
  Definition cq_matches (c : cqp T) (q : quad T) : Prop :=
    match c with
    | CQ_AnyS c => qas_m c (q_s q) (q_p q) (q_o q) (q_g q)
    | CQ_GivenS x c => q_s q = x /\ qgs_m c (q_p q) (q_o q) (q_g q)
    end.

  (** ** The constraints described by the accessors *)
  Definition s_ok (c : pat_s T) (s : T) : Prop :=
    match c with PS_Any => True | PS_Given x => s = x end.
  Definition p_ok (c : pat_p T) (s p : T) : Prop :=
    match c with PP_Any => True | PP_SameS => p = s | PP_Given x => p = x end.
  Definition o_ok (c : pat_o T) (s p o : T) : Prop :=
    match c with PO_Any => True | PO_SameS => o = s | PO_SameP => o = p | PO_Given x => o = x end.
  Definition g_ok (c : pat_g T) (s p o : T) (g : option T) : Prop :=
    match c with
    | PG_Any => True | PG_SameS => g = Some s | PG_SameP => g = Some p | PG_SameO => g = Some o
    | PG_Given x => g = x
    end.

  (** ** Setting a component

      If the component had a value, the value is replaced and nothing else
      changes; otherwise the new value is an additional constraint, so that
      the equalities the pattern imposes between components stay in force. *)
  Definition set_s_spec (given : bool) (c : triple T -> Prop) (x : T) (t : triple T) : Prop :=
    t_s t = x /\ if given then exists y, c (Triple y (t_p t) (t_o t)) else c t.
  Definition set_p_spec (given : bool) (c : triple T -> Prop) (x : T) (t : triple T) : Prop :=
    t_p t = x /\ if given then exists y, c (Triple (t_s t) y (t_o t)) else c t.
  Definition set_o_spec (given : bool) (c : triple T -> Prop) (x : T) (t : triple T) : Prop :=
    t_o t = x /\ if given then exists y, c (Triple (t_s t) (t_p t) y) else c t.

End Meaning.

(** Mapping the resources of an accessor's result. *)
Definition pat_s_map {T U} (f : T -> U) (c : pat_s T) : pat_s U :=
  match c with PS_Any => PS_Any | PS_Given x => PS_Given (f x) end.
Definition pat_p_map {T U} (f : T -> U) (c : pat_p T) : pat_p U :=
  match c with PP_Any => PP_Any | PP_SameS => PP_SameS | PP_Given x => PP_Given (f x) end.
Definition pat_o_map {T U} (f : T -> U) (c : pat_o T) : pat_o U :=
  match c with
  | PO_Any => PO_Any | PO_SameS => PO_SameS | PO_SameP => PO_SameP | PO_Given x => PO_Given (f x)
  end.
Definition pat_g_map {T U} (f : T -> U) (c : pat_g T) : pat_g U :=
  match c with
  | PG_Any => PG_Any | PG_SameS => PG_SameS | PG_SameP => PG_SameP | PG_SameO => PG_SameO
  | PG_Given x => PG_Given (option_map f x)
  end.
