(** Canonical quad patterns (/repo/src/pattern/quad/canonical.rs, and
    [with_any_graph] of /repo/src/pattern/triple/canonical.rs).  Line numbers
    without a file refer to quad/canonical.rs.

    Simplification: as in TriplePatternModel.v, references are values, so
    [subject]/[into_subject], [graph]/[into_graph], ... are one function and
    [as_ref] (209-214 and the like) is the identity; the state of an [FnMut]
    passed to [map]/[map2] is not modelled (it is a function). *)
From Coq Require Import List Bool.
Import ListNotations.
From Verif Require Import Base TripleModel TriplePatternModel.

(** In the names below [a] is "any", [g] is "given", for the subject, the
    predicate and the object in this order. *)

(** 1241-1247 (enum [AnySubjectAnyPredicateAnyObject]). *)
Inductive q_aaa (T : Type) :=
  QAAA_Any | QAAA_SameS | QAAA_SameP | QAAA_SameO | QAAA_Given (g : option T).
Arguments QAAA_Any {T}. Arguments QAAA_SameS {T}. Arguments QAAA_SameP {T}. Arguments QAAA_SameO {T}. Arguments QAAA_Given {T} _.
(** 1357-1362 (enum [GivenSubjectAnyPredicateAnyObject]). *)
Inductive q_gaa (T : Type) :=
  QGAA_Any | QGAA_SameP | QGAA_SameO | QGAA_Given (g : option T).
Arguments QGAA_Any {T}. Arguments QGAA_SameP {T}. Arguments QGAA_SameO {T}. Arguments QGAA_Given {T} _.
(** 1462-1467 (enum [AnySubjectGivenPredicateAnyObject]). *)
Inductive q_aga (T : Type) :=
  QAGA_Any | QAGA_SameS | QAGA_SameO | QAGA_Given (g : option T).
Arguments QAGA_Any {T}. Arguments QAGA_SameS {T}. Arguments QAGA_SameO {T}. Arguments QAGA_Given {T} _.
(** 1567-1572 (enum [AnySubjectAnyPredicateGivenObject]). *)
Inductive q_aag (T : Type) :=
  QAAG_Any | QAAG_SameS | QAAG_SameP | QAAG_Given (g : option T).
Arguments QAAG_Any {T}. Arguments QAAG_SameS {T}. Arguments QAAG_SameP {T}. Arguments QAAG_Given {T} _.
(** 1672-1676 (enum [AnySubjectGivenPredicateGivenObject]). *)
Inductive q_agg (T : Type) :=
  QAGG_Any | QAGG_SameS | QAGG_Given (g : option T).
Arguments QAGG_Any {T}. Arguments QAGG_SameS {T}. Arguments QAGG_Given {T} _.
(** 1766-1770 (enum [GivenSubjectAnyPredicateGivenObject]). *)
Inductive q_gag (T : Type) :=
  QGAG_Any | QGAG_SameP | QGAG_Given (g : option T).
Arguments QGAG_Any {T}. Arguments QGAG_SameP {T}. Arguments QGAG_Given {T} _.
(** 1860-1864 (enum [GivenSubjectGivenPredicateAnyObject]). *)
Inductive q_gga (T : Type) :=
  QGGA_Any | QGGA_SameO | QGGA_Given (g : option T).
Arguments QGGA_Any {T}. Arguments QGGA_SameO {T}. Arguments QGGA_Given {T} _.
(** 1954-1957 (enum [GivenSubjectGivenPredicateGivenObject]). *)
Inductive q_ggg (T : Type) :=
  QGGG_Any | QGGG_Given (g : option T).
Arguments QGGG_Any {T}.  Arguments QGGG_Given {T} _.

(** 530-535, 695-699, 970-974, 1113-1116 (enums [AnySubjectAnyPredicate],
    [AnySubjectGivenPredicate], [GivenSubjectAnyPredicate],
    [GivenSubjectGivenPredicate]). *)
Inductive q_aa (T : Type) :=
  QAA_Any (g : q_aaa T) | QAA_SameS (g : q_aag T) | QAA_SameP (g : q_aag T)
| QAA_Given (o : T) (g : q_aag T).
Inductive q_ag (T : Type) :=
  QAG_Any (g : q_aga T) | QAG_SameS (g : q_agg T) | QAG_Given (o : T) (g : q_agg T).
Inductive q_ga (T : Type) :=
  QGA_Any (g : q_gaa T) | QGA_SameP (g : q_gag T) | QGA_Given (o : T) (g : q_gag T).
Inductive q_gg (T : Type) :=
  QGG_Any (g : q_gga T) | QGG_Given (o : T) (g : q_ggg T).
Arguments QAA_Any {T} _. Arguments QAA_SameS {T} _. Arguments QAA_SameP {T} _.
Arguments QAA_Given {T} _ _.
Arguments QAG_Any {T} _. Arguments QAG_SameS {T} _. Arguments QAG_Given {T} _ _.
Arguments QGA_Any {T} _. Arguments QGA_SameP {T} _. Arguments QGA_Given {T} _ _.
Arguments QGG_Any {T} _. Arguments QGG_Given {T} _ _.

(** 369-373, 838-841 (enums [AnySubject], [GivenSubject]), 11-14 (enum
    [CanonicalQuadPattern]). *)
Inductive q_as (T : Type) :=
  QA_AnyP (og : q_aa T) | QA_SameS (og : q_ag T) | QA_GivenP (p : T) (og : q_ag T).
Inductive q_gs (T : Type) := QG_AnyP (og : q_ga T) | QG_GivenP (p : T) (og : q_gg T).
Inductive cqp (T : Type) := CQ_AnyS (pog : q_as T) | CQ_GivenS (s : T) (pog : q_gs T).
Arguments QA_AnyP {T} _. Arguments QA_SameS {T} _. Arguments QA_GivenP {T} _ _.
Arguments QG_AnyP {T} _. Arguments QG_GivenP {T} _ _.
Arguments CQ_AnyS {T} _. Arguments CQ_GivenS {T} _ _.

Section Pattern.
  Context {T X : Type} (xeqb : X -> X -> bool).

  (** 1250-1255 [from_option], 1257-1273 [from_pattern], 1285-1293 [into_graph]
      of [AnySubjectAnyPredicateAnyObject]. *)
  Definition qaaa_from_option (g : option (option T)) : q_aaa T :=
    match g with Some g => QAAA_Given g | None => QAAA_Any end.
  Definition qaaa_from_pattern (s p o : X) (g : option (res_or_var T X)) : q_aaa T :=
    match g with
    | None => QAAA_Given None
    | Some (Res g) => QAAA_Given (Some g)
    | Some (Var g) => if xeqb g s then QAAA_SameS else if xeqb g p then QAAA_SameP else if xeqb g o then QAAA_SameO else QAAA_Any
    end.
  Definition qaaa_graph (c : q_aaa T) : pat_g T :=
    match c with
    | QAAA_Any => PG_Any
    | QAAA_SameS => PG_SameS
    | QAAA_SameP => PG_SameP
    | QAAA_SameO => PG_SameO
    | QAAA_Given g => PG_Given g
    end.

  (** 1365-1370 [from_option], 1372-1386 [from_pattern], 1397-1404 [into_graph]
      of [GivenSubjectAnyPredicateAnyObject]. *)
  Definition qgaa_from_option (g : option (option T)) : q_gaa T :=
    match g with Some g => QGAA_Given g | None => QGAA_Any end.
  Definition qgaa_from_pattern (p o : X) (g : option (res_or_var T X)) : q_gaa T :=
    match g with
    | None => QGAA_Given None
    | Some (Res g) => QGAA_Given (Some g)
    | Some (Var g) => if xeqb g p then QGAA_SameP else if xeqb g o then QGAA_SameO else QGAA_Any
    end.
  Definition qgaa_graph (c : q_gaa T) : pat_g T :=
    match c with
    | QGAA_Any => PG_Any
    | QGAA_SameP => PG_SameP
    | QGAA_SameO => PG_SameO
    | QGAA_Given g => PG_Given g
    end.

  (** 1470-1475 [from_option], 1477-1491 [from_pattern], 1502-1509 [into_graph]
      of [AnySubjectGivenPredicateAnyObject]. *)
  Definition qaga_from_option (g : option (option T)) : q_aga T :=
    match g with Some g => QAGA_Given g | None => QAGA_Any end.
  Definition qaga_from_pattern (s o : X) (g : option (res_or_var T X)) : q_aga T :=
    match g with
    | None => QAGA_Given None
    | Some (Res g) => QAGA_Given (Some g)
    | Some (Var g) => if xeqb g s then QAGA_SameS else if xeqb g o then QAGA_SameO else QAGA_Any
    end.
  Definition qaga_graph (c : q_aga T) : pat_g T :=
    match c with
    | QAGA_Any => PG_Any
    | QAGA_SameS => PG_SameS
    | QAGA_SameO => PG_SameO
    | QAGA_Given g => PG_Given g
    end.

  (** 1575-1580 [from_option], 1582-1596 [from_pattern], 1607-1614 [into_graph]
      of [AnySubjectAnyPredicateGivenObject]. *)
  Definition qaag_from_option (g : option (option T)) : q_aag T :=
    match g with Some g => QAAG_Given g | None => QAAG_Any end.
  Definition qaag_from_pattern (s p : X) (g : option (res_or_var T X)) : q_aag T :=
    match g with
    | None => QAAG_Given None
    | Some (Res g) => QAAG_Given (Some g)
    | Some (Var g) => if xeqb g s then QAAG_SameS else if xeqb g p then QAAG_SameP else QAAG_Any
    end.
  Definition qaag_graph (c : q_aag T) : pat_g T :=
    match c with
    | QAAG_Any => PG_Any
    | QAAG_SameS => PG_SameS
    | QAAG_SameP => PG_SameP
    | QAAG_Given g => PG_Given g
    end.

  (** 1679-1684 [from_option], 1686-1698 [from_pattern], 1708-1714 [into_graph]
      of [AnySubjectGivenPredicateGivenObject]. *)
  Definition qagg_from_option (g : option (option T)) : q_agg T :=
    match g with Some g => QAGG_Given g | None => QAGG_Any end.
  Definition qagg_from_pattern (s : X) (g : option (res_or_var T X)) : q_agg T :=
    match g with
    | None => QAGG_Given None
    | Some (Res g) => QAGG_Given (Some g)
    | Some (Var g) => if xeqb g s then QAGG_SameS else QAGG_Any
    end.
  Definition qagg_graph (c : q_agg T) : pat_g T :=
    match c with
    | QAGG_Any => PG_Any
    | QAGG_SameS => PG_SameS
    | QAGG_Given g => PG_Given g
    end.

  (** 1773-1778 [from_option], 1780-1792 [from_pattern], 1802-1808 [into_graph]
      of [GivenSubjectAnyPredicateGivenObject]. *)
  Definition qgag_from_option (g : option (option T)) : q_gag T :=
    match g with Some g => QGAG_Given g | None => QGAG_Any end.
  Definition qgag_from_pattern (p : X) (g : option (res_or_var T X)) : q_gag T :=
    match g with
    | None => QGAG_Given None
    | Some (Res g) => QGAG_Given (Some g)
    | Some (Var g) => if xeqb g p then QGAG_SameP else QGAG_Any
    end.
  Definition qgag_graph (c : q_gag T) : pat_g T :=
    match c with
    | QGAG_Any => PG_Any
    | QGAG_SameP => PG_SameP
    | QGAG_Given g => PG_Given g
    end.

  (** 1867-1872 [from_option], 1874-1886 [from_pattern], 1896-1902 [into_graph]
      of [GivenSubjectGivenPredicateAnyObject]. *)
  Definition qgga_from_option (g : option (option T)) : q_gga T :=
    match g with Some g => QGGA_Given g | None => QGGA_Any end.
  Definition qgga_from_pattern (o : X) (g : option (res_or_var T X)) : q_gga T :=
    match g with
    | None => QGGA_Given None
    | Some (Res g) => QGGA_Given (Some g)
    | Some (Var g) => if xeqb g o then QGGA_SameO else QGGA_Any
    end.
  Definition qgga_graph (c : q_gga T) : pat_g T :=
    match c with
    | QGGA_Any => PG_Any
    | QGGA_SameO => PG_SameO
    | QGGA_Given g => PG_Given g
    end.

  (** 1960-1965 [from_option], 1967-1973 [from_pattern], 1982-1987 [into_graph]
      of [GivenSubjectGivenPredicateGivenObject]. *)
  Definition qggg_from_option (g : option (option T)) : q_ggg T :=
    match g with Some g => QGGG_Given g | None => QGGG_Any end.
  Definition qggg_from_pattern (g : option (res_or_var T X)) : q_ggg T :=
    match g with
    | None => QGGG_Given None
    | Some (Res g) => QGGG_Given (Some g)
    | Some (Var _) => QGGG_Any
    end.
  Definition qggg_graph (c : q_ggg T) : pat_g T :=
    match c with
    | QGGG_Any => PG_Any
    | QGGG_Given g => PG_Given g
    end.

  (** 538-543, 702-707, 977-982, 1119-1124 [from_option]. *)
  Definition qaa_from_option (o : option T) (g : option (option T)) : q_aa T :=
    match o with
    | Some o => QAA_Given o (qaag_from_option g)
    | None => QAA_Any (qaaa_from_option g)
    end.
  Definition qag_from_option (o : option T) (g : option (option T)) : q_ag T :=
    match o with
    | Some o => QAG_Given o (qagg_from_option g)
    | None => QAG_Any (qaga_from_option g)
    end.
  Definition qga_from_option (o : option T) (g : option (option T)) : q_ga T :=
    match o with
    | Some o => QGA_Given o (qgag_from_option g)
    | None => QGA_Any (qgaa_from_option g)
    end.
  Definition qgg_from_option (o : option T) (g : option (option T)) : q_gg T :=
    match o with
    | Some o => QGG_Given o (qggg_from_option g)
    | None => QGG_Any (qgga_from_option g)
    end.
  (** 376-381, 844-849 [from_option_quad]. *)
  Definition qas_from_option (p o : option T) (g : option (option T)) : q_as T :=
    match p with
    | Some p => QA_GivenP p (qag_from_option o g)
    | None => QA_AnyP (qaa_from_option o g)
    end.
  Definition qgs_from_option (p o : option T) (g : option (option T)) : q_gs T :=
    match p with
    | Some p => QG_GivenP p (qgg_from_option o g)
    | None => QG_AnyP (qga_from_option o g)
    end.

  (** 545-565, 709-726, 984-1001, 1126-1138 [from_pattern]. *)
  Definition qaa_from_pattern (s p : X) (o : res_or_var T X) (g : option (res_or_var T X))
    : q_aa T :=
    match o with
    | Res o => QAA_Given o (qaag_from_pattern s p g)
    | Var o =>
        if xeqb o s then QAA_SameS (qaag_from_pattern s p g)
        else if xeqb o p then QAA_SameP (qaag_from_pattern s p g)
        else QAA_Any (qaaa_from_pattern s p o g)
    end.
  Definition qag_from_pattern (s : X) (o : res_or_var T X) (g : option (res_or_var T X))
    : q_ag T :=
    match o with
    | Res o => QAG_Given o (qagg_from_pattern s g)
    | Var o =>
        if xeqb o s then QAG_SameS (qagg_from_pattern s g)
        else QAG_Any (qaga_from_pattern s o g)
    end.
  Definition qga_from_pattern (p : X) (o : res_or_var T X) (g : option (res_or_var T X))
    : q_ga T :=
    match o with
    | Res o => QGA_Given o (qgag_from_pattern p g)
    | Var o =>
        if xeqb p o then QGA_SameP (qgag_from_pattern p g)
        else QGA_Any (qgaa_from_pattern p o g)
    end.
  Definition qgg_from_pattern (o : res_or_var T X) (g : option (res_or_var T X)) : q_gg T :=
    match o with
    | Res o => QGG_Given o (qggg_from_pattern g)
    | Var o => QGG_Any (qgga_from_pattern o g)
    end.
  (** 383-401, 851-864 [from_pattern]. *)
  Definition qas_from_pattern (s : X) (p o : res_or_var T X) (g : option (res_or_var T X))
    : q_as T :=
    match p with
    | Res p => QA_GivenP p (qag_from_pattern s o g)
    | Var p =>
        if xeqb p s then QA_SameS (qag_from_pattern s o g)
        else QA_AnyP (qaa_from_pattern s p o g)
    end.
  Definition qgs_from_pattern (p o : res_or_var T X) (g : option (res_or_var T X)) : q_gs T :=
    match p with
    | Res p => QG_GivenP p (qgg_from_pattern o g)
    | Var p => QG_AnyP (qga_from_pattern p o g)
    end.

  (** 53-64 [from_triple]. *)
  Definition cq_from_triple (t : triple T) : cqp T :=
    CQ_GivenS (t_s t) (QG_GivenP (t_p t) (QGG_Given (t_o t) QGGG_Any)).
  (** 66-77 [from_quad]. *)
  Definition cq_from_quad (q : quad T) : cqp T :=
    CQ_GivenS (q_s q) (QG_GivenP (q_p q) (QGG_Given (q_o q) (QGGG_Given (q_g q)))).
  (** 79-86 [from_option_triple]. *)
  Definition cq_from_option_triple (t : triple (option T)) : cqp T :=
    match t_s t with
    | Some s => CQ_GivenS s (qgs_from_option (t_p t) (t_o t) None)
    | None => CQ_AnyS (qas_from_option (t_p t) (t_o t) None)
    end.
  (** 88-95 [from_option_quad]. *)
  Definition cq_from_option_quad (q : quad (option T)) : cqp T :=
    match q_s q with
    | Some s => CQ_GivenS s (qgs_from_option (q_p q) (q_o q) (q_g q))
    | None => CQ_AnyS (qas_from_option (q_p q) (q_o q) (q_g q))
    end.
  (** 97-106 [from_triple_pattern]. *)
  Definition cq_from_triple_pattern (t : triple_pattern T X) : cqp T :=
    match t_s t with
    | Res s => CQ_GivenS s (qgs_from_pattern (t_p t) (t_o t) None)
    | Var s => CQ_AnyS (qas_from_pattern s (t_p t) (t_o t) None)
    end.
  (** 108-118 [from_pattern]. *)
  Definition cq_from_pattern (q : quad_pattern T X) : cqp T :=
    match q_s q with
    | Res s => CQ_GivenS s (qgs_from_pattern (q_p q) (q_o q) (q_g q))
    | Var s => CQ_AnyS (qas_from_pattern s (q_p q) (q_o q) (q_g q))
    end.

  (** 120-132 [subject], [into_subject]. *)
  Definition cq_subject (c : cqp T) : pat_s T :=
    match c with CQ_AnyS _ => PS_Any | CQ_GivenS s _ => PS_Given s end.
  (** 403-417, 866-878, 134-146 [predicate], [into_predicate]. *)
  Definition qas_predicate (c : q_as T) : pat_p T :=
    match c with QA_AnyP _ => PP_Any | QA_SameS _ => PP_SameS | QA_GivenP p _ => PP_Given p end.
  Definition qgs_predicate (c : q_gs T) : pat_p T :=
    match c with QG_AnyP _ => PP_Any | QG_GivenP p _ => PP_Given p end.
  Definition cq_predicate (c : cqp T) : pat_p T :=
    match c with CQ_AnyS c => qas_predicate c | CQ_GivenS _ c => qgs_predicate c end.
  (** 567-583, 728-742, 1003-1017, 1140-1152 [object], [into_object]. *)
  Definition qaa_object (c : q_aa T) : pat_o T :=
    match c with
    | QAA_Any _ => PO_Any | QAA_SameS _ => PO_SameS | QAA_SameP _ => PO_SameP
    | QAA_Given o _ => PO_Given o
    end.
  Definition qag_object (c : q_ag T) : pat_o T :=
    match c with QAG_Any _ => PO_Any | QAG_SameS _ => PO_SameS | QAG_Given o _ => PO_Given o end.
  Definition qga_object (c : q_ga T) : pat_o T :=
    match c with QGA_Any _ => PO_Any | QGA_SameP _ => PO_SameP | QGA_Given o _ => PO_Given o end.
  Definition qgg_object (c : q_gg T) : pat_o T :=
    match c with QGG_Any _ => PO_Any | QGG_Given o _ => PO_Given o end.
  (** 419-433, 880-892, 148-160 [object], [into_object]. *)
  Definition qas_object (c : q_as T) : pat_o T :=
    match c with QA_AnyP c => qaa_object c | QA_SameS c => qag_object c | QA_GivenP _ c => qag_object c end.
  Definition qgs_object (c : q_gs T) : pat_o T :=
    match c with QG_AnyP c => qga_object c | QG_GivenP _ c => qgg_object c end.
  Definition cq_object (c : cqp T) : pat_o T :=
    match c with CQ_AnyS c => qas_object c | CQ_GivenS _ c => qgs_object c end.
  (** 585-601, 744-758, 1019-1033, 1154-1166 [graph], [into_graph]. *)
  Definition qaa_graph (c : q_aa T) : pat_g T :=
    match c with
    | QAA_Any g => qaaa_graph g | QAA_SameS g => qaag_graph g | QAA_SameP g => qaag_graph g
    | QAA_Given _ g => qaag_graph g
    end.
  Definition qag_graph (c : q_ag T) : pat_g T :=
    match c with
    | QAG_Any g => qaga_graph g | QAG_SameS g => qagg_graph g | QAG_Given _ g => qagg_graph g
    end.
  Definition qga_graph (c : q_ga T) : pat_g T :=
    match c with
    | QGA_Any g => qgaa_graph g | QGA_SameP g => qgag_graph g | QGA_Given _ g => qgag_graph g
    end.
  Definition qgg_graph (c : q_gg T) : pat_g T :=
    match c with QGG_Any g => qgga_graph g | QGG_Given _ g => qggg_graph g end.
  (** 435-449, 894-906, 162-174 [graph], [into_graph]. *)
  Definition qas_graph (c : q_as T) : pat_g T :=
    match c with QA_AnyP c => qaa_graph c | QA_SameS c => qag_graph c | QA_GivenP _ c => qag_graph c end.
  Definition qgs_graph (c : q_gs T) : pat_g T :=
    match c with QG_AnyP c => qga_graph c | QG_GivenP _ c => qgg_graph c end.
  Definition cq_graph (c : cqp T) : pat_g T :=
    match c with CQ_AnyS c => qas_graph c | CQ_GivenS _ c => qgs_graph c end.

  (** 684-691, 828-834, 1103-1109, 1223-1228 [into_parts]. *)
  Definition qaa_into_parts (c : q_aa T) : pat_o T * pat_g T :=
    match c with
    | QAA_Any g => (PO_Any, qaaa_graph g)
    | QAA_SameS g => (PO_SameS, qaag_graph g)
    | QAA_SameP g => (PO_SameP, qaag_graph g)
    | QAA_Given o g => (PO_Given o, qaag_graph g)
    end.
  Definition qag_into_parts (c : q_ag T) : pat_o T * pat_g T :=
    match c with
    | QAG_Any g => (PO_Any, qaga_graph g)
    | QAG_SameS g => (PO_SameS, qagg_graph g)
    | QAG_Given o g => (PO_Given o, qagg_graph g)
    end.
  Definition qga_into_parts (c : q_ga T) : pat_o T * pat_g T :=
    match c with
    | QGA_Any g => (PO_Any, qgaa_graph g)
    | QGA_SameP g => (PO_SameP, qgag_graph g)
    | QGA_Given o g => (PO_Given o, qgag_graph g)
    end.
  Definition qgg_into_parts (c : q_gg T) : pat_o T * pat_g T :=
    match c with
    | QGG_Any g => (PO_Any, qgga_graph g)
    | QGG_Given o g => (PO_Given o, qggg_graph g)
    end.
  (** 511-526, 955-966, 176-194 [into_parts]. *)
  Definition qas_into_parts (c : q_as T) : pat_p T * pat_o T * pat_g T :=
    match c with
    | QA_AnyP og => let (o, g) := qaa_into_parts og in (PP_Any, o, g)
    | QA_SameS og => let (o, g) := qag_into_parts og in (PP_SameS, o, g)
    | QA_GivenP p og => let (o, g) := qag_into_parts og in (PP_Given p, o, g)
    end.
  Definition qgs_into_parts (c : q_gs T) : pat_p T * pat_o T * pat_g T :=
    match c with
    | QG_AnyP og => let (o, g) := qga_into_parts og in (PP_Any, o, g)
    | QG_GivenP p og => let (o, g) := qgg_into_parts og in (PP_Given p, o, g)
    end.
  Definition cq_into_parts (c : cqp T) : pat_s T * pat_p T * pat_o T * pat_g T :=
    match c with
    | CQ_AnyS pog => let '(p, o, g) := qas_into_parts pog in (PS_Any, p, o, g)
    | CQ_GivenS s pog => let '(p, o, g) := qgs_into_parts pog in (PS_Given s, p, o, g)
    end.

  (** 658-682, 806-826, 1081-1101, 1205-1221 [into_triple]. *)
  Definition qaa_into_triple (c : q_aa T) : t_aa T * pat_g T :=
    match c with
    | QAA_Any t => (TAA_Any, qaaa_graph t)
    | QAA_SameS t => (TAA_SameS, qaag_graph t)
    | QAA_SameP t => (TAA_SameP, qaag_graph t)
    | QAA_Given o t => (TAA_Given o, qaag_graph t)
    end.
  Definition qag_into_triple (c : q_ag T) : t_ag T * pat_g T :=
    match c with
    | QAG_Any t => (TAG_Any, qaga_graph t)
    | QAG_SameS t => (TAG_SameS, qagg_graph t)
    | QAG_Given o t => (TAG_Given o, qagg_graph t)
    end.
  Definition qga_into_triple (c : q_ga T) : t_ga T * pat_g T :=
    match c with
    | QGA_Any t => (TGA_Any, qgaa_graph t)
    | QGA_SameP t => (TGA_SameP, qgag_graph t)
    | QGA_Given o t => (TGA_Given o, qgag_graph t)
    end.
  Definition qgg_into_triple (c : q_gg T) : t_gg T * pat_g T :=
    match c with
    | QGG_Any t => (TGG_Any, qgga_graph t)
    | QGG_Given o t => (TGG_Given o, qggg_graph t)
    end.
  (** 494-509, 942-953, 196-207 [into_triple]. *)
  Definition qas_into_triple (c : q_as T) : t_as T * pat_g T :=
    match c with
    | QA_AnyP t => let (u, g) := qaa_into_triple t in (TA_AnyP u, g)
    | QA_SameS t => let (u, g) := qag_into_triple t in (TA_SameS u, g)
    | QA_GivenP p t => let (u, g) := qag_into_triple t in (TA_GivenP p u, g)
    end.
  Definition qgs_into_triple (c : q_gs T) : t_gs T * pat_g T :=
    match c with
    | QG_AnyP t => let (u, g) := qga_into_triple t in (TG_AnyP u, g)
    | QG_GivenP p t => let (u, g) := qgg_into_triple t in (TG_GivenP p u, g)
    end.
  Definition cq_into_triple (c : cqp T) : ctp T * pat_g T :=
    match c with
    | CQ_AnyS t => let (u, g) := qas_into_triple t in (CT_AnyS u, g)
    | CQ_GivenS s t => let (u, g) := qgs_into_triple t in (CT_GivenS s u, g)
    end.

  (** triple/canonical.rs 660-676, 729-742, 902-915, 966-976 [with_any_graph]. *)
  Definition taa_with_any_graph (c : t_aa T) : q_aa T :=
    match c with
    | TAA_Any => QAA_Any QAAA_Any
    | TAA_SameS => QAA_SameS QAAG_Any
    | TAA_SameP => QAA_SameP QAAG_Any
    | TAA_Given o => QAA_Given o QAAG_Any
    end.
  Definition tag_with_any_graph (c : t_ag T) : q_ag T :=
    match c with
    | TAG_Any => QAG_Any QAGA_Any
    | TAG_SameS => QAG_SameS QAGG_Any
    | TAG_Given o => QAG_Given o QAGG_Any
    end.
  Definition tga_with_any_graph (c : t_ga T) : q_ga T :=
    match c with
    | TGA_Any => QGA_Any QGAA_Any
    | TGA_SameP => QGA_SameP QGAG_Any
    | TGA_Given o => QGA_Given o QGAG_Any
    end.
  Definition tgg_with_any_graph (c : t_gg T) : q_gg T :=
    match c with
    | TGG_Any => QGG_Any QGGA_Any
    | TGG_Given o => QGG_Given o QGGG_Any
    end.
  (** triple/canonical.rs 516-526, 790-799, 62-67 [with_any_graph]. *)
  Definition tas_with_any_graph (c : t_as T) : q_as T :=
    match c with
    | TA_AnyP o => QA_AnyP (taa_with_any_graph o)
    | TA_SameS o => QA_SameS (tag_with_any_graph o)
    | TA_GivenP p o => QA_GivenP p (tag_with_any_graph o)
    end.
  Definition tgs_with_any_graph (c : t_gs T) : q_gs T :=
    match c with
    | TG_AnyP o => QG_AnyP (tga_with_any_graph o)
    | TG_GivenP p o => QG_GivenP p (tgg_with_any_graph o)
    end.
  Definition ct_with_any_graph (c : ctp T) : cqp T :=
    match c with
    | CT_AnyS po => CQ_AnyS (tas_with_any_graph po)
    | CT_GivenS s po => CQ_GivenS s (tgs_with_any_graph po)
    end.

End Pattern.

Section Map.
  Context {T U V : Type}.

  (** 1305-1313 [map], 1315-1353 [map2] of [AnySubjectAnyPredicateAnyObject]. *)
  Definition qaaa_map (f : T -> U) (c : q_aaa T) : q_aaa U :=
    match c with
    | QAAA_Any => QAAA_Any
    | QAAA_SameS => QAAA_SameS
    | QAAA_SameP => QAAA_SameP
    | QAAA_SameO => QAAA_SameO
    | QAAA_Given g => QAAA_Given (option_map f g)
    end.
  Definition qaaa_map2 (f : T -> U * V) (c : q_aaa T) : q_aaa U * q_aaa V :=
    match c with
    | QAAA_Any => (QAAA_Any, QAAA_Any)
    | QAAA_SameS => (QAAA_SameS, QAAA_SameS)
    | QAAA_SameP => (QAAA_SameP, QAAA_SameP)
    | QAAA_SameO => (QAAA_SameO, QAAA_SameO)
    | QAAA_Given g =>
        let (u, v) := match g with
                      | Some g => let (u, v) := f g in (Some u, Some v)
                      | None => (None, None)
                      end in
        (QAAA_Given u, QAAA_Given v)
    end.
  (** 1415-1422 [map], 1424-1458 [map2] of [GivenSubjectAnyPredicateAnyObject]. *)
  Definition qgaa_map (f : T -> U) (c : q_gaa T) : q_gaa U :=
    match c with
    | QGAA_Any => QGAA_Any
    | QGAA_SameP => QGAA_SameP
    | QGAA_SameO => QGAA_SameO
    | QGAA_Given g => QGAA_Given (option_map f g)
    end.
  Definition qgaa_map2 (f : T -> U * V) (c : q_gaa T) : q_gaa U * q_gaa V :=
    match c with
    | QGAA_Any => (QGAA_Any, QGAA_Any)
    | QGAA_SameP => (QGAA_SameP, QGAA_SameP)
    | QGAA_SameO => (QGAA_SameO, QGAA_SameO)
    | QGAA_Given g =>
        let (u, v) := match g with
                      | Some g => let (u, v) := f g in (Some u, Some v)
                      | None => (None, None)
                      end in
        (QGAA_Given u, QGAA_Given v)
    end.
  (** 1520-1527 [map], 1529-1563 [map2] of [AnySubjectGivenPredicateAnyObject]. *)
  Definition qaga_map (f : T -> U) (c : q_aga T) : q_aga U :=
    match c with
    | QAGA_Any => QAGA_Any
    | QAGA_SameS => QAGA_SameS
    | QAGA_SameO => QAGA_SameO
    | QAGA_Given g => QAGA_Given (option_map f g)
    end.
  Definition qaga_map2 (f : T -> U * V) (c : q_aga T) : q_aga U * q_aga V :=
    match c with
    | QAGA_Any => (QAGA_Any, QAGA_Any)
    | QAGA_SameS => (QAGA_SameS, QAGA_SameS)
    | QAGA_SameO => (QAGA_SameO, QAGA_SameO)
    | QAGA_Given g =>
        let (u, v) := match g with
                      | Some g => let (u, v) := f g in (Some u, Some v)
                      | None => (None, None)
                      end in
        (QAGA_Given u, QAGA_Given v)
    end.
  (** 1625-1632 [map], 1634-1668 [map2] of [AnySubjectAnyPredicateGivenObject]. *)
  Definition qaag_map (f : T -> U) (c : q_aag T) : q_aag U :=
    match c with
    | QAAG_Any => QAAG_Any
    | QAAG_SameS => QAAG_SameS
    | QAAG_SameP => QAAG_SameP
    | QAAG_Given g => QAAG_Given (option_map f g)
    end.
  Definition qaag_map2 (f : T -> U * V) (c : q_aag T) : q_aag U * q_aag V :=
    match c with
    | QAAG_Any => (QAAG_Any, QAAG_Any)
    | QAAG_SameS => (QAAG_SameS, QAAG_SameS)
    | QAAG_SameP => (QAAG_SameP, QAAG_SameP)
    | QAAG_Given g =>
        let (u, v) := match g with
                      | Some g => let (u, v) := f g in (Some u, Some v)
                      | None => (None, None)
                      end in
        (QAAG_Given u, QAAG_Given v)
    end.
  (** 1724-1730 [map], 1732-1762 [map2] of [AnySubjectGivenPredicateGivenObject]. *)
  Definition qagg_map (f : T -> U) (c : q_agg T) : q_agg U :=
    match c with
    | QAGG_Any => QAGG_Any
    | QAGG_SameS => QAGG_SameS
    | QAGG_Given g => QAGG_Given (option_map f g)
    end.
  Definition qagg_map2 (f : T -> U * V) (c : q_agg T) : q_agg U * q_agg V :=
    match c with
    | QAGG_Any => (QAGG_Any, QAGG_Any)
    | QAGG_SameS => (QAGG_SameS, QAGG_SameS)
    | QAGG_Given g =>
        let (u, v) := match g with
                      | Some g => let (u, v) := f g in (Some u, Some v)
                      | None => (None, None)
                      end in
        (QAGG_Given u, QAGG_Given v)
    end.
  (** 1818-1824 [map], 1826-1856 [map2] of [GivenSubjectAnyPredicateGivenObject]. *)
  Definition qgag_map (f : T -> U) (c : q_gag T) : q_gag U :=
    match c with
    | QGAG_Any => QGAG_Any
    | QGAG_SameP => QGAG_SameP
    | QGAG_Given g => QGAG_Given (option_map f g)
    end.
  Definition qgag_map2 (f : T -> U * V) (c : q_gag T) : q_gag U * q_gag V :=
    match c with
    | QGAG_Any => (QGAG_Any, QGAG_Any)
    | QGAG_SameP => (QGAG_SameP, QGAG_SameP)
    | QGAG_Given g =>
        let (u, v) := match g with
                      | Some g => let (u, v) := f g in (Some u, Some v)
                      | None => (None, None)
                      end in
        (QGAG_Given u, QGAG_Given v)
    end.
  (** 1912-1918 [map], 1920-1950 [map2] of [GivenSubjectGivenPredicateAnyObject]. *)
  Definition qgga_map (f : T -> U) (c : q_gga T) : q_gga U :=
    match c with
    | QGGA_Any => QGGA_Any
    | QGGA_SameO => QGGA_SameO
    | QGGA_Given g => QGGA_Given (option_map f g)
    end.
  Definition qgga_map2 (f : T -> U * V) (c : q_gga T) : q_gga U * q_gga V :=
    match c with
    | QGGA_Any => (QGGA_Any, QGGA_Any)
    | QGGA_SameO => (QGGA_SameO, QGGA_SameO)
    | QGGA_Given g =>
        let (u, v) := match g with
                      | Some g => let (u, v) := f g in (Some u, Some v)
                      | None => (None, None)
                      end in
        (QGGA_Given u, QGGA_Given v)
    end.
  (** 1996-2001 [map], 2003-2029 [map2] of [GivenSubjectGivenPredicateGivenObject]. *)
  Definition qggg_map (f : T -> U) (c : q_ggg T) : q_ggg U :=
    match c with
    | QGGG_Any => QGGG_Any
    | QGGG_Given g => QGGG_Given (option_map f g)
    end.
  Definition qggg_map2 (f : T -> U * V) (c : q_ggg T) : q_ggg U * q_ggg V :=
    match c with
    | QGGG_Any => (QGGG_Any, QGGG_Any)
    | QGGG_Given g =>
        let (u, v) := match g with
                      | Some g => let (u, v) := f g in (Some u, Some v)
                      | None => (None, None)
                      end in
        (QGGG_Given u, QGGG_Given v)
    end.
  (** 612-619 [map], 621-656 [map2] of [AnySubjectAnyPredicate]. *)
  Definition qaa_map (f : T -> U) (c : q_aa T) : q_aa U :=
    match c with
    | QAA_Any g => QAA_Any (qaaa_map f g)
    | QAA_SameS g => QAA_SameS (qaag_map f g)
    | QAA_SameP g => QAA_SameP (qaag_map f g)
    | QAA_Given x g => QAA_Given (f x) (qaag_map f g)
    end.
  Definition qaa_map2 (f : T -> U * V) (c : q_aa T) : q_aa U * q_aa V :=
    match c with
    | QAA_Any g => let (gu, gv) := qaaa_map2 f g in (QAA_Any gu, QAA_Any gv)
    | QAA_SameS g => let (gu, gv) := qaag_map2 f g in (QAA_SameS gu, QAA_SameS gv)
    | QAA_SameP g => let (gu, gv) := qaag_map2 f g in (QAA_SameP gu, QAA_SameP gv)
    | QAA_Given x g =>
        let (u, v) := f x in let (gu, gv) := qaag_map2 f g in (QAA_Given u gu, QAA_Given v gv)
    end.
  (** 768-774 [map], 776-804 [map2] of [AnySubjectGivenPredicate]. *)
  Definition qag_map (f : T -> U) (c : q_ag T) : q_ag U :=
    match c with
    | QAG_Any g => QAG_Any (qaga_map f g)
    | QAG_SameS g => QAG_SameS (qagg_map f g)
    | QAG_Given x g => QAG_Given (f x) (qagg_map f g)
    end.
  Definition qag_map2 (f : T -> U * V) (c : q_ag T) : q_ag U * q_ag V :=
    match c with
    | QAG_Any g => let (gu, gv) := qaga_map2 f g in (QAG_Any gu, QAG_Any gv)
    | QAG_SameS g => let (gu, gv) := qagg_map2 f g in (QAG_SameS gu, QAG_SameS gv)
    | QAG_Given x g =>
        let (u, v) := f x in let (gu, gv) := qagg_map2 f g in (QAG_Given u gu, QAG_Given v gv)
    end.
  (** 1043-1049 [map], 1051-1079 [map2] of [GivenSubjectAnyPredicate]. *)
  Definition qga_map (f : T -> U) (c : q_ga T) : q_ga U :=
    match c with
    | QGA_Any g => QGA_Any (qgaa_map f g)
    | QGA_SameP g => QGA_SameP (qgag_map f g)
    | QGA_Given x g => QGA_Given (f x) (qgag_map f g)
    end.
  Definition qga_map2 (f : T -> U * V) (c : q_ga T) : q_ga U * q_ga V :=
    match c with
    | QGA_Any g => let (gu, gv) := qgaa_map2 f g in (QGA_Any gu, QGA_Any gv)
    | QGA_SameP g => let (gu, gv) := qgag_map2 f g in (QGA_SameP gu, QGA_SameP gv)
    | QGA_Given x g =>
        let (u, v) := f x in let (gu, gv) := qgag_map2 f g in (QGA_Given u gu, QGA_Given v gv)
    end.
  (** 1175-1180 [map], 1182-1203 [map2] of [GivenSubjectGivenPredicate]. *)
  Definition qgg_map (f : T -> U) (c : q_gg T) : q_gg U :=
    match c with
    | QGG_Any g => QGG_Any (qgga_map f g)
    | QGG_Given x g => QGG_Given (f x) (qggg_map f g)
    end.
  Definition qgg_map2 (f : T -> U * V) (c : q_gg T) : q_gg U * q_gg V :=
    match c with
    | QGG_Any g => let (gu, gv) := qgga_map2 f g in (QGG_Any gu, QGG_Any gv)
    | QGG_Given x g =>
        let (u, v) := f x in let (gu, gv) := qggg_map2 f g in (QGG_Given u gu, QGG_Given v gv)
    end.
  (** 459-465 [map], 467-492 [map2] of [AnySubject]. *)
  Definition qas_map (f : T -> U) (c : q_as T) : q_as U :=
    match c with
    | QA_AnyP g => QA_AnyP (qaa_map f g)
    | QA_SameS g => QA_SameS (qag_map f g)
    | QA_GivenP x g => QA_GivenP (f x) (qag_map f g)
    end.
  Definition qas_map2 (f : T -> U * V) (c : q_as T) : q_as U * q_as V :=
    match c with
    | QA_AnyP g => let (gu, gv) := qaa_map2 f g in (QA_AnyP gu, QA_AnyP gv)
    | QA_SameS g => let (gu, gv) := qag_map2 f g in (QA_SameS gu, QA_SameS gv)
    | QA_GivenP x g =>
        let (u, v) := f x in let (gu, gv) := qag_map2 f g in (QA_GivenP u gu, QA_GivenP v gv)
    end.
  (** 915-920 [map], 922-940 [map2] of [GivenSubject]. *)
  Definition qgs_map (f : T -> U) (c : q_gs T) : q_gs U :=
    match c with
    | QG_AnyP g => QG_AnyP (qga_map f g)
    | QG_GivenP x g => QG_GivenP (f x) (qgg_map f g)
    end.
  Definition qgs_map2 (f : T -> U * V) (c : q_gs T) : q_gs U * q_gs V :=
    match c with
    | QG_AnyP g => let (gu, gv) := qga_map2 f g in (QG_AnyP gu, QG_AnyP gv)
    | QG_GivenP x g =>
        let (u, v) := f x in let (gu, gv) := qgg_map2 f g in (QG_GivenP u gu, QG_GivenP v gv)
    end.
  (** 216-221 [map], 223-244 [map2] of [CanonicalQuadPattern]. *)
  Definition cq_map (f : T -> U) (c : cqp T) : cqp U :=
    match c with
    | CQ_AnyS g => CQ_AnyS (qas_map f g)
    | CQ_GivenS x g => CQ_GivenS (f x) (qgs_map f g)
    end.
  Definition cq_map2 (f : T -> U * V) (c : cqp T) : cqp U * cqp V :=
    match c with
    | CQ_AnyS g => let (gu, gv) := qas_map2 f g in (CQ_AnyS gu, CQ_AnyS gv)
    | CQ_GivenS x g =>
        let (u, v) := f x in let (gu, gv) := qgs_map2 f g in (CQ_GivenS u gu, CQ_GivenS v gv)
    end.

End Map.
