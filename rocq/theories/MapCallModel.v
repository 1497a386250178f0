(** The mapping functions of triples, quads and patterns with a function that
    has a state ([FnMut]): /repo/src/triple.rs, /repo/src/quad.rs,
    /repo/src/pattern/quad/canonical.rs.

    Simplification: a function [impl FnMut(T) -> U] is a function of its state
    and its argument, returning its result and its next state.  Passing it on
    by value ([pog.map(f)]) passes its current state. *)
From Coq Require Import List.
Import ListNotations.
From Verif Require Import Base TripleModel TriplePatternModel QuadPatternModel.

Section MapCalls.
  Context {T U V St : Type}.

  (** std [Option::map] (canonical.rs 1311, 1420, 1525, 1630, 1728, 1822, 1916,
      1999; quad.rs 233). *)
  Definition option_mapm (f : T -> St -> U * St) (o : option T) (st : St) : option U * St :=
    match o with
    | Some x => let (u, st) := f x st in (Some u, st)
    | None => (None, st)
    end.

  (** triple.rs 171-173 [Triple::map]. *)
  Definition triple_mapm (f : T -> St -> U * St) (t : triple T) (st : St) : triple U * St :=
    let (s, st) := f (t_s t) st in
    let (p, st) := f (t_p t) st in
    let (o, st) := f (t_o t) st in
    (Triple s p o, st).
  (** quad.rs 232-234 [Quad::map]. *)
  Definition quad_mapm (f : T -> St -> U * St) (q : quad T) (st : St) : quad U * St :=
    let (s, st) := f (q_s q) st in
    let (p, st) := f (q_p q) st in
    let (o, st) := f (q_o q) st in
    let (g, st) := option_mapm f (q_g q) st in
    (Quad s p o g, st).
  (** canonical.rs 1305-1313 [map], 1315-1353 [map2] of [AnySubjectAnyPredicateAnyObject]. *)
  Definition qaaa_mapm (f : T -> St -> U * St) (c : q_aaa T) (st : St) : q_aaa U * St :=
    match c with
    | QAAA_Any => (QAAA_Any, st)
    | QAAA_SameS => (QAAA_SameS, st)
    | QAAA_SameP => (QAAA_SameP, st)
    | QAAA_SameO => (QAAA_SameO, st)
    | QAAA_Given g => let (g, st) := option_mapm f g st in (QAAA_Given g, st)
    end.
  Definition qaaa_map2m (f : T -> St -> U * V * St) (c : q_aaa T) (st : St)
    : q_aaa U * q_aaa V * St :=
    match c with
    | QAAA_Any => (QAAA_Any, QAAA_Any, st)
    | QAAA_SameS => (QAAA_SameS, QAAA_SameS, st)
    | QAAA_SameP => (QAAA_SameP, QAAA_SameP, st)
    | QAAA_SameO => (QAAA_SameO, QAAA_SameO, st)
    | QAAA_Given g =>
        let '(u, v, st) := match g with
                           | Some g => let '(u, v, st) := f g st in (Some u, Some v, st)
                           | None => (None, None, st)
                           end in
        (QAAA_Given u, QAAA_Given v, st)
    end.
  (** canonical.rs 1415-1422 [map], 1424-1458 [map2] of [GivenSubjectAnyPredicateAnyObject]. *)
  Definition qgaa_mapm (f : T -> St -> U * St) (c : q_gaa T) (st : St) : q_gaa U * St :=
    match c with
    | QGAA_Any => (QGAA_Any, st)
    | QGAA_SameP => (QGAA_SameP, st)
    | QGAA_SameO => (QGAA_SameO, st)
    | QGAA_Given g => let (g, st) := option_mapm f g st in (QGAA_Given g, st)
    end.
  Definition qgaa_map2m (f : T -> St -> U * V * St) (c : q_gaa T) (st : St)
    : q_gaa U * q_gaa V * St :=
    match c with
    | QGAA_Any => (QGAA_Any, QGAA_Any, st)
    | QGAA_SameP => (QGAA_SameP, QGAA_SameP, st)
    | QGAA_SameO => (QGAA_SameO, QGAA_SameO, st)
    | QGAA_Given g =>
        let '(u, v, st) := match g with
                           | Some g => let '(u, v, st) := f g st in (Some u, Some v, st)
                           | None => (None, None, st)
                           end in
        (QGAA_Given u, QGAA_Given v, st)
    end.
  (** canonical.rs 1520-1527 [map], 1529-1563 [map2] of [AnySubjectGivenPredicateAnyObject]. *)
  Definition qaga_mapm (f : T -> St -> U * St) (c : q_aga T) (st : St) : q_aga U * St :=
    match c with
    | QAGA_Any => (QAGA_Any, st)
    | QAGA_SameS => (QAGA_SameS, st)
    | QAGA_SameO => (QAGA_SameO, st)
    | QAGA_Given g => let (g, st) := option_mapm f g st in (QAGA_Given g, st)
    end.
  Definition qaga_map2m (f : T -> St -> U * V * St) (c : q_aga T) (st : St)
    : q_aga U * q_aga V * St :=
    match c with
    | QAGA_Any => (QAGA_Any, QAGA_Any, st)
    | QAGA_SameS => (QAGA_SameS, QAGA_SameS, st)
    | QAGA_SameO => (QAGA_SameO, QAGA_SameO, st)
    | QAGA_Given g =>
        let '(u, v, st) := match g with
                           | Some g => let '(u, v, st) := f g st in (Some u, Some v, st)
                           | None => (None, None, st)
                           end in
        (QAGA_Given u, QAGA_Given v, st)
    end.
  (** canonical.rs 1625-1632 [map], 1634-1668 [map2] of [AnySubjectAnyPredicateGivenObject]. *)
  Definition qaag_mapm (f : T -> St -> U * St) (c : q_aag T) (st : St) : q_aag U * St :=
    match c with
    | QAAG_Any => (QAAG_Any, st)
    | QAAG_SameS => (QAAG_SameS, st)
    | QAAG_SameP => (QAAG_SameP, st)
    | QAAG_Given g => let (g, st) := option_mapm f g st in (QAAG_Given g, st)
    end.
  Definition qaag_map2m (f : T -> St -> U * V * St) (c : q_aag T) (st : St)
    : q_aag U * q_aag V * St :=
    match c with
    | QAAG_Any => (QAAG_Any, QAAG_Any, st)
    | QAAG_SameS => (QAAG_SameS, QAAG_SameS, st)
    | QAAG_SameP => (QAAG_SameP, QAAG_SameP, st)
    | QAAG_Given g =>
        let '(u, v, st) := match g with
                           | Some g => let '(u, v, st) := f g st in (Some u, Some v, st)
                           | None => (None, None, st)
                           end in
        (QAAG_Given u, QAAG_Given v, st)
    end.
  (** canonical.rs 1724-1730 [map], 1732-1762 [map2] of [AnySubjectGivenPredicateGivenObject]. *)
  Definition qagg_mapm (f : T -> St -> U * St) (c : q_agg T) (st : St) : q_agg U * St :=
    match c with
    | QAGG_Any => (QAGG_Any, st)
    | QAGG_SameS => (QAGG_SameS, st)
    | QAGG_Given g => let (g, st) := option_mapm f g st in (QAGG_Given g, st)
    end.
  Definition qagg_map2m (f : T -> St -> U * V * St) (c : q_agg T) (st : St)
    : q_agg U * q_agg V * St :=
    match c with
    | QAGG_Any => (QAGG_Any, QAGG_Any, st)
    | QAGG_SameS => (QAGG_SameS, QAGG_SameS, st)
    | QAGG_Given g =>
        let '(u, v, st) := match g with
                           | Some g => let '(u, v, st) := f g st in (Some u, Some v, st)
                           | None => (None, None, st)
                           end in
        (QAGG_Given u, QAGG_Given v, st)
    end.
  (** canonical.rs 1818-1824 [map], 1826-1856 [map2] of [GivenSubjectAnyPredicateGivenObject]. *)
  Definition qgag_mapm (f : T -> St -> U * St) (c : q_gag T) (st : St) : q_gag U * St :=
    match c with
    | QGAG_Any => (QGAG_Any, st)
    | QGAG_SameP => (QGAG_SameP, st)
    | QGAG_Given g => let (g, st) := option_mapm f g st in (QGAG_Given g, st)
    end.
  Definition qgag_map2m (f : T -> St -> U * V * St) (c : q_gag T) (st : St)
    : q_gag U * q_gag V * St :=
    match c with
    | QGAG_Any => (QGAG_Any, QGAG_Any, st)
    | QGAG_SameP => (QGAG_SameP, QGAG_SameP, st)
    | QGAG_Given g =>
        let '(u, v, st) := match g with
                           | Some g => let '(u, v, st) := f g st in (Some u, Some v, st)
                           | None => (None, None, st)
                           end in
        (QGAG_Given u, QGAG_Given v, st)
    end.
  (** canonical.rs 1912-1918 [map], 1920-1950 [map2] of [GivenSubjectGivenPredicateAnyObject]. *)
  Definition qgga_mapm (f : T -> St -> U * St) (c : q_gga T) (st : St) : q_gga U * St :=
    match c with
    | QGGA_Any => (QGGA_Any, st)
    | QGGA_SameO => (QGGA_SameO, st)
    | QGGA_Given g => let (g, st) := option_mapm f g st in (QGGA_Given g, st)
    end.
  Definition qgga_map2m (f : T -> St -> U * V * St) (c : q_gga T) (st : St)
    : q_gga U * q_gga V * St :=
    match c with
    | QGGA_Any => (QGGA_Any, QGGA_Any, st)
    | QGGA_SameO => (QGGA_SameO, QGGA_SameO, st)
    | QGGA_Given g =>
        let '(u, v, st) := match g with
                           | Some g => let '(u, v, st) := f g st in (Some u, Some v, st)
                           | None => (None, None, st)
                           end in
        (QGGA_Given u, QGGA_Given v, st)
    end.
  (** canonical.rs 1996-2001 [map], 2003-2029 [map2] of [GivenSubjectGivenPredicateGivenObject]. *)
  Definition qggg_mapm (f : T -> St -> U * St) (c : q_ggg T) (st : St) : q_ggg U * St :=
    match c with
    | QGGG_Any => (QGGG_Any, st)
    | QGGG_Given g => let (g, st) := option_mapm f g st in (QGGG_Given g, st)
    end.
  Definition qggg_map2m (f : T -> St -> U * V * St) (c : q_ggg T) (st : St)
    : q_ggg U * q_ggg V * St :=
    match c with
    | QGGG_Any => (QGGG_Any, QGGG_Any, st)
    | QGGG_Given g =>
        let '(u, v, st) := match g with
                           | Some g => let '(u, v, st) := f g st in (Some u, Some v, st)
                           | None => (None, None, st)
                           end in
        (QGGG_Given u, QGGG_Given v, st)
    end.
  (** canonical.rs 612-619 [map], 621-656 [map2] of [AnySubjectAnyPredicate]. *)
  Definition qaa_mapm (f : T -> St -> U * St) (c : q_aa T) (st : St) : q_aa U * St :=
    match c with
    | QAA_Any g => let (g, st) := qaaa_mapm f g st in (QAA_Any g, st)
    | QAA_SameS g => let (g, st) := qaag_mapm f g st in (QAA_SameS g, st)
    | QAA_SameP g => let (g, st) := qaag_mapm f g st in (QAA_SameP g, st)
    | QAA_Given x g =>
        let (u, st) := f x st in let (g, st) := qaag_mapm f g st in (QAA_Given u g, st)
    end.
  Definition qaa_map2m (f : T -> St -> U * V * St) (c : q_aa T) (st : St)
    : q_aa U * q_aa V * St :=
    match c with
    | QAA_Any g => let '(gu, gv, st) := qaaa_map2m f g st in (QAA_Any gu, QAA_Any gv, st)
    | QAA_SameS g => let '(gu, gv, st) := qaag_map2m f g st in (QAA_SameS gu, QAA_SameS gv, st)
    | QAA_SameP g => let '(gu, gv, st) := qaag_map2m f g st in (QAA_SameP gu, QAA_SameP gv, st)
    | QAA_Given x g =>
        let '(u, v, st) := f x st in let '(gu, gv, st) := qaag_map2m f g st in
        (QAA_Given u gu, QAA_Given v gv, st)
    end.
  (** canonical.rs 768-774 [map], 776-804 [map2] of [AnySubjectGivenPredicate]. *)
  Definition qag_mapm (f : T -> St -> U * St) (c : q_ag T) (st : St) : q_ag U * St :=
    match c with
    | QAG_Any g => let (g, st) := qaga_mapm f g st in (QAG_Any g, st)
    | QAG_SameS g => let (g, st) := qagg_mapm f g st in (QAG_SameS g, st)
    | QAG_Given x g =>
        let (u, st) := f x st in let (g, st) := qagg_mapm f g st in (QAG_Given u g, st)
    end.
  Definition qag_map2m (f : T -> St -> U * V * St) (c : q_ag T) (st : St)
    : q_ag U * q_ag V * St :=
    match c with
    | QAG_Any g => let '(gu, gv, st) := qaga_map2m f g st in (QAG_Any gu, QAG_Any gv, st)
    | QAG_SameS g => let '(gu, gv, st) := qagg_map2m f g st in (QAG_SameS gu, QAG_SameS gv, st)
    | QAG_Given x g =>
        let '(u, v, st) := f x st in let '(gu, gv, st) := qagg_map2m f g st in
        (QAG_Given u gu, QAG_Given v gv, st)
    end.
  (** canonical.rs 1043-1049 [map], 1051-1079 [map2] of [GivenSubjectAnyPredicate]. *)
  Definition qga_mapm (f : T -> St -> U * St) (c : q_ga T) (st : St) : q_ga U * St :=
    match c with
    | QGA_Any g => let (g, st) := qgaa_mapm f g st in (QGA_Any g, st)
    | QGA_SameP g => let (g, st) := qgag_mapm f g st in (QGA_SameP g, st)
    | QGA_Given x g =>
        let (u, st) := f x st in let (g, st) := qgag_mapm f g st in (QGA_Given u g, st)
    end.
  Definition qga_map2m (f : T -> St -> U * V * St) (c : q_ga T) (st : St)
    : q_ga U * q_ga V * St :=
    match c with
    | QGA_Any g => let '(gu, gv, st) := qgaa_map2m f g st in (QGA_Any gu, QGA_Any gv, st)
    | QGA_SameP g => let '(gu, gv, st) := qgag_map2m f g st in (QGA_SameP gu, QGA_SameP gv, st)
    | QGA_Given x g =>
        let '(u, v, st) := f x st in let '(gu, gv, st) := qgag_map2m f g st in
        (QGA_Given u gu, QGA_Given v gv, st)
    end.
  (** canonical.rs 1175-1180 [map], 1182-1203 [map2] of [GivenSubjectGivenPredicate]. *)
  Definition qgg_mapm (f : T -> St -> U * St) (c : q_gg T) (st : St) : q_gg U * St :=
    match c with
    | QGG_Any g => let (g, st) := qgga_mapm f g st in (QGG_Any g, st)
    | QGG_Given x g =>
        let (u, st) := f x st in let (g, st) := qggg_mapm f g st in (QGG_Given u g, st)
    end.
  Definition qgg_map2m (f : T -> St -> U * V * St) (c : q_gg T) (st : St)
    : q_gg U * q_gg V * St :=
    match c with
    | QGG_Any g => let '(gu, gv, st) := qgga_map2m f g st in (QGG_Any gu, QGG_Any gv, st)
    | QGG_Given x g =>
        let '(u, v, st) := f x st in let '(gu, gv, st) := qggg_map2m f g st in
        (QGG_Given u gu, QGG_Given v gv, st)
    end.
  (** canonical.rs 459-465 [map], 467-492 [map2] of [AnySubject]. *)
  Definition qas_mapm (f : T -> St -> U * St) (c : q_as T) (st : St) : q_as U * St :=
    match c with
    | QA_AnyP g => let (g, st) := qaa_mapm f g st in (QA_AnyP g, st)
    | QA_SameS g => let (g, st) := qag_mapm f g st in (QA_SameS g, st)
    | QA_GivenP x g =>
        let (u, st) := f x st in let (g, st) := qag_mapm f g st in (QA_GivenP u g, st)
    end.
  Definition qas_map2m (f : T -> St -> U * V * St) (c : q_as T) (st : St)
    : q_as U * q_as V * St :=
    match c with
    | QA_AnyP g => let '(gu, gv, st) := qaa_map2m f g st in (QA_AnyP gu, QA_AnyP gv, st)
    | QA_SameS g => let '(gu, gv, st) := qag_map2m f g st in (QA_SameS gu, QA_SameS gv, st)
    | QA_GivenP x g =>
        let '(u, v, st) := f x st in let '(gu, gv, st) := qag_map2m f g st in
        (QA_GivenP u gu, QA_GivenP v gv, st)
    end.
  (** canonical.rs 915-920 [map], 922-940 [map2] of [GivenSubject]. *)
  Definition qgs_mapm (f : T -> St -> U * St) (c : q_gs T) (st : St) : q_gs U * St :=
    match c with
    | QG_AnyP g => let (g, st) := qga_mapm f g st in (QG_AnyP g, st)
    | QG_GivenP x g =>
        let (u, st) := f x st in let (g, st) := qgg_mapm f g st in (QG_GivenP u g, st)
    end.
  Definition qgs_map2m (f : T -> St -> U * V * St) (c : q_gs T) (st : St)
    : q_gs U * q_gs V * St :=
    match c with
    | QG_AnyP g => let '(gu, gv, st) := qga_map2m f g st in (QG_AnyP gu, QG_AnyP gv, st)
    | QG_GivenP x g =>
        let '(u, v, st) := f x st in let '(gu, gv, st) := qgg_map2m f g st in
        (QG_GivenP u gu, QG_GivenP v gv, st)
    end.
  (** canonical.rs 216-221 [map], 223-244 [map2] of [CanonicalQuadPattern]. *)
  Definition cq_mapm (f : T -> St -> U * St) (c : cqp T) (st : St) : cqp U * St :=
    match c with
    | CQ_AnyS g => let (g, st) := qas_mapm f g st in (CQ_AnyS g, st)
    | CQ_GivenS x g =>
        let (u, st) := f x st in let (g, st) := qgs_mapm f g st in (CQ_GivenS u g, st)
    end.
  Definition cq_map2m (f : T -> St -> U * V * St) (c : cqp T) (st : St)
    : cqp U * cqp V * St :=
    match c with
    | CQ_AnyS g => let '(gu, gv, st) := qas_map2m f g st in (CQ_AnyS gu, CQ_AnyS gv, st)
    | CQ_GivenS x g =>
        let '(u, v, st) := f x st in let '(gu, gv, st) := qgs_map2m f g st in
        (CQ_GivenS u gu, CQ_GivenS v gv, st)
    end.

End MapCalls.
