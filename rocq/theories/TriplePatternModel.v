(** Canonical triple patterns (/repo/src/pattern/triple/canonical.rs).

    Simplification: references are values, so the [as_*]/borrowing accessors
    ([subject] and [into_subject], ...) are one function; [&mut self] setters
    return the new pattern next to their result. *)
From Coq Require Import List Bool.
Import ListNotations.
From Verif Require Import Base TripleModel.

(** pattern/resource_or_variable.rs 4-7 (enum [ResourceOrVar]). *)
Inductive res_or_var (T X : Type) := Res (t : T) | Var (x : X).
Arguments Res {T X} _.
Arguments Var {T X} _.

(** pattern/resource_or_variable.rs 10-15 [map]; 24-29 [is_id_or]. *)
Definition rv_map {T U X} (f : T -> U) (r : res_or_var T X) : res_or_var U X :=
  match r with Res t => Res (f t) | Var x => Var x end.
Definition rv_is_id_or {T X} (f : X -> bool) (r : res_or_var T X) : bool :=
  match r with Res _ => true | Var x => f x end.

(** pattern/mod.rs 13 [TriplePattern], 16 [QuadPattern]. *)
Definition triple_pattern (T X : Type) := triple (res_or_var T X).
Definition quad_pattern (T X : Type) := quad (res_or_var T X).

(** canonical.rs 630-635 (enum [AnySubjectAnyPredicate]). *)
Inductive t_aa (T : Type) := TAA_Any | TAA_SameS | TAA_SameP | TAA_Given (o : T).
(** canonical.rs 702-706 (enum [AnySubjectGivenPredicate]). *)
Inductive t_ag (T : Type) := TAG_Any | TAG_SameS | TAG_Given (o : T).
(** canonical.rs 875-879 (enum [GivenSubjectAnyPredicate]). *)
Inductive t_ga (T : Type) := TGA_Any | TGA_SameP | TGA_Given (o : T).
(** canonical.rs 946-949 (enum [GivenSubjectGivenPredicate]). *)
Inductive t_gg (T : Type) := TGG_Any | TGG_Given (o : T).
(** canonical.rs 483-487 (enum [AnySubject]). *)
Inductive t_as (T : Type) :=
  TA_AnyP (o : t_aa T) | TA_SameS (o : t_ag T) | TA_GivenP (p : T) (o : t_ag T).
(** canonical.rs 766-769 (enum [GivenSubject]). *)
Inductive t_gs (T : Type) := TG_AnyP (o : t_ga T) | TG_GivenP (p : T) (o : t_gg T).
(** canonical.rs 10-13 (enum [CanonicalTriplePattern]). *)
Inductive ctp (T : Type) := CT_AnyS (po : t_as T) | CT_GivenS (s : T) (po : t_gs T).

(** canonical.rs 362-365, 396-400, 434-439; quad/canonical.rs 248-251, 282-286,
    320-325, 1232-1238 (enums [PatternSubject], [PatternPredicate],
    [PatternObject], [PatternGraph]).  Simplification: the triple and quad
    versions of the first three, which are identical, share one type. *)
Inductive pat_s (T : Type) := PS_Any | PS_Given (t : T).
Inductive pat_p (T : Type) := PP_Any | PP_SameS | PP_Given (t : T).
Inductive pat_o (T : Type) := PO_Any | PO_SameS | PO_SameP | PO_Given (t : T).
Inductive pat_g (T : Type) := PG_Any | PG_SameS | PG_SameP | PG_SameO | PG_Given (t : option T).

Arguments TAA_Any {T}. Arguments TAA_SameS {T}. Arguments TAA_SameP {T}. Arguments TAA_Given {T} _.
Arguments TAG_Any {T}. Arguments TAG_SameS {T}. Arguments TAG_Given {T} _.
Arguments TGA_Any {T}. Arguments TGA_SameP {T}. Arguments TGA_Given {T} _.
Arguments TGG_Any {T}. Arguments TGG_Given {T} _.
Arguments TA_AnyP {T} _. Arguments TA_SameS {T} _. Arguments TA_GivenP {T} _ _.
Arguments TG_AnyP {T} _. Arguments TG_GivenP {T} _ _.
Arguments CT_AnyS {T} _. Arguments CT_GivenS {T} _ _.
Arguments PS_Any {T}. Arguments PS_Given {T} _.
Arguments PP_Any {T}. Arguments PP_SameS {T}. Arguments PP_Given {T} _.
Arguments PO_Any {T}. Arguments PO_SameS {T}. Arguments PO_SameP {T}. Arguments PO_Given {T} _.
Arguments PG_Any {T}. Arguments PG_SameS {T}. Arguments PG_SameP {T}. Arguments PG_SameO {T}.
Arguments PG_Given {T} _.

Section Pattern.
  Context {T X : Type} (xeqb : X -> X -> bool).

  (** canonical.rs 367-381 / 402-418 / 441-455 [id], [into_id]. *)
  Definition ps_id (p : pat_s T) : option T := match p with PS_Given t => Some t | _ => None end.
  Definition pp_id (p : pat_p T) : option T := match p with PP_Given t => Some t | _ => None end.
  Definition po_id (p : pat_o T) : option T := match p with PO_Given t => Some t | _ => None end.

  (** canonical.rs 471-480 [PatternObject::filter_triple]. *)
  Definition po_filter (eqb : T -> T -> bool) (p : pat_o T) (t : triple T) : bool :=
    match p with
    | PO_Any => true
    | PO_SameS => eqb (t_o t) (t_s t)
    | PO_SameP => eqb (t_o t) (t_p t)
    | PO_Given x => eqb (t_o t) x
    end.

  (** canonical.rs 34-42 [from_triple]. *)
  Definition ct_from_triple (t : triple T) : ctp T :=
    CT_GivenS (t_s t) (TG_GivenP (t_p t) (TGG_Given (t_o t))).

  (** canonical.rs 638-643, 709-714, 882-887, 952-957 [from_option]. *)
  Definition taa_from_option (o : option T) : t_aa T :=
    match o with Some o => TAA_Given o | None => TAA_Any end.
  Definition tag_from_option (o : option T) : t_ag T :=
    match o with Some o => TAG_Given o | None => TAG_Any end.
  Definition tga_from_option (o : option T) : t_ga T :=
    match o with Some o => TGA_Given o | None => TGA_Any end.
  Definition tgg_from_option (o : option T) : t_gg T :=
    match o with Some o => TGG_Given o | None => TGG_Any end.
  (** canonical.rs 490-495, 772-777, 44-49 [from_option_triple]. *)
  Definition tas_from_option (p o : option T) : t_as T :=
    match p with
    | Some p => TA_GivenP p (tag_from_option o)
    | None => TA_AnyP (taa_from_option o)
    end.
  Definition tgs_from_option (p o : option T) : t_gs T :=
    match p with
    | Some p => TG_GivenP p (tgg_from_option o)
    | None => TG_AnyP (tga_from_option o)
    end.
  Definition ct_from_option_triple (t : triple (option T)) : ctp T :=
    match t_s t with
    | Some s => CT_GivenS s (tgs_from_option (t_p t) (t_o t))
    | None => CT_AnyS (tas_from_option (t_p t) (t_o t))
    end.

  (** canonical.rs 645-658, 716-727, 889-900, 959-964 [from_pattern]. *)
  Definition taa_from_pattern (s p : X) (o : res_or_var T X) : t_aa T :=
    match o with
    | Res o => TAA_Given o
    | Var o => if xeqb o s then TAA_SameS else if xeqb o p then TAA_SameP else TAA_Any
    end.
  Definition tag_from_pattern (s : X) (o : res_or_var T X) : t_ag T :=
    match o with
    | Res o => TAG_Given o
    | Var o => if xeqb o s then TAG_SameS else TAG_Any
    end.
  Definition tga_from_pattern (p : X) (o : res_or_var T X) : t_ga T :=
    match o with
    | Res o => TGA_Given o
    | Var o => if xeqb p o then TGA_SameP else TGA_Any
    end.
  Definition tgg_from_pattern (o : res_or_var T X) : t_gg T :=
    match o with Res o => TGG_Given o | Var _ => TGG_Any end.
  (** canonical.rs 497-514, 779-788, 51-60 [from_pattern]. *)
  Definition tas_from_pattern (s : X) (p o : res_or_var T X) : t_as T :=
    match p with
    | Res p => TA_GivenP p (tag_from_pattern s o)
    | Var p =>
        if xeqb p s then TA_SameS (tag_from_pattern s o)
        else TA_AnyP (taa_from_pattern s p o)
    end.
  Definition tgs_from_pattern (p o : res_or_var T X) : t_gs T :=
    match p with
    | Res p => TG_GivenP p (tgg_from_pattern o)
    | Var p => TG_AnyP (tga_from_pattern p o)
    end.
  Definition ct_from_pattern (t : triple_pattern T X) : ctp T :=
    match t_s t with
    | Res s => CT_GivenS s (tgs_from_pattern (t_p t) (t_o t))
    | Var s => CT_AnyS (tas_from_pattern s (t_p t) (t_o t))
    end.

  (** canonical.rs 69-81 [subject], [into_subject]. *)
  Definition ct_subject (c : ctp T) : pat_s T :=
    match c with CT_AnyS _ => PS_Any | CT_GivenS s _ => PS_Given s end.

  (** canonical.rs 528-542, 801-813, 83-95 [predicate], [into_predicate]. *)
  Definition tas_predicate (c : t_as T) : pat_p T :=
    match c with TA_AnyP _ => PP_Any | TA_SameS _ => PP_SameS | TA_GivenP p _ => PP_Given p end.
  Definition tgs_predicate (c : t_gs T) : pat_p T :=
    match c with TG_AnyP _ => PP_Any | TG_GivenP p _ => PP_Given p end.
  Definition ct_predicate (c : ctp T) : pat_p T :=
    match c with CT_AnyS c => tas_predicate c | CT_GivenS _ c => tgs_predicate c end.

  (** canonical.rs 678-694, 744-758, 924-938, 985-997 [object], [into_object]. *)
  Definition taa_object (c : t_aa T) : pat_o T :=
    match c with
    | TAA_Any => PO_Any | TAA_SameS => PO_SameS | TAA_SameP => PO_SameP | TAA_Given o => PO_Given o
    end.
  Definition tag_object (c : t_ag T) : pat_o T :=
    match c with TAG_Any => PO_Any | TAG_SameS => PO_SameS | TAG_Given o => PO_Given o end.
  Definition tga_object (c : t_ga T) : pat_o T :=
    match c with TGA_Any => PO_Any | TGA_SameP => PO_SameP | TGA_Given o => PO_Given o end.
  Definition tgg_object (c : t_gg T) : pat_o T :=
    match c with TGG_Any => PO_Any | TGG_Given o => PO_Given o end.
  (** canonical.rs 544-558, 815-827, 97-109 [object], [into_object]. *)
  Definition tas_object (c : t_as T) : pat_o T :=
    match c with TA_AnyP o => taa_object o | TA_SameS o => tag_object o | TA_GivenP _ o => tag_object o end.
  Definition tgs_object (c : t_gs T) : pat_o T :=
    match c with TG_AnyP o => tga_object o | TG_GivenP _ o => tgg_object o end.
  Definition ct_object (c : ctp T) : pat_o T :=
    match c with CT_AnyS c => tas_object c | CT_GivenS _ c => tgs_object c end.

  (** canonical.rs 917-922, 978-983 [as_given]. *)
  Definition tga_as_given (c : t_ga T) : option T :=
    match c with TGA_Given o => Some o | _ => None end.
  Definition tgg_as_given (c : t_gg T) : option T :=
    match c with TGG_Given o => Some o | _ => None end.

  (** canonical.rs 111-255 [set_subject]; 257-263 [with_subject] is its second
      component. *)
  Definition ct_set_subject (s : T) (c : ctp T) : pat_s T * ctp T :=
    match c with
    | CT_AnyS (TA_AnyP TAA_Any) => (PS_Any, CT_GivenS s (TG_AnyP TGA_Any))
    | CT_AnyS (TA_AnyP TAA_SameS) => (PS_Any, CT_GivenS s (TG_AnyP (TGA_Given s)))
    | CT_AnyS (TA_AnyP TAA_SameP) => (PS_Any, CT_GivenS s (TG_AnyP TGA_SameP))
    | CT_AnyS (TA_AnyP (TAA_Given o)) => (PS_Any, CT_GivenS s (TG_AnyP (TGA_Given o)))
    | CT_AnyS (TA_SameS TAG_Any) => (PS_Any, CT_GivenS s (TG_GivenP s TGG_Any))
    | CT_AnyS (TA_SameS TAG_SameS) => (PS_Any, CT_GivenS s (TG_GivenP s (TGG_Given s)))
    | CT_AnyS (TA_SameS (TAG_Given o)) => (PS_Any, CT_GivenS s (TG_GivenP s (TGG_Given o)))
    | CT_AnyS (TA_GivenP p TAG_Any) => (PS_Any, CT_GivenS s (TG_GivenP p TGG_Any))
    | CT_AnyS (TA_GivenP p TAG_SameS) => (PS_Any, CT_GivenS s (TG_GivenP p (TGG_Given s)))
    | CT_AnyS (TA_GivenP p (TAG_Given o)) => (PS_Any, CT_GivenS s (TG_GivenP p (TGG_Given o)))
    | CT_GivenS cur (TG_AnyP TGA_Any) => (PS_Given cur, CT_GivenS s (TG_AnyP TGA_Any))
    | CT_GivenS cur (TG_AnyP TGA_SameP) => (PS_Given cur, CT_GivenS s (TG_AnyP TGA_SameP))
    | CT_GivenS cur (TG_AnyP (TGA_Given o)) => (PS_Given cur, CT_GivenS s (TG_AnyP (TGA_Given o)))
    | CT_GivenS cur (TG_GivenP p TGG_Any) => (PS_Given cur, CT_GivenS s (TG_GivenP p TGG_Any))
    | CT_GivenS cur (TG_GivenP p (TGG_Given o)) =>
        (PS_Given cur, CT_GivenS s (TG_GivenP p (TGG_Given o)))
    end.

  (** canonical.rs 560-598 [AnySubject::set_predicate]. *)
  Definition tas_set_predicate (p : T) (c : t_as T) : pat_p T * t_as T :=
    match c with
    | TA_AnyP TAA_Any => (PP_Any, TA_GivenP p TAG_Any)
    | TA_AnyP TAA_SameS => (PP_Any, TA_GivenP p TAG_Any)
    | TA_AnyP TAA_SameP => (PP_Any, TA_GivenP p (TAG_Given p))
    | TA_AnyP (TAA_Given o) => (PP_Any, TA_GivenP p (TAG_Given o))
    | TA_SameS TAG_Any => (PP_SameS, TA_GivenP p TAG_Any)
    | TA_SameS TAG_SameS => (PP_SameS, TA_GivenP p (TAG_Given p))
    | TA_SameS (TAG_Given o) => (PP_SameS, TA_GivenP p (TAG_Given o))
    | TA_GivenP cur o => (PP_Given cur, TA_GivenP p o)
    end.

  (** canonical.rs 829-851 [GivenSubject::set_predicate]. *)
  Definition tgs_set_predicate (p : T) (c : t_gs T) : pat_p T * t_gs T :=
    match c with
    | TG_AnyP TGA_SameP => (PP_Any, TG_GivenP p (TGG_Given p))
    | TG_AnyP TGA_Any => (PP_Any, TG_GivenP p TGG_Any)
    | TG_AnyP (TGA_Given o) => (PP_Any, TG_GivenP p (TGG_Given o))
    | TG_GivenP cur o => (PP_Given cur, TG_GivenP p o)
    end.

  (** canonical.rs 265-307 [set_predicate]; 309-315 [with_predicate] is its
      second component. *)
  Definition ct_set_predicate (p : T) (c : ctp T) : pat_p T * ctp T :=
    match c with
    | CT_AnyS (TA_SameS TAG_Any) => (PP_SameS, CT_GivenS p (TG_GivenP p TGG_Any))
    | CT_AnyS (TA_SameS TAG_SameS) => (PP_SameS, CT_GivenS p (TG_GivenP p (TGG_Given p)))
    | CT_AnyS (TA_SameS (TAG_Given o)) => (PP_SameS, CT_GivenS p (TG_GivenP p (TGG_Given o)))
    | CT_AnyS c => let (old, c') := tas_set_predicate p c in (old, CT_AnyS c')
    | CT_GivenS s c => let (old, c') := tgs_set_predicate p c in (old, CT_GivenS s c')
    end.

  (** canonical.rs 696-698, 760-762, 940-942, 999-1001 [set_object]. *)
  Definition taa_set_object (o : T) (c : t_aa T) : pat_o T * t_aa T := (taa_object c, TAA_Given o).
  Definition tag_set_object (o : T) (c : t_ag T) : pat_o T * t_ag T := (tag_object c, TAG_Given o).
  Definition tga_set_object (o : T) (c : t_ga T) : pat_o T * t_ga T := (tga_object c, TGA_Given o).
  Definition tgg_set_object (o : T) (c : t_gg T) : pat_o T * t_gg T := (tgg_object c, TGG_Given o).

  (** canonical.rs 600-626 [AnySubject::set_object]. *)
  Definition tas_set_object (o : T) (c : t_as T) : pat_o T * t_as T :=
    match c with
    | TA_AnyP TAA_SameP => (PO_Any, TA_GivenP o (TAG_Given o))
    | TA_AnyP cur => let (old, cur') := taa_set_object o cur in (old, TA_AnyP cur')
    | TA_SameS TAG_SameS => (PO_SameS, TA_GivenP o (TAG_Given o))
    | TA_SameS cur => let (old, cur') := tag_set_object o cur in (old, TA_SameS cur')
    | TA_GivenP p cur => let (old, cur') := tag_set_object o cur in (old, TA_GivenP p cur')
    end.

  (** canonical.rs 853-871 [GivenSubject::set_object]. *)
  Definition tgs_set_object (o : T) (c : t_gs T) : pat_o T * t_gs T :=
    match c with
    | TG_AnyP TGA_SameP => (PO_Any, TG_GivenP o (TGG_Given o))
    | TG_AnyP cur => let (old, cur') := tga_set_object o cur in (old, TG_AnyP cur')
    | TG_GivenP p cur => let (old, cur') := tgg_set_object o cur in (old, TG_GivenP p cur')
    end.

  (** canonical.rs 317-350 [set_object]; 352-358 [with_object] is its second
      component. *)
  Definition ct_set_object (o : T) (c : ctp T) : pat_o T * ctp T :=
    match c with
    | CT_AnyS (TA_AnyP TAA_SameS) => (PO_SameS, CT_GivenS o (TG_AnyP (TGA_Given o)))
    | CT_AnyS (TA_SameS TAG_SameS) => (PO_SameS, CT_GivenS o (TG_GivenP o (TGG_Given o)))
    | CT_AnyS cur => let (old, cur') := tas_set_object o cur in (old, CT_AnyS cur')
    | CT_GivenS s cur => let (old, cur') := tgs_set_object o cur in (old, CT_GivenS s cur')
    end.

End Pattern.
