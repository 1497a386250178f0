(** Where an indexed dataset keeps its quads, and which of them a query finds.
    Nothing here uses the functions of the model, only the types of patterns. *)
From Coq Require Import List Bool Arith.
Import ListNotations.
From Verif Require Import Base TripleModel TriplePatternModel QuadPatternModel SetSpec
  ContainerSpec IndexedSpec.

(** ** Places *)
Section Places.
  Context {X : Type} (cmp : X -> X -> comparison).

  (** A row of places, each vacant ([None]) or taken by an element, and the
      positions of the vacant ones, the last vacated first. *)
  Definition places := (list (option X) * list nat)%type.

  Definition present (s : list (option X)) : list X :=
    flat_map (fun e => match e with Some x => [x] | None => [] end) s.

  (** A new element takes the place vacated last, or a new place at the end. *)
  Definition put (x : X) (st : places) : places :=
    let '(s, vacant) := st in
    match vacant with
    | i :: vacant => (firstn i s ++ Some x :: skipn (S i) s, vacant)
    | [] => (s ++ [Some x], [])
    end.
  Definition put_new (x : X) (st : places) : places :=
    if mem cmp x (present (fst st)) then st else put x st.

  (** The elements that satisfy [P] leave, in the order of their places. *)
  Fixpoint positions (P : X -> bool) (n : nat) (s : list (option X)) : list nat :=
    match s with
    | [] => []
    | Some x :: r => if P x then n :: positions P (S n) r else positions P (S n) r
    | None :: r => positions P (S n) r
    end.
  Definition leave (P : X -> bool) (e : option X) : option X :=
    match e with Some x => if P x then None else Some x | None => None end.
  Definition vacate (P : X -> bool) (st : places) : places :=
    let '(s, vacant) := st in (map (leave P) s, rev (positions P 0 s) ++ vacant).

  (** The operations of a set. *)
  Definition place_op (st : places) (o : op X) : places :=
    match o with
    | Insert x => put_new x st
    | Remove x => vacate (same cmp x) st
    | Extend l => fold_left (fun st x => put_new x st) l st
    | _ => st
    end.
  Definition place_ops (ops : list (op X)) : places := fold_left place_op ops ([], []).
End Places.

Section QuadPlaces.
  Context {R : Type} (cmp : R -> R -> comparison).
  Notation qcmp := (quad_cmp cmp).

  (** The operations of an indexed dataset, given what they returned. *)
  Definition place_iop (st : places) (o : iop R) (x : iout R) : places :=
    match o, x with
    | IOp o, _ => place_op qcmp st o
    | IRemoveGraph g, IGraph (Some ts) =>
        vacate (fun q => mem qcmp q (map (fun t => Quad (t_s t) (t_p t) (t_o t) g) ts)) st
    | IExtract _ _ _, IQuads l => vacate (fun q => mem qcmp q l) st
    | _, _ => st
    end.
  Fixpoint place_run (st : places) (ops : list (iop R)) (xs : list (iout R)) : places :=
    match ops, xs with
    | o :: ops, x :: xs => place_run (place_iop st o x) ops xs
    | _, _ => st
    end.
  (** The places after the history [ops0] of a [BTreeDataset] followed by the
      history [ops] of the indexed dataset made from it, which returned [xs]. *)
  Definition places_after (ops0 : list (op (quad R))) (ops : list (iop R)) (xs : list (iout R))
    : list (option (quad R)) := fst (place_run (place_ops qcmp ops0) ops xs).
End QuadPlaces.

(** ** Checks
    What a pattern demands of a component: nothing, to be the same as another
    component of the quad, or to be one of the resources it gives. *)
Inductive check (X : Type) :=
| Unchecked
| Equal (t : X -> bool)
| Among (t : X -> bool).
Arguments Unchecked {X}.
Arguments Equal {X} _.
Arguments Among {X} _.

Section Checks.
  Context {A R : Type} (cmp : R -> R -> comparison) (E : A -> R -> bool).
  Notation chk := (check (quad R)).

  Definition p_is (a : A) : chk := Among (fun q => E a (q_p q)).
  Definition o_is (a : A) : chk := Among (fun q => E a (q_o q)).
  Definition g_is (a : option A) : chk :=
    Among (fun q => match a, q_g q with Some a, Some g => E a g | None, None => true | _, _ => false end).
  Definition p_eq_s : chk := Equal (fun q => same cmp (q_p q) (q_s q)).
  Definition o_eq_s : chk := Equal (fun q => same cmp (q_o q) (q_s q)).
  Definition o_eq_p : chk := Equal (fun q => same cmp (q_o q) (q_p q)).
  Definition g_eq (f : quad R -> R) : chk :=
    Equal (fun q => match q_g q with Some g => same cmp g (f q) | None => false end).

  Definition qaaa_check (c : q_aaa A) : chk :=
    match c with
    | QAAA_Any => Unchecked | QAAA_SameS => g_eq q_s | QAAA_SameP => g_eq q_p
    | QAAA_SameO => g_eq q_o | QAAA_Given x => g_is x
    end.
  Definition qgaa_check (c : q_gaa A) : chk :=
    match c with
    | QGAA_Any => Unchecked | QGAA_SameP => g_eq q_p | QGAA_SameO => g_eq q_o | QGAA_Given x => g_is x
    end.
  Definition qaga_check (c : q_aga A) : chk :=
    match c with
    | QAGA_Any => Unchecked | QAGA_SameS => g_eq q_s | QAGA_SameO => g_eq q_o | QAGA_Given x => g_is x
    end.
  Definition qaag_check (c : q_aag A) : chk :=
    match c with
    | QAAG_Any => Unchecked | QAAG_SameS => g_eq q_s | QAAG_SameP => g_eq q_p | QAAG_Given x => g_is x
    end.
  Definition qagg_check (c : q_agg A) : chk :=
    match c with QAGG_Any => Unchecked | QAGG_SameS => g_eq q_s | QAGG_Given x => g_is x end.
  Definition qgag_check (c : q_gag A) : chk :=
    match c with QGAG_Any => Unchecked | QGAG_SameP => g_eq q_p | QGAG_Given x => g_is x end.
  Definition qgga_check (c : q_gga A) : chk :=
    match c with QGGA_Any => Unchecked | QGGA_SameO => g_eq q_o | QGGA_Given x => g_is x end.
  Definition qggg_check (c : q_ggg A) : chk :=
    match c with QGGG_Any => Unchecked | QGGG_Given x => g_is x end.
  (** Checks of the object and of the graph. *)
  Definition qaa_checks (c : q_aa A) : list chk :=
    match c with
    | QAA_Any c => [Unchecked; qaaa_check c]
    | QAA_SameS c => [o_eq_s; qaag_check c]
    | QAA_SameP c => [o_eq_p; qaag_check c]
    | QAA_Given x c => [o_is x; qaag_check c]
    end.
  Definition qag_checks (c : q_ag A) : list chk :=
    match c with
    | QAG_Any c => [Unchecked; qaga_check c]
    | QAG_SameS c => [o_eq_s; qagg_check c]
    | QAG_Given x c => [o_is x; qagg_check c]
    end.
  Definition qga_checks (c : q_ga A) : list chk :=
    match c with
    | QGA_Any c => [Unchecked; qgaa_check c]
    | QGA_SameP c => [o_eq_p; qgag_check c]
    | QGA_Given x c => [o_is x; qgag_check c]
    end.
  Definition qgg_checks (c : q_gg A) : list chk :=
    match c with
    | QGG_Any c => [Unchecked; qgga_check c]
    | QGG_Given x c => [o_is x; qggg_check c]
    end.
  (** Checks of the predicate, of the object and of the graph. *)
  Definition cq_checks (c : cqp A) : list chk :=
    match c with
    | CQ_AnyS (QA_AnyP c) => Unchecked :: qaa_checks c
    | CQ_AnyS (QA_SameS c) => p_eq_s :: qag_checks c
    | CQ_AnyS (QA_GivenP x c) => p_is x :: qag_checks c
    | CQ_GivenS _ (QG_AnyP c) => Unchecked :: qga_checks c
    | CQ_GivenS _ (QG_GivenP x c) => p_is x :: qgg_checks c
    end.
End Checks.

(** ** Walking along the places *)
Section Scan.
  Context {X : Type}.

  Definition passes (x : X) (k : check X) : bool :=
    match k with Unchecked => true | Equal t => t x | Among t => t x end.
  (** The first check that [x] does not pass. *)
  Definition fails_at (ks : list (check X)) (x : X) : option (check X) :=
    find (fun k => negb (passes x k)) ks.

  (** The walk looks at one place after the other.  A vacant place ends it.
      An element that fails a check against given resources makes it skip to the
      next element that passes this check: vacant places are skipped as well. *)
  Fixpoint scan (skip : option (X -> bool)) (ks : list (check X)) (s : list (option X))
    : list X :=
    match s with
    | [] => []
    | None :: r => match skip with Some _ => scan skip ks r | None => [] end
    | Some x :: r =>
        if match skip with Some t => t x | None => true end then
          match fails_at ks x with
          | None => x :: scan None ks r
          | Some (Among t) => scan (Some t) ks r
          | Some _ => scan None ks r
          end
        else scan skip ks r
    end.

  (** The elements before the first vacant place. *)
  Fixpoint up_to_vacant (s : list (option X)) : list X :=
    match s with Some x :: r => x :: up_to_vacant r | _ => [] end.
End Scan.

(** What a query finds.  Given a subject, all that matches is found, in the order
    of the places; otherwise the places are walked along. *)
Definition query {A R} (cmp : R -> R -> comparison) (E : A -> R -> bool) (c : cqp A)
    (s : list (option (quad R))) : list (quad R) :=
  let ks := cq_checks cmp E c in
  match c with
  | CQ_AnyS _ => scan None ks s
  | CQ_GivenS a _ =>
      filter (fun q => E a (q_s q) && forallb (passes q) ks) (present s)
  end.
(** One resource for each given component, or several. *)
Definition answer {R} (cmp : R -> R -> comparison) : cqp R -> _ -> _ :=
  query cmp (same cmp).
Definition multi_answer {R} (cmp : R -> R -> comparison) : cqp (list R) -> _ -> _ :=
  query cmp (fun l x => mem cmp x l).

(** Nothing was ever removed. *)
Definition only_added {X} (l : list (change X)) : Prop := Forall (fun c => fst c = true) l.

(** ** Graphs *)
Section TripleChecks.
  Context {A R : Type} (cmp : R -> R -> comparison) (E : A -> R -> bool).
  Notation chk := (check (triple R)).

  Definition tp_is (a : A) : chk := Among (fun t => E a (t_p t)).
  Definition to_is (a : A) : chk := Among (fun t => E a (t_o t)).
  Definition tp_eq_s : chk := Equal (fun t => same cmp (t_p t) (t_s t)).
  Definition to_eq_s : chk := Equal (fun t => same cmp (t_o t) (t_s t)).
  Definition to_eq_p : chk := Equal (fun t => same cmp (t_o t) (t_p t)).

  (** Checks of the predicate and of the object. *)
  Definition ct_checks (c : ctp A) : list chk :=
    match c with
    | CT_AnyS (TA_AnyP TAA_Any) | CT_GivenS _ (TG_AnyP TGA_Any) => [Unchecked; Unchecked]
    | CT_AnyS (TA_AnyP TAA_SameS) => [Unchecked; to_eq_s]
    | CT_AnyS (TA_AnyP TAA_SameP) | CT_GivenS _ (TG_AnyP TGA_SameP) => [Unchecked; to_eq_p]
    | CT_AnyS (TA_AnyP (TAA_Given o)) | CT_GivenS _ (TG_AnyP (TGA_Given o)) => [Unchecked; to_is o]
    | CT_AnyS (TA_SameS TAG_Any) => [tp_eq_s; Unchecked]
    | CT_AnyS (TA_SameS TAG_SameS) => [tp_eq_s; to_eq_s]
    | CT_AnyS (TA_SameS (TAG_Given o)) => [tp_eq_s; to_is o]
    | CT_AnyS (TA_GivenP p TAG_Any) | CT_GivenS _ (TG_GivenP p TGG_Any) => [tp_is p; Unchecked]
    | CT_AnyS (TA_GivenP p TAG_SameS) => [tp_is p; to_eq_s]
    | CT_AnyS (TA_GivenP p (TAG_Given o)) | CT_GivenS _ (TG_GivenP p (TGG_Given o)) =>
        [tp_is p; to_is o]
    end.

  (** What a query of a graph finds. *)
  Definition triple_query (c : ctp A) (s : list (option (triple R))) : list (triple R) :=
    match c with
    | CT_AnyS _ => scan None (ct_checks c) s
    | CT_GivenS a _ =>
        filter (fun t => E a (t_s t) && forallb (passes t) (ct_checks c)) (present s)
    end.
End TripleChecks.
Definition triple_answer {R} (cmp : R -> R -> comparison) : ctp R -> _ -> _ :=
  triple_query cmp (same cmp).
