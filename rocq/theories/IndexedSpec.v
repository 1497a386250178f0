(** Vocabulary of the properties of the indexed containers.  Nothing here uses
    the functions of the model, only the types of patterns. *)
From Coq Require Import List Bool Arith.
Import ListNotations.
From Verif Require Import Base TripleModel TriplePatternModel QuadPatternModel PatternSpec
  SetSpec ContainerSpec.

(** ** Multi patterns: same shape, one of the listed resources for each given
    component *)
Section Rel.
  Context {A B : Type} (P : A -> B -> Prop).
  Definition opt_rel (x : option A) (y : option B) : Prop :=
    match x, y with Some a, Some b => P a b | None, None => True | _, _ => False end.
  Definition qaaa_rel (c : q_aaa A) (d : q_aaa B) : Prop :=
    match c, d with
    | QAAA_Any, QAAA_Any => True | QAAA_SameS, QAAA_SameS => True | QAAA_SameP, QAAA_SameP => True | QAAA_SameO, QAAA_SameO => True
    | QAAA_Given x, QAAA_Given y => opt_rel x y
    | _, _ => False
    end.
  Definition qgaa_rel (c : q_gaa A) (d : q_gaa B) : Prop :=
    match c, d with
    | QGAA_Any, QGAA_Any => True | QGAA_SameP, QGAA_SameP => True | QGAA_SameO, QGAA_SameO => True
    | QGAA_Given x, QGAA_Given y => opt_rel x y
    | _, _ => False
    end.
  Definition qaga_rel (c : q_aga A) (d : q_aga B) : Prop :=
    match c, d with
    | QAGA_Any, QAGA_Any => True | QAGA_SameS, QAGA_SameS => True | QAGA_SameO, QAGA_SameO => True
    | QAGA_Given x, QAGA_Given y => opt_rel x y
    | _, _ => False
    end.
  Definition qaag_rel (c : q_aag A) (d : q_aag B) : Prop :=
    match c, d with
    | QAAG_Any, QAAG_Any => True | QAAG_SameS, QAAG_SameS => True | QAAG_SameP, QAAG_SameP => True
    | QAAG_Given x, QAAG_Given y => opt_rel x y
    | _, _ => False
    end.
  Definition qagg_rel (c : q_agg A) (d : q_agg B) : Prop :=
    match c, d with
    | QAGG_Any, QAGG_Any => True | QAGG_SameS, QAGG_SameS => True
    | QAGG_Given x, QAGG_Given y => opt_rel x y
    | _, _ => False
    end.
  Definition qgag_rel (c : q_gag A) (d : q_gag B) : Prop :=
    match c, d with
    | QGAG_Any, QGAG_Any => True | QGAG_SameP, QGAG_SameP => True
    | QGAG_Given x, QGAG_Given y => opt_rel x y
    | _, _ => False
    end.
  Definition qgga_rel (c : q_gga A) (d : q_gga B) : Prop :=
    match c, d with
    | QGGA_Any, QGGA_Any => True | QGGA_SameO, QGGA_SameO => True
    | QGGA_Given x, QGGA_Given y => opt_rel x y
    | _, _ => False
    end.
  Definition qggg_rel (c : q_ggg A) (d : q_ggg B) : Prop :=
    match c, d with
    | QGGG_Any, QGGG_Any => True
    | QGGG_Given x, QGGG_Given y => opt_rel x y
    | _, _ => False
    end.
  Definition qaa_rel (c : q_aa A) (d : q_aa B) : Prop :=
    match c, d with
    | QAA_Any c, QAA_Any d => qaaa_rel c d
    | QAA_SameS c, QAA_SameS d => qaag_rel c d
    | QAA_SameP c, QAA_SameP d => qaag_rel c d
    | QAA_Given x c, QAA_Given y d => P x y /\ qaag_rel c d
    | _, _ => False
    end.
  Definition qag_rel (c : q_ag A) (d : q_ag B) : Prop :=
    match c, d with
    | QAG_Any c, QAG_Any d => qaga_rel c d
    | QAG_SameS c, QAG_SameS d => qagg_rel c d
    | QAG_Given x c, QAG_Given y d => P x y /\ qagg_rel c d
    | _, _ => False
    end.
  Definition qga_rel (c : q_ga A) (d : q_ga B) : Prop :=
    match c, d with
    | QGA_Any c, QGA_Any d => qgaa_rel c d
    | QGA_SameP c, QGA_SameP d => qgag_rel c d
    | QGA_Given x c, QGA_Given y d => P x y /\ qgag_rel c d
    | _, _ => False
    end.
  Definition qgg_rel (c : q_gg A) (d : q_gg B) : Prop :=
    match c, d with
    | QGG_Any c, QGG_Any d => qgga_rel c d
    | QGG_Given x c, QGG_Given y d => P x y /\ qggg_rel c d
    | _, _ => False
    end.
  Definition qas_rel (c : q_as A) (d : q_as B) : Prop :=
    match c, d with
    | QA_AnyP c, QA_AnyP d => qaa_rel c d
    | QA_SameS c, QA_SameS d => qag_rel c d
    | QA_GivenP x c, QA_GivenP y d => P x y /\ qag_rel c d
    | _, _ => False
    end.
  Definition qgs_rel (c : q_gs A) (d : q_gs B) : Prop :=
    match c, d with
    | QG_AnyP c, QG_AnyP d => qga_rel c d
    | QG_GivenP x c, QG_GivenP y d => P x y /\ qgg_rel c d
    | _, _ => False
    end.
  Definition cq_rel (c : cqp A) (d : cqp B) : Prop :=
    match c, d with
    | CQ_AnyS c, CQ_AnyS d => qas_rel c d
    | CQ_GivenS x c, CQ_GivenS y d => P x y /\ qgs_rel c d
    | _, _ => False
    end.
End Rel.

(** [c] picks one resource in each list of [m]. *)
Definition choice {T} (m : cqp (list T)) (c : cqp T) : Prop := cq_rel (fun l x => In x l) m c.

(** ** The components a pattern constrains
    The resources of a quad at the positions where the pattern is not a mere
    wildcard: a resource is given there, or another position is repeated. *)
Section Checked.
  Context {A R : Type}.
  Definition aaa_checked (c : q_aaa A) (g : list R) : list R :=
    match c with QAAA_Any => [] | _ => g end.
  Definition gaa_checked (c : q_gaa A) (g : list R) : list R :=
    match c with QGAA_Any => [] | _ => g end.
  Definition aga_checked (c : q_aga A) (g : list R) : list R :=
    match c with QAGA_Any => [] | _ => g end.
  Definition aag_checked (c : q_aag A) (g : list R) : list R :=
    match c with QAAG_Any => [] | _ => g end.
  Definition agg_checked (c : q_agg A) (g : list R) : list R :=
    match c with QAGG_Any => [] | _ => g end.
  Definition gag_checked (c : q_gag A) (g : list R) : list R :=
    match c with QGAG_Any => [] | _ => g end.
  Definition gga_checked (c : q_gga A) (g : list R) : list R :=
    match c with QGGA_Any => [] | _ => g end.
  Definition ggg_checked (c : q_ggg A) (g : list R) : list R :=
    match c with QGGG_Any => [] | _ => g end.
  Definition aa_checked (c : q_aa A) (o : R) (g : list R) : list R :=
    match c with
    | QAA_Any c => aaa_checked c g
    | QAA_SameS c | QAA_SameP c | QAA_Given _ c => o :: aag_checked c g
    end.
  Definition ag_checked (c : q_ag A) (o : R) (g : list R) : list R :=
    match c with
    | QAG_Any c => aga_checked c g
    | QAG_SameS c | QAG_Given _ c => o :: agg_checked c g
    end.
  Definition ga_checked (c : q_ga A) (o : R) (g : list R) : list R :=
    match c with
    | QGA_Any c => gaa_checked c g
    | QGA_SameP c | QGA_Given _ c => o :: gag_checked c g
    end.
  Definition gg_checked (c : q_gg A) (o : R) (g : list R) : list R :=
    match c with
    | QGG_Any c => gga_checked c g
    | QGG_Given _ c => o :: ggg_checked c g
    end.
  Definition as_checked (c : q_as A) (p o : R) (g : list R) : list R :=
    match c with
    | QA_AnyP c => aa_checked c o g
    | QA_SameS c | QA_GivenP _ c => p :: ag_checked c o g
    end.
  Definition gs_checked (c : q_gs A) (p o : R) (g : list R) : list R :=
    match c with
    | QG_AnyP c => ga_checked c o g
    | QG_GivenP _ c => p :: gg_checked c o g
    end.
  Definition cq_checked (c : cqp A) (q : quad R) : list R :=
    let g := match q_g q with Some g => [g] | None => [] end in
    match c with
    | CQ_AnyS c => as_checked c (q_p q) (q_o q) g
    | CQ_GivenS _ c => q_s q :: gs_checked c (q_p q) (q_o q) g
    end.
End Checked.

(** ** Histories
    Operations on an indexed dataset, and what they return: those of a set;
    removing a graph (the triples of the graph returned, if any); taking [n]
    items of an extraction (the [spare] capacity of the vector of quads at
    this moment is not specified). *)
Inductive iop (R : Type) :=
| IOp (o : op (quad R))
| IRemoveGraph (g : option R)
| IExtract (c : cqp R) (n spare : nat).
Inductive iout (R : Type) :=
| IOut (x : out (quad R))
| IGraph (ts : option (list (triple R)))
| IQuads (l : list (quad R)).
Arguments IOp {R} _.
Arguments IRemoveGraph {R} _.
Arguments IExtract {R} _ _ _.
Arguments IOut {R} _.
Arguments IGraph {R} _.
Arguments IQuads {R} _.

(** A change: the quad was inserted ([true]) or removed ([false]). *)
Definition change (X : Type) := (bool * X)%type.

Section Log.
  Context {X : Type} (cmp : X -> X -> comparison).

  Definition apply_change (s : list X) (c : change X) : list X :=
    if fst c then add cmp (snd c) s else del cmp (snd c) s.
  Definition apply (l : list (change X)) (s : list X) : list X := fold_left apply_change l s.

  (** The changes made by the operations of a set. *)
  Fixpoint extend_changes (s : list X) (l : list X) : list (change X) :=
    match l with
    | [] => []
    | x :: r =>
        if mem cmp x s then extend_changes s r else (true, x) :: extend_changes (add cmp x s) r
    end.
  Definition set_changes (s : list X) (o : op X) : list (change X) :=
    match o with
    | Insert x => if mem cmp x s then [] else [(true, x)]
    | Remove x => if mem cmp x s then [(false, x)] else []
    | Extend l => extend_changes s l
    | _ => []
    end.
  (** The log of a history that starts from the set [s]. *)
  Fixpoint set_log (s : list X) (l : list (op X)) : list (change X) :=
    match l with
    | [] => []
    | o :: r => set_changes s o ++ set_log (snd (spec_step cmp s o)) r
    end.

  (** Number of vacant slots of a vector where insertions fill a vacant slot
      if there is one, and removals leave one. *)
  Fixpoint vacancies (n : nat) (l : list (change X)) : nat :=
    match l with
    | [] => n
    | (true, _) :: r => vacancies (pred n) r
    | (false, _) :: r => vacancies (S n) r
    end.

  Context {R : Type} (rcmp : R -> R -> comparison) (comps : X -> list R).

  (** No inserted element repeats a resource among [W] that is new. *)
  Fixpoint known_log (W : R -> Prop) (s : list X) (l : list (change X)) : Prop :=
    match l with
    | [] => True
    | (b, x) :: r =>
        (if b then repeats_known comps W s x else True) /\ known_log W (apply_change s (b, x)) r
    end.

  (** The last change to an element whose component [f] is [r], if any. *)
  Definition last_change (f : X -> R) (r : R) (l : list (change X)) : option bool :=
    fold_left (fun a c => if same rcmp (f (snd c)) r then Some (fst c) else a) l None.
  (** [r] is the component [f] of an element, and the last time such an element
      changed it was not removed. *)
  Definition stable (f : X -> R) (s : list X) (l : list (change X)) (r : R) : Prop :=
    (exists x, In x s /\ f x = r) /\ last_change f r l <> Some false.
  (** No element is removed while another one has the same component [f]. *)
  Fixpoint lonely (f : X -> R) (s : list X) (l : list (change X)) : Prop :=
    match l with
    | [] => True
    | (b, x) :: r =>
        (if b then True else forall y, In y (apply_change s (b, x)) -> f y <> f x) /\
        lonely f (apply_change s (b, x)) r
    end.

  (** The same for the value [r] of the component only. *)
  Fixpoint lonely_at (f : X -> R) (r : R) (s : list X) (l : list (change X)) : Prop :=
    match l with
    | [] => True
    | (b, x) :: l =>
        (if b then True else f x = r -> forall y, In y (apply_change s (b, x)) -> f y <> r) /\
        lonely_at f r (apply_change s (b, x)) l
    end.
End Log.

(** [r] is listed at most once. *)
Definition once {A : Type} (r : A) (v : list A) : Prop :=
  forall i j, nth_error v i = Some r -> nth_error v j = Some r -> i = j.

Section Quads.
  Context {R : Type} (cmp : R -> R -> comparison).
  Notation qcmp := (quad_cmp cmp).

  (** The changes an operation makes, given what it returned. *)
  Definition changes (s : list (quad R)) (o : iop R) (x : iout R) : list (change (quad R)) :=
    match o, x with
    | IOp o, _ => set_changes qcmp s o
    | IRemoveGraph g, IGraph (Some ts) =>
        map (fun t => (false, Quad (t_s t) (t_p t) (t_o t) g)) ts
    | IExtract _ _ _, IQuads l => map (fun q => (false, q)) l
    | _, _ => []
    end.
  Fixpoint log (s : list (quad R)) (ops : list (iop R)) (xs : list (iout R))
    : list (change (quad R)) :=
    match ops, xs with
    | o :: ops, x :: xs => changes s o x ++ log (apply qcmp (changes s o x) s) ops xs
    | _, _ => []
    end.

  (** What an operation may return when the set of quads is [s]:
      - the operations of a set, what they return on a set;
      - [remove_graph g], nothing if [g] is a named graph; otherwise triples of
        the graph, in order, all of them if it is the default graph;
      - an extraction, at most [n] quads, all different, present and matching.
      Which triples of a named graph and which of the matching quads is the
      subject of other properties. *)
  Definition allowed (s : list (quad R)) (o : iop R) (x : iout R) : Prop :=
    match o, x with
    | IOp o, IOut x => x = fst (spec_step qcmp s o)
    | IRemoveGraph g, IGraph None => g <> None
    | IRemoveGraph g, IGraph (Some ts) =>
        increasing (triple_cmp cmp) ts /\
        (forall t, In t ts -> In (Quad (t_s t) (t_p t) (t_o t) g) s) /\
        (g = None -> forall q, In q s -> q_g q = None -> In (Triple (q_s q) (q_p q) (q_o q)) ts)
    | IExtract c n _, IQuads l =>
        NoDup l /\ length l <= n /\ forall q, In q l -> In q s /\ cq_matches c q
    | _, _ => False
    end.
  Fixpoint allowed_run (s : list (quad R)) (ops : list (iop R)) (xs : list (iout R)) : Prop :=
    match ops, xs with
    | [], [] => True
    | o :: ops, x :: xs => allowed s o x /\ allowed_run (apply qcmp (changes s o x) s) ops xs
    | _, _ => False
    end.

  (** When the last quad of a named graph is removed, the name of the graph
      does not occur in another position. *)
  Fixpoint tidy (s : list (quad R)) (l : list (change (quad R))) : Prop :=
    match l with
    | [] => True
    | (b, q) :: r =>
        let s' := apply_change qcmp s (b, q) in
        match b, q_g q with
        | false, Some g => (exists q', In q' s' /\ q_g q' = Some g) \/ ~ occurs quad_comps g s'
        | _, _ => True
        end /\ tidy s' r
    end.

  (** The set of quads after the history [ops0] of a [BTreeDataset] followed by
      the history [ops] of the indexed dataset made from it, which returned
      [xs]; all the changes since the dataset was new. *)
  Definition late_log (ops0 : list (op (quad R))) (ops : list (iop R)) (xs : list (iout R)) :=
    log (spec_set qcmp ops0) ops xs.
  Definition final_set (ops0 : list (op (quad R))) (ops : list (iop R)) (xs : list (iout R))
    : list (quad R) := apply qcmp (late_log ops0 ops xs) (spec_set qcmp ops0).
  Definition full_log (ops0 : list (op (quad R))) (ops : list (iop R)) (xs : list (iout R))
    : list (change (quad R)) := set_log qcmp [] ops0 ++ late_log ops0 ops xs.
End Quads.

Definition subject_given {T} (c : cqp T) : Prop :=
  match c with CQ_AnyS _ => False | CQ_GivenS _ _ => True end.
Definition t_subject_given {T} (c : ctp T) : Prop :=
  match c with CT_AnyS _ => False | CT_GivenS _ _ => True end.
(** The components of a triple that a pattern checks, as [cq_checked]. *)
Section TChecked.
  Context {A R : Type}.
  Definition ct_checked (c : ctp A) (t : triple R) : list R :=
    match c with
    | CT_AnyS (TA_AnyP TAA_Any) => []
    | CT_AnyS (TA_AnyP _) => [t_o t]
    | CT_AnyS (TA_SameS TAG_Any) | CT_AnyS (TA_GivenP _ TAG_Any) => [t_p t]
    | CT_AnyS _ => [t_p t; t_o t]
    | CT_GivenS _ (TG_AnyP TGA_Any) => [t_s t]
    | CT_GivenS _ (TG_AnyP _) => [t_s t; t_o t]
    | CT_GivenS _ (TG_GivenP _ TGG_Any) => [t_s t; t_p t]
    | CT_GivenS _ (TG_GivenP _ _) => [t_s t; t_p t; t_o t]
    end.
End TChecked.
