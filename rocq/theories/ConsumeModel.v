(** The iterators over the contents of the containers, called one item at a time,
    and the code that calls [Clone] while something is half done: the consuming
    iterators and the setters of canonical triple patterns.

    bd = dataset/impl/btree_dataset.rs, bg = dataset/graph/impl/btree_graph.rs,
    id = dataset/impl/indexed_btree_dataset.rs,
    ig = dataset/graph/impl/indexed_btree_graph.rs,
    ct = pattern/triple/canonical.rs *)
From Coq Require Import List Bool Arith.
Import ListNotations.
From Verif Require Import Base SlabModel TripleModel TriplePatternModel BResourceModel
  BTreeDatasetModel BTreeGraphModel IResourceModel IndexedDatasetModel IndexedGraphModel
  CrashModel ICrashModel.

(** ** Borrowing iterators *)

(** [self.indexes.next().map(|&i| at(i))]: the iterators over the tree of indexes
    ([raw_btree::Iter]) and over a [BTreeSet] are lists, and are fused.  The index
    is consumed before it is looked up.  [None]: the index is vacant and the call
    panics. *)
Definition slots_poll {X} (at_ : nat -> option X) (idx : list nat)
  : option (option X) * list nat :=
  match idx with
  | [] => (Some None, [])
  | i :: r => (option_map Some (at_ i), r)
  end.
(** The same, for callers that do not go on after a panic. *)
Definition slots_next {X} (at_ : nat -> option X) (idx : list nat)
  : option (option X * list nat) :=
  match slots_poll at_ idx with
  | (Some x, r) => Some (x, r)
  | (None, _) => None
  end.

Section Borrowing.
  Context {R : Type}.
  (** bd 333-337 [Quads::next], 387-389 [Resources::next]. *)
  Definition bd_quads_next (d : @bdataset R) := slots_next (b_quad_at (bd_resources d) (bd_quads d)).
  Definition bd_resources_next (d : @bdataset R) := slots_next (br_val (bd_resources d)).
  (** bg 307-311 [Triples::next], 361-363 [Resources::next]. *)
  Definition bg_triples_next (g : @bgraph R) :=
    slots_next (b_triple_at (bg_resources g) (bg_triples g)).
  Definition bg_resources_next (g : @bgraph R) := slots_next (br_val (bg_resources g)).
  (** id 663-667 [Quads::next]; 717-719, 730-732, 743-745, 756-758, 769-771
      [Resources::next], [Subjects::next], [Predicates::next], [Objects::next],
      [NamedGraphs::next]. *)
  Definition id_quads_next (d : @idataset R) := slots_next (i_quad_at (id_resources d) (id_quads d)).
  Definition id_values_next (d : @idataset R) := slots_next (ir_val (id_resources d)).
  Definition id_values_poll (d : @idataset R) := slots_poll (ir_val (id_resources d)).
  (** ig 480-484 [Triples::next]; 534-536, 547-549, 560-562, 573-575. *)
  Definition ig_triples_next (g : @igraph R) :=
    slots_next (i_triple_at (ig_resources g) (ig_triples g)).
  Definition ig_values_next (g : @igraph R) := slots_next (ir_val (ig_resources g)).
End Borrowing.

(** ** Consuming iterators, when [Clone] may panic *)
Section Consuming.
  Context {R : Type}.
  Open Scope act_scope.

  (** triple.rs 130-137 [cloned]: three calls of [R::clone]. *)
  Definition m_cloned_triple {St} (t : triple R) : act St (triple R) :=
    s <- called (t_s t) ;; p <- called (t_p t) ;; o <- called (t_o t) ;; ret (Triple s p o).

  (** bd 350-354, id 680-684, bg 324-328, ig 497-501 [IntoTriples::next]: the index
      is taken from the tree, then the element from the slab, and only then are its
      resources read and cloned. *)
  Definition m_into_next {Rs X Y : Type} (read : Rs -> X -> option Y)
      (cloned : Y -> act (Rs * slab X * list nat) Y) : act (Rs * slab X * list nat) (option Y) :=
    '(rs, xs, idx) <- get ;;
    match idx with
    | [] => ret None
    | i :: r =>
        _ <- put (rs, xs, r) ;;
        '(x, xs) <- need (sremove xs i) ;;
        _ <- put (rs, xs, r) ;;
        y <- need (read rs x) ;;
        y <- cloned y ;;
        ret (Some y)
    end.

  (** bd 370-376, bg 344-350, id 700-706, ig 517-523 [into_iter]. *)
  Definition bd_consume (d : @bdataset R) := (bd_resources d, bd_quads d, bd_qi d).
  Definition bg_consume (g : @bgraph R) := (bg_resources g, bg_triples g, bg_ti g).
  Definition id_consume (d : @idataset R) := (id_resources d, id_quads d, id_qi d).
  Definition ig_consume (g : @igraph R) := (ig_resources g, ig_triples g, ig_ti g).
  Definition m_bd_into_next : act _ (option (quad R)) := m_into_next b_quad_with_resources m_cloned.
  Definition m_bg_into_next : act _ (option (triple R)) :=
    m_into_next b_triple_with_resources m_cloned_triple.
  Definition m_id_into_next : act _ (option (quad R)) := m_into_next i_quad_with_resources m_cloned.
  Definition m_ig_into_next : act _ (option (triple R)) :=
    m_into_next i_triple_with_resources m_cloned_triple.
End Consuming.

(** ** Setters, when [Clone] may panic *)

(** The setters run inside [replace_with_or_abort_and_return], which takes the
    pattern out of its place and ends the process if the code inside panics (crate
    [replace_with]).  What is written: the value and the new pattern, what was
    cloned, and how many clones may still be made before one panics; or the end of
    the process. *)
Inductive setting (A : Type) := Written (x : A) | Aborted.
Arguments Written {A} _.
Arguments Aborted {A}.
Definition set_act (T A : Type) : Type := list T * nat -> setting (A * (list T * nat)).

Section Setters.
  Context {T : Type}.

  Definition done {A} (x : A) : set_act T A := fun s => Written (x, s).
  Definition clone {A} (t : T) (k : T -> set_act T A) : set_act T A :=
    fun '(log, n) => match n with 0 => Aborted | S n => k t (log ++ [t], n) end.
  Definition inside {A B} (a : set_act T A) (k : A -> set_act T B) : set_act T B :=
    fun s => match a s with Written (x, s) => k x s | Aborted => Aborted end.

  (** ct 111-255 [set_subject].  The arms that move everything are those of
      [ct_set_subject]. *)
  Definition m_set_subject (s : T) (c : ctp T) : set_act T (pat_s T * ctp T) :=
    match c with
    | CT_AnyS (TA_AnyP TAA_SameS) =>
        clone s (fun s' => done (PS_Any, CT_GivenS s' (TG_AnyP (TGA_Given s))))
    | CT_AnyS (TA_SameS TAG_Any) =>
        clone s (fun s' => done (PS_Any, CT_GivenS s' (TG_GivenP s TGG_Any)))
    | CT_AnyS (TA_SameS TAG_SameS) =>
        clone s (fun s' => clone s (fun s'' =>
          done (PS_Any, CT_GivenS s' (TG_GivenP s'' (TGG_Given s)))))
    | CT_AnyS (TA_SameS (TAG_Given o)) =>
        clone s (fun s' => done (PS_Any, CT_GivenS s' (TG_GivenP s (TGG_Given o))))
    | CT_AnyS (TA_GivenP p TAG_SameS) =>
        clone s (fun s' => done (PS_Any, CT_GivenS s' (TG_GivenP p (TGG_Given s))))
    | c => done (ct_set_subject s c)
    end.

  (** ct 560-598 [AnySubject::set_predicate], 829-851 [GivenSubject::set_predicate]. *)
  Definition m_tas_set_predicate (p : T) (c : t_as T) : set_act T (pat_p T * t_as T) :=
    match c with
    | TA_AnyP TAA_SameP => clone p (fun p' => done (PP_Any, TA_GivenP p' (TAG_Given p)))
    | TA_SameS TAG_SameS => clone p (fun p' => done (PP_SameS, TA_GivenP p' (TAG_Given p)))
    | c => done (tas_set_predicate p c)
    end.
  Definition m_tgs_set_predicate (p : T) (c : t_gs T) : set_act T (pat_p T * t_gs T) :=
    match c with
    | TG_AnyP TGA_SameP => clone p (fun p' => done (PP_Any, TG_GivenP p' (TGG_Given p)))
    | c => done (tgs_set_predicate p c)
    end.
  (** ct 265-307 [set_predicate]. *)
  Definition m_set_predicate (p : T) (c : ctp T) : set_act T (pat_p T * ctp T) :=
    match c with
    | CT_AnyS (TA_SameS TAG_Any) =>
        clone p (fun p' => done (PP_SameS, CT_GivenS p' (TG_GivenP p TGG_Any)))
    | CT_AnyS (TA_SameS TAG_SameS) =>
        clone p (fun p' => clone p (fun p'' =>
          done (PP_SameS, CT_GivenS p' (TG_GivenP p'' (TGG_Given p)))))
    | CT_AnyS (TA_SameS (TAG_Given o)) =>
        clone p (fun p' => done (PP_SameS, CT_GivenS p' (TG_GivenP p (TGG_Given o))))
    | CT_AnyS cur =>
        inside (m_tas_set_predicate p cur) (fun '(old, cur) => done (old, CT_AnyS cur))
    | CT_GivenS s cur =>
        inside (m_tgs_set_predicate p cur) (fun '(old, cur) => done (old, CT_GivenS s cur))
    end.

  (** ct 600-626 [AnySubject::set_object], 853-871 [GivenSubject::set_object]. *)
  Definition m_tas_set_object (o : T) (c : t_as T) : set_act T (pat_o T * t_as T) :=
    match c with
    | TA_AnyP TAA_SameP => clone o (fun o' => done (PO_Any, TA_GivenP o' (TAG_Given o)))
    | TA_SameS TAG_SameS => clone o (fun o' => done (PO_SameS, TA_GivenP o' (TAG_Given o)))
    | c => done (tas_set_object o c)
    end.
  Definition m_tgs_set_object (o : T) (c : t_gs T) : set_act T (pat_o T * t_gs T) :=
    match c with
    | TG_AnyP TGA_SameP => clone o (fun o' => done (PO_Any, TG_GivenP o' (TGG_Given o)))
    | c => done (tgs_set_object o c)
    end.
  (** ct 317-350 [set_object]. *)
  Definition m_set_object (o : T) (c : ctp T) : set_act T (pat_o T * ctp T) :=
    match c with
    | CT_AnyS (TA_AnyP TAA_SameS) =>
        clone o (fun o' => done (PO_SameS, CT_GivenS o' (TG_AnyP (TGA_Given o))))
    | CT_AnyS (TA_SameS TAG_SameS) =>
        clone o (fun o' => clone o (fun o'' =>
          done (PO_SameS, CT_GivenS o' (TG_GivenP o'' (TGG_Given o)))))
    | CT_AnyS cur =>
        inside (m_tas_set_object o cur) (fun '(old, cur) => done (old, CT_AnyS cur))
    | CT_GivenS s cur =>
        inside (m_tgs_set_object o cur) (fun '(old, cur) => done (old, CT_GivenS s cur))
    end.
End Setters.
