(** [Debug] ([{:?}] and [{:#?}]) of terms, statements, patterns and containers.  Most of
    these implementations are derived: they hand the names and the fields of the
    declaration to the builders of [core::fmt], which are modelled first.

    Simplifications: of the specification of a [fmt::Formatter] only the flag [#]
    (alternate) is kept, the others do not count for strings and for the builders;
    references and copy-on-write values are the values ([Debug] of [&T], [Cow<T>]);
    the components of a statement have one type.  Not modelled: [Debug] of
    [TriplePatternMap] and of what it is made of (hash maps, whose order is not
    specified).  The error types are in ErrorModel.v. *)
From Coq Require Import List Arith NArith Bool Ascii String.
Import ListNotations.
From Verif Require Import Base TextModel TripleModel DisplayModel TermModel BTreeDatasetModel
  BTreeGraphModel IndexedDatasetModel IndexedGraphModel TriplePatternModel QuadPatternModel WriteModel.
Local Open Scope N_scope.

(** ** core::fmt *)

(** A value with its [Debug]: given a writer ([fmt::Write::write_str]) and the flag
    [#], what is done with the writer and the [fmt::Result]. *)
Definition dval : Type := forall W, (W -> text -> W * bool) -> bool -> W -> W * bool.

(** [str::split_inclusive('\n')] *)
Fixpoint split_lines (s : text) : list text :=
  match s with
  | [] => []
  | c :: r =>
      if c =? 10 then [c] :: split_lines r
      else match split_lines r with [] => [[c]] | l :: ls => (c :: l) :: ls end
  end.
(** [s.ends_with('\n')] *)
Definition ends_line (s : text) : bool :=
  match rev s with c :: _ => c =? 10 | [] => false end.

(** [PadAdapter] (core/src/fmt/builders.rs), a writer: another writer and the flag
    [on_newline].  Four spaces are written at the beginning of every line. *)
Section Pad.
  Context {W : Type} (write_str : W -> text -> W * bool).
  Fixpoint pad_lines (ls : list text) (w : W * bool) : (W * bool) * bool :=
    match ls with
    | [] => (w, true)
    | l :: ls =>
        let '(u, nl) := w in
        let (u, ok) := if nl then write_str u (chars "    ") else (u, true) in
        if ok
        then let (v, ok) := write_str u l in
             if ok then pad_lines ls (v, ends_line l) else ((v, ends_line l), false)
        else ((u, nl), false)
    end.
  Definition pad_write (w : W * bool) (s : text) : (W * bool) * bool := pad_lines (split_lines s) w.
  (** [PadAdapter::wrap], used by [body] and dropped. *)
  Definition padded (body : W * bool -> (W * bool) * bool) : wfmt (W := W) :=
    fun w => let (w, ok) := body (w, true) in (fst w, ok).
End Pad.

(** The builders keep the first error ([self.result.and_then(..)]) and do nothing
    after it. *)
Definition d_str (s : text) : dval := fun W wr alt => w_str wr s.

(** [DebugTuple::field]; [first] is [self.fields == 0]. *)
Definition d_tuple_field (first : bool) (v : dval) : dval := fun W wr alt =>
  if alt
  then w_try (if first then w_str wr (chars "(" ++ [10]) else w_ok)
         (padded (w_try (v _ (pad_write wr) alt) (w_str (pad_write wr) (chars "," ++ [10]))))
  else w_try (w_str wr (if first then chars "(" else chars ", ")) (v W wr alt).
(** [DebugTuple::finish] is last, a no-op without fields. *)
Fixpoint d_tuple_fields (first : bool) (vs : list dval) : dval := fun W wr alt =>
  match vs with
  | [] => if first then w_ok else w_str wr (chars ")")
  | v :: vs => w_try (d_tuple_field first v W wr alt) (d_tuple_fields false vs W wr alt)
  end.
(** [Formatter::debug_tuple(name)], [field(v)] for each [v], [finish()]: what is derived
    for a tuple structure or a tuple variant (whose name is not empty).  Without
    fields, [f.write_str(name)]. *)
Definition d_tuple (name : text) (vs : list dval) : dval := fun W wr alt =>
  w_try (w_str wr name) (d_tuple_fields true vs W wr alt).

(** [DebugStruct::field]; [first] is [!self.has_fields]. *)
Definition d_struct_field (first : bool) (f : text * dval) : dval := fun W wr alt =>
  if alt
  then w_try (if first then w_str wr (chars " {" ++ [10]) else w_ok)
         (padded (w_try (w_str (pad_write wr) (fst f)) (w_try (w_str (pad_write wr) (chars ": "))
            (w_try (snd f _ (pad_write wr) alt) (w_str (pad_write wr) (chars "," ++ [10]))))))
  else w_try (w_str wr (if first then chars " { " else chars ", "))
         (w_try (w_str wr (fst f)) (w_try (w_str wr (chars ": ")) (snd f W wr alt))).
(** [DebugStruct::finish] is last. *)
Fixpoint d_struct_fields (first : bool) (fs : list (text * dval)) : dval := fun W wr alt =>
  match fs with
  | [] => if first then w_ok else w_str wr (if alt then chars "}" else chars " }")
  | f :: fs => w_try (d_struct_field first f W wr alt) (d_struct_fields false fs W wr alt)
  end.
(** [Formatter::debug_struct(name)], [field(..)], .., [finish()]. *)
Definition d_struct (name : text) (fs : list (text * dval)) : dval := fun W wr alt =>
  w_try (w_str wr name) (d_struct_fields true fs W wr alt).

(** [DebugSet::entry]; [first] is [!self.has_fields]. *)
Definition d_set_entry (first : bool) (v : dval) : dval := fun W wr alt =>
  if alt
  then w_try (if first then w_str wr [10] else w_ok)
         (padded (w_try (v _ (pad_write wr) alt) (w_str (pad_write wr) (chars "," ++ [10]))))
  else w_try (if first then w_ok else w_str wr (chars ", ")) (v W wr alt).
Fixpoint d_set_entries (first : bool) (vs : list dval) : dval := fun W wr alt =>
  match vs with
  | [] => w_str wr (chars "}")
  | v :: vs => w_try (d_set_entry first v W wr alt) (d_set_entries false vs W wr alt)
  end.
(** [f.debug_set().entries(l).finish()] *)
Definition d_set (vs : list dval) : dval := fun W wr alt =>
  w_try (w_str wr (chars "{")) (d_set_entries true vs W wr alt).

(** std [Option] (derived). *)
Definition d_option {A} (d : A -> dval) (x : option A) : dval :=
  match x with None => d_str (chars "None") | Some a => d_tuple (chars "Some") [d a] end.

(** [{:x}] of an unsigned integer, as [dec] in TextModel.v. *)
Fixpoint hex_loop (fuel : nat) (n : N) (acc : text) : text :=
  let acc := hex_digit (n mod 16) :: acc in
  if n / 16 =? 0 then acc
  else match fuel with
       | O => acc
       | S fuel => hex_loop fuel (n / 16) acc
       end.
Definition hex (n : N) : text := hex_loop (N.to_nat (N.size n)) n [].

(** ** Terms *)
Section Terms.
  (** A table of Unicode: the characters above 127 that [Debug] of [str] writes as
      a number ([is_grapheme_extended], or not [is_printable]). *)
  Context (special : char -> bool).

  (** [char::escape_debug_ext], double quotes escaped, single quotes not. *)
  Definition escape_debug (c : char) : text :=
    if c =? 0 then chars "\0"
    else if c =? 9 then chars "\t"
    else if c =? 13 then chars "\r"
    else if c =? 10 then chars "\n"
    else if c =? 92 then chars "\\"
    else if c =? 34 then chars "\" ++ [34]
    else if (c <? 32) || (c =? 127) || ((127 <? c) && special c)
    then chars "\u{" ++ hex c ++ chars "}"
    else [c].
  (** The loop of [Debug] of [str] (core/src/fmt/mod.rs): [run] are the characters
      before [s] that are not written yet. *)
  Fixpoint d_chars (run s : text) : dval := fun W wr alt =>
    match s with
    | [] => w_str wr run
    | c :: s =>
        if (List.length (escape_debug c) =? 1)%nat then d_chars (run ++ [c]) s W wr alt
        else w_try (w_str wr run) (w_try (w_str wr (escape_debug c)) (d_chars [] s W wr alt))
    end.
  Definition d_text (s : text) : dval := fun W wr alt =>
    w_try (w_str wr [34]) (w_try (d_chars [] s W wr alt) (w_str wr [34])).
  (** /repo/src/blankid.rs 104-109, 271-276 ([BlankId], [BlankIdBuf]): the trait in
      scope for [self.0.fmt(f)] is [Debug]. *)
  Definition d_blank (b : text) : dval := d_text b.

  (** [Debug] of IRIs and language tags (crates iref and langtag). *)
  Context (d_iri d_tag : text -> dval).

  (** /repo/src/literal/type/mod.rs 15-23 *)
  Definition d_ltype (t : ltype) : dval :=
    match t with
    | LAny i => d_tuple (chars "Any") [d_iri i]
    | LLang l => d_tuple (chars "LangString") [d_tag l]
    end.
  (** /repo/src/literal/type/ref.rs 13-22 *)
  Definition d_ltype_ref (t : ltype_ref) : dval :=
    match t with
    | RAny i => d_tuple (chars "Any") [d_iri i]
    | RLang l => d_tuple (chars "LangString") [d_tag l]
    end.
  (** /repo/src/literal/type/cow.rs 10-19 *)
  Definition d_ltype_cow (t : ltype_cow) : dval :=
    match t with
    | CAny i => d_tuple (chars "Any") [d_iri (cow_text i)]
    | CLang l => d_tuple (chars "LangString") [d_tag (cow_text l)]
    end.
  (** /repo/src/literal/mod.rs 16-24 *)
  Definition d_literal (l : literal) : dval :=
    d_struct (chars "Literal")
      [(chars "value", d_text (l_value l)); (chars "type_", d_ltype (l_type l))].
  (** /repo/src/literal/ref.rs 12-21 *)
  Definition d_literal_ref (l : literal_ref) : dval :=
    d_struct (chars "LiteralRef")
      [(chars "value", d_text (lr_value l)); (chars "type_", d_ltype_ref (lr_type l))].
  (** /repo/src/literal/cow.rs 8-17 *)
  Definition d_literal_cow (l : literal_cow) : dval :=
    d_struct (chars "CowLiteral")
      [(chars "value", d_text (cow_text (lc_value l))); (chars "type_", d_ltype_cow (lc_type l))].
  (** /repo/src/term/mod.rs 19-28 *)
  Definition d_term (t : term) : dval :=
    match t with
    | TIri i => d_tuple (chars "Iri") [d_iri i]
    | TLit l => d_tuple (chars "Literal") [d_literal l]
    end.
  (** /repo/src/term/ref.rs 9-14 *)
  Definition d_term_ref (t : term_ref) : dval :=
    match t with
    | RIri i => d_tuple (chars "Iri") [d_iri i]
    | RLit l => d_tuple (chars "Literal") [d_literal_ref l]
    end.
  (** /repo/src/term/local/mod.rs 16-22 *)
  Definition d_local (t : local_term) : dval :=
    match t with
    | Anonymous b => d_tuple (chars "Anonymous") [d_blank b]
    | Named t => d_tuple (chars "Named") [d_term t]
    end.
  (** /repo/src/term/local/ref.rs 7-12 *)
  Definition d_local_ref (t : local_ref) : dval :=
    match t with
    | RAnonymous b => d_tuple (chars "Anonymous") [d_blank b]
    | RNamed t => d_tuple (chars "Named") [d_term_ref t]
    end.
  (** /repo/src/id/ref.rs 7-11 *)
  Definition d_id_ref (i : id_ref) : dval :=
    match i with
    | RIBlank b => d_tuple (chars "BlankId") [d_blank b]
    | RIIri i => d_tuple (chars "Iri") [d_iri i]
    end.
End Terms.

(** ** Statements and containers *)
Section Statements.
  (** [Debug] of a component. *)
  Context {R : Type} (dr : R -> dval).

  (** /repo/src/triple.rs 12-14 *)
  Definition d_triple (t : triple R) : dval :=
    d_tuple (chars "Triple") [dr (t_s t); dr (t_p t); dr (t_o t)].
  (** /repo/src/quad.rs 14-16 *)
  Definition d_quad (q : quad R) : dval :=
    d_tuple (chars "Quad") [dr (q_s q); dr (q_p q); dr (q_o q); d_option dr (q_g q)].

  (** The containers.  As in WriteModel.v, the elements are found before anything is
      written; [None] is a panic. *)
  (** /repo/src/dataset/impl/btree_dataset.rs 440-444 *)
  Definition d_bd (d : @bdataset R) : option dval :=
    bind (bd_iter d) (fun l => Some (d_set (map d_quad l))).
  (** /repo/src/dataset/impl/indexed_btree_dataset.rs 1401-1405 *)
  Definition d_id (d : @idataset R) : option dval :=
    bind (id_iter d) (fun l => Some (d_set (map d_quad l))).
  (** /repo/src/dataset/graph/impl/btree_graph.rs 414-418 *)
  Definition d_bg (g : @bgraph R) : option dval :=
    bind (bg_iter g) (fun l => Some (d_set (map d_triple l))).
  (** /repo/src/dataset/graph/impl/indexed_btree_graph.rs 820-824 *)
  Definition d_ig (g : @igraph R) : option dval :=
    bind (ig_iter g) (fun l => Some (d_set (map d_triple l))).
End Statements.

(** ** Patterns *)

(** /repo/src/pattern/resource_or_variable.rs 2-7 *)
Definition d_rv {T X} (dt : T -> dval) (dx : X -> dval) (r : res_or_var T X) : dval :=
  match r with
  | Res t => d_tuple (chars "Resource") [dt t]
  | Var x => d_tuple (chars "Var") [dx x]
  end.
Section Patterns.
  Context {T : Type} (dt : T -> dval).

  (** /repo/src/pattern/triple/canonical.rs 361-365, /repo/src/pattern/quad/canonical.rs 247-251 ([PatternSubject]). *)
  Definition d_pat_s (x : pat_s T) : dval :=
    match x with
    | PS_Any => d_str (chars "Any")
    | PS_Given a0 => d_tuple (chars "Given") [dt a0]
    end.
  (** /repo/src/pattern/triple/canonical.rs 395-400, /repo/src/pattern/quad/canonical.rs 281-286 ([PatternPredicate]). *)
  Definition d_pat_p (x : pat_p T) : dval :=
    match x with
    | PP_Any => d_str (chars "Any")
    | PP_SameS => d_str (chars "SameAsSubject")
    | PP_Given a0 => d_tuple (chars "Given") [dt a0]
    end.
  (** /repo/src/pattern/triple/canonical.rs 433-439, /repo/src/pattern/quad/canonical.rs 319-325 ([PatternObject]). *)
  Definition d_pat_o (x : pat_o T) : dval :=
    match x with
    | PO_Any => d_str (chars "Any")
    | PO_SameS => d_str (chars "SameAsSubject")
    | PO_SameP => d_str (chars "SameAsPredicate")
    | PO_Given a0 => d_tuple (chars "Given") [dt a0]
    end.
  (** /repo/src/pattern/quad/canonical.rs 1231-1238 ([PatternGraph]). *)
  Definition d_pat_g (x : pat_g T) : dval :=
    match x with
    | PG_Any => d_str (chars "Any")
    | PG_SameS => d_str (chars "SameAsSubject")
    | PG_SameP => d_str (chars "SameAsPredicate")
    | PG_SameO => d_str (chars "SameAsObject")
    | PG_Given a0 => d_tuple (chars "Given") [d_option dt a0]
    end.
  (** /repo/src/pattern/triple/canonical.rs 629-635 ([AnySubjectAnyPredicate]). *)
  Definition d_t_aa (x : t_aa T) : dval :=
    match x with
    | TAA_Any => d_str (chars "AnyObject")
    | TAA_SameS => d_str (chars "SameAsSubject")
    | TAA_SameP => d_str (chars "SameAsPredicate")
    | TAA_Given a0 => d_tuple (chars "GivenObject") [dt a0]
    end.
  (** /repo/src/pattern/triple/canonical.rs 701-706 ([AnySubjectGivenPredicate]). *)
  Definition d_t_ag (x : t_ag T) : dval :=
    match x with
    | TAG_Any => d_str (chars "AnyObject")
    | TAG_SameS => d_str (chars "SameAsSubject")
    | TAG_Given a0 => d_tuple (chars "GivenObject") [dt a0]
    end.
  (** /repo/src/pattern/triple/canonical.rs 874-879 ([GivenSubjectAnyPredicate]). *)
  Definition d_t_ga (x : t_ga T) : dval :=
    match x with
    | TGA_Any => d_str (chars "AnyObject")
    | TGA_SameP => d_str (chars "SameAsPredicate")
    | TGA_Given a0 => d_tuple (chars "GivenObject") [dt a0]
    end.
  (** /repo/src/pattern/triple/canonical.rs 945-949 ([GivenSubjectGivenPredicate]). *)
  Definition d_t_gg (x : t_gg T) : dval :=
    match x with
    | TGG_Any => d_str (chars "AnyObject")
    | TGG_Given a0 => d_tuple (chars "GivenObject") [dt a0]
    end.
  (** /repo/src/pattern/triple/canonical.rs 482-487 ([AnySubject]). *)
  Definition d_t_as (x : t_as T) : dval :=
    match x with
    | TA_AnyP a0 => d_tuple (chars "AnyPredicate") [d_t_aa a0]
    | TA_SameS a0 => d_tuple (chars "SameAsSubject") [d_t_ag a0]
    | TA_GivenP a0 a1 => d_tuple (chars "GivenPredicate") [dt a0; d_t_ag a1]
    end.
  (** /repo/src/pattern/triple/canonical.rs 765-769 ([GivenSubject]). *)
  Definition d_t_gs (x : t_gs T) : dval :=
    match x with
    | TG_AnyP a0 => d_tuple (chars "AnyPredicate") [d_t_ga a0]
    | TG_GivenP a0 a1 => d_tuple (chars "GivenPredicate") [dt a0; d_t_gg a1]
    end.
  (** /repo/src/pattern/triple/canonical.rs 9-13 ([CanonicalTriplePattern]). *)
  Definition d_ctp (x : ctp T) : dval :=
    match x with
    | CT_AnyS a0 => d_tuple (chars "AnySubject") [d_t_as a0]
    | CT_GivenS a0 a1 => d_tuple (chars "GivenSubject") [dt a0; d_t_gs a1]
    end.
  (** /repo/src/pattern/quad/canonical.rs 1240-1247 ([AnySubjectAnyPredicateAnyObject]). *)
  Definition d_q_aaa (x : q_aaa T) : dval :=
    match x with
    | QAAA_Any => d_str (chars "AnyGraph")
    | QAAA_SameS => d_str (chars "SameAsSubject")
    | QAAA_SameP => d_str (chars "SameAsPredicate")
    | QAAA_SameO => d_str (chars "SameAsObject")
    | QAAA_Given a0 => d_tuple (chars "GivenGraph") [d_option dt a0]
    end.
  (** /repo/src/pattern/quad/canonical.rs 1356-1362 ([GivenSubjectAnyPredicateAnyObject]). *)
  Definition d_q_gaa (x : q_gaa T) : dval :=
    match x with
    | QGAA_Any => d_str (chars "AnyGraph")
    | QGAA_SameP => d_str (chars "SameAsPredicate")
    | QGAA_SameO => d_str (chars "SameAsObject")
    | QGAA_Given a0 => d_tuple (chars "GivenGraph") [d_option dt a0]
    end.
  (** /repo/src/pattern/quad/canonical.rs 1461-1467 ([AnySubjectGivenPredicateAnyObject]). *)
  Definition d_q_aga (x : q_aga T) : dval :=
    match x with
    | QAGA_Any => d_str (chars "AnyGraph")
    | QAGA_SameS => d_str (chars "SameAsSubject")
    | QAGA_SameO => d_str (chars "SameAsObject")
    | QAGA_Given a0 => d_tuple (chars "GivenGraph") [d_option dt a0]
    end.
  (** /repo/src/pattern/quad/canonical.rs 1566-1572 ([AnySubjectAnyPredicateGivenObject]). *)
  Definition d_q_aag (x : q_aag T) : dval :=
    match x with
    | QAAG_Any => d_str (chars "AnyGraph")
    | QAAG_SameS => d_str (chars "SameAsSubject")
    | QAAG_SameP => d_str (chars "SameAsPredicate")
    | QAAG_Given a0 => d_tuple (chars "GivenGraph") [d_option dt a0]
    end.
  (** /repo/src/pattern/quad/canonical.rs 1671-1676 ([AnySubjectGivenPredicateGivenObject]). *)
  Definition d_q_agg (x : q_agg T) : dval :=
    match x with
    | QAGG_Any => d_str (chars "AnyGraph")
    | QAGG_SameS => d_str (chars "SameAsSubject")
    | QAGG_Given a0 => d_tuple (chars "GivenGraph") [d_option dt a0]
    end.
  (** /repo/src/pattern/quad/canonical.rs 1765-1770 ([GivenSubjectAnyPredicateGivenObject]). *)
  Definition d_q_gag (x : q_gag T) : dval :=
    match x with
    | QGAG_Any => d_str (chars "AnyGraph")
    | QGAG_SameP => d_str (chars "SameAsPredicate")
    | QGAG_Given a0 => d_tuple (chars "GivenGraph") [d_option dt a0]
    end.
  (** /repo/src/pattern/quad/canonical.rs 1859-1864 ([GivenSubjectGivenPredicateAnyObject]). *)
  Definition d_q_gga (x : q_gga T) : dval :=
    match x with
    | QGGA_Any => d_str (chars "AnyGraph")
    | QGGA_SameO => d_str (chars "SameAsObject")
    | QGGA_Given a0 => d_tuple (chars "GivenGraph") [d_option dt a0]
    end.
  (** /repo/src/pattern/quad/canonical.rs 1953-1957 ([GivenSubjectGivenPredicateGivenObject]). *)
  Definition d_q_ggg (x : q_ggg T) : dval :=
    match x with
    | QGGG_Any => d_str (chars "AnyGraph")
    | QGGG_Given a0 => d_tuple (chars "GivenGraph") [d_option dt a0]
    end.
  (** /repo/src/pattern/quad/canonical.rs 529-535 ([AnySubjectAnyPredicate]). *)
  Definition d_q_aa (x : q_aa T) : dval :=
    match x with
    | QAA_Any a0 => d_tuple (chars "AnyObject") [d_q_aaa a0]
    | QAA_SameS a0 => d_tuple (chars "SameAsSubject") [d_q_aag a0]
    | QAA_SameP a0 => d_tuple (chars "SameAsPredicate") [d_q_aag a0]
    | QAA_Given a0 a1 => d_tuple (chars "GivenObject") [dt a0; d_q_aag a1]
    end.
  (** /repo/src/pattern/quad/canonical.rs 694-699 ([AnySubjectGivenPredicate]). *)
  Definition d_q_ag (x : q_ag T) : dval :=
    match x with
    | QAG_Any a0 => d_tuple (chars "AnyObject") [d_q_aga a0]
    | QAG_SameS a0 => d_tuple (chars "SameAsSubject") [d_q_agg a0]
    | QAG_Given a0 a1 => d_tuple (chars "GivenObject") [dt a0; d_q_agg a1]
    end.
  (** /repo/src/pattern/quad/canonical.rs 969-974 ([GivenSubjectAnyPredicate]). *)
  Definition d_q_ga (x : q_ga T) : dval :=
    match x with
    | QGA_Any a0 => d_tuple (chars "AnyObject") [d_q_gaa a0]
    | QGA_SameP a0 => d_tuple (chars "SameAsPredicate") [d_q_gag a0]
    | QGA_Given a0 a1 => d_tuple (chars "GivenObject") [dt a0; d_q_gag a1]
    end.
  (** /repo/src/pattern/quad/canonical.rs 1112-1116 ([GivenSubjectGivenPredicate]). *)
  Definition d_q_gg (x : q_gg T) : dval :=
    match x with
    | QGG_Any a0 => d_tuple (chars "AnyObject") [d_q_gga a0]
    | QGG_Given a0 a1 => d_tuple (chars "GivenObject") [dt a0; d_q_ggg a1]
    end.
  (** /repo/src/pattern/quad/canonical.rs 368-373 ([AnySubject]). *)
  Definition d_q_as (x : q_as T) : dval :=
    match x with
    | QA_AnyP a0 => d_tuple (chars "AnyPredicate") [d_q_aa a0]
    | QA_SameS a0 => d_tuple (chars "SameAsSubject") [d_q_ag a0]
    | QA_GivenP a0 a1 => d_tuple (chars "GivenPredicate") [dt a0; d_q_ag a1]
    end.
  (** /repo/src/pattern/quad/canonical.rs 837-841 ([GivenSubject]). *)
  Definition d_q_gs (x : q_gs T) : dval :=
    match x with
    | QG_AnyP a0 => d_tuple (chars "AnyPredicate") [d_q_ga a0]
    | QG_GivenP a0 a1 => d_tuple (chars "GivenPredicate") [dt a0; d_q_gg a1]
    end.
  (** /repo/src/pattern/quad/canonical.rs 10-14 ([CanonicalQuadPattern]). *)
  Definition d_cqp (x : cqp T) : dval :=
    match x with
    | CQ_AnyS a0 => d_tuple (chars "AnySubject") [d_q_as a0]
    | CQ_GivenS a0 a1 => d_tuple (chars "GivenSubject") [dt a0; d_q_gs a1]
    end.
End Patterns.
