(** The text of RDF values as it is written: DisplayModel.v says which text, this
    file by which calls of the writer, each of which may fail, and what is done
    then.  [None] is a panic.

    Simplifications: [write_char(c)] is [write_str] of the one character (its
    default); a [fmt::Formatter] is its writer and its specification (DisplayModel.v);
    [Arguments] are written piece by piece, as [core::fmt::write] does, and empty
    pieces are not written. *)
From Coq Require Import List NArith Bool Ascii String.
Import ListNotations.
From Verif Require Import Base TextModel TripleModel DisplayModel BTreeDatasetModel BTreeGraphModel
  IndexedDatasetModel IndexedGraphModel.
Local Open Scope N_scope.

Section Writer.
  (** The writer: [fmt::Write::write_str], [true] is [Ok(())]. *)
  Context {W : Type} (write_str : W -> text -> W * bool).

  (** What is done with a [&mut fmt::Formatter], up to the [fmt::Result]. *)
  Definition wfmt : Type := W -> W * bool.
  (** [Ok(())] *)
  Definition w_ok : wfmt := fun w => (w, true).
  (** [f.write_str(s)] *)
  Definition w_str (s : text) : wfmt := fun w => write_str w s.
  (** [a?; b] *)
  Definition w_try (a b : wfmt) : wfmt :=
    fun w => let (w, ok) := a w in if ok then b w else (w, false).
  (** [for x in l { body(x)? } Ok(())] *)
  Fixpoint w_each {A} (body : A -> wfmt) (l : list A) : wfmt :=
    match l with [] => w_ok | x :: l => w_try (body x) (w_each body l) end.

  (** [Formatter::pad]: the padding is written character by character, after the
      text (default fill and alignment). *)
  Definition w_pad (f : fspec) (s : text) : wfmt :=
    match f_width f, f_prec f with
    | O, None => w_str s
    | w, p =>
        let s := match p with Some p => firstn p s | None => s end in
        w_try (w_str s) (w_each (fun _ : unit => w_str [32]) (repeat tt (w - List.length s)))
    end.
  (** [Display] of [char]. *)
  Definition w_char (f : fspec) (c : char) : wfmt := w_pad f [c].

  (** /repo/src/display.rs 22-30 *)
  Definition w_str_char (f : fspec) (c : char) : wfmt :=
    if c =? 34 then w_str (chars "\" ++ [34])
    else if c =? 92 then w_str (chars "\\")
    else if c =? 10 then w_str (chars "\n")
    else if c =? 13 then w_str (chars "\r")
    else w_char f c.
  (** /repo/src/display.rs 17-34, 36-40 *)
  Definition w_str_rdf (f : fspec) (s : text) : wfmt :=
    w_try (w_str [34]) (w_try (w_each (w_str_char f) s) (w_str [34])).

  (** [{:#04x}] ([Formatter::pad_integral]): prefix, zeros, digits. *)
  Definition w_hex04 (n : N) : wfmt :=
    w_try (w_str (chars "0x"))
      (if n <? 16 then w_try (w_str (chars "0")) (w_str [hex_digit n])
       else w_str [hex_digit (n / 16); hex_digit (n mod 16)]).
  (** /repo/src/display.rs 46-54 *)
  Definition w_iri_char (f : fspec) (c : char) : wfmt :=
    if iri_escaped c then w_try (w_str (chars "\u")) (w_hex04 c) else w_char f c.
  (** /repo/src/display.rs 42-58 (60-65, 74-79, 88-93) *)
  Definition w_iri_rdf (f : fspec) (s : text) : wfmt :=
    w_try (w_str (chars "<")) (w_try (w_each (w_iri_char f) s) (w_str (chars ">"))).
  (** /repo/src/display.rs 102-107 (116-121) *)
  Definition w_tag_rdf (f : fspec) (s : text) : wfmt := w_pad f s.

  Section Terms.
    (** [==] of two IRIs. *)
    Context (iri_eqb : text -> text -> bool).

    (** /repo/src/literal/type/mod.rs 70-83, /repo/src/literal/type/ref.rs 99-112 *)
    Definition w_ltype_rdf (f : fspec) (ty : ltype) : wfmt :=
      match ty with
      | LAny i => w_try (w_str (chars "^^")) (w_iri_rdf f i)
      | LLang tag => w_try (w_str (chars "@")) (w_tag_rdf f tag)
      end.
    (** /repo/src/literal/mod.rs 103-123, /repo/src/literal/ref.rs 134-154 *)
    Definition w_literal_rdf (f : fspec) (l : literal) : wfmt :=
      w_try (w_str_rdf f (l_value l))
        (if is_xsd_string iri_eqb (l_type l) then w_ok else w_ltype_rdf f (l_type l)).
    (** /repo/src/term/mod.rs 118-125 *)
    Definition w_term_rdf (f : fspec) (t : term) : wfmt :=
      match t with TIri i => w_iri_rdf f i | TLit l => w_literal_rdf f l end.
    (** /repo/src/term/mod.rs 109-116 *)
    Definition w_term (f : fspec) (t : term) : wfmt :=
      match t with TIri i => w_pad f i | TLit l => w_literal_rdf f l end.
    (** /repo/src/term/local/mod.rs 130-137 *)
    Definition w_local_rdf (f : fspec) (t : local_term) : wfmt :=
      match t with Anonymous b => w_str_rdf f b | Named t => w_term_rdf f t end.
    (** /repo/src/term/local/mod.rs 121-128; /repo/src/blankid.rs 97-102, 264-269
        ([Display] of [BlankId] and [BlankIdBuf]) *)
    Definition w_local (f : fspec) (t : local_term) : wfmt :=
      match t with Anonymous b => w_pad f b | Named t => w_term f t end.
  End Terms.

  (** With a context of type [C]: /repo/src/display.rs 67-72, 81-86, 95-100. *)
  Definition w_iri_with {C} (context : C) (f : fspec) (s : text) : wfmt := w_iri_rdf f s.
  (** /repo/src/display.rs 109-114, 123-128 *)
  Definition w_tag_with {C} (context : C) (f : fspec) (s : text) : wfmt := w_tag_rdf f s.
  (** /repo/src/display.rs 160-176 [RdfDisplay for Contextual<T, &C>], a pair of a
      value and a context; [fmt_with] is [rdf_fmt_with] of [T].  The references of
      130-135 and 152-158 are not distinguished from what they refer to. *)
  Definition w_contextual {T C} (fmt_with : C -> fspec -> T -> wfmt) (f : fspec) (v : T * C) : wfmt :=
    fmt_with (snd v) f (fst v).

  (** Statements and containers; [show] is [rdf_fmt] of the components. *)
  Section Statements.
    Context {R : Type} (show : fspec -> R -> wfmt).

    (** /repo/src/triple.rs 188-210 *)
    Definition w_triple_rdf (t : triple R) : wfmt :=
      w_try (show plain (t_s t)) (w_try (w_str (chars " "))
        (w_try (show plain (t_p t)) (w_try (w_str (chars " ")) (show plain (t_o t))))).
    (** /repo/src/quad.rs 316-358 *)
    Definition w_quad_rdf (q : quad R) : wfmt :=
      match q_g q with
      | Some g =>
          w_try (show plain (q_s q)) (w_try (w_str (chars " "))
            (w_try (show plain (q_p q)) (w_try (w_str (chars " "))
              (w_try (show plain (q_o q)) (w_try (w_str (chars " ")) (show plain g))))))
      | None =>
          w_try (show plain (q_s q)) (w_try (w_str (chars " "))
            (w_try (show plain (q_p q)) (w_try (w_str (chars " ")) (show plain (q_o q)))))
      end.
    (** [writeln!(f, "{} .", t.rdf_display())] *)
    Definition w_line {T} (rdf : T -> wfmt) (x : T) : wfmt :=
      w_try (rdf x) (w_str (chars " ." ++ [10])).

    (** The containers.  The elements are found before anything is written, in the
        code one after the other: a panic while iterating would come after the lines
        of the elements before it. *)
    (** /repo/src/dataset/impl/btree_dataset.rs 446-454 *)
    Definition w_bd_rdf (d : @bdataset R) : option wfmt :=
      bind (bd_iter d) (fun l => Some (w_each (w_line w_quad_rdf) l)).
    (** /repo/src/dataset/impl/indexed_btree_dataset.rs 1407-1415 *)
    Definition w_id_rdf (d : @idataset R) : option wfmt :=
      bind (id_iter d) (fun l => Some (w_each (w_line w_quad_rdf) l)).
    (** /repo/src/dataset/graph/impl/btree_graph.rs 420-428 *)
    Definition w_bg_rdf (g : @bgraph R) : option wfmt :=
      bind (bg_iter g) (fun l => Some (w_each (w_line w_triple_rdf) l)).
    (** /repo/src/dataset/graph/impl/indexed_btree_graph.rs 826-834 *)
    Definition w_ig_rdf (g : @igraph R) : option wfmt :=
      bind (ig_iter g) (fun l => Some (w_each (w_line w_triple_rdf) l)).
  End Statements.
End Writer.
