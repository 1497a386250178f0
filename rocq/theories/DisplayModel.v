(** Text of RDF terms, triples, quads and containers: /repo/src/display.rs,
    /repo/src/literal/mod.rs, /repo/src/literal/type/mod.rs, /repo/src/term/mod.rs,
    /repo/src/term/local/mod.rs, /repo/src/triple.rs, /repo/src/quad.rs and the
    [RdfDisplay] of the containers.

    Simplifications: writing never fails ([fmt::Result] is dropped; see
    WriteModel.v for writers that fail); IRIs and language tags are their text;
    in a format specification only the width and the precision are kept (default
    fill and alignment).  The [*Ref] versions (literal/ref.rs 129-154,
    literal/type/ref.rs 99-112) are the same functions. *)
From Coq Require Import List NArith Bool Ascii String.
Import ListNotations.
From Verif Require Import TextModel TripleModel.
Local Open Scope N_scope.

(** ** Formatters *)

(** The specification in force in a [fmt::Formatter]: [{:w.p}]. *)
Record fspec := FSpec { f_width : nat; f_prec : option nat }.
(** [{}] *)
Definition plain : fspec := FSpec 0 None.

(** [Formatter::pad], that is [Display] of [str]: truncate to the precision, then
    fill up to the width. *)
Definition pad (f : fspec) (s : text) : text :=
  let s := match f_prec f with Some p => firstn p s | None => s end in
  s ++ repeat 32 (f_width f - List.length s).
(** [Display] of [char]. *)
Definition char_fmt (f : fspec) (c : char) : text := pad f [c].

(** ** display.rs *)

(** 22-30: one character of a string. *)
Definition str_char_fmt (f : fspec) (c : char) : text :=
  if c =? 34 then chars "\" ++ [34]
  else if c =? 92 then chars "\\"
  else if c =? 10 then chars "\n"
  else if c =? 13 then chars "\r"
  else char_fmt f c.
(** 17-34 [RdfDisplay for str] (36-40 for [String]). *)
Definition str_rdf_fmt (f : fspec) (s : text) : text :=
  [34] ++ flat_map (str_char_fmt f) s ++ [34].

(** One hexadecimal digit, lower case. *)
Definition hex_digit (n : N) : char := if n <? 10 then 48 + n else 87 + n.
(** [{:#04x}] of a number below 256 (width 4 counts the [0x]). *)
Definition hex04 (n : N) : text := chars "0x" ++ [hex_digit (n / 16); hex_digit (n mod 16)].

(** 48: the characters escaped in an IRI (all below 128). *)
Definition iri_escaped (c : char) : bool :=
  range 0 32 c || (c =? 60) || (c =? 62) || (c =? 34) || (c =? 123) || (c =? 125) ||
  (c =? 124) || (c =? 94) || (c =? 96) || (c =? 92).
(** 46-54: one character of an IRI. *)
Definition iri_char_fmt (f : fspec) (c : char) : text :=
  if iri_escaped c then chars "\u" ++ hex04 c else char_fmt f c.
(** 42-58 [RdfDisplay for IriRef] (60-65, 74-79, 88-93 for [Iri], [IriBuf],
    [IriRefBuf]). *)
Definition iri_rdf_fmt (f : fspec) (s : text) : text :=
  chars "<" ++ flat_map (iri_char_fmt f) s ++ chars ">".

(** 102-107 [RdfDisplay for LangTag] (116-121 for [LangTagBuf]). *)
Definition tag_rdf_fmt (f : fspec) (s : text) : text := pad f s.

(** ** Terms *)

(** literal/type/mod.rs 17-23 *)
Inductive ltype := LAny (iri : text) | LLang (tag : text).
(** literal/mod.rs 18-24 *)
Record literal := Literal { l_value : text; l_type : ltype }.
(** term/mod.rs 22-28 *)
Inductive term := TIri (iri : text) | TLit (l : literal).
(** term/local/mod.rs 19-22 *)
Inductive local_term := Anonymous (b : text) | Named (t : term).

(** lib.rs [XSD_STRING]. *)
Definition XSD_STRING : text := chars "http://www.w3.org/2001/XMLSchema#string".

Section Terms.
  (** [==] of two IRIs (crate iref; it is not the equality of their texts). *)
  Context (iri_eqb : text -> text -> bool).

  (** literal/type/mod.rs 37-46 [is_xsd_string], [is_iri]. *)
  Definition is_iri (ty : ltype) (iri : text) : bool :=
    match ty with LAny i => iri_eqb i iri | LLang _ => false end.
  Definition is_xsd_string (ty : ltype) : bool := is_iri ty XSD_STRING.
  (** literal/type/mod.rs 70-83 [RdfDisplay for LiteralType]. *)
  Definition ltype_rdf_fmt (f : fspec) (ty : ltype) : text :=
    match ty with
    | LAny i => chars "^^" ++ iri_rdf_fmt f i
    | LLang tag => chars "@" ++ tag_rdf_fmt f tag
    end.
  (** literal/mod.rs 103-112 [Display], 114-123 [RdfDisplay for Literal]. *)
  Definition literal_rdf_fmt (f : fspec) (l : literal) : text :=
    str_rdf_fmt f (l_value l) ++
    (if is_xsd_string (l_type l) then [] else ltype_rdf_fmt f (l_type l)).

  (** term/mod.rs 118-125 [RdfDisplay for Term]. *)
  Definition term_rdf_fmt (f : fspec) (t : term) : text :=
    match t with TIri i => iri_rdf_fmt f i | TLit l => literal_rdf_fmt f l end.
  (** term/mod.rs 109-116 [Display for Term]; [Display] of an IRI is that of its
      text. *)
  Definition term_fmt (f : fspec) (t : term) : text :=
    match t with TIri i => pad f i | TLit l => literal_rdf_fmt f l end.

  (** term/local/mod.rs 130-137 [RdfDisplay for LocalTerm].  [BlankIdBuf] does not
      implement [RdfDisplay]: [id.rdf_fmt(f)] dereferences to [BlankId], then to
      [str], and is [RdfDisplay for str]. *)
  Definition local_term_rdf_fmt (f : fspec) (t : local_term) : text :=
    match t with Anonymous b => str_rdf_fmt f b | Named t => term_rdf_fmt f t end.
  (** term/local/mod.rs 121-128 [Display for LocalTerm]. *)
  Definition local_term_fmt (f : fspec) (t : local_term) : text :=
    match t with Anonymous b => pad f b | Named t => term_fmt f t end.
End Terms.

(** ** Triples, quads, containers; [show] is the [RdfDisplay] of the components,
    which [write!("{} {} {}", ...)] calls with a plain specification. *)
Section Containers.
  Context {R : Type} (show : fspec -> R -> text).

  (** triple.rs 188-198 [Display], 200-210 [RdfDisplay]. *)
  Definition triple_rdf_fmt (t : triple R) : text :=
    show plain (t_s t) ++ chars " " ++ show plain (t_p t) ++ chars " " ++ show plain (t_o t).
  (** quad.rs 316-336 [Display], 338-358 [RdfDisplay]. *)
  Definition quad_rdf_fmt (q : quad R) : text :=
    match q_g q with
    | Some g =>
        show plain (q_s q) ++ chars " " ++ show plain (q_p q) ++ chars " " ++
        show plain (q_o q) ++ chars " " ++ show plain g
    | None =>
        show plain (q_s q) ++ chars " " ++ show plain (q_p q) ++ chars " " ++ show plain (q_o q)
    end.

  (** btree_dataset.rs 446-454, indexed_btree_dataset.rs 1407-1415: the list is
      what iterating over the dataset gives. *)
  Definition quads_rdf_fmt (l : list (quad R)) : text :=
    flat_map (fun q => quad_rdf_fmt q ++ chars " ." ++ [10]) l.
  (** btree_graph.rs 420-428, indexed_btree_graph.rs 826-834. *)
  Definition triples_rdf_fmt (l : list (triple R)) : text :=
    flat_map (fun t => triple_rdf_fmt t ++ chars " ." ++ [10]) l.
End Containers.
