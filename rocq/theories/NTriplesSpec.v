(** A reader for N-Triples and N-Quads terms and lines, written from the grammar
    of the W3C recommendations (RDF 1.1 N-Triples and N-Quads), extended so that
    any term may occur in any position.  Independent of the printer: only the
    types of terms are shared.

    Every function returns what was read and the rest of the text. *)
From Coq Require Import List NArith Bool.
Import ListNotations.
From Verif Require Import TripleModel DisplayModel.
Local Open Scope N_scope.

Definition text := list N.

(** ** Escapes *)
Definition hex_value (c : N) : option N :=
  if (0x30 <=? c) && (c <=? 0x39) then Some (c - 0x30)
  else if (0x41 <=? c) && (c <=? 0x46) then Some (c - 0x41 + 10)
  else if (0x61 <=? c) && (c <=? 0x66) then Some (c - 0x61 + 10)
  else None.

(** [n] hexadecimal digits. *)
Fixpoint read_hex (n : nat) (v : N) (s : text) : option (N * text) :=
  match n with
  | O => Some (v, s)
  | S n =>
      match s with
      | c :: r => match hex_value c with Some d => read_hex n (16 * v + d) r | None => None end
      | [] => None
      end
  end.

(** UCHAR ::= '\u' HEX HEX HEX HEX | '\U' HEX HEX HEX HEX HEX HEX HEX HEX
    (after the backslash). *)
Definition read_uchar (s : text) : option (N * text) :=
  match s with
  | [] => None
  | c :: r =>
      if c =? 0x75 then read_hex 4 0 r
      else if c =? 0x55 then read_hex 8 0 r
      else None
  end.

(** ECHAR: a backslash and one of t, b, n, r, f, double quote, quote, backslash
    (after the backslash), or UCHAR. *)
Definition read_escape (s : text) : option (N * text) :=
  match s with
  | [] => None
  | c :: r =>
      if c =? 0x74 then Some (0x09, r)
      else if c =? 0x62 then Some (0x08, r)
      else if c =? 0x6E then Some (0x0A, r)
      else if c =? 0x72 then Some (0x0D, r)
      else if c =? 0x66 then Some (0x0C, r)
      else if c =? 0x22 then Some (0x22, r)
      else if c =? 0x27 then Some (0x27, r)
      else if c =? 0x5C then Some (0x5C, r)
      else read_uchar s
  end.

(** ** Strings
    STRING_LITERAL_QUOTE ::= #x22 ([^#x22#x5C#xA#xD] | ECHAR | UCHAR)* #x22
    [fuel] bounds the number of characters. *)
Fixpoint read_string_body (fuel : nat) (s : text) : option (text * text) :=
  match fuel with
  | O => None
  | S fuel =>
      match s with
      | [] => None
      | c :: r =>
          if c =? 0x22 then Some ([], r)
          else if c =? 0x5C then
            match read_escape r with
            | Some (c, r) =>
                match read_string_body fuel r with Some (v, r) => Some (c :: v, r) | None => None end
            | None => None
            end
          else if (c =? 0x0A) || (c =? 0x0D) then None
          else match read_string_body fuel r with Some (v, r) => Some (c :: v, r) | None => None end
      end
  end.
Definition read_string (s : text) : option (text * text) :=
  match s with
  | c :: r => if c =? 0x22 then read_string_body (length r) r else None
  | [] => None
  end.

(** ** IRIs
    IRIREF ::= #x3C ([^#x00-#x20#x3C#x3E#x22#x7B#x7D#x7C#x5E#x60#x5C] | UCHAR)* #x3E *)
Definition iri_char (c : N) : bool :=
  negb ((c <=? 0x20) || (c =? 0x3C) || (c =? 0x3E) || (c =? 0x22) || (c =? 0x7B) || (c =? 0x7D) ||
        (c =? 0x7C) || (c =? 0x5E) || (c =? 0x60) || (c =? 0x5C)).
Fixpoint read_iri_body (fuel : nat) (s : text) : option (text * text) :=
  match fuel with
  | O => None
  | S fuel =>
      match s with
      | [] => None
      | c :: r =>
          if c =? 0x3E then Some ([], r)
          else if c =? 0x5C then
            match read_uchar r with
            | Some (c, r) =>
                match read_iri_body fuel r with Some (v, r) => Some (c :: v, r) | None => None end
            | None => None
            end
          else if iri_char c then
            match read_iri_body fuel r with Some (v, r) => Some (c :: v, r) | None => None end
          else None
      end
  end.
Definition read_iri (s : text) : option (text * text) :=
  match s with
  | c :: r => if c =? 0x3C then read_iri_body (length r) r else None
  | [] => None
  end.

(** A dialect of IRIREF, not of N-Triples, where a character is escaped by '\u0x'
    and two lower case hexadecimal digits. *)
Definition lower_hex_value (c : N) : option N :=
  if (0x41 <=? c) && (c <=? 0x46) then None else hex_value c.
Fixpoint read_iri_0x_body (fuel : nat) (s : text) : option (text * text) :=
  match fuel with
  | O => None
  | S fuel =>
      match s with
      | [] => None
      | c :: r =>
          if c =? 0x3E then Some ([], r)
          else if c =? 0x5C then
            match r with
            | 0x75 :: 0x30 :: 0x78 :: h :: l :: r =>
                match lower_hex_value h, lower_hex_value l, read_iri_0x_body fuel r with
                | Some h, Some l, Some (v, r) => Some (16 * h + l :: v, r)
                | _, _, _ => None
                end
            | _ => None
            end
          else if iri_char c then
            match read_iri_0x_body fuel r with Some (v, r) => Some (c :: v, r) | None => None end
          else None
      end
  end.
Definition read_iri_0x (s : text) : option (text * text) :=
  match s with
  | c :: r => if c =? 0x3C then read_iri_0x_body (length r) r else None
  | [] => None
  end.

(** ** Language tags
    LANGTAG ::= '@' [a-zA-Z]+ ('-' [a-zA-Z0-9]+)* *)
Definition alpha (c : N) : bool :=
  ((0x41 <=? c) && (c <=? 0x5A)) || ((0x61 <=? c) && (c <=? 0x7A)).
Definition alnum (c : N) : bool := alpha c || ((0x30 <=? c) && (c <=? 0x39)).
(** The longest prefix of characters satisfying [p]. *)
Fixpoint span (p : N -> bool) (s : text) : text * text :=
  match s with
  | c :: r => if p c then let (a, b) := span p r in (c :: a, b) else ([], s)
  | [] => ([], [])
  end.
(** The subtags, as many as possible. *)
Fixpoint read_subtags (fuel : nat) (s : text) : text * text :=
  match fuel with
  | O => ([], s)
  | S fuel =>
      match s with
      | c :: r =>
          if c =? 0x2D then
            match span alnum r with
            | ([], _) => ([], s)
            | (a, r) => let (b, r) := read_subtags fuel r in (0x2D :: a ++ b, r)
            end
          else ([], s)
      | [] => ([], s)
      end
  end.
Definition read_tag (s : text) : option (text * text) :=
  match span alpha s with
  | ([], _) => None
  | (a, r) => let (b, r) := read_subtags (length r) r in Some (a ++ b, r)
  end.
(** A text that is a language tag. *)
Definition is_tag (s : text) : Prop :=
  exists a l, s = a ++ concat (map (fun b => 0x2D :: b) l) /\ a <> [] /\
    forallb alpha a = true /\ Forall (fun b => b <> [] /\ forallb alnum b = true) l.

(** ** Literals and terms
    literal ::= STRING_LITERAL_QUOTE ('^^' IRIREF | LANGTAG)?, xsd:string when
    neither is given. *)
Definition xsd_string : text :=
  [0x68; 0x74; 0x74; 0x70; 0x3A; 0x2F; 0x2F; 0x77; 0x77; 0x77; 0x2E; 0x77; 0x33; 0x2E; 0x6F; 0x72;
   0x67; 0x2F; 0x32; 0x30; 0x30; 0x31; 0x2F; 0x58; 0x4D; 0x4C; 0x53; 0x63; 0x68; 0x65; 0x6D; 0x61;
   0x23; 0x73; 0x74; 0x72; 0x69; 0x6E; 0x67].
Definition read_literal (s : text) : option (literal * text) :=
  match read_string s with
  | None => None
  | Some (v, r) =>
      let simple := Some (Literal v (LAny xsd_string), r) in
      match r with
      | c :: r =>
          if c =? 0x5E then
            match r with
            | d :: r =>
                if d =? 0x5E then
                  match read_iri r with
                  | Some (i, r) => Some (Literal v (LAny i), r)
                  | None => None
                  end
                else simple
            | [] => simple
            end
          else if c =? 0x40 then
            match read_tag r with Some (t, r) => Some (Literal v (LLang t), r) | None => None end
          else simple
      | [] => simple
      end
  end.
(** An IRI or a literal. *)
Definition read_term (s : text) : option (term * text) :=
  match s with
  | c :: _ =>
      if c =? 0x3C then match read_iri s with Some (i, r) => Some (TIri i, r) | None => None end
      else match read_literal s with Some (l, r) => Some (TLit l, r) | None => None end
  | [] => None
  end.

(** ** Statements: subject, predicate, object, and maybe a graph, each followed
    by a space; then a dot and a line feed. *)
Definition read_spaced {A} (read : text -> option (A * text)) (s : text) : option (A * text) :=
  match read s with
  | Some (a, c :: r) => if c =? 0x20 then Some (a, r) else None
  | _ => None
  end.
(** The dot and the line feed. *)
Definition read_end (s : text) : option text :=
  match s with
  | c :: d :: r => if (c =? 0x2E) && (d =? 0x0A) then Some r else None
  | _ => None
  end.
Section Statements.
  Context {A : Type} (read : text -> option (A * text)).

  Definition read_quad (s : text) : option (quad A * text) :=
    match read_spaced read s with
    | None => None
    | Some (a, s) =>
        match read_spaced read s with
        | None => None
        | Some (b, s) =>
            match read_spaced read s with
            | None => None
            | Some (c, s) =>
                match read_end s with
                | Some s => Some (Quad a b c None, s)
                | None =>
                    match read_spaced read s with
                    | Some (g, s) =>
                        match read_end s with
                        | Some s => Some (Quad a b c (Some g), s)
                        | None => None
                        end
                    | None => None
                    end
                end
            end
        end
    end.

  (** A document: statements until the end of the text. *)
  Fixpoint read_quads (fuel : nat) (s : text) : option (list (quad A)) :=
    match s with
    | [] => Some []
    | _ =>
        match fuel with
        | O => None
        | S fuel =>
            match read_quad s with
            | Some (q, s) =>
                match read_quads fuel s with Some l => Some (q :: l) | None => None end
            | None => None
            end
        end
    end.
  Definition read_document (s : text) : option (list (quad A)) := read_quads (length s) s.
End Statements.

(** What is left of a text after a literal can not continue the literal. *)
Definition ends_literal (s : text) : Prop :=
  match s with
  | c :: _ => c <> 0x5E /\ c <> 0x40 /\ c <> 0x2D /\ alnum c = false
  | [] => True
  end.

(** ** Which terms can be written, and what is kept of them *)

(** What the texts stored in a term satisfy: IRIs have none of the forbidden
    characters, language tags are language tags. *)
Definition good_iri (s : text) : Prop := Forall (fun c => iri_char c = true) s.
Definition good_ltype (ty : ltype) : Prop :=
  match ty with LAny i => good_iri i | LLang t => is_tag t end.
Definition good_term (t : term) : Prop :=
  match t with TIri i => good_iri i | TLit l => good_ltype (l_type l) end.

(** The datatype xsd:string is written in one way. *)
Definition norm_literal (eqb : text -> text -> bool) (l : literal) : literal :=
  match l_type l with
  | LAny i => if eqb i xsd_string then Literal (l_value l) (LAny xsd_string) else l
  | LLang _ => l
  end.
Definition norm_term eqb (t : term) : term :=
  match t with TIri _ => t | TLit l => TLit (norm_literal eqb l) end.

(** The same for statements, from the components. *)
Definition good_quad {A} (good : A -> Prop) (q : quad A) : Prop :=
  good (q_s q) /\ good (q_p q) /\ good (q_o q) /\
  match q_g q with Some g => good g | None => True end.
Definition norm_quad {A} (norm : A -> A) (q : quad A) : quad A :=
  Quad (norm (q_s q)) (norm (q_p q)) (norm (q_o q)) (option_map norm (q_g q)).
Definition good_triple {A} (good : A -> Prop) (t : triple A) : Prop :=
  good (t_s t) /\ good (t_p t) /\ good (t_o t).
