(** What [{:?}] and [{:#?}] should show.  Nothing here uses DebugModel.v. *)
From Coq Require Import List NArith Bool Ascii String.
Import ListNotations.
From Verif Require Import Base TextModel TripleModel DisplayModel TermModel TriplePatternModel
  QuadPatternModel WriteSpec.
Local Open Scope N_scope.

(** ** The text of a value *)

(** A value, the way it is built: a name with fields, a name with named fields, a
    set, a map, or something that has a text of its own, plain or pretty ([true]). *)
Inductive tree :=
  | Leaf (s : bool -> text)
  | Tuple (name : string) (fields : list tree)
  | Struct (name : string) (fields : list (string * tree))
  | SetOf (elements : list tree)
  | MapOf (entries : list (tree * tree)).

(** The lines of a text, each with its end. *)
Definition newline : text := [10].
Fixpoint lines (s : text) : list text :=
  match s with
  | [] => []
  | c :: r =>
      match c, lines r with
      | 10, ls => newline :: ls
      | _, [] => [[c]]
      | _, l :: ls => (c :: l) :: ls
      end
  end.
Definition indent (s : text) : text := flat_map (fun l => chars "    " ++ l) (lines s).
(** Plain: separated by commas.  Pretty: one after the other, indented, each followed
    by a comma and the end of the line. *)
Fixpoint comma_list (l : list text) : text :=
  match l with [] => [] | [s] => s | s :: l => s ++ chars ", " ++ comma_list l end.
Definition line_list (l : list text) : text :=
  newline ++ flat_map (fun s => indent (s ++ chars "," ++ newline)) l.
Definition listing (pretty : bool) (l : list text) : text :=
  if pretty then line_list l else comma_list l.

Fixpoint shown (pretty : bool) (t : tree) : text :=
  match t with
  | Leaf s => s pretty
  | Tuple n [] => chars n
  | Tuple n l => chars n ++ chars "(" ++ listing pretty (map (shown pretty) l) ++ chars ")"
  | Struct n [] => chars n
  | Struct n l =>
      let fields := map (fun f => chars (fst f) ++ chars ": " ++ shown pretty (snd f)) l in
      if pretty then chars n ++ chars " {" ++ line_list fields ++ chars "}"
      else chars n ++ chars " { " ++ comma_list fields ++ chars " }"
  | SetOf [] => chars "{}"
  | SetOf l => chars "{" ++ listing pretty (map (shown pretty) l) ++ chars "}"
  | MapOf [] => chars "{}"
  | MapOf l =>
      chars "{" ++ listing pretty (map (fun e =>
        shown pretty (fst e) ++ chars ": " ++ shown pretty (snd e)) l) ++ chars "}"
  end.

(** Something that shows itself on any writer, the flag says if pretty. *)
Definition debug : Type := forall W, writer W -> bool -> W -> W * bool.
(** It shows the text [s pretty], whatever the writer does. *)
Definition shows (d : debug) (s : bool -> text) : Prop :=
  forall pretty, writes (fun W wr w => Some (d W wr pretty w)) (s pretty).

(** ** Statements, terms, patterns as trees *)
Definition leaf {A} (s : bool -> A -> text) (a : A) : tree := Leaf (fun pretty => s pretty a).
Definition option_tree {A} (f : A -> tree) (x : option A) : tree :=
  match x with Some a => Tuple "Some" [f a] | None => Tuple "None" [] end.
Definition triple_tree {R} (f : R -> tree) (t : triple R) : tree :=
  Tuple "Triple" [f (t_s t); f (t_p t); f (t_o t)].
Definition quad_tree {R} (f : R -> tree) (q : quad R) : tree :=
  Tuple "Quad" [f (q_s q); f (q_p q); f (q_o q); option_tree f (q_g q)].

(** The text of a string: quotes around its characters, and an escape sequence for those that are
    special or not printable ([special], above 127).  The hexadecimal digits are
    described by their value. *)
Definition hex_value (c : char) : option N :=
  if range 48 57 c then Some (c - 48) else if range 97 102 c then Some (c - 87) else None.
Fixpoint hex_number (acc : N) (s : text) : option N :=
  match s with
  | [] => Some acc
  | c :: r => match hex_value c with Some v => hex_number (16 * acc + v) r | None => None end
  end.
(** The number without leading zeros. *)
Definition is_hex (n : N) (s : text) : Prop :=
  hex_number 0 s = Some n /\ (s = chars "0" \/ exists c r, s = c :: r /\ c <> 48).
Inductive char_text (special : char -> bool) : char -> text -> Prop :=
  | CT_nul : char_text special 0 (chars "\0")
  | CT_tab : char_text special 9 (chars "\t")
  | CT_lf : char_text special 10 (chars "\n")
  | CT_cr : char_text special 13 (chars "\r")
  | CT_quote : char_text special 34 [92; 34]
  | CT_backslash : char_text special 92 [92; 92]
  | CT_plain c : 32 <= c -> c <> 34 -> c <> 92 -> c <> 127 -> (127 < c -> special c = false) ->
      char_text special c [c]
  | CT_number c h : c <> 0 -> c <> 9 -> c <> 10 -> c <> 13 ->
      c < 32 \/ c = 127 \/ (127 < c /\ special c = true) -> is_hex c h ->
      char_text special c (chars "\u{" ++ h ++ chars "}").
Definition quoted (special : char -> bool) (s t : text) : Prop :=
  exists ts, Forall2 (char_text special) s ts /\ t = [34] ++ List.concat ts ++ [34].

Section Terms.
  (** The trees of strings, of IRIs and of language tags. *)
  Context (str iri tag : text -> tree).
  Definition ltype_tree (t : ltype) : tree :=
    match t with LAny i => Tuple "Any" [iri i] | LLang l => Tuple "LangString" [tag l] end.
  (** [name] is [Literal], [LiteralRef] or [CowLiteral]. *)
  Definition literal_tree (name : string) (l : literal) : tree :=
    Struct name [("value"%string, str (l_value l)); ("type_"%string, ltype_tree (l_type l))].
  Definition term_tree (name : string) (t : term) : tree :=
    match t with
    | TIri i => Tuple "Iri" [iri i]
    | TLit l => Tuple "Literal" [literal_tree name l]
    end.
  Definition local_tree (name : string) (t : local_term) : tree :=
    match t with
    | Anonymous b => Tuple "Anonymous" [str b]
    | Named t => Tuple "Named" [term_tree name t]
    end.
  Definition id_tree (i : rdf_id) : tree :=
    match i with IBlank b => Tuple "BlankId" [str b] | IIri i => Tuple "Iri" [iri i] end.
End Terms.

Definition rv_tree {T X} (f : T -> tree) (g : X -> tree) (r : res_or_var T X) : tree :=
  match r with Res t => Tuple "Resource" [f t] | Var x => Tuple "Var" [g x] end.
Section Patterns.
  Context {T : Type} (f : T -> tree).
  (** What the components of a pattern are, [rest] is about those after it. *)
  Definition subject_tree (p : pat_s T) (rest : list tree) : tree :=
    match p with
    | PS_Any => Tuple "AnySubject" rest
    | PS_Given t => Tuple "GivenSubject" (f t :: rest)
    end.
  Definition predicate_tree (p : pat_p T) (rest : list tree) : tree :=
    match p with
    | PP_Any => Tuple "AnyPredicate" rest
    | PP_SameS => Tuple "SameAsSubject" rest
    | PP_Given t => Tuple "GivenPredicate" (f t :: rest)
    end.
  Definition object_tree (p : pat_o T) (rest : list tree) : tree :=
    match p with
    | PO_Any => Tuple "AnyObject" rest
    | PO_SameS => Tuple "SameAsSubject" rest
    | PO_SameP => Tuple "SameAsPredicate" rest
    | PO_Given t => Tuple "GivenObject" (f t :: rest)
    end.
  Definition graph_tree (p : pat_g T) : tree :=
    match p with
    | PG_Any => Tuple "AnyGraph" []
    | PG_SameS => Tuple "SameAsSubject" []
    | PG_SameP => Tuple "SameAsPredicate" []
    | PG_SameO => Tuple "SameAsObject" []
    | PG_Given g => Tuple "GivenGraph" [option_tree f g]
    end.
  Definition triple_pattern_tree (c : ctp T) : tree :=
    subject_tree (ct_subject c) [predicate_tree (ct_predicate c) [object_tree (ct_object c) []]].
  Definition quad_pattern_tree (c : cqp T) : tree :=
    subject_tree (cq_subject c) [predicate_tree (cq_predicate c)
      [object_tree (cq_object c) [graph_tree (cq_graph c)]]].
  (** One component alone. *)
  Definition s_tree (p : pat_s T) : tree :=
    match p with PS_Any => Tuple "Any" [] | PS_Given t => Tuple "Given" [f t] end.
  Definition p_tree (p : pat_p T) : tree :=
    match p with
    | PP_Any => Tuple "Any" [] | PP_SameS => Tuple "SameAsSubject" []
    | PP_Given t => Tuple "Given" [f t]
    end.
  Definition o_tree (p : pat_o T) : tree :=
    match p with
    | PO_Any => Tuple "Any" [] | PO_SameS => Tuple "SameAsSubject" []
    | PO_SameP => Tuple "SameAsPredicate" [] | PO_Given t => Tuple "Given" [f t]
    end.
  Definition g_tree (p : pat_g T) : tree :=
    match p with
    | PG_Any => Tuple "Any" [] | PG_SameS => Tuple "SameAsSubject" []
    | PG_SameP => Tuple "SameAsPredicate" [] | PG_SameO => Tuple "SameAsObject" []
    | PG_Given g => Tuple "Given" [option_tree f g]
    end.
End Patterns.

(** ** Reading a text *)

(** What may follow the text of a value inside of another. *)
Definition follows (s : text) : Prop := exists c r, s = c :: r /\ In c (chars ",) }").
(** The text of a value tells which value it is, and where it ends. *)
Definition readable {A} (s : A -> text) : Prop := forall a b x y,
  follows x -> follows y -> s a ++ x = s b ++ y -> a = b /\ x = y.
(** The values show themselves with a text that can be read.  In the plain one, only
    characters of a given class occur. *)
Definition tells {A} (class : char -> Prop) (d : A -> debug) : Prop := exists s : bool -> A -> text,
  (forall a, shows (d a) (fun pretty => s pretty a)) /\
  (forall pretty, readable (s pretty)) /\
  (forall a c, In c (s false a) -> class c).
(** A class that contains the printable ASCII characters. *)
Definition has_ascii (class : char -> Prop) : Prop := forall c, 32 <= c <= 126 -> class c.
