(** What the errors should say.  Nothing here uses the functions of ErrorModel.v. *)
From Coq Require Import List NArith Bool Ascii String.
Import ListNotations.
From Verif Require Import TextModel BlankIdSpec ErrorModel DebugSpec.
Local Open Scope N_scope.

(** What is accepted as a blank node identifier (C02): the labels without a dot. *)
Definition accepted (s : text) : Prop := BLANK_NODE_LABEL s /\ ~ In DOT s.

(** The text that a deserializer found, if it found one. *)
Definition found_text (v : visited) : option text :=
  match v with
  | VString s | VStr s | VBorrowedStr s => Some s
  | VChar c => Some [c]
  | _ => None
  end.
(** What else it may have found; numbers by their decimal digits. *)
Inductive found_other : visited -> text -> Prop :=
  | FO_true : found_other (VBool true) (chars "boolean `true`")
  | FO_false : found_other (VBool false) (chars "boolean `false`")
  | FO_unsigned n d : numeral d -> dec_value d = n -> found_other (VUnsigned n) (chars "integer `" ++ d ++ chars "`")
  | FO_negative n d : numeral d -> dec_value d = n -> found_other (VNegative n) (chars "integer `-" ++ d ++ chars "`")
  | FO_bytes : found_other VBytes (chars "byte array")
  | FO_unit : found_other VUnit (chars "unit value")
  | FO_some : found_other VSome (chars "Option value")
  | FO_none : found_other VNone (chars "Option value")
  | FO_newtype : found_other VNewtype (chars "newtype struct")
  | FO_seq : found_other VSeq (chars "sequence")
  | FO_map : found_other VMap (chars "map")
  | FO_enum : found_other VEnum (chars "enum").
(** The message about what was found ([problem]: its value or its type). *)
Definition complaint (problem found : text) : text :=
  chars "invalid " ++ problem ++ chars ": " ++ found ++ chars ", expected blank node identifier".

(** An export error: the component and its error. *)
Definition component {E} (x : export_failed E) : string * string * E :=
  match x with
  | FSubject e => ("subject", "Subject", e)
  | FPredicate e => ("predicate", "Predicate", e)
  | FObject e => ("object", "Object", e)
  | FGraph e => ("graph label", "Graph", e)
  end%string.
Definition export_text {E} (s : E -> text) (x : export_failed E) : text :=
  let '(name, _, e) := component x in chars "invalid " ++ chars name ++ chars ": " ++ s e.
Definition export_tree {E} (f : E -> tree) (x : export_failed E) : tree :=
  let '(_, name, e) := component x in Tuple name [f e].
