(** The errors: what the constructors of blank node identifiers return for a text they
    refuse, the error of their deserialization, [InvalidBlankId] and
    [QuadExportFailed].  Line numbers without a file refer to /repo/src/blankid.rs. *)
From Coq Require Import List NArith Bool Ascii String.
Import ListNotations.
From Verif Require Import TextModel BlankIdModel WriteModel DebugModel.
Local Open Scope N_scope.

(** 30-36 [BlankId::new], 136-142 [BlankIdBuf::new]: [inr s] is [Err(InvalidBlankId(s))]. *)
Definition blank_try_new (s : text) : text + text := if check s then inl s else inr s.
(** 180-182 [from_suffix]. *)
Definition blank_try_from_suffix (s : text) : text + text := blank_try_new (chars "_:" ++ s).
(** 194-196 [from_str]. *)
Definition blank_try_from_str (s : text) : text + text := blank_try_new s.

(** What a [serde::Deserializer] calls the visitor with.  Floating point numbers are
    left out. *)
Inductive visited :=
  | VString (s : text) | VStr (s : text) | VBorrowedStr (s : text) | VChar (c : char)
  | VBool (b : bool) | VUnsigned (n : N) | VNegative (n : N)
  | VBytes | VUnit | VSome | VNone | VNewtype | VSeq | VMap | VEnum.
(** [serde::de::Unexpected], those used. *)
Inductive unexpected :=
  | UBool (b : bool) | UUnsigned (n : N) | UNegative (n : N) | UStr (s : text) | UBytes | UUnit
  | UOption | UNewtype | USeq | UMap | UEnum.

Section Messages.
  (** A table of Unicode (DebugModel.v). *)
  Context (special : char -> bool).

  (** [format!("{:?}", v)]: a [String] takes everything. *)
  Definition debug_string (v : dval) : text := fst (v text (fun w s => (w ++ s, true)) false []).

  (** serde [impl Display for Unexpected]. *)
  Definition unexpected_text (u : unexpected) : text :=
    match u with
    | UBool b => chars "boolean `" ++ (if b then chars "true" else chars "false") ++ chars "`"
    | UUnsigned n => chars "integer `" ++ dec n ++ chars "`"
    | UNegative n => chars "integer `-" ++ dec n ++ chars "`"
    | UStr s => chars "string " ++ debug_string (d_text special s)
    | UBytes => chars "byte array"
    | UUnit => chars "unit value"
    | UOption => chars "Option value"
    | UNewtype => chars "newtype struct"
    | USeq => chars "sequence"
    | UMap => chars "map"
    | UEnum => chars "enum"
    end.
  (** 347-349 [expecting]. *)
  Definition blank_expecting : text := chars "blank node identifier".
  (** serde [Error::invalid_value], [Error::invalid_type], as provided. *)
  Definition invalid_value (u : unexpected) : text :=
    chars "invalid value: " ++ unexpected_text u ++ chars ", expected " ++ blank_expecting.
  Definition invalid_type (u : unexpected) : text :=
    chars "invalid type: " ++ unexpected_text u ++ chars ", expected " ++ blank_expecting.

  (** 351-358 [visit_string]; 360-365 [visit_str] and 367-372 [visit_borrowed_str] copy
      the text. *)
  Definition visit_string (s : text) : text + text :=
    match blank_try_new s with inl b => inl b | inr u => inr (invalid_value (UStr u)) end.
  (** 336-377 [deserialize]: the other methods of the visitor are those provided by
      serde ([visit_char] calls [visit_str], the others refuse). *)
  Definition blank_visit (v : visited) : text + text :=
    match v with
    | VString s | VStr s | VBorrowedStr s => visit_string s
    | VChar c => visit_string [c]
    | VBool b => inr (invalid_type (UBool b))
    | VUnsigned n => inr (invalid_type (UUnsigned n))
    | VNegative n => inr (invalid_type (UNegative n))
    | VBytes => inr (invalid_type UBytes)
    | VUnit => inr (invalid_type UUnit)
    | VSome | VNone => inr (invalid_type UOption)
    | VNewtype => inr (invalid_type UNewtype)
    | VSeq => inr (invalid_type USeq)
    | VMap => inr (invalid_type UMap)
    | VEnum => inr (invalid_type UEnum)
    end.
End Messages.

(** 10-11 [InvalidBlankId], derived [Debug]. *)
Definition d_invalid {A} (d : A -> dval) (x : A) : dval := d_tuple (chars "InvalidBlankId") [d x].

(** /repo/src/quad.rs 248-261 [QuadExportFailed]; the components have one type. *)
Inductive export_failed (E : Type) :=
  | FSubject (e : E) | FPredicate (e : E) | FObject (e : E) | FGraph (e : E).
Arguments FSubject {E}. Arguments FPredicate {E}. Arguments FObject {E}. Arguments FGraph {E}.
Section Export.
  Context {E : Type}.
  (** Derived [Debug]. *)
  Definition d_export (d : E -> dval) (x : export_failed E) : dval :=
    match x with
    | FSubject e => d_tuple (chars "Subject") [d e]
    | FPredicate e => d_tuple (chars "Predicate") [d e]
    | FObject e => d_tuple (chars "Object") [d e]
    | FGraph e => d_tuple (chars "Graph") [d e]
    end.
  (** [Display], derived by thiserror: [write!(f, "invalid subject: {0}", e)]; [d] is
      [Display] of the components without flags. *)
  Definition w_export (d : E -> forall W, (W -> text -> W * bool) -> W -> W * bool) (x : export_failed E)
    : forall W, (W -> text -> W * bool) -> W -> W * bool := fun W wr =>
    match x with
    | FSubject e => w_try (w_str wr (chars "invalid subject: ")) (d e W wr)
    | FPredicate e => w_try (w_str wr (chars "invalid predicate: ")) (d e W wr)
    | FObject e => w_try (w_str wr (chars "invalid object: ")) (d e W wr)
    | FGraph e => w_try (w_str wr (chars "invalid graph label: ")) (d e W wr)
    end.
End Export.
