(** The grammar of blank node identifiers, transcribed from the documentation of
    [BlankId] (/repo/src/blankid.rs 12-24).  Independent of the model. *)
From Coq Require Import List NArith.
Import ListNotations.
Local Open Scope N_scope.

Definition between (lo hi c : N) : Prop := lo <= c <= hi.

(** [A-Z] | [a-z] | [#x00C0-#x00D6] | [#x00D8-#x00F6] | [#x00F8-#x02FF] | [#x0370-#x037D]
    | [#x037F-#x1FFF] | [#x200C-#x200D] | [#x2070-#x218F] | [#x2C00-#x2FEF] | [#x3001-#xD7FF]
    | [#xF900-#xFDCF] | [#xFDF0-#xFFFD] | [#x10000-#xEFFFF] *)
Definition PN_CHARS_BASE (c : N) : Prop :=
  between 0x41 0x5A c \/ between 0x61 0x7A c \/ between 0x00C0 0x00D6 c \/
  between 0x00D8 0x00F6 c \/ between 0x00F8 0x02FF c \/ between 0x0370 0x037D c \/
  between 0x037F 0x1FFF c \/ between 0x200C 0x200D c \/ between 0x2070 0x218F c \/
  between 0x2C00 0x2FEF c \/ between 0x3001 0xD7FF c \/ between 0xF900 0xFDCF c \/
  between 0xFDF0 0xFFFD c \/ between 0x10000 0xEFFFF c.
(** PN_CHARS_BASE | '_' | ':' *)
Definition PN_CHARS_U (c : N) : Prop := PN_CHARS_BASE c \/ c = 0x5F \/ c = 0x3A.
Definition DIGIT (c : N) : Prop := between 0x30 0x39 c.
(** PN_CHARS_U | '-' | [0-9] | #x00B7 | [#x0300-#x036F] | [#x203F-#x2040] *)
Definition PN_CHARS (c : N) : Prop :=
  PN_CHARS_U c \/ c = 0x2D \/ DIGIT c \/ c = 0x00B7 \/ between 0x0300 0x036F c \/
  between 0x203F 0x2040 c.
Definition DOT : N := 0x2E.

(** '_:' (PN_CHARS_U | [0-9]) ((PN_CHARS | '.')* PN_CHARS)? *)
Definition BLANK_NODE_LABEL (s : list N) : Prop :=
  exists c rest, s = [0x5F; 0x3A; c] ++ rest /\ (PN_CHARS_U c \/ DIGIT c) /\
    (rest = [] \/
     exists mid last, rest = mid ++ [last] /\ Forall (fun c => PN_CHARS c \/ c = DOT) mid /\
       PN_CHARS last).

(** The value of a decimal numeral. *)
Definition dec_value (s : list N) : N := fold_left (fun v c => 10 * v + (c - 0x30)) s 0.
(** A numeral: digits, and no leading zero except for zero itself. *)
Definition numeral (s : list N) : Prop :=
  Forall DIGIT s /\ s <> [] /\ (hd 0 s = 0x30 -> s = [0x30]).

(** The prefixes that can start a label. *)
Definition good_prefix (p : list N) : Prop :=
  match p with [] => True | c :: r => (PN_CHARS_U c \/ DIGIT c) /\ Forall PN_CHARS r end.

(** [q] is [p] followed by at least one digit, the first of which is not zero. *)
Definition extends (p q : list N) : Prop :=
  exists d, q = p ++ d /\ d <> [] /\ Forall DIGIT d /\ hd 0 d <> 0x30.
