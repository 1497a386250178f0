(** Blank node identifiers (/repo/src/blankid.rs) and the generator of blank
    node identifiers (/repo/src/term/generator/blank.rs).  Line numbers without
    a file refer to blankid.rs.

    Simplification: [BlankId] and [BlankIdBuf] are the text they contain
    ([transmute] of a string). *)
From Coq Require Import List NArith Bool Ascii String.
Import ListNotations.
From Verif Require Import TextModel.
Local Open Scope N_scope.

(** 323-325 [is_pn_char_base]. *)
Definition is_pn_char_base (c : char) : bool :=
  range 65 90 c || range 97 122 c || range 0xc0 0xd6 c || range 0xd8 0xf6 c ||
  range 0xf8 0x2ff c || range 0x370 0x37d c || range 0x37f 0x1fff c || range 0x200c 0x200d c ||
  range 0x2070 0x218f c || range 0x2c00 0x2fef c || range 0x3001 0xd7ff c ||
  range 0xf900 0xfdcf c || range 0xfdf0 0xfffd c || range 0x10000 0xeffff c.
(** 327-329 [is_pn_char_u]. *)
Definition is_pn_char_u (c : char) : bool := is_pn_char_base c || (c =? 95) || (c =? 58).
(** 331-334 [is_pn_char]. *)
Definition is_pn_char (c : char) : bool :=
  is_pn_char_u c ||
  ((c =? 45) || range 48 57 c || (c =? 0xb7) || range 0x300 0x36f c || range 0x203f 0x2040 c).

(** 302-321 [check]: the loop over the remaining characters is [forallb]. *)
Definition check (s : text) : bool :=
  match s with
  | c0 :: r0 =>
      if c0 =? 95 then
        match r0 with
        | c1 :: r1 =>
            if c1 =? 58 then
              match r1 with
              | c :: r => if is_ascii_digit c || is_pn_char_u c then forallb is_pn_char r else false
              | [] => false
              end
            else false
        | [] => false
        end
      else false
  | [] => false
  end.

(** 30-36 [BlankId::new], 136-142 [BlankIdBuf::new], 191-197 [FromStr], 336-377
    [Deserialize] (all the [visit_*] call [new]): [None] is the error. *)
Definition blank_new (s : text) : option text := if check s then Some s else None.

(** 180-182 [from_suffix]. *)
Definition blank_from_suffix (s : text) : option text := blank_new (chars "_:" ++ s).

(** 154-176 [from_u8], [from_u16], [from_u32], [from_u64]: the width only bounds
    the argument. *)
Definition blank_from_int (i : N) : text := chars "_:" ++ dec i.

(** 55-58 [suffix]; [None]: panic. *)
Definition blank_suffix (b : text) : option text := skip_bytes 2 b.

(** ** generator/blank.rs *)

(** 10-17 (struct [Blank]). *)
Record generator := Generator { g_prefix : text; g_count : N }.
(** 19-48 [new], [new_with_offset], [new_with_prefix], [new_full]. *)
Definition gen_full (prefix : text) (offset : N) : generator := Generator prefix offset.
Definition gen_new : generator := gen_full [] 0.
Definition gen_with_offset (offset : N) : generator := gen_full [] offset.
Definition gen_with_prefix (prefix : text) : generator := gen_full prefix 0.

Section Gen.
  (** [max] is [usize::MAX]; [checked] says whether overflow checks are on
      (debug builds): then an overflow panics ([None]), otherwise it wraps. *)
  Context (max : N) (checked : bool).

  (** 61-65 [next_blank_id]. *)
  Definition next_blank_id (g : generator) : option (text * generator) :=
    let id := chars "_:" ++ g_prefix g ++ dec (g_count g) in
    if g_count g <? max then Some (id, Generator (g_prefix g) (g_count g + 1))
    else if checked then None
    else Some (id, Generator (g_prefix g) 0).

  (** [n] calls. *)
  Fixpoint generate (n : nat) (g : generator) : option (list text * generator) :=
    match n with
    | O => Some ([], g)
    | S n =>
        match next_blank_id g with
        | None => None
        | Some (id, g) =>
            match generate n g with
            | None => None
            | Some (l, g) => Some (id :: l, g)
            end
        end
    end.
End Gen.
