(** Strings: a Rust [str] is the list of its characters, a character is its code
    point.  Functions of the Rust standard library used by the crate.

    Simplification: every number is a character here; a Rust [char] is at most
    0xD7FF or between 0xE000 and 0x10FFFF. *)
From Coq Require Import List NArith Ascii String.
Import ListNotations.
Local Open Scope N_scope.

Definition char := N.
Definition text := list char.

(** The text of an ASCII literal of the source. *)
Definition chars (s : string) : text := map N_of_ascii (list_ascii_of_string s).

(** [lo..=hi] in a pattern. *)
Definition range (lo hi c : char) : bool := (lo <=? c) && (c <=? hi).

(** [char::is_ascii_digit]. *)
Definition is_ascii_digit (c : char) : bool := range 48 57 c.

(** [char::len_utf8]. *)
Definition len_utf8 (c : char) : N :=
  if c <? 0x80 then 1 else if c <? 0x800 then 2 else if c <? 0x10000 then 3 else 4.

(** [&s[n..]], [n] in bytes: panics when [n] is not a character boundary. *)
Fixpoint skip_bytes (n : N) (s : text) : option text :=
  if n =? 0 then Some s
  else match s with
       | [] => None
       | c :: r => if n <? len_utf8 c then None else skip_bytes (n - len_utf8 c) r
       end.

(** [Display] of an unsigned integer: the last digit is [n mod 10], the others
    those of [n / 10] unless it is zero ([fuel] bounds the number of digits). *)
Fixpoint dec_loop (fuel : nat) (n : N) (acc : text) : text :=
  let acc := (48 + n mod 10) :: acc in
  if n / 10 =? 0 then acc
  else match fuel with
       | O => acc
       | S fuel => dec_loop fuel (n / 10) acc
       end.
Definition dec (n : N) : text := dec_loop (N.to_nat (N.size n)) n [].
