(** What Rust asks of [Eq], [Ord], [Hash] and [Borrow], and UTF-8. *)
From Coq Require Import List NArith Bool.
Import ListNotations.
Local Open Scope N_scope.

(** [cmp] is a total order whose [Equal] is [==]. *)
Record lawful {A : Type} (eqb : A -> A -> bool) (cmp : A -> A -> comparison) : Prop := {
  law_eq : forall x y, cmp x y = Eq <-> eqb x y = true;
  law_sym : forall x y, cmp y x = CompOpp (cmp x y);
  law_trans : forall x y z, cmp x y <> Gt -> cmp y z <> Gt -> cmp x z <> Gt
}.

(** Equal values feed the same things to a hasher. *)
Definition hash_agrees {A H : Type} (eqb : A -> A -> bool) (hash : A -> H) : Prop :=
  forall x y, eqb x y = true -> hash x = hash y.

(** UTF-8: the bytes of a scalar value (RFC 3629). *)
Definition utf8_char (c : N) : list N :=
  if c <? 0x80 then [c]
  else if c <? 0x800 then [0xC0 + c / 0x40; 0x80 + c mod 0x40]
  else if c <? 0x10000 then [0xE0 + c / 0x1000; 0x80 + c / 0x40 mod 0x40; 0x80 + c mod 0x40]
  else [0xF0 + c / 0x40000; 0x80 + c / 0x1000 mod 0x40; 0x80 + c / 0x40 mod 0x40; 0x80 + c mod 0x40].
Definition utf8 (s : list N) : list N := flat_map utf8_char s.
