(** src/term/generator/uuid.rs: [generator::Uuid].

    This file of the repository is compiled only with the [uuid-generator]
    features, and then it does not compile: it defines [next] where the trait
    [Generator] has [next_term] (term/generator/mod.rs 13-16), and imports nothing.
    The model follows its text, [next] being [next_term].

    Simplifications: a [uuid::Uuid] is a list of 16 bytes; MD5 and SHA-1 are
    parameters, of which only the length of the result is assumed; the random bytes
    of [new_v4] are given to each call.  The functions of the crate [uuid] 0.8 are
    assumed, as documented there. *)
From Coq Require Import List Arith NArith Bool String.
Import ListNotations.
From Verif Require Import Base TextModel DisplayModel.
Open Scope N_scope.

(** ** The crate [uuid] *)
Definition bytes := list N.

(** [Builder::set_version], [set_variant(Variant::RFC4122)]: the high bits of bytes 6 and 8. *)
Definition set_version (v : N) (b : bytes) : bytes :=
  match b with
  | [b0; b1; b2; b3; b4; b5; b6; b7; b8; b9; b10; b11; b12; b13; b14; b15] =>
      [b0; b1; b2; b3; b4; b5; N.lor (N.land b6 0x0f) (N.shiftl v 4); b7;
       N.lor (N.land b8 0x3f) 0x80; b9; b10; b11; b12; b13; b14; b15]
  | _ => b
  end.

Section Uuid.
  Context (md5 sha1 : bytes -> bytes).

  (** [Uuid::new_v3], [Uuid::new_v4], [Uuid::new_v5] *)
  Definition new_v3 (ns name : bytes) : bytes := set_version 3 (md5 (ns ++ name)).
  Definition new_v4 (random : bytes) : bytes := set_version 4 random.
  Definition new_v5 (ns name : bytes) : bytes := set_version 5 (firstn 16 (sha1 (ns ++ name))).

  (** [{:x}] of a byte, two digits *)
  Definition lower_digit (n : N) : char := if n <? 10 then 48 + n else 87 + n.
  Definition lower_hex (b : N) : text := [lower_digit (b / 16); lower_digit (b mod 16)].

  (** [to_urn().encode_lower(buffer)]: the text that it writes at the start of the buffer *)
  Definition encode_urn (u : bytes) : text :=
    chars "urn:uuid:" ++ flat_map lower_hex (firstn 4 u) ++ chars "-" ++
    flat_map lower_hex (firstn 2 (skipn 4 u)) ++ chars "-" ++
    flat_map lower_hex (firstn 2 (skipn 6 u)) ++ chars "-" ++
    flat_map lower_hex (firstn 2 (skipn 8 u)) ++ chars "-" ++
    flat_map lower_hex (skipn 10 u).
  (** [adapter::Urn::LENGTH] *)
  Definition urn_length : nat := 45.

  (** ** uuid.rs 12-32 *)
  Inductive uuid_generator :=
  | V3 (ns name : bytes)
  | V4
  | V5 (ns name : bytes).

  (** 40-49 [next_uuid] *)
  Definition next_uuid (g : uuid_generator) (random : bytes) : bytes :=
    match g with
    | V3 ns name => new_v3 ns name
    | V4 => new_v4 random
    | V5 ns name => new_v5 ns name
    end.

  (** 82-90 [next]: [None] when the buffer is too short ([encode_lower] panics). *)
  Definition uuid_next_term (g : uuid_generator) (random : bytes) : option term :=
    let buffer := repeat 0 urn_length in
    let written := encode_urn (next_uuid g random) in
    if (List.length buffer <? List.length written)%nat then None
    else
      let buffer := written ++ skipn (List.length written) buffer in
      Some (TIri (firstn (List.length written) buffer)).

  (** Successive calls; the generator does not change. *)
  Fixpoint uuid_terms (g : uuid_generator) (randoms : list bytes) : option (list term) :=
    match randoms with
    | [] => Some []
    | r :: rs =>
        match uuid_next_term g r, uuid_terms g rs with
        | Some t, Some ts => Some (t :: ts)
        | _, _ => None
        end
    end.
End Uuid.
