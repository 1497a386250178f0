(** Properties C01-C06: blank node identifiers and their generator.

    A text is a list of code points.  [BLANK_NODE_LABEL] is the grammar given in
    the documentation.  [generate max checked n g]: [n] calls to [next_blank_id]
    where [max] is [usize::MAX], [checked] says whether overflow checks are
    compiled in, and [None] is a panic. *)
From Coq Require Import List NArith Bool Lia Ascii String.
Import ListNotations.
From Verif Require Import TextModel BlankIdModel BlankIdSpec TextProofs BlankIdProofs.
Local Open Scope N_scope.

(** ** C01 *)

(** [BlankId::new], [BlankIdBuf::new], [FromStr], deserialization; [from_suffix]. *)
Theorem c01_accepted_are_valid :
  forall s b,
    (blank_new s = Some b -> b = s /\ BLANK_NODE_LABEL b) /\
    (blank_from_suffix s = Some b -> b = [0x5F; 0x3A] ++ s /\ BLANK_NODE_LABEL b).
Proof. exact accepted_valid. Qed.
Print Assumptions c01_accepted_are_valid.

Example c01_ex : blank_new (chars "_:b0-_:x") = Some (chars "_:b0-_:x").
Proof. reflexivity. Qed.

(** ** C02 *)

(** Exactly the labels without a dot are accepted.  Missing: the labels with a
    dot, which are rejected (below). *)
Theorem c02_valid_are_accepted_partial :
  forall s, blank_new s = Some s <-> BLANK_NODE_LABEL s /\ ~ In DOT s.
Proof. exact new_exact. Qed.
Print Assumptions c02_valid_are_accepted_partial.

(** [_:a.b] is a label of the grammar. *)
Theorem c02_dotted_refuted : exists s, BLANK_NODE_LABEL s /\ blank_new s = None.
Proof. exact dotted_rejected. Qed.
Print Assumptions c02_dotted_refuted.

(** ** C03 *)

Theorem c03_new_and_suffix :
  forall s b, blank_new s = Some b ->
    exists t, blank_suffix b = Some t /\ t <> [] /\ s = [0x5F; 0x3A] ++ t /\
      blank_from_suffix t = Some b.
Proof. exact suffix_spec. Qed.
Print Assumptions c03_new_and_suffix.

Theorem c03_new_keeps : forall s b, blank_new s = Some b -> b = s.
Proof. exact new_keeps. Qed.
Print Assumptions c03_new_keeps.

Theorem c03_from_suffix :
  forall s,
    blank_from_suffix s = blank_new ([0x5F; 0x3A] ++ s) /\
    forall b, blank_from_suffix s = Some b -> blank_suffix b = Some s.
Proof. exact from_suffix_spec. Qed.
Print Assumptions c03_from_suffix.

(** For integers of any width: the suffix is the decimal numeral. *)
Theorem c03_from_int :
  forall n,
    blank_new (blank_from_int n) = Some (blank_from_int n) /\
    blank_suffix (blank_from_int n) = Some (dec n) /\
    numeral (dec n) /\ dec_value (dec n) = n.
Proof. exact from_int_valid. Qed.
Print Assumptions c03_from_int.

Theorem c03_from_int_injective :
  forall m n, blank_from_int m = blank_from_int n -> m = n.
Proof. exact from_int_inj. Qed.
Print Assumptions c03_from_int_injective.

Example c03_ex :
  blank_from_suffix (chars "x.y") = None /\ blank_from_suffix (chars "x1") = Some (chars "_:x1") /\
  blank_from_int (2 ^ 64 - 1) = chars "_:18446744073709551615".
Proof. repeat split. Qed.

(** ** C04 *)

(** With overflow checks, whatever the number of calls; without, up to
    [usize::MAX + 1] calls. *)
Theorem c04_never_repeats :
  forall max checked n p offset l g',
    offset <= max -> checked = true \/ N.of_nat n <= max + 1 ->
    generate max checked n (gen_full p offset) = Some (l, g') ->
    NoDup l /\ List.length l = n.
Proof. exact generate_distinct. Qed.
Print Assumptions c04_never_repeats.

(** The capacity announced by the documentation, with overflow checks. *)
Theorem c04_capacity :
  forall max n p offset, offset <= max ->
    generate max true n (gen_full p offset) <> None <-> N.of_nat n <= max - offset.
Proof. exact generate_capacity. Qed.
Print Assumptions c04_capacity.

(** Without overflow checks no call panics. *)
Theorem c04_unchecked_never_panics :
  forall max n g, exists l g', generate max false n g = Some (l, g').
Proof. exact generate_unchecked. Qed.
Print Assumptions c04_unchecked_never_panics.

(** Until the overflow, the identifiers are numbered consecutively from the
    offset, after the prefix; for each of the four constructors. *)
Theorem c04_numbered_in_order :
  forall max checked n q k g p o l g',
    In (g, p, o) [(gen_new, [], 0); (gen_with_offset k, [], k); (gen_with_prefix q, q, 0);
                  (gen_full q k, q, k)] ->
    o + N.of_nat n <= max + 1 ->
    generate max checked n g = Some (l, g') ->
    forall i, (i < n)%nat ->
      exists d, nth_error l i = Some ([0x5F; 0x3A] ++ p ++ d) /\ numeral d /\
        dec_value d = o + N.of_nat i.
Proof. exact generate_counts. Qed.
Print Assumptions c04_numbered_in_order.

Example c04_ex :
  option_map fst (generate (2 ^ 64 - 1) true 3 (gen_full (chars "b") 9)) =
    Some [chars "_:b9"; chars "_:b10"; chars "_:b11"] /\
  option_map fst (generate (2 ^ 64 - 1) false 2 (gen_full (chars "b") (2 ^ 64 - 1))) =
    Some [chars "_:b18446744073709551615"; chars "_:b0"] /\
  generate (2 ^ 64 - 1) true 1 (gen_full (chars "b") (2 ^ 64 - 1)) = None.
Proof. repeat split. Qed.

(** ** C05 *)

(** A prefix that can start a label gives only accepted identifiers (the empty
    prefix does); any other prefix gives none.  Missing: those prefixes. *)
Theorem c05_generated_are_valid_partial :
  forall max checked n p offset l g',
    generate max checked n (gen_full p offset) = Some (l, g') ->
    (good_prefix p -> forall b, In b l -> blank_new b = Some b) /\
    (~ good_prefix p -> forall b, In b l -> blank_new b = None).
Proof. exact generated_valid. Qed.
Print Assumptions c05_generated_are_valid_partial.

Example c05_ex : good_prefix [] /\ good_prefix (chars "b_1-").
Proof.
  split; [exact I|]. cbn. split; [left; left; right; left; unfold between; lia|].
  repeat constructor; unfold PN_CHARS, PN_CHARS_U, PN_CHARS_BASE, DIGIT, between; lia.
Qed.

(** The prefix is not checked: [a b] gives [_:a b0]. *)
Theorem c05_invalid_prefix_refuted :
  exists p b g', next_blank_id (2 ^ 64 - 1) true (gen_with_prefix p) = Some (b, g') /\
    ~ BLANK_NODE_LABEL b.
Proof. exact generated_invalid. Qed.
Print Assumptions c05_invalid_prefix_refuted.

(** ** C06 *)

(** Different prefixes, none of which is the other followed by digits.
    Missing: the other pairs, for which it is false (below). *)
Theorem c06_no_collision_partial :
  forall max1 checked1 max2 checked2 n1 n2 p1 p2 o1 o2 l1 l2 g1 g2,
    p1 <> p2 -> ~ extends p1 p2 -> ~ extends p2 p1 ->
    generate max1 checked1 n1 (gen_full p1 o1) = Some (l1, g1) ->
    generate max2 checked2 n2 (gen_full p2 o2) = Some (l2, g2) ->
    forall b, In b l1 -> ~ In b l2.
Proof. exact generators_disjoint. Qed.
Print Assumptions c06_no_collision_partial.

(** In particular when no prefix ends with a digit. *)
Theorem c06_no_digit_partial :
  forall max1 checked1 max2 checked2 n1 n2 p1 p2 o1 o2 l1 l2 g1 g2,
    p1 <> p2 ->
    (forall r c, p1 = r ++ [c] -> ~ DIGIT c) -> (forall r c, p2 = r ++ [c] -> ~ DIGIT c) ->
    generate max1 checked1 n1 (gen_full p1 o1) = Some (l1, g1) ->
    generate max2 checked2 n2 (gen_full p2 o2) = Some (l2, g2) ->
    forall b, In b l1 -> ~ In b l2.
Proof. exact generators_disjoint_no_digit. Qed.
Print Assumptions c06_no_digit_partial.

(** The restriction is the right one: otherwise some numbers collide. *)
Theorem c06_collision_iff_partial :
  forall p q, p <> q ->
    ((exists m n, [0x5F; 0x3A] ++ p ++ dec m = [0x5F; 0x3A] ++ q ++ dec n) <->
     extends p q \/ extends q p).
Proof. exact collision_iff. Qed.
Print Assumptions c06_collision_iff_partial.

Example c06_ex : chars "a" <> chars "b_" /\ ~ extends (chars "a") (chars "a0").
Proof.
  split; [discriminate|]. intros (d & E & _ & _ & H). cbn in E. injection E as <-. now apply H.
Qed.

(** The prefixes [] and [1] both give [_:10]. *)
Theorem c06_collision_refuted :
  exists p1 p2 n l1 l2 g1 g2 b, p1 <> p2 /\
    generate (2 ^ 64 - 1) true n (gen_with_prefix p1) = Some (l1, g1) /\
    generate (2 ^ 64 - 1) true n (gen_with_prefix p2) = Some (l2, g2) /\
    In b l1 /\ In b l2.
Proof. exact generators_collide. Qed.
Print Assumptions c06_collision_refuted.
