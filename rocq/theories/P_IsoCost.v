(** C90: the isomorphism test ends in reasonable time and space.

    [calls] is the number of calls of the recursive search, [depth] how many of
    them are nested at most. *)
From Coq Require Import List Bool Arith Factorial.
Import ListNotations.
From Verif Require Import Base TextModel DisplayModel TermModel TripleModel InterpretationModel
  SetSpec ContainerSpec IsoModel IsoSpec IsoCostModel IsoCostSpec TermProofs IsoTopProofs IsoCostProofs IsoCostTopProofs.

(** The code violates it: for every [n] there are datasets of [n + 2] quads for
    which the test makes [n!] calls, *)
Theorem c90_factorial_refuted : forall iri_eqb tag_eqb iri_cmp tag_cmp,
  ord_laws iri_cmp -> ord_laws tag_cmp ->
  (forall x y, iri_eqb x y = true <-> x = y) -> (forall x y, tag_eqb x y = true <-> x = y) ->
  forall n, exists a b, NoDup a /\ NoDup b /\ length a = n + 2 /\ length b = n + 2 /\
    fst (are_isomorphic_counted iri_eqb tag_eqb iri_cmp tag_cmp a b) = Some false /\
    fact n <= calls (snd (are_isomorphic_counted iri_eqb tag_eqb iri_cmp tag_cmp a b)).
Proof. exact @factorial_found. Qed.
Print Assumptions c90_factorial_refuted.

(** so that no polynomial in the number of quads bounds the number of calls, *)
Theorem c90_polynomial_refuted : forall iri_eqb tag_eqb iri_cmp tag_cmp,
  ord_laws iri_cmp -> ord_laws tag_cmp ->
  (forall x y, iri_eqb x y = true <-> x = y) -> (forall x y, tag_eqb x y = true <-> x = y) ->
  forall c k, exists a b, NoDup a /\ NoDup b /\ length b = length a /\
    c * length a ^ k + c < calls (snd (are_isomorphic_counted iri_eqb tag_eqb iri_cmp tag_cmp a b)).
Proof. exact @polynomial_refuted. Qed.
Print Assumptions c90_polynomial_refuted.

(** and comparing a dataset of [n] quads with itself can nest [n + 1] calls. *)
Theorem c90_stack_refuted : forall iri_eqb tag_eqb iri_cmp tag_cmp,
  ord_laws iri_cmp -> ord_laws tag_cmp ->
  (forall x y, iri_eqb x y = true <-> x = y) -> (forall x y, tag_eqb x y = true <-> x = y) ->
  forall n, exists a, NoDup a /\ length a = n /\
    fst (are_isomorphic_counted iri_eqb tag_eqb iri_cmp tag_cmp a a) = Some true /\
    depth (snd (are_isomorphic_counted iri_eqb tag_eqb iri_cmp tag_cmp a a)) = S n.
Proof. exact @deep_found. Qed.
Print Assumptions c90_stack_refuted.

(** What is counted is the test of the other properties. *)
Theorem c90_counted : forall iri_eqb tag_eqb iri_cmp tag_cmp a b,
  fst (are_isomorphic_counted iri_eqb tag_eqb iri_cmp tag_cmp a b) = are_isomorphic iri_eqb tag_eqb iri_cmp tag_cmp a b.
Proof. exact @are_counted. Qed.
Print Assumptions c90_counted.
Theorem c90_counted_with : forall {R St} (cmp : R -> R -> comparison) iri_eqb tag_eqb (I : interp_rev St R) (st : St) a b,
  fst (find_bijection_counted cmp iri_eqb tag_eqb I st a b) = find_bijection_with cmp iri_eqb tag_eqb I st a b.
Proof. exact @bijection_counted. Qed.
Print Assumptions c90_counted_with.

(** With [n] blank nodes there are never more than [(n + 1)!] calls, nested at most
    [n + 1] times; that many if the datasets are recognised. *)
Theorem c90_bounds_partial : forall iri_eqb tag_eqb iri_cmp tag_cmp,
  ord_laws iri_cmp -> ord_laws tag_cmp ->
  (forall x y, iri_eqb x y = true <-> x = y) -> (forall x y, tag_eqb x y = true <-> x = y) ->
  forall a b l, NoDup l -> (forall x, In x l <-> blank_of local_is_anonymous a x) ->
  let c := snd (are_isomorphic_counted iri_eqb tag_eqb iri_cmp tag_cmp a b) in
  calls c <= fact (S (length l)) /\ depth c <= S (length l) /\
  (are_isomorphic iri_eqb tag_eqb iri_cmp tag_cmp a b = Some true -> depth c = S (length l)).
Proof. exact @loc_bounds. Qed.
Print Assumptions c90_bounds_partial.
Theorem c90_bounds_with_partial : forall {R St} (cmp : R -> R -> comparison), ord_laws cmp ->
  forall iri_eqb tag_eqb (I : interp_rev St R) (st : St) a b l,
  NoDup l -> (forall x, In x l <-> blank_of (nameless I st) a x) ->
  let c := snd (find_bijection_counted cmp iri_eqb tag_eqb I st a b) in
  calls c <= fact (S (length l)) /\ depth c <= S (length l) /\
  ((exists f, find_bijection_with cmp iri_eqb tag_eqb I st a b = Some (Some f)) -> depth c = S (length l)).
Proof. exact @with_bounds. Qed.
Print Assumptions c90_bounds_with_partial.

(** If no blank node of [a] looks like two of [b], there are at most [n + 1] calls. *)
Theorem c90_distinct_partial : forall iri_eqb tag_eqb iri_cmp tag_cmp,
  ord_laws iri_cmp -> ord_laws tag_cmp ->
  (forall x y, iri_eqb x y = true <-> x = y) -> (forall x y, tag_eqb x y = true <-> x = y) ->
  forall a b l, NoDup l -> (forall x, In x l <-> blank_of local_is_anonymous a x) ->
  let blank := local_is_anonymous in
  let alike := look_alike (local_cmp iri_cmp tag_cmp) local_is_anonymous a b in
  (forall x y z, blank_of blank a x -> blank_of blank b y -> blank_of blank b z -> alike x y -> alike x z -> y = z) ->
  calls (snd (are_isomorphic_counted iri_eqb tag_eqb iri_cmp tag_cmp a b)) <= S (length l).
Proof. exact @loc_single. Qed.
Print Assumptions c90_distinct_partial.
Theorem c90_distinct_with_partial : forall {R St} (cmp : R -> R -> comparison), ord_laws cmp ->
  forall iri_eqb tag_eqb (I : interp_rev St R) (st : St) a b l,
  (forall t, iri_eqb t t = true) -> (forall t, tag_eqb t t = true) ->
  terms_apart iri_eqb (literal_cow_eqb iri_eqb tag_eqb) I st ->
  NoDup l -> (forall x, In x l <-> blank_of (nameless I st) a x) ->
  let blank := nameless I st in
  let alike := look_alike cmp blank a b in
  (forall x y z, blank_of blank a x -> blank_of blank b y -> blank_of blank b z -> alike x y -> alike x z -> y = z) ->
  calls (snd (find_bijection_counted cmp iri_eqb tag_eqb I st a b)) <= S (length l).
Proof. exact @with_single. Qed.
Print Assumptions c90_distinct_with_partial.

(** The two blank nodes of a dataset, and that they look different. *)
Example c90_distinct_met :
  NoDup [w_n0; w_n1] /\ (forall x, In x [w_n0; w_n1] <-> blank_of local_is_anonymous x_a x) /\
  forall x y z, blank_of local_is_anonymous x_a x -> blank_of local_is_anonymous x_b y -> blank_of local_is_anonymous x_b z ->
    look_alike (local_cmp str_cmp str_cmp) local_is_anonymous x_a x_b x y ->
    look_alike (local_cmp str_cmp str_cmp) local_is_anonymous x_a x_b x z -> y = z.
Proof. exact x_distinct. Qed.

(** Seven quads: 326 calls for five blank nodes that look alike; three calls for two
    blank nodes that look different. *)
Example c90_case :
  are_isomorphic_counted str_eqb str_eqb str_cmp str_cmp (z_a 5) (z_b 5) = (Some false, Cost 326 6) /\
  are_isomorphic_counted str_eqb str_eqb str_cmp str_cmp x_a x_b = (Some true, Cost 3 3).
Proof. split; vm_compute; reflexivity. Qed.
