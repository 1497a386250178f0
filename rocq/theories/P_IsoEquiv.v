(** Property C70: the isomorphism test is an equivalence, and depends neither on
    the order in which quads are enumerated nor on the names of blank nodes.

    It holds although the test is too coarse (C47). *)
From Coq Require Import List NArith Bool Permutation.
Import ListNotations.
From Verif Require Import Base TextModel DisplayModel TermModel TripleModel InterpretationModel
  SetSpec ContainerSpec IsoModel IsoSpec IsoTopProofs IsoEquivProofs.

(** On local terms, IRIs and language tags being compared by their normal forms [ki]
    and [kt].  The third part: a dataset and one isomorphic to it are isomorphic to
    the same datasets. *)
Theorem c70_equivalence : forall iri_eqb tag_eqb iri_cmp tag_cmp (ki kt : text -> text) (ci ct : text -> text -> comparison),
  ord_laws ci -> ord_laws ct ->
  (forall x y, iri_cmp x y = ci (ki x) (ki y)) -> (forall x y, tag_cmp x y = ct (kt x) (kt y)) ->
  (forall x y, iri_eqb x y = true <-> ki x = ki y) -> (forall x y, tag_eqb x y = true <-> kt x = kt y) ->
  let are := are_isomorphic iri_eqb tag_eqb iri_cmp tag_cmp in
  (forall a, are a a = Some true) /\ (forall a b, are a b = are b a) /\
  (forall a b c, are a b = Some true -> are b c = are a c).
Proof. exact normal_equivalence. Qed.
Print Assumptions c70_equivalence.

Theorem c70_any_order : forall iri_eqb tag_eqb iri_cmp tag_cmp (ki kt : text -> text) (ci ct : text -> text -> comparison),
  ord_laws ci -> ord_laws ct ->
  (forall x y, iri_cmp x y = ci (ki x) (ki y)) -> (forall x y, tag_cmp x y = ct (kt x) (kt y)) ->
  (forall x y, iri_eqb x y = true <-> ki x = ki y) -> (forall x y, tag_eqb x y = true <-> kt x = kt y) ->
  let normal := map (qmap (normal_term ki kt)) in
  forall a a' b b', Permutation (normal a) (normal a') -> Permutation (normal b) (normal b') ->
  are_isomorphic iri_eqb tag_eqb iri_cmp tag_cmp a b = are_isomorphic iri_eqb tag_eqb iri_cmp tag_cmp a' b'.
Proof. exact normal_perm. Qed.
Print Assumptions c70_any_order.

Theorem c70_any_names : forall iri_eqb tag_eqb iri_cmp tag_cmp (ki kt : text -> text) (ci ct : text -> text -> comparison),
  ord_laws ci -> ord_laws ct ->
  (forall x y, iri_cmp x y = ci (ki x) (ki y)) -> (forall x y, tag_cmp x y = ct (kt x) (kt y)) ->
  (forall x y, iri_eqb x y = true <-> ki x = ki y) -> (forall x y, tag_eqb x y = true <-> kt x = kt y) ->
  let normal := map (qmap (normal_term ki kt)) in
  forall a a' b h, NoDup (normal a) -> NoDup (normal a') ->
  isomorphism local_is_anonymous (normal a) (normal a') h ->
  are_isomorphic iri_eqb tag_eqb iri_cmp tag_cmp a b = are_isomorphic iri_eqb tag_eqb iri_cmp tag_cmp a' b.
Proof. exact normal_rename. Qed.
Print Assumptions c70_any_names.

(** For any interpretation in which no two resources have a term in common. *)
Theorem c70_equivalence_with : forall {R St} (cmp : R -> R -> comparison), ord_laws cmp ->
  forall iri_eqb tag_eqb (I : interp_rev St R) (st : St),
  (forall t, iri_eqb t t = true) -> (forall t, tag_eqb t t = true) ->
  terms_apart iri_eqb (literal_cow_eqb iri_eqb tag_eqb) I st ->
  let are := are_isomorphic_with cmp iri_eqb tag_eqb I st in
  (forall a, are a a = Some true) /\ (forall a b, are a b = are b a) /\
  (forall a b c, are a b = Some true -> are b c = are a c).
Proof. exact @with_equivalence. Qed.
Print Assumptions c70_equivalence_with.

Theorem c70_any_order_with : forall {R St} (cmp : R -> R -> comparison), ord_laws cmp ->
  forall iri_eqb tag_eqb (I : interp_rev St R) (st : St),
  (forall t, iri_eqb t t = true) -> (forall t, tag_eqb t t = true) ->
  terms_apart iri_eqb (literal_cow_eqb iri_eqb tag_eqb) I st ->
  forall a a' b b', Permutation a a' -> Permutation b b' ->
  are_isomorphic_with cmp iri_eqb tag_eqb I st a b = are_isomorphic_with cmp iri_eqb tag_eqb I st a' b'.
Proof. exact @with_perm. Qed.
Print Assumptions c70_any_order_with.

Theorem c70_any_names_with : forall {R St} (cmp : R -> R -> comparison), ord_laws cmp ->
  forall iri_eqb tag_eqb (I : interp_rev St R) (st : St),
  (forall t, iri_eqb t t = true) -> (forall t, tag_eqb t t = true) ->
  terms_apart iri_eqb (literal_cow_eqb iri_eqb tag_eqb) I st ->
  forall a a' b h, NoDup a -> NoDup a' -> isomorphism (nameless I st) a a' h ->
  are_isomorphic_with cmp iri_eqb tag_eqb I st a b = are_isomorphic_with cmp iri_eqb tag_eqb I st a' b.
Proof. exact @with_rename. Qed.
Print Assumptions c70_any_names_with.

(** Two different datasets and their names. *)
Example c70_case :
  NoDup x_a /\ NoDup x_b /\ isomorphism local_is_anonymous x_a x_b x_h /\
  are_isomorphic str_eqb str_eqb str_cmp str_cmp x_b (rev x_a) = Some true /\
  are_isomorphic str_eqb str_eqb str_cmp str_cmp x_b (tl x_a) = Some false.
Proof.
  split; [apply x_iso|]. split; [apply x_iso|]. split; [apply x_iso|]. split; vm_compute; reflexivity.
Qed.

(** The last hypothesis of the general form is needed: when the resources 1 and 2 have
    an IRI in common, and 2 and 3, but not 1 and 3, the test is not transitive. *)
Example c70_shared_terms :
  let I := InterpRev (fun (_ : unit) (r : nat) =>
    match r with 1 => [Owned [1%N]] | 2 => [Owned [1%N]; Owned [2%N]] | 3 => [Owned [2%N]] | _ => [] end)
    (fun _ _ => []) in
  let are := are_isomorphic_with Nat.compare str_eqb str_eqb I tt in
  let d p : list (quad nat) := [Quad 0 p 0 None] in
  are (d 1) (d 2) = Some true /\ are (d 2) (d 3) = Some true /\ are (d 1) (d 3) = Some false.
Proof. vm_compute. repeat split. Qed.
