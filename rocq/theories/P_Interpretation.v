(** Property C48: interpretations.

    A trait is the record of its required methods (InterpretationModel.v):
    [interp] (Interpretation), [interp_mut] (InterpretationMut), [interp_rev]
    (ReverseInterpretation) and their local variants. *)
From Coq Require Import List NArith Bool Ascii String.
Import ListNotations.
From Verif Require Import Base TextModel DisplayModel TermModel BlankIdModel
  InterpretationModel InterpretationSpec InterpretationProofs.

(** The lexical interpretation [()]: each term denotes itself, inserting it
    changes nothing, and its terms are exactly itself. *)
Theorem c48_lexical : forall t,
  i_term unit_interp tt (term_as_ref t) = Some (Named t) /\
  fst (i_insert_term unit_mut tt (term_as_cow t)) = Named t /\
  fst (i_insert_term unit_mut tt (term_into_cow t)) = Named t /\
  (forall n, 1 <= n -> map term_cow_into_owned
     (take_next terms_next n (i_terms_of unit_rev tt (Named t))) = [t]) /\
  i_is_anonymous unit_rev tt (Named t) = false.
Proof. exact unit_lexical. Qed.
Print Assumptions c48_lexical.

(** A term denotes a resource exactly when it is among the terms of the resource. *)
Theorem c48_lexical_denotes : forall r t,
  i_term unit_interp tt (term_as_ref t) = Some r <->
  In (term_as_cow t) (map CIri (i_iris_of unit_rev tt r) ++ map CLit (i_literals_of unit_rev tt r)).
Proof. exact unit_denotes. Qed.
Print Assumptions c48_lexical_denotes.

(** The same for [LocalGeneratorInterpretation], whatever the generator, with
    blank nodes; here the anonymous resources are the blank nodes. *)
Theorem c48_local_generator_lexical : forall {G} (g : G) t,
  i_local_term lgi_interp lgi_local g (local_as_ref t) = Some t /\
  (forall n, 1 <= n ->
     take_next local_terms_next n (i_local_terms_of lgi_rev lgi_rev_local g t) = [local_as_cow t]) /\
  (i_is_anonymous lgi_rev g t = local_is_anonymous t).
Proof. exact @lgi_lexical. Qed.
Print Assumptions c48_local_generator_lexical.

Theorem c48_local_generator_insert : forall {G} (g : G) t,
  i_insert_term lgi_mut g (term_as_cow t) = (Named t, g) /\
  i_insert_term lgi_mut g (term_into_cow t) = (Named t, g).
Proof. exact @lgi_insert. Qed.
Print Assumptions c48_local_generator_insert.

(** Every interpretation: the general lookups and insertions agree with the
    specialised ones. *)
Theorem c48_dispatch_lookup : forall {St R} (I : interp St R) (L : interp_local St R) st,
  (forall i, i_local_term I L st (local_as_ref (local_from_iri i)) = i_iri I st i) /\
  (forall l, i_local_term I L st (local_as_ref (local_from_literal l)) = i_literal I st (literal_as_ref l)) /\
  (forall b, i_local_term I L st (local_as_ref (local_from_blank b)) = i_blank_id L st b) /\
  (forall t, i_local_term I L st (local_as_ref (local_from_term t)) = i_term I st (term_as_ref t)) /\
  (forall b, i_id I L st (id_as_ref (IBlank b)) = i_blank_id L st b) /\
  (forall i, i_id I L st (id_as_ref (IIri i)) = i_iri I st i).
Proof. exact @dispatch_lookup. Qed.
Print Assumptions c48_dispatch_lookup.

Theorem c48_dispatch_insert : forall {St R} (M : interp_mut St R) (L : interp_local_mut St R) st,
  (forall i, i_insert_local_term M L st (local_into_cow (local_from_iri i)) = i_insert_iri M st (Owned i)) /\
  (forall l, i_insert_local_term M L st (local_into_cow (local_from_literal l)) =
             i_insert_literal M st (literal_into_cow l)) /\
  (forall b, i_insert_local_term M L st (local_into_cow (local_from_blank b)) =
             i_insert_blank_id L st (Owned b)) /\
  (forall b, i_insert_id M L st (id_as_cow (IBlank b)) =
             i_insert_local_term M L st (local_as_cow (local_from_blank b))) /\
  (forall i, i_insert_id M L st (id_as_cow (IIri i)) =
             i_insert_local_term M L st (local_as_cow (local_from_iri i))).
Proof. exact @dispatch_insert. Qed.
Print Assumptions c48_dispatch_insert.

(** Every interpretation: [terms_of] yields the IRIs, then the literals;
    [local_terms_of] then the blank node identifiers; and a resource is anonymous
    exactly when it has neither IRI nor literal, that is when [terms_of] yields
    nothing. *)
Theorem c48_terms_of : forall {St R} (I : interp_rev St R) st r n,
  List.length (i_iris_of I st r) + List.length (i_literals_of I st r) <= n ->
  take_next terms_next n (i_terms_of I st r) =
  map CIri (i_iris_of I st r) ++ map CLit (i_literals_of I st r).
Proof. exact @terms_of_enumerates. Qed.
Print Assumptions c48_terms_of.

Theorem c48_local_terms_of :
  forall {St R} (I : interp_rev St R) (L : interp_rev_local St R) st r n,
  List.length (i_iris_of I st r) + List.length (i_literals_of I st r) +
    List.length (i_blank_ids_of L st r) <= n ->
  take_next local_terms_next n (i_local_terms_of I L st r) =
  map CNamed (map CIri (i_iris_of I st r) ++ map CLit (i_literals_of I st r)) ++
  map CAnonymous (i_blank_ids_of L st r).
Proof. exact @local_terms_of_enumerates. Qed.
Print Assumptions c48_local_terms_of.

Theorem c48_is_anonymous : forall {St R} (I : interp_rev St R) st r,
  (i_is_anonymous I st r = true <-> i_iris_of I st r = [] /\ i_literals_of I st r = []) /\
  (i_is_anonymous I st r = true <-> forall n, take_next terms_next n (i_terms_of I st r) = []).
Proof. exact @is_anonymous_facts. Qed.
Print Assumptions c48_is_anonymous.

(** [LocalGeneratorInterpretation] over the generator of blank node identifiers:
    the new resources differ from one another, are anonymous, and are what their
    identifiers denote.  Missing, because false: that they differ from the
    resources the program already uses. *)
Theorem c48_generated_distinct_partial : forall max checked n p offset l g',
  (offset <= max)%N -> checked = true \/ (N.of_nat n <= max + 1)%N ->
  lgi_run (blank_next_local_term max checked) n (gen_full p offset) = Some (l, g') ->
  NoDup l /\ List.length l = n /\
  forall r, In r l -> exists b, r = Anonymous b /\
    i_blank_id lgi_local g' b = Some r /\ i_is_anonymous lgi_rev g' r = true.
Proof. exact lgi_fresh. Qed.
Print Assumptions c48_generated_distinct_partial.

Example c48_generated_ex :
  option_map fst (lgi_run (blank_next_local_term (2 ^ 64 - 1) true) 2 (gen_full (chars "b") 7)) =
  Some [Anonymous (chars "_:b7"); Anonymous (chars "_:b8")].
Proof. reflexivity. Qed.

(** A blank node denotes [r], and then [r] is generated as a new resource. *)
Theorem c48_generated_fresh_refuted : exists b r g',
  i_blank_id lgi_local gen_new b = Some r /\
  lgi_new_resource (blank_next_local_term (2 ^ 64 - 1) true) gen_new = Some (r, g').
Proof. exact lgi_not_fresh. Qed.
Print Assumptions c48_generated_fresh_refuted.

(** [WithGenerator] and [WithLocalGenerator], over an interpretation whose
    insertions are faithful (InterpretationSpec.v), after any history of
    insertions and generations: each term that was inserted or generated denotes
    the resource that was returned, what terms denoted before they still do, and
    only equal terms got equal resources if the interpretation keeps terms
    apart. *)
Theorem c48_with_generator_partial :
  forall {St R G} (I : interp St R) (M : interp_mut St R) (next : G -> option (term * G)),
  let look st t := i_term I st (term_as_ref t) in
  faithful look (fun st t => i_insert_term M st (term_into_cow t)) ->
  forall calls w l w', wg_run M next w calls = Some (l, w') ->
    (forall t r, In (t, r) l -> i_term (wg_interp I) w' (term_as_ref t) = Some r) /\
    (forall t r, i_term (wg_interp I) w (term_as_ref t) = Some r ->
                 i_term (wg_interp I) w' (term_as_ref t) = Some r) /\
    (separate look (fst w') -> forall t r u s, In (t, r) l -> In (u, s) l -> r = s -> t = u).
Proof. exact @wg_history. Qed.
Print Assumptions c48_with_generator_partial.

Theorem c48_with_local_generator_partial :
  forall {St R G} (I : interp St R) (M : interp_mut St R) (L : interp_local St R)
    (LM : interp_local_mut St R) (next : G -> option (local_term * G)),
  let look st t := i_local_term I L st (local_as_ref t) in
  faithful look (fun st t => i_insert_local_term M LM st (local_into_cow t)) ->
  forall calls w l w', wlg_run M LM next w calls = Some (l, w') ->
    (forall t r, In (t, r) l ->
       i_local_term (wg_interp I) (wg_local L) w' (local_as_ref t) = Some r) /\
    (forall t r, i_local_term (wg_interp I) (wg_local L) w (local_as_ref t) = Some r ->
                 i_local_term (wg_interp I) (wg_local L) w' (local_as_ref t) = Some r) /\
    (separate look (fst w') -> forall t r u s, In (t, r) l -> In (u, s) l -> r = s -> t = u).
Proof. exact @wlg_history. Qed.
Print Assumptions c48_with_local_generator_partial.

(** An interpretation that numbers the terms is faithful and keeps them apart. *)
Example c48_ex_faithful :
  faithful (fun st t => i_local_term num_interp num_local st (local_as_ref t))
    (fun st t => i_insert_local_term num_mut num_local_mut st (local_into_cow t)) /\
  forall st, separate (fun st t => i_local_term num_interp num_local st (local_as_ref t)) st.
Proof. exact (conj num_faithful num_separate). Qed.
Example c48_ex_run :
  option_map (fun p => map snd (fst p))
    (wlg_run num_mut num_local_mut (blank_next_local_term (2 ^ 64 - 1) true) ([], gen_new)
       [Insert (local_iri (chars "http://a")); New; New; Insert (local_iri (chars "http://a"))]) =
  Some [0; 1; 2; 0].
Proof. reflexivity. Qed.

(** What [new_resource] generates is the successive terms of the generator,
    whatever is inserted in between. *)
Theorem c48_with_generator_generates :
  forall {St R G} (M : interp_mut St R) (next : G -> option (term * G)) calls w l w',
  wg_run M next w calls = Some (l, w') ->
  draws next (snd w) (map fst (answers_to_new calls l)) (snd w') /\ Forall2 answers calls l.
Proof. exact @wg_drawn. Qed.
Print Assumptions c48_with_generator_generates.

Theorem c48_with_local_generator_generates :
  forall {St R G} (M : interp_mut St R) (LM : interp_local_mut St R)
    (next : G -> option (local_term * G)) calls w l w',
  wlg_run M LM next w calls = Some (l, w') ->
  draws next (snd w) (map fst (answers_to_new calls l)) (snd w') /\ Forall2 answers calls l.
Proof. exact @wlg_drawn. Qed.
Print Assumptions c48_with_local_generator_generates.

(** Over the generator of blank node identifiers, the new resources therefore
    differ from one another.  Missing, because false: that they differ from the
    resources inserted before. *)
Theorem c48_with_local_generator_distinct_partial :
  forall {St R} (I : interp St R) (M : interp_mut St R) (L : interp_local St R)
    (LM : interp_local_mut St R) max checked,
  let look st t := i_local_term I L st (local_as_ref t) in
  faithful look (fun st t => i_insert_local_term M LM st (local_into_cow t)) ->
  forall calls st p offset l w',
  wlg_run M LM (blank_next_local_term max checked) (st, gen_full p offset) calls = Some (l, w') ->
  (offset <= max)%N -> checked = true \/ (N.of_nat (List.length calls) <= max + 1)%N ->
  separate look (fst w') ->
  NoDup (map snd (answers_to_new calls l)) /\
  (forall t r, In (t, r) (answers_to_new calls l) -> exists b, t = Anonymous b).
Proof. exact @wlg_distinct. Qed.
Print Assumptions c48_with_local_generator_distinct_partial.

(** Over an interpretation that also knows the terms of each resource, all the
    terms inserted or generated are among the terms of the resource returned for
    them, which therefore is not anonymous if they are not blank. *)
Theorem c48_with_generator_reverse :
  forall {St R G} (I : interp St R) (M : interp_mut St R) (V : interp_rev St R)
    (next : G -> option (term * G)),
  let look st t := i_term I st (term_as_ref t) in
  let back st r := map CIri (i_iris_of V st r) ++ map CLit (i_literals_of V st r) in
  faithful look (fun st t => i_insert_term M st (term_into_cow t)) ->
  (forall st r t, In t (map term_cow_into_owned (back st r)) <-> look st t = Some r) ->
  forall calls w l w', wg_run M next w calls = Some (l, w') ->
  forall t r, In (t, r) l ->
    i_is_anonymous (wg_rev V) w' r = false /\
    exists n, In t (map term_cow_into_owned (take_next terms_next n (i_terms_of (wg_rev V) w' r))).
Proof. exact @wg_reverse. Qed.
Print Assumptions c48_with_generator_reverse.

Theorem c48_with_local_generator_reverse :
  forall {St R G} (I : interp St R) (M : interp_mut St R) (L : interp_local St R)
    (LM : interp_local_mut St R) (V : interp_rev St R) (LV : interp_rev_local St R)
    (next : G -> option (local_term * G)),
  let look st t := i_local_term I L st (local_as_ref t) in
  let back st r := map CNamed (map CIri (i_iris_of V st r) ++ map CLit (i_literals_of V st r)) ++
                   map CAnonymous (i_blank_ids_of LV st r) in
  faithful look (fun st t => i_insert_local_term M LM st (local_into_cow t)) ->
  (forall st r t, In t (map local_cow_value (back st r)) <-> look st t = Some r) ->
  forall calls w l w', wlg_run M LM next w calls = Some (l, w') ->
  forall t r, In (t, r) l ->
    exists n, In t (map local_cow_value
                      (take_next local_terms_next n (i_local_terms_of (wg_rev V) (wg_rev_local LV) w' r))).
Proof. exact @wlg_reverse. Qed.
Print Assumptions c48_with_local_generator_reverse.

(** The numbering satisfies the hypothesis on the way back. *)
Example c48_ex_reverse : forall st r t,
  In t (map local_cow_value
    (map CNamed (map CIri (i_iris_of num_rev st r) ++ map CLit (i_literals_of num_rev st r)) ++
     map CAnonymous (i_blank_ids_of num_rev_local st r))) <->
  i_local_term num_interp num_local st (local_as_ref t) = Some r.
Proof. exact num_back. Qed.

(** But the generated term may be one that was inserted before. *)
Theorem c48_with_local_generator_fresh_refuted : exists b l w',
  wlg_run num_mut num_local_mut (blank_next_local_term (2 ^ 64 - 1) true) ([], gen_new)
    [Insert (Anonymous b); New] = Some (l, w') /\ map snd l = [0; 0].
Proof. exact wlg_not_fresh. Qed.
Print Assumptions c48_with_local_generator_fresh_refuted.

(** The fallible traits add no failure: what they return is [Ok], a panic is a
    panic. *)
Theorem c48_fallible : forall {R St E : Type},
  (forall r : option (R * St), @try_new_resource R St E r = None <-> r = None) /\
  (forall x st, @try_new_resource R St E (Some (x, st)) = Some (inl x, st)) /\
  (forall l : list R, exists m, @try_resources R E l = map inl m /\ m = l).
Proof. exact @try_facts. Qed.
Print Assumptions c48_fallible.
