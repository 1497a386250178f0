(** Properties C37-C42: canonical patterns. *)
From Coq Require Import List Bool Arith.
Import ListNotations.
From Verif Require Import Base TripleModel TriplePatternModel QuadPatternModel PatternSpec
  PatternProofs.

(** C37: a canonical triple pattern matches exactly the instances of the pattern. *)
Theorem c37_from_pattern :
  forall T X (xeqb : X -> X -> bool), (forall x y, xeqb x y = true <-> x = y) ->
  forall (p : triple_pattern T X) (t : triple T),
    ct_matches (ct_from_pattern xeqb p) t <-> triple_instance p t.
Proof. exact @from_pattern_matches. Qed.
Print Assumptions c37_from_pattern.

Example c37_ex_hyp : forall x y, Nat.eqb x y = true <-> x = y.
Proof. exact Nat.eqb_eq. Qed.

(** [?0 ?1 ?0] *)
Example c37_ex :
  ct_from_pattern Nat.eqb (Triple (Var 0) (Var 1) (Var 0)) = @CT_AnyS nat (TA_AnyP TAA_SameS) /\
  triple_instance (Triple (Var 0) (Var 1) (Var 0)) (Triple 7 8 7) /\
  ~ triple_instance (Triple (Var 0) (Var 1) (Var 0)) (Triple 7 8 9).
Proof.
  split; [reflexivity|]. split.
  - exists (fun x => 7 + x). cbn. auto.
  - intros (a & A & _ & B). cbn in A, B. congruence.
Qed.

Theorem c37_from_triple :
  forall T (t u : triple T), ct_matches (ct_from_triple t) u <-> u = t.
Proof. exact @from_triple_matches. Qed.
Print Assumptions c37_from_triple.

Theorem c37_from_option_triple :
  forall T (t : triple (option T)) u,
    ct_matches (ct_from_option_triple t) u <->
    agrees (t_s t) (t_s u) /\ agrees (t_p t) (t_p u) /\ agrees (t_o t) (t_o u).
Proof. exact @from_option_triple_matches. Qed.
Print Assumptions c37_from_option_triple.

(** The filter on objects computes the object constraint. *)
Theorem c37_filter_triple :
  forall T (eqb : T -> T -> bool) (c : pat_o T) t, (forall x y, eqb x y = true <-> x = y) ->
    (po_filter eqb c t = true <-> o_ok c (t_s t) (t_p t) (t_o t)).
Proof. exact @filter_matches. Qed.
Print Assumptions c37_filter_triple.

(** C38: a canonical quad pattern matches exactly the instances of the
    pattern, a graph variable standing for a resource or the default graph. *)
Theorem c38_from_pattern :
  forall T X (xeqb : X -> X -> bool), (forall x y, xeqb x y = true <-> x = y) ->
  forall (p : quad_pattern T X) (q : quad T),
    cq_matches (cq_from_pattern xeqb p) q <-> quad_instance p q.
Proof. exact @quad_from_pattern_matches. Qed.
Print Assumptions c38_from_pattern.

(** [?0 ?1 ?1 ?0] *)
Example c38_ex :
  quad_instance (Quad (Var 0) (Var 1) (Var 1) (Some (Var 0))) (Quad 7 8 8 (Some 7)) /\
  ~ quad_instance (Quad (Var 0) (Var 1) (Var 1) (Some (Var 0))) (Quad 7 8 8 None).
Proof.
  split.
  - exists (fun x => Some (7 + x)). cbn. auto.
  - intros (a & A & _ & _ & B). cbn in A, B. congruence.
Qed.

(** When variables stand for resources only, the same holds of the quads of
    named graphs, and of all quads if the graph of the pattern is not a variable. *)
Theorem c38_from_pattern_strict_partial :
  forall T X (xeqb : X -> X -> bool), (forall x y, xeqb x y = true <-> x = y) ->
  forall (p : quad_pattern T X) (q : quad T),
    (q_g q <> None \/ (forall x, q_g p <> Some (Var x))) ->
    (cq_matches (cq_from_pattern xeqb p) q <-> strict_quad_instance p q).
Proof. exact @strict_matches. Qed.
Print Assumptions c38_from_pattern_strict_partial.

(** ... but not of quads of the default graph: a graph variable matches them. *)
Theorem c38_from_pattern_strict_refuted :
  exists (p : quad_pattern nat nat) q,
    cq_matches (cq_from_pattern Nat.eqb p) q /\ ~ strict_quad_instance p q.
Proof. exact graph_variable_matches_default. Qed.
Print Assumptions c38_from_pattern_strict_refuted.

Theorem c38_from_quad :
  forall T (q r : quad T), cq_matches (cq_from_quad q) r <-> r = q.
Proof. exact @from_quad_matches. Qed.
Print Assumptions c38_from_quad.

Theorem c38_from_option_quad :
  forall T (p : quad (option T)) q,
    cq_matches (cq_from_option_quad p) q <->
    agrees (q_s p) (q_s q) /\ agrees (q_p p) (q_p q) /\ agrees (q_o p) (q_o q) /\
    agrees (q_g p) (q_g q).
Proof. exact @from_option_quad_matches. Qed.
Print Assumptions c38_from_option_quad.

Theorem c38_with_any_graph :
  forall T (c : ctp T) q,
    cq_matches (ct_with_any_graph c) q <-> ct_matches c (fst (into_triple q)).
Proof. exact @with_any_graph_matches. Qed.
Print Assumptions c38_with_any_graph.

Theorem c38_into_triple :
  forall T (c : cqp T) q,
    let (t, g) := cq_into_triple c in
    cq_matches c q <->
    ct_matches t (fst (into_triple q)) /\ g_ok g (q_s q) (q_p q) (q_o q) (q_g q).
Proof. exact @into_triple_matches. Qed.
Print Assumptions c38_into_triple.

(** Adding "any graph" and splitting it off again gives the pattern back. *)
Theorem c38_with_any_graph_into_triple :
  forall T (c : ctp T), cq_into_triple (ct_with_any_graph c) = (c, PG_Any).
Proof. exact @with_any_graph_into_triple. Qed.
Print Assumptions c38_with_any_graph_into_triple.

(** The triple part of the canonical form is the canonical form of the triple part. *)
Theorem c38_from_pattern_into_triple :
  forall T X (xeqb : X -> X -> bool) (p : triple_pattern T X) g,
    fst (cq_into_triple (cq_from_pattern xeqb (into_quad p g))) = ct_from_pattern xeqb p.
Proof. exact @from_pattern_into_triple. Qed.
Print Assumptions c38_from_pattern_into_triple.

(** C39: over at least two resources, canonical patterns with the same matches are equal. *)
Theorem c39_triple_patterns_canonical :
  forall T (a b : T), a <> b ->
  forall c d : ctp T, (forall t, ct_matches c t <-> ct_matches d t) -> c = d.
Proof. exact @ct_canonical. Qed.
Print Assumptions c39_triple_patterns_canonical.

Theorem c39_quad_patterns_canonical :
  forall T (a b : T), a <> b ->
  forall c d : cqp T, (forall q, cq_matches c q <-> cq_matches d q) -> c = d.
Proof. exact @cq_canonical. Qed.
Print Assumptions c39_quad_patterns_canonical.

Example c39_ex : (0 <> 1) /\
  (forall t, ct_matches (ct_from_pattern Nat.eqb (Triple (Var 0) (Var 1) (@Res nat _ 3))) t <->
             ct_matches (ct_from_option_triple (Triple None None (Some 3))) t).
Proof. split; [discriminate|]. intros []. reflexivity. Qed.

(** C40: the accessors describe the pattern. *)
Theorem c40_triple_accessors :
  forall T (c : ctp T) t,
    ct_matches c t <->
    s_ok (ct_subject c) (t_s t) /\ p_ok (ct_predicate c) (t_s t) (t_p t) /\
    o_ok (ct_object c) (t_s t) (t_p t) (t_o t).
Proof. exact @triple_accessors_match. Qed.
Print Assumptions c40_triple_accessors.

Theorem c40_quad_accessors :
  forall T (c : cqp T) q,
    cq_matches c q <->
    s_ok (cq_subject c) (q_s q) /\ p_ok (cq_predicate c) (q_s q) (q_p q) /\
    o_ok (cq_object c) (q_s q) (q_p q) (q_o q) /\
    g_ok (cq_graph c) (q_s q) (q_p q) (q_o q) (q_g q).
Proof. exact @quad_accessors_match. Qed.
Print Assumptions c40_quad_accessors.

Theorem c40_triple_accessors_determine :
  forall T (c d : ctp T),
    ct_subject c = ct_subject d -> ct_predicate c = ct_predicate d ->
    ct_object c = ct_object d -> c = d.
Proof. exact @triple_accessors_inj. Qed.
Print Assumptions c40_triple_accessors_determine.

Theorem c40_quad_accessors_determine :
  forall T (c d : cqp T),
    cq_subject c = cq_subject d -> cq_predicate c = cq_predicate d ->
    cq_object c = cq_object d -> cq_graph c = cq_graph d -> c = d.
Proof. exact @quad_accessors_inj. Qed.
Print Assumptions c40_quad_accessors_determine.

Theorem c40_into_parts :
  forall T (c : cqp T), cq_into_parts c = (cq_subject c, cq_predicate c, cq_object c, cq_graph c).
Proof. exact @into_parts_accessors. Qed.
Print Assumptions c40_into_parts.

Theorem c40_into_triple_accessors :
  forall T (c : cqp T),
    let (t, g) := cq_into_triple c in
    ct_subject t = cq_subject c /\ ct_predicate t = cq_predicate c /\
    ct_object t = cq_object c /\ g = cq_graph c.
Proof. exact @into_triple_accessors. Qed.
Print Assumptions c40_into_triple_accessors.

Theorem c40_map_accessors :
  forall T U (f : T -> U) (c : cqp T),
    cq_subject (cq_map f c) = pat_s_map f (cq_subject c) /\
    cq_predicate (cq_map f c) = pat_p_map f (cq_predicate c) /\
    cq_object (cq_map f c) = pat_o_map f (cq_object c) /\
    cq_graph (cq_map f c) = pat_g_map f (cq_graph c).
Proof. exact @map_accessors. Qed.
Print Assumptions c40_map_accessors.

Theorem c40_map_matches :
  forall T U (f : T -> U) (c : cqp T) q,
    (forall x y, f x = f y -> x = y) ->
    (cq_matches (cq_map f c) (quad_map f q) <-> cq_matches c q).
Proof. exact @map_matches_inj. Qed.
Print Assumptions c40_map_matches.

Example c40_ex : (forall x y, S x = S y -> x = y) /\
  cq_map S (cq_from_pattern Nat.eqb (Quad (Var 0) (Res 3) (Var 0) (Some (Var 0)))) =
  CQ_AnyS (QA_GivenP 4 (QAG_SameS QAGG_SameS)).
Proof. split; [intros x y H; injection H as H; exact H|reflexivity]. Qed.

Theorem c40_map_matches_any :
  forall T U (f : T -> U) (c : cqp T) q,
    cq_matches c q -> cq_matches (cq_map f c) (quad_map f q).
Proof. exact @map_matches. Qed.
Print Assumptions c40_map_matches_any.

(** The [id] of a component is the resource that all matches have there, if there
    is one. *)
Theorem c40_triple_ids :
  forall T, (exists a b : T, a <> b) -> forall (c : ctp T) r,
    (ps_id (ct_subject c) = Some r <-> forall t, ct_matches c t -> t_s t = r) /\
    (pp_id (ct_predicate c) = Some r <-> forall t, ct_matches c t -> t_p t = r) /\
    (po_id (ct_object c) = Some r <-> forall t, ct_matches c t -> t_o t = r).
Proof. exact @triple_ids. Qed.
Print Assumptions c40_triple_ids.

Theorem c40_quad_ids :
  forall T, (exists a b : T, a <> b) -> forall (c : cqp T) r,
    (ps_id (cq_subject c) = Some r <-> forall q, cq_matches c q -> q_s q = r) /\
    (pp_id (cq_predicate c) = Some r <-> forall q, cq_matches c q -> q_p q = r) /\
    (po_id (cq_object c) = Some r <-> forall q, cq_matches c q -> q_o q = r).
Proof. exact @quad_ids. Qed.
Print Assumptions c40_quad_ids.

Theorem c40_as_given : forall T,
  (forall s (c : t_ga T), tga_as_given c = po_id (ct_object (CT_GivenS s (TG_AnyP c)))) /\
  (forall s p (c : t_gg T), tgg_as_given c = po_id (ct_object (CT_GivenS s (TG_GivenP p c)))).
Proof. exact @as_given_ids. Qed.
Print Assumptions c40_as_given.

Example c40_ids_ex : (exists a b : nat, a <> b) /\
  po_id (ct_object (ct_from_pattern Nat.eqb (Triple (Var 0) (Var 1) (Res 7)))) = Some 7 /\
  pp_id (ct_predicate (ct_from_pattern Nat.eqb (Triple (Var 0) (Var 1) (Res 7)))) = None.
Proof. split; [exists 0, 1; discriminate|split; reflexivity]. Qed.

(** Mapping the resources of a pattern, before or after making it canonical. *)
Theorem c40_map_from_pattern :
  forall T U X (xeqb : X -> X -> bool) (f : T -> U) (p : quad_pattern T X),
    cq_from_pattern xeqb (quad_map (rv_map f) p) = cq_map f (cq_from_pattern xeqb p).
Proof. exact @map_from_pattern. Qed.
Print Assumptions c40_map_from_pattern.

Theorem c40_is_id_or :
  forall T X (f : X -> bool) (r : res_or_var T X),
    rv_is_id_or f r = false <-> exists x, r = Var x /\ f x = false.
Proof. exact @is_id_or_facts. Qed.
Print Assumptions c40_is_id_or.

Theorem c40_map2 :
  forall T U V (f : T -> U * V) (c : cqp T),
    cq_map2 f c = (cq_map (fun x => fst (f x)) c, cq_map (fun x => snd (f x)) c).
Proof. exact @map2_map. Qed.
Print Assumptions c40_map2.

(** C41: setting the subject is right for every pattern. *)
Theorem c41_set_subject :
  forall T (c : ctp T) x t,
    ct_matches (snd (ct_set_subject x c)) t <->
    set_s_spec (match ct_subject c with PS_Given _ => true | _ => false end) (ct_matches c) x t.
Proof. exact @set_subject_matches. Qed.
Print Assumptions c41_set_subject.

Theorem c41_set_subject_returns :
  forall T (c : ctp T) x, fst (ct_set_subject x c) = ct_subject c.
Proof. exact @set_subject_returns. Qed.
Print Assumptions c41_set_subject_returns.

(** C41: setting the predicate, except on [?x ?y ?x]. *)
Theorem c41_set_predicate_partial :
  forall T (c : ctp T) x t,
    ~ (ct_subject c = PS_Any /\ ct_predicate c = PP_Any /\ ct_object c = PO_SameS) ->
    ct_matches (snd (ct_set_predicate x c)) t <->
    set_p_spec (match ct_predicate c with PP_Given _ => true | _ => false end) (ct_matches c) x t.
Proof. exact @set_predicate_matches. Qed.
Print Assumptions c41_set_predicate_partial.

Theorem c41_set_predicate_returns :
  forall T (c : ctp T) x, fst (ct_set_predicate x c) = ct_predicate c.
Proof. exact @set_predicate_returns. Qed.
Print Assumptions c41_set_predicate_returns.

(** On [?x ?y ?x] the equality of subject and object is lost, so that triples
    match which no predicate could have made match before. *)
Theorem c41_set_predicate_refuted :
  exists (c : ctp nat) x t,
    ct_matches (snd (ct_set_predicate x c)) t /\ ~ ct_matches c t /\
    ~ exists y, ct_matches c (Triple (t_s t) y (t_o t)).
Proof. exact set_predicate_loses. Qed.
Print Assumptions c41_set_predicate_refuted.

(** C41: setting the object, except on [?x p ?x]. *)
Theorem c41_set_object_partial :
  forall T (c : ctp T) x t,
    ~ (ct_subject c = PS_Any /\ (exists p, ct_predicate c = PP_Given p) /\ ct_object c = PO_SameS) ->
    ct_matches (snd (ct_set_object x c)) t <->
    set_o_spec (match ct_object c with PO_Given _ => true | _ => false end) (ct_matches c) x t.
Proof. exact @set_object_matches. Qed.
Print Assumptions c41_set_object_partial.

Example c41_ex :
  let c := ct_from_pattern Nat.eqb (Triple (Var 0) (Var 1) (@Var nat _ 1)) in
  ~ (ct_subject c = PS_Any /\ (exists p, ct_predicate c = PP_Given p) /\ ct_object c = PO_SameS) /\
  ~ (ct_subject c = PS_Any /\ ct_predicate c = PP_Any /\ ct_object c = PO_SameS) /\
  snd (ct_set_object 5 c) = CT_AnyS (TA_GivenP 5 (TAG_Given 5)).
Proof. cbn. repeat split; intros (_ & _ & H); discriminate. Qed.

(** Neither reading of "setting the object" fits all patterns with object =
    subject: on [?x p ?x] the equality is dropped, on [?x ?y ?x] it is kept. *)
Theorem c41_set_object_refuted :
  (exists (c : ctp nat) x t,
     ct_object c = PO_SameS /\ t_o t = x /\
     ct_matches (snd (ct_set_object x c)) t /\ ~ ct_matches c t) /\
  (exists (c : ctp nat) x t,
     ct_object c = PO_SameS /\ t_o t = x /\
     ~ ct_matches (snd (ct_set_object x c)) t /\
     exists y, ct_matches c (Triple (t_s t) (t_p t) y)).
Proof. exact set_object_inconsistent. Qed.
Print Assumptions c41_set_object_refuted.

Theorem c41_set_object_returns_partial :
  forall T (c : ctp T) x, ct_object c <> PO_SameP -> fst (ct_set_object x c) = ct_object c.
Proof. exact @set_object_returns. Qed.
Print Assumptions c41_set_object_returns_partial.

Theorem c41_set_object_returns_refuted :
  exists (c : ctp nat) x, fst (ct_set_object x c) <> ct_object c.
Proof. exact set_object_wrong_result. Qed.
Print Assumptions c41_set_object_returns_refuted.

(** What is returned then: that there was no constraint on the object. *)
Theorem c41_set_object_returns_any :
  forall T (c : ctp T) x, ct_object c = PO_SameP -> fst (ct_set_object x c) = PO_Any.
Proof. exact @set_object_returns_any. Qed.
Print Assumptions c41_set_object_returns_any.

Example c41_set_object_returns_any_ex :
  ct_object (CT_AnyS (TA_AnyP TAA_SameP) : ctp nat) = PO_SameP.
Proof. reflexivity. Qed.

(** C41: the setters of [AnySubject], called by themselves.  A constraint that
    refers to the subject is dropped together with what it said of the subject. *)
Theorem c41_any_subject_set_predicate :
  forall T (c : t_as T) x t,
    let m := ct_matches (CT_AnyS c) in
    let given := match tas_predicate c with PP_Given _ => true | _ => false end in
    let frees := tas_predicate c = PP_SameS \/ tas_predicate c = PP_Any /\ tas_object c = PO_SameS in
    fst (tas_set_predicate x c) = tas_predicate c /\
    (frees -> (ct_matches (CT_AnyS (snd (tas_set_predicate x c))) t <->
               t_p t = x /\ exists s, m (Triple s (t_p t) (t_o t)))) /\
    (~ frees -> (ct_matches (CT_AnyS (snd (tas_set_predicate x c))) t <-> set_p_spec given m x t)).
Proof. exact @any_subject_set_predicate. Qed.
Print Assumptions c41_any_subject_set_predicate.

Theorem c41_any_subject_set_object_partial :
  forall T (c : t_as T) x t,
    let m := ct_matches (CT_AnyS c) in
    let given := match tas_object c with PO_Given _ => true | _ => false end in
    (tas_object c <> PO_SameP -> fst (tas_set_object x c) = tas_object c) /\
    (tas_object c = PO_SameS -> (ct_matches (CT_AnyS (snd (tas_set_object x c))) t <->
               t_o t = x /\ exists s, m (Triple s (t_p t) (t_o t)))) /\
    (tas_object c <> PO_SameS -> (ct_matches (CT_AnyS (snd (tas_set_object x c))) t <-> set_o_spec given m x t)).
Proof. exact @any_subject_set_object. Qed.
Print Assumptions c41_any_subject_set_object_partial.

Example c41_any_subject_ex :
  snd (tas_set_predicate 7 (TA_SameS TAG_SameS)) = TA_GivenP 7 (TAG_Given 7) /\
  snd (tas_set_object 7 (TA_SameS TAG_Any)) = TA_SameS (TAG_Given 7).
Proof. split; reflexivity. Qed.

(** C42: what the three ways of lifting a triple (pattern) to quads match. *)
Theorem c42_from_triple_meaning :
  forall T (t : triple T) q, cq_matches (cq_from_triple t) q <-> fst (into_triple q) = t.
Proof. exact @quad_from_triple_matches. Qed.
Print Assumptions c42_from_triple_meaning.

Theorem c42_from_option_triple_meaning :
  forall T (p : triple (option T)) q,
    cq_matches (cq_from_option_triple p) q <->
    agrees (t_s p) (q_s q) /\ agrees (t_p p) (q_p q) /\ agrees (t_o p) (q_o q).
Proof. exact @quad_from_option_triple_matches. Qed.
Print Assumptions c42_from_option_triple_meaning.

Theorem c42_from_triple_pattern_meaning :
  forall T X (xeqb : X -> X -> bool), (forall x y, xeqb x y = true <-> x = y) ->
  forall (p : triple_pattern T X) q,
    cq_matches (cq_from_triple_pattern xeqb p) q <->
    q_g q = None /\ triple_instance p (Triple (q_s q) (q_p q) (q_o q)).
Proof. exact @from_triple_pattern_matches. Qed.
Print Assumptions c42_from_triple_pattern_meaning.

(** They agree on the default graph ... *)
Theorem c42_lifting_consistent_partial :
  forall T X (xeqb : X -> X -> bool) (t : triple T) q,
    q_g q = None ->
    (cq_matches (cq_from_triple t) q <->
     cq_matches (cq_from_triple_pattern xeqb (triple_map Res t)) q) /\
    (cq_matches (cq_from_triple t) q <->
     cq_matches (cq_from_option_triple (triple_map Some t)) q).
Proof. exact @lifting_consistent. Qed.
Print Assumptions c42_lifting_consistent_partial.

Theorem c42_from_triple_is_from_option_triple :
  forall T (t : triple T), cq_from_triple t = cq_from_option_triple (triple_map Some t).
Proof. exact @lifting_options. Qed.
Print Assumptions c42_from_triple_is_from_option_triple.

(** ... but not on named graphs. *)
Theorem c42_lifting_consistent_refuted :
  exists (t : triple nat) q,
    cq_matches (cq_from_triple t) q /\
    ~ cq_matches (cq_from_triple_pattern Nat.eqb (triple_map Res t)) q.
Proof. exact lifting_inconsistent. Qed.
Print Assumptions c42_lifting_consistent_refuted.
