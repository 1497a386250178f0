(** C74: patterns, triples and quads as keys of the standard collections. *)
From Coq Require Import List Bool Arith.
Import ListNotations.
From Verif Require Import Base BaseProofs TripleModel TriplePatternModel QuadPatternModel PatternSpec
  KeyModel KeySpec KeyProofs.

(** The comparisons of canonical patterns go through the components in order:
    unconstrained, then repeated, then given components (KeySpec.v).  For any
    comparisons of resources, lawful or not. *)
Theorem c74_triple_pattern_compared :
  forall T (eq : T -> T -> bool) pcmp cmp (c d : ctp T),
  ctp_eq eq c d = keys_eq eq (triple_keys c) (triple_keys d) /\
  ctp_pcmp pcmp c d = keys_pcmp pcmp (triple_keys c) (triple_keys d) /\
  ctp_cmp cmp c d = keys_cmp cmp (triple_keys c) (triple_keys d).
Proof. exact @triple_pattern_compared. Qed.
Print Assumptions c74_triple_pattern_compared.

Theorem c74_quad_pattern_compared :
  forall T (eq : T -> T -> bool) pcmp cmp (c d : cqp T),
  cqp_eq eq c d = keys_eq eq (quad_keys c) (quad_keys d) /\
  cqp_pcmp pcmp c d = keys_pcmp pcmp (quad_keys c) (quad_keys d) /\
  cqp_cmp cmp c d = keys_cmp cmp (quad_keys c) (quad_keys d).
Proof. exact @quad_pattern_compared. Qed.
Print Assumptions c74_quad_pattern_compared.

Example c74_compared_example :
  let x : ctp nat := CT_AnyS (TA_GivenP 1 TAG_SameS) in
  let y := CT_AnyS (TA_GivenP 1 (TAG_Given 0)) in
  let z := CT_GivenS 0 (TG_AnyP TGA_Any) in
  ctp_cmp Nat.compare x y = Lt /\ ctp_cmp Nat.compare y z = Lt /\ ctp_eq Nat.eqb x y = false.
Proof. repeat split. Qed.

(** If resources can be keys, so can patterns and what they are made of. *)
Theorem c74_triple_pattern_keys :
  forall T K (eq : T -> T -> bool) pcmp cmp (hash : T -> list (fed K)),
  key_laws eq pcmp cmp hash ->
    key_laws (ctp_eq eq) (ctp_pcmp pcmp) (ctp_cmp cmp) (ctp_hash hash) /\
    key_laws (t_as_eq eq) (t_as_pcmp pcmp) (t_as_cmp cmp) (t_as_hash hash) /\
    key_laws (t_gs_eq eq) (t_gs_pcmp pcmp) (t_gs_cmp cmp) (t_gs_hash hash) /\
    key_laws (t_aa_eq eq) (t_aa_pcmp pcmp) (t_aa_cmp cmp) (t_aa_hash hash) /\
    key_laws (t_ag_eq eq) (t_ag_pcmp pcmp) (t_ag_cmp cmp) (t_ag_hash hash) /\
    key_laws (t_ga_eq eq) (t_ga_pcmp pcmp) (t_ga_cmp cmp) (t_ga_hash hash) /\
    key_laws (t_gg_eq eq) (t_gg_pcmp pcmp) (t_gg_cmp cmp) (t_gg_hash hash).
Proof. exact @triple_pattern_keys. Qed.
Print Assumptions c74_triple_pattern_keys.

Theorem c74_quad_pattern_keys :
  forall T K (eq : T -> T -> bool) pcmp cmp (hash : T -> list (fed K)),
  key_laws eq pcmp cmp hash ->
    key_laws (cqp_eq eq) (cqp_pcmp pcmp) (cqp_cmp cmp) (cqp_hash hash) /\
    key_laws (q_gs_eq eq) (q_gs_pcmp pcmp) (q_gs_cmp cmp) (q_gs_hash hash) /\
    key_laws (q_as_eq eq) (q_as_pcmp pcmp) (q_as_cmp cmp) (q_as_hash hash) /\
    key_laws (q_gg_eq eq) (q_gg_pcmp pcmp) (q_gg_cmp cmp) (q_gg_hash hash) /\
    key_laws (q_ga_eq eq) (q_ga_pcmp pcmp) (q_ga_cmp cmp) (q_ga_hash hash) /\
    key_laws (q_ag_eq eq) (q_ag_pcmp pcmp) (q_ag_cmp cmp) (q_ag_hash hash) /\
    key_laws (q_aa_eq eq) (q_aa_pcmp pcmp) (q_aa_cmp cmp) (q_aa_hash hash) /\
    key_laws (q_ggg_eq eq) (q_ggg_pcmp pcmp) (q_ggg_cmp cmp) (q_ggg_hash hash) /\
    key_laws (q_gga_eq eq) (q_gga_pcmp pcmp) (q_gga_cmp cmp) (q_gga_hash hash) /\
    key_laws (q_gag_eq eq) (q_gag_pcmp pcmp) (q_gag_cmp cmp) (q_gag_hash hash) /\
    key_laws (q_agg_eq eq) (q_agg_pcmp pcmp) (q_agg_cmp cmp) (q_agg_hash hash) /\
    key_laws (q_aag_eq eq) (q_aag_pcmp pcmp) (q_aag_cmp cmp) (q_aag_hash hash) /\
    key_laws (q_aga_eq eq) (q_aga_pcmp pcmp) (q_aga_cmp cmp) (q_aga_hash hash) /\
    key_laws (q_gaa_eq eq) (q_gaa_pcmp pcmp) (q_gaa_cmp cmp) (q_gaa_hash hash) /\
    key_laws (q_aaa_eq eq) (q_aaa_pcmp pcmp) (q_aaa_cmp cmp) (q_aaa_hash hash).
Proof. exact @quad_pattern_keys. Qed.
Print Assumptions c74_quad_pattern_keys.

Theorem c74_component_keys :
  forall T K (eq : T -> T -> bool) pcmp cmp (hash : T -> list (fed K)),
  key_laws eq pcmp cmp hash ->
    key_laws (pat_s_eq eq) (pat_s_pcmp pcmp) (pat_s_cmp cmp) (pat_s_hash hash) /\
    key_laws (pat_p_eq eq) (pat_p_pcmp pcmp) (pat_p_cmp cmp) (pat_p_hash hash) /\
    key_laws (pat_o_eq eq) (pat_o_pcmp pcmp) (pat_o_cmp cmp) (pat_o_hash hash) /\
    key_laws (pat_g_eq eq) (pat_g_pcmp pcmp) (pat_g_cmp cmp) (pat_g_hash hash).
Proof. exact @component_keys. Qed.
Print Assumptions c74_component_keys.

Theorem c74_variable_keys :
  forall T X K et pt ct (ht : T -> list (fed K)) ex px cx (hx : X -> list (fed K)),
  key_laws et pt ct ht -> key_laws ex px cx hx ->
  key_laws (rv_eq et ex) (rv_pcmp pt px) (rv_cmp ct cx) (rv_hash ht hx).
Proof. exact @variable_keys. Qed.
Print Assumptions c74_variable_keys.

(** Resources come before variables. *)
Theorem c74_variables_compared : forall T X (ct : T -> T -> comparison) (cx : X -> X -> comparison),
  (forall a b, rv_cmp ct cx (Res a) (Res b) = ct a b) /\
  (forall x y, rv_cmp ct cx (Var x) (Var y) = cx x y) /\
  (forall a x, rv_cmp ct cx (Res a) (Var x) = Lt /\ rv_cmp ct cx (Var x) (Res a) = Gt).
Proof. exact @variables_compared. Qed.
Print Assumptions c74_variables_compared.

Example c74_keys_example :
  key_laws Nat.eqb (fun x y => Some (Nat.compare x y)) Nat.compare (fun n => [FOther n]).
Proof.
  split.
  - exact nat_compare_laws.
  - apply Nat.eqb_eq.
  - reflexivity.
  - cbn; intros x y l m E; now inversion E.
Qed.

(** One key for each meaning: two canonical patterns are the same key exactly when
    they match the same statements (over at least two resources). *)
Theorem c74_triple_pattern_meaning :
  forall T (a b : T) cmp,
  a <> b -> ord_laws cmp ->
  forall c d : ctp T, ctp_cmp cmp c d = Eq <-> forall t, ct_matches c t <-> ct_matches d t.
Proof. exact @triple_pattern_meaning. Qed.
Print Assumptions c74_triple_pattern_meaning.

Theorem c74_quad_pattern_meaning :
  forall T (a b : T) cmp,
  a <> b -> ord_laws cmp ->
  forall c d : cqp T, cqp_cmp cmp c d = Eq <-> forall q, cq_matches c q <-> cq_matches d q.
Proof. exact @quad_pattern_meaning. Qed.
Print Assumptions c74_quad_pattern_meaning.

(** [==] and [hash], also when equal resources are not identical: equal keys feed
    the same to the hasher.  And different statements feed different sequences, of
    which none is the beginning of another, if resources do. *)
Theorem c74_pattern_hashes :
  forall T K (eq : T -> T -> bool) (hash : T -> list (fed K)),
  (forall x y, eq x y = true -> hash x = hash y) ->
  (forall c d : ctp T, ctp_eq eq c d = true -> ctp_hash hash c = ctp_hash hash d) /\
  (forall c d : cqp T, cqp_eq eq c d = true -> cqp_hash hash c = cqp_hash hash d).
Proof. exact @pattern_hashes. Qed.
Print Assumptions c74_pattern_hashes.

Theorem c74_variable_hashes :
  forall T X K (et : T -> T -> bool) (ex : X -> X -> bool) (ht : T -> list (fed K)) hx,
  (forall x y, et x y = true -> ht x = ht y) -> (forall x y, ex x y = true -> hx x = hx y) ->
  forall a b : res_or_var T X, rv_eq et ex a b = true -> rv_hash ht hx a = rv_hash ht hx b.
Proof. exact @variable_hashes. Qed.
Print Assumptions c74_variable_hashes.

Theorem c74_statement_hashes :
  forall S P O G K es ep eo eg (hs : S -> list (fed K)) (hp : P -> list (fed K)) (ho : O -> list (fed K)) (hg : G -> list (fed K)),
  (forall x y, es x y = true -> hs x = hs y) -> (forall x y, ep x y = true -> hp x = hp y) ->
  (forall x y, eo x y = true -> ho x = ho y) -> (forall x y, eg x y = true -> hg x = hg y) ->
  (forall a b, triple_eqb es ep eo a b = true -> triple_hash hs hp ho a = triple_hash hs hp ho b) /\
  (forall a b, quad_eqb es ep eo eg a b = true -> quad_hash hs hp ho hg a = quad_hash hs hp ho hg b).
Proof. exact @statement_hashes. Qed.
Print Assumptions c74_statement_hashes.

Theorem c74_statement_hashes_differ :
  forall S P O G K (hs : S -> list (fed K)) (hp : P -> list (fed K)) (ho : O -> list (fed K)) (hg : G -> list (fed K)),
  (forall x y l m, hs x ++ l = hs y ++ m -> x = y /\ l = m) ->
  (forall x y l m, hp x ++ l = hp y ++ m -> x = y /\ l = m) ->
  (forall x y l m, ho x ++ l = ho y ++ m -> x = y /\ l = m) ->
  (forall x y l m, hg x ++ l = hg y ++ m -> x = y /\ l = m) ->
  (forall a b l m, triple_hash hs hp ho a ++ l = triple_hash hs hp ho b ++ m -> a = b /\ l = m) /\
  (forall a b l m, quad_hash hs hp ho hg a ++ l = quad_hash hs hp ho hg b ++ m -> a = b /\ l = m).
Proof. exact @statement_hashes_free. Qed.
Print Assumptions c74_statement_hashes_differ.

(** Resources that are equal modulo 10. *)
Example c74_hashes_example :
  let eq := fun x y => x mod 10 =? y mod 10 in
  let hash := fun n => [FOther (n mod 10)] in
  (forall x y, eq x y = true -> hash x = hash y) /\
  ctp_eq eq (CT_GivenS 3 (TG_AnyP TGA_SameP)) (CT_GivenS 13 (TG_AnyP TGA_SameP)) = true.
Proof.
  split; [|reflexivity].
  intros x y E; apply Nat.eqb_eq in E; now rewrite E.
Qed.
