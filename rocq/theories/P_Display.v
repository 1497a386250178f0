(** Properties C07-C11 and C52: the text of terms, statements and containers.

    [read_string], [read_iri], [read_literal], [read_term] and [read_document]
    (NTriplesSpec.v) read N-Triples and N-Quads text; they return what was read
    and the rest.  [iri_eqb] and [tag_eqb] are [==] of IRIs and of language tags,
    which crates outside this repository define; [iri_cmp] and [tag_cmp] their
    orders. *)
From Coq Require Import List NArith Bool Ascii String.
Import ListNotations.
From Verif Require Import Base TextModel TripleModel DisplayModel TermModel TermSpec TermProofs
  NTriplesSpec DisplaySpec DisplayProofs SetSpec ContainerSpec IndexedSpec Machine BTreeDatasetModel
  BTreeGraphModel IndexedDatasetModel IndexedGraphModel IndexedRunProofs IndexedGraphRunProofs
  DisplayContainerModel DisplayRunProofs DisplayExactProofs.
Local Open Scope N_scope.

(** ** C07 *)

(** Every string is read back, whatever follows. *)
Theorem c07_strings_read_back : forall s rest,
  read_string (str_rdf_fmt plain s ++ rest) = Some (s, rest).
Proof. exact str_round_trip. Qed.
Print Assumptions c07_strings_read_back.

(** Between its two quotes the text has no line break, and a backslash before
    every quote. *)
Theorem c07_no_injection : forall s, exists body,
  str_rdf_fmt plain s = 34 :: body ++ [34] /\ ~ In 10 body /\ ~ In 13 body /\
  (forall a b, body = a ++ 34 :: b -> exists a', a = a' ++ [92]).
Proof. exact str_fmt_shape. Qed.
Print Assumptions c07_no_injection.

Example c07_ex : str_rdf_fmt plain ([34; 92; 10; 13] ++ chars "x" ++ [0x1F600; 0]) =
  [34; 92; 34; 92; 92; 92; 110; 92; 114; 120; 0x1F600; 0; 34].
Proof. reflexivity. Qed.

(** ** C08 *)

(** A literal is read back as an equal literal, and as the same literal if [==] of
    IRIs is the equality of their texts. *)
Theorem c08_literals_read_back :
  forall iri_eqb tag_eqb iri_cmp tag_cmp, lawful iri_eqb iri_cmp -> lawful tag_eqb tag_cmp ->
  forall l rest, good_ltype (l_type l) -> ends_literal rest ->
    exists m, read_literal (literal_rdf_fmt iri_eqb plain l ++ rest) = Some (m, rest) /\
      literal_eqb iri_eqb tag_eqb l m = true /\
      ((forall i j, iri_eqb i j = true <-> i = j) -> m = l).
Proof. exact literal_read. Qed.
Print Assumptions c08_literals_read_back.

(** Two literals with the same text are equal, whatever the characters of their
    datatypes and tags. *)
Theorem c08_same_text_same_literal :
  forall iri_eqb tag_eqb iri_cmp tag_cmp, lawful iri_eqb iri_cmp -> lawful tag_eqb tag_cmp ->
  forall l m,
    literal_rdf_fmt iri_eqb plain l = literal_rdf_fmt iri_eqb plain m ->
    literal_eqb iri_eqb tag_eqb l m = true.
Proof. exact literal_same_text. Qed.
Print Assumptions c08_same_text_same_literal.

Example c08_ex_hyps : lawful str_eqb str_cmp /\ good_ltype (LAny (chars "http://example.org/#t")) /\
  good_ltype (LLang (chars "fr-CA-x-1")) /\ ends_literal (chars " .").
Proof.
  split; [exact str_lawful|]. split; [repeat constructor|]. split.
  - exists (chars "fr"), [chars "CA"; chars "x"; chars "1"]. split; [reflexivity|].
    split; [discriminate|]. split; [reflexivity|].
    repeat constructor; discriminate.
  - repeat split; discriminate.
Qed.
Example c08_ex :
  literal_rdf_fmt str_eqb plain (Literal (chars "a") (LAny XSD_STRING)) = [34; 97; 34] /\
  literal_rdf_fmt str_eqb plain (Literal (chars "a") (LLang (chars "en"))) =
    [34; 97; 34] ++ chars "@en" /\
  literal_rdf_fmt str_eqb plain (Literal (chars "a") (LAny (chars "b:c"))) =
    [34; 97; 34] ++ chars "^^<b:c>".
Proof. repeat split. Qed.

(** ** C09 *)

(** Partial: IRIs without the characters that N-Triples forbids in IRIs, which is
    the case of every valid IRI: they are written as they are and read back. *)
Theorem c09_valid_iris_read_back_partial : forall i rest, good_iri i ->
  iri_rdf_fmt plain i = chars "<" ++ i ++ chars ">" /\
  read_iri (iri_rdf_fmt plain i ++ rest) = Some (i, rest).
Proof. exact (fun i rest G => conj (iri_fmt_raw i G) (iri_round_trip i rest G)). Qed.
Print Assumptions c09_valid_iris_read_back_partial.

(** Refuted in general: the escape [\u0x20] is not one of N-Triples; no string
    with such a character is read back. *)
Theorem c09_escapes_refuted :
  (exists s, iri_rdf_fmt plain s = chars "<a:\u0x20>" /\ read_iri (iri_rdf_fmt plain s) = None) /\
  (forall i rest, ~ good_iri i -> read_iri (iri_rdf_fmt plain i ++ rest) = None).
Proof. exact (conj iri_counterexample iri_not_read). Qed.
Print Assumptions c09_escapes_refuted.

(** What is written for all texts: the dialect in which the escape is [\u0x] and
    two lower case digits; so different IRIs always have different texts.  Missing:
    that this is N-Triples (refuted above). *)
Theorem c09_dialect_reads_back_partial :
  (forall i rest, read_iri_0x (iri_rdf_fmt plain i ++ rest) = Some (i, rest)) /\
  (forall i j, iri_rdf_fmt plain i = iri_rdf_fmt plain j -> i = j).
Proof. exact (conj iri_0x_round_trip iri_fmt_inj). Qed.
Print Assumptions c09_dialect_reads_back_partial.

Example c09_ex : good_iri (chars "http://example.org/a?b=c#d") /\ ~ good_iri (chars "a: b").
Proof.
  split; [repeat constructor|]. intros H. unfold good_iri in H. rewrite Forall_forall in H.
  assert (S : In 32 (chars "a: b")) by (cbn; tauto). now apply H in S.
Qed.

(** ** C10 *)

(** Terms without blank nodes are read back as equal terms. *)
Theorem c10_terms_read_back :
  forall iri_eqb tag_eqb iri_cmp tag_cmp, lawful iri_eqb iri_cmp -> lawful tag_eqb tag_cmp ->
  forall t rest, good_term t -> ends_literal rest ->
    exists u, read_term (term_rdf_fmt iri_eqb plain t ++ rest) = Some (u, rest) /\
      term_eqb iri_eqb tag_eqb t u = true /\
      ((forall i j, iri_eqb i j = true <-> i = j) -> u = t).
Proof. exact term_read. Qed.
Print Assumptions c10_terms_read_back.

Theorem c10_same_text_same_term :
  forall iri_eqb tag_eqb iri_cmp tag_cmp, lawful iri_eqb iri_cmp -> lawful tag_eqb tag_cmp ->
  forall s t,
    term_rdf_fmt iri_eqb plain s = term_rdf_fmt iri_eqb plain t ->
    term_eqb iri_eqb tag_eqb s t = true.
Proof. exact term_same_text. Qed.
Print Assumptions c10_same_text_same_term.

(** The same for [Display] of local terms, blank nodes included, when IRIs begin
    with a letter and blank identifiers with an underscore and a colon. *)
Theorem c10_display_same_text_same_term :
  forall iri_eqb tag_eqb iri_cmp tag_cmp, lawful iri_eqb iri_cmp -> lawful tag_eqb tag_cmp ->
  forall s t,
    (forall i, s = Named (TIri i) \/ t = Named (TIri i) -> exists c r, i = c :: r /\ alpha c = true) ->
    (forall b, s = Anonymous b \/ t = Anonymous b -> exists r, b = 95 :: 58 :: r) ->
    local_term_fmt iri_eqb plain s = local_term_fmt iri_eqb plain t ->
    local_eqb iri_eqb tag_eqb s t = true.
Proof. exact local_display_same_text. Qed.
Print Assumptions c10_display_same_text_same_term.

(** Partial: local terms that are not blank are written like terms. *)
Theorem c10_named_partial : forall iri_eqb t,
  local_term_rdf_fmt iri_eqb plain (Named t) = term_rdf_fmt iri_eqb plain t.
Proof. exact local_named. Qed.
Print Assumptions c10_named_partial.

(** Refuted for blank nodes: every blank node is written as the string literal
    with the same characters. *)
Theorem c10_blank_nodes_refuted :
  (exists s t, (exists b, s = Anonymous b /\ good_term (TLit (Literal b (LAny XSD_STRING)))) /\
     (exists u, t = Named u) /\ s <> t /\
     forall iri_eqb, (forall i, iri_eqb i i = true) ->
       local_term_rdf_fmt iri_eqb plain s = local_term_rdf_fmt iri_eqb plain t) /\
  (forall iri_eqb b, (forall i, iri_eqb i i = true) ->
     local_term_rdf_fmt iri_eqb plain (Anonymous b) =
     local_term_rdf_fmt iri_eqb plain (Named (TLit (Literal b (LAny XSD_STRING))))).
Proof. exact (conj local_counterexample local_blank_is_string). Qed.
Print Assumptions c10_blank_nodes_refuted.

(** What is written for all local terms: it is read as the term of which [seen] says
    that a blank node is taken for a string.  So two terms have the same text only
    if they are equal, or one is a blank node and the other the string with the same
    characters.  Missing: that blank nodes are read as blank nodes (refuted above). *)
Theorem c10_read_back_partial : forall iri_eqb, (forall i j, iri_eqb i j = true <-> i = j) ->
  forall t rest, good_term (seen t) -> ends_literal rest ->
    read_term (local_term_rdf_fmt iri_eqb plain t ++ rest) = Some (seen t, rest).
Proof. exact local_read. Qed.
Print Assumptions c10_read_back_partial.

Theorem c10_collision_iff_partial : forall iri_eqb, (forall i j, iri_eqb i j = true <-> i = j) ->
  forall s t, local_term_rdf_fmt iri_eqb plain s = local_term_rdf_fmt iri_eqb plain t <->
    s = t \/ (exists b, s = Anonymous b /\ t = Named (TLit (Literal b (LAny XSD_STRING)))) \/
    (exists b, t = Anonymous b /\ s = Named (TLit (Literal b (LAny XSD_STRING)))).
Proof. exact local_collisions. Qed.
Print Assumptions c10_collision_iff_partial.

Example c10_seen_ex : good_term (seen (Anonymous (chars "_:x"))) /\
  (forall i j, str_eqb i j = true <-> i = j).
Proof. split; [repeat constructor|exact str_eqb_spec]. Qed.

Example c10_ex : good_term (TIri (chars "a:b")) /\
  term_rdf_fmt str_eqb plain (TIri (chars "a:b")) = chars "<a:b>" /\
  local_term_fmt str_eqb plain (Anonymous (chars "_:x")) = chars "_:x" /\
  local_term_rdf_fmt str_eqb plain (Anonymous (chars "_:x")) = [34] ++ chars "_:x" ++ [34].
Proof. split; [repeat constructor|repeat split]. Qed.

(** ** C11
    Partial: the resources are terms without blank nodes.  [norm_term] replaces a
    datatype that is [==] to xsd:string by xsd:string, nothing else. *)

Theorem c11_btree_dataset_partial :
  forall iri_eqb (cmp : term -> term -> comparison), ord_laws cmp ->
  forall keep ops xs d, run (bd_step cmp keep) bd_new ops = Some (xs, d) ->
    (forall q, In q (spec_set (quad_cmp cmp) ops) -> good_quad good_term q) ->
    exists s l, bd_rdf_fmt (term_rdf_fmt iri_eqb) d = Some s /\ increasing (quad_cmp cmp) l /\
      (forall q, In q l <-> In q (spec_set (quad_cmp cmp) ops)) /\
      read_document read_term s = Some (map (norm_quad (norm_term iri_eqb)) l).
Proof. exact bd_text. Qed.
Print Assumptions c11_btree_dataset_partial.

Theorem c11_indexed_dataset_partial :
  forall iri_eqb (cmp : term -> term -> comparison), ord_laws cmp ->
  forall keep ops0 ops xs d, id_reached cmp keep ops0 ops xs d ->
    (forall q, In q (final_set cmp ops0 ops xs) -> good_quad good_term q) ->
    exists s l, id_rdf_fmt (term_rdf_fmt iri_eqb) d = Some s /\ increasing (quad_cmp cmp) l /\
      (forall q, In q l <-> In q (final_set cmp ops0 ops xs)) /\
      read_document read_term s = Some (map (norm_quad (norm_term iri_eqb)) l).
Proof. exact id_text. Qed.
Print Assumptions c11_indexed_dataset_partial.

Theorem c11_btree_graph_partial :
  forall iri_eqb (cmp : term -> term -> comparison), ord_laws cmp ->
  forall keep ops xs g, run (bg_step cmp keep) bg_new ops = Some (xs, g) ->
    (forall t, In t (spec_set (triple_cmp cmp) ops) -> good_triple good_term t) ->
    exists s l, bg_rdf_fmt (term_rdf_fmt iri_eqb) g = Some s /\ increasing (triple_cmp cmp) l /\
      (forall t, In t l <-> In t (spec_set (triple_cmp cmp) ops)) /\
      read_document read_term s =
        Some (map (fun t => norm_quad (norm_term iri_eqb) (triple_as_quad t)) l).
Proof. exact bg_text. Qed.
Print Assumptions c11_btree_graph_partial.

Theorem c11_indexed_graph_partial :
  forall iri_eqb (cmp : term -> term -> comparison), ord_laws cmp ->
  forall keep ops0 ops g, ig_reached cmp keep ops0 ops g ->
    (forall t, In t (spec_set (triple_cmp cmp) (ops0 ++ ops)) -> good_triple good_term t) ->
    exists s l, ig_rdf_fmt (term_rdf_fmt iri_eqb) g = Some s /\ increasing (triple_cmp cmp) l /\
      (forall t, In t l <-> In t (spec_set (triple_cmp cmp) (ops0 ++ ops))) /\
      read_document read_term s =
        Some (map (fun t => norm_quad (norm_term iri_eqb) (triple_as_quad t)) l).
Proof. exact ig_text. Qed.
Print Assumptions c11_indexed_graph_partial.

(** Two containers with the same text have the same elements. *)
Theorem c11_btree_dataset_same_text_partial :
  forall iri_eqb (cmp : term -> term -> comparison), ord_laws cmp ->
  (forall i j, iri_eqb i j = true <-> i = j) ->
  forall keep ops1 ops2 xs1 xs2 d1 d2 s,
    run (bd_step cmp keep) bd_new ops1 = Some (xs1, d1) ->
    run (bd_step cmp keep) bd_new ops2 = Some (xs2, d2) ->
    (forall q, In q (spec_set (quad_cmp cmp) ops1) -> good_quad good_term q) ->
    (forall q, In q (spec_set (quad_cmp cmp) ops2) -> good_quad good_term q) ->
    bd_rdf_fmt (term_rdf_fmt iri_eqb) d1 = Some s -> bd_rdf_fmt (term_rdf_fmt iri_eqb) d2 = Some s ->
    forall q, In q (spec_set (quad_cmp cmp) ops1) <-> In q (spec_set (quad_cmp cmp) ops2).
Proof. exact bd_same_text. Qed.
Print Assumptions c11_btree_dataset_same_text_partial.

Theorem c11_indexed_dataset_same_text_partial :
  forall iri_eqb (cmp : term -> term -> comparison), ord_laws cmp ->
  (forall i j, iri_eqb i j = true <-> i = j) ->
  forall keep ops0 ops xs d ops0' ops' xs' d' s,
    id_reached cmp keep ops0 ops xs d -> id_reached cmp keep ops0' ops' xs' d' ->
    (forall q, In q (final_set cmp ops0 ops xs) -> good_quad good_term q) ->
    (forall q, In q (final_set cmp ops0' ops' xs') -> good_quad good_term q) ->
    id_rdf_fmt (term_rdf_fmt iri_eqb) d = Some s -> id_rdf_fmt (term_rdf_fmt iri_eqb) d' = Some s ->
    forall q, In q (final_set cmp ops0 ops xs) <-> In q (final_set cmp ops0' ops' xs').
Proof. exact id_same_text. Qed.
Print Assumptions c11_indexed_dataset_same_text_partial.

Theorem c11_btree_graph_same_text_partial :
  forall iri_eqb (cmp : term -> term -> comparison), ord_laws cmp ->
  (forall i j, iri_eqb i j = true <-> i = j) ->
  forall keep ops1 ops2 xs1 xs2 g1 g2 s,
    run (bg_step cmp keep) bg_new ops1 = Some (xs1, g1) ->
    run (bg_step cmp keep) bg_new ops2 = Some (xs2, g2) ->
    (forall t, In t (spec_set (triple_cmp cmp) ops1) -> good_triple good_term t) ->
    (forall t, In t (spec_set (triple_cmp cmp) ops2) -> good_triple good_term t) ->
    bg_rdf_fmt (term_rdf_fmt iri_eqb) g1 = Some s -> bg_rdf_fmt (term_rdf_fmt iri_eqb) g2 = Some s ->
    forall t, In t (spec_set (triple_cmp cmp) ops1) <-> In t (spec_set (triple_cmp cmp) ops2).
Proof. exact bg_same_text. Qed.
Print Assumptions c11_btree_graph_same_text_partial.

Theorem c11_indexed_graph_same_text_partial :
  forall iri_eqb (cmp : term -> term -> comparison), ord_laws cmp ->
  (forall i j, iri_eqb i j = true <-> i = j) ->
  forall keep ops0 ops g ops0' ops' g' s,
    ig_reached cmp keep ops0 ops g -> ig_reached cmp keep ops0' ops' g' ->
    (forall t, In t (spec_set (triple_cmp cmp) (ops0 ++ ops)) -> good_triple good_term t) ->
    (forall t, In t (spec_set (triple_cmp cmp) (ops0' ++ ops')) -> good_triple good_term t) ->
    ig_rdf_fmt (term_rdf_fmt iri_eqb) g = Some s -> ig_rdf_fmt (term_rdf_fmt iri_eqb) g' = Some s ->
    forall t, In t (spec_set (triple_cmp cmp) (ops0 ++ ops)) <->
      In t (spec_set (triple_cmp cmp) (ops0' ++ ops')).
Proof. exact ig_same_text. Qed.
Print Assumptions c11_indexed_graph_same_text_partial.

(** Refuted with blank nodes: two datasets with the same text and different
    contents. *)
Theorem c11_blank_nodes_refuted : exists ops1 ops2 : list (op (quad local_term)),
  forall keep, exists xs1 xs2 d1 d2 s,
    run (bd_step (local_cmp str_cmp str_cmp) keep) bd_new ops1 = Some (xs1, d1) /\
    run (bd_step (local_cmp str_cmp str_cmp) keep) bd_new ops2 = Some (xs2, d2) /\
    bd_rdf_fmt (local_term_rdf_fmt str_eqb) d1 = Some s /\
    bd_rdf_fmt (local_term_rdf_fmt str_eqb) d2 = Some s /\
    exists q, In q (spec_set (quad_cmp (local_cmp str_cmp str_cmp)) ops1) /\
      ~ In q (spec_set (quad_cmp (local_cmp str_cmp str_cmp)) ops2).
Proof. exact dataset_counterexample. Qed.
Print Assumptions c11_blank_nodes_refuted.

(** With blank nodes: what is written for all datasets and graphs of local terms is
    read as the quads in which the blank nodes are taken for strings, in the order
    of the container. *)
Theorem c11_btree_dataset_blank_partial :
  forall iri_eqb, (forall i j, iri_eqb i j = true <-> i = j) ->
  forall (cmp : local_term -> local_term -> comparison), ord_laws cmp ->
  forall keep ops xs d, run (bd_step cmp keep) bd_new ops = Some (xs, d) ->
    (forall q, In q (spec_set (quad_cmp cmp) ops) -> good_quad good_term (seen_quad q)) ->
    exists s l, bd_rdf_fmt (local_term_rdf_fmt iri_eqb) d = Some s /\ increasing (quad_cmp cmp) l /\
      (forall q, In q l <-> In q (spec_set (quad_cmp cmp) ops)) /\
      read_document read_term s = Some (map seen_quad l).
Proof. exact bd_local_text. Qed.
Print Assumptions c11_btree_dataset_blank_partial.

Theorem c11_indexed_dataset_blank_partial :
  forall iri_eqb, (forall i j, iri_eqb i j = true <-> i = j) ->
  forall (cmp : local_term -> local_term -> comparison), ord_laws cmp ->
  forall keep ops0 ops xs d, id_reached cmp keep ops0 ops xs d ->
    (forall q, In q (final_set cmp ops0 ops xs) -> good_quad good_term (seen_quad q)) ->
    exists s l, id_rdf_fmt (local_term_rdf_fmt iri_eqb) d = Some s /\ increasing (quad_cmp cmp) l /\
      (forall q, In q l <-> In q (final_set cmp ops0 ops xs)) /\
      read_document read_term s = Some (map seen_quad l).
Proof. exact id_local_text. Qed.
Print Assumptions c11_indexed_dataset_blank_partial.

Theorem c11_btree_graph_blank_partial :
  forall iri_eqb, (forall i j, iri_eqb i j = true <-> i = j) ->
  forall (cmp : local_term -> local_term -> comparison), ord_laws cmp ->
  forall keep ops xs g, run (bg_step cmp keep) bg_new ops = Some (xs, g) ->
    (forall t, In t (spec_set (triple_cmp cmp) ops) -> good_quad good_term (seen_triple t)) ->
    exists s l, bg_rdf_fmt (local_term_rdf_fmt iri_eqb) g = Some s /\ increasing (triple_cmp cmp) l /\
      (forall t, In t l <-> In t (spec_set (triple_cmp cmp) ops)) /\
      read_document read_term s = Some (map seen_triple l).
Proof. exact bg_local_text. Qed.
Print Assumptions c11_btree_graph_blank_partial.

Theorem c11_indexed_graph_blank_partial :
  forall iri_eqb, (forall i j, iri_eqb i j = true <-> i = j) ->
  forall (cmp : local_term -> local_term -> comparison), ord_laws cmp ->
  forall keep ops0 ops g, ig_reached cmp keep ops0 ops g ->
    (forall t, In t (spec_set (triple_cmp cmp) (ops0 ++ ops)) -> good_quad good_term (seen_triple t)) ->
    exists s l, ig_rdf_fmt (local_term_rdf_fmt iri_eqb) g = Some s /\ increasing (triple_cmp cmp) l /\
      (forall t, In t l <-> In t (spec_set (triple_cmp cmp) (ops0 ++ ops))) /\
      read_document read_term s = Some (map seen_triple l).
Proof. exact ig_local_text. Qed.
Print Assumptions c11_indexed_graph_blank_partial.

Example c11_seen_ex :
  good_quad good_term (seen_quad (Quad (Anonymous (chars "_:s")) (Named (TIri (chars "a:p")))
                                    (Anonymous (chars "_:o")) None)).
Proof. repeat split; repeat constructor. Qed.

(** The order of terms is an order for the containers, and a history meets the
    hypotheses. *)
Definition c11_quad : quad term :=
  Quad (TIri (chars "a:s")) (TIri (chars "a:p")) (TLit (Literal [34; 10] (LAny (chars "a:t"))))
    (Some (TIri (chars "a:g"))).
Example c11_ex_order : ord_laws (term_cmp str_cmp str_cmp).
Proof.
  apply (ord_of_lawful _ (term_eqb str_eqb str_eqb)); [exact (term_lawful str_lawful str_lawful)|].
  intros [i|[v [i|i]]] [j|[w [j|j]]]; cbn; unfold literal_eqb; cbn;
    rewrite ?andb_true_iff, ?str_eqb_spec; intuition congruence.
Qed.
Example c11_ex : forall keep, exists xs d,
  run (bd_step (term_cmp str_cmp str_cmp) keep) bd_new [Insert c11_quad; Insert c11_quad] = Some (xs, d) /\
  (forall q, In q (spec_set (quad_cmp (term_cmp str_cmp str_cmp)) [Insert c11_quad; Insert c11_quad]) ->
     good_quad good_term q) /\
  bd_rdf_fmt (term_rdf_fmt str_eqb) d =
    Some (chars "<a:s> <a:p> " ++ [34; 92; 34; 92; 110; 34] ++ chars "^^<a:t> <a:g> ." ++ [10]).
Proof.
  intros keep. do 2 eexists. split; [vm_compute; reflexivity|]. split; [|vm_compute; reflexivity].
  intros q [<-|[]]. repeat split; repeat constructor.
Qed.

(** ** C52 *)

(** Partial: a width of at most one and no precision change nothing. *)
Theorem c52_flags_partial : forall f, f_prec f = None -> (f_width f <= 1)%nat ->
  forall iri_eqb t, good_term t -> term_rdf_fmt iri_eqb f t = term_rdf_fmt iri_eqb plain t.
Proof. exact term_flags. Qed.
Print Assumptions c52_flags_partial.

(** Refuted for other widths and for precisions: the value written is another one,
    and the text of an IRI is no longer an IRI. *)
Theorem c52_flags_refuted :
  (exists v w : text, v <> w /\
     read_string (str_rdf_fmt (FSpec 2 None) v) = Some (w, []) /\
     read_string (str_rdf_fmt (FSpec 0 (Some 0%nat)) v) = Some ([], [])) /\
  (exists i : text, good_iri i /\ read_iri (iri_rdf_fmt (FSpec 2 None) i) = None).
Proof. exact (conj flags_counterexample flags_iri_counterexample). Qed.
Print Assumptions c52_flags_refuted.

(** These are the only specifications that change no text. *)
Theorem c52_flags_iff_partial : forall iri_eqb f, iri_eqb XSD_STRING XSD_STRING = true ->
  ((forall t, good_term t -> term_rdf_fmt iri_eqb f t = term_rdf_fmt iri_eqb plain t) <->
   f_prec f = None /\ (f_width f <= 1)%nat).
Proof. exact flags_iff. Qed.
Print Assumptions c52_flags_iff_partial.

(** What is read from a string written with any width and precision: each character
    that is not escaped is cut and filled up by itself. *)
Theorem c52_strings_read_partial : forall f v rest,
  read_string (str_rdf_fmt f v ++ rest) =
  Some (flat_map (stretched (f_width f) (f_prec f)) v, rest).
Proof. exact str_flags_read. Qed.
Print Assumptions c52_strings_read_partial.

Example c52_ex : str_eqb XSD_STRING XSD_STRING = true /\
  flat_map (stretched 3 None) [97; 34; 98] = [97; 32; 32; 34; 98; 32; 32] /\
  flat_map (stretched 1 (Some 0%nat)) [97; 34; 98] = [32; 34; 32].
Proof. repeat split. Qed.
