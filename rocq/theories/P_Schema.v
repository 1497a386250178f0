(** Property theorems for the vocabulary constants: C82. *)
From Coq Require Import List NArith Bool Ascii String.
Import ListNotations.
From Verif Require Import Base TextModel DisplayModel TermModel TermSpec TermProofs NTriplesSpec
  SchemaModel SchemaSpec SchemaProofs.

(** The name of a constant spells its IRI. *)
Theorem c82_names : forall n i, In (n, i) schema -> spells n i.
Proof. exact schema_spelled. Qed.
Print Assumptions c82_names.

Example c82_names_ex : In (chars "RDFS_SUB_CLASS_OF", chars "http://www.w3.org/2000/01/rdf-schema#subClassOf") schema /\
  ~ spells (chars "RDF_REST") (chars "http://www.w3.org/1999/02/22-rdf-syntax-ns#first").
Proof.
  split; [unfold schema; repeat (right; try (left; reflexivity))|].
  intros (p & ns & w & l & I & A & B & _ & _ & C). cbn in I.
  destruct I as [I|[I|[I|[]]]]; injection I as <- <-.
  - cbn in A, B. injection A as <-. injection B as <-. vm_compute in C. discriminate.
  - cbn in A. discriminate.
  - cbn in A. discriminate.
Qed.

(** The constants are the terms of the vocabularies, all of them and nothing else. *)
Theorem c82_vocabulary : forall i, In i (map snd schema) <-> In i vocabulary.
Proof. exact schema_vocabulary. Qed.
Print Assumptions c82_vocabulary.

(** No two constants have one name or one IRI. *)
Theorem c82_distinct : NoDup (map fst schema) /\ NoDup (map snd schema).
Proof. exact schema_distinct. Qed.
Print Assumptions c82_distinct.

(** A constant is written between angle brackets without escapes and reads back. *)
Theorem c82_iris : forall n i rest, In (n, i) schema ->
  iri_rdf_fmt plain i = chars "<" ++ i ++ chars ">" /\ read_iri (iri_rdf_fmt plain i ++ rest) = Some (i, rest).
Proof. exact schema_iris. Qed.
Print Assumptions c82_iris.

Example c82_iris_ex : exists i, In (chars "RDF_TYPE", i) schema /\
  read_iri (iri_rdf_fmt plain i ++ chars " .") = Some (i, chars " .").
Proof.
  eexists. split; [unfold schema; repeat (right; try (left; reflexivity))|].
  vm_compute. reflexivity.
Qed.

(** A literal typed by a constant: only [XSD_STRING] is left out, and the text reads back. *)
Theorem c82_literals : forall iri_eqb, (forall i, iri_eqb i i = true) ->
  (forall n i m j, In (n, i) schema -> In (m, j) schema -> iri_eqb i j = true -> i = j) ->
  forall n i v rest, In (n, i) schema -> ends_literal rest ->
    is_xsd_string iri_eqb (LAny i) = (if list_eq_dec N.eq_dec n (chars "XSD_STRING") then true else false) /\
    literal_rdf_fmt iri_eqb plain (Literal v (LAny i)) =
      str_rdf_fmt plain v ++ (if list_eq_dec N.eq_dec n (chars "XSD_STRING") then [] else chars "^^<" ++ i ++ chars ">") /\
    read_literal (literal_rdf_fmt iri_eqb plain (Literal v (LAny i)) ++ rest) = Some (Literal v (LAny i), rest).
Proof. exact schema_literals. Qed.
Print Assumptions c82_literals.

(** Literals typed by constants have the same text only if value and constant are the same. *)
Theorem c82_apart : forall iri_eqb, (forall i, iri_eqb i i = true) ->
  (forall n i m j, In (n, i) schema -> In (m, j) schema -> iri_eqb i j = true -> i = j) ->
  forall n i v m j w, In (n, i) schema -> In (m, j) schema ->
    literal_rdf_fmt iri_eqb plain (Literal v (LAny i)) = literal_rdf_fmt iri_eqb plain (Literal w (LAny j)) ->
    v = w /\ n = m.
Proof. exact schema_same_text. Qed.
Print Assumptions c82_apart.

Example c82_literals_ex : (forall i, str_eqb i i = true) /\
  (forall n i m j, In (n, i) schema -> In (m, j) schema -> str_eqb i j = true -> i = j) /\
  exists i, In (chars "RDF_HTML", i) schema /\ ends_literal (chars " .") /\
  literal_rdf_fmt str_eqb plain (Literal (chars "x") (LAny i)) =
    chars """x""^^<http://www.w3.org/1999/02/22-rdf-syntax-ns#HTML>" /\
  literal_rdf_fmt str_eqb plain (Literal (chars "x") (LAny XSD_STRING)) = chars """x""".
Proof.
  split; [intros i; now apply str_eqb_spec|]. split; [intros n i m j _ _ H; now apply str_eqb_spec|].
  eexists. split; [unfold schema; repeat (right; try (left; reflexivity))|].
  split; [vm_compute; repeat split; discriminate|]. split; vm_compute; reflexivity.
Qed.
