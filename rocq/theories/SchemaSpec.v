(** How the name of a vocabulary constant spells its IRI. *)
From Coq Require Import List NArith Bool Ascii String.
Import ListNotations.
Open Scope N_scope.
From Verif Require Import Base TextModel.

(** The namespaces, as the W3C recommendations give them. *)
Definition namespaces : list (text * text) := [
  (chars "RDF_", chars "http://www.w3.org/1999/02/22-rdf-syntax-ns#");
  (chars "RDFS_", chars "http://www.w3.org/2000/01/rdf-schema#");
  (chars "XSD_", chars "http://www.w3.org/2001/XMLSchema#")].
Definition upper (c : N) : N := if (0x61 <=? c) && (c <=? 0x7A) then c - 0x20 else c.
Definition letter (c : N) : Prop := (0x41 <= c <= 0x5A) \/ (0x61 <= c <= 0x7A).
(** The prefix of the name stands for the namespace, the rest in capitals, with underscores between the
    words, for the local name. *)
Definition spells (name iri : text) : Prop :=
  exists prefix namespace words local, In (prefix, namespace) namespaces /\
    name = prefix ++ words /\ iri = namespace ++ local /\ local <> [] /\ Forall letter local /\
    map upper local = filter (fun c => negb (c =? 0x5F)) words.
(** The terms that the recommendations define: the classes and properties of RDF Schema 1.1 (sections 2 to 5, in
    the order of the tables of section 6), with [rdf:nil] (5.2.4), [rdf:JSON] of JSON-LD 1.1 and [xsd:string]. *)
Definition rdf (local : string) : text := chars "http://www.w3.org/1999/02/22-rdf-syntax-ns#" ++ chars local.
Definition rdfs (local : string) : text := chars "http://www.w3.org/2000/01/rdf-schema#" ++ chars local.
Definition vocabulary : list text := [
  rdfs "Resource"; rdfs "Literal"; rdf "langString"; rdf "HTML"; rdf "XMLLiteral"; rdfs "Class"; rdf "Property";
  rdfs "Datatype"; rdf "Statement"; rdf "Bag"; rdf "Seq"; rdf "Alt"; rdfs "Container";
  rdfs "ContainerMembershipProperty"; rdf "List";
  rdf "type"; rdfs "subClassOf"; rdfs "subPropertyOf"; rdfs "domain"; rdfs "range"; rdfs "label"; rdfs "comment";
  rdfs "member"; rdf "first"; rdf "rest"; rdfs "seeAlso"; rdfs "isDefinedBy"; rdf "value"; rdf "subject";
  rdf "predicate"; rdf "object";
  rdf "nil"; rdf "JSON"; chars "http://www.w3.org/2001/XMLSchema#string"].
