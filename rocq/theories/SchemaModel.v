(** The constants of /repo/src/schema.rs and of lib.rs, with their names. *)
From Coq Require Import List NArith Ascii String.
Import ListNotations.
From Verif Require Import Base TextModel DisplayModel.

(** Simplification: a constant [&Iri] is its text; [iri!] checks it when the crate is compiled. *)
Definition schema : list (text * text) := [
  (* schema.rs 3 *) (chars "RDFS_RESOURCE", chars "http://www.w3.org/2000/01/rdf-schema#Resource");
  (* schema.rs 4 *) (chars "RDFS_CLASS", chars "http://www.w3.org/2000/01/rdf-schema#Class");
  (* schema.rs 5 *) (chars "RDFS_LITERAL", chars "http://www.w3.org/2000/01/rdf-schema#Literal");
  (* schema.rs 6 *) (chars "RDFS_DATATYPE", chars "http://www.w3.org/2000/01/rdf-schema#Datatype");
  (* schema.rs 7 *) (chars "RDFS_CONTAINER", chars "http://www.w3.org/2000/01/rdf-schema#Container");
  (* schema.rs 8 *) (chars "RDFS_CONTAINER_MEMBERSHIP_PROPERTY", chars "http://www.w3.org/2000/01/rdf-schema#ContainerMembershipProperty");
  (* schema.rs 11 *) (chars "RDFS_RANGE", chars "http://www.w3.org/2000/01/rdf-schema#range");
  (* schema.rs 12 *) (chars "RDFS_DOMAIN", chars "http://www.w3.org/2000/01/rdf-schema#domain");
  (* schema.rs 13 *) (chars "RDFS_SUB_CLASS_OF", chars "http://www.w3.org/2000/01/rdf-schema#subClassOf");
  (* schema.rs 14 *) (chars "RDFS_SUB_PROPERTY_OF", chars "http://www.w3.org/2000/01/rdf-schema#subPropertyOf");
  (* schema.rs 15 *) (chars "RDFS_LABEL", chars "http://www.w3.org/2000/01/rdf-schema#label");
  (* schema.rs 16 *) (chars "RDFS_COMMENT", chars "http://www.w3.org/2000/01/rdf-schema#comment");
  (* schema.rs 17 *) (chars "RDFS_MEMBER", chars "http://www.w3.org/2000/01/rdf-schema#member");
  (* schema.rs 18 *) (chars "RDFS_SEE_ALSO", chars "http://www.w3.org/2000/01/rdf-schema#seeAlso");
  (* schema.rs 19 *) (chars "RDFS_IS_DEFINED_BY", chars "http://www.w3.org/2000/01/rdf-schema#isDefinedBy");
  (* schema.rs 21 *) (chars "RDF_LANG_STRING", chars "http://www.w3.org/1999/02/22-rdf-syntax-ns#langString");
  (* schema.rs 22 *) (chars "RDF_HTML", chars "http://www.w3.org/1999/02/22-rdf-syntax-ns#HTML");
  (* schema.rs 23 *) (chars "RDF_XML_LITERAL", chars "http://www.w3.org/1999/02/22-rdf-syntax-ns#XMLLiteral");
  (* schema.rs 24 *) (chars "RDF_JSON", chars "http://www.w3.org/1999/02/22-rdf-syntax-ns#JSON");
  (* schema.rs 25 *) (chars "RDF_PROPERTY", chars "http://www.w3.org/1999/02/22-rdf-syntax-ns#Property");
  (* schema.rs 26 *) (chars "RDF_BAG", chars "http://www.w3.org/1999/02/22-rdf-syntax-ns#Bag");
  (* schema.rs 27 *) (chars "RDF_SEQ", chars "http://www.w3.org/1999/02/22-rdf-syntax-ns#Seq");
  (* schema.rs 28 *) (chars "RDF_ALT", chars "http://www.w3.org/1999/02/22-rdf-syntax-ns#Alt");
  (* schema.rs 29 *) (chars "RDF_LIST", chars "http://www.w3.org/1999/02/22-rdf-syntax-ns#List");
  (* schema.rs 30 *) (chars "RDF_STATEMENT", chars "http://www.w3.org/1999/02/22-rdf-syntax-ns#Statement");
  (* schema.rs 32 *) (chars "RDF_TYPE", chars "http://www.w3.org/1999/02/22-rdf-syntax-ns#type");
  (* schema.rs 33 *) (chars "RDF_FIRST", chars "http://www.w3.org/1999/02/22-rdf-syntax-ns#first");
  (* schema.rs 34 *) (chars "RDF_REST", chars "http://www.w3.org/1999/02/22-rdf-syntax-ns#rest");
  (* schema.rs 35 *) (chars "RDF_SUBJECT", chars "http://www.w3.org/1999/02/22-rdf-syntax-ns#subject");
  (* schema.rs 36 *) (chars "RDF_PREDICATE", chars "http://www.w3.org/1999/02/22-rdf-syntax-ns#predicate");
  (* schema.rs 37 *) (chars "RDF_OBJECT", chars "http://www.w3.org/1999/02/22-rdf-syntax-ns#object");
  (* schema.rs 38 *) (chars "RDF_VALUE", chars "http://www.w3.org/1999/02/22-rdf-syntax-ns#value");
  (* schema.rs 40 *) (chars "RDF_NIL", chars "http://www.w3.org/1999/02/22-rdf-syntax-ns#nil");
  (* lib.rs 51 *) (chars "XSD_STRING", XSD_STRING)].
