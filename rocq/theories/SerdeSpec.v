(** Which terms are made of valid identifiers (C53), given the valid blank node
    identifiers, IRIs and language tags. *)
From Coq Require Import List NArith Ascii String.
Import ListNotations.
From Verif Require Import TextModel DisplayModel TripleModel TriplePatternModel SerdeModel.

(** What RFC 3987 says of the first character of an IRI: it begins with a scheme,
    which begins with a letter. *)
Definition starts_with_letter (s : list N) : Prop :=
  exists c r, s = c :: r /\ ((0x41 <= c <= 0x5A)%N \/ (0x61 <= c <= 0x7A)%N).

Section Valid.
  Context (blank_ok iri_ok tag_ok : list N -> Prop).

  Definition ltype_ok (t : ltype) : Prop :=
    (forall i, t = LAny i -> iri_ok i) /\ (forall l, t = LLang l -> tag_ok l).
  Definition literal_ok (l : literal) : Prop := ltype_ok (l_type l).
  Definition term_ok (t : term) : Prop :=
    (forall i, t = TIri i -> iri_ok i) /\ (forall l, t = TLit l -> literal_ok l).
  Definition local_ok (t : local_term) : Prop :=
    (forall b, t = Anonymous b -> blank_ok b) /\ (forall u, t = Named u -> term_ok u).
End Valid.

(** ** Which inputs are read, and as what *)
Section Reads.
  Context (blank_ok iri_ok tag_ok : list N -> Prop).

  (** The only entry of a map with a given key. *)
  Definition only_entry (m : list (text * value)) (k : text) (x : value) : Prop :=
    exists m1 m2, m = m1 ++ (k, x) :: m2 /\ ~ In k (map fst m1) /\ ~ In k (map fst m2).

  (** A literal type is a map with one entry. *)
  Inductive reads_type : value -> ltype -> Prop :=
  | reads_any i : iri_ok i -> reads_type (VMap [(chars "Any", VStr i)]) (LAny i)
  | reads_tag l : tag_ok l -> reads_type (VMap [(chars "LangString", VStr l)]) (LLang l).
  (** A literal is a map with one value and one type, and maybe other entries, or a
      sequence of both. *)
  Inductive reads_literal : value -> literal -> Prop :=
  | reads_map m s y t : only_entry m (chars "value") (VStr s) -> only_entry m (chars "type_") y ->
      reads_type y t -> reads_literal (VMap m) (Literal s t)
  | reads_pair s y t : reads_type y t -> reads_literal (VSeq [VStr s; y]) (Literal s t).
  (** An IRI is a string. *)
  Inductive reads_term : value -> term -> Prop :=
  | reads_iri i : iri_ok i -> reads_term (VStr i) (TIri i)
  | reads_lit v l : reads_literal v l -> reads_term v (TLit l).
  (** A blank node identifier is one if it can be. *)
  Inductive reads_local : value -> local_term -> Prop :=
  | reads_blank b : blank_ok b -> reads_local (VStr b) (Anonymous b)
  | reads_named v t : reads_term v t -> (forall b, v = VStr b -> ~ blank_ok b) ->
      reads_local v (Named t).
End Reads.

(** Triples and quads are sequences of three and four; null is the default graph. *)
Inductive reads_triple {S P O} (rs : value -> S -> Prop) (rp : value -> P -> Prop)
    (ro : value -> O -> Prop) : value -> gtriple S P O -> Prop :=
| reads_three a b c s p o : rs a s -> rp b p -> ro c o ->
    reads_triple rs rp ro (VSeq [a; b; c]) (Triple s p o).
Inductive reads_quad {S P O G} (rs : value -> S -> Prop) (rp : value -> P -> Prop)
    (ro : value -> O -> Prop) (rg : value -> G -> Prop) : value -> gquad S P O G -> Prop :=
| reads_default a b c s p o : rs a s -> rp b p -> ro c o ->
    reads_quad rs rp ro rg (VSeq [a; b; c; VNull]) (Quad s p o None)
| reads_four a b c d s p o g : rs a s -> rp b p -> ro c o -> rg d g -> d <> VNull ->
    reads_quad rs rp ro rg (VSeq [a; b; c; d]) (Quad s p o (Some g)).
(** Elements of patterns are maps with one entry. *)
Inductive reads_rv {T X} (rt : value -> T -> Prop) (rx : value -> X -> Prop)
  : value -> res_or_var T X -> Prop :=
| reads_res v t : rt v t -> reads_rv rt rx (VMap [(chars "Resource", v)]) (Res t)
| reads_var v x : rx v x -> reads_rv rt rx (VMap [(chars "Var", v)]) (Var x).
