(** Property C53: serialization and deserialization (feature [serde]).

    [iri_ok] and [tag_ok] are the texts that the constructors of IRIs and language
    tags accept (crates iref and langtag): any functions.  A blank node
    identifier that the crate accepts is a label of the grammar without a dot
    (c02_valid_are_accepted_partial). *)
From Coq Require Import List NArith Bool Ascii String.
Import ListNotations.
From Verif Require Import Base TextModel BlankIdModel BlankIdSpec DisplayModel TermModel TripleModel
  TriplePatternModel SetSpec ContainerSpec IndexedSpec Machine BTreeDatasetModel BTreeGraphModel
  IndexedDatasetModel IndexedRunProofs IndexedGraphModel IndexedGraphRunProofs SerdeModel SerdeSpec SerdeProofs.

(** Blank node identifiers: what is read is what was written, and nothing
    else than an acceptable label can be read. *)
Theorem c53_blank_ids :
  forall v b, de_blank v = Some b <-> v = ser_blank b /\ BLANK_NODE_LABEL b /\ ~ In DOT b.
Proof. exact de_blank_exact. Qed.
Print Assumptions c53_blank_ids.

(** Literal types, literals and terms made of valid identifiers. *)
Theorem c53_literal_types :
  forall iri_ok tag_ok t,
    ltype_ok (fun i => iri_ok i = true) (fun t => tag_ok t = true) t ->
    de_ltype iri_ok tag_ok (ser_ltype t) = Some t.
Proof. exact ltype_round. Qed.
Print Assumptions c53_literal_types.

Theorem c53_literals :
  forall iri_ok tag_ok l,
    literal_ok (fun i => iri_ok i = true) (fun t => tag_ok t = true) l ->
    de_literal iri_ok tag_ok (ser_literal l) = Some l.
Proof. exact literal_round. Qed.
Print Assumptions c53_literals.

Theorem c53_terms :
  forall iri_ok tag_ok t,
    term_ok (fun i => iri_ok i = true) (fun t => tag_ok t = true) t ->
    de_term iri_ok tag_ok (ser_term t) = Some t.
Proof. exact term_round. Qed.
Print Assumptions c53_terms.

(** Local terms: blank nodes and IRIs are both written as strings without a tag;
    they are never confused, because an IRI begins with a letter. *)
Theorem c53_local_terms :
  forall iri_ok tag_ok t,
    (forall i, iri_ok i = true -> starts_with_letter i) ->
    local_ok (fun b => BLANK_NODE_LABEL b /\ ~ In DOT b)
      (fun i => iri_ok i = true) (fun t => tag_ok t = true) t ->
    de_local iri_ok tag_ok (ser_local t) = Some t.
Proof. exact local_round. Qed.
Print Assumptions c53_local_terms.

Theorem c53_local_terms_distinct :
  forall iri_ok tag_ok,
    (forall i, iri_ok i = true -> starts_with_letter i) ->
    forall s t,
      local_ok (fun b => BLANK_NODE_LABEL b /\ ~ In DOT b)
        (fun i => iri_ok i = true) (fun t => tag_ok t = true) s ->
      local_ok (fun b => BLANK_NODE_LABEL b /\ ~ In DOT b)
        (fun i => iri_ok i = true) (fun t => tag_ok t = true) t ->
      ser_local s = ser_local t -> s = t.
Proof. exact ser_local_inj. Qed.
Print Assumptions c53_local_terms_distinct.

(** Whatever the input, only valid terms can be read. *)
Theorem c53_only_valid_terms :
  forall iri_ok tag_ok v t,
    de_local iri_ok tag_ok v = Some t ->
    local_ok (fun b => BLANK_NODE_LABEL b /\ ~ In DOT b)
      (fun i => iri_ok i = true) (fun t => tag_ok t = true) t.
Proof. exact de_local_ok. Qed.
Print Assumptions c53_only_valid_terms.

(** Exactly which inputs are read, and as what (SerdeSpec.v). *)
Theorem c53_accepted_types :
  forall iri_ok tag_ok v t, de_ltype iri_ok tag_ok v = Some t <->
    reads_type (fun i => iri_ok i = true) (fun t => tag_ok t = true) v t.
Proof. exact reads_type_exact. Qed.
Print Assumptions c53_accepted_types.

Theorem c53_accepted_literals :
  forall iri_ok tag_ok v l, de_literal iri_ok tag_ok v = Some l <->
    reads_literal (fun i => iri_ok i = true) (fun t => tag_ok t = true) v l.
Proof. exact reads_literal_exact. Qed.
Print Assumptions c53_accepted_literals.

Theorem c53_accepted_terms :
  forall iri_ok tag_ok v t, de_term iri_ok tag_ok v = Some t <->
    reads_term (fun i => iri_ok i = true) (fun t => tag_ok t = true) v t.
Proof. exact reads_term_exact. Qed.
Print Assumptions c53_accepted_terms.

Theorem c53_accepted_local_terms :
  forall iri_ok tag_ok v t, de_local iri_ok tag_ok v = Some t <->
    reads_local (fun b => BLANK_NODE_LABEL b /\ ~ In DOT b)
      (fun i => iri_ok i = true) (fun t => tag_ok t = true) v t.
Proof. exact reads_local_exact. Qed.
Print Assumptions c53_accepted_local_terms.

Theorem c53_accepted_triples :
  forall {S P O} (ds : value -> option S) (dp : value -> option P) (do : value -> option O) v t,
    de_triple ds dp do v = Some t <->
    reads_triple (fun v x => ds v = Some x) (fun v x => dp v = Some x) (fun v x => do v = Some x) v t.
Proof. exact @reads_triple_exact. Qed.
Print Assumptions c53_accepted_triples.

Theorem c53_accepted_quads :
  forall {S P O G} (ds : value -> option S) (dp : value -> option P) (do : value -> option O)
    (dg : value -> option G) v q,
    de_quad ds dp do dg v = Some q <->
    reads_quad (fun v x => ds v = Some x) (fun v x => dp v = Some x) (fun v x => do v = Some x)
      (fun v x => dg v = Some x) v q.
Proof. exact @reads_quad_exact. Qed.
Print Assumptions c53_accepted_quads.

Theorem c53_accepted_pattern_elements :
  forall {T X} (dt : value -> option T) (dx : value -> option X) v r,
    de_rv dt dx v = Some r <->
    reads_rv (fun v x => dt v = Some x) (fun v x => dx v = Some x) v r.
Proof. exact @reads_rv_exact. Qed.
Print Assumptions c53_accepted_pattern_elements.

(** A literal with its fields in the other order and one more field; a graph that
    is not null is not the default graph. *)
Example c53_ex_accepted :
  let any (s : text) := true in
  de_literal any any (VMap [(chars "type_", VMap [(chars "LangString", VStr (chars "en"))]); (chars "x", VNull);
                            (chars "value", VStr (chars "a"))]) =
    Some (Literal (chars "a") (LLang (chars "en"))) /\
  de_literal any any (VMap [(chars "value", VStr (chars "a"))]) = None /\
  de_quad (de_iri any) (de_iri any) (de_iri any) (de_iri any)
    (VSeq [VStr (chars "a"); VStr (chars "b"); VStr (chars "c"); VBool false]) = None.
Proof. vm_compute. repeat split. Qed.

(** The borrowed and copy-on-write forms of a literal are written alike. *)
Theorem c53_borrowed_forms :
  forall l,
    ser_literal_ref (literal_as_ref l) = ser_literal l /\
    ser_literal_cow (literal_as_cow l) = ser_literal l /\
    ser_literal_cow (literal_into_cow l) = ser_literal l.
Proof. exact borrowed_same. Qed.
Print Assumptions c53_borrowed_forms.

Section Example.
  (** Texts accepted as IRIs in the examples: those that begin with a letter. *)
  Let letters (s : text) : bool :=
    match s with c :: _ => (range 0x41 0x5A c || range 0x61 0x7A c)%N | [] => false end.
  Let any (s : text) : bool := true.
  Example c53_ex_terms :
    de_local letters any (ser_local (Anonymous (chars "_:b1"))) = Some (Anonymous (chars "_:b1")) /\
    de_local letters any (ser_local (Named (TIri (chars "http://a/")))) = Some (Named (TIri (chars "http://a/"))) /\
    de_local letters any (ser_local (Named (TLit (Literal (chars "_:b1") (LLang (chars "en")))))) =
      Some (Named (TLit (Literal (chars "_:b1") (LLang (chars "en"))))) /\
    de_local letters any (VStr (chars "_:b.1")) = None.
  Proof. vm_compute; repeat split. Qed.
End Example.

(** Triples, quads and elements of patterns, given components that round trip.
    A graph name must not be written as null, which stands for the default
    graph. *)
Theorem c53_triples :
  forall S P O ss sp so (ds : value -> option S) (dp : value -> option P) (do : value -> option O) t,
    ds (ss (t_s t)) = Some (t_s t) -> dp (sp (t_p t)) = Some (t_p t) ->
    do (so (t_o t)) = Some (t_o t) ->
    de_triple ds dp do (ser_triple ss sp so t) = Some t.
Proof. exact @triple_round. Qed.
Print Assumptions c53_triples.

Theorem c53_quads :
  forall S P O G ss sp so sg (ds : value -> option S) (dp : value -> option P)
    (do : value -> option O) (dg : value -> option G) q,
    ds (ss (q_s q)) = Some (q_s q) -> dp (sp (q_p q)) = Some (q_p q) ->
    do (so (q_o q)) = Some (q_o q) ->
    (forall g, q_g q = Some g -> dg (sg g) = Some g /\ sg g <> VNull) ->
    de_quad ds dp do dg (ser_quad ss sp so sg q) = Some q.
Proof. exact @quad_round. Qed.
Print Assumptions c53_quads.

Theorem c53_local_terms_not_null : forall t, ser_local t <> VNull.
Proof. exact ser_local_not_null. Qed.
Print Assumptions c53_local_terms_not_null.

Theorem c53_pattern_elements :
  forall T X st sx (dt : value -> option T) (dx : value -> option X) r,
    (forall t, r = Res t -> dt (st t) = Some t) -> (forall x, r = Var x -> dx (sx x) = Some x) ->
    de_rv dt dx (ser_rv st sx r) = Some r.
Proof. exact @rv_round. Qed.
Print Assumptions c53_pattern_elements.

(** Containers: after every history, what is written is read back as an equal
    container, if the resources in it can be read back. *)
Theorem c53_btree_dataset :
  forall R (cmp : R -> R -> comparison), ord_laws cmp ->
  forall keep ser de (eqb : R -> R -> bool) ops xs d,
    (forall x y, eqb x y = true <-> x = y) ->
    run (bd_step cmp keep) bd_new ops = Some (xs, d) ->
    exists l, bd_iter d = Some l /\
      ((forall q r, In q l -> In r (quad_comps q) -> de (ser r) = Some r /\ ser r <> VNull) ->
       exists v d', bd_ser ser d = Some v /\ bd_de cmp keep de v = Some (Some d') /\
         bd_eqb eqb d d' = Some true).
Proof. exact @bd_serde_round. Qed.
Print Assumptions c53_btree_dataset.

Theorem c53_btree_graph :
  forall R (cmp : R -> R -> comparison), ord_laws cmp ->
  forall keep ser de (eqb : R -> R -> bool) ops xs g,
    (forall x y, eqb x y = true <-> x = y) ->
    run (bg_step cmp keep) bg_new ops = Some (xs, g) ->
    exists l, bg_iter g = Some l /\
      ((forall t r, In t l -> In r (triple_comps t) -> de (ser r) = Some r /\ ser r <> VNull) ->
       exists v g', bg_ser ser g = Some v /\ bg_de cmp keep de v = Some (Some g') /\
         bg_eqb eqb g g' = Some true).
Proof. exact @bg_serde_round. Qed.
Print Assumptions c53_btree_graph.

Theorem c53_indexed_dataset :
  forall R (cmp : R -> R -> comparison), ord_laws cmp ->
  forall keep ser de (eqb : R -> R -> bool) ops0 ops xs d,
    (forall x y, eqb x y = true <-> x = y) ->
    id_reached cmp keep ops0 ops xs d ->
    exists l, id_iter d = Some l /\
      ((forall q r, In q l -> In r (quad_comps q) -> de (ser r) = Some r /\ ser r <> VNull) ->
       exists v d', id_ser ser d = Some v /\ id_de cmp keep de v = Some (Some d') /\
         id_eqb eqb d d' = Some true).
Proof. exact @id_serde_round. Qed.
Print Assumptions c53_indexed_dataset.

Theorem c53_indexed_graph :
  forall R (cmp : R -> R -> comparison), ord_laws cmp ->
  forall keep ser de (eqb : R -> R -> bool) ops0 ops g,
    (forall x y, eqb x y = true <-> x = y) ->
    ig_reached cmp keep ops0 ops g ->
    exists l, ig_iter g = Some l /\
      ((forall t r, In t l -> In r (triple_comps t) -> de (ser r) = Some r /\ ser r <> VNull) ->
       exists v g', ig_ser ser g = Some v /\ ig_de cmp keep de v = Some (Some g') /\
         ig_eqb eqb g g' = Some true).
Proof. exact @ig_serde_round. Qed.
Print Assumptions c53_indexed_graph.

(** Any input at all: no panic; either an error, because the input is not a
    sequence or one of its elements is refused, or a container with exactly
    the elements read. *)
Theorem c53_btree_dataset_input :
  forall R (cmp : R -> R -> comparison), ord_laws cmp ->
  forall keep de v,
    (exists vs ts d m, v = VSeq vs /\ map (de_quad de de de de) vs = map Some ts /\
       bd_de cmp keep de v = Some (Some d) /\ bd_iter d = Some m /\
       increasing (quad_cmp cmp) m /\ forall q, In q m <-> In q ts) \/
    (bd_de cmp keep de v = Some None /\
     forall vs, v = VSeq vs -> exists x, In x vs /\ de_quad de de de de x = None).
Proof. exact @bd_serde_input. Qed.
Print Assumptions c53_btree_dataset_input.

Theorem c53_btree_graph_input :
  forall R (cmp : R -> R -> comparison), ord_laws cmp ->
  forall keep de v,
    (exists vs ts g m, v = VSeq vs /\ map (de_triple de de de) vs = map Some ts /\
       bg_de cmp keep de v = Some (Some g) /\ bg_iter g = Some m /\
       increasing (triple_cmp cmp) m /\ forall t, In t m <-> In t ts) \/
    (bg_de cmp keep de v = Some None /\
     forall vs, v = VSeq vs -> exists x, In x vs /\ de_triple de de de x = None).
Proof. exact @bg_serde_input. Qed.
Print Assumptions c53_btree_graph_input.

Theorem c53_indexed_dataset_input :
  forall R (cmp : R -> R -> comparison), ord_laws cmp ->
  forall keep de v,
    (exists vs ts d m, v = VSeq vs /\ map (de_quad de de de de) vs = map Some ts /\
       id_de cmp keep de v = Some (Some d) /\ id_iter d = Some m /\
       increasing (quad_cmp cmp) m /\ forall q, In q m <-> In q ts) \/
    (id_de cmp keep de v = Some None /\
     forall vs, v = VSeq vs -> exists x, In x vs /\ de_quad de de de de x = None).
Proof. exact @id_serde_input. Qed.
Print Assumptions c53_indexed_dataset_input.

Theorem c53_indexed_graph_input :
  forall R (cmp : R -> R -> comparison), ord_laws cmp ->
  forall keep de v,
    (exists vs ts g m, v = VSeq vs /\ map (de_triple de de de) vs = map Some ts /\
       ig_de cmp keep de v = Some (Some g) /\ ig_iter g = Some m /\
       increasing (triple_cmp cmp) m /\ forall t, In t m <-> In t ts) \/
    (ig_de cmp keep de v = Some None /\
     forall vs, v = VSeq vs -> exists x, In x vs /\ de_triple de de de x = None).
Proof. exact @ig_serde_input. Qed.
Print Assumptions c53_indexed_graph_input.

Example c53_ex_containers :
  let ser n := VNum (N.of_nat n) in
  let de v := match v with VNum n => Some (N.to_nat n) | _ => None end in
  let q := VSeq [VNum 1; VNum 2; VNum 1; VNull] in
  let r := VSeq [VNum 1; VNum 2; VNum 1; VNum 7] in
  forall keep,
    match bd_de Nat.compare keep de (VSeq [r; q; r]) with
    | Some (Some d) => bd_ser ser d = Some (VSeq [q; r])
    | _ => False
    end /\
    bd_de Nat.compare keep de (VSeq [r; VNull]) = Some None.
Proof. intros ser de q r []; vm_compute; auto. Qed.

(** C53 does not extend to every identifier a program can get from the crate: a
    generator does not check its prefix, and what it produces may be refused
    when read back. *)
Theorem c53_generated_refuted :
  exists prefix max checked b g,
    next_blank_id max checked (gen_with_prefix prefix) = Some (b, g) /\
    forall iri_ok tag_ok, iri_ok b = false ->
      de_local iri_ok tag_ok (ser_local (Anonymous b)) = None.
Proof. exact generated_unreadable. Qed.
Print Assumptions c53_generated_refuted.
