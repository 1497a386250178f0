(** Property C69: serialization in compact binary formats (feature [serde]).

    [iri_ok] and [tag_ok] as in C53.  What the items of a value are is said in
    BinSpec.v.  A reader [decodes] a layout: it reads exactly the items of a
    value, whatever comes after, leaves the rest, and accepts nothing else. *)
From Coq Require Import List NArith Bool Ascii String.
Import ListNotations.
From Verif Require Import Base TextModel BlankIdModel BlankIdSpec DisplayModel TermModel TripleModel
  TriplePatternModel SetSpec ContainerSpec Machine BTreeDatasetModel BTreeGraphModel
  IndexedDatasetModel IndexedRunProofs IndexedGraphModel IndexedGraphRunProofs SerdeSpec
  CrashModel BinModel BinSpec BinProofs.

(** Blank node identifiers. *)
Theorem c69_blank_ids_partial :
  decodes read_blank (text_of (fun b => BLANK_NODE_LABEL b /\ ~ In DOT b)) /\
  forall b, BLANK_NODE_LABEL b /\ ~ In DOT b ->
    text_of (fun b => BLANK_NODE_LABEL b /\ ~ In DOT b) (write_blank b) b.
Proof. exact blank_bin. Qed.
Print Assumptions c69_blank_ids_partial.

(** Literal types and literals. *)
Theorem c69_literal_types_partial :
  forall iri_ok tag_ok,
    let lay := type_items (fun i => iri_ok i = true) (fun t => tag_ok t = true) in
    decodes (read_ltype iri_ok tag_ok) lay /\
    forall t, ltype_ok (fun i => iri_ok i = true) (fun t => tag_ok t = true) t -> lay (write_ltype t) t.
Proof. exact type_bin. Qed.
Print Assumptions c69_literal_types_partial.

Theorem c69_literals_partial :
  forall iri_ok tag_ok,
    let lay := literal_items (fun i => iri_ok i = true) (fun t => tag_ok t = true) in
    decodes (read_literal iri_ok tag_ok) lay /\
    forall l, literal_ok (fun i => iri_ok i = true) (fun t => tag_ok t = true) l -> lay (write_literal l) l.
Proof. exact literal_bin. Qed.
Print Assumptions c69_literals_partial.

(** Triples, quads and elements of patterns, given their components. *)
Theorem c69_triples_partial :
  forall S P O (rs : reader S) (rp : reader P) (ro : reader O) ls lp lo,
    decodes rs ls -> decodes rp lp -> decodes ro lo ->
    decodes (read_triple rs rp ro) (triple_items ls lp lo) /\
    forall ws wp wo t, ls (ws (t_s t)) (t_s t) -> lp (wp (t_p t)) (t_p t) -> lo (wo (t_o t)) (t_o t) ->
      triple_items ls lp lo (write_triple ws wp wo t) t.
Proof. exact @triple_bin. Qed.
Print Assumptions c69_triples_partial.

Theorem c69_quads_partial :
  forall S P O G (rs : reader S) (rp : reader P) (ro : reader O) (rg : reader G) ls lp lo lg,
    decodes rs ls -> decodes rp lp -> decodes ro lo -> decodes rg lg ->
    decodes (read_quad rs rp ro rg) (quad_items ls lp lo lg) /\
    forall ws wp wo wg q, ls (ws (q_s q)) (q_s q) -> lp (wp (q_p q)) (q_p q) -> lo (wo (q_o q)) (q_o q) ->
      (forall g, q_g q = Some g -> lg (wg g) g) ->
      quad_items ls lp lo lg (write_quad ws wp wo wg q) q.
Proof. exact @quad_bin. Qed.
Print Assumptions c69_quads_partial.

Theorem c69_pattern_elements_partial :
  forall T X (rt : reader T) (rx : reader X) lt lx,
    decodes rt lt -> decodes rx lx ->
    decodes (read_rv rt rx) (rv_items lt lx) /\
    forall wt wx r, (forall t, r = Res t -> lt (wt t) t) -> (forall x, r = Var x -> lx (wx x) x) ->
      rv_items lt lx (write_rv wt wx r) r.
Proof. exact @rv_bin. Qed.
Print Assumptions c69_pattern_elements_partial.

(** Containers, after every history: the announced length is the number of
    elements, which are written in the order of the iteration, and what is read
    back is an equal container, whatever comes after. *)
Theorem c69_btree_dataset_partial :
  forall R (cmp : R -> R -> comparison), ord_laws cmp ->
  forall keep write read lay, decodes read lay ->
  forall (eqb : R -> R -> bool) ops xs d,
    (forall x y, eqb x y = true <-> x = y) ->
    run (bd_step cmp keep) bd_new ops = Some (xs, d) ->
    exists l, bd_iter d = Some l /\
      ((forall q r, In q l -> In r (quad_comps q) -> lay (write r) r) ->
       exists b d', bd_write write d = Some b /\ seq_items (quad_items lay lay lay lay) b l /\
         bd_eqb eqb d d' = Some true /\
         forall rest, bd_read cmp keep read (b ++ rest) = Some (Some (d', rest))).
Proof. exact @bd_bin_round. Qed.
Print Assumptions c69_btree_dataset_partial.

Theorem c69_btree_graph_partial :
  forall R (cmp : R -> R -> comparison), ord_laws cmp ->
  forall keep write read lay, decodes read lay ->
  forall (eqb : R -> R -> bool) ops xs d,
    (forall x y, eqb x y = true <-> x = y) ->
    run (bg_step cmp keep) bg_new ops = Some (xs, d) ->
    exists l, bg_iter d = Some l /\
      ((forall q r, In q l -> In r (triple_comps q) -> lay (write r) r) ->
       exists b d', bg_write write d = Some b /\ seq_items (triple_items lay lay lay) b l /\
         bg_eqb eqb d d' = Some true /\
         forall rest, bg_read cmp keep read (b ++ rest) = Some (Some (d', rest))).
Proof. exact @bg_bin_round. Qed.
Print Assumptions c69_btree_graph_partial.

Theorem c69_indexed_dataset_partial :
  forall R (cmp : R -> R -> comparison), ord_laws cmp ->
  forall keep write read lay, decodes read lay ->
  forall (eqb : R -> R -> bool) ops0 ops xs d,
    (forall x y, eqb x y = true <-> x = y) ->
    id_reached cmp keep ops0 ops xs d ->
    exists l, id_iter d = Some l /\
      ((forall q r, In q l -> In r (quad_comps q) -> lay (write r) r) ->
       exists b d', id_write write d = Some b /\ seq_items (quad_items lay lay lay lay) b l /\
         id_eqb eqb d d' = Some true /\
         forall rest, id_read cmp keep read (b ++ rest) = Some (Some (d', rest))).
Proof. exact @id_bin_round. Qed.
Print Assumptions c69_indexed_dataset_partial.

Theorem c69_indexed_graph_partial :
  forall R (cmp : R -> R -> comparison), ord_laws cmp ->
  forall keep write read lay, decodes read lay ->
  forall (eqb : R -> R -> bool) ops0 ops d,
    (forall x y, eqb x y = true <-> x = y) ->
    ig_reached cmp keep ops0 ops d ->
    exists l, ig_iter d = Some l /\
      ((forall q r, In q l -> In r (triple_comps q) -> lay (write r) r) ->
       exists b d', ig_write write d = Some b /\ seq_items (triple_items lay lay lay) b l /\
         ig_eqb eqb d d' = Some true /\
         forall rest, ig_read cmp keep read (b ++ rest) = Some (Some (d', rest))).
Proof. exact @ig_bin_round. Qed.
Print Assumptions c69_indexed_graph_partial.

(** Any input at all: no panic; a container with exactly the elements of the
    sequence that the input begins with, or an error if it begins with none. *)
Theorem c69_btree_dataset_input_partial :
  forall R (cmp : R -> R -> comparison), ord_laws cmp ->
  forall keep read lay, decodes read lay -> forall i,
    (exists b ts d m r, i = b ++ r /\ seq_items (quad_items lay lay lay lay) b ts /\
       bd_read cmp keep read i = Some (Some (d, r)) /\ bd_iter d = Some m /\
       increasing (quad_cmp cmp) m /\ forall q, In q m <-> In q ts) \/
    (bd_read cmp keep read i = Some None /\
     ~ exists b ts r, i = b ++ r /\ seq_items (quad_items lay lay lay lay) b ts).
Proof. exact @bd_bin_input. Qed.
Print Assumptions c69_btree_dataset_input_partial.

Theorem c69_btree_graph_input_partial :
  forall R (cmp : R -> R -> comparison), ord_laws cmp ->
  forall keep read lay, decodes read lay -> forall i,
    (exists b ts d m r, i = b ++ r /\ seq_items (triple_items lay lay lay) b ts /\
       bg_read cmp keep read i = Some (Some (d, r)) /\ bg_iter d = Some m /\
       increasing (triple_cmp cmp) m /\ forall q, In q m <-> In q ts) \/
    (bg_read cmp keep read i = Some None /\
     ~ exists b ts r, i = b ++ r /\ seq_items (triple_items lay lay lay) b ts).
Proof. exact @bg_bin_input. Qed.
Print Assumptions c69_btree_graph_input_partial.

Theorem c69_indexed_dataset_input_partial :
  forall R (cmp : R -> R -> comparison), ord_laws cmp ->
  forall keep read lay, decodes read lay -> forall i,
    (exists b ts d m r, i = b ++ r /\ seq_items (quad_items lay lay lay lay) b ts /\
       id_read cmp keep read i = Some (Some (d, r)) /\ id_iter d = Some m /\
       increasing (quad_cmp cmp) m /\ forall q, In q m <-> In q ts) \/
    (id_read cmp keep read i = Some None /\
     ~ exists b ts r, i = b ++ r /\ seq_items (quad_items lay lay lay lay) b ts).
Proof. exact @id_bin_input. Qed.
Print Assumptions c69_indexed_dataset_input_partial.

Theorem c69_indexed_graph_input_partial :
  forall R (cmp : R -> R -> comparison), ord_laws cmp ->
  forall keep read lay, decodes read lay -> forall i,
    (exists b ts d m r, i = b ++ r /\ seq_items (triple_items lay lay lay) b ts /\
       ig_read cmp keep read i = Some (Some (d, r)) /\ ig_iter d = Some m /\
       increasing (triple_cmp cmp) m /\ forall q, In q m <-> In q ts) \/
    (ig_read cmp keep read i = Some None /\
     ~ exists b ts r, i = b ++ r /\ seq_items (triple_items lay lay lay) b ts).
Proof. exact @ig_bin_input. Qed.
Print Assumptions c69_indexed_graph_input_partial.

(** Blank node identifiers as resources meet the hypotheses. *)
Example c69_ex :
  let cmp := str_cmp in
  let q := Quad (chars "_:a") (chars "_:b") (chars "_:a") None in
  let r := Quad (chars "_:a") (chars "_:b") (chars "_:a") (Some (chars "_:c")) in
  let w := write_quad write_blank write_blank write_blank write_blank in
  forall keep,
    match bd_read cmp keep read_blank ((ILen 3 :: w r ++ w q ++ w r) ++ [ILen 7]) with
    | Some (Some (d, rest)) => bd_write write_blank d = Some (ILen 2 :: w q ++ w r) /\ rest = [ILen 7]
    | _ => False
    end /\
    bd_read cmp keep read_blank (ILen 3 :: w r ++ w q) = Some None.
Proof. intros cmp q r w []; vm_compute; auto. Qed.

(** ** Terms *)

(** C69 does not hold for terms and local terms: they can be written, and nothing can
    ever be read as one. *)
Theorem c69_terms_refuted :
  exists t, term_ok (fun _ => True) (fun _ => True) t /\ local_ok (fun _ => True) (fun _ => True) (fun _ => True) (Named t) /\
    forall iri_ok tag_ok rest,
      read_term iri_ok tag_ok (write_term t ++ rest) = None /\
      read_local iri_ok tag_ok (write_local (Named t) ++ rest) = None.
Proof. exact terms_unread. Qed.
Print Assumptions c69_terms_refuted.

(** What is written is the content of the term, with nothing to tell IRIs, literals
    and blank node identifiers apart. *)
Theorem c69_terms_written : forall iri_ok tag_ok blank_ok,
  (forall t, term_ok iri_ok tag_ok t -> term_items iri_ok tag_ok (write_term t) t) /\
  (forall t, local_ok blank_ok iri_ok tag_ok t -> local_items iri_ok tag_ok blank_ok (write_local t) t).
Proof. exact terms_written. Qed.
Print Assumptions c69_terms_written.

Example c69_ex_written :
  write_local (Named (TLit (Literal [97%N] (LLang [101%N; 110%N])))) =
    [IText [97%N]; IVariant 1; IText [101%N; 110%N]].
Proof. reflexivity. Qed.

Theorem c69_no_term_partial :
  forall iri_ok tag_ok i,
    read_term iri_ok tag_ok i = None /\ read_local iri_ok tag_ok i = None.
Proof. exact never_terms. Qed.
Print Assumptions c69_no_term_partial.

(** So that no container of terms or of local terms can be read back, after any
    history, unless it is empty. *)
Theorem c69_btree_dataset_of_terms_partial :
  forall (cmp : local_term -> local_term -> comparison), ord_laws cmp ->
  forall keep iri_ok tag_ok (eqb : local_term -> local_term -> bool) ops xs d,
    (forall x y, eqb x y = true <-> x = y) ->
    run (bd_step cmp keep) bd_new ops = Some (xs, d) ->
    exists l b, bd_iter d = Some l /\ bd_write write_local d = Some b /\
      (l <> [] -> forall rest,
        bd_read cmp keep (read_local iri_ok tag_ok) (b ++ rest) = Some None).
Proof. exact bd_terms_unread. Qed.
Print Assumptions c69_btree_dataset_of_terms_partial.

Theorem c69_btree_graph_of_terms_partial :
  forall (cmp : local_term -> local_term -> comparison), ord_laws cmp ->
  forall keep iri_ok tag_ok (eqb : local_term -> local_term -> bool) ops xs d,
    (forall x y, eqb x y = true <-> x = y) ->
    run (bg_step cmp keep) bg_new ops = Some (xs, d) ->
    exists l b, bg_iter d = Some l /\ bg_write write_local d = Some b /\
      (l <> [] -> forall rest,
        bg_read cmp keep (read_local iri_ok tag_ok) (b ++ rest) = Some None).
Proof. exact bg_terms_unread. Qed.
Print Assumptions c69_btree_graph_of_terms_partial.

Theorem c69_indexed_dataset_of_terms_partial :
  forall (cmp : local_term -> local_term -> comparison), ord_laws cmp ->
  forall keep iri_ok tag_ok (eqb : local_term -> local_term -> bool) ops0 ops xs d,
    (forall x y, eqb x y = true <-> x = y) ->
    id_reached cmp keep ops0 ops xs d ->
    exists l b, id_iter d = Some l /\ id_write write_local d = Some b /\
      (l <> [] -> forall rest,
        id_read cmp keep (read_local iri_ok tag_ok) (b ++ rest) = Some None).
Proof. exact id_terms_unread. Qed.
Print Assumptions c69_indexed_dataset_of_terms_partial.

Theorem c69_indexed_graph_of_terms_partial :
  forall (cmp : local_term -> local_term -> comparison), ord_laws cmp ->
  forall keep iri_ok tag_ok (eqb : local_term -> local_term -> bool) ops0 ops d,
    (forall x y, eqb x y = true <-> x = y) ->
    ig_reached cmp keep ops0 ops d ->
    exists l b, ig_iter d = Some l /\ ig_write write_local d = Some b /\
      (l <> [] -> forall rest,
        ig_read cmp keep (read_local iri_ok tag_ok) (b ++ rest) = Some None).
Proof. exact ig_terms_unread. Qed.
Print Assumptions c69_indexed_graph_of_terms_partial.

(** And after an operation interrupted by a panic of a comparison (C63), a dataset
    announces more elements than it gives, which makes what follows it unreadable:
    here the dataset is read with the quads of the one written after it. *)
Theorem c69_interrupted_refuted :
  let write n := [IVariant n] in
  let read : reader nat := fun i => match i with IVariant n :: r => Some (n, r) | _ => None end in
  exists l : list (op (quad nat) * nat), forall keep, exists ys d b d',
    m_run (m_bd_step Nat.compare keep) bd_new l = Some (ys, d) /\
    bd_iter d = Some [Quad 1 2 3 None] /\ bd_write write d = Some b /\
    bd_read Nat.compare keep read b = Some None /\
    bd_read Nat.compare keep read (b ++ write_quad write write write write (Quad 5 6 7 None)) =
      Some (Some (d', [])) /\
    bd_iter d' = Some [Quad 1 2 3 None; Quad 5 6 7 None].
Proof. exact interrupted_unread. Qed.
Print Assumptions c69_interrupted_refuted.
