(** Property C65: displaying to a writer that may fail.

    [writes d s] (WriteSpec.v): there are pieces of text, the same for all writers,
    that make up [s]; whatever the writer, they are given to it in order, until it
    refuses one, which is reported.  [s] is the text of DisplayModel.v, about which
    are C07 to C11 and C52.  [eq] is [==] of IRIs. *)
From Coq Require Import List Arith NArith Bool Ascii String.
Import ListNotations.
From Verif Require Import Base TextModel TripleModel DisplayModel DisplayContainerModel TermModel
  WriteModel WriteSpec WriteProofs SetSpec ContainerSpec IndexedSpec Machine BTreeDatasetModel
  BTreeGraphModel IndexedDatasetModel IndexedGraphModel IndexedRunProofs IndexedGraphRunProofs
  BaseProofs.

(** ** What is written *)

Theorem c65_strings_iris_tags : forall f s,
  writes (fun W wr w => Some (w_str_rdf wr f s w)) (str_rdf_fmt f s) /\
  writes (fun W wr w => Some (w_iri_rdf wr f s w)) (iri_rdf_fmt f s) /\
  writes (fun W wr w => Some (w_tag_rdf wr f s w)) (tag_rdf_fmt f s).
Proof. exact (fun f s => conj (wr_str_rdf f s) (conj (wr_iri f s) (wr_pad f s))). Qed.
Print Assumptions c65_strings_iris_tags.

Theorem c65_literals : forall eq f l,
  writes (fun W wr w => Some (w_literal_rdf wr eq f l w)) (literal_rdf_fmt eq f l) /\
  writes (fun W wr w => Some (w_ltype_rdf wr f (l_type l) w)) (ltype_rdf_fmt f (l_type l)).
Proof. exact (fun eq f l => conj (wr_literal eq f l) (wr_ltype f (l_type l))). Qed.
Print Assumptions c65_literals.

(** Both ways to display terms. *)
Theorem c65_terms : forall eq f (t : term),
  writes (fun W wr w => Some (w_term_rdf wr eq f t w)) (term_rdf_fmt eq f t) /\
  writes (fun W wr w => Some (w_term wr eq f t w)) (term_fmt eq f t).
Proof. exact (fun eq f t => conj (wr_term_rdf eq f t) (wr_term eq f t)). Qed.
Print Assumptions c65_terms.

Theorem c65_local_terms : forall eq f (t : local_term),
  writes (fun W wr w => Some (w_local_rdf wr eq f t w)) (local_term_rdf_fmt eq f t) /\
  writes (fun W wr w => Some (w_local wr eq f t w)) (local_term_fmt eq f t).
Proof. exact (fun eq f t => conj (wr_local_rdf eq f t) (wr_local eq f t)). Qed.
Print Assumptions c65_local_terms.

(** Statements whose components are displayed by any [ws], with text [show]. *)
Theorem c65_statements :
  forall R (ws : forall W, writer W -> fspec -> R -> W -> W * bool) (show : fspec -> R -> text),
    (forall f r, writes (fun W wr w => Some (ws W wr f r w)) (show f r)) ->
    (forall t, writes (fun W wr w => Some (w_triple_rdf wr (ws W wr) t w)) (triple_rdf_fmt show t)) /\
    (forall q, writes (fun W wr w => Some (w_quad_rdf wr (ws W wr) q w)) (quad_rdf_fmt show q)).
Proof. exact (fun R ws show H => conj (wr_triple ws show H) (wr_quad ws show H)). Qed.
Print Assumptions c65_statements.

(** Containers, after any history. *)
Theorem c65_btree_dataset :
  forall R (cmp : R -> R -> comparison), ord_laws cmp ->
  forall (ws : forall W, writer W -> fspec -> R -> W -> W * bool) (show : fspec -> R -> text),
    (forall f r, writes (fun W wr w => Some (ws W wr f r w)) (show f r)) ->
  forall keep ops xs d, run (bd_step cmp keep) bd_new ops = Some (xs, d) ->
    exists s, bd_rdf_fmt show d = Some s /\
      writes (fun W wr w => option_map (fun a => a w) (w_bd_rdf wr (ws W wr) d)) s.
Proof. exact @bd_writes. Qed.
Print Assumptions c65_btree_dataset.

Theorem c65_indexed_dataset :
  forall R (cmp : R -> R -> comparison), ord_laws cmp ->
  forall (ws : forall W, writer W -> fspec -> R -> W -> W * bool) (show : fspec -> R -> text),
    (forall f r, writes (fun W wr w => Some (ws W wr f r w)) (show f r)) ->
  forall keep ops0 ops xs d, id_reached cmp keep ops0 ops xs d ->
    exists s, id_rdf_fmt show d = Some s /\
      writes (fun W wr w => option_map (fun a => a w) (w_id_rdf wr (ws W wr) d)) s.
Proof. exact @id_writes. Qed.
Print Assumptions c65_indexed_dataset.

Theorem c65_btree_graph :
  forall R (cmp : R -> R -> comparison), ord_laws cmp ->
  forall (ws : forall W, writer W -> fspec -> R -> W -> W * bool) (show : fspec -> R -> text),
    (forall f r, writes (fun W wr w => Some (ws W wr f r w)) (show f r)) ->
  forall keep ops xs g, run (bg_step cmp keep) bg_new ops = Some (xs, g) ->
    exists s, bg_rdf_fmt show g = Some s /\
      writes (fun W wr w => option_map (fun a => a w) (w_bg_rdf wr (ws W wr) g)) s.
Proof. exact @bg_writes. Qed.
Print Assumptions c65_btree_graph.

Theorem c65_indexed_graph :
  forall R (cmp : R -> R -> comparison), ord_laws cmp ->
  forall (ws : forall W, writer W -> fspec -> R -> W -> W * bool) (show : fspec -> R -> text),
    (forall f r, writes (fun W wr w => Some (ws W wr f r w)) (show f r)) ->
  forall keep ops0 ops g, ig_reached cmp keep ops0 ops g ->
    exists s, ig_rdf_fmt show g = Some s /\
      writes (fun W wr w => option_map (fun a => a w) (w_ig_rdf wr (ws W wr) g)) s.
Proof. exact @ig_writes. Qed.
Print Assumptions c65_indexed_graph.

(** Values with a context are displayed with that context; that of IRIs and tags
    does not count. *)
Theorem c65_contextual :
  forall T C (ws : forall W, writer W -> C -> fspec -> T -> W -> W * bool)
    (text_with : C -> fspec -> T -> text),
    (forall c f t, writes (fun W wr w => Some (ws W wr c f t w)) (text_with c f t)) ->
    forall f v, writes (fun W wr w => Some (w_contextual (ws W wr) f v w)) (text_with (snd v) f (fst v)).
Proof. exact @contextual_writes. Qed.
Print Assumptions c65_contextual.

Theorem c65_context_ignored : forall C (c : C) f s,
  writes (fun W wr w => Some (w_contextual (w_iri_with wr) f (s, c) w)) (iri_rdf_fmt f s) /\
  writes (fun W wr w => Some (w_contextual (w_tag_with wr) f (s, c) w)) (tag_rdf_fmt f s).
Proof. exact @context_ignored. Qed.
Print Assumptions c65_context_ignored.

(** ** What this means for the user of a writer *)

(** Success is reported exactly when all pieces were taken.  When one was refused,
    that was the last call, and all calls before it succeeded. *)
Theorem c65_stops_at_failure : forall d s, writes d s -> exists ps, List.concat ps = s /\
  forall W (wr : writer W) w, exists w' ok h,
    d W wr w = Some (w', ok) /\ d _ (observed wr) (w, []) = Some ((w', h), ok) /\
    (ok = true -> h = map (fun p => (p, true)) ps) /\
    (ok = false -> exists a p b, ps = a ++ p :: b /\ h = map (fun q => (q, true)) a ++ [(p, false)]).
Proof. exact writes_stops. Qed.
Print Assumptions c65_stops_at_failure.

(** What the writer has kept is a beginning of the text, and the text in case of
    success. *)
Theorem c65_prefix : forall d s, writes d s ->
  forall W (wr : writer W) got, keeps wr got -> forall w,
  exists w' ok kept left, d W wr w = Some (w', ok) /\ s = kept ++ left /\
    got w' = got w ++ kept /\ (ok = true -> left = []).
Proof. exact writes_keeps. Qed.
Print Assumptions c65_prefix.

(** A buffer of [n] characters holds the first [n] characters of the text, and the
    display fails exactly when there are more. *)
Theorem c65_bounded_buffer : forall d s n, writes d s ->
  d (list N) (bounded n) [] = Some (firstn n s, List.length s <=? n).
Proof. exact writes_bounded. Qed.
Print Assumptions c65_bounded_buffer.

(** There is only one such text. *)
Theorem c65_one_text : forall d s t, writes d s -> writes d t -> s = t.
Proof. exact writes_same. Qed.
Print Assumptions c65_one_text.

(** ** Examples *)

(** A buffer of 12 characters is too small for this quad, one of 20 is not; a
    writer that refuses its third piece. *)
Local Open Scope N_scope.
Definition ex_quad : quad local_term :=
  Quad (Anonymous (chars "_:a")) (Named (TIri (chars "b:c")))
    (Named (TLit (Literal [34] (LLang (chars "en"))))) None.
Definition third : writer (nat * text) := fun w p =>
  if (fst w =? 2)%nat then (w, false) else ((S (fst w), (snd w ++ p)%list), true).
Example c65_ex :
  w_quad_rdf (bounded 12) (w_local_rdf (bounded 12) str_eqb) ex_quad [] =
    ([34] ++ chars "_:a" ++ [34] ++ chars " <b:c> ", false)%list /\
  snd (w_quad_rdf (bounded 20) (w_local_rdf (bounded 20) str_eqb) ex_quad []) = true /\
  w_quad_rdf third (w_local_rdf third str_eqb) ex_quad (O, []) =
    ((2%nat, [34; 95]), false).
Proof. repeat split. Qed.

(** Components that meet the hypothesis, with and without a context: a table of
    texts by number. *)
Example c65_hyp_ex : forall f r,
  writes (fun W wr w => Some (w_local_rdf wr str_eqb f r w)) (local_term_rdf_fmt str_eqb f r).
Proof. exact (wr_local_rdf str_eqb). Qed.
Example c65_context_ex : forall (c : list text) f (t : nat),
  writes (fun W wr w => Some (w_iri_rdf wr f (nth t c []) w)) (iri_rdf_fmt f (nth t c [])).
Proof. exact (fun c f t => wr_iri f (nth t c [])). Qed.
Example c65_keeps_ex : keeps third snd.
Proof.
  intros [n w] p. unfold third. cbn [fst snd]. destruct (n =? 2)%nat.
  - exists [], p. repeat split; [symmetry; apply app_nil_r|discriminate].
  - exists p, []. repeat split. symmetry; apply app_nil_r.
Qed.
Example c65_reached_ex : exists xs d,
  run (bd_step Nat.compare true) bd_new [Insert (Quad 1%nat 2%nat 3%nat None)] = Some (xs, d) /\
  ord_laws Nat.compare.
Proof. do 2 eexists. split; [vm_compute; reflexivity|exact nat_compare_laws]. Qed.
