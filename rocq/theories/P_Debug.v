(** C75: [Debug].

    [shows d s] (DebugSpec.v): whatever the writer does, what it is given is the text
    [s true] for [{:#?}], [s false] for [{:?}], until it refuses a piece (what this
    means is C65).  [tells class d]: the texts of the values can be read, also inside
    of other texts, and the characters of the plain text are in [class].  [special]
    is the table of Unicode that says which characters above 127 are escaped. *)
From Coq Require Import List NArith Bool Ascii String.
Import ListNotations.
From Verif Require Import Base BaseProofs TextModel TripleModel DisplayModel TermModel TriplePatternModel
  QuadPatternModel WriteSpec SetSpec ContainerSpec IndexedSpec Machine BTreeDatasetModel BTreeGraphModel
  IndexedDatasetModel IndexedGraphModel IndexedRunProofs IndexedGraphRunProofs DebugModel DebugSpec
  DebugTermProofs DebugRunProofs.
Local Open Scope N_scope.

(** ** The texts *)

Theorem c75_strings_text : forall special s, exists t, quoted special s t /\
  shows (d_text special s) (fun _ => t) /\ shows (d_blank special s) (fun _ => t).
Proof. exact strings_text. Qed.
Print Assumptions c75_strings_text.

(** There is only one such text. *)
Theorem c75_strings_one_text : forall special s t u,
  quoted special s t -> quoted special s u -> t = u.
Proof. exact quoted_unique. Qed.
Print Assumptions c75_strings_one_text.

Theorem c75_terms_text : forall special (di dg : text -> dval) (iri tag : bool -> text -> text),
  (forall i, shows (di i) (fun p => iri p i)) -> (forall l, shows (dg l) (fun p => tag p l)) ->
  exists q : text -> text, (forall s, quoted special s (q s)) /\
    let str s := Leaf (fun _ => q s) in let iri := leaf iri in let tag := leaf tag in
    (forall t, shows (d_ltype di dg t) (fun p => shown p (ltype_tree iri tag t))) /\
    (forall l, shows (d_literal special di dg l) (fun p => shown p (literal_tree str iri tag "Literal" l))) /\
    (forall t, shows (d_term special di dg t) (fun p => shown p (term_tree str iri tag "Literal" t))) /\
    (forall t, shows (d_local special di dg t) (fun p => shown p (local_tree str iri tag "Literal" t))).
Proof. exact terms_text. Qed.
Print Assumptions c75_terms_text.

(** Borrowed and copy-on-write forms: as the owned ones, but for the name of the
    structure. *)
Theorem c75_borrowed_text : forall special (di dg : text -> dval) (iri tag : bool -> text -> text),
  (forall i, shows (di i) (fun p => iri p i)) -> (forall l, shows (dg l) (fun p => tag p l)) ->
  exists q : text -> text, (forall s, quoted special s (q s)) /\
    let str s := Leaf (fun _ => q s) in let iri := leaf iri in let tag := leaf tag in
    (forall t, shows (d_ltype_ref di dg t) (fun p => shown p (ltype_tree iri tag (ltype_ref_into_owned t)))) /\
    (forall l, shows (d_literal_ref special di dg l)
      (fun p => shown p (literal_tree str iri tag "LiteralRef" (literal_ref_to_owned l)))) /\
    (forall t, shows (d_term_ref special di dg t)
      (fun p => shown p (term_tree str iri tag "LiteralRef" (term_ref_to_owned t)))) /\
    (forall t, shows (d_local_ref special di dg t)
      (fun p => shown p (local_tree str iri tag "LiteralRef" (local_ref_to_owned t)))) /\
    (forall i, shows (d_id_ref special di i) (fun p => shown p (id_tree str iri (id_ref_into_owned i)))) /\
    (forall t, shows (d_ltype_cow di dg t) (fun p => shown p (ltype_tree iri tag (ltype_cow_into_owned t)))) /\
    (forall l, shows (d_literal_cow special di dg l)
      (fun p => shown p (literal_tree str iri tag "CowLiteral" (literal_cow_into_owned l)))).
Proof. exact refs_text. Qed.
Print Assumptions c75_borrowed_text.

Theorem c75_statements_text : forall R (dr : R -> dval) (s : bool -> R -> text),
  (forall r, shows (dr r) (fun p => s p r)) ->
  (forall t, shows (d_triple dr t) (fun p => shown p (triple_tree (leaf s) t))) /\
  (forall q, shows (d_quad dr q) (fun p => shown p (quad_tree (leaf s) q))).
Proof. exact @statements_text. Qed.
Print Assumptions c75_statements_text.

Theorem c75_patterns_text : forall R (dr : R -> dval) (s : bool -> R -> text),
  (forall r, shows (dr r) (fun p => s p r)) ->
  (forall c, shows (d_ctp dr c) (fun p => shown p (triple_pattern_tree (leaf s) c))) /\
  (forall c, shows (d_cqp dr c) (fun p => shown p (quad_pattern_tree (leaf s) c))).
Proof. exact @patterns_text. Qed.
Print Assumptions c75_patterns_text.

Theorem c75_components_text : forall R (dr : R -> dval) (s : bool -> R -> text),
  (forall r, shows (dr r) (fun p => s p r)) ->
  (forall x, shows (d_pat_s dr x) (fun p => shown p (s_tree (leaf s) x))) /\
  (forall x, shows (d_pat_p dr x) (fun p => shown p (p_tree (leaf s) x))) /\
  (forall x, shows (d_pat_o dr x) (fun p => shown p (o_tree (leaf s) x))) /\
  (forall x, shows (d_pat_g dr x) (fun p => shown p (g_tree (leaf s) x))).
Proof. exact @components_text. Qed.
Print Assumptions c75_components_text.

Theorem c75_variables_text : forall R X (dr : R -> dval) (dx : X -> dval) s t,
  (forall r, shows (dr r) (fun p => s p r)) -> (forall x, shows (dx x) (fun p => t p x)) ->
  forall r, shows (d_rv dr dx r) (fun p => shown p (rv_tree (leaf s) (leaf t) r)).
Proof. exact @variables_text. Qed.
Print Assumptions c75_variables_text.

(** The containers, after any history: the elements in increasing order. *)
Theorem c75_btree_dataset_text : forall R (dr : R -> dval) (s : bool -> R -> text),
  (forall r, shows (dr r) (fun p => s p r)) ->
  forall (cmp : R -> R -> comparison), ord_laws cmp ->
  forall keep ops xs d, run (bd_step cmp keep) bd_new ops = Some (xs, d) ->
  exists v l, d_bd dr d = Some v /\ increasing (quad_cmp cmp) l /\
    (forall q, In q l <-> In q (spec_set (quad_cmp cmp) ops)) /\
    shows v (fun p => shown p (SetOf (map (quad_tree (leaf s)) l))).
Proof. exact @bd_debug. Qed.
Print Assumptions c75_btree_dataset_text.

Theorem c75_indexed_dataset_text : forall R (dr : R -> dval) (s : bool -> R -> text),
  (forall r, shows (dr r) (fun p => s p r)) ->
  forall (cmp : R -> R -> comparison), ord_laws cmp ->
  forall keep ops0 ops xs d, id_reached cmp keep ops0 ops xs d ->
  exists v l, d_id dr d = Some v /\ increasing (quad_cmp cmp) l /\
    (forall q, In q l <-> In q (final_set cmp ops0 ops xs)) /\
    shows v (fun p => shown p (SetOf (map (quad_tree (leaf s)) l))).
Proof. exact @id_debug. Qed.
Print Assumptions c75_indexed_dataset_text.

Theorem c75_btree_graph_text : forall R (dr : R -> dval) (s : bool -> R -> text),
  (forall r, shows (dr r) (fun p => s p r)) ->
  forall (cmp : R -> R -> comparison), ord_laws cmp ->
  forall keep ops xs g, run (bg_step cmp keep) bg_new ops = Some (xs, g) ->
  exists v l, d_bg dr g = Some v /\ increasing (triple_cmp cmp) l /\
    (forall t, In t l <-> In t (spec_set (triple_cmp cmp) ops)) /\
    shows v (fun p => shown p (SetOf (map (triple_tree (leaf s)) l))).
Proof. exact @bg_debug. Qed.
Print Assumptions c75_btree_graph_text.

Theorem c75_indexed_graph_text : forall R (dr : R -> dval) (s : bool -> R -> text),
  (forall r, shows (dr r) (fun p => s p r)) ->
  forall (cmp : R -> R -> comparison), ord_laws cmp ->
  forall keep ops0 ops g, ig_reached cmp keep ops0 ops g ->
  exists v l, d_ig dr g = Some v /\ increasing (triple_cmp cmp) l /\
    (forall t, In t l <-> In t (spec_set (triple_cmp cmp) (ops0 ++ ops))) /\
    shows v (fun p => shown p (SetOf (map (triple_tree (leaf s)) l))).
Proof. exact @ig_debug. Qed.
Print Assumptions c75_indexed_graph_text.

(** ** Reading them *)

(** Two containers of quads (of triples) show the same text exactly when they have
    the same elements. *)
Theorem c75_same_quads : forall R (s : bool -> R -> text), (forall p, readable (s p)) ->
  forall (cmp : R -> R -> comparison), ord_laws cmp ->
  forall p l m, increasing (quad_cmp cmp) l -> increasing (quad_cmp cmp) m ->
    (shown p (SetOf (map (quad_tree (leaf s)) l)) = shown p (SetOf (map (quad_tree (leaf s)) m)) <->
     forall q, In q l <-> In q m).
Proof. exact @same_quads_text. Qed.
Print Assumptions c75_same_quads.

Theorem c75_same_triples : forall R (s : bool -> R -> text), (forall p, readable (s p)) ->
  forall (cmp : R -> R -> comparison), ord_laws cmp ->
  forall p l m, increasing (triple_cmp cmp) l -> increasing (triple_cmp cmp) m ->
    (shown p (SetOf (map (triple_tree (leaf s)) l)) = shown p (SetOf (map (triple_tree (leaf s)) m)) <->
     forall t, In t l <-> In t m).
Proof. exact @same_triples_text. Qed.
Print Assumptions c75_same_triples.

(** No other characters than those of the resources and printable ASCII: for
    instance no end of line, if the resources have none. *)
Theorem c75_container_characters : forall R class (s : bool -> R -> text), has_ascii class ->
  (forall r c, In c (s false r) -> class c) ->
  (forall l c, In c (shown false (SetOf (map (quad_tree (leaf s)) l))) -> class c) /\
  (forall l c, In c (shown false (SetOf (map (triple_tree (leaf s)) l))) -> class c).
Proof. exact @sets_class. Qed.
Print Assumptions c75_container_characters.

(** Whatever the text of IRIs and of language tags, if it can be read, so can that of
    terms.  Control characters are escaped. *)
Theorem c75_strings_tell : forall class, has_ascii class ->
  forall special, (forall c, 127 < c -> special c = false -> class c) ->
  tells class (d_text special) /\ tells class (d_blank special).
Proof. exact strings_tell. Qed.
Print Assumptions c75_strings_tell.

Theorem c75_terms_tell : forall class, has_ascii class ->
  forall special, (forall c, 127 < c -> special c = false -> class c) ->
  forall di dg : text -> dval, tells class di -> tells class dg ->
    tells class (d_ltype di dg) /\ tells class (d_literal special di dg) /\
    tells class (d_term special di dg) /\ tells class (d_local special di dg).
Proof. exact terms_tell. Qed.
Print Assumptions c75_terms_tell.

Theorem c75_borrowed_tell : forall class, has_ascii class ->
  forall special, (forall c, 127 < c -> special c = false -> class c) ->
  forall di dg : text -> dval, tells class di -> tells class dg ->
    tells class (d_ltype_ref di dg) /\ tells class (d_literal_ref special di dg) /\
    tells class (d_term_ref special di dg) /\ tells class (d_local_ref special di dg) /\
    tells class (d_id_ref special di).
Proof. exact refs_tell. Qed.
Print Assumptions c75_borrowed_tell.

Theorem c75_statements_tell : forall class, has_ascii class ->
  forall R (dr : R -> dval), tells class dr ->
    tells class (d_option dr) /\ tells class (d_triple dr) /\ tells class (d_quad dr).
Proof. exact @statements_tell. Qed.
Print Assumptions c75_statements_tell.

Theorem c75_triple_patterns_tell : forall class, has_ascii class ->
  forall R (dr : R -> dval), tells class dr ->
    tells class (d_ctp dr) /\ tells class (d_t_as dr) /\ tells class (d_t_gs dr) /\
    tells class (d_t_aa dr) /\ tells class (d_t_ag dr) /\ tells class (d_t_ga dr) /\
    tells class (d_t_gg dr).
Proof. exact @triple_patterns_tell. Qed.
Print Assumptions c75_triple_patterns_tell.

Theorem c75_quad_patterns_tell : forall class, has_ascii class ->
  forall R (dr : R -> dval), tells class dr ->
    tells class (d_cqp dr) /\ tells class (d_q_as dr) /\ tells class (d_q_gs dr) /\
    tells class (d_q_aa dr) /\ tells class (d_q_ag dr) /\ tells class (d_q_ga dr) /\
    tells class (d_q_gg dr) /\
    tells class (d_q_aaa dr) /\ tells class (d_q_aag dr) /\ tells class (d_q_aga dr) /\
    tells class (d_q_agg dr) /\ tells class (d_q_gaa dr) /\ tells class (d_q_gag dr) /\
    tells class (d_q_gga dr) /\ tells class (d_q_ggg dr).
Proof. exact @quad_patterns_tell. Qed.
Print Assumptions c75_quad_patterns_tell.

Theorem c75_components_tell : forall class, has_ascii class ->
  forall R (dr : R -> dval), tells class dr ->
    tells class (d_pat_s dr) /\ tells class (d_pat_p dr) /\ tells class (d_pat_o dr) /\
    tells class (d_pat_g dr).
Proof. exact @components_tell. Qed.
Print Assumptions c75_components_tell.

Theorem c75_variables_tell : forall class, has_ascii class ->
  forall R X (dr : R -> dval) (dx : X -> dval), tells class dr -> tells class dx ->
    tells class (d_rv dr dx).
Proof. exact @variables_tell. Qed.
Print Assumptions c75_variables_tell.

(** ** Examples *)

(** A writer that takes everything, and one with little room. *)
Definition all_of (v : dval) (pretty : bool) : text :=
  fst (v text (fun w s => (w ++ s, true)) pretty []).
Definition ex_term : local_term :=
  Named (TLit (Literal (chars "a" ++ [34; 10; 7; 233]) (LLang (chars "en")))).
Definition ex_d : local_term -> dval :=
  d_local (fun _ => false) (d_text (fun _ => false)) (d_text (fun _ => false)).
Definition q_ : text := [34].

(** A literal with a quotation mark, an end of line, a control character and an
    accented letter. *)
Example c75_term_ex : all_of (ex_d ex_term) false =
  chars "Named(Literal(Literal { value: " ++ q_ ++ chars "a\" ++ q_ ++ chars "\n\u{7}" ++ [233] ++ q_ ++
  chars ", type_: LangString(" ++ q_ ++ chars "en" ++ q_ ++ chars ") }))".
Proof. vm_compute. reflexivity. Qed.
Definition nl : text := [10].
Example c75_pretty_ex :
  all_of (d_set (map (d_quad (fun n => d_str (dec n))) [Quad 1 2 30 None; Quad 1 2 30 (Some 4)])) true =
  chars "{" ++ nl ++
  chars "    Quad(" ++ nl ++
  chars "        1," ++ nl ++
  chars "        2," ++ nl ++
  chars "        30," ++ nl ++
  chars "        None," ++ nl ++
  chars "    )," ++ nl ++
  chars "    Quad(" ++ nl ++
  chars "        1," ++ nl ++
  chars "        2," ++ nl ++
  chars "        30," ++ nl ++
  chars "        Some(" ++ nl ++
  chars "            4," ++ nl ++
  chars "        )," ++ nl ++
  chars "    )," ++ nl ++
  chars "}".
Proof. vm_compute. reflexivity. Qed.
Example c75_small_buffer_ex :
  d_set (map (d_triple (fun n => d_str (dec n))) [Triple 1 2 30]) _ (bounded 12) false [] =
  (chars "{Triple(1, 2", false).
Proof. vm_compute. reflexivity. Qed.

(** Resources that meet the hypotheses: numbers, and strings for IRIs and tags. *)
Example c75_numbers_ex : tells (fun c => c <> 10) (fun n : N => d_str (dec n)).
Proof. apply numbers_tell. intros c H ->. now destruct H. Qed.
Example c75_iris_ex : has_ascii (fun c => c <> 10) /\
  (forall c, 127 < c -> (fun _ => false) c = false -> c <> 10) /\
  tells (fun c => c <> 10) (d_text (fun _ => false)).
Proof.
  assert (A : has_ascii (fun c => c <> 10)) by (intros c H ->; now destruct H).
  assert (B : forall c, 127 < c -> (fun _ : char => false) c = false -> c <> 10) by (intros c H _ ->; discriminate).
  exact (conj A (conj B (proj1 (strings_tell _ A _ B)))).
Qed.
Example c75_reached_ex : exists xs d,
  run (bd_step N.compare true) bd_new [Insert (Quad 1 2 30 None)] = Some (xs, d) /\
  option_map (fun v => all_of v false) (d_bd (fun n => d_str (dec n)) d) =
    Some (chars "{Quad(1, 2, 30, None)}").
Proof. do 2 eexists. split; vm_compute; reflexivity. Qed.
