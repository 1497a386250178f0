(** [{:?}] and [{:#?}] of statements, patterns and containers, in the words of
    DebugSpec.v. *)
From Coq Require Import List Arith NArith Bool Ascii String Lia Sorted.
Import ListNotations.
From Verif Require Import Base BaseProofs TextModel BlankIdSpec TextProofs TripleModel TripleProofs
  DisplayModel TermModel TriplePatternModel QuadPatternModel WriteModel WriteSpec WriteProofs SetSpec
  ContainerSpec IndexedSpec Machine BTreeDatasetModel BTreeGraphModel IndexedDatasetModel
  IndexedGraphModel BTreeDatasetProofs BTreeGraphProofs IndexedRunProofs IndexedGraphRunProofs
  DebugModel DebugSpec DebugProofs DebugReadProofs DebugTermProofs DebugPatternProofs.
Local Open Scope N_scope.

(** ** Only the text counts *)

(** [shows] needs nothing about reading: a weaker [good]. *)
Section Shows.
  Context {T : Type} (dt : T -> dval) (s : bool -> T -> text)
    (H : forall t, shows (dt t) (fun p => s p t)).
  Let f := leaf s.
  Lemma H' t : shows (dt t) (fun p => shown p (f t)).
  Proof. exact (H t). Qed.
  Lemma sh_option x : shows (d_option dt x) (fun p => shown p (option_tree f x)).
  Proof. pose proof H'. destruct x; good_shows. Qed.
  Lemma sh_triple t : shows (d_triple dt t) (fun p => shown p (triple_tree f t)).
  Proof. pose proof H'. good_shows. Qed.
  Lemma sh_quad q : shows (d_quad dt q) (fun p => shown p (quad_tree f q)).
  Proof. pose proof H'. pose proof sh_option. good_shows. Qed.

  Lemma statements_text :
    (forall t, shows (d_triple dt t) (fun p => shown p (triple_tree (leaf s) t))) /\
    (forall q, shows (d_quad dt q) (fun p => shown p (quad_tree (leaf s) q))).
  Proof. exact (conj sh_triple sh_quad). Qed.

  Ltac go := pose proof H'; pose proof sh_option; good_shows.
  Lemma components_text :
    (forall x, shows (d_pat_s dt x) (fun p => shown p (s_tree (leaf s) x))) /\
    (forall x, shows (d_pat_p dt x) (fun p => shown p (p_tree (leaf s) x))) /\
    (forall x, shows (d_pat_o dt x) (fun p => shown p (o_tree (leaf s) x))) /\
    (forall x, shows (d_pat_g dt x) (fun p => shown p (g_tree (leaf s) x))).
  Proof. repeat split; intros []; go. Qed.

  Lemma sh_triple_pattern c : shows (d_ctp dt c) (fun p => shown p (triple_pattern_tree f c)).
  Proof.
    rewrite <- triple_pattern_trees.
    assert (AA : forall x, shows (d_t_aa dt x) (fun p => shown p (tree_t_aa f x))) by (intros []; go).
    assert (AG : forall x, shows (d_t_ag dt x) (fun p => shown p (tree_t_ag f x))) by (intros []; go).
    assert (GA : forall x, shows (d_t_ga dt x) (fun p => shown p (tree_t_ga f x))) by (intros []; go).
    assert (GG : forall x, shows (d_t_gg dt x) (fun p => shown p (tree_t_gg f x))) by (intros []; go).
    assert (AS : forall x, shows (d_t_as dt x) (fun p => shown p (tree_t_as f x))) by (intros []; go).
    assert (GS : forall x, shows (d_t_gs dt x) (fun p => shown p (tree_t_gs f x))) by (intros []; go).
    destruct c; go.
  Qed.
  Lemma sh_quad_pattern c : shows (d_cqp dt c) (fun p => shown p (quad_pattern_tree f c)).
  Proof.
    rewrite <- quad_pattern_trees.
    assert (AAA : forall x, shows (d_q_aaa dt x) (fun p => shown p (tree_q_aaa f x))) by (intros []; go).
    assert (AAG : forall x, shows (d_q_aag dt x) (fun p => shown p (tree_q_aag f x))) by (intros []; go).
    assert (AGA : forall x, shows (d_q_aga dt x) (fun p => shown p (tree_q_aga f x))) by (intros []; go).
    assert (AGG : forall x, shows (d_q_agg dt x) (fun p => shown p (tree_q_agg f x))) by (intros []; go).
    assert (GAA : forall x, shows (d_q_gaa dt x) (fun p => shown p (tree_q_gaa f x))) by (intros []; go).
    assert (GAG : forall x, shows (d_q_gag dt x) (fun p => shown p (tree_q_gag f x))) by (intros []; go).
    assert (GGA : forall x, shows (d_q_gga dt x) (fun p => shown p (tree_q_gga f x))) by (intros []; go).
    assert (GGG : forall x, shows (d_q_ggg dt x) (fun p => shown p (tree_q_ggg f x))) by (intros []; go).
    assert (AA : forall x, shows (d_q_aa dt x) (fun p => shown p (tree_q_aa f x))) by (intros []; go).
    assert (AG : forall x, shows (d_q_ag dt x) (fun p => shown p (tree_q_ag f x))) by (intros []; go).
    assert (GA : forall x, shows (d_q_ga dt x) (fun p => shown p (tree_q_ga f x))) by (intros []; go).
    assert (GG : forall x, shows (d_q_gg dt x) (fun p => shown p (tree_q_gg f x))) by (intros []; go).
    assert (AS : forall x, shows (d_q_as dt x) (fun p => shown p (tree_q_as f x))) by (intros []; go).
    assert (GS : forall x, shows (d_q_gs dt x) (fun p => shown p (tree_q_gs f x))) by (intros []; go).
    destruct c; go.
  Qed.
  Lemma patterns_text :
    (forall c, shows (d_ctp dt c) (fun p => shown p (triple_pattern_tree (leaf s) c))) /\
    (forall c, shows (d_cqp dt c) (fun p => shown p (quad_pattern_tree (leaf s) c))).
  Proof. exact (conj sh_triple_pattern sh_quad_pattern). Qed.

  (** Containers. *)
  Lemma sh_quads l : shows (d_set (map (d_quad dt) l)) (fun p => shown p (SetOf (map (quad_tree f) l))).
  Proof. apply shows_set. induction l; cbn; constructor; auto using sh_quad. Qed.
  Lemma sh_triples l :
    shows (d_set (map (d_triple dt) l)) (fun p => shown p (SetOf (map (triple_tree f) l))).
  Proof. apply shows_set. induction l; cbn; constructor; auto using sh_triple. Qed.

  Context (cmp : T -> T -> comparison) (L : ord_laws cmp).
  Lemma bd_debug keep ops xs d : run (bd_step cmp keep) bd_new ops = Some (xs, d) ->
    exists v l, d_bd dt d = Some v /\ increasing (quad_cmp cmp) l /\
      (forall q, In q l <-> In q (spec_set (quad_cmp cmp) ops)) /\
      shows v (fun p => shown p (SetOf (map (quad_tree (leaf s)) l))).
  Proof.
    intros R. destruct (bd_iteration L keep ops xs d R) as (l & I & _ & N & E).
    exists (d_set (map (d_quad dt) l)), l. unfold d_bd. rewrite I.
    split; [easy|]. split; [easy|]. split; [easy|]. apply sh_quads.
  Qed.
  Lemma id_debug keep ops0 ops xs d : id_reached cmp keep ops0 ops xs d ->
    exists v l, d_id dt d = Some v /\ increasing (quad_cmp cmp) l /\
      (forall q, In q l <-> In q (final_set cmp ops0 ops xs)) /\
      shows v (fun p => shown p (SetOf (map (quad_tree (leaf s)) l))).
  Proof.
    intros R. destruct (id_contents L keep ops0 ops xs d R) as (l & I & _ & N & E & _).
    exists (d_set (map (d_quad dt) l)), l. unfold d_id. rewrite I.
    split; [easy|]. split; [easy|]. split; [easy|]. apply sh_quads.
  Qed.
  Lemma bg_debug keep ops xs g : run (bg_step cmp keep) bg_new ops = Some (xs, g) ->
    exists v l, d_bg dt g = Some v /\ increasing (triple_cmp cmp) l /\
      (forall t, In t l <-> In t (spec_set (triple_cmp cmp) ops)) /\
      shows v (fun p => shown p (SetOf (map (triple_tree (leaf s)) l))).
  Proof.
    intros R. destruct (bg_iteration L keep ops xs g R) as (l & I & _ & N & E).
    exists (d_set (map (d_triple dt) l)), l. unfold d_bg. rewrite I.
    split; [easy|]. split; [easy|]. split; [easy|]. apply sh_triples.
  Qed.
  Lemma ig_debug keep ops0 ops g : ig_reached cmp keep ops0 ops g ->
    exists v l, d_ig dt g = Some v /\ increasing (triple_cmp cmp) l /\
      (forall t, In t l <-> In t (spec_set (triple_cmp cmp) (ops0 ++ ops))) /\
      shows v (fun p => shown p (SetOf (map (triple_tree (leaf s)) l))).
  Proof.
    intros R. destruct (ig_contents L keep ops0 ops g R) as (l & I & _ & N & E & _).
    exists (d_set (map (d_triple dt) l)), l. unfold d_ig. rewrite I.
    split; [easy|]. split; [easy|]. split; [easy|]. apply sh_triples.
  Qed.
End Shows.

(** ** Reading *)

(** The trees of readable texts; nothing is shown, any class. *)
Lemma leaf_reads {A} (s : bool -> A -> text) : (forall p, readable (s p)) ->
  forall p a b, tree_agree p (leaf s a) (leaf s b) (a = b).
Proof. intros R p a b. exact (R p a b). Qed.
Section Reads.
  Context {R : Type} (s : bool -> R -> text) (RD : forall p, readable (s p)).
  Lemma rd_option p a b : tree_agree p (option_tree (leaf s) a) (option_tree (leaf s) b) (a = b).
  Proof. pose proof (leaf_reads s RD). destruct a, b; good_reads. Qed.
  Lemma rd_quad p a b : tree_agree p (quad_tree (leaf s) a) (quad_tree (leaf s) b) (a = b).
  Proof. pose proof (leaf_reads s RD). pose proof rd_option. destruct a, b; good_reads. Qed.
  Lemma rd_triple p a b : tree_agree p (triple_tree (leaf s) a) (triple_tree (leaf s) b) (a = b).
  Proof. pose proof (leaf_reads s RD). destruct a, b; good_reads. Qed.
  Lemma rd_quads p l m : shown p (SetOf (map (quad_tree (leaf s)) l)) =
    shown p (SetOf (map (quad_tree (leaf s)) m)) -> l = m.
  Proof.
    intros E. refine (proj1 (agree_set (quad_tree (leaf s)) p (rd_quad p) _ l m (chars ",") (chars ",") _ _ _)).
    - intros q. do 2 eexists. split; [reflexivity|reflexivity].
    - apply (follows_comma []).
    - apply (follows_comma []).
    - now rewrite E.
  Qed.
  Lemma rd_triples p l m : shown p (SetOf (map (triple_tree (leaf s)) l)) =
    shown p (SetOf (map (triple_tree (leaf s)) m)) -> l = m.
  Proof.
    intros E. refine (proj1 (agree_set (triple_tree (leaf s)) p (rd_triple p) _ l m (chars ",") (chars ",") _ _ _)).
    - intros q. do 2 eexists. split; [reflexivity|reflexivity].
    - apply (follows_comma []).
    - apply (follows_comma []).
    - now rewrite E.
  Qed.
  Context (cmp : R -> R -> comparison) (L : ord_laws cmp).
  Lemma same_quads_text p l m : increasing (quad_cmp cmp) l -> increasing (quad_cmp cmp) m ->
    (shown p (SetOf (map (quad_tree (leaf s)) l)) = shown p (SetOf (map (quad_tree (leaf s)) m)) <->
     forall q, In q l <-> In q m).
  Proof.
    intros I J. split; intros E.
    - now rewrite (rd_quads p l m E).
    - now rewrite (ssorted_ext (quad_cmp_laws _ L) l m I J E).
  Qed.
  Lemma same_triples_text p l m : increasing (triple_cmp cmp) l -> increasing (triple_cmp cmp) m ->
    (shown p (SetOf (map (triple_tree (leaf s)) l)) = shown p (SetOf (map (triple_tree (leaf s)) m)) <->
     forall t, In t l <-> In t m).
  Proof.
    intros I J. split; intros E.
    - now rewrite (rd_triples p l m E).
    - now rewrite (ssorted_ext (triple_cmp_laws _ L) l m I J E).
  Qed.
End Reads.

(** The characters of the plain text of a set of statements. *)
Lemma sets_class {R} class (s : bool -> R -> text) : has_ascii class ->
  (forall r c, In c (s false r) -> class c) ->
  (forall l c, In c (shown false (SetOf (map (quad_tree (leaf s)) l))) -> class c) /\
  (forall l c, In c (shown false (SetOf (map (triple_tree (leaf s)) l))) -> class c).
Proof.
  intros C H.
  assert (LF : forall r, all_in class (shown false (leaf s r))) by exact H.
  assert (OP : forall x, all_in class (shown false (option_tree (leaf s) x))) by (intros []; good_class C).
  split; intros l; apply all_set; auto; intros t I; apply in_map_iff in I; destruct I as (x & <- & _);
    good_class C.
Qed.

(** ** In the words of [tells] *)
Section Tells.
  Context (class : char -> Prop) (C : has_ascii class).
  Lemma statements_tell {R} (dr : R -> dval) : tells class dr ->
    tells class (d_option dr) /\ tells class (d_triple dr) /\ tells class (d_quad dr).
  Proof.
    intros H. destruct (tells_good _ _ H) as (s & G).
    repeat split; eapply good_tells; eauto using good_option, good_triple, good_quad.
  Qed.
  Lemma triple_patterns_tell {R} (dr : R -> dval) : tells class dr ->
    tells class (d_ctp dr) /\ tells class (d_t_as dr) /\ tells class (d_t_gs dr) /\
    tells class (d_t_aa dr) /\ tells class (d_t_ag dr) /\ tells class (d_t_ga dr) /\
    tells class (d_t_gg dr).
  Proof.
    intros H. destruct (tells_good _ _ H) as (s & G).
    repeat split; eapply good_tells;
      eauto using good_ctp, good_t_as, good_t_gs, good_t_aa, good_t_ag, good_t_ga, good_t_gg.
  Qed.
  Lemma quad_patterns_tell {R} (dr : R -> dval) : tells class dr ->
    tells class (d_cqp dr) /\ tells class (d_q_as dr) /\ tells class (d_q_gs dr) /\
    tells class (d_q_aa dr) /\ tells class (d_q_ag dr) /\ tells class (d_q_ga dr) /\
    tells class (d_q_gg dr) /\
    tells class (d_q_aaa dr) /\ tells class (d_q_aag dr) /\ tells class (d_q_aga dr) /\
    tells class (d_q_agg dr) /\ tells class (d_q_gaa dr) /\ tells class (d_q_gag dr) /\
    tells class (d_q_gga dr) /\ tells class (d_q_ggg dr).
  Proof.
    intros H. destruct (tells_good _ _ H) as (s & G).
    repeat split; eapply good_tells;
      eauto using good_cqp, good_q_as, good_q_gs, good_q_aa, good_q_ag, good_q_ga, good_q_gg,
        good_q_aaa, good_q_aag, good_q_aga, good_q_agg, good_q_gaa, good_q_gag, good_q_gga, good_q_ggg.
  Qed.
  Lemma components_tell {R} (dr : R -> dval) : tells class dr ->
    tells class (d_pat_s dr) /\ tells class (d_pat_p dr) /\ tells class (d_pat_o dr) /\
    tells class (d_pat_g dr).
  Proof.
    intros H. destruct (tells_good _ _ H) as (s & G).
    repeat split; eapply good_tells; eauto using good_pat_s, good_pat_p, good_pat_o, good_pat_g.
  Qed.
  Lemma variables_tell {R X} (dr : R -> dval) (dx : X -> dval) : tells class dr -> tells class dx ->
    tells class (d_rv dr dx).
  Proof.
    intros H K. destruct (tells_good _ _ H) as (s & G). destruct (tells_good _ _ K) as (t & G').
    eapply good_tells, good_rv; eauto.
  Qed.
  Lemma variables_text {R X} (dr : R -> dval) (dx : X -> dval) s t :
    (forall r, shows (dr r) (fun p => s p r)) -> (forall x, shows (dx x) (fun p => t p x)) ->
    forall r, shows (d_rv dr dx r) (fun p => shown p (rv_tree (leaf s) (leaf t) r)).
  Proof.
    intros H K.
    assert (H1 : forall r, shows (dr r) (fun p => shown p (leaf s r))) by exact H.
    assert (K1 : forall x, shows (dx x) (fun p => shown p (leaf t x))) by exact K.
    intros []; good_shows.
  Qed.

  Context (special : char -> bool) (S : forall c, 127 < c -> special c = false -> class c).
  Lemma strings_tell : tells class (d_text special) /\ tells class (d_blank special).
  Proof. split; exact (good_tells _ _ _ (good_str special class C S)). Qed.
  Lemma terms_tell (di dg : text -> dval) : tells class di -> tells class dg ->
    tells class (d_ltype di dg) /\ tells class (d_literal special di dg) /\
    tells class (d_term special di dg) /\ tells class (d_local special di dg).
  Proof.
    intros H K. destruct (tells_good _ _ H) as (s & G). destruct (tells_good _ _ K) as (t & G').
    repeat split; eapply good_tells; eauto using good_ltype, good_literal, good_term, good_local.
  Qed.
  Lemma refs_tell (di dg : text -> dval) : tells class di -> tells class dg ->
    tells class (d_ltype_ref di dg) /\ tells class (d_literal_ref special di dg) /\
    tells class (d_term_ref special di dg) /\ tells class (d_local_ref special di dg) /\
    tells class (d_id_ref special di).
  Proof.
    intros H K. destruct (tells_good _ _ H) as (s & G). destruct (tells_good _ _ K) as (t & G').
    repeat split; eapply good_tells;
      eauto using good_ltype_ref, good_literal_ref, good_term_ref, good_local_ref, good_id_ref.
  Qed.
End Tells.

(** ** The text of terms *)
Lemma strings_text special s : exists t, quoted special s t /\
  shows (d_text special s) (fun _ => t) /\ shows (d_blank special s) (fun _ => t).
Proof. exists (str_text special s). split; [apply str_quoted|]. split; apply shows_text. Qed.
Section TermText.
  Context (special : char -> bool) (di dg : text -> dval) (iri tag : bool -> text -> text)
    (HI : forall i, shows (di i) (fun p => iri p i)) (HT : forall l, shows (dg l) (fun p => tag p l)).
  Let str (s : text) : tree := Leaf (fun _ => str_text special s).
  Lemma sh_str s : shows (d_text special s) (fun p => shown p (str s)).
  Proof. apply shows_text. Qed.
  Lemma sh_iri s : shows (di s) (fun p => shown p (leaf iri s)).
  Proof. apply HI. Qed.
  Lemma sh_tag s : shows (dg s) (fun p => shown p (leaf tag s)).
  Proof. apply HT. Qed.
  Ltac go := pose proof sh_str; pose proof sh_iri; pose proof sh_tag; good_shows.
  Lemma sh_ltype t : shows (d_ltype di dg t) (fun p => shown p (ltype_tree (leaf iri) (leaf tag) t)).
  Proof. destruct t; go. Qed.
  Lemma sh_ltype_ref t : shows (d_ltype_ref di dg t)
    (fun p => shown p (ltype_tree (leaf iri) (leaf tag) (ltype_ref_into_owned t))).
  Proof. destruct t; go. Qed.
  Lemma sh_ltype_cow t : shows (d_ltype_cow di dg t)
    (fun p => shown p (ltype_tree (leaf iri) (leaf tag) (ltype_cow_into_owned t))).
  Proof. destruct t; go. Qed.
  Lemma sh_literal l : shows (d_literal special di dg l)
    (fun p => shown p (literal_tree str (leaf iri) (leaf tag) "Literal" l)).
  Proof. apply shows_struct; [discriminate|]. repeat constructor; [apply sh_str|apply sh_ltype]. Qed.
  Lemma sh_literal_ref l : shows (d_literal_ref special di dg l)
    (fun p => shown p (literal_tree str (leaf iri) (leaf tag) "LiteralRef" (literal_ref_to_owned l))).
  Proof. apply shows_struct; [discriminate|]. repeat constructor; [apply sh_str|apply sh_ltype_ref]. Qed.
  Lemma sh_literal_cow l : shows (d_literal_cow special di dg l)
    (fun p => shown p (literal_tree str (leaf iri) (leaf tag) "CowLiteral" (literal_cow_into_owned l))).
  Proof. apply shows_struct; [discriminate|]. repeat constructor; [apply sh_str|apply sh_ltype_cow]. Qed.
  Lemma sh_term t : shows (d_term special di dg t)
    (fun p => shown p (term_tree str (leaf iri) (leaf tag) "Literal" t)).
  Proof. pose proof sh_literal. destruct t; go. Qed.
  Lemma sh_term_ref t : shows (d_term_ref special di dg t)
    (fun p => shown p (term_tree str (leaf iri) (leaf tag) "LiteralRef" (term_ref_to_owned t))).
  Proof. pose proof sh_literal_ref. destruct t; go. Qed.
  Lemma sh_local t : shows (d_local special di dg t)
    (fun p => shown p (local_tree str (leaf iri) (leaf tag) "Literal" t)).
  Proof. pose proof sh_term. destruct t; go. Qed.
  Lemma sh_local_ref t : shows (d_local_ref special di dg t)
    (fun p => shown p (local_tree str (leaf iri) (leaf tag) "LiteralRef" (local_ref_to_owned t))).
  Proof. pose proof sh_term_ref. destruct t; go. Qed.
  Lemma sh_id_ref i : shows (d_id_ref special di i)
    (fun p => shown p (id_tree str (leaf iri) (id_ref_into_owned i))).
  Proof. destruct i; go. Qed.

  Lemma terms_text : exists q : text -> text, (forall s, quoted special s (q s)) /\
    let str s := Leaf (fun _ => q s) in let iri := leaf iri in let tag := leaf tag in
    (forall t, shows (d_ltype di dg t) (fun p => shown p (ltype_tree iri tag t))) /\
    (forall l, shows (d_literal special di dg l) (fun p => shown p (literal_tree str iri tag "Literal" l))) /\
    (forall t, shows (d_term special di dg t) (fun p => shown p (term_tree str iri tag "Literal" t))) /\
    (forall t, shows (d_local special di dg t) (fun p => shown p (local_tree str iri tag "Literal" t))).
  Proof.
    exists (str_text special). split; [apply str_quoted|].
    exact (conj sh_ltype (conj sh_literal (conj sh_term sh_local))).
  Qed.
  Lemma refs_text : exists q : text -> text, (forall s, quoted special s (q s)) /\
    let str s := Leaf (fun _ => q s) in let iri := leaf iri in let tag := leaf tag in
    (forall t, shows (d_ltype_ref di dg t) (fun p => shown p (ltype_tree iri tag (ltype_ref_into_owned t)))) /\
    (forall l, shows (d_literal_ref special di dg l)
      (fun p => shown p (literal_tree str iri tag "LiteralRef" (literal_ref_to_owned l)))) /\
    (forall t, shows (d_term_ref special di dg t)
      (fun p => shown p (term_tree str iri tag "LiteralRef" (term_ref_to_owned t)))) /\
    (forall t, shows (d_local_ref special di dg t)
      (fun p => shown p (local_tree str iri tag "LiteralRef" (local_ref_to_owned t)))) /\
    (forall i, shows (d_id_ref special di i) (fun p => shown p (id_tree str iri (id_ref_into_owned i)))) /\
    (forall t, shows (d_ltype_cow di dg t) (fun p => shown p (ltype_tree iri tag (ltype_cow_into_owned t)))) /\
    (forall l, shows (d_literal_cow special di dg l)
      (fun p => shown p (literal_tree str iri tag "CowLiteral" (literal_cow_into_owned l)))).
  Proof.
    exists (str_text special). split; [apply str_quoted|].
    exact (conj sh_ltype_ref (conj sh_literal_ref (conj sh_term_ref (conj sh_local_ref
      (conj sh_id_ref (conj sh_ltype_cow sh_literal_cow)))))).
  Qed.
End TermText.

(** Numbers, as resources. *)
Lemma dec_reads m n x y : follows x -> follows y -> dec m ++ x = dec n ++ y -> m = n /\ x = y.
Proof.
  intros X Y E.
  assert (Z : forall s z, follows z -> Forall DIGIT s -> forall t w, follows w -> Forall DIGIT t ->
    s ++ z = t ++ w -> s = t /\ z = w).
  { assert (NF : forall c r z, DIGIT c -> follows z -> c :: r <> z).
    { intros c r z D (d & q & -> & I) Q. injection Q as <- <-. unfold DIGIT, between in D.
      cbn in I. repeat (destruct I as [<-|I]; [cbn in D; lia|]). easy. }
    induction s as [|c s IH]; intros z Fz Ds [|d t] w Fw Dt Q; cbn in Q.
    - now split.
    - exfalso. apply Forall_inv in Dt. symmetry in Q. exact (NF _ _ _ Dt Fz Q).
    - exfalso. apply Forall_inv in Ds. exact (NF _ _ _ Ds Fw Q).
    - injection Q as -> Q. apply Forall_inv_tail in Ds, Dt.
      destruct (IH z Fz Ds t w Fw Dt Q) as [-> ->]. easy. }
  destruct (Z _ _ X (proj1 (dec_numeral m)) _ _ Y (proj1 (dec_numeral n)) E) as [D ->].
  split; [now apply dec_inj|easy].
Qed.
Lemma numbers_tell class : has_ascii class -> tells class (fun n : N => d_str (dec n)).
Proof.
  intros C. exists (fun _ n => dec n). split; [intros n p; apply wr_str|]. split.
  - intros p m n x y. apply dec_reads.
  - intros n c I. pose proof (proj1 (dec_numeral n)) as D. rewrite Forall_forall in D.
    specialize (D c I). apply C. unfold DIGIT, between in D. lia.
Qed.
