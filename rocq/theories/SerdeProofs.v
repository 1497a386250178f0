(** Serialization: round trips, and what can come out of any input. *)
From Coq Require Import List NArith Bool Ascii String Lia.
Import ListNotations.
From Verif Require Import Base TextModel BlankIdModel BlankIdSpec BlankIdProofs DisplayModel TermModel
  TermProofs TripleModel TriplePatternModel SetSpec ContainerSpec Machine BaseProofs
  BTreeDatasetModel BTreeDatasetProofs BTreeGraphModel BTreeGraphProofs
  IndexedDatasetModel IndexedRunProofs IndexedGraphModel IndexedGraphRunProofs SerdeModel SerdeSpec.
Open Scope panic_scope.

Lemma str_eqb_refl s : str_eqb s s = true.
Proof. now apply str_eqb_spec. Qed.

Lemma de_blank_exact v b :
  de_blank v = Some b <-> v = VStr b /\ BLANK_NODE_LABEL b /\ ~ In DOT b.
Proof.
  split.
  - destruct v; cbn; try discriminate; intros E.
    destruct (new_keeps _ _ E); apply new_exact in E; tauto.
  - intros (-> & H); cbn; now apply new_exact.
Qed.

Lemma blank_round b : BLANK_NODE_LABEL b -> ~ In DOT b -> de_blank (ser_blank b) = Some b.
Proof. intros; now apply de_blank_exact. Qed.

Lemma letter_not_blank s : starts_with_letter s -> de_blank (VStr s) = None.
Proof.
  intros (c & r & -> & H); cbn; unfold blank_new, check.
  replace (c =? 95)%N with false; [reflexivity|]; symmetry; apply N.eqb_neq; lia.
Qed.

Section Terms.
  Context (iri_ok tag_ok : text -> bool).
  Local Notation de_iri := (de_iri iri_ok).
  Local Notation de_tag := (de_tag tag_ok).
  Local Notation de_ltype := (de_ltype iri_ok tag_ok).
  Local Notation de_literal := (de_literal iri_ok tag_ok).
  Local Notation de_term := (de_term iri_ok tag_ok).
  Local Notation de_local := (de_local iri_ok tag_ok).
  Local Notation iok := (fun i => iri_ok i = true).
  Local Notation tok := (fun t => tag_ok t = true).
  Local Notation bok := (fun b => BLANK_NODE_LABEL b /\ ~ In DOT b).

  Lemma ltype_round t : ltype_ok iok tok t -> de_ltype (ser_ltype t) = Some t.
  Proof.
    intros [Hi Ht]; destruct t as [i|l]; unfold ser_ltype, de_ltype, ser_iri, ser_tag.
    - rewrite str_eqb_refl; cbn; now rewrite (Hi i eq_refl).
    - replace (str_eqb (chars "LangString") (chars "Any")) with false by reflexivity.
      rewrite str_eqb_refl; cbn; now rewrite (Ht l eq_refl).
  Qed.

  Lemma literal_round l : literal_ok iok tok l -> de_literal (ser_literal l) = Some l.
  Proof.
    intros H; destruct l as [v t]; unfold ser_literal, SerdeModel.de_literal; cbn [l_value l_type literal_fields].
    rewrite str_eqb_refl; cbn [de_string bind].
    replace (str_eqb (chars "type_") (chars "value")) with false by reflexivity.
    rewrite str_eqb_refl, ltype_round by exact H; reflexivity.
  Qed.

  Lemma term_round t : term_ok iok tok t -> de_term (ser_term t) = Some t.
  Proof.
    intros [Hi Hl]; destruct t as [i|l]; unfold SerdeModel.de_term; cbn [ser_term].
    - cbn; now rewrite (Hi i eq_refl).
    - cbn [SerdeModel.de_iri ser_literal].
      change (VMap _) with (ser_literal l); now rewrite (literal_round l (Hl l eq_refl)).
  Qed.

  Lemma local_round t :
    (forall i, iri_ok i = true -> starts_with_letter i) ->
    local_ok bok iok tok t -> de_local (ser_local t) = Some t.
  Proof.
    intros HL [Hb Ht]; destruct t as [b|u]; unfold SerdeModel.de_local; cbn [ser_local].
    - destruct (Hb b eq_refl); now rewrite blank_round.
    - destruct u as [i|l].
      + cbn [ser_term]; unfold ser_iri; rewrite letter_not_blank.
        * pose proof (term_round _ (Ht _ eq_refl)) as E; cbn [ser_term] in E; unfold ser_iri in E.
          now rewrite E.
        * apply HL, (proj1 (Ht _ eq_refl) i eq_refl).
      + pose proof (term_round _ (Ht _ eq_refl)) as E; cbn [ser_term] in E |- *.
        now rewrite E.
  Qed.

  Lemma de_ltype_ok v t : de_ltype v = Some t -> ltype_ok iok tok t.
  Proof.
    unfold SerdeModel.de_ltype; destruct v as [| | | | |m]; try discriminate.
    destruct m as [|[k x] [|? ?]]; try discriminate.
    destruct (str_eqb k (chars "Any")).
    - destruct x; cbn; try discriminate; destruct (iri_ok s) eqn:E; cbn; [|discriminate].
      intros H; injection H as <-; split; [intros ? H; injection H as <-; exact E|discriminate].
    - destruct (str_eqb k (chars "LangString")); [|discriminate].
      destruct x; cbn; try discriminate; destruct (tag_ok s) eqn:E; cbn; [|discriminate].
      intros H; injection H as <-; split; [discriminate|intros ? H; injection H as <-; exact E].
  Qed.

  Lemma literal_fields_ok m : forall v0 t0 v t,
    (forall u, t0 = Some u -> ltype_ok iok tok u) ->
    literal_fields iri_ok tag_ok m v0 t0 = Some (v, t) ->
    forall u, t = Some u -> ltype_ok iok tok u.
  Proof.
    induction m as [|[k x] r IH]; intros v0 t0 v t H0; cbn [literal_fields].
    - intros H; injection H as <- <-; exact H0.
    - destruct (str_eqb k (chars "value")).
      + destruct v0; [discriminate|]; destruct (de_string x); cbn; [|discriminate]; eauto.
      + destruct (str_eqb k (chars "type_")); [|eauto].
        destruct t0; [discriminate|]; destruct (de_ltype x) eqn:E; cbn; [|discriminate].
        apply IH; intros u Hu; injection Hu as <-; eapply de_ltype_ok; eauto.
  Qed.

  Lemma de_literal_ok v l : de_literal v = Some l -> literal_ok iok tok l.
  Proof.
    unfold SerdeModel.de_literal, literal_ok; destruct v as [| | | |s|m]; try discriminate.
    - destruct s as [|x [|y [|? ?]]]; try discriminate.
      destruct (de_string x); cbn; [|discriminate]; destruct (de_ltype y) eqn:E; cbn; [|discriminate].
      intros H; injection H as <-; cbn; eapply de_ltype_ok; eauto.
    - destruct (literal_fields _ _ m None None) as [[[s|] [t|]]|] eqn:E; try discriminate.
      intros H; injection H as <-; cbn; eapply literal_fields_ok; eauto; discriminate.
  Qed.

  Lemma de_iri_ok v i : de_iri v = Some i -> v = VStr i /\ iri_ok i = true.
  Proof.
    destruct v; cbn; try discriminate; destruct (iri_ok s) eqn:E; [|discriminate].
    intros H; injection H as <-; auto.
  Qed.

  Lemma de_term_ok v t : de_term v = Some t -> term_ok iok tok t.
  Proof.
    unfold SerdeModel.de_term; destruct (de_iri v) as [i|] eqn:E.
    - intros H; injection H as <-; split; [intros ? H; injection H as <-|discriminate].
      now apply de_iri_ok in E.
    - destruct (de_literal v) as [l|] eqn:F; cbn; [|discriminate].
      intros H; injection H as <-; split; [discriminate|intros ? H; injection H as <-].
      eapply de_literal_ok; eauto.
  Qed.

  Lemma de_local_ok v t : de_local v = Some t -> local_ok bok iok tok t.
  Proof.
    unfold SerdeModel.de_local; destruct (de_blank v) as [b|] eqn:E.
    - intros H; injection H as <-; split; [intros ? H; injection H as <-|discriminate].
      now apply de_blank_exact in E.
    - destruct (de_term v) as [u|] eqn:F; cbn; [|discriminate].
      intros H; injection H as <-; split; [discriminate|intros ? H; injection H as <-].
      eapply de_term_ok; eauto.
  Qed.

  Lemma ser_local_not_null t : ser_local t <> VNull.
  Proof. now destruct t as [|[]]. Qed.
End Terms.

(** The serialization of the borrowed forms. *)
Lemma borrowed_same l :
  ser_literal_ref (literal_as_ref l) = ser_literal l /\
  ser_literal_cow (literal_as_cow l) = ser_literal l /\
  ser_literal_cow (literal_into_cow l) = ser_literal l.
Proof. destruct l as [v []]; repeat split. Qed.

(** ** Triples, quads and pattern elements *)

Lemma triple_round {S P O} ss sp so (ds : value -> option S) (dp : value -> option P)
    (do : value -> option O) t :
  ds (ss (t_s t)) = Some (t_s t) -> dp (sp (t_p t)) = Some (t_p t) ->
  do (so (t_o t)) = Some (t_o t) ->
  de_triple ds dp do (ser_triple ss sp so t) = Some t.
Proof.
  intros A B C; destruct t; cbn in *; now rewrite A, B, C.
Qed.

Lemma quad_round {S P O G} ss sp so sg (ds : value -> option S) (dp : value -> option P)
    (do : value -> option O) (dg : value -> option G) q :
  ds (ss (q_s q)) = Some (q_s q) -> dp (sp (q_p q)) = Some (q_p q) ->
  do (so (q_o q)) = Some (q_o q) ->
  (forall g, q_g q = Some g -> dg (sg g) = Some g /\ sg g <> VNull) ->
  de_quad ds dp do dg (ser_quad ss sp so sg q) = Some q.
Proof.
  intros A B C D; destruct q as [s p o [g|]]; cbn in *; rewrite A, B, C; cbn; [|reflexivity].
  destruct (D g eq_refl) as [E F]; unfold de_option.
  destruct (sg g); [congruence|..]; rewrite E; reflexivity.
Qed.

Lemma rv_round {T X} st sx (dt : value -> option T) (dx : value -> option X) r :
  (forall t, r = Res t -> dt (st t) = Some t) -> (forall x, r = Var x -> dx (sx x) = Some x) ->
  de_rv dt dx (ser_rv st sx r) = Some r.
Proof.
  intros A B; destruct r as [t|x]; unfold ser_rv, de_rv.
  - now rewrite str_eqb_refl, A.
  - replace (str_eqb (chars "Var") (chars "Resource")) with false by reflexivity.
    now rewrite str_eqb_refl, B.
Qed.

(** ** Containers *)
Section Seq.
  Context {C T : Type} (insert : C -> T -> option (bool * C)) (ser : T -> value) (de : value -> option T).
  (** The loop of [extend]. *)
  Context (extend : C -> list T -> option C).
  Context (extend_nil : forall c, extend c [] = Some c).
  Context (extend_cons : forall c t r, extend c (t :: r) = ('(_, c') <- insert c t ;; extend c' r)).

  Lemma visit_good l : forall ts c, map de l = map Some ts ->
    visit_seq insert de c l = option_map Some (extend c ts).
  Proof.
    induction l as [|x r IH]; intros [|t ts] c H; cbn in H; try discriminate; cbn [visit_seq].
    - now rewrite extend_nil.
    - injection H as H1 H2; rewrite H1, extend_cons.
      destruct (insert c t) as [[b c']|]; cbn; [now apply IH|reflexivity].
  Qed.

  Lemma visit_bad l : forall ts x l' c, map de l = map Some ts -> de x = None ->
    visit_seq insert de c (l ++ x :: l') = option_map (fun _ => None) (extend c ts).
  Proof.
    induction l as [|y r IH]; intros [|t ts] x l' c H Hx; cbn in H; try discriminate;
      cbn [app visit_seq].
    - now rewrite Hx, extend_nil.
    - injection H as H1 H2; rewrite H1, extend_cons.
      destruct (insert c t) as [[b c']|]; cbn; [now apply IH|reflexivity].
  Qed.

  Lemma first_bad l :
    (exists ts, map de l = map Some ts) \/
    (exists l1 ts x l2, l = l1 ++ x :: l2 /\ map de l1 = map Some ts /\ de x = None).
  Proof.
    induction l as [|x r IH]; [left; now exists []|].
    destruct (de x) as [t|] eqn:E.
    - destruct IH as [[ts H]|(l1 & ts & y & l2 & -> & H & K)].
      + left; exists (t :: ts); cbn; congruence.
      + right; exists (x :: l1), (t :: ts), y, l2; cbn; rewrite E, H; auto.
    - right; exists [], [], x, r; auto.
  Qed.

  Lemma de_ser_seq new l c :
    (forall t, In t l -> de (ser t) = Some t) -> extend new l = Some c ->
    de_seq insert de new (VSeq (map ser l)) = Some (Some c).
  Proof.
    intros H E; unfold de_seq; rewrite (visit_good _ l), E; [reflexivity|].
    rewrite map_map; now apply map_ext_in.
  Qed.

  (** Any input: an error, or a container built from the elements read. *)
  Lemma de_seq_input new v :
    (forall ts, extend new ts <> None) ->
    (exists vs ts c, v = VSeq vs /\ map de vs = map Some ts /\ extend new ts = Some c /\
       de_seq insert de new v = Some (Some c)) \/
    (de_seq insert de new v = Some None /\
     forall vs, v = VSeq vs -> exists x, In x vs /\ de x = None).
  Proof.
    intros HT; destruct v as [| | | |l|]; try (right; split; [reflexivity|discriminate]).
    destruct (first_bad l) as [[ts H]|(l1 & ts & x & l2 & -> & H & K)].
    - left; exists l, ts; cbn [de_seq]; rewrite (visit_good _ _ _ H).
      destruct (extend new ts) as [c|] eqn:E; [|now apply HT in E].
      exists c; auto.
    - right; cbn [de_seq]; rewrite (visit_bad _ _ _ _ _ H K).
      destruct (extend new ts) as [c|] eqn:E; [|now apply HT in E].
      split; [reflexivity|]; intros vs F; injection F as <-; exists x; split; [|exact K].
      apply in_or_app; right; now left.
  Qed.
End Seq.

Section Containers.
  Context {R : Type} (cmp : R -> R -> comparison) (L : ord_laws cmp) (keep : bool).
  Context (ser : R -> value) (de : value -> option R).
  Local Notation serq := (ser_quad ser ser ser ser).
  Local Notation deq := (de_quad de de de de).
  Local Notation sert := (ser_triple ser ser ser).
  Local Notation det := (de_triple de de de).

  Definition readable (r : R) : Prop := de (ser r) = Some r /\ ser r <> VNull.

  Lemma quad_readable q : (forall r, In r (quad_comps q) -> readable r) -> deq (serq q) = Some q.
  Proof.
    intros H; apply quad_round; try (apply H; destruct q as [? ? ? []]; cbn; auto; fail).
    intros g E; apply H; destruct q as [? ? ? []]; cbn in *; [|discriminate].
    injection E as <-; auto.
  Qed.

  Lemma triple_readable t : (forall r, In r (triple_comps t) -> readable r) -> det (sert t) = Some t.
  Proof. intros H; apply triple_round; apply H; destruct t; cbn; auto. Qed.

  Lemma bd_serde_round (eqb : R -> R -> bool) ops xs d :
    (forall x y, eqb x y = true <-> x = y) ->
    run (bd_step cmp keep) bd_new ops = Some (xs, d) ->
    exists l, bd_iter d = Some l /\
      ((forall q r, In q l -> In r (quad_comps q) -> readable r) ->
       exists v d', bd_ser ser d = Some v /\ bd_de cmp keep de v = Some (Some d') /\
         bd_eqb eqb d d' = Some true).
  Proof.
    intros He H; destruct (bd_rebuild L keep eqb ops xs d He H) as (l & d' & A & B & C & D).
    exists l; split; [exact A|]; intros HR; exists (VSeq (map serq l)), d'; split; [|split; [|exact D]].
    - unfold bd_ser, ser_seq; now rewrite B.
    - apply (de_ser_seq _ _ _ (bd_extend cmp keep)); try reflexivity; [|exact C].
      intros q Hq; apply quad_readable; eauto.
  Qed.

  Lemma id_serde_round (eqb : R -> R -> bool) ops0 ops xs d :
    (forall x y, eqb x y = true <-> x = y) ->
    id_reached cmp keep ops0 ops xs d ->
    exists l, id_iter d = Some l /\
      ((forall q r, In q l -> In r (quad_comps q) -> readable r) ->
       exists v d', id_ser ser d = Some v /\ id_de cmp keep de v = Some (Some d') /\
         id_eqb eqb d d' = Some true).
  Proof.
    intros He H; destruct (id_rebuild L keep eqb ops0 ops xs d He H) as (l & d' & A & B & C & D).
    exists l; split; [exact A|]; intros HR; exists (VSeq (map serq l)), d'; split; [|split; [|exact D]].
    - unfold id_ser, ser_seq; now rewrite B.
    - apply (de_ser_seq _ _ _ (id_extend cmp keep)); try reflexivity; [|exact C].
      intros q Hq; apply quad_readable; eauto.
  Qed.

  Lemma bg_serde_round (eqb : R -> R -> bool) ops xs g :
    (forall x y, eqb x y = true <-> x = y) ->
    run (bg_step cmp keep) bg_new ops = Some (xs, g) ->
    exists l, bg_iter g = Some l /\
      ((forall t r, In t l -> In r (triple_comps t) -> readable r) ->
       exists v g', bg_ser ser g = Some v /\ bg_de cmp keep de v = Some (Some g') /\
         bg_eqb eqb g g' = Some true).
  Proof.
    intros He H; destruct (bg_rebuild L keep eqb ops xs g He H) as (l & d' & A & B & C & D).
    exists l; split; [exact A|]; intros HR; exists (VSeq (map sert l)), d'; split; [|split; [|exact D]].
    - unfold bg_ser, ser_seq; now rewrite B.
    - apply (de_ser_seq _ _ _ (bg_extend cmp keep)); try reflexivity; [|exact C].
      intros q Hq; apply triple_readable; eauto.
  Qed.

  Lemma ig_serde_round (eqb : R -> R -> bool) ops0 ops g :
    (forall x y, eqb x y = true <-> x = y) ->
    ig_reached cmp keep ops0 ops g ->
    exists l, ig_iter g = Some l /\
      ((forall t r, In t l -> In r (triple_comps t) -> readable r) ->
       exists v g', ig_ser ser g = Some v /\ ig_de cmp keep de v = Some (Some g') /\
         ig_eqb eqb g g' = Some true).
  Proof.
    intros He H; destruct (ig_rebuild L keep eqb ops0 ops g He H) as (l & d' & A & B & C & D).
    exists l; split; [exact A|]; intros HR; exists (VSeq (map sert l)), d'; split; [|split; [|exact D]].
    - unfold ig_ser, ser_seq; now rewrite B.
    - apply (de_ser_seq _ _ _ (ig_extend cmp keep)); try reflexivity; [|exact C].
      intros q Hq; apply triple_readable; eauto.
  Qed.

  Lemma bd_serde_input v :
    (exists vs ts d m, v = VSeq vs /\ map deq vs = map Some ts /\
       bd_de cmp keep de v = Some (Some d) /\ bd_iter d = Some m /\
       increasing (quad_cmp cmp) m /\ forall q, In q m <-> In q ts) \/
    (bd_de cmp keep de v = Some None /\
     forall vs, v = VSeq vs -> exists x, In x vs /\ deq x = None).
  Proof.
    assert (HT : forall ts, bd_extend cmp keep bd_new ts <> None).
    { intros ts; destruct (bd_collect L keep ts) as (d & E & _); unfold bd_from_iter in E; congruence. }
    destruct (de_seq_input (bd_insert cmp keep) deq (bd_extend cmp keep)
                (fun _ => eq_refl) (fun _ _ _ => eq_refl) bd_new v HT) as [(vs & ts & d & A & B & C & D)|H].
    - destruct (bd_collect L keep ts) as (d' & E & m & F & G & H).
      unfold bd_from_iter in E; rewrite C in E; injection E as <-.
      left; exists vs, ts, d, m; do 5 (split; [assumption|]); exact H.
    - right; exact H.
  Qed.

  Lemma id_serde_input v :
    (exists vs ts d m, v = VSeq vs /\ map deq vs = map Some ts /\
       id_de cmp keep de v = Some (Some d) /\ id_iter d = Some m /\
       increasing (quad_cmp cmp) m /\ forall q, In q m <-> In q ts) \/
    (id_de cmp keep de v = Some None /\
     forall vs, v = VSeq vs -> exists x, In x vs /\ deq x = None).
  Proof.
    assert (HT : forall ts, id_extend cmp keep id_new ts <> None).
    { intros ts; destruct (id_collect L keep ts) as (d & E & _); unfold id_from_iter in E; congruence. }
    destruct (de_seq_input (id_insert cmp keep) deq (id_extend cmp keep)
                (fun _ => eq_refl) (fun _ _ _ => eq_refl) id_new v HT) as [(vs & ts & d & A & B & C & D)|H].
    - destruct (id_collect L keep ts) as (d' & E & m & F & G & H).
      unfold id_from_iter in E; rewrite C in E; injection E as <-.
      left; exists vs, ts, d, m; do 5 (split; [assumption|]); exact H.
    - right; exact H.
  Qed.

  Lemma bg_serde_input v :
    (exists vs ts d m, v = VSeq vs /\ map det vs = map Some ts /\
       bg_de cmp keep de v = Some (Some d) /\ bg_iter d = Some m /\
       increasing (triple_cmp cmp) m /\ forall q, In q m <-> In q ts) \/
    (bg_de cmp keep de v = Some None /\
     forall vs, v = VSeq vs -> exists x, In x vs /\ det x = None).
  Proof.
    assert (HT : forall ts, bg_extend cmp keep bg_new ts <> None).
    { intros ts; destruct (bg_collect L keep ts) as (d & E & _); unfold bg_from_iter in E; congruence. }
    destruct (de_seq_input (bg_insert cmp keep) det (bg_extend cmp keep)
                (fun _ => eq_refl) (fun _ _ _ => eq_refl) bg_new v HT) as [(vs & ts & d & A & B & C & D)|H].
    - destruct (bg_collect L keep ts) as (d' & E & m & F & G & H).
      unfold bg_from_iter in E; rewrite C in E; injection E as <-.
      left; exists vs, ts, d, m; do 5 (split; [assumption|]); exact H.
    - right; exact H.
  Qed.

  Lemma ig_serde_input v :
    (exists vs ts d m, v = VSeq vs /\ map det vs = map Some ts /\
       ig_de cmp keep de v = Some (Some d) /\ ig_iter d = Some m /\
       increasing (triple_cmp cmp) m /\ forall q, In q m <-> In q ts) \/
    (ig_de cmp keep de v = Some None /\
     forall vs, v = VSeq vs -> exists x, In x vs /\ det x = None).
  Proof.
    assert (HT : forall ts, ig_extend cmp keep ig_new ts <> None).
    { intros ts; destruct (ig_collect L keep ts) as (d & E & _); unfold ig_from_iter in E; congruence. }
    destruct (de_seq_input (ig_insert cmp keep) det (ig_extend cmp keep)
                (fun _ => eq_refl) (fun _ _ _ => eq_refl) ig_new v HT) as [(vs & ts & d & A & B & C & D)|H].
    - destruct (ig_collect L keep ts) as (d' & E & m & F & G & H).
      unfold ig_from_iter in E; rewrite C in E; injection E as <-.
      left; exists vs, ts, d, m; do 5 (split; [assumption|]); exact H.
    - right; exact H.
  Qed.
End Containers.

(** A generator with an unchecked prefix produces an identifier whose
    serialization is refused. *)
Lemma generated_unreadable :
  exists prefix max checked b g,
    next_blank_id max checked (gen_with_prefix prefix) = Some (b, g) /\
    forall iri_ok tag_ok, iri_ok b = false ->
      de_local iri_ok tag_ok (ser_local (Anonymous b)) = None.
Proof.
  exists (chars "a b"), 10%N, true; do 2 eexists; split; [vm_compute; reflexivity|].
  intros iri_ok tag_ok H; unfold ser_local, ser_blank, de_local, de_term, de_iri.
  replace (de_blank _) with (@None text) by (vm_compute; reflexivity).
  now rewrite H.
Qed.

Lemma ser_local_inj iri_ok tag_ok :
  (forall i, iri_ok i = true -> starts_with_letter i) ->
  forall s t,
    local_ok (fun b => BLANK_NODE_LABEL b /\ ~ In DOT b)
      (fun i => iri_ok i = true) (fun t => tag_ok t = true) s ->
    local_ok (fun b => BLANK_NODE_LABEL b /\ ~ In DOT b)
      (fun i => iri_ok i = true) (fun t => tag_ok t = true) t ->
    ser_local s = ser_local t -> s = t.
Proof.
  intros HL s t Hs Ht E.
  pose proof (local_round iri_ok tag_ok s HL Hs) as A.
  pose proof (local_round iri_ok tag_ok t HL Ht) as B.
  rewrite E, B in A; congruence.
Qed.

(** ** Exactly which inputs are read *)
Definition entries (k : text) (m : list (text * value)) : list value :=
  map snd (filter (fun e => str_eqb (fst e) k) m).
Lemma str_eqb_neq s t : str_eqb s t = false <-> s <> t.
Proof. rewrite <- not_true_iff_false. now rewrite str_eqb_spec. Qed.
Lemma entries_none k m : entries k m = [] <-> ~ In k (map fst m).
Proof.
  unfold entries. induction m as [|[k' x] m IH]; cbn; [tauto|].
  destruct (str_eqb k' k) eqn:E; cbn.
  - apply str_eqb_spec in E. split; [discriminate|]. intros H. elim H. now left.
  - apply str_eqb_neq in E. rewrite IH. tauto.
Qed.
Lemma entries_app k m m' : entries k (m ++ m') = entries k m ++ entries k m'.
Proof. unfold entries. now rewrite filter_app, map_app. Qed.
Lemma only_entry_entries m k x : only_entry m k x <-> entries k m = [x].
Proof.
  split.
  - intros (m1 & m2 & -> & H1 & H2). apply entries_none in H1, H2.
    rewrite entries_app, H1. change ((k, x) :: m2) with ([(k, x)] ++ m2). rewrite entries_app, H2.
    unfold entries. cbn. now rewrite str_eqb_refl.
  - induction m as [|[k' y] m IH]; intros H; [discriminate|].
    change ((k', y) :: m) with ([(k', y)] ++ m) in H. rewrite entries_app in H.
    unfold entries at 1 in H. cbn in H. destruct (str_eqb k' k) eqn:E; cbn in H.
    + apply str_eqb_spec in E. subst k'. injection H as -> H. apply entries_none in H.
      exists [], m. now split.
    + destruct (IH H) as (m1 & m2 & -> & H1 & H2). exists ((k', y) :: m1), m2.
      split; [reflexivity|]. split; [|exact H2]. cbn. apply str_eqb_neq in E. tauto.
Qed.

Section Reads.
  Context (iri_ok tag_ok : text -> bool).
  Local Notation iok := (fun i => iri_ok i = true).
  Local Notation tok := (fun t => tag_ok t = true).
  Local Notation bok := (fun b => BLANK_NODE_LABEL b /\ ~ In DOT b).

  Lemma reads_type_exact v t : de_ltype iri_ok tag_ok v = Some t <-> reads_type iok tok v t.
  Proof.
    split.
    - destruct v as [| | | | |[|[k x] [|]]]; try discriminate. unfold de_ltype.
      destruct (str_eqb k (chars "Any")) eqn:E.
      + apply str_eqb_spec in E. subst k. destruct x as [| | |i| |]; try discriminate. cbn.
        destruct (iri_ok i) eqn:Ei; [|discriminate]. intros [= <-]. now constructor.
      + destruct (str_eqb k (chars "LangString")) eqn:E2; [|discriminate].
        apply str_eqb_spec in E2. subst k. destruct x as [| | |l| |]; try discriminate. cbn.
        destruct (tag_ok l) eqn:El; [|discriminate]. intros [= <-]. now constructor.
    - intros [i H|l H]; cbn; now rewrite H.
  Qed.
  Definition field_reads {A} (de : value -> option A) (l : list value) (before after : option A) : Prop :=
    match before with
    | Some a => l = [] /\ after = Some a
    | None => (l = [] /\ after = None) \/ (exists x a, l = [x] /\ de x = Some a /\ after = Some a)
    end.
  Lemma field_cons {A} (de : value -> option A) x l a' after :
    de x = Some a' -> field_reads de (x :: l) None after <-> field_reads de l (Some a') after.
  Proof.
    intros E. unfold field_reads. split.
    - intros [[H _]|(y & b & H1 & H2 & H3)]; [discriminate|]. injection H1 as -> ->. split; congruence.
    - intros [-> ->]. right. now exists x, a'.
  Qed.
  Lemma literal_fields_exact m : forall vo to vr tr,
    literal_fields iri_ok tag_ok m vo to = Some (vr, tr) <->
    field_reads de_string (entries (chars "value") m) vo vr /\
    field_reads (de_ltype iri_ok tag_ok) (entries (chars "type_") m) to tr.
  Proof.
    assert (FN : forall A (de : value -> option A) b a, field_reads de [] b a <-> b = a).
    { intros A de [x|] a; cbn; [intuition congruence|]. split.
      - intros [[_ ->]|(y & z & H & _)]; [reflexivity|discriminate].
      - intros <-. now left. }
    induction m as [|[k x] m IH]; intros vo to vr tr.
    - cbn [literal_fields]. change (entries (chars "value") []) with (@nil value).
      change (entries (chars "type_") []) with (@nil value). rewrite !FN. split; [intros [= <- <-]|intros [<- <-]]; tauto.
    - change (entries (chars "value") ((k, x) :: m)) with (entries (chars "value") ([(k, x)] ++ m)).
      change (entries (chars "type_") ((k, x) :: m)) with (entries (chars "type_") ([(k, x)] ++ m)).
      rewrite !entries_app. cbn [literal_fields].
      destruct (str_eqb k (chars "value")) eqn:EV.
      + apply str_eqb_spec in EV. subst k.
        change (entries (chars "value") [(chars "value", x)]) with [x].
        change (entries (chars "type_") [(chars "value", x)]) with (@nil value). cbn [app].
        destruct vo as [s|].
        * split; [discriminate|]. intros [[H _] _]. discriminate.
        * destruct (de_string x) as [s|] eqn:ED; cbn [bind].
          -- rewrite IH, (field_cons _ _ _ _ _ ED). tauto.
          -- split; [discriminate|]. intros [[[H _]|(y & b & H & E & _)] _]; [discriminate|].
             injection H as -> _. congruence.
      + destruct (str_eqb k (chars "type_")) eqn:ET.
        * apply str_eqb_spec in ET. subst k.
          change (entries (chars "value") [(chars "type_", x)]) with (@nil value).
          change (entries (chars "type_") [(chars "type_", x)]) with [x]. cbn [app].
          destruct to as [s|].
          -- split; [discriminate|]. intros [_ [H _]]. discriminate.
          -- destruct (de_ltype iri_ok tag_ok x) as [s|] eqn:ED; cbn [bind].
             ++ rewrite IH, (field_cons _ _ _ _ _ ED). tauto.
             ++ split; [discriminate|]. intros [_ [[H _]|(y & b & H & E & _)]]; [discriminate|].
                injection H as -> _. congruence.
        * replace (entries (chars "value") [(k, x)]) with (@nil value)
            by (unfold entries; cbn [filter fst]; now rewrite EV).
          replace (entries (chars "type_") [(k, x)]) with (@nil value)
            by (unfold entries; cbn [filter fst]; now rewrite ET).
          apply IH.
  Qed.
  Lemma de_string_exact x s : de_string x = Some s <-> x = VStr s.
  Proof. destruct x; cbn; split; try discriminate; intros [= <-]; reflexivity. Qed.
  Lemma reads_literal_exact v l : de_literal iri_ok tag_ok v = Some l <-> reads_literal iok tok v l.
  Proof.
    split.
    - destruct v as [| | | |[|x [|y [|]]]|m]; try discriminate; unfold de_literal.
      + destruct (de_string x) as [s|] eqn:E; [|discriminate]. cbn [bind].
        destruct (de_ltype iri_ok tag_ok y) as [t|] eqn:ET; [|discriminate]. cbn [bind]. intros [= <-].
        apply de_string_exact in E. subst x. apply reads_type_exact in ET. now constructor.
      + destruct (literal_fields iri_ok tag_ok m None None) as [[[s|] [t|]]|] eqn:E; try discriminate.
        intros [= <-]. apply literal_fields_exact in E. destruct E as [E1 E2]. cbn in E1, E2.
        destruct E1 as [[_ E1]|(x & a & E1 & D1 & F1)]; [discriminate|].
        destruct E2 as [[_ E2]|(y & b & E2 & D2 & F2)]; [discriminate|].
        injection F1 as <-. injection F2 as <-. apply de_string_exact in D1. subst x.
        apply only_entry_entries in E1, E2. apply reads_type_exact in D2. econstructor; eassumption.
    - intros [m s y t E1 E2 D2|s y t D2].
      + unfold de_literal. apply only_entry_entries in E1, E2. apply reads_type_exact in D2.
        rewrite (proj2 (literal_fields_exact m None None (Some s) (Some t))); [reflexivity|].
        split; right; [exists (VStr s), s|exists y, t]; auto.
      + unfold de_literal. cbn [de_string bind]. apply reads_type_exact in D2. now rewrite D2.
  Qed.
  Lemma de_iri_exact v i : de_iri iri_ok v = Some i <-> v = VStr i /\ iri_ok i = true.
  Proof.
    destruct v as [| | |s| |]; cbn; try (split; [discriminate|intros [H _]; discriminate]).
    destruct (iri_ok s) eqn:E; split.
    - intros [= <-]. now split.
    - intros [[= <-] _]. reflexivity.
    - discriminate.
    - intros [[= <-] H]. congruence.
  Qed.
  Lemma reads_term_exact v t : de_term iri_ok tag_ok v = Some t <-> reads_term iok tok v t.
  Proof.
    unfold de_term. split.
    - destruct (de_iri iri_ok v) as [i|] eqn:E.
      + apply de_iri_exact in E. destruct E as [-> E]. intros [= <-]. now constructor.
      + destruct (de_literal iri_ok tag_ok v) as [l|] eqn:EL; [|discriminate]. intros [= <-].
        constructor. now apply reads_literal_exact.
    - intros [i H|w l H].
      + now rewrite (proj2 (de_iri_exact (VStr i) i) (conj eq_refl H)).
      + destruct (de_iri iri_ok w) as [i|] eqn:E.
        * apply de_iri_exact in E. destruct E as [-> _]. inversion H.
        * apply reads_literal_exact in H. now rewrite H.
  Qed.
  Lemma reads_local_exact v t : de_local iri_ok tag_ok v = Some t <-> reads_local bok iok tok v t.
  Proof.
    unfold de_local. split.
    - destruct (de_blank v) as [b|] eqn:E.
      + apply de_blank_exact in E. destruct E as [-> E]. intros [= <-]. now constructor.
      + destruct (de_term iri_ok tag_ok v) as [u|] eqn:ET; [|discriminate]. intros [= <-].
        constructor; [now apply reads_term_exact|]. intros b -> H.
        rewrite (proj2 (de_blank_exact (VStr b) b) (conj eq_refl H)) in E. discriminate.
    - intros [b H|w u H N].
      + now rewrite (proj2 (de_blank_exact (VStr b) b) (conj eq_refl H)).
      + destruct (de_blank w) as [b|] eqn:E.
        * apply de_blank_exact in E. destruct E as [-> E]. elim (N b eq_refl E).
        * apply reads_term_exact in H. now rewrite H.
  Qed.
End Reads.

Lemma reads_triple_exact {S P O} (ds : value -> option S) (dp : value -> option P) (do : value -> option O) v t :
  de_triple ds dp do v = Some t <->
  reads_triple (fun v x => ds v = Some x) (fun v x => dp v = Some x) (fun v x => do v = Some x) v t.
Proof.
  split.
  - destruct v as [| | | |[|a [|b [|c [|]]]]|]; try discriminate. unfold de_triple.
    destruct (ds a) eqn:E1; [|discriminate]. destruct (dp b) eqn:E2; [|discriminate].
    destruct (do c) eqn:E3; [|discriminate]. intros [= <-]. now constructor.
  - intros [a b c s p o H1 H2 H3]. cbn. now rewrite H1, H2, H3.
Qed.
Lemma reads_quad_exact {S P O G} (ds : value -> option S) (dp : value -> option P)
    (do : value -> option O) (dg : value -> option G) v q :
  de_quad ds dp do dg v = Some q <->
  reads_quad (fun v x => ds v = Some x) (fun v x => dp v = Some x) (fun v x => do v = Some x)
    (fun v x => dg v = Some x) v q.
Proof.
  split.
  - destruct v as [| | | |[|a [|b [|c [|d [|]]]]]|]; try discriminate. unfold de_quad.
    destruct (ds a) eqn:E1; [|discriminate]. destruct (dp b) eqn:E2; [|discriminate].
    destruct (do c) eqn:E3; [|discriminate]. cbn [bind].
    destruct d; cbn [de_option bind]; try (intros [= <-]; now constructor);
      (destruct (dg _) eqn:E4; [|discriminate]; intros [= <-]; constructor; [assumption..|discriminate]).
  - intros [a b c s p o H1 H2 H3|a b c d s p o g H1 H2 H3 H4 N]; cbn; rewrite H1, H2, H3; [reflexivity|].
    cbn. destruct d; cbn [de_option]; [congruence|..]; now rewrite H4.
Qed.
Lemma reads_rv_exact {T X} (dt : value -> option T) (dx : value -> option X) v r :
  de_rv dt dx v = Some r <-> reads_rv (fun v x => dt v = Some x) (fun v x => dx v = Some x) v r.
Proof.
  split.
  - destruct v as [| | | | |[|[k x] [|]]]; try discriminate. unfold de_rv.
    destruct (str_eqb k (chars "Resource")) eqn:E.
    + apply str_eqb_spec in E. subst k. destruct (dt x) eqn:D; [|discriminate]. intros [= <-]. now constructor.
    + destruct (str_eqb k (chars "Var")) eqn:E2; [|discriminate]. apply str_eqb_spec in E2. subst k.
      destruct (dx x) eqn:D; [|discriminate]. intros [= <-]. now constructor.
  - intros [w t H|w x H]; cbn; now rewrite H.
Qed.
