(** The text of terms, quads and containers can be read back. *)
From Coq Require Import List NArith Bool Lia Ascii String.
Import ListNotations.
From Verif Require Import TextModel TripleModel DisplayModel TermModel TermSpec TermProofs NTriplesSpec.
Local Open Scope N_scope.

Ltac neqb := repeat match goal with
  | H : ?a <> ?b |- context [?a =? ?b] => rewrite (proj2 (N.eqb_neq a b) H)
  end.

(** ** Strings *)
Lemma pad_plain s : pad plain s = s.
Proof. unfold pad. cbn. now rewrite app_nil_r. Qed.
Lemma char_fmt_plain c : char_fmt plain c = [c].
Proof. apply pad_plain. Qed.

Lemma str_char_fmt_cases c :
  (c = 34 /\ str_char_fmt plain c = [92; 34]) \/ (c = 92 /\ str_char_fmt plain c = [92; 92]) \/
  (c = 10 /\ str_char_fmt plain c = [92; 110]) \/ (c = 13 /\ str_char_fmt plain c = [92; 114]) \/
  (c <> 34 /\ c <> 92 /\ c <> 10 /\ c <> 13 /\ str_char_fmt plain c = [c]).
Proof.
  unfold str_char_fmt. rewrite char_fmt_plain.
  destruct (N.eqb_spec c 34) as [->|]; [now left|right].
  destruct (N.eqb_spec c 92) as [->|]; [now left|right].
  destruct (N.eqb_spec c 10) as [->|]; [now left|right].
  destruct (N.eqb_spec c 13) as [->|]; [now left|right]. tauto.
Qed.

Lemma read_string_body_fmt s : forall rest fuel, (List.length s < fuel)%nat ->
  read_string_body fuel (flat_map (str_char_fmt plain) s ++ 34 :: rest) = Some (s, rest).
Proof.
  induction s as [|c s IH]; intros rest fuel L; (destruct fuel as [|fuel]; [cbn in L; lia|]).
  - reflexivity.
  - cbn in L. cbn [flat_map]. rewrite <- app_assoc.
    destruct (str_char_fmt_cases c) as [[-> ->]|[[-> ->]|[[-> ->]|[[-> ->]|(A & B & C & D & ->)]]]];
      cbn; rewrite ?IH by lia; try reflexivity.
    neqb. reflexivity.
Qed.

Lemma flat_map_length_le {A B} (f : A -> list B) l : (forall a, (1 <= List.length (f a))%nat) ->
  (List.length l <= List.length (flat_map f l))%nat.
Proof.
  intros H. induction l as [|a l IH]; cbn; [lia|]. rewrite app_length. specialize (H a). lia.
Qed.

Lemma str_round_trip s rest : read_string (str_rdf_fmt plain s ++ rest) = Some (s, rest).
Proof.
  unfold str_rdf_fmt. rewrite <- !app_assoc. cbn [app].
  cbn [read_string]. rewrite N.eqb_refl. apply read_string_body_fmt.
  rewrite app_length. cbn. pose proof (flat_map_length_le (str_char_fmt plain) s) as L.
  enough (forall c, (1 <= List.length (str_char_fmt plain c))%nat) by (specialize (L H); lia).
  intros c. now destruct (str_char_fmt_cases c) as [[_ ->]|[[_ ->]|[[_ ->]|[[_ ->]|(_ & _ & _ & _ & ->)]]]];
    cbn; lia.
Qed.

(** Between the two quotes every quote is escaped, and there is no line break. *)
Lemma str_fmt_shape s : exists body,
  str_rdf_fmt plain s = 34 :: body ++ [34] /\ ~ In 10 body /\ ~ In 13 body /\
  (forall a b, body = a ++ 34 :: b -> exists a', a = a' ++ [92]).
Proof.
  exists (flat_map (str_char_fmt plain) s). split; [reflexivity|].
  assert (N : forall c x, In x (str_char_fmt plain c) -> x <> 10 /\ x <> 13). {
    intros c x.
    destruct (str_char_fmt_cases c) as [[_ ->]|[[_ ->]|[[_ ->]|[[_ ->]|(_ & _ & ? & ? & ->)]]]]; cbn;
      intuition congruence. }
  split; [|split].
  - intros H. apply in_flat_map in H. destruct H as (c & _ & H). now apply N in H.
  - intros H. apply in_flat_map in H. destruct H as (c & _ & H). now apply N in H.
  - induction s as [|c s IH]; intros a b E; [now destruct a|].
    cbn in E.
    destruct (str_char_fmt_cases c) as [[-> F]|[[-> F]|[[-> F]|[[-> F]|(A & _ & _ & _ & F)]]]];
      rewrite F in E; cbn in E.
    + destruct a as [|x [|y a]]; [discriminate| |].
      * injection E as <- E. now exists [].
      * injection E as <- <- E. destruct (IH _ _ E) as (a' & ->). now exists (92 :: 34 :: a').
    + destruct a as [|x [|y a]]; [discriminate|discriminate|].
      injection E as <- <- E. destruct (IH _ _ E) as (a' & ->). now exists (92 :: 92 :: a').
    + destruct a as [|x [|y a]]; [discriminate|discriminate|].
      injection E as <- <- E. destruct (IH _ _ E) as (a' & ->). now exists (92 :: 110 :: a').
    + destruct a as [|x [|y a]]; [discriminate|discriminate|].
      injection E as <- <- E. destruct (IH _ _ E) as (a' & ->). now exists (92 :: 114 :: a').
    + destruct a as [|x a]; [injection E as E _; contradiction|].
      injection E as <- E. destruct (IH _ _ E) as (a' & ->). now exists (c :: a').
Qed.

(** ** IRIs *)
Lemma iri_escaped_char c : iri_escaped c = negb (iri_char c).
Proof.
  unfold iri_escaped, iri_char. rewrite negb_involutive. unfold range.
  replace (0 <=? c) with true; [reflexivity|]. symmetry. apply N.leb_le. lia.
Qed.

Lemma read_iri_body_fmt s : Forall (fun c => iri_char c = true) s ->
  forall rest fuel, (List.length s < fuel)%nat ->
  read_iri_body fuel (s ++ 62 :: rest) = Some (s, rest).
Proof.
  induction 1 as [|c s C _ IH]; intros rest fuel L; (destruct fuel as [|fuel]; [cbn in L; lia|]).
  - reflexivity.
  - cbn in L. cbn [app read_iri_body].
    assert (c <> 62 /\ c <> 92) as [A B] by (split; intros ->; discriminate).
    neqb. rewrite C. now rewrite IH by lia.
Qed.

Lemma iri_fmt_raw s : Forall (fun c => iri_char c = true) s ->
  iri_rdf_fmt plain s = 60 :: s ++ [62].
Proof.
  intros H. unfold iri_rdf_fmt. cbn. f_equal. f_equal.
  induction H as [|c s C _ IH]; [reflexivity|]. cbn [flat_map].
  unfold iri_char_fmt at 1. rewrite iri_escaped_char, C, char_fmt_plain. cbn. now rewrite IH.
Qed.

Lemma iri_round_trip s rest : Forall (fun c => iri_char c = true) s ->
  read_iri (iri_rdf_fmt plain s ++ rest) = Some (s, rest).
Proof.
  intros H. rewrite iri_fmt_raw by assumption. cbn [app read_iri]. rewrite N.eqb_refl.
  rewrite <- app_assoc. cbn. apply read_iri_body_fmt; [assumption|].
  rewrite app_length. cbn. lia.
Qed.

(** Any other string is not read back. *)
Lemma read_iri_body_bad s : ~ Forall (fun c => iri_char c = true) s ->
  forall rest fuel, read_iri_body fuel (flat_map (iri_char_fmt plain) s ++ rest) = None.
Proof.
  induction s as [|c s IH]; intros H rest fuel; [now contradict H|].
  destruct fuel as [|fuel]; [reflexivity|]. cbn [flat_map]. rewrite <- app_assoc.
  unfold iri_char_fmt at 1. rewrite iri_escaped_char.
  destruct (iri_char c) eqn:C; cbn [negb].
  - rewrite char_fmt_plain. cbn [app read_iri_body].
    assert (c <> 62 /\ c <> 92) as [A B] by (split; intros ->; discriminate).
    neqb. rewrite C. rewrite IH; [reflexivity|]. intros F. apply H. now constructor.
  - reflexivity.
Qed.
Lemma iri_not_read s rest : ~ Forall (fun c => iri_char c = true) s ->
  read_iri (iri_rdf_fmt plain s ++ rest) = None.
Proof.
  intros H. unfold iri_rdf_fmt. rewrite <- !app_assoc. cbn [app chars read_iri].
  change (chars "<" ++ ?x) with (60 :: x). cbn [read_iri]. rewrite N.eqb_refl.
  now apply read_iri_body_bad.
Qed.

(** All texts are readable in the dialect. *)
Lemma hex_digit_value n : n < 16 -> lower_hex_value (hex_digit n) = Some n.
Proof.
  intros H. rewrite <- (N2Nat.id n) in *.
  assert (K : (N.to_nat n < 16)%nat) by lia.
  revert K. generalize (N.to_nat n) as m. clear.
  intros m K. do 16 (destruct m as [|m]; [reflexivity|]). lia.
Qed.

Lemma iri_escaped_small c : iri_escaped c = true -> c < 128.
Proof.
  unfold iri_escaped, range. intros H.
  repeat (apply orb_true_iff in H as [H|H]); try (apply N.eqb_eq in H; lia).
  apply andb_true_iff in H as [_ H]. apply N.leb_le in H. lia.
Qed.

Lemma read_iri_0x_body_fmt s : forall rest fuel, (List.length s < fuel)%nat ->
  read_iri_0x_body fuel (flat_map (iri_char_fmt plain) s ++ 62 :: rest) = Some (s, rest).
Proof.
  induction s as [|c s IH]; intros rest [|fuel] L; cbn in L; try lia.
  - reflexivity.
  - cbn [flat_map]. rewrite <- app_assoc. unfold iri_char_fmt at 1.
    destruct (iri_escaped c) eqn:E.
    + pose proof (iri_escaped_small c E) as B.
      unfold hex04. cbn [chars app map N_of_ascii].
      change (chars "\u") with [92; 117]. change (chars "0x") with [48; 120].
      cbn -[hex_digit lower_hex_value N.div N.modulo N.mul N.add flat_map].
      rewrite !hex_digit_value by (try (apply N.div_lt_upper_bound; lia); try (apply N.mod_lt; lia); lia).
      rewrite IH by lia. f_equal. f_equal. f_equal. symmetry; apply N.div_mod; lia.
    + rewrite char_fmt_plain. cbn [app read_iri_0x_body].
      rewrite iri_escaped_char in E. apply negb_false_iff in E.
      assert (c =? 62 = false) as -> by (apply N.eqb_neq; intros ->; discriminate E).
      assert (c =? 92 = false) as -> by (apply N.eqb_neq; intros ->; discriminate E).
      rewrite E, IH by lia. reflexivity.
Qed.

Lemma iri_0x_round_trip s rest : read_iri_0x (iri_rdf_fmt plain s ++ rest) = Some (s, rest).
Proof.
  unfold iri_rdf_fmt. change (chars "<") with [60]. change (chars ">") with [62].
  cbn [app read_iri_0x]. rewrite N.eqb_refl, <- app_assoc. cbn [app].
  apply read_iri_0x_body_fmt. rewrite app_length. cbn.
  assert (H : (List.length s <= List.length (flat_map (iri_char_fmt plain) s))%nat).
  { induction s as [|c s IH]; [reflexivity|]. cbn [flat_map]. rewrite app_length. cbn [List.length].
    enough (1 <= List.length (iri_char_fmt plain c))%nat by lia.
    unfold iri_char_fmt. destruct (iri_escaped c); [cbn; lia|]. rewrite char_fmt_plain. cbn; lia. }
  lia.
Qed.

Lemma iri_fmt_inj s t : iri_rdf_fmt plain s = iri_rdf_fmt plain t -> s = t.
Proof.
  intros H. pose proof (iri_0x_round_trip s []) as A. rewrite H, iri_0x_round_trip in A. congruence.
Qed.

(** ** Language tags *)
Lemma span_app p a b : forallb p a = true -> match b with c :: _ => p c = false | [] => True end ->
  span p (a ++ b) = (a, b).
Proof.
  intros H B. induction a as [|c a IH].
  - destruct b as [|c b]; [reflexivity|]. cbn. now rewrite B.
  - cbn in *. apply andb_prop in H. destruct H as [H1 H2]. rewrite H1. now rewrite IH.
Qed.

Definition no_more (s : text) : Prop :=
  match s with c :: _ => c <> 45 /\ alnum c = false | [] => True end.

Lemma read_subtags_app l : Forall (fun b => b <> [] /\ forallb alnum b = true) l ->
  forall rest fuel, no_more rest -> (List.length l <= fuel)%nat ->
  read_subtags fuel (List.concat (map (cons 45) l) ++ rest) = (List.concat (map (cons 45) l), rest).
Proof.
  induction 1 as [|b l [B1 B2] _ IH]; intros rest fuel R L.
  - cbn. destruct fuel as [|fuel]; [reflexivity|]. destruct rest as [|c rest]; [reflexivity|].
    cbn in R |- *. destruct R as [R _]. now neqb.
  - destruct fuel as [|fuel]; [cbn in L; lia|]. cbn in L.
    cbn [map List.concat app read_subtags]. rewrite N.eqb_refl. rewrite <- app_assoc.
    rewrite (span_app alnum b).
    + destruct b as [|x b]; [congruence|]. rewrite IH by (assumption || lia). reflexivity.
    + assumption.
    + destruct l as [|b' l]; cbn.
      * destruct rest; [exact I|]. now destruct R.
      * reflexivity.
Qed.

Lemma read_tag_app t rest : is_tag t -> no_more rest -> read_tag (t ++ rest) = Some (t, rest).
Proof.
  intros (a & l & -> & A & F & G) R. unfold read_tag. rewrite <- app_assoc.
  rewrite (span_app alpha a).
  - destruct a as [|x a]; [congruence|].
    rewrite read_subtags_app; [reflexivity|assumption|assumption|].
    rewrite app_length. clear. induction l as [|b l IH]; cbn; [lia|]. rewrite app_length. lia.
  - assumption.
  - destruct l as [|b l]; cbn.
    + destruct rest as [|c rest]; [exact I|]. destruct R as [_ R]. unfold alnum in R.
      now destruct (alpha c).
    + reflexivity.
Qed.

(** ** Literals and terms *)
Section Terms.
  Context (eqb : text -> text -> bool).

  Lemma read_literal_fmt l rest : good_ltype (l_type l) -> ends_literal rest ->
    read_literal (literal_rdf_fmt eqb plain l ++ rest) = Some (norm_literal eqb l, rest).
  Proof.
    destruct l as [v ty]. unfold literal_rdf_fmt, norm_literal, read_literal. cbn [l_value l_type].
    intros G E. rewrite <- app_assoc, str_round_trip.
    change xsd_string with XSD_STRING. unfold is_xsd_string, is_iri. destruct ty as [i|t].
    - destruct (eqb i XSD_STRING) eqn:X.
      + cbn [app]. destruct rest as [|c rest]; [reflexivity|].
        destruct E as (E1 & E2 & _). neqb. reflexivity.
      + unfold ltype_rdf_fmt. change (chars "^^") with [94; 94]. cbn [app].
        rewrite N.eqb_refl. now rewrite iri_round_trip by exact G.
    - unfold ltype_rdf_fmt, tag_rdf_fmt. rewrite pad_plain. change (chars "@") with [64]. cbn [app].
      replace (64 =? 94) with false by reflexivity. rewrite N.eqb_refl.
      rewrite read_tag_app; [reflexivity|exact G|].
      destruct rest as [|c rest]; [exact I|]. cbn in *. tauto.
  Qed.

  Lemma read_term_fmt t rest : good_term t -> ends_literal rest ->
    read_term (term_rdf_fmt eqb plain t ++ rest) = Some (norm_term eqb t, rest).
  Proof.
    destruct t as [i|l]; intros G E; cbn [term_rdf_fmt norm_term].
    - pose proof (iri_round_trip i rest G) as R. rewrite iri_fmt_raw in * by exact G.
      cbn [app read_term] in *. rewrite N.eqb_refl. now rewrite R.
    - pose proof (read_literal_fmt l rest G E) as R.
      unfold read_term. unfold literal_rdf_fmt, str_rdf_fmt in *. cbn [app] in *.
      replace (34 =? 60) with false by reflexivity. now rewrite R.
  Qed.

  (** A term is [==] to its normal form. *)
  Lemma norm_literal_same te ic tc l : lawful eqb ic -> lawful te tc ->
    literal_eqb eqb te l (norm_literal eqb l) = true.
  Proof.
    intros LI LT. unfold norm_literal.
    destruct l as [v [i|t]]; cbn [l_type l_value];
      [|apply (lawful_eqb_refl (literal_lawful LI LT))].
    destruct (eqb i xsd_string) eqn:E; [|apply (lawful_eqb_refl (literal_lawful LI LT))].
    unfold literal_eqb, ltype_eqb. cbn [l_type l_value]. rewrite E.
    now rewrite (lawful_eqb_refl str_lawful).
  Qed.
  Lemma norm_term_same te ic tc t : lawful eqb ic -> lawful te tc ->
    term_eqb eqb te t (norm_term eqb t) = true.
  Proof.
    intros LI LT. destruct t as [i|l]; cbn; [apply (lawful_eqb_refl LI)|].
    now apply (norm_literal_same te ic tc).
  Qed.

  Lemma norm_literal_exact l : (forall i j, eqb i j = true <-> i = j) -> norm_literal eqb l = l.
  Proof.
    intros H. destruct l as [v [i|t]]; unfold norm_literal; cbn [l_type l_value]; [|reflexivity].
    destruct (eqb i xsd_string) eqn:E; [|reflexivity]. apply H in E. now subst.
  Qed.
  Lemma norm_term_exact t : (forall i j, eqb i j = true <-> i = j) -> norm_term eqb t = t.
  Proof. intros H. destruct t as [i|l]; cbn; [reflexivity|]. now rewrite norm_literal_exact. Qed.

  Lemma lawful_eqb_trans {A} (e : A -> A -> bool) c x y z : lawful e c ->
    e x z = true -> e y z = true -> e x y = true.
  Proof.
    intros L H1 H2. apply (law_eq _ _ L). apply (law_eq _ _ L) in H1, H2.
    rewrite (lawful_cong L x z y H1), (law_sym _ _ L y z), H2. reflexivity.
  Qed.

  Section Same.
    Context (te : text -> text -> bool) (ic tc : text -> text -> comparison).
    Context (LI : lawful eqb ic) (LT : lawful te tc).

    Lemma literal_read l rest : good_ltype (l_type l) -> ends_literal rest ->
      exists m, read_literal (literal_rdf_fmt eqb plain l ++ rest) = Some (m, rest) /\
        literal_eqb eqb te l m = true /\ ((forall i j, eqb i j = true <-> i = j) -> m = l).
    Proof.
      intros G E. exists (norm_literal eqb l). split; [now apply read_literal_fmt|]. split.
      - now apply (norm_literal_same te ic tc).
      - apply norm_literal_exact.
    Qed.
    Lemma is_xsd_string_type ty : is_xsd_string eqb ty = true ->
      exists i, ty = LAny i /\ eqb i XSD_STRING = true.
    Proof. destruct ty as [i|t]; [|discriminate]. intros H. exists i. auto. Qed.
    (** Whatever the characters of IRIs and tags. *)
    Lemma literal_same_text l m :
      literal_rdf_fmt eqb plain l = literal_rdf_fmt eqb plain m -> literal_eqb eqb te l m = true.
    Proof.
      destruct l as [v ty], m as [w tz]. unfold literal_rdf_fmt, literal_eqb. cbn [l_value l_type].
      intros E.
      match type of E with str_rdf_fmt plain v ++ ?a = str_rdf_fmt plain w ++ ?b =>
        assert (P : v = w /\ a = b) by
          (pose proof (str_round_trip v a) as A; rewrite E, str_round_trip in A;
           split; congruence)
      end.
      destruct P as [-> S]. rewrite (lawful_eqb_refl str_lawful). cbn [andb].
      destruct (is_xsd_string eqb ty) eqn:X, (is_xsd_string eqb tz) eqn:Y.
      - apply is_xsd_string_type in X as (i & -> & X). apply is_xsd_string_type in Y as (j & -> & Y).
        cbn. apply (lawful_eqb_trans _ _ _ _ XSD_STRING LI); [exact X|].
        exact Y.
      - destruct tz; discriminate.
      - destruct ty; discriminate.
      - destruct ty as [i|t], tz as [j|u]; cbn [ltype_rdf_fmt] in S; try discriminate.
        + apply app_inv_head in S. apply iri_fmt_inj in S as ->.
          cbn. apply (lawful_eqb_refl LI).
        + apply app_inv_head in S. unfold tag_rdf_fmt in S. rewrite !pad_plain in S. subst.
          cbn. apply (lawful_eqb_refl LT).
    Qed.
    Lemma term_read t rest : good_term t -> ends_literal rest ->
      exists u, read_term (term_rdf_fmt eqb plain t ++ rest) = Some (u, rest) /\
        term_eqb eqb te t u = true /\ ((forall i j, eqb i j = true <-> i = j) -> u = t).
    Proof.
      intros G E. exists (norm_term eqb t). split; [now apply read_term_fmt|]. split.
      - now apply (norm_term_same te ic tc).
      - apply norm_term_exact.
    Qed.
    Lemma term_same_text s t :
      term_rdf_fmt eqb plain s = term_rdf_fmt eqb plain t -> term_eqb eqb te s t = true.
    Proof.
      destruct s as [i|l], t as [j|m]; cbn [term_rdf_fmt term_eqb]; intros E; try discriminate.
      - apply iri_fmt_inj in E as ->. apply (lawful_eqb_refl LI).
      - now apply literal_same_text.
    Qed.

    (** [Display], where IRIs are written as they are: an IRI begins with a letter. *)
    Lemma display_same_text s t :
      (forall i, s = TIri i \/ t = TIri i -> exists c r, i = c :: r /\ alpha c = true) ->
      term_fmt eqb plain s = term_fmt eqb plain t -> term_eqb eqb te s t = true.
    Proof.
      intros F E. destruct s as [i|l], t as [j|m]; cbn [term_fmt term_eqb] in *.
      - rewrite !pad_plain in E. subst. apply (lawful_eqb_refl LI).
      - destruct (F i (or_introl eq_refl)) as (c & r & -> & C). rewrite pad_plain in E.
        injection E as -> _. discriminate.
      - destruct (F j (or_intror eq_refl)) as (c & r & -> & C). rewrite pad_plain in E.
        injection E as <- _. discriminate.
      - now apply literal_same_text.
    Qed.
    Lemma local_display_same_text s t :
      (forall i, s = Named (TIri i) \/ t = Named (TIri i) ->
         exists c r, i = c :: r /\ alpha c = true) ->
      (forall b, s = Anonymous b \/ t = Anonymous b -> exists r, b = 95 :: 58 :: r) ->
      local_term_fmt eqb plain s = local_term_fmt eqb plain t -> local_eqb eqb te s t = true.
    Proof.
      intros F B E. destruct s as [b|s], t as [c|t]; cbn [local_term_fmt local_eqb] in *.
      - rewrite !pad_plain in E. subst. apply (lawful_eqb_refl str_lawful).
      - destruct (B b (or_introl eq_refl)) as (r & ->). rewrite pad_plain in E.
        destruct t as [i|l]; cbn [term_fmt] in E.
        + destruct (F i (or_intror eq_refl)) as (c & r' & -> & C). rewrite pad_plain in E.
          injection E as <- _. discriminate.
        + discriminate.
      - destruct (B c (or_intror eq_refl)) as (r & ->). rewrite pad_plain in E.
        destruct s as [i|l]; cbn [term_fmt] in E.
        + destruct (F i (or_introl eq_refl)) as (d & r' & -> & C). rewrite pad_plain in E.
          injection E as -> _. discriminate.
        + discriminate.
      - apply display_same_text; auto.
        intros i [->| ->]; apply F; auto.
    Qed.
  End Same.
End Terms.

(** ** Statements, for any printer whose texts followed by a space can be read. *)
Section Statements.
  Context {R : Type} (show : fspec -> R -> text) (read : text -> option (R * text)).
  Context (good : R -> Prop) (norm : R -> R).
  Context (round : forall r rest, good r ->
    read (show plain r ++ 32 :: rest) = Some (norm r, 32 :: rest)).
  (** No text of a term begins like the end of a statement. *)
  Context (no_end : forall r rest, good r -> read_end (show plain r ++ rest) = None).

  Lemma read_spaced_fmt r rest : good r ->
    read_spaced read (show plain r ++ 32 :: rest) = Some (norm r, rest).
  Proof. intros G. unfold read_spaced. now rewrite round. Qed.

  Lemma read_quad_fmt q rest : good_quad good q ->
    read_quad read (quad_rdf_fmt show q ++ chars " ." ++ [10] ++ rest) = Some (norm_quad norm q, rest).
  Proof.
    destruct q as [s p o g]. intros (A & B & C & D). cbn in A, B, C, D.
    unfold quad_rdf_fmt, read_quad, norm_quad. cbn [q_s q_p q_o q_g].
    change (chars " .") with [32; 46]. change (chars " ") with [32].
    destruct g as [g|].
    - rewrite <- !app_assoc. cbn [app].
      do 3 rewrite read_spaced_fmt by assumption. rewrite no_end by assumption.
      now rewrite read_spaced_fmt by assumption.
    - rewrite <- !app_assoc. cbn [app]. now do 3 rewrite read_spaced_fmt by assumption.
  Qed.

  Lemma read_quads_step fuel s : s <> [] ->
    read_quads read (S fuel) s =
    match read_quad read s with
    | Some (q, s) => match read_quads read fuel s with Some l => Some (q :: l) | None => None end
    | None => None
    end.
  Proof. now destruct s. Qed.

  Lemma read_quads_fmt l : Forall (good_quad good) l -> forall fuel, (List.length l <= fuel)%nat ->
    read_quads read fuel (quads_rdf_fmt show l) = Some (map (norm_quad norm) l).
  Proof.
    induction 1 as [|q l G _ IH]; intros fuel L; [now destruct fuel|].
    destruct fuel as [|fuel]; [cbn in L; lia|]. cbn in L.
    unfold quads_rdf_fmt. cbn [flat_map]. fold (quads_rdf_fmt show l).
    rewrite <- !app_assoc. rewrite read_quads_step.
    + rewrite read_quad_fmt by assumption. now rewrite IH by lia.
    + intros E. apply app_eq_nil in E. destruct E as [_ E]. discriminate.
  Qed.

  Lemma read_document_fmt l : Forall (good_quad good) l ->
    read_document read (quads_rdf_fmt show l) = Some (map (norm_quad norm) l).
  Proof.
    intros G. apply read_quads_fmt; [assumption|]. apply flat_map_length_le. intros q.
    rewrite !app_length. cbn. lia.
  Qed.

  (** A graph is printed like the dataset with the same triples. *)
  Lemma triples_as_quads l :
    triples_rdf_fmt show l =
    quads_rdf_fmt show (map (fun t => Quad (t_s t) (t_p t) (t_o t) None) l).
  Proof.
    unfold triples_rdf_fmt, quads_rdf_fmt. induction l as [|t l IH]; [reflexivity|].
    cbn [flat_map map]. now rewrite IH.
  Qed.

  Lemma read_document_triples l : Forall (good_triple good) l ->
    read_document read (triples_rdf_fmt show l) =
    Some (map (fun t => Quad (norm (t_s t)) (norm (t_p t)) (norm (t_o t)) None) l).
  Proof.
    intros G. rewrite triples_as_quads, read_document_fmt.
    - rewrite map_map. reflexivity.
    - apply Forall_map. eapply Forall_impl; [|exact G]. intros t (A & B & C). now repeat split.
  Qed.
End Statements.

Lemma read_end_no c s : c <> 46 -> read_end (c :: s) = None.
Proof. intros C. destruct s as [|d s]; [reflexivity|]. cbn. now neqb. Qed.

Section TermStatements.
  Context (eqb : text -> text -> bool).
  Lemma term_round r rest : good_term r ->
    read_term (term_rdf_fmt eqb plain r ++ 32 :: rest) = Some (norm_term eqb r, 32 :: rest).
  Proof. intros G. apply read_term_fmt; [assumption|]. cbn. repeat split; discriminate. Qed.
  Lemma term_no_end r rest : good_term r -> read_end (term_rdf_fmt eqb plain r ++ rest) = None.
  Proof.
    intros G. destruct r as [i|l]; cbn [term_rdf_fmt].
    - rewrite iri_fmt_raw by exact G. now apply read_end_no.
    - unfold literal_rdf_fmt, str_rdf_fmt. now apply read_end_no.
  Qed.

  Lemma terms_document l : Forall (good_quad good_term) l ->
    read_document read_term (quads_rdf_fmt (term_rdf_fmt eqb) l) =
    Some (map (norm_quad (norm_term eqb)) l).
  Proof. apply read_document_fmt; [apply term_round|apply term_no_end]. Qed.
  Lemma terms_document_triples l : Forall (good_triple good_term) l ->
    read_document read_term (triples_rdf_fmt (term_rdf_fmt eqb) l) =
    Some (map (fun t => Quad (norm_term eqb (t_s t)) (norm_term eqb (t_p t))
                          (norm_term eqb (t_o t)) None) l).
  Proof. apply (read_document_triples (term_rdf_fmt eqb)); [apply term_round|apply term_no_end]. Qed.
End TermStatements.
