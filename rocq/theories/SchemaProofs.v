(** Proofs about the vocabulary constants. *)
From Coq Require Import List NArith Bool Ascii String Lia.
Import ListNotations.
Open Scope N_scope.
From Verif Require Import Base TextModel DisplayModel TermModel TermSpec TermProofs NTriplesSpec DisplayProofs
  SchemaModel SchemaSpec.

Definition strip_prefix (p s : text) : option text :=
  if list_eq_dec N.eq_dec (firstn (List.length p) s) p then Some (skipn (List.length p) s) else None.
Definition letterb (c : N) : bool := ((0x41 <=? c) && (c <=? 0x5A)) || ((0x61 <=? c) && (c <=? 0x7A)).
Definition spellsb (x : text * text) : bool :=
  existsb (fun pn => match strip_prefix (fst pn) (fst x), strip_prefix (snd pn) (snd x) with
    | Some words, Some local => negb (Nat.eqb (List.length local) 0) && forallb letterb local &&
        (if list_eq_dec N.eq_dec (map upper local) (filter (fun c => negb (c =? 0x5F)) words) then true else false)
    | _, _ => false end) namespaces.
Lemma strip_prefix_spec p s r : strip_prefix p s = Some r -> s = p ++ r.
Proof.
  unfold strip_prefix. destruct (list_eq_dec _ _ _) as [E|]; [|discriminate]. intros H. injection H as H.
  rewrite <- H. rewrite <- E at 1. symmetry. apply firstn_skipn.
Qed.
Lemma spellsb_spec x : spellsb x = true -> spells (fst x) (snd x).
Proof.
  unfold spellsb. intros H. apply existsb_exists in H. destruct H as ([p n] & I & H). cbn [fst snd] in H.
  destruct (strip_prefix p (fst x)) as [w|] eqn:E1; [|discriminate].
  destruct (strip_prefix n (snd x)) as [l|] eqn:E2; [|discriminate].
  apply andb_true_iff in H. destruct H as [H H3]. apply andb_true_iff in H. destruct H as [H1 H2].
  destruct (list_eq_dec _ _ _) as [E3|]; [|discriminate].
  exists p, n, w, l. split; [exact I|]. split; [now apply strip_prefix_spec|]. split; [now apply strip_prefix_spec|].
  split; [now destruct l|]. split; [|exact E3].
  rewrite forallb_forall in H2. apply Forall_forall. intros c J. specialize (H2 c J). unfold letterb in H2. unfold letter.
  apply orb_true_iff in H2. destruct H2 as [H2|H2]; apply andb_true_iff in H2; destruct H2 as [A B];
    apply N.leb_le in A, B; lia.
Qed.
Lemma schema_spelled : forall n i, In (n, i) schema -> spells n i.
Proof.
  intros n i H. assert (A : forallb spellsb schema = true) by (vm_compute; reflexivity).
  rewrite forallb_forall in A. exact (spellsb_spec _ (A _ H)).
Qed.
Lemma schema_distinct : NoDup (map fst schema) /\ NoDup (map snd schema).
Proof.
  assert (X : forall l : list text, (if list_eq_dec (list_eq_dec N.eq_dec) (nodup (list_eq_dec N.eq_dec) l) l then true else false) = true -> NoDup l).
  { intros l. destruct (list_eq_dec _ _ _) as [E|]; [|discriminate]. intros _. rewrite <- E. apply NoDup_nodup. }
  split; apply X; vm_compute; reflexivity.
Qed.
Lemma schema_good : forall n i, In (n, i) schema -> good_iri i.
Proof.
  intros n i H. assert (A : forallb (fun x => forallb iri_char (snd x)) schema = true) by (vm_compute; reflexivity).
  rewrite forallb_forall in A. specialize (A _ H). cbn in A. rewrite forallb_forall in A. now apply Forall_forall.
Qed.
Lemma schema_iris : forall n i rest, In (n, i) schema ->
  iri_rdf_fmt plain i = chars "<" ++ i ++ chars ">" /\ read_iri (iri_rdf_fmt plain i ++ rest) = Some (i, rest).
Proof. intros n i rest H. apply schema_good in H. exact (conj (iri_fmt_raw i H) (iri_round_trip i rest H)). Qed.

Lemma nodup_fun_fst {A B} (l : list (A * B)) k x y : NoDup (map fst l) -> In (k, x) l -> In (k, y) l -> x = y.
Proof.
  induction l as [|[a b] l IH]; cbn; [tauto|]. intros N. inversion N as [|? ? N1 N2]; subst.
  intros [H|H] [J|J].
  - congruence.
  - inversion H; subst. destruct N1. apply in_map_iff. now exists (k, y).
  - inversion J; subst. destruct N1. apply in_map_iff. now exists (k, x).
  - auto.
Qed.
Lemma nodup_fun_snd {A B} (l : list (A * B)) x y k : NoDup (map snd l) -> In (x, k) l -> In (y, k) l -> x = y.
Proof.
  induction l as [|[a b] l IH]; cbn; [tauto|]. intros N. inversion N as [|? ? N1 N2]; subst.
  intros [H|H] [J|J].
  - congruence.
  - inversion H; subst. destruct N1. apply in_map_iff. now exists (y, k).
  - inversion J; subst. destruct N1. apply in_map_iff. now exists (x, k).
  - auto.
Qed.
Lemma schema_literals : forall iri_eqb, (forall i, iri_eqb i i = true) ->
  (forall n i m j, In (n, i) schema -> In (m, j) schema -> iri_eqb i j = true -> i = j) ->
  forall n i v rest, In (n, i) schema -> ends_literal rest ->
    is_xsd_string iri_eqb (LAny i) = (if list_eq_dec N.eq_dec n (chars "XSD_STRING") then true else false) /\
    literal_rdf_fmt iri_eqb plain (Literal v (LAny i)) =
      str_rdf_fmt plain v ++ (if list_eq_dec N.eq_dec n (chars "XSD_STRING") then [] else chars "^^<" ++ i ++ chars ">") /\
    read_literal (literal_rdf_fmt iri_eqb plain (Literal v (LAny i)) ++ rest) = Some (Literal v (LAny i), rest).
Proof.
  intros eqb R S n i v rest H E.
  assert (XI : In (chars "XSD_STRING", XSD_STRING) schema).
  { unfold schema. repeat (right; try (left; reflexivity)). }
  assert (A : is_xsd_string eqb (LAny i) = (if list_eq_dec N.eq_dec n (chars "XSD_STRING") then true else false)).
  { unfold is_xsd_string, is_iri. destruct (list_eq_dec N.eq_dec n (chars "XSD_STRING")) as [D|D].
    - subst n. assert (i = XSD_STRING) as ->; [|apply R].
      apply (nodup_fun_fst schema (chars "XSD_STRING")); [apply schema_distinct|exact H|exact XI].
    - destruct (eqb i XSD_STRING) eqn:F; [|reflexivity]. apply (S _ _ _ _ H XI) in F. subst i. destruct D.
      apply (nodup_fun_snd schema n (chars "XSD_STRING") XSD_STRING); [apply schema_distinct|exact H|exact XI]. }
  split; [exact A|].
  assert (B : literal_rdf_fmt eqb plain (Literal v (LAny i)) =
    str_rdf_fmt plain v ++ (if list_eq_dec N.eq_dec n (chars "XSD_STRING") then [] else chars "^^<" ++ i ++ chars ">")).
  { unfold literal_rdf_fmt. cbn [l_type l_value]. rewrite A. destruct (list_eq_dec _ _ _); [reflexivity|].
    cbn [ltype_rdf_fmt]. rewrite (proj1 (schema_iris n i [] H)). reflexivity. }
  split; [exact B|].
  assert (C : literal_rdf_fmt str_eqb plain (Literal v (LAny i)) = literal_rdf_fmt eqb plain (Literal v (LAny i))).
  { unfold literal_rdf_fmt. cbn [l_type l_value]. rewrite A. unfold is_xsd_string, is_iri.
    destruct (list_eq_dec _ _ _) as [D|D]; destruct (str_eqb i XSD_STRING) eqn:F; try reflexivity; exfalso.
    - subst n. assert (i = XSD_STRING) as -> by
        (apply (nodup_fun_fst schema (chars "XSD_STRING")); [apply schema_distinct|exact H|exact XI]).
      assert (str_eqb XSD_STRING XSD_STRING = true) by (now apply str_eqb_spec). congruence.
    - apply str_eqb_spec in F. subst i. apply D.
      apply (nodup_fun_snd schema n (chars "XSD_STRING") XSD_STRING); [apply schema_distinct|exact H|exact XI]. }
  rewrite <- C.
  destruct (literal_read str_eqb str_eqb str_cmp str_cmp str_lawful str_lawful (Literal v (LAny i)) rest) as (m & M1 & _ & M2);
    [exact (schema_good n i H)|exact E|].
  rewrite M1. f_equal. f_equal. apply M2. exact str_eqb_spec.
Qed.
Lemma schema_same_text : forall iri_eqb, (forall i, iri_eqb i i = true) ->
  (forall n i m j, In (n, i) schema -> In (m, j) schema -> iri_eqb i j = true -> i = j) ->
  forall n i v m j w, In (n, i) schema -> In (m, j) schema ->
    literal_rdf_fmt iri_eqb plain (Literal v (LAny i)) = literal_rdf_fmt iri_eqb plain (Literal w (LAny j)) ->
    v = w /\ n = m.
Proof.
  intros eqb R S n i v m j w H J E.
  destruct (schema_literals eqb R S n i v [] H I) as (_ & _ & A).
  destruct (schema_literals eqb R S m j w [] J I) as (_ & _ & B).
  rewrite E in A. rewrite A in B. injection B as -> ->. split; [reflexivity|].
  apply (nodup_fun_snd schema n m j); [apply schema_distinct|exact H|exact J].
Qed.
Lemma schema_vocabulary : forall i, In i (map snd schema) <-> In i vocabulary.
Proof.
  assert (D : forall l m : list text,
    forallb (fun x => if in_dec (list_eq_dec N.eq_dec) x m then true else false) l = true -> incl l m).
  { intros l m H x I. rewrite forallb_forall in H. specialize (H x I). now destruct (in_dec (list_eq_dec N.eq_dec) x m). }
  intros i. split; apply D; vm_compute; reflexivity.
Qed.
