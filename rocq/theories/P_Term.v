(** Properties C12-C14: comparison, conversion and borrowing of terms.

    [iri_eqb], [iri_cmp], [tag_eqb], [tag_cmp] are [==] and [cmp] of IRIs and of
    language tags and [iri_hash], [tag_hash] their hashes; crates outside this
    repository define them.  [lawful eqb cmp] (TermSpec.v): [cmp] is a total order
    whose [Equal] is [eqb]. *)
From Coq Require Import List NArith Bool Ascii String.
Import ListNotations.
From Verif Require Import Base TextModel DisplayModel TermModel TermSpec TermProofs.
Local Open Scope N_scope.

(** ** C12 *)

(** The orders are total and agree with [==]; those of IRIs and tags have to be.
    ([Id] itself has no comparison, only [IdRef] has.) *)
Theorem c12_total_orders :
  forall iri_eqb iri_cmp tag_eqb tag_cmp, lawful iri_eqb iri_cmp -> lawful tag_eqb tag_cmp ->
    lawful (ltype_eqb iri_eqb tag_eqb) (ltype_cmp iri_cmp tag_cmp) /\
    lawful (literal_eqb iri_eqb tag_eqb) (literal_cmp iri_cmp tag_cmp) /\
    lawful (term_eqb iri_eqb tag_eqb) (term_cmp iri_cmp tag_cmp) /\
    lawful (local_eqb iri_eqb tag_eqb) (local_cmp iri_cmp tag_cmp) /\
    lawful (id_ref_eqb iri_eqb) (id_ref_cmp iri_cmp).
Proof. exact all_lawful. Qed.
Print Assumptions c12_total_orders.

(** Comparing a borrowed value with an owned one gives what comparing the two
    owned values gives, and never fails to give an answer. *)
Theorem c12_mixed_equality : forall iri_eqb tag_eqb,
  (forall a b, ltype_ref_eq iri_eqb tag_eqb (ltype_as_ref a) b = ltype_eqb iri_eqb tag_eqb a b) /\
  (forall a b, ltype_eq_ref iri_eqb tag_eqb a (ltype_as_ref b) = ltype_eqb iri_eqb tag_eqb a b) /\
  (forall a b, literal_ref_eq iri_eqb tag_eqb (literal_as_ref a) b = literal_eqb iri_eqb tag_eqb a b) /\
  (forall a b, literal_eq_ref iri_eqb tag_eqb a (literal_as_ref b) = literal_eqb iri_eqb tag_eqb a b) /\
  (forall a b, literal_ref_equivalent iri_eqb tag_eqb (literal_as_ref a) b =
               literal_eqb iri_eqb tag_eqb a b) /\
  (forall a b, term_ref_eq iri_eqb tag_eqb (term_as_ref a) b = term_eqb iri_eqb tag_eqb a b) /\
  (forall a b, local_ref_eq iri_eqb tag_eqb (local_as_ref a) b = local_eqb iri_eqb tag_eqb a b).
Proof. exact mixed_eq. Qed.
Print Assumptions c12_mixed_equality.

Theorem c12_mixed_order : forall iri_cmp tag_cmp,
  (forall a b, ltype_ref_partial_cmp iri_cmp tag_cmp (ltype_as_ref a) b =
               Some (ltype_cmp iri_cmp tag_cmp a b)) /\
  (forall a b, ltype_partial_cmp_ref iri_cmp tag_cmp a (ltype_as_ref b) =
               Some (ltype_cmp iri_cmp tag_cmp a b)) /\
  (forall a b, literal_ref_partial_cmp iri_cmp tag_cmp (literal_as_ref a) b =
               Some (literal_cmp iri_cmp tag_cmp a b)) /\
  (forall a b, literal_partial_cmp_ref iri_cmp tag_cmp a (literal_as_ref b) =
               Some (literal_cmp iri_cmp tag_cmp a b)) /\
  (forall a b, term_ref_partial_cmp iri_cmp tag_cmp (term_as_ref a) b =
               Some (term_cmp iri_cmp tag_cmp a b)) /\
  (forall a b, local_ref_partial_cmp iri_cmp tag_cmp (local_as_ref a) b =
               Some (local_cmp iri_cmp tag_cmp a b)).
Proof. exact mixed_cmp. Qed.
Print Assumptions c12_mixed_order.

(** Two borrowed values are ordered like the owned ones. *)
Theorem c12_borrowed_order : forall iri_cmp tag_cmp,
  (forall a b, ltype_ref_cmp iri_cmp tag_cmp (ltype_as_ref a) (ltype_as_ref b) =
               ltype_cmp iri_cmp tag_cmp a b) /\
  (forall a b, literal_ref_cmp iri_cmp tag_cmp (literal_as_ref a) (literal_as_ref b) =
               literal_cmp iri_cmp tag_cmp a b) /\
  (forall a b, term_ref_cmp iri_cmp tag_cmp (term_as_ref a) (term_as_ref b) =
               term_cmp iri_cmp tag_cmp a b) /\
  (forall a b, local_ref_cmp iri_cmp tag_cmp (local_as_ref a) (local_as_ref b) =
               local_cmp iri_cmp tag_cmp a b).
Proof. exact borrowed_cmp. Qed.
Print Assumptions c12_borrowed_order.

(** ... and are equal when the owned ones are. *)
Theorem c12_borrowed_equality : forall iri_eqb tag_eqb,
  (forall a b, ltype_ref_eqb iri_eqb tag_eqb (ltype_as_ref a) (ltype_as_ref b) =
               ltype_eqb iri_eqb tag_eqb a b) /\
  (forall a b, literal_ref_eqb iri_eqb tag_eqb (literal_as_ref a) (literal_as_ref b) =
               literal_eqb iri_eqb tag_eqb a b) /\
  (forall a b, term_ref_eqb iri_eqb tag_eqb (term_as_ref a) (term_as_ref b) =
               term_eqb iri_eqb tag_eqb a b) /\
  (forall a b, local_ref_eqb iri_eqb tag_eqb (local_as_ref a) (local_as_ref b) =
               local_eqb iri_eqb tag_eqb a b).
Proof. exact borrowed_eq. Qed.
Print Assumptions c12_borrowed_equality.

(** Copy-on-write literals compare and hash as the owned ones they stand for,
    whatever their parts are (borrowed or owned). *)
Theorem c12_cow_as_owned : forall iri_eqb iri_cmp tag_eqb tag_cmp iri_hash tag_hash,
  (forall a b, ltype_cow_eqb iri_eqb tag_eqb a b =
               ltype_eqb iri_eqb tag_eqb (ltype_cow_into_owned a) (ltype_cow_into_owned b)) /\
  (forall a b, ltype_cow_cmp iri_cmp tag_cmp a b =
               ltype_cmp iri_cmp tag_cmp (ltype_cow_into_owned a) (ltype_cow_into_owned b)) /\
  (forall a, ltype_cow_hash iri_hash tag_hash a = ltype_hash iri_hash tag_hash (ltype_cow_into_owned a)) /\
  (forall a b, literal_cow_eqb iri_eqb tag_eqb a b =
               literal_eqb iri_eqb tag_eqb (literal_cow_into_owned a) (literal_cow_into_owned b)) /\
  (forall a b, literal_cow_cmp iri_cmp tag_cmp a b =
               literal_cmp iri_cmp tag_cmp (literal_cow_into_owned a) (literal_cow_into_owned b)) /\
  (forall a, literal_cow_hash iri_hash tag_hash a =
             literal_hash iri_hash tag_hash (literal_cow_into_owned a)).
Proof. exact cow_as_owned. Qed.
Print Assumptions c12_cow_as_owned.

Example c12_ex_cow :
  let b := LiteralCow (Borrowed (chars "a")) (CLang (Owned (chars "en"))) in
  let o := LiteralCow (Owned (chars "a")) (CLang (Borrowed (chars "en"))) in
  literal_cow_eqb str_eqb str_eqb b o = true /\ literal_cow_cmp str_cmp str_cmp b o = Eq /\
  literal_cow_hash str_hash str_hash b = literal_cow_hash str_hash str_hash o /\
  literal_cow_cmp str_cmp str_cmp b (LiteralCow (Owned (chars "a")) (CAny (Owned (chars "en")))) = Gt.
Proof. now vm_compute. Qed.

(** Equal values hash alike, and so do a borrowed literal and an owned one that
    are equivalent. *)
Theorem c12_hash_agrees : forall iri_eqb iri_hash tag_eqb tag_hash,
  hash_agrees iri_eqb iri_hash -> hash_agrees tag_eqb tag_hash ->
  hash_agrees (ltype_eqb iri_eqb tag_eqb) (ltype_hash iri_hash tag_hash) /\
  hash_agrees (literal_eqb iri_eqb tag_eqb) (literal_hash iri_hash tag_hash) /\
  hash_agrees (term_eqb iri_eqb tag_eqb) (term_hash iri_hash tag_hash) /\
  hash_agrees (local_eqb iri_eqb tag_eqb) (local_hash iri_hash tag_hash) /\
  (forall r key, literal_ref_equivalent iri_eqb tag_eqb r key = true ->
     literal_ref_hash iri_hash tag_hash r = literal_hash iri_hash tag_hash key).
Proof. exact all_hash_agree. Qed.
Print Assumptions c12_hash_agrees.

(** Strings are ordered as the bytes of their UTF-8 encoding, as the standard
    library does. *)
Theorem c12_str_order_is_byte_order : forall a b,
  Forall (fun c => c < 0x110000) a -> Forall (fun c => c < 0x110000) b ->
  str_cmp a b = list_cmp N.compare (utf8 a) (utf8 b).
Proof. exact utf8_order. Qed.
Print Assumptions c12_str_order_is_byte_order.

Example c12_ex_lawful : lawful str_eqb str_cmp /\ hash_agrees str_eqb str_hash.
Proof. split; [exact str_lawful|]. intros a b H. apply str_eqb_spec in H. now subst. Qed.
Example c12_ex_order :
  let c := local_cmp str_cmp str_cmp in
  let b := Anonymous (chars "_:z") in
  let i := Named (TIri (chars "http://a")) in
  let l := Named (TLit (Literal (chars "a") (LAny (chars "http://a")))) in
  let m := Named (TLit (Literal (chars "a") (LLang (chars "en")))) in
  c b i = Lt /\ c i l = Lt /\ c l m = Lt /\ c m l = Gt /\ c m m = Eq.
Proof. now vm_compute. Qed.
Example c12_ex_bytes : utf8 [0x20AC; 0x1F600] = [0xE2; 0x82; 0xAC; 0xF0; 0x9F; 0x98; 0x80].
Proof. reflexivity. Qed.

(** ** C13 *)

(** Borrowing, or making copy-on-write, and coming back. *)
Theorem c13_literal_types : forall t,
  ltype_ref_into_owned (ltype_as_ref t) = t /\
  ltype_cow_into_owned (ltype_as_cow t) = t /\
  ltype_cow_into_owned (ltype_into_cow t) = t /\
  ltype_cow_into_owned (ltype_cow_from_ref (ltype_as_ref t)) = t /\
  ltype_cow_as_ref (ltype_as_cow t) = ltype_as_ref t.
Proof. exact ltype_rounds. Qed.
Print Assumptions c13_literal_types.

Theorem c13_literals : forall l,
  literal_ref_to_owned (literal_as_ref l) = l /\
  literal_cow_into_owned (literal_as_cow l) = l /\
  literal_cow_into_owned (literal_into_cow l) = l /\
  literal_cow_into_owned (literal_cow_from l) = l /\
  literal_cow_into_owned (literal_ref_into_cow (literal_as_ref l)) = l /\
  literal_cow_as_ref (literal_as_cow l) = literal_as_ref l /\
  (let (v, t) := literal_into_parts l in literal_new v t) = l.
Proof. exact literal_rounds. Qed.
Print Assumptions c13_literals.

Theorem c13_terms : forall t,
  term_ref_to_owned (term_as_ref t) = t /\
  term_cow_into_owned (term_as_cow t) = t /\
  term_cow_into_owned (term_into_cow t) = t /\
  term_cow_into_owned (term_cow_from t) = t.
Proof. exact term_rounds. Qed.
Print Assumptions c13_terms.

Theorem c13_local_terms_and_ids :
  (forall t, local_ref_to_owned (local_as_ref t) = t) /\
  (forall i, id_ref_into_owned (id_as_ref i) = i).
Proof. exact (conj local_ref_round id_ref_round). Qed.
Print Assumptions c13_local_terms_and_ids.

(** Nothing is lost on the way: different values have different borrowed and
    copy-on-write forms (there is no way back from CowLocalTerm and CowId). *)
Theorem c13_no_loss :
  (forall s t, local_as_ref s = local_as_ref t -> s = t) /\
  (forall s t, local_as_cow s = local_as_cow t -> s = t) /\
  (forall s t, local_into_cow s = local_into_cow t -> s = t) /\
  (forall i j, id_as_ref i = id_as_ref j -> i = j) /\
  (forall i j, id_as_cow i = id_as_cow j -> i = j).
Proof. exact no_loss. Qed.
Print Assumptions c13_no_loss.

(** The [From] conversions into a term are injective and told apart by the
    accessors. *)
Theorem c13_from :
  (forall i, local_as_iri (local_from_iri i) = Some i /\ local_as_literal (local_from_iri i) = None /\
             local_as_anonymous (local_from_iri i) = None) /\
  (forall l, local_as_literal (local_from_literal l) = Some (literal_as_ref l) /\
             local_as_iri (local_from_literal l) = None /\
             local_as_anonymous (local_from_literal l) = None) /\
  (forall b, local_as_anonymous (local_from_blank b) = Some b /\
             local_as_iri (local_from_blank b) = None /\
             local_as_literal (local_from_blank b) = None) /\
  (forall t, local_from_term t = match term_try_into_iri t with
                                 | inl i => local_from_iri i
                                 | inr _ => match term_into_literal t with
                                            | Some l => local_from_literal l
                                            | None => local_from_term t
                                            end
                                 end).
Proof. exact from_facts. Qed.
Print Assumptions c13_from.

(** [try_into_*] and [into_*]: the payload, or the unchanged term. *)
Theorem c13_try_into :
  (forall t i, term_try_into_iri t = inl i <-> t = TIri i) /\
  (forall t u, term_try_into_iri t = inr u <-> u = t /\ term_is_literal t = true) /\
  (forall t l, term_try_into_literal t = inl l <-> t = TLit l) /\
  (forall t i, term_try_into_literal t = inr i <-> t = TIri i) /\
  (forall t l, term_into_literal t = Some l <-> t = TLit l) /\
  (forall t i, term_into_iri t = Some i <-> t = TIri i) /\
  (forall t i, term_as_iri t = Some i <-> t = TIri i) /\
  (forall t l, term_as_literal t = Some (literal_as_ref l) <-> t = TLit l).
Proof. exact try_into_facts. Qed.
Print Assumptions c13_try_into.

(** The queries that name a variant. *)
Theorem c13_queries :
  (forall t l, ltype_lang_tag t = Some l <-> t = LLang l) /\
  (forall t, ltype_is_lang_string t = true <-> exists l, t = LLang l) /\
  (forall i, ltype_cow_into_owned (ltype_cow_from_iri i) = LAny (cow_text i)) /\
  (forall l, ltype_cow_into_owned (ltype_cow_from_tag l) = LLang (cow_text l)) /\
  (forall t, term_is_iri t = true <-> exists i, t = TIri i) /\
  (forall t, term_is_literal t = true <-> exists l, t = TLit l) /\
  (forall t, local_is_anonymous t = true <-> exists b, t = Anonymous b) /\
  (forall i j, id_as_iri i = Some j <-> i = IIri j).
Proof. exact type_queries. Qed.
Print Assumptions c13_queries.

Example c13_ex :
  term_try_into_iri (TLit (Literal [120] (LLang (chars "en")))) =
    inr (TLit (Literal [120] (LLang (chars "en")))) /\
  term_try_into_literal (TLit (Literal [120] (LLang (chars "en")))) =
    inl (Literal [120] (LLang (chars "en"))) /\
  local_as_cow (Named (TLit (Literal [120] (LAny (chars "http://a"))))) =
    CNamed (CLit (LiteralCow (Borrowed [120]) (CAny (Borrowed (chars "http://a"))))).
Proof. repeat split. Qed.

(** ** C14 *)

(** Part of it: equal literals borrow equal strings, and the order of literals
    refines that of the strings; literals of one type compare like their strings.
    Missing, because false: the converse, and equal hashes. *)
Theorem c14_borrow_partial : forall iri_eqb iri_cmp tag_eqb tag_cmp,
  lawful iri_eqb iri_cmp -> lawful tag_eqb tag_cmp -> forall a b,
    (literal_eqb iri_eqb tag_eqb a b = true ->
       str_eqb (literal_borrow a) (literal_borrow b) = true) /\
    (str_cmp (literal_borrow a) (literal_borrow b) <> Eq ->
       literal_cmp iri_cmp tag_cmp a b = str_cmp (literal_borrow a) (literal_borrow b)) /\
    (l_type a = l_type b ->
       literal_eqb iri_eqb tag_eqb a b = str_eqb (literal_borrow a) (literal_borrow b) /\
       literal_cmp iri_cmp tag_cmp a b = str_cmp (literal_borrow a) (literal_borrow b)).
Proof. exact borrow_facts. Qed.
Print Assumptions c14_borrow_partial.

(** What [Borrow] asks for fails whatever the IRIs' and tags' comparison is: two
    literals that are not equal borrow the same string; *)
Theorem c14_borrow_eq_refuted : forall iri_eqb tag_eqb, exists a b,
  str_eqb (literal_borrow a) (literal_borrow b) = true /\ literal_eqb iri_eqb tag_eqb a b = false.
Proof. exact borrow_eq_fails. Qed.
Print Assumptions c14_borrow_eq_refuted.

Theorem c14_borrow_cmp_refuted : forall iri_cmp tag_cmp, exists a b,
  str_cmp (literal_borrow a) (literal_borrow b) = Eq /\ literal_cmp iri_cmp tag_cmp a b = Lt.
Proof. exact borrow_cmp_fails. Qed.
Print Assumptions c14_borrow_cmp_refuted.

(** and no literal feeds its hasher what its string does. *)
Theorem c14_borrow_hash_refuted : forall iri_hash tag_hash l,
  literal_hash iri_hash tag_hash l <> str_hash (literal_borrow l).
Proof. exact borrow_hash_fails. Qed.
Print Assumptions c14_borrow_hash_refuted.

Example c14_ex : literal_cmp str_cmp str_cmp (Literal [97] (LAny (chars "http://t")))
    (Literal [98] (LLang (chars "en"))) = Lt.
Proof. reflexivity. Qed.
