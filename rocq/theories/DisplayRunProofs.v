(** The text of the containers after any history; formatting flags; examples of
    texts that can not be read back. *)
From Coq Require Import List NArith Bool Lia Ascii String.
Import ListNotations.
From Verif Require Import Base BaseProofs TextModel TripleModel DisplayModel TermModel TermSpec
  TermProofs NTriplesSpec DisplayProofs SetSpec ContainerSpec IndexedSpec Machine BResourceModel
  BTreeDatasetModel BTreeGraphModel IResourceModel IndexedDatasetModel IndexedGraphModel
  BTreeDatasetProofs BTreeGraphProofs IndexedRunProofs IndexedGraphRunProofs DisplayContainerModel.
Local Open Scope N_scope.

(** ** Containers *)
Definition triple_as_quad {R} (t : triple R) : quad R := Quad (t_s t) (t_p t) (t_o t) None.
Lemma triple_as_quad_inj {R} (s t : triple R) : triple_as_quad s = triple_as_quad t -> s = t.
Proof. destruct s, t. now injection 1 as -> -> ->. Qed.

Lemma norm_quads_exact eqb l : (forall i j, eqb i j = true <-> i = j) ->
  map (norm_quad (norm_term eqb)) l = l.
Proof.
  intros E. transitivity (map (fun q : quad term => q) l); [|apply map_id].
  apply map_ext. intros [s p o g]. unfold norm_quad. cbn.
  rewrite !norm_term_exact by exact E. destruct g; cbn; [|reflexivity].
  now rewrite norm_term_exact by exact E.
Qed.

Section Runs.
  Context (eqb : text -> text -> bool) (cmp : term -> term -> comparison) (L : ord_laws cmp).
  Let show := term_rdf_fmt eqb.

  Lemma doc_of_set (s l : list (quad term)) : (forall q, In q l <-> In q s) ->
    (forall q, In q s -> good_quad good_term q) ->
    read_document read_term (quads_rdf_fmt show l) = Some (map (norm_quad (norm_term eqb)) l).
  Proof.
    intros E G. apply terms_document. apply Forall_forall. intros q H. apply G, E, H.
  Qed.
  Lemma doc_of_triples (s l : list (triple term)) : (forall t, In t l <-> In t s) ->
    (forall t, In t s -> good_triple good_term t) ->
    read_document read_term (triples_rdf_fmt show l) =
    Some (map (fun t => norm_quad (norm_term eqb) (triple_as_quad t)) l).
  Proof.
    intros E G. unfold show. rewrite terms_document_triples; [reflexivity|].
    apply Forall_forall. intros q H. apply G, E, H.
  Qed.

  Lemma bd_text keep ops xs d : run (bd_step cmp keep) bd_new ops = Some (xs, d) ->
    (forall q, In q (spec_set (quad_cmp cmp) ops) -> good_quad good_term q) ->
    exists s l, bd_rdf_fmt show d = Some s /\ increasing (quad_cmp cmp) l /\
      (forall q, In q l <-> In q (spec_set (quad_cmp cmp) ops)) /\
      read_document read_term s = Some (map (norm_quad (norm_term eqb)) l).
  Proof.
    intros H G. destruct (bd_iteration L keep ops xs d H) as (l & I & _ & N & E).
    exists (quads_rdf_fmt show l), l. unfold bd_rdf_fmt. rewrite I.
    repeat (split; [easy|]). now apply (doc_of_set (spec_set (quad_cmp cmp) ops)).
  Qed.
  Lemma id_text keep ops0 ops xs d : id_reached cmp keep ops0 ops xs d ->
    (forall q, In q (final_set cmp ops0 ops xs) -> good_quad good_term q) ->
    exists s l, id_rdf_fmt show d = Some s /\ increasing (quad_cmp cmp) l /\
      (forall q, In q l <-> In q (final_set cmp ops0 ops xs)) /\
      read_document read_term s = Some (map (norm_quad (norm_term eqb)) l).
  Proof.
    intros H G. destruct (id_contents L keep ops0 ops xs d H) as (l & I & _ & N & E & _).
    exists (quads_rdf_fmt show l), l. unfold id_rdf_fmt. rewrite I.
    repeat (split; [easy|]). now apply (doc_of_set (final_set cmp ops0 ops xs)).
  Qed.
  Lemma bg_text keep ops xs g : run (bg_step cmp keep) bg_new ops = Some (xs, g) ->
    (forall t, In t (spec_set (triple_cmp cmp) ops) -> good_triple good_term t) ->
    exists s l, bg_rdf_fmt show g = Some s /\ increasing (triple_cmp cmp) l /\
      (forall t, In t l <-> In t (spec_set (triple_cmp cmp) ops)) /\
      read_document read_term s =
        Some (map (fun t => norm_quad (norm_term eqb) (triple_as_quad t)) l).
  Proof.
    intros H G. destruct (bg_iteration L keep ops xs g H) as (l & I & _ & N & E).
    exists (triples_rdf_fmt show l), l. unfold bg_rdf_fmt. rewrite I.
    repeat (split; [easy|]). now apply (doc_of_triples (spec_set (triple_cmp cmp) ops)).
  Qed.
  Lemma ig_text keep ops0 ops g : ig_reached cmp keep ops0 ops g ->
    (forall t, In t (spec_set (triple_cmp cmp) (ops0 ++ ops)) -> good_triple good_term t) ->
    exists s l, ig_rdf_fmt show g = Some s /\ increasing (triple_cmp cmp) l /\
      (forall t, In t l <-> In t (spec_set (triple_cmp cmp) (ops0 ++ ops))) /\
      read_document read_term s =
        Some (map (fun t => norm_quad (norm_term eqb) (triple_as_quad t)) l).
  Proof.
    intros H G. destruct (ig_contents L keep ops0 ops g H) as (l & I & _ & N & E & _).
    exists (triples_rdf_fmt show l), l. unfold ig_rdf_fmt. rewrite I.
    repeat (split; [easy|]). now apply (doc_of_triples (spec_set (triple_cmp cmp) (ops0 ++ ops))).
  Qed.

  (** The same text means the same elements. *)
  Context (X : forall i j, eqb i j = true <-> i = j).

  Lemma same_quads (s1 s2 l1 l2 : list (quad term)) t :
    (forall q, In q l1 <-> In q s1) -> (forall q, In q l2 <-> In q s2) ->
    read_document read_term t = Some (map (norm_quad (norm_term eqb)) l1) ->
    read_document read_term t = Some (map (norm_quad (norm_term eqb)) l2) ->
    forall q, In q s1 <-> In q s2.
  Proof.
    intros E1 E2 R1 R2 q. rewrite !norm_quads_exact in * by exact X.
    rewrite <- E1, <- E2. replace l2 with l1 by congruence. reflexivity.
  Qed.
  Lemma same_triples (s1 s2 l1 l2 : list (triple term)) t :
    (forall q, In q l1 <-> In q s1) -> (forall q, In q l2 <-> In q s2) ->
    read_document read_term t =
      Some (map (fun t => norm_quad (norm_term eqb) (triple_as_quad t)) l1) ->
    read_document read_term t =
      Some (map (fun t => norm_quad (norm_term eqb) (triple_as_quad t)) l2) ->
    forall q, In q s1 <-> In q s2.
  Proof.
    intros E1 E2 R1 R2 q. rewrite <- !(map_map triple_as_quad), !norm_quads_exact in * by exact X.
    rewrite <- E1, <- E2.
    assert (M : map triple_as_quad l1 = map triple_as_quad l2) by congruence.
    replace l2 with l1; [reflexivity|]. clear - M.
    revert l2 M. induction l1 as [|x l1 IH]; intros [|y l2] M; [reflexivity|discriminate|discriminate|].
    cbn [map] in M. apply (f_equal (@hd_error _)) in M as M1. apply (f_equal (@tl _)) in M as M2.
    cbn [hd_error tl] in M1, M2. f_equal; [|now apply IH]. apply triple_as_quad_inj. congruence.
  Qed.

  Lemma bd_same_text keep ops1 ops2 xs1 xs2 d1 d2 s :
    run (bd_step cmp keep) bd_new ops1 = Some (xs1, d1) ->
    run (bd_step cmp keep) bd_new ops2 = Some (xs2, d2) ->
    (forall q, In q (spec_set (quad_cmp cmp) ops1) -> good_quad good_term q) ->
    (forall q, In q (spec_set (quad_cmp cmp) ops2) -> good_quad good_term q) ->
    bd_rdf_fmt show d1 = Some s -> bd_rdf_fmt show d2 = Some s ->
    forall q, In q (spec_set (quad_cmp cmp) ops1) <-> In q (spec_set (quad_cmp cmp) ops2).
  Proof.
    intros H1 H2 G1 G2 F1 F2.
    destruct (bd_text _ _ _ _ H1 G1) as (s1 & l1 & A1 & _ & B1 & C1).
    destruct (bd_text _ _ _ _ H2 G2) as (s2 & l2 & A2 & _ & B2 & C2).
    replace s1 with s in * by congruence. replace s2 with s in * by congruence.
    exact (same_quads _ _ _ _ _ B1 B2 C1 C2).
  Qed.
  Lemma id_same_text keep ops0 ops xs d ops0' ops' xs' d' s :
    id_reached cmp keep ops0 ops xs d -> id_reached cmp keep ops0' ops' xs' d' ->
    (forall q, In q (final_set cmp ops0 ops xs) -> good_quad good_term q) ->
    (forall q, In q (final_set cmp ops0' ops' xs') -> good_quad good_term q) ->
    id_rdf_fmt show d = Some s -> id_rdf_fmt show d' = Some s ->
    forall q, In q (final_set cmp ops0 ops xs) <-> In q (final_set cmp ops0' ops' xs').
  Proof.
    intros H1 H2 G1 G2 F1 F2.
    destruct (id_text _ _ _ _ _ H1 G1) as (s1 & l1 & A1 & _ & B1 & C1).
    destruct (id_text _ _ _ _ _ H2 G2) as (s2 & l2 & A2 & _ & B2 & C2).
    replace s1 with s in * by congruence. replace s2 with s in * by congruence.
    exact (same_quads _ _ _ _ _ B1 B2 C1 C2).
  Qed.
  Lemma bg_same_text keep ops1 ops2 xs1 xs2 d1 d2 s :
    run (bg_step cmp keep) bg_new ops1 = Some (xs1, d1) ->
    run (bg_step cmp keep) bg_new ops2 = Some (xs2, d2) ->
    (forall q, In q (spec_set (triple_cmp cmp) ops1) -> good_triple good_term q) ->
    (forall q, In q (spec_set (triple_cmp cmp) ops2) -> good_triple good_term q) ->
    bg_rdf_fmt show d1 = Some s -> bg_rdf_fmt show d2 = Some s ->
    forall q, In q (spec_set (triple_cmp cmp) ops1) <-> In q (spec_set (triple_cmp cmp) ops2).
  Proof.
    intros H1 H2 G1 G2 F1 F2.
    destruct (bg_text _ _ _ _ H1 G1) as (s1 & l1 & A1 & _ & B1 & C1).
    destruct (bg_text _ _ _ _ H2 G2) as (s2 & l2 & A2 & _ & B2 & C2).
    replace s1 with s in * by congruence. replace s2 with s in * by congruence.
    exact (same_triples _ _ _ _ _ B1 B2 C1 C2).
  Qed.
  Lemma ig_same_text keep ops0 ops d ops0' ops' d' s :
    ig_reached cmp keep ops0 ops d -> ig_reached cmp keep ops0' ops' d' ->
    (forall q, In q (spec_set (triple_cmp cmp) (ops0 ++ ops)) -> good_triple good_term q) ->
    (forall q, In q (spec_set (triple_cmp cmp) (ops0' ++ ops')) -> good_triple good_term q) ->
    ig_rdf_fmt show d = Some s -> ig_rdf_fmt show d' = Some s ->
    forall q, In q (spec_set (triple_cmp cmp) (ops0 ++ ops)) <->
      In q (spec_set (triple_cmp cmp) (ops0' ++ ops')).
  Proof.
    intros H1 H2 G1 G2 F1 F2.
    destruct (ig_text _ _ _ _ H1 G1) as (s1 & l1 & A1 & _ & B1 & C1).
    destruct (ig_text _ _ _ _ H2 G2) as (s2 & l2 & A2 & _ & B2 & C2).
    replace s1 with s in * by congruence. replace s2 with s in * by congruence.
    exact (same_triples _ _ _ _ _ B1 B2 C1 C2).
  Qed.
End Runs.

(** ** Formatting flags *)
Lemma pad_width f s : f_prec f = None -> (f_width f <= List.length s)%nat -> pad f s = s.
Proof.
  intros P W. unfold pad. rewrite P. replace (f_width f - List.length s)%nat with 0%nat by lia.
  apply app_nil_r.
Qed.
Section Flags.
  Context (f : fspec) (P : f_prec f = None) (W : (f_width f <= 1)%nat).
  Lemma str_flags s : str_rdf_fmt f s = str_rdf_fmt plain s.
  Proof.
    unfold str_rdf_fmt. f_equal. f_equal. apply flat_map_ext. intros c. unfold str_char_fmt, char_fmt.
    now rewrite (pad_width f [c]), pad_plain.
  Qed.
  Lemma iri_flags s : iri_rdf_fmt f s = iri_rdf_fmt plain s.
  Proof.
    unfold iri_rdf_fmt. f_equal. f_equal. apply flat_map_ext. intros c. unfold iri_char_fmt, char_fmt.
    now rewrite (pad_width f [c]), pad_plain.
  Qed.
  Lemma literal_flags eqb l : good_ltype (l_type l) ->
    literal_rdf_fmt eqb f l = literal_rdf_fmt eqb plain l.
  Proof.
    intros G. unfold literal_rdf_fmt. rewrite str_flags. f_equal.
    destruct (is_xsd_string eqb (l_type l)); [reflexivity|].
    destruct (l_type l) as [i|t]; cbn [ltype_rdf_fmt].
    - now rewrite iri_flags.
    - f_equal. unfold tag_rdf_fmt. rewrite pad_plain. apply pad_width; [exact P|].
      destruct G as (a & m & -> & N & _). destruct a; [congruence|]. cbn. lia.
  Qed.
  Lemma term_flags eqb t : good_term t -> term_rdf_fmt eqb f t = term_rdf_fmt eqb plain t.
  Proof. destruct t as [i|l]; cbn; intros G; [apply iri_flags|now apply literal_flags]. Qed.
End Flags.

(** A width changes the value that is written, a precision erases it. *)
Lemma flags_counterexample : exists v w : text, v <> w /\
  read_string (str_rdf_fmt (FSpec 2 None) v) = Some (w, []) /\
  read_string (str_rdf_fmt (FSpec 0 (Some 0%nat)) v) = Some ([], []).
Proof. exists (chars "a"), (chars "a "). split; [discriminate|]. now vm_compute. Qed.
Lemma flags_iri_counterexample : exists i : text, good_iri i /\
  read_iri (iri_rdf_fmt (FSpec 2 None) i) = None.
Proof. exists (chars "a:b"). split; [repeat constructor|reflexivity]. Qed.

(** ** Blank nodes *)
Lemma local_counterexample : exists s t : local_term,
  (exists b, s = Anonymous b /\ good_term (TLit (Literal b (LAny XSD_STRING)))) /\
  (exists u, t = Named u) /\ s <> t /\
  forall eqb, (forall i, eqb i i = true) ->
    local_term_rdf_fmt eqb plain s = local_term_rdf_fmt eqb plain t.
Proof.
  exists (Anonymous (chars "_:x")), (Named (TLit (Literal (chars "_:x") (LAny XSD_STRING)))).
  split; [|split; [eauto|split; [discriminate|]]].
  - eexists. split; [reflexivity|]. repeat constructor.
  - intros eqb E. cbn -[XSD_STRING]. unfold literal_rdf_fmt, is_xsd_string, is_iri. cbn -[XSD_STRING].
    rewrite E. reflexivity.
Qed.
(** Whatever the blank node. *)
Lemma local_blank_is_string eqb b : (forall i, eqb i i = true) ->
  local_term_rdf_fmt eqb plain (Anonymous b) =
  local_term_rdf_fmt eqb plain (Named (TLit (Literal b (LAny XSD_STRING)))).
Proof.
  intros E. cbn [local_term_rdf_fmt term_rdf_fmt]. unfold literal_rdf_fmt, is_xsd_string, is_iri.
  cbn [l_value l_type]. rewrite E. now rewrite app_nil_r.
Qed.
Lemma local_named eqb t : local_term_rdf_fmt eqb plain (Named t) = term_rdf_fmt eqb plain t.
Proof. reflexivity. Qed.

(** Two datasets with the same text: a blank node is taken for a string. *)
Definition blank_quad : quad local_term :=
  Quad (local_iri (chars "a:s")) (local_iri (chars "a:p")) (Anonymous (chars "_:x")) None.
Definition string_quad : quad local_term :=
  Quad (local_iri (chars "a:s")) (local_iri (chars "a:p"))
    (local_literal (Literal (chars "_:x") (LAny XSD_STRING))) None.
Lemma dataset_counterexample : exists ops1 ops2 : list (op (quad local_term)),
  forall keep, exists xs1 xs2 d1 d2 s,
    run (bd_step (local_cmp str_cmp str_cmp) keep) bd_new ops1 = Some (xs1, d1) /\
    run (bd_step (local_cmp str_cmp str_cmp) keep) bd_new ops2 = Some (xs2, d2) /\
    bd_rdf_fmt (local_term_rdf_fmt str_eqb) d1 = Some s /\
    bd_rdf_fmt (local_term_rdf_fmt str_eqb) d2 = Some s /\
    exists q, In q (spec_set (quad_cmp (local_cmp str_cmp str_cmp)) ops1) /\
      ~ In q (spec_set (quad_cmp (local_cmp str_cmp str_cmp)) ops2).
Proof.
  exists [Insert blank_quad], [Insert string_quad]. intros keep.
  do 5 eexists. split; [vm_compute; reflexivity|]. split; [vm_compute; reflexivity|].
  split; [vm_compute; reflexivity|]. split; [vm_compute; reflexivity|].
  exists blank_quad. split; [now left|]. intros [H|[]]. discriminate H.
Qed.

(** ** The escape of IRIs *)
Lemma iri_counterexample : exists s : text,
  iri_rdf_fmt plain s = chars "<a:\u0x20>" /\ read_iri (iri_rdf_fmt plain s) = None.
Proof. exists (chars "a: "). now vm_compute. Qed.
