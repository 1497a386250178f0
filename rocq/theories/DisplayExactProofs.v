(** Texts with blank nodes, and texts written with a width or a precision. *)
From Coq Require Import List Arith NArith Bool Lia Ascii String.
Import ListNotations.
From Verif Require Import Base TextModel TripleModel DisplayModel TermModel TermSpec TermProofs NTriplesSpec
  DisplaySpec DisplayProofs SetSpec ContainerSpec IndexedSpec Machine BTreeDatasetModel BTreeGraphModel
  IndexedDatasetModel IndexedGraphModel BTreeDatasetProofs BTreeGraphProofs IndexedRunProofs
  IndexedGraphRunProofs DisplayContainerModel DisplayRunProofs.
Local Open Scope N_scope.

(** ** Blank nodes *)
Section Local.
  Context (eqb : text -> text -> bool) (X : forall i j, eqb i j = true <-> i = j).

  Lemma local_as_seen t : local_term_rdf_fmt eqb plain t = term_rdf_fmt eqb plain (seen t).
  Proof.
    destruct t as [b|t]; [|reflexivity]. cbn [seen].
    rewrite (local_blank_is_string eqb b); [reflexivity|]. intros i. now apply X.
  Qed.

  Lemma seen_inj s t : seen s = seen t ->
    s = t \/ (exists b, s = Anonymous b /\ t = Named (TLit (Literal b (LAny XSD_STRING)))) \/
    (exists b, t = Anonymous b /\ s = Named (TLit (Literal b (LAny XSD_STRING)))).
  Proof.
    destruct s as [a|s], t as [b|t]; cbn; intros E.
    - injection E as ->. now left.
    - right; left. exists a. now subst.
    - right; right. exists b. now subst.
    - subst. now left.
  Qed.

  Lemma term_text_inj s t : term_rdf_fmt eqb plain s = term_rdf_fmt eqb plain t -> s = t.
  Proof.
    assert (LX : lawful eqb str_cmp).
    { destruct str_lawful as [A B C].
      assert (Q : forall i j, eqb i j = str_eqb i j).
      { intros i j. apply eq_true_iff_eq. now rewrite X, str_eqb_spec. }
      split; intros; rewrite ?Q in *; eauto. }
    intros E. pose proof (term_same_text eqb str_eqb str_cmp str_cmp LX str_lawful s t E) as H.
    destruct s as [i|[v [i|i]]], t as [j|[w [j|j]]]; cbn in H; unfold literal_eqb in H; cbn in H;
      rewrite ?andb_true_iff, ?str_eqb_spec, ?X in H; try discriminate; intuition congruence.
  Qed.

  Lemma local_same_text s t :
    local_term_rdf_fmt eqb plain s = local_term_rdf_fmt eqb plain t <-> seen s = seen t.
  Proof. rewrite !local_as_seen. split; [apply term_text_inj|congruence]. Qed.

  Lemma local_collisions s t : local_term_rdf_fmt eqb plain s = local_term_rdf_fmt eqb plain t <->
    s = t \/ (exists b, s = Anonymous b /\ t = Named (TLit (Literal b (LAny XSD_STRING)))) \/
    (exists b, t = Anonymous b /\ s = Named (TLit (Literal b (LAny XSD_STRING)))).
  Proof.
    rewrite local_same_text. split; [apply seen_inj|].
    intros [->|[(b & -> & ->)|(b & -> & ->)]]; reflexivity.
  Qed.

  Lemma local_read t rest : good_term (seen t) -> ends_literal rest ->
    read_term (local_term_rdf_fmt eqb plain t ++ rest) = Some (seen t, rest).
  Proof.
    intros G E. rewrite local_as_seen, read_term_fmt by assumption. now rewrite norm_term_exact.
  Qed.

  Lemma quads_as_seen l :
    quads_rdf_fmt (local_term_rdf_fmt eqb) l = quads_rdf_fmt (term_rdf_fmt eqb) (map seen_quad l).
  Proof.
    unfold quads_rdf_fmt. induction l as [|[s p o g] l IH]; [reflexivity|]. cbn [flat_map map].
    rewrite IH. f_equal. f_equal. unfold quad_rdf_fmt, seen_quad. cbn [q_s q_p q_o q_g].
    destruct g as [g|]; now rewrite !local_as_seen.
  Qed.
  Lemma triples_as_seen l :
    triples_rdf_fmt (local_term_rdf_fmt eqb) l = quads_rdf_fmt (term_rdf_fmt eqb) (map seen_triple l).
  Proof.
    rewrite triples_as_quads, quads_as_seen, map_map. reflexivity.
  Qed.

  Lemma quads_read l : Forall (fun q => good_quad good_term (seen_quad q)) l ->
    read_document read_term (quads_rdf_fmt (local_term_rdf_fmt eqb) l) = Some (map seen_quad l).
  Proof.
    intros G. rewrite quads_as_seen, terms_document; [|now apply Forall_map].
    now rewrite norm_quads_exact.
  Qed.
  Lemma triples_read l : Forall (fun q => good_quad good_term (seen_triple q)) l ->
    read_document read_term (triples_rdf_fmt (local_term_rdf_fmt eqb) l) = Some (map seen_triple l).
  Proof.
    intros G. rewrite triples_as_seen, terms_document; [|now apply Forall_map].
    now rewrite norm_quads_exact.
  Qed.

  Context (cmp : local_term -> local_term -> comparison) (L : ord_laws cmp).
  Let show := local_term_rdf_fmt eqb.

  Lemma bd_local_text keep ops xs d : run (bd_step cmp keep) bd_new ops = Some (xs, d) ->
    (forall q, In q (spec_set (quad_cmp cmp) ops) -> good_quad good_term (seen_quad q)) ->
    exists s l, bd_rdf_fmt show d = Some s /\ increasing (quad_cmp cmp) l /\
      (forall q, In q l <-> In q (spec_set (quad_cmp cmp) ops)) /\
      read_document read_term s = Some (map seen_quad l).
  Proof.
    intros H G. destruct (bd_iteration L keep ops xs d H) as (l & I & _ & N & E).
    exists (quads_rdf_fmt show l), l. unfold bd_rdf_fmt. rewrite I. split; [reflexivity|].
    split; [exact N|]. split; [exact E|]. apply quads_read. apply Forall_forall. intros q Hq.
    now apply G, E.
  Qed.
  Lemma id_local_text keep ops0 ops xs d : id_reached cmp keep ops0 ops xs d ->
    (forall q, In q (final_set cmp ops0 ops xs) -> good_quad good_term (seen_quad q)) ->
    exists s l, id_rdf_fmt show d = Some s /\ increasing (quad_cmp cmp) l /\
      (forall q, In q l <-> In q (final_set cmp ops0 ops xs)) /\
      read_document read_term s = Some (map seen_quad l).
  Proof.
    intros H G. destruct (id_contents L keep ops0 ops xs d H) as (l & I & _ & N & E & _).
    exists (quads_rdf_fmt show l), l. unfold id_rdf_fmt. rewrite I. split; [reflexivity|].
    split; [exact N|]. split; [exact E|]. apply quads_read. apply Forall_forall. intros q Hq.
    now apply G, E.
  Qed.
  Lemma bg_local_text keep ops xs g : run (bg_step cmp keep) bg_new ops = Some (xs, g) ->
    (forall t, In t (spec_set (triple_cmp cmp) ops) -> good_quad good_term (seen_triple t)) ->
    exists s l, bg_rdf_fmt show g = Some s /\ increasing (triple_cmp cmp) l /\
      (forall t, In t l <-> In t (spec_set (triple_cmp cmp) ops)) /\
      read_document read_term s = Some (map seen_triple l).
  Proof.
    intros H G. destruct (bg_iteration L keep ops xs g H) as (l & I & _ & N & E).
    exists (triples_rdf_fmt show l), l. unfold bg_rdf_fmt. rewrite I. split; [reflexivity|].
    split; [exact N|]. split; [exact E|]. apply triples_read. apply Forall_forall. intros q Hq.
    now apply G, E.
  Qed.
  Lemma ig_local_text keep ops0 ops g : ig_reached cmp keep ops0 ops g ->
    (forall t, In t (spec_set (triple_cmp cmp) (ops0 ++ ops)) -> good_quad good_term (seen_triple t)) ->
    exists s l, ig_rdf_fmt show g = Some s /\ increasing (triple_cmp cmp) l /\
      (forall t, In t l <-> In t (spec_set (triple_cmp cmp) (ops0 ++ ops))) /\
      read_document read_term s = Some (map seen_triple l).
  Proof.
    intros H G. destruct (ig_contents L keep ops0 ops g H) as (l & I & _ & N & E & _).
    exists (triples_rdf_fmt show l), l. unfold ig_rdf_fmt. rewrite I. split; [reflexivity|].
    split; [exact N|]. split; [exact E|]. apply triples_read. apply Forall_forall. intros q Hq.
    now apply G, E.
  Qed.
End Local.

(** ** Width and precision *)
Lemma stretched_cases f c :
  (c = 34 /\ str_char_fmt f c = [92; 34] /\ stretched (f_width f) (f_prec f) c = [c]) \/
  (c = 92 /\ str_char_fmt f c = [92; 92] /\ stretched (f_width f) (f_prec f) c = [c]) \/
  (c = 10 /\ str_char_fmt f c = [92; 110] /\ stretched (f_width f) (f_prec f) c = [c]) \/
  (c = 13 /\ str_char_fmt f c = [92; 114] /\ stretched (f_width f) (f_prec f) c = [c]) \/
  (str_char_fmt f c = stretched (f_width f) (f_prec f) c /\
   Forall (fun x => x <> 34 /\ x <> 92 /\ x <> 10 /\ x <> 13) (stretched (f_width f) (f_prec f) c)).
Proof.
  unfold str_char_fmt, stretched.
  destruct (N.eqb_spec c 34) as [->|]; [now left|right].
  destruct (N.eqb_spec c 92) as [->|]; [now left|right].
  destruct (N.eqb_spec c 10) as [->|]; [now left|right].
  destruct (N.eqb_spec c 13) as [->|]; [now left|right].
  cbn [orb]. unfold char_fmt, pad.
  assert (S : forall k, Forall (fun x => x <> 34 /\ x <> 92 /\ x <> 10 /\ x <> 13) (repeat 32 k)).
  { intros k. apply Forall_forall. intros x Hx. apply repeat_spec in Hx as ->. repeat split; discriminate. }
  destruct (f_prec f) as [[|p]|]; cbn [firstn app List.length].
  - rewrite Nat.sub_0_r. split; [reflexivity|apply S].
  - rewrite firstn_nil. cbn [app List.length].
    split; [reflexivity|]. constructor; [tauto|apply S].
  - split; [reflexivity|]. constructor; [tauto|apply S].
Qed.

Lemma read_raw r : Forall (fun x => x <> 34 /\ x <> 92 /\ x <> 10 /\ x <> 13) r ->
  forall s v rest fuel, read_string_body fuel s = Some (v, rest) ->
  read_string_body (List.length r + fuel) (r ++ s) = Some (r ++ v, rest).
Proof.
  induction 1 as [|x r (A & B & C & D) _ IH]; intros s v rest fuel E; [exact E|].
  cbn. neqb. cbn [orb]. now rewrite (IH _ _ _ _ E).
Qed.

Lemma read_more fuel : forall s v rest, read_string_body fuel s = Some (v, rest) ->
  forall k, (fuel <= k)%nat -> read_string_body k s = Some (v, rest).
Proof.
  induction fuel as [|fuel IH]; intros s v rest E k Hk; [discriminate|].
  destruct k as [|k]; [lia|]. cbn in *. destruct s as [|c s]; [discriminate|].
  destruct (c =? 34); [exact E|]. destruct (c =? 92).
  - destruct (read_escape s) as [[d r]|]; [|discriminate].
    destruct (read_string_body fuel r) as [[v' r']|] eqn:F; [|discriminate].
    rewrite (IH _ _ _ F k) by lia. exact E.
  - destruct ((c =? 10) || (c =? 13)); [discriminate|].
    destruct (read_string_body fuel s) as [[v' r']|] eqn:F; [|discriminate].
    rewrite (IH _ _ _ F k) by lia. exact E.
Qed.

Lemma str_flags_read f v rest :
  read_string (str_rdf_fmt f v ++ rest) = Some (flat_map (stretched (f_width f) (f_prec f)) v, rest).
Proof.
  unfold str_rdf_fmt. rewrite <- !app_assoc. cbn [app read_string]. rewrite N.eqb_refl.
  apply (read_more (S (List.length (flat_map (str_char_fmt f) v))));
    [|rewrite app_length; cbn; lia].
  induction v as [|c v IH]; [reflexivity|]. cbn [flat_map]. rewrite <- app_assoc.
  destruct (stretched_cases f c) as [(-> & -> & ->)|[(-> & -> & ->)|[(-> & -> & ->)|[(-> & -> & ->)|(E & F)]]]].
  - change (read_string_body (S (List.length ([92; 34] ++ flat_map (str_char_fmt f) v)))
              ([92; 34] ++ flat_map (str_char_fmt f) v ++ 34 :: rest)) with
      (match read_string_body (S (S (List.length (flat_map (str_char_fmt f) v))))
              (flat_map (str_char_fmt f) v ++ 34 :: rest) with
       | Some (v, r) => Some (34 :: v, r) | None => None end).
    rewrite (read_more _ _ _ _ IH) by lia. reflexivity.
  - change (read_string_body (S (List.length ([92; 92] ++ flat_map (str_char_fmt f) v)))
              ([92; 92] ++ flat_map (str_char_fmt f) v ++ 34 :: rest)) with
      (match read_string_body (S (S (List.length (flat_map (str_char_fmt f) v))))
              (flat_map (str_char_fmt f) v ++ 34 :: rest) with
       | Some (v, r) => Some (92 :: v, r) | None => None end).
    rewrite (read_more _ _ _ _ IH) by lia. reflexivity.
  - change (read_string_body (S (List.length ([92; 110] ++ flat_map (str_char_fmt f) v)))
              ([92; 110] ++ flat_map (str_char_fmt f) v ++ 34 :: rest)) with
      (match read_string_body (S (S (List.length (flat_map (str_char_fmt f) v))))
              (flat_map (str_char_fmt f) v ++ 34 :: rest) with
       | Some (v, r) => Some (10 :: v, r) | None => None end).
    rewrite (read_more _ _ _ _ IH) by lia. reflexivity.
  - change (read_string_body (S (List.length ([92; 114] ++ flat_map (str_char_fmt f) v)))
              ([92; 114] ++ flat_map (str_char_fmt f) v ++ 34 :: rest)) with
      (match read_string_body (S (S (List.length (flat_map (str_char_fmt f) v))))
              (flat_map (str_char_fmt f) v ++ 34 :: rest) with
       | Some (v, r) => Some (13 :: v, r) | None => None end).
    rewrite (read_more _ _ _ _ IH) by lia. reflexivity.
  - rewrite E, app_length. apply (read_more _ _ _ _ (read_raw _ F _ _ _ _ IH)). rewrite Nat.add_succ_r. apply le_n.
Qed.

(** The specifications that change nothing. *)
Lemma flags_iff eqb f :
  eqb XSD_STRING XSD_STRING = true ->
  ((forall t, good_term t -> term_rdf_fmt eqb f t = term_rdf_fmt eqb plain t) <->
   f_prec f = None /\ (f_width f <= 1)%nat).
Proof.
  intros X. split; [|intros [P W] t; now apply term_flags].
  intros H.
  assert (Hs : forall v, str_rdf_fmt f v = str_rdf_fmt plain v).
  { intros v. specialize (H (TLit (Literal v (LAny XSD_STRING)))).
    cbn [term_rdf_fmt] in H. unfold literal_rdf_fmt in H. cbn [l_value l_type] in H.
    unfold is_xsd_string, is_iri in H. rewrite X, !app_nil_r in H. apply H. repeat constructor. }
  assert (W : (f_width f <= 1)%nat).
  { specialize (Hs [97]). apply (f_equal (@List.length _)) in Hs.
    unfold str_rdf_fmt in Hs. rewrite !app_length in Hs. cbn [flat_map] in Hs. rewrite !app_nil_r in Hs.
    unfold str_char_fmt, char_fmt, pad in Hs. cbn [N.eqb Pos.eqb plain f_prec f_width] in Hs.
    rewrite !app_length, !repeat_length in Hs. cbn in Hs. lia. }
  split; [|exact W].
  destruct (f_prec f) as [p|] eqn:P; [exfalso|reflexivity].
  specialize (H (TLit (Literal [] (LLang (repeat 97 (S p)))))).
  cbn [term_rdf_fmt] in H. unfold literal_rdf_fmt in H. cbn [l_value l_type is_xsd_string is_iri] in H.
  unfold is_xsd_string, is_iri in H. rewrite Hs in H.
  assert (G : good_term (TLit (Literal [] (LLang (repeat 97 (S p)))))).
  { exists (repeat 97 (S p)), []. split; [cbn; now rewrite app_nil_r|]. split; [discriminate|]. split; [|constructor].
    apply forallb_forall. intros x Hx. now apply repeat_spec in Hx as ->. }
  apply H, app_inv_head in G. cbn [ltype_rdf_fmt] in G. apply app_inv_head in G.
  unfold tag_rdf_fmt in G. rewrite pad_plain in G. unfold pad in G. rewrite P in G.
  set (r := repeat 97 (S p)) in *.
  assert (Lr : List.length r = S p) by (unfold r; apply repeat_length).
  apply (f_equal (fun l => nth p l 0)) in G.
  assert (Hr : nth p r 0 = 97). { rewrite (nth_indep r 0 97) by lia. apply nth_repeat. }
  destruct (Nat.lt_ge_cases p (List.length (firstn p r))) as [Hl|Hl].
  - rewrite firstn_length in Hl. lia.
  - rewrite app_nth2 in G by exact Hl. rewrite Hr in G.
    destruct (nth_in_or_default (p - List.length (firstn p r)) (repeat 32 (f_width f - List.length (firstn p r))) 0) as [Hi|Hi].
    + apply repeat_spec in Hi. unfold char in *. rewrite Hi in G. discriminate.
    + unfold char in *. rewrite Hi in G. discriminate.
Qed.
