(** Replacing the blank nodes of a dataset by IRIs. *)
From Coq Require Import List Arith NArith Bool Lia.
Import ListNotations.
From Verif Require Import Base TextModel DisplayModel TermModel TripleModel UuidModel UuidSpec UuidProofs MapCallModel
  SetSpec ContainerSpec Machine BaseProofs BTreeDatasetModel BTreeDatasetProofs
  TermSpec TermProofs IsoModel IsoSpec IsoTopProofs RelabelSpec RelabelProofs MeaningSpec SkolemModel.
From Verif Require MapCallSpec MapCallProofs.
Open Scope list_scope.
Open Scope nat_scope.

(** ** The names *)
Notation names := (list (text * term)).
Lemma str_refl b : str_eqb b b = true.
Proof. now apply str_eqb_spec. Qed.

Lemma iri_of_none b (m : names) : iri_of b m = None <-> ~ In b (map fst m).
Proof.
  induction m as [|[k v] m IH]; cbn [iri_of map In fst]; [tauto|].
  destruct (str_eqb k b) eqn:E.
  - apply str_eqb_spec in E. split; [discriminate|tauto].
  - rewrite IH. split; [|tauto]. intros H [->|I]; [|tauto]. now rewrite str_refl in E.
Qed.
Lemma iri_of_in b c (m : names) : iri_of b m = Some c -> In (b, c) m.
Proof.
  induction m as [|[k v] m IH]; cbn [iri_of In]; [discriminate|].
  destruct (str_eqb k b) eqn:E; [|intros H; right; auto].
  apply str_eqb_spec in E as ->. intros H; inv H. now left.
Qed.
Lemma iri_of_app b (m m' : names) : In b (map fst m) -> iri_of b (m ++ m') = iri_of b m.
Proof.
  induction m as [|[k v] m IH]; cbn [map In app iri_of fst]; [tauto|].
  intros H. destruct (str_eqb k b) eqn:E; [reflexivity|]. apply IH.
  destruct H as [->|H]; [|exact H]. now rewrite str_refl in E.
Qed.
Lemma iri_of_known b (m : names) : In b (map fst m) -> exists c, iri_of b m = Some c.
Proof. intros H. destruct (iri_of b m) eqn:E; [eauto|]. now apply iri_of_none in E. Qed.
Lemma iri_of_intro b c (m : names) : NoDup (map fst m) -> In (b, c) m -> iri_of b m = Some c.
Proof.
  induction m as [|[k v] m IH]; cbn [map fst In iri_of]; [tauto|]. intros N H.
  inversion N as [|? ? I N']; subst. destruct H as [H|H].
  - inv H. now rewrite str_refl.
  - destruct (str_eqb k b) eqn:E; [|auto]. apply str_eqb_spec in E as ->.
    exfalso. apply I. now apply (in_map fst) in H.
Qed.

Definition named (m : names) (t : local_term) : local_term :=
  match t with
  | Anonymous b => match iri_of b m with Some c => Named c | None => t end
  | Named _ => t
  end.
Lemma named_app m m' t : (forall b, t = Anonymous b -> In b (map fst m)) ->
  named (m ++ m') t = named m t.
Proof. destruct t as [b|t]; cbn; [|reflexivity]. intros H. now rewrite (iri_of_app b m m' (H b eq_refl)). Qed.

Section Skolem.
  Context {md5 sha1 : bytes -> bytes}.
  Context (Hmd5 : forall b, is_uuid (md5 b)) (Hsha1 : forall b, is_uuid (firstn 16 (sha1 b))).
  Context (g : uuid_generator) {random : nat -> bytes} (Hr : forall n, is_uuid (random n)).
  Notation skolem_term := (skolem_term md5 sha1 g random).
  Notation next := (uuid_next_term md5 sha1 g).

  (** The names given so far, after the blank nodes [seen]. *)
  Definition given_iris (seen : list text) (m : names) : Prop :=
    map fst m = firsts seen /\ forall n b i, nth_error m n = Some (b, i) -> next (random n) = Some i.

  Lemma skolem_given t seen m : given_iris seen m ->
    exists t' m', skolem_term t (Some m) = (t', Some m') /\
      given_iris (seen ++ blank_names [t]) m' /\ (exists e, m' = m ++ e) /\ t' = named m' t.
  Proof.
    intros [F G]. destruct t as [b|t]; cbn [SkolemModel.skolem_term blank_names flat_map app].
    - destruct (iri_of b m) as [c|] eqn:E.
      + exists (Named c), m. split; [reflexivity|].
        assert (I : In b (firsts seen)).
        { rewrite <- F. destruct (in_dec (list_eq_dec N.eq_dec) b (map fst m)) as [I|I]; [exact I|].
          apply iri_of_none in I. congruence. }
        split; [|split; [exists []; now rewrite app_nil_r|cbn; now rewrite E]].
        split; [|exact G]. rewrite firsts_snoc. destruct (in_dec (list_eq_dec N.eq_dec) b (firsts seen)); [exact F|tauto].
      + assert (I : ~ In b (firsts seen)) by (rewrite <- F; now apply iri_of_none).
        assert (X : firsts (seen ++ [b]) = firsts seen ++ [b]).
        { rewrite firsts_snoc. destruct (in_dec (list_eq_dec N.eq_dec) b (firsts seen)); [tauto|reflexivity]. }
        destruct (next_term_ok md5 sha1 Hmd5 Hsha1 g (random (length m)) (Hr _)) as (i & u & E1 & _).
        rewrite E1. exists (Named (TIri i)), (m ++ [(b, TIri i)]). split; [reflexivity|]. split; [split|split].
        * rewrite map_app, X, F. reflexivity.
        * intros n b' i' Hn. destruct (Nat.lt_ge_cases n (length m)) as [L|L].
          -- rewrite nth_error_app1 in Hn by exact L. eauto.
          -- rewrite nth_error_app2 in Hn by exact L. destruct (n - length m) as [|k] eqn:K; cbn in Hn.
             ++ inv Hn. now replace n with (length m) by lia.
             ++ now destruct k.
        * eauto.
        * cbn. assert (Z : iri_of b (m ++ [(b, TIri i)]) = Some (TIri i)).
          { clear - E. induction m as [|[k v] m IH]; cbn in *.
            - now rewrite str_refl.
            - destruct (str_eqb k b); [discriminate|auto]. }
          now rewrite Z.
    - rewrite app_nil_r. exists (Named t), m. split; [reflexivity|]. split; [split; assumption|].
      split; [exists []; now rewrite app_nil_r|reflexivity].
  Qed.

  Lemma given_named ts seen m : given_iris (seen ++ blank_names ts) m ->
    forall e, map (named (m ++ e)) ts = map (named m) ts.
  Proof.
    intros [F _] e. apply map_ext_in. intros t Ht. apply named_app. intros b ->.
    rewrite F. apply in_firsts, in_app_iff. right. apply in_flat_map. exists (Anonymous b). now split; [|left].
  Qed.

  Lemma feed_skolem ts : forall seen m, given_iris seen m ->
    exists ts' m', MapCallSpec.feed skolem_term ts (Some m) = (ts', Some m') /\
      given_iris (seen ++ blank_names ts) m' /\ (exists e, m' = m ++ e) /\ ts' = map (named m') ts.
  Proof.
    induction ts as [|t ts IH]; intros seen m H.
    - exists [], m. cbn. rewrite app_nil_r. split; [reflexivity|]. split; [exact H|].
      split; [exists []; now rewrite app_nil_r|reflexivity].
    - cbn [MapCallSpec.feed]. destruct (skolem_given t _ _ H) as (t' & m1 & -> & G1 & [e ->] & ->).
      change (t :: ts) with ([t] ++ ts). rewrite blank_names_app, app_assoc.
      destruct (IH _ _ G1) as (us & m2 & -> & G2 & [e' ->] & ->).
      eexists _, _. split; [reflexivity|]. split; [exact G2|]. split; [exists (e ++ e'); now rewrite app_assoc|].
      rewrite map_app. rewrite (given_named [t] _ _ G1 e'). reflexivity.
  Qed.

  Lemma quad_skolem q seen m : given_iris seen m ->
    exists m', quad_mapm skolem_term q (Some m) = (qmap (named m') q, Some m') /\
      given_iris (seen ++ blank_names (quad_comps q)) m' /\ exists e, m' = m ++ e.
  Proof.
    intros H. destruct (quad_mapm skolem_term q (Some m)) as [q' st'] eqn:E.
    destruct (MapCallProofs.quad_mapm_feed _ _ _ _ _ E) as [X Y].
    change (MapCallSpec.quad_comps q) with (quad_comps q) in X.
    destruct (feed_skolem (quad_comps q) _ _ H) as (ts' & m' & R & G & Ex & Q).
    rewrite X in R. inv R. exists m'. split; [|split; assumption]. f_equal.
    match goal with Z : _ = map (named m') _ |- _ => rename Z into Q end.
    destruct q as [s p o [gr|]], q' as [s' p' o' [gr'|]]; cbn in Q, Y |- *; unfold qmap; cbn;
      injection Q; intros; subst; try reflexivity; try discriminate.
  Qed.

  Lemma named_quads l : forall seen m, given_iris (seen ++ blank_names (flat_map quad_comps l)) m ->
    forall e, map (qmap (named (m ++ e))) l = map (qmap (named m)) l.
  Proof.
    intros seen m H e. apply map_ext_in. intros q Hq.
    assert (X : forall t, In t (quad_comps q) -> named (m ++ e) t = named m t).
    { intros t Ht. apply named_app. intros b ->. destruct H as [-> _].
      apply in_firsts, in_app_iff. right. apply in_flat_map. exists (Anonymous b).
      split; [|now left]. apply in_flat_map. eauto. }
    destruct q as [s p o [gr|]]; unfold qmap; cbn in *; rewrite !X by tauto; reflexivity.
  Qed.

  Context {cmp : local_term -> local_term -> comparison} (L : ord_laws cmp) (keep : bool).
  Notation qcmp := (quad_cmp cmp).
  Let LQ : ord_laws qcmp := quad_cmp_laws cmp L.

  Lemma into_skolem l : forall seen m out s, given_iris seen m -> bd_rep (cmp:=cmp) out s ->
    exists out' m', skolem_into md5 sha1 g random cmp keep l m out = Some (out', m') /\
      given_iris (seen ++ blank_names (flat_map quad_comps l)) m' /\ (exists e, m' = m ++ e) /\
      bd_rep (cmp:=cmp) out' (fold_left (fun s q => add qcmp q s) (map (qmap (named m')) l) s).
  Proof.
    induction l as [|q l IH]; intros seen m out s G R; cbn [skolem_into flat_map map].
    - exists out, m. cbn. rewrite app_nil_r. split; [reflexivity|]. split; [exact G|].
      split; [exists []; now rewrite app_nil_r|exact R].
    - destruct (quad_skolem q _ _ G) as (m1 & -> & G1 & [e ->]). rewrite blank_names_app, app_assoc.
      destruct (bd_insert_rep L keep _ _ (qmap (named (m ++ e)) q) R) as (out1 & -> & R1).
      destruct (IH _ _ _ _ G1 R1) as (out2 & m2 & -> & G2 & [e' ->] & R2).
      eexists _, _. split; [reflexivity|]. split; [exact G2|]. split; [exists (e ++ e'); now rewrite app_assoc|].
      cbn [fold_left].
      replace (qmap (named ((m ++ e) ++ e')) q) with (qmap (named (m ++ e)) q); [exact R2|].
      assert (Z := named_quads [q] seen (m ++ e)). cbn [flat_map map] in Z.
      rewrite app_nil_r in Z. specialize (Z G1 e'). congruence.
  Qed.

  Lemma skolem_spec d s : bd_rep (cmp:=cmp) d s ->
    exists l d' m l', bd_iter d = Some l /\ NoDup l /\
      skolemise md5 sha1 g random cmp keep d = Some (d', m) /\
      given_iris (blank_names (flat_map quad_comps l)) m /\
      bd_iter d' = Some l' /\ NoDup l' /\ (forall q, In q l' <-> In q (map (qmap (named m)) l)).
  Proof.
    intros R. exists (sorted_elements qcmp s). unfold skolemise. rewrite (bd_iter_rep _ _ R).
    assert (G : given_iris [] []) by (split; [reflexivity|]; intros [|n] ? ? H; discriminate).
    destruct (into_skolem (sorted_elements qcmp s) _ _ _ _ G (bd_rep_new (cmp:=cmp))) as (d' & m & -> & G' & _ & R').
    eexists d', m, _. split; [reflexivity|].
    split; [apply (ssorted_nodup LQ), (sorted_elements_sorted LQ), R|]. split; [reflexivity|]. split; [exact G'|].
    split; [exact (bd_iter_rep _ _ R')|]. split; [apply (ssorted_nodup LQ), (sorted_elements_sorted LQ), R'|].
    intros q. rewrite in_sorted_elements. rewrite (in_fold_add L). cbn; tauto.
  Qed.

  (** *** The way back *)
  Context {iri_eqb tag_eqb : text -> text -> bool}.
  Lemma restore_into_rep m l : forall out s, bd_rep (cmp:=cmp) out s ->
    exists out', restore_into cmp keep iri_eqb tag_eqb l m out = Some out' /\
      bd_rep (cmp:=cmp) out' (fold_left (fun s q => add qcmp q s) (map (qmap (restore_term iri_eqb tag_eqb m)) l) s).
  Proof.
    induction l as [|q l IH]; intros out s R; cbn [restore_into map fold_left]; [eauto|].
    replace (quad_map (restore_term iri_eqb tag_eqb m) q) with (qmap (restore_term iri_eqb tag_eqb m) q)
      by now destruct q as [? ? ? [?|]].
    destruct (bd_insert_rep L keep _ _ (qmap (restore_term iri_eqb tag_eqb m) q) R) as (out1 & -> & R1).
    exact (IH _ _ R1).
  Qed.
End Skolem.

(** ** The meaning and the way back *)
Lemma nodup_named (m : names) a b c :
  NoDup (map snd m) -> In (a, c) m -> In (b, c) m -> a = b.
Proof.
  induction m as [|[k v] m IH]; cbn [map snd In]; [tauto|]. intros N A B.
  inversion N as [|? ? I N']; subst.
  destruct A as [A|A], B as [B|B].
  - congruence.
  - inv A. exfalso. apply I. now apply (in_map snd) in B.
  - inv B. exfalso. apply I. now apply (in_map snd) in A.
  - now apply IH.
Qed.

Lemma qmap_comp {A B C} (f : A -> B) (h : B -> C) q : qmap h (qmap f q) = qmap (fun x => h (f x)) q.
Proof. now destruct q as [s p o [gr|]]. Qed.
Lemma qmap_same {A B} (f h : A -> B) q : (forall t, In t (quad_comps q) -> f t = h t) -> qmap f q = qmap h q.
Proof. intros H. destruct q as [s p o [gr|]]; unfold qmap; cbn in *; rewrite !H by tauto; reflexivity. Qed.
Lemma qmap_id {A} (q : quad A) : qmap (fun x => x) q = q.
Proof. now destruct q as [s p o [gr|]]. Qed.

Section Meaning.
  Context (l l' : list (quad local_term)) (m : names).
  Context (F : map fst m = met l).
  Context (M : forall q, In q l' <-> In q (map (qmap (named m)) l)).
  Notation anon := local_is_anonymous.

  Lemma known_iri b q : In q l -> In (Anonymous b) (quad_comps q) -> exists i, iri_of b m = Some i.
  Proof.
    intros Hq Hb. apply iri_of_known. rewrite F. apply met_in. split; [reflexivity|eauto].
  Qed.
  Lemma met_nodup : NoDup (map fst m).
  Proof. rewrite F. apply firsts_nodup. Qed.

  Lemma no_blank x : ~ blank_of anon l' x.
  Proof.
    intros [B (q & Hq & Hx)]. apply M, in_map_iff in Hq as (p & <- & Hp).
    rewrite comps_qmap in Hx. apply in_map_iff in Hx as (y & <- & Hy). destruct y as [b|t]; [|discriminate].
    destruct (known_iri b p Hp Hy) as [i E]. cbn in B. rewrite E in B. discriminate.
  Qed.

  Lemma skolem_implies W : true_in W l' -> true_in W l.
  Proof.
    intros [a H]. exists (fun b => match iri_of b m with Some i => denotes W i | None => a b end).
    intros q Hq. assert (I : In (qmap (named m) q) l') by (apply M; now apply in_map).
    specialize (H _ I).
    assert (X : forall t, In t (quad_comps q) -> thing_of W a (named m t) =
      thing_of W (fun b => match iri_of b m with Some i => denotes W i | None => a b end) t).
    { intros [b|t] Ht; [|reflexivity]. destruct (known_iri b q Hq Ht) as [i E]. cbn. now rewrite E. }
    destruct q as [s p o [gr|]]; cbn in H, X |- *; rewrite !X in H by tauto; exact H.
  Qed.

  Context (N : NoDup (map snd m)).
  Context (O : forall i q, In i (map snd m) -> In q l -> ~ In (Named i) (quad_comps q)).

  Context {iri_eqb tag_eqb : text -> text -> bool}.
  Context (EI : forall x y, iri_eqb x y = true <-> x = y) (ET : forall x y, tag_eqb x y = true <-> x = y).

  Lemma term_eqb_eq a b : term_eqb iri_eqb tag_eqb a b = true <-> a = b.
  Proof.
    destruct a as [x|[x k]], b as [y|[y j]]; cbn; try (split; congruence).
    - rewrite EI. split; congruence.
    - unfold literal_eqb. cbn. rewrite andb_true_iff, str_eqb_spec.
      destruct k, j; cbn; rewrite ?EI, ?ET; split; intuition congruence.
  Qed.

  Lemma blank_for_none n (k : names) : blank_for iri_eqb tag_eqb n k = None <-> ~ In n (map snd k).
  Proof.
    induction k as [|[b v] k IH]; cbn [blank_for map snd In]; [tauto|].
    destruct (term_eqb iri_eqb tag_eqb v n) eqn:E.
    - apply term_eqb_eq in E. split; [discriminate|tauto].
    - rewrite IH. split; [|tauto]. intros H [->|I]; [|tauto].
      now rewrite (proj2 (term_eqb_eq n n) eq_refl) in E.
  Qed.
  Lemma blank_for_in n b (k : names) : blank_for iri_eqb tag_eqb n k = Some b -> In (b, n) k.
  Proof.
    induction k as [|[c v] k IH]; cbn [blank_for In]; [discriminate|].
    destruct (term_eqb iri_eqb tag_eqb v n) eqn:E; [|intros H; right; auto].
    apply term_eqb_eq in E as ->. intros H; inv H. now left.
  Qed.
  Lemma blank_for_known b n : In (b, n) m -> blank_for iri_eqb tag_eqb n m = Some b.
  Proof.
    intros H. destruct (blank_for iri_eqb tag_eqb n m) as [c|] eqn:E.
    - apply blank_for_in in E. f_equal. eapply nodup_named; eauto.
    - apply blank_for_none in E. exfalso; apply E. now apply (in_map snd) in H.
  Qed.

  Lemma back_and_forth q t : In q l -> In t (quad_comps q) -> restore_term iri_eqb tag_eqb m (named m t) = t.
  Proof.
    intros Hq Ht. destruct t as [b|t].
    - destruct (known_iri b q Hq Ht) as [i E]. cbn. rewrite E. cbn.
      now rewrite (blank_for_known b i (iri_of_in _ _ _ E)).
    - cbn. destruct (blank_for iri_eqb tag_eqb t m) as [b|] eqn:E; [|reflexivity].
      exfalso. apply blank_for_in, (in_map snd) in E. exact (O _ _ E Hq Ht).
  Qed.
  Lemma restored_quad q : In q l -> qmap (restore_term iri_eqb tag_eqb m) (qmap (named m) q) = q.
  Proof.
    intros Hq. rewrite qmap_comp. transitivity (qmap (fun x => x) q); [|apply qmap_id].
    apply qmap_same. intros t Ht. now apply back_and_forth with (q := q).
  Qed.
  Lemma restored_in q : In q (map (qmap (restore_term iri_eqb tag_eqb m)) l') <-> In q l.
  Proof.
    rewrite in_map_iff. split.
    - intros (p & <- & Hp). apply M, in_map_iff in Hp as (r & <- & Hr'). now rewrite restored_quad.
    - intros H. exists (qmap (named m) q). split; [now apply restored_quad|]. apply M. now apply in_map.
  Qed.

  Lemma skolem_length : NoDup l -> NoDup l' -> length l' = length l.
  Proof.
    intros A B. apply Nat.le_antisymm.
    - rewrite <- (map_length (qmap (named m)) l). apply NoDup_incl_length; [exact B|]. intros q Hq. now apply M.
    - rewrite <- (map_length (qmap (restore_term iri_eqb tag_eqb m)) l').
      apply NoDup_incl_length; [exact A|]. intros q Hq. now apply restored_in.
  Qed.

  Lemma skolem_world W : true_in W l -> exists den,
    (forall t, ~ In t (map snd m) -> den t = denotes W t) /\ true_in (World (thing W) den (holds W)) l'.
  Proof.
    intros [a H].
    exists (fun t => match blank_for iri_eqb tag_eqb t m with Some b => a b | None => denotes W t end). split.
    - intros t Ht. apply blank_for_none in Ht. now rewrite Ht.
    - exists a. intros q Hq. apply M, in_map_iff in Hq as (p & <- & Hp). specialize (H p Hp).
      set (W' := World _ _ _).
      assert (X : forall t, In t (quad_comps p) -> thing_of W' a (named m t) = thing_of W a t).
      { intros [b|t] Ht; cbn.
        - destruct (known_iri b p Hp Ht) as [i E]. rewrite E. cbn.
          now rewrite (blank_for_known b i (iri_of_in _ _ _ E)).
        - destruct (blank_for iri_eqb tag_eqb t m) as [b|] eqn:E; [|reflexivity].
          exfalso. apply blank_for_in, (in_map snd) in E. exact (O _ _ E Hp Ht). }
      destruct p as [s p o [gr|]]; cbn in H, X |- *; rewrite !X by tauto; exact H.
  Qed.
End Meaning.

(** ** Programs *)
Section Programs.
  Context {iri_eqb tag_eqb : text -> text -> bool} {iri_cmp tag_cmp : text -> text -> comparison}.
  Context (LI : ord_laws iri_cmp) (LT : ord_laws tag_cmp).
  Context (EI : forall x y, iri_eqb x y = true <-> x = y) (ET : forall x y, tag_eqb x y = true <-> x = y).
  Context {md5 sha1 : bytes -> bytes}.
  Context (Hmd5 : forall b, is_uuid (md5 b)) (Hsha1 : forall b, is_uuid (firstn 16 (sha1 b))).
  Context {g : uuid_generator} {random : nat -> bytes} (Hr : forall n, is_uuid (random n)).
  Context {keep : bool}.
  Notation cmp := (local_cmp iri_cmp tag_cmp).
  Notation LO := (local_ord LI LT EI ET).
  Notation anon := local_is_anonymous.
  Notation skolemise := (skolemise md5 sha1 g random cmp keep).

  Lemma skolem_any ops xs d l :
    run (bd_step cmp keep) bd_new ops = Some (xs, d) -> bd_iter d = Some l ->
    exists d' m l', skolemise d = Some (d', m) /\ NoDup l /\ ssorted (cmp:=quad_cmp cmp) l /\
      map fst m = met l /\
      (forall n b i, nth_error m n = Some (b, i) -> uuid_next_term md5 sha1 g (random n) = Some i) /\
      bd_iter d' = Some l' /\ NoDup l' /\ (forall q, In q l' <-> In q (map (qmap (named m)) l)).
  Proof.
    intros H Hl. pose proof (bd_run_rep_new LO keep ops xs d H) as R.
    destruct (skolem_spec Hmd5 Hsha1 g Hr LO keep d _ R) as (l0 & d' & m & l' & A & Nl & E & [F G] & I & N' & M).
    rewrite Hl in A. inv A. exists d', m, l'. split; [exact E|]. split; [exact Nl|]. split; [|tauto].
    rewrite (bd_iter_rep _ _ R) in Hl. inv Hl. apply (sorted_elements_sorted (quad_cmp_laws cmp LO)), R.
  Qed.

  Lemma skolemised ops xs d l :
    run (bd_step cmp keep) bd_new ops = Some (xs, d) -> bd_iter d = Some l ->
    exists d' m l' h, skolemise d = Some (d', m) /\ bd_iter d' = Some l' /\ map fst m = met l /\
      (forall n b i, nth_error m n = Some (b, i) -> uuid_next_term md5 sha1 g (random n) = Some i) /\
      (forall b i, In (b, i) m -> h (Anonymous b) = Named i) /\ (forall t, h (Named t) = Named t) /\
      (forall q, In q l' <-> exists p, In p l /\ q = qmap h p) /\
      (forall x, ~ blank_of anon l' x) /\
      (forall W, true_in W l' -> true_in W l).
  Proof.
    intros H Hl. destruct (skolem_any _ _ _ _ H Hl) as (d' & m & l' & E & Nl & _ & F & G & I & N' & M).
    exists d', m, l', (named m). split; [exact E|]. split; [exact I|]. split; [exact F|]. split; [exact G|].
    split. { intros b i Hb. cbn. now rewrite (iri_of_intro b i m (met_nodup l m F) Hb). }
    split; [reflexivity|]. split.
    { intros q. rewrite M, in_map_iff. split; intros (p & A & B); eauto. }
    split; [exact (no_blank l l' m F M)|]. exact (skolem_implies l l' m F M).
  Qed.

  Lemma skolem_restored ops xs d l d' m :
    run (bd_step cmp keep) bd_new ops = Some (xs, d) -> bd_iter d = Some l ->
    skolemise d = Some (d', m) ->
    NoDup (map snd m) -> (forall i q, In i (map snd m) -> In q l -> ~ In (Named i) (quad_comps q)) ->
    exists l' d'', bd_iter d' = Some l' /\ length l' = length l /\
      restore cmp keep iri_eqb tag_eqb d' m = Some d'' /\ bd_iter d'' = Some l /\
      forall W, true_in W l -> exists den,
        (forall t, ~ In t (map snd m) -> den t = denotes W t) /\
        true_in (World (thing W) den (holds W)) l'.
  Proof.
    intros H Hl E N O.
    destruct (skolem_any _ _ _ _ H Hl) as (d0 & m0 & l' & E' & Nl & SL & F & G & I & N' & M).
    rewrite E in E'. inv E'. exists l'.
    destruct (restore_into_rep LO keep (iri_eqb:=iri_eqb) (tag_eqb:=tag_eqb) m0 l' bd_new [] (bd_rep_new (cmp:=cmp)))
      as (d'' & X & R). exists d''.
    split; [exact I|]. split; [exact (skolem_length l l' m0 F M N O EI ET Nl N')|].
    split; [unfold restore; now rewrite I|]. split; [|exact (skolem_world l l' m0 F M N O EI ET)].
    rewrite (bd_iter_rep _ _ R). f_equal. apply (ssorted_ext (quad_cmp_laws cmp LO)).
    - apply (sorted_elements_sorted (quad_cmp_laws cmp LO)), R.
    - exact SL.
    - intros q. rewrite in_sorted_elements, (in_fold_add LO). cbn [In].
      rewrite (restored_in l l' m0 F M N O EI ET). tauto.
  Qed.
  (** The names, all of one generator. *)
  Lemma names_list (m : names) k :
    (forall n b i, nth_error m n = Some (b, i) -> uuid_next_term md5 sha1 g (random (k + n)) = Some i) ->
    uuid_terms md5 sha1 g (map random (seq k (length m))) = Some (map snd m).
  Proof.
    revert k. induction m as [|[b i] m IH]; intros k H; [reflexivity|].
    cbn [length seq map uuid_terms snd]. assert (E := H 0 b i eq_refl). rewrite Nat.add_0_r in E. rewrite E.
    rewrite IH; [reflexivity|]. intros n b' i' Hn. rewrite <- (H (Datatypes.S n) b' i' Hn). f_equal. f_equal. lia.
  Qed.
  Lemma randoms_uuid k n : Forall is_uuid (map random (seq k n)).
  Proof. apply Forall_forall. intros x Hx. apply in_map_iff in Hx as (y & <- & _). apply Hr. Qed.

  Lemma skolem_names ops xs d l d' m :
    run (bd_step cmp keep) bd_new ops = Some (xs, d) -> bd_iter d = Some l ->
    skolemise d = Some (d', m) ->
    uuid_terms md5 sha1 g (map random (seq 0 (length (met l)))) = Some (map snd m) /\
    (g = V4 -> (NoDup (map snd m) <-> NoDup (map free_bits (map random (seq 0 (length (met l))))))) /\
    (g <> V4 -> exists t, map snd m = repeat t (length (met l))).
  Proof.
    intros H Hl E. destruct (skolem_any _ _ _ _ H Hl) as (d0 & m0 & l' & E' & _ & _ & F & G & _).
    rewrite E in E'. inv E'. assert (Y : length (met l) = length m0) by (rewrite <- F; apply map_length).
    rewrite Y. assert (X := names_list m0 0 G). split; [exact X|]. split.
    - intros ->. destruct (random_fresh md5 sha1 Hmd5 Hsha1 _ (randoms_uuid 0 (length m0))) as (ts & A & B).
      rewrite X in A. inv A. exact B.
    - intros Hg. destruct (named_same md5 sha1 Hmd5 Hsha1 g _ Hg (randoms_uuid 0 (length m0))) as (t & A).
      rewrite X in A. exists t. rewrite map_length, seq_length in A. congruence.
  Qed.
  (** A generator that returns the same IRI at every call. *)
  Definition x_iri (c : N) : local_term := Named (TIri [c]).
  Definition x_blank (c : N) : local_term := Anonymous [c].
  Definition x_list : list (quad local_term) :=
    [Quad (x_blank 97) (x_iri 112) (x_iri 112) None; Quad (x_blank 98) (x_iri 113) (x_iri 112) None;
     Quad (x_blank 97) (x_iri 114) (x_iri 112) None; Quad (x_blank 98) (x_iri 114) (x_iri 112) None].
  Definition x_world : world :=
    World term (fun t => t) (fun q =>
      (q_p q = TIri [112%N] -> q_s q = TIri [112%N]) /\ (q_p q = TIri [113%N] -> q_s q = TIri [113%N])).

  Lemma skolem_collapse : g <> V4 ->
    exists ops xs d l d' m l',
      run (bd_step cmp keep) bd_new ops = Some (xs, d) /\ bd_iter d = Some l /\
      skolemise d = Some (d', m) /\ bd_iter d' = Some l' /\ length l' < length l /\
      exists W, true_in W l /\ forall den, (forall t, ~ In t (map snd m) -> den t = denotes W t) ->
        ~ true_in (World (thing W) den (holds W)) l'.
  Proof.
    intros Hg. destruct (bd_run_ok LO keep [Extend x_list]) as (d & H).
    destruct (bd_iteration LO keep _ _ _ H) as (l & Hl & _ & _ & Il).
    assert (K : forall q, In q l <-> In q x_list).
    { intros q. rewrite Il. change (spec_set (quad_cmp cmp) [Extend x_list])
        with (fold_left (fun s q => add (quad_cmp cmp) q s) x_list []). rewrite (in_fold_add LO). cbn [In]. tauto. }
    destruct (skolem_any _ _ _ _ H Hl) as (d' & m & l' & E & Nl & _ & F & G & I & N' & M).
    destruct (skolem_names _ _ _ _ _ _ H Hl E) as (_ & _ & S'). destruct (S' Hg) as (t & T).
    assert (A : forall c, In c [97%N; 98%N] -> iri_of [c] m = Some t).
    { intros c Hc. assert (B : In [c] (map fst m)).
      { rewrite F. apply met_in. split; [reflexivity|].
        destruct Hc as [<-|[<-|[]]].
        - exists (Quad (x_blank 97) (x_iri 112) (x_iri 112) None). split; [apply K; cbn; tauto|cbn; tauto].
        - exists (Quad (x_blank 98) (x_iri 113) (x_iri 112) None). split; [apply K; cbn; tauto|cbn; tauto]. }
      destruct (iri_of_known _ _ B) as [i Ei]. rewrite Ei. f_equal.
      apply iri_of_in, (in_map snd) in Ei. rewrite T in Ei. now apply repeat_spec in Ei. }
    assert (A1 := A 97%N ltac:(cbn; tauto)). assert (A2 := A 98%N ltac:(cbn; tauto)).
    assert (Z : forall c, ~ In (TIri [c]) (map snd m)).
    { intros c Hc. apply in_map_iff in Hc as ([b i] & Ei & Hb). cbn in Ei. subst i.
      apply In_nth_error in Hb as [n Hn]. apply G in Hn.
      destruct (next_term_ok md5 sha1 Hmd5 Hsha1 g (random n) (Hr n)) as (t' & u & X & _ & _ & _ & _ & _ & Len & _).
      rewrite Hn in X. inv X. discriminate. }
    assert (Q : forall q, In q l' <-> In q [Quad (Named t) (x_iri 112) (x_iri 112) None;
       Quad (Named t) (x_iri 113) (x_iri 112) None; Quad (Named t) (x_iri 114) (x_iri 112) None]).
    { intros q. rewrite M. transitivity (In q (map (qmap (named m)) x_list)).
      - rewrite !in_map_iff. split; intros (p & B & C); exists p; split; auto; now apply K.
      - unfold x_list, qmap. cbn [map q_s q_p q_o q_g named x_blank x_iri option_map]. rewrite A1, A2. cbn [In]. tauto. }
    exists [Extend x_list], (spec_outs (quad_cmp cmp) [Extend x_list]), d, l, d', m, l'.
    split; [exact H|]. split; [exact Hl|]. split; [exact E|]. split; [exact I|]. split.
    { apply (Nat.le_lt_trans _ 3).
      - eapply (NoDup_incl_length N' (l' := [_; _; _])). intros q. exact (proj1 (Q q)).
      - apply (Nat.lt_le_trans _ 4); [lia|]. change 4 with (length x_list). apply NoDup_incl_length.
        + unfold x_list. repeat (constructor; [cbn; intuition discriminate|]). constructor.
        + intros q. exact (proj2 (K q)). }
    exists x_world. split.
    - exists (fun b => match b with [97%N] => TIri [112%N] | _ => TIri [113%N] end).
      intros q Hq. apply K in Hq. cbn in Hq. destruct Hq as [<-|[<-|[<-|[<-|[]]]]]; cbn; split; intros; congruence.
    - intros den D [a X].
      assert (X1 := X _ (proj2 (Q (Quad (Named t) (x_iri 112) (x_iri 112) None)) ltac:(cbn; tauto))).
      assert (X2 := X _ (proj2 (Q (Quad (Named t) (x_iri 113) (x_iri 112) None)) ltac:(cbn; tauto))).
      cbn in X1, X2. destruct X1 as [X1 _], X2 as [_ X2].
      specialize (X1 (D _ (Z 112%N))). specialize (X2 (D _ (Z 113%N))). cbn in *. congruence.
  Qed.
End Programs.
