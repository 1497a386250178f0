(** Giving new names to the blank nodes of a dataset. *)
From Coq Require Import List Arith NArith Bool Lia.
Import ListNotations.
From Verif Require Import Base TextModel DisplayModel TermModel TripleModel BlankIdModel MapCallModel
  SetSpec ContainerSpec Machine BaseProofs BTreeDatasetModel BTreeDatasetProofs BlankIdProofs
  TermSpec TermProofs IsoModel IsoSpec IsoTopProofs RelabelModel RelabelSpec.
From Verif Require MapCallSpec MapCallProofs.

(** ** First occurrences *)
Lemma in_firsts_from l : forall seen b,
  In b (fold_left (fun seen b => if in_dec (list_eq_dec N.eq_dec) b seen then seen else seen ++ [b]) l seen)
  <-> In b seen \/ In b l.
Proof.
  induction l as [|x l IH]; intros seen b; cbn [fold_left]; [cbn; tauto|].
  rewrite IH. destruct (in_dec (list_eq_dec N.eq_dec) x seen) as [I|I]; cbn [In].
  - intuition congruence.
  - rewrite in_app_iff; cbn [In]; intuition.
Qed.
Lemma in_firsts l b : In b (firsts l) <-> In b l.
Proof. unfold firsts. rewrite in_firsts_from. cbn; tauto. Qed.
Lemma firsts_snoc l b : firsts (l ++ [b]) =
  if in_dec (list_eq_dec N.eq_dec) b (firsts l) then firsts l else firsts l ++ [b].
Proof. unfold firsts. now rewrite fold_left_app. Qed.
Lemma firsts_length l m : length (firsts l) <= length (firsts (l ++ m)).
Proof.
  induction m as [|b m IH] using rev_ind; [now rewrite app_nil_r|].
  rewrite app_assoc, firsts_snoc. destruct (in_dec (list_eq_dec N.eq_dec) b _); [exact IH|]. rewrite app_length; lia.
Qed.
Lemma firsts_nodup l : NoDup (firsts l).
Proof.
  induction l as [|b l IH] using rev_ind; [constructor|].
  rewrite firsts_snoc. destruct (in_dec (list_eq_dec N.eq_dec) b _) as [I|I]; [exact IH|].
  rewrite <- (rev_involutive (firsts l ++ [b])). apply NoDup_rev. rewrite rev_app_distr. cbn.
  constructor; [now rewrite <- in_rev|]. now apply NoDup_rev.
Qed.

(** ** The generator *)
Lemma generate_app max checked n : forall m g l g' l' g'',
  generate max checked n g = Some (l, g') -> generate max checked m g' = Some (l', g'') ->
  generate max checked (n + m) g = Some (l ++ l', g'').
Proof.
  induction n as [|n IH]; intros m g l g' l' g'' H H'; cbn [generate Nat.add] in *.
  - now inv H.
  - destruct (next_blank_id max checked g) as [[i g1]|]; [|discriminate].
    destruct (generate max checked n g1) as [[k g2]|] eqn:E; [|discriminate]. inv H.
    now rewrite (IH _ _ _ _ _ _ E H').
Qed.
Lemma generate_stop max checked n : forall m g l g',
  generate max checked n g = Some (l, g') -> generate max checked m g' = None ->
  generate max checked (n + m) g = None.
Proof.
  induction n as [|n IH]; intros m g l g' H H'; cbn [generate Nat.add] in *.
  - now inv H.
  - destruct (next_blank_id max checked g) as [[i g1]|]; [|discriminate].
    destruct (generate max checked n g1) as [[k g2]|] eqn:E; [|discriminate]. inv H.
    now rewrite (IH _ _ _ _ E H').
Qed.
Lemma generate_none_le max checked n : forall m g,
  generate max checked n g = None -> n <= m -> generate max checked m g = None.
Proof.
  induction n as [|n IH]; intros m g H L; cbn [generate] in *; [discriminate|].
  destruct m as [|m]; [lia|]. cbn [generate].
  destruct (next_blank_id max checked g) as [[i g1]|]; [|reflexivity].
  destruct (generate max checked n g1) as [[k g2]|] eqn:E; [discriminate|].
  now rewrite (IH m g1 E ltac:(lia)).
Qed.
Lemma generate_len max checked n : forall g l g',
  generate max checked n g = Some (l, g') -> length l = n.
Proof.
  induction n as [|n IH]; intros g l g' H; cbn [generate] in H; [now inv H|].
  destruct (next_blank_id max checked g) as [[i g1]|]; [|discriminate].
  destruct (generate max checked n g1) as [[k g2]|] eqn:E; [|discriminate]. inv H.
  cbn. f_equal. exact (IH _ _ _ E).
Qed.

(** ** The names *)
Lemma name_of_none b m : name_of b m = None <-> ~ In b (map fst m).
Proof.
  induction m as [|[k v] m IH]; cbn [name_of map In fst]; [tauto|].
  destruct (str_eqb k b) eqn:E.
  - apply str_eqb_spec in E. split; [discriminate|tauto].
  - rewrite IH. split; [|tauto]. intros H [->|I]; [|tauto].
    now rewrite (proj2 (str_eqb_spec b b) eq_refl) in E.
Qed.
Lemma name_of_in b c m : name_of b m = Some c -> In (b, c) m.
Proof.
  induction m as [|[k v] m IH]; cbn [name_of In]; [discriminate|].
  destruct (str_eqb k b) eqn:E; [|intros H; right; auto].
  apply str_eqb_spec in E as ->. intros H; inv H. now left.
Qed.
Lemma name_of_app b m m' : In b (map fst m) -> name_of b (m ++ m') = name_of b m.
Proof.
  induction m as [|[k v] m IH]; cbn [map In app name_of fst]; [tauto|].
  intros H. destruct (str_eqb k b) eqn:E; [reflexivity|]. apply IH.
  destruct H as [->|H]; [|exact H]. now rewrite (proj2 (str_eqb_spec b b) eq_refl) in E.
Qed.
Lemma name_of_nth m : NoDup (map fst m) -> forall n b c,
  nth_error (map fst m) n = Some b -> nth_error (map snd m) n = Some c -> name_of b m = Some c.
Proof.
  induction m as [|[k v] m IH]; intros N n b c; destruct n as [|n]; cbn; try discriminate.
  - intros H H'; inv H; inv H'. now rewrite (proj2 (str_eqb_spec b b) eq_refl).
  - cbn in N. inversion N as [|? ? I N']; subst. intros H H'.
    destruct (str_eqb k b) eqn:E; [|eauto]. apply str_eqb_spec in E as ->.
    exfalso. apply I. eapply nth_error_In; exact H.
Qed.

Definition rename (m : list (text * text)) (t : local_term) : local_term :=
  match t with
  | Anonymous b => match name_of b m with Some c => Anonymous c | None => t end
  | Named _ => t
  end.

Lemma rename_app m m' t : (forall b, t = Anonymous b -> In b (map fst m)) ->
  rename (m ++ m') t = rename m t.
Proof. destruct t as [b|t]; cbn; [|reflexivity]. intros H. now rewrite (name_of_app b m m' (H b eq_refl)). Qed.

Section Relabel.
  Context (max : N) (checked : bool) (g0 : generator).
  Notation generate := (generate max checked).
  Notation relabel_term := (relabel_term max checked).

  (** The names given so far and the generator, after the blank nodes [seen]. *)
  Definition given (seen : list text) (g : generator) (m : list (text * text)) : Prop :=
    map fst m = firsts seen /\ generate (length m) g0 = Some (map snd m, g).

  Lemma feed_none ts : forall ts' st', MapCallSpec.feed relabel_term ts None = (ts', st') -> st' = None.
  Proof.
    induction ts as [|t ts IH]; intros ts' st' H; cbn in H; [now inv H|].
    replace (relabel_term t None) with (t, @None (generator * list (text * text))) in H
      by now destruct t.
    destruct (MapCallSpec.feed relabel_term ts None) as [us st2] eqn:E. inv H. eauto.
  Qed.

  Lemma term_given t seen g m : given seen g m ->
    match relabel_term t (Some (g, m)) with
    | (t', Some (g', m')) =>
        given (seen ++ blank_names [t]) g' m' /\ (exists e, m' = m ++ e) /\ t' = rename m' t
    | (_, None) => generate (length (firsts (seen ++ blank_names [t]))) g0 = None
    end.
  Proof.
    intros [F G]. destruct t as [b|t]; cbn [relabel_term RelabelModel.relabel_term blank_names flat_map app].
    - rewrite ?app_nil_r. destruct (name_of b m) as [c|] eqn:E.
      + assert (I : In b (firsts seen)).
        { rewrite <- F. destruct (in_dec (list_eq_dec N.eq_dec) b (map fst m)) as [I|I]; [exact I|].
          apply name_of_none in I. congruence. }
        split; [|split; [exists []; now rewrite app_nil_r|cbn; now rewrite E]].
        split; [|exact G]. rewrite firsts_snoc. destruct (in_dec (list_eq_dec N.eq_dec) b (firsts seen)); [exact F|tauto].
      + assert (I : ~ In b (firsts seen)) by (rewrite <- F; now apply name_of_none).
        assert (X : firsts (seen ++ [b]) = firsts seen ++ [b]).
        { rewrite firsts_snoc. destruct (in_dec (list_eq_dec N.eq_dec) b (firsts seen)); [tauto|reflexivity]. }
        assert (Y : length (firsts seen) = length m) by (rewrite <- F; apply map_length).
        destruct (next_blank_id max checked g) as [[c g']|] eqn:N.
        * split; [split|split].
          -- rewrite map_app, X, F. reflexivity.
          -- rewrite app_length, map_app. eapply generate_app; [exact G|]. cbn. now rewrite N.
          -- eauto.
          -- cbn. assert (Z : name_of b (m ++ [(b, c)]) = Some c).
             { clear - E. induction m as [|[k v] m IH]; cbn in *.
               - now rewrite (proj2 (str_eqb_spec b b) eq_refl).
               - destruct (str_eqb k b); [discriminate|auto]. }
             now rewrite Z.
        * rewrite X, app_length, Y. eapply generate_stop; [exact G|]. cbn. now rewrite N.
    - rewrite app_nil_r. split; [split; assumption|]. split; [exists []; now rewrite app_nil_r|reflexivity].
  Qed.

  Lemma given_rename ts seen g m : given (seen ++ blank_names ts) g m ->
    forall e, map (rename (m ++ e)) ts = map (rename m) ts.
  Proof.
    intros [F _] e. apply map_ext_in. intros t Ht. apply rename_app. intros b ->.
    rewrite F. apply in_firsts, in_app_iff. right. apply in_flat_map. exists (Anonymous b). now split; [|left].
  Qed.

  Lemma blank_names_app a b : blank_names (a ++ b) = blank_names a ++ blank_names b.
  Proof. apply flat_map_app. Qed.

  Lemma feed_given ts : forall seen g m, given seen g m ->
    match MapCallSpec.feed relabel_term ts (Some (g, m)) with
    | (ts', Some (g', m')) =>
        given (seen ++ blank_names ts) g' m' /\ (exists e, m' = m ++ e) /\ ts' = map (rename m') ts
    | (_, None) => generate (length (firsts (seen ++ blank_names ts))) g0 = None
    end.
  Proof.
    induction ts as [|t ts IH]; intros seen g m H.
    - cbn. rewrite app_nil_r. split; [exact H|]. split; [exists []; now rewrite app_nil_r|reflexivity].
    - cbn [MapCallSpec.feed]. pose proof (term_given t _ _ _ H) as T.
      change (t :: ts) with ([t] ++ ts). rewrite blank_names_app, app_assoc.
      destruct (relabel_term t (Some (g, m))) as [t' [[g1 m1]|]].
      + destruct T as (G1 & [e ->] & ->). pose proof (IH _ _ _ G1) as R.
        destruct (MapCallSpec.feed relabel_term ts (Some (g1, m ++ e))) as [us [[g2 m2]|]]; [|exact R].
        destruct R as (G2 & [e' ->] & ->). split; [exact G2|]. split; [exists (e ++ e'); now rewrite app_assoc|].
        rewrite map_app. rewrite (given_rename [t] _ _ _ G1 e'). reflexivity.
      + destruct (MapCallSpec.feed relabel_term ts None) as [us st] eqn:E.
        rewrite (feed_none _ _ _ E). eapply generate_none_le; [exact T|]. apply firsts_length.
  Qed.

  Lemma quad_given q seen g m : given seen g m ->
    match quad_mapm relabel_term q (Some (g, m)) with
    | (q', Some (g', m')) =>
        given (seen ++ blank_names (quad_comps q)) g' m' /\ (exists e, m' = m ++ e) /\
        q' = qmap (rename m') q
    | (_, None) => generate (length (firsts (seen ++ blank_names (quad_comps q)))) g0 = None
    end.
  Proof.
    intros H. destruct (quad_mapm relabel_term q (Some (g, m))) as [q' st'] eqn:E.
    destruct (MapCallProofs.quad_mapm_feed _ _ _ _ _ E) as [X Y].
    change (MapCallSpec.quad_comps q) with (quad_comps q) in X.
    pose proof (feed_given (quad_comps q) _ _ _ H) as R. rewrite X in R.
    destruct st' as [[g' m']|]; [|exact R]. destruct R as (G & Ex & Q). split; [exact G|]. split; [exact Ex|].
    destruct q as [s p o [gr|]], q' as [s' p' o' [gr'|]]; cbn in Q, Y |- *; unfold qmap; cbn;
      injection Q; intros; subst; try reflexivity; try discriminate.
  Qed.

  Lemma rename_quads l : forall seen g m, given (seen ++ blank_names (flat_map quad_comps l)) g m ->
    forall e, map (qmap (rename (m ++ e))) l = map (qmap (rename m)) l.
  Proof.
    intros seen g m H e. apply map_ext_in. intros q Hq.
    assert (X : forall t, In t (quad_comps q) -> rename (m ++ e) t = rename m t).
    { intros t Ht. apply rename_app. intros b ->. destruct H as [-> _].
      apply in_firsts, in_app_iff. right. apply in_flat_map. exists (Anonymous b).
      split; [|now left]. apply in_flat_map. eauto. }
    destruct q as [s p o [gr|]]; unfold qmap; cbn in *; rewrite !X by tauto; reflexivity.
  Qed.

  Context {cmp : local_term -> local_term -> comparison} (L : ord_laws cmp) (keep : bool).
  Notation qcmp := (quad_cmp cmp).
  Let LQ : ord_laws qcmp := quad_cmp_laws cmp L.

  Lemma into_given l : forall seen g m out s, given seen g m -> bd_rep (cmp:=cmp) out s ->
    match relabel_into max checked cmp keep l g m out with
    | Some (out', g', m') =>
        given (seen ++ blank_names (flat_map quad_comps l)) g' m' /\ (exists e, m' = m ++ e) /\
        bd_rep (cmp:=cmp) out' (fold_left (fun s q => add qcmp q s) (map (qmap (rename m')) l) s)
    | None => generate (length (firsts (seen ++ blank_names (flat_map quad_comps l)))) g0 = None
    end.
  Proof.
    induction l as [|q l IH]; intros seen g m out s G R; cbn [relabel_into flat_map map].
    - cbn. rewrite app_nil_r. split; [exact G|]. split; [exists []; now rewrite app_nil_r|exact R].
    - pose proof (quad_given q _ _ _ G) as Q. rewrite blank_names_app, app_assoc.
      destruct (quad_mapm relabel_term q (Some (g, m))) as [q' [[g1 m1]|]].
      + destruct Q as (G1 & [e ->] & ->).
        destruct (bd_insert_rep L keep _ _ (qmap (rename (m ++ e)) q) R) as (out1 & -> & R1).
        pose proof (IH _ _ _ _ _ G1 R1) as X.
        destruct (relabel_into _ _ _ _ l g1 (m ++ e) out1) as [[[out2 g2] m2]|]; [|exact X].
        destruct X as (G2 & [e' ->] & R2). split; [exact G2|]. split; [exists (e ++ e'); now rewrite app_assoc|].
        cbn [fold_left].
        replace (qmap (rename ((m ++ e) ++ e')) q) with (qmap (rename (m ++ e)) q); [exact R2|].
        assert (Z := rename_quads [q] seen g1 (m ++ e)). cbn [flat_map map] in Z.
        rewrite app_nil_r in Z. specialize (Z G1 e'). congruence.
      + eapply generate_none_le; [exact Q|]. apply firsts_length.
  Qed.

  Lemma relabel_spec d s : bd_rep (cmp:=cmp) d s ->
    exists l, bd_iter d = Some l /\ NoDup l /\ (forall q, In q l <-> In q s) /\
    match relabel max checked cmp keep d g0 with
    | Some (d', g', m) => exists l',
        given (blank_names (flat_map quad_comps l)) g' m /\
        bd_iter d' = Some l' /\ NoDup l' /\
        (forall q, In q l' <-> In q (map (qmap (rename m)) l)) /\
        bd_rep (cmp:=cmp) d' (fold_left (fun s q => add qcmp q s) (map (qmap (rename m)) l) [])
    | None => generate (length (met l)) g0 = None
    end.
  Proof.
    intros R. exists (sorted_elements qcmp s). unfold relabel. rewrite (bd_iter_rep _ _ R).
    split; [reflexivity|]. split; [apply (ssorted_nodup LQ), (sorted_elements_sorted LQ), R|].
    split; [intros q; apply in_sorted_elements|].
    assert (G : given [] g0 []) by now split.
    pose proof (into_given (sorted_elements qcmp s) _ _ _ _ _ G (bd_rep_new (cmp:=cmp))) as X.
    destruct (relabel_into _ _ _ _ _ _ _ _) as [[[d' g'] m]|]; [|exact X].
    destruct X as (G' & _ & R'). eexists. split; [exact G'|].
    split; [exact (bd_iter_rep _ _ R')|]. split; [apply (ssorted_nodup LQ), (sorted_elements_sorted LQ), R'|].
    split; [|exact R']. intros q. rewrite in_sorted_elements. rewrite (in_fold_add L). cbn; tauto.
  Qed.
End Relabel.

(** ** The isomorphism *)
Lemma comps_qmap {R T} (f : R -> T) q : quad_comps (qmap f q) = map f (quad_comps q).
Proof. now destruct q as [s p o [g|]]. Qed.

Lemma nodup_snd (m : list (text * text)) a b c :
  NoDup (map snd m) -> In (a, c) m -> In (b, c) m -> a = b.
Proof.
  induction m as [|[k v] m IH]; cbn [map snd In]; [tauto|]. intros N A B.
  inversion N as [|? ? I N']; subst.
  destruct A as [A|A], B as [B|B].
  - congruence.
  - inv A. exfalso. apply I. now apply (in_map snd) in B.
  - inv B. exfalso. apply I. now apply (in_map snd) in A.
  - now apply IH.
Qed.

Section Iso.
  Context (l l' : list (quad local_term)) (m : list (text * text)).
  Context (F : map fst m = met l) (N : NoDup (map snd m)).
  Context (M : forall q, In q l' <-> In q (map (qmap (rename m)) l)).
  Notation anon := local_is_anonymous.

  Lemma met_in b : In b (met l) <-> blank_of anon l (Anonymous b).
  Proof.
    unfold met. rewrite in_firsts. unfold blank_names. rewrite in_flat_map. split.
    - intros (t & Ht & Hb). destruct t as [b'|]; cbn in Hb; [|tauto]. destruct Hb as [->|[]].
      apply in_flat_map in Ht as (q & Hq & Hc). split; [reflexivity|]. eauto.
    - intros [_ (q & Hq & Hc)]. exists (Anonymous b). split; [|now left]. apply in_flat_map. eauto.
  Qed.
  Lemma named_by x : blank_of anon l x -> exists b c, x = Anonymous b /\ name_of b m = Some c /\
    rename m x = Anonymous c /\ In (b, c) m.
  Proof.
    intros H. destruct x as [b|t]; [|destruct H; discriminate].
    apply met_in in H. rewrite <- F in H. destruct (name_of b m) as [c|] eqn:E.
    - exists b, c. repeat split; [exact E|cbn; now rewrite E|now apply name_of_in].
    - now apply name_of_none in E.
  Qed.
  Lemma old_blank y : blank_of anon l' y -> exists x, blank_of anon l x /\ rename m x = y.
  Proof.
    intros [B (q & Hq & Hy)]. apply M, in_map_iff in Hq as (p & <- & Hp).
    rewrite comps_qmap in Hy. apply in_map_iff in Hy as (x & E & Hx). exists x. split; [|exact E].
    split; [|eauto]. destruct x; [reflexivity|]. subst y. exact B.
  Qed.
  Lemma new_blank x : blank_of anon l x -> blank_of anon l' (rename m x).
  Proof.
    intros H. destruct (named_by x H) as (b & c & -> & E & R & I). destruct H as [_ (q & Hq & Hx)].
    split; [now rewrite R|]. exists (qmap (rename m) q). split; [apply M; now apply in_map|].
    rewrite comps_qmap. now apply in_map.
  Qed.
  Lemma rename_iso : isomorphism anon l l' (rename m).
  Proof.
    split; [split|split].
    - exact new_blank.
    - intros x y Hx Hy E.
      destruct (named_by x Hx) as (b & c & -> & _ & R & I), (named_by y Hy) as (b' & c' & -> & _ & R' & I').
      rewrite R, R' in E. inv E. f_equal. eapply nodup_snd; eauto.
    - exact old_blank.
    - intros [b|t]; [discriminate|reflexivity].
    - intros q. rewrite M, in_map_iff. split; intros (p & A & B); eauto.
  Qed.
  Lemma new_blanks x : blank_of anon l' x <-> exists i, In i (map snd m) /\ x = Anonymous i.
  Proof.
    split.
    - intros H. destruct (old_blank x H) as (y & Hy & <-).
      destruct (named_by y Hy) as (b & c & -> & _ & R & I). exists c. split; [|exact R].
      now apply (in_map snd) in I.
    - intros (i & Hi & ->). apply in_map_iff in Hi as ([b c] & E & I). cbn in E; subst c.
      assert (B : blank_of anon l (Anonymous b)).
      { apply met_in. rewrite <- F. now apply (in_map fst) in I. }
      destruct (named_by _ B) as (b' & c & E' & E & R & I'). inv E'.
      assert (i = c) as ->.
      { assert (NF : NoDup (map fst m)) by (rewrite F; apply firsts_nodup).
        clear - NF I I'. induction m as [|[k v] n IH]; cbn in *; [tauto|].
        inversion NF as [|? ? X Y]; subst. destruct I as [A|A], I' as [B|B]; try congruence.
        - inv A. exfalso; apply X; now apply (in_map fst) in B.
        - inv B. exfalso; apply X; now apply (in_map fst) in A.
        - auto. }
      rewrite <- R. now apply new_blank.
  Qed.
End Iso.

Lemma iso_length l l' h (blank : local_term -> bool) :
  NoDup l -> NoDup l' -> isomorphism blank l l' h -> length l' = length l.
Proof.
  intros N N' ([A I O] & K & M).
  assert (NM : NoDup (map (qmap h) l)).
  { assert (X : forall p q, In p l -> In q l -> qmap h p = qmap h q -> p = q).
    { intros p q Hp Hq E.
      assert (Y : forall x y, In x (quad_comps p) -> In y (quad_comps q) -> h x = h y -> x = y).
      { intros x y Hx Hy Exy. destruct (blank x) eqn:Bx, (blank y) eqn:By.
        - apply I; [split; eauto|split; eauto|exact Exy].
        - exfalso. rewrite (K y By) in Exy. assert (blank (h x) = true) by (apply A; split; eauto). congruence.
        - exfalso. rewrite (K x Bx) in Exy. assert (blank (h y) = true) by (apply A; split; eauto). congruence.
        - now rewrite (K x Bx), (K y By) in Exy. }
      destruct p as [s p o [g|]], q as [s' p' o' [g'|]]; unfold qmap in E; cbn in *; inversion E;
        f_equal; try (apply Y; tauto). f_equal. apply Y; tauto. }
    clear - N X. induction l as [|a l IH]; cbn; [constructor|].
    inversion N as [|? ? Ia Na]; subst. constructor.
    - intros C. apply in_map_iff in C as (b & E & Hb). apply Ia. rewrite (X a b); [exact Hb|now left|now right|now symmetry].
    - apply IH; [exact Na|]. intros; apply X; try (right; assumption); assumption. }
  rewrite <- (map_length (qmap h) l). apply Nat.le_antisymm; apply NoDup_incl_length; try assumption;
    intros q Hq.
  - apply M in Hq as (p & Hp & <-). now apply in_map.
  - apply in_map_iff in Hq as (p & <- & Hp). apply M. eauto.
Qed.

Lemma NoDup_app_local (a b : list text) : NoDup (a ++ b) ->
  NoDup a /\ NoDup b /\ forall x, In x a -> In x b -> False.
Proof.
  induction a as [|x a IH]; cbn [app]; intros H; [repeat split; [constructor|exact H|tauto]|].
  inversion H as [|? ? I N]; subst. destruct (IH N) as (A & B & C). rewrite in_app_iff in I.
  split; [constructor; tauto|]. split; [exact B|]. intros y [->|Hy] Hb; [tauto|eauto].
Qed.

Lemma combine_fst_snd (m : list (text * text)) : m = combine (map fst m) (map snd m).
Proof. induction m as [|[a b] m IH]; cbn; [reflexivity|]. now rewrite <- IH. Qed.

(** ** Programs *)
Section Programs.
  Context {iri_eqb tag_eqb : text -> text -> bool} {iri_cmp tag_cmp : text -> text -> comparison}.
  Context (LI : ord_laws iri_cmp) (LT : ord_laws tag_cmp).
  Context (EI : forall x y, iri_eqb x y = true <-> x = y) (ET : forall x y, tag_eqb x y = true <-> x = y).
  Notation cmp := (local_cmp iri_cmp tag_cmp).
  Notation LO := (local_ord LI LT EI ET).
  Notation are := (are_isomorphic iri_eqb tag_eqb iri_cmp tag_cmp).
  Notation anon := local_is_anonymous.
  Context (max : N) (checked keep : bool).
  Notation relabel := (relabel max checked cmp keep).
  Notation generate := (generate max checked).

  Lemma relabel_any ops xs d l g d' g' m :
    run (bd_step cmp keep) bd_new ops = Some (xs, d) -> bd_iter d = Some l ->
    relabel d g = Some (d', g', m) ->
    exists ids l', generate (length (met l)) g = Some (ids, g') /\ m = combine (met l) ids /\
      bd_iter d' = Some l' /\ NoDup l /\ NoDup l' /\ map fst m = met l /\ map snd m = ids /\
      (forall q, In q l' <-> In q (map (qmap (rename m)) l)) /\ exists s, bd_rep (cmp:=cmp) d' s /\ forall q, In q s <-> In q l'.
  Proof.
    intros H Hl E. pose proof (bd_run_rep_new LO keep ops xs d H) as R.
    destruct (relabel_spec max checked g LO keep d _ R) as (l0 & A & Nl & _ & X).
    rewrite Hl in A. inv A. rewrite E in X. destruct X as (l' & [F G] & I & N' & M & R').
    exists (map snd m), l'. assert (Y : length (met l0) = length m).
    { unfold met. rewrite <- F. apply map_length. }
    rewrite Y. split; [exact G|]. split; [unfold met; rewrite <- F; apply combine_fst_snd|].
    split; [exact I|]. split; [exact Nl|]. split; [exact N'|]. split; [exact F|]. split; [reflexivity|].
    split; [exact M|]. eexists. split; [exact R'|]. intros q. rewrite (in_fold_add LO), M. cbn; tauto.
  Qed.

  Lemma relabelled ops xs d l p offset d' g' m :
    run (bd_step cmp keep) bd_new ops = Some (xs, d) -> bd_iter d = Some l ->
    (offset <= max)%N -> checked = true \/ (N.of_nat (length (met l)) <= max + 1)%N ->
    relabel d (gen_full p offset) = Some (d', g', m) ->
    exists l' ids h,
      bd_iter d' = Some l' /\ isomorphism anon l l' h /\ are l l' = Some true /\ length l' = length l /\
      generate (length (met l)) (gen_full p offset) = Some (ids, g') /\ m = combine (met l) ids /\
      (forall n b i, nth_error (met l) n = Some b -> nth_error ids n = Some i ->
         h (Anonymous b) = Anonymous i) /\
      (forall x, blank_of anon l' x <-> exists i, In i ids /\ x = Anonymous i).
  Proof.
    intros H Hl Ho Hc E. destruct (relabel_any _ _ _ _ _ _ _ _ H Hl E) as (ids & l' & G & C & I & Nl & N' & F & S' & M & _).
    destruct (generate_distinct _ _ _ _ _ _ _ Ho Hc G) as [D _].
    assert (D' : NoDup (map snd m)) by now rewrite S'.
    pose proof (rename_iso l l' m F D' M) as X.
    exists l', ids, (rename m). split; [exact I|]. split; [exact X|].
    split; [exact (proj2 (loc_complete LI LT EI ET l l' _ Nl N' X))|].
    split; [exact (iso_length _ _ _ _ Nl N' X)|]. split; [exact G|]. split; [exact C|]. split.
    - intros n b i Hb Hi. cbn. rewrite <- F in Hb. rewrite <- S' in Hi.
      rewrite (name_of_nth m ltac:(rewrite F; apply firsts_nodup) n b i Hb Hi). reflexivity.
    - rewrite <- S'. exact (new_blanks l l' m F M).
  Qed.

  Lemma relabel_returns ops xs d l g :
    run (bd_step cmp keep) bd_new ops = Some (xs, d) -> bd_iter d = Some l ->
    (relabel d g <> None <-> generate (length (met l)) g <> None).
  Proof.
    intros H Hl. pose proof (bd_run_rep_new LO keep ops xs d H) as R.
    destruct (relabel d g) as [[[d' g'] m]|] eqn:E.
    - destruct (relabel_any _ _ _ _ _ _ _ _ H Hl E) as (ids & l' & G & _). rewrite G. split; congruence.
    - destruct (relabel_spec max checked g LO keep d _ R) as (l0 & A & Nl & _ & X).
      rewrite Hl in A. inv A. rewrite E in X. rewrite X. tauto.
  Qed.

  Lemma relabel_merge ops1 xs1 d1 l1 ops2 xs2 d2 l2 p offset d1' g1 m1 d2' g2 m2 :
    run (bd_step cmp keep) bd_new ops1 = Some (xs1, d1) -> bd_iter d1 = Some l1 ->
    run (bd_step cmp keep) bd_new ops2 = Some (xs2, d2) -> bd_iter d2 = Some l2 ->
    (offset <= max)%N ->
    checked = true \/ (N.of_nat (length (met l1) + length (met l2)) <= max + 1)%N ->
    relabel d1 (gen_full p offset) = Some (d1', g1, m1) -> relabel d2 g1 = Some (d2', g2, m2) ->
    exists l1' l2' h1 h2 d l,
      bd_iter d1' = Some l1' /\ isomorphism anon l1 l1' h1 /\
      bd_iter d2' = Some l2' /\ isomorphism anon l2 l2' h2 /\
      (forall x, blank_of anon l1' x -> blank_of anon l2' x -> False) /\
      bd_extend cmp keep d1' l2' = Some d /\ bd_iter d = Some l /\
      (forall q, In q l <-> In q l1' \/ In q l2').
  Proof.
    intros H1 Hl1 H2 Hl2 Ho Hc E1 E2.
    destruct (relabel_any _ _ _ _ _ _ _ _ H1 Hl1 E1) as (i1 & l1' & G1 & _ & I1 & _ & _ & F1 & S1 & M1 & s1 & R1 & Q1).
    destruct (relabel_any _ _ _ _ _ _ _ _ H2 Hl2 E2) as (i2 & l2' & G2 & _ & I2 & _ & _ & F2 & S2 & M2 & _).
    pose proof (generate_app _ _ _ _ _ _ _ _ _ G1 G2) as G.
    destruct (generate_distinct _ _ _ _ _ _ _ Ho Hc G) as [D _].
    destruct (NoDup_app_local _ _ D) as (D1 & D2 & D3).
    destruct (bd_extend_rep LO keep l2' _ _ R1) as (d & X & R).
    exists l1', l2', (rename m1), (rename m2), d. eexists.
    split; [exact I1|]. split; [apply rename_iso; try assumption; now rewrite S1|].
    split; [exact I2|]. split; [apply rename_iso; try assumption; now rewrite S2|].
    split.
    - intros x A B. apply (new_blanks _ _ _ F1 M1) in A as (a & Ia & ->).
      apply (new_blanks _ _ _ F2 M2) in B as (b & Ib & E). injection E as <-. rewrite S1 in Ia. rewrite S2 in Ib.
      exact (D3 _ Ia Ib).
    - split; [exact X|]. split; [exact (bd_iter_rep _ _ R)|].
      intros q. rewrite in_sorted_elements, (in_fold_add LO), Q1. tauto.
  Qed.

  Lemma relabel_capacity ops xs d l p offset :
    run (bd_step cmp keep) bd_new ops = Some (xs, d) -> bd_iter d = Some l -> (offset <= max)%N ->
    (relabel d (gen_full p offset) <> None <->
     checked = false \/ (N.of_nat (length (met l)) <= max - offset)%N).
  Proof.
    intros H Hl Ho. rewrite (relabel_returns _ _ _ _ _ H Hl). destruct checked.
    - rewrite (generate_capacity _ _ _ _ Ho). split; [tauto|]. intros [X|X]; [discriminate|exact X].
    - destruct (generate_unchecked max (length (met l)) (gen_full p offset)) as (i & g & ->).
      split; [now left|discriminate].
  Qed.

  (** The order of insertion, removals, ... do not matter. *)
  Lemma relabel_content ops xs d ops' xs' d' g :
    run (bd_step cmp keep) bd_new ops = Some (xs, d) ->
    run (bd_step cmp keep) bd_new ops' = Some (xs', d') ->
    (forall q, In q (spec_set (quad_cmp cmp) ops) <-> In q (spec_set (quad_cmp cmp) ops')) ->
    relabel d g = relabel d' g.
  Proof.
    intros H H' E. pose proof (bd_run_rep_new LO keep ops xs d H) as R.
    pose proof (bd_run_rep_new LO keep ops' xs' d' H') as R'.
    unfold RelabelModel.relabel. rewrite (bd_iter_rep _ _ R), (bd_iter_rep _ _ R').
    now rewrite (proj2 (sorted_elements_ext LO _ _ (proj1 R) (proj1 R')) E).
  Qed.
End Programs.
