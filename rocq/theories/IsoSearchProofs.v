(** Proofs about the search of IsoModel.v. *)
From Coq Require Import List Bool Arith Lia Permutation Sorted.
Import ListNotations.
From Verif Require Import Base TextModel DisplayModel TermModel TripleModel InterpretationModel
  SetSpec ContainerSpec IsoModel IsoSpec BaseProofs IsoMapProofs IsoProofs.

(** ** Changing the components of quads *)
Lemma qmap_map {A B C} (f : A -> B) (g : B -> C) (q : quad A) :
  qmap g (qmap f q) = qmap (fun x => g (f x)) q.
Proof. destruct q as [s p o [x|]]; reflexivity. Qed.
Lemma qmap_ext_in {A B} (f g : A -> B) (q : quad A) :
  (forall x, In x (quad_comps q) -> f x = g x) -> qmap f q = qmap g q.
Proof.
  destruct q as [s p o [x|]]; unfold qmap, quad_comps; cbn; intros H;
    rewrite (H s), (H p), (H o) by tauto; [|reflexivity]. now rewrite (H x) by tauto.
Qed.
Lemma qmap_id {A} (f : A -> A) (q : quad A) :
  (forall x, In x (quad_comps q) -> f x = x) -> qmap f q = q.
Proof.
  destruct q as [s p o [x|]]; unfold qmap, quad_comps; cbn; intros H;
    rewrite (H s), (H p), (H o) by tauto; [|reflexivity]. now rewrite (H x) by tauto.
Qed.
Lemma qmap_comps {A B} (f : A -> B) (q : quad A) : quad_comps (qmap f q) = map f (quad_comps q).
Proof. destruct q as [s p o [x|]]; reflexivity. Qed.
Lemma quad_comps_inj {A} (p q : quad A) : quad_comps p = quad_comps q -> p = q.
Proof.
  destruct p as [s p o [x|]], q as [s' p' o' [x'|]]; unfold quad_comps; cbn; congruence.
Qed.

(** The maps of a bijection. *)
Lemma as_function_get {R} {cmp : R -> R -> comparison} (L : ord_laws cmp) m x :
  as_function cmp m x = match m_get cmp x m with Some y => y | None => x end.
Proof.
  induction m as [|[a b] m IH]; cbn; [reflexivity|]. rewrite IH. unfold same.
  rewrite (ord_sym _ L x a). now destruct (cmp x a).
Qed.

Section Search.
  Context {R St : Type} {cmp : R -> R -> comparison} (L : ord_laws cmp).
  Context (iri_eqb tag_eqb : text -> text -> bool) (I : interp_rev St R) (st : St).
  Notation anon := (i_is_anonymous I st).
  Notation around := (around cmp).
  Notation collect := (collect_signatures cmp I st).
  Notation find := (find_from_candidates cmp iri_eqb tag_eqb I st).
  Notation insert := (bij_insert cmp).
  Notation sig_matches_with := (sig_matches_with cmp iri_eqb tag_eqb I st).
  Implicit Types (am bm : list (R * list (quad R))) (s : bijection R).

  (** ** The search, as a relation *)
  Inductive path am bm : bijection R -> list (R * list R) -> bijection R -> Prop :=
  | path_done s : path am bm s [] s
  | path_step s a bs b sa sb cands f :
      In b bs -> m_contains cmp b (backward s) = false ->
      m_get cmp a am = Some sa -> m_get cmp b bm = Some sb ->
      sig_matches_with (insert a b s) sa sb = true ->
      path am bm (insert a b s) cands f -> path am bm s ((a, bs) :: cands) f.

  Lemma find_cons s a b bs cands am bm :
    find s ((a, b :: bs) :: cands) am bm =
    if m_contains cmp b (backward s) then find s ((a, bs) :: cands) am bm
    else
      match m_get cmp a am, m_get cmp b bm with
      | Some sa, Some sb =>
          if sig_matches_with (insert a b s) sa sb then
            match find (insert a b s) cands am bm with
            | None => None
            | Some (Some f) => Some (Some f)
            | Some None => find s ((a, bs) :: cands) am bm
            end
          else find s ((a, bs) :: cands) am bm
      | _, _ => None
      end.
  Proof. reflexivity. Qed.

  Lemma path_more am bm s a b bs cands f :
    path am bm s ((a, bs) :: cands) f -> path am bm s ((a, b :: bs) :: cands) f.
  Proof. intros H; inv H. econstructor; [right|..]; eassumption. Qed.

  Lemma find_path am bm cands : forall s f,
    find s cands am bm = Some (Some f) -> path am bm s cands f.
  Proof.
    induction cands as [|[a bs] cands IH]; intros s f.
    - cbn. intros [= <-]. constructor.
    - induction bs as [|b bs IHb]; [discriminate|]. rewrite find_cons.
      destruct (m_contains cmp b (backward s)) eqn:C; [intros H; now apply path_more, IHb|].
      destruct (m_get cmp a am) as [sa|] eqn:Ea; [|discriminate].
      destruct (m_get cmp b bm) as [sb|] eqn:Eb; [|discriminate].
      destruct (sig_matches_with (insert a b s) sa sb) eqn:M; [|intros H; now apply path_more, IHb].
      destruct (find (insert a b s) cands am bm) as [[f'|]|] eqn:F; [| |discriminate].
      + intros [= <-]. apply IH in F. econstructor; try eassumption. now left.
      + intros H; now apply path_more, IHb.
  Qed.

  (** No panic. *)
  Definition known am bm (cands : list (R * list R)) : Prop :=
    forall a bs, In (a, bs) cands ->
      In a (map fst am) /\ forall b, In b bs -> In b (map fst bm).
  Lemma known_tail am bm e cands : known am bm (e :: cands) -> known am bm cands.
  Proof. intros H a bs Ha. apply (H a bs). now right. Qed.
  Lemma known_less am bm a b bs cands : known am bm ((a, b :: bs) :: cands) -> known am bm ((a, bs) :: cands).
  Proof.
    intros H a' bs' [[= <- <-]|Ha].
    - destruct (H a (b :: bs)) as [H1 H2]; [now left|]. split; [assumption|]. intros x Hx. apply H2. now right.
    - apply (H a' bs'). now right.
  Qed.
  Lemma find_total am bm cands : forall s, known am bm cands -> find s cands am bm <> None.
  Proof.
    induction cands as [|[a bs] cands IH]; intros s; [discriminate|].
    induction bs as [|b bs IHb]; intros K; [discriminate|]. rewrite find_cons.
    specialize (IHb (known_less _ _ _ _ _ _ K)).
    destruct (m_contains cmp b (backward s)); [assumption|].
    destruct (K a (b :: bs) (or_introl eq_refl)) as [Ka Kb].
    destruct (m_get_key L a am Ka) as [sa ->].
    destruct (m_get_key L b bm (Kb b (or_introl eq_refl))) as [sb ->].
    destruct (sig_matches_with (insert a b s) sa sb); [|assumption].
    specialize (IH (insert a b s) (known_tail _ _ _ _ K)).
    destruct (find (insert a b s) cands am bm) as [[f'|]|]; [discriminate|assumption|congruence].
  Qed.
  (** Nothing is missed. *)
  Lemma path_find am bm s cands f : path am bm s cands f -> known am bm cands ->
    exists f', find s cands am bm = Some (Some f').
  Proof.
    induction 1 as [s|s a bs b sa sb cands f Hb C Ea Eb M P IH]; intros K; [now exists s|].
    specialize (IH (known_tail _ _ _ _ K)).
    induction bs as [|b' bs IHb]; [destruct Hb|]. rewrite find_cons.
    destruct Hb as [->|Hb].
    - rewrite C, Ea, Eb, M. destruct IH as [f' ->]. now exists f'.
    - specialize (IHb Hb (known_less _ _ _ _ _ _ K)).
      destruct (m_contains cmp b' (backward s)) eqn:C'; [assumption|]. rewrite Ea.
      destruct (K a (b' :: bs) (or_introl eq_refl)) as [Ka Kb].
      destruct (m_get_key L b' bm (Kb b' (or_introl eq_refl))) as [sb' ->].
      destruct (sig_matches_with (insert a b' s) sa sb'); [|assumption].
      pose proof (find_total am bm cands (insert a b' s) (known_tail _ _ _ _ K)) as T.
      destruct (find (insert a b' s) cands am bm) as [[f'|]|]; [now exists f'|assumption|congruence].
  Qed.

  (** ** Bijections *)
  Record bij_wf (da db : R -> Prop) s : Prop := {
    wf_fs : msorted (cmp := cmp) (forward s);
    wf_bs : msorted (cmp := cmp) (backward s);
    wf_inv : forall a b, m_get cmp a (forward s) = Some b <-> m_get cmp b (backward s) = Some a;
    wf_dom : forall a b, m_get cmp a (forward s) = Some b -> da a /\ db b
  }.
  Lemma bij_new_wf da db : bij_wf da db bij_new.
  Proof. split; cbn; try constructor; discriminate. Qed.
  Lemma insert_wf (da db : R -> Prop) s a b : bij_wf da db s -> da a -> db b ->
    ~ In a (map fst (forward s)) -> m_contains cmp b (backward s) = false -> bij_wf da db (insert a b s).
  Proof.
    intros [S1 S2 V D] Ha Hb Na Nb. apply (m_contains_false L) in Nb.
    apply (m_get_none L) in Na, Nb. split; cbn.
    - now apply m_alter_sorted.
    - now apply m_alter_sorted.
    - intros x y. rewrite !(m_get_insert L) by assumption.
      destruct (same cmp a x) eqn:E1, (same cmp b y) eqn:E2;
        rewrite ?(same_true L), ?(same_false L) in *; subst.
      + tauto.
      + split; [congruence|]. intros H. apply V in H. congruence.
      + split; [|congruence]. intros H. apply V in H. congruence.
      + apply V.
    - intros x y. rewrite !(m_get_insert L) by assumption.
      destruct (same cmp a x) eqn:E1; [|apply D].
      apply (same_true L) in E1. intros [= <-]. subst. now split.
  Qed.
  Definition extends s f : Prop :=
    forall a b, m_get cmp a (forward s) = Some b -> m_get cmp a (forward f) = Some b.
  Lemma insert_extends (da db : R -> Prop) s a b : bij_wf da db s ->
    ~ In a (map fst (forward s)) -> extends s (insert a b s).
  Proof.
    intros W N x y H. cbn. rewrite (m_get_insert L) by apply W.
    destruct (same cmp a x) eqn:E; [|assumption].
    apply (same_true L) in E; subst. apply (m_get_some_key L) in H. tauto.
  Qed.
  Lemma insert_get (da db : R -> Prop) s a b : bij_wf da db s ->
    m_get cmp a (forward (insert a b s)) = Some b.
  Proof. intros W. cbn. rewrite (m_get_insert L) by apply W. now rewrite (proj2 (same_true L a a) eq_refl). Qed.
  Lemma insert_keys s a b x :
    In x (map fst (forward (insert a b s))) <-> x = a \/ In x (map fst (forward s)).
  Proof. cbn. apply (m_alter_keys L). Qed.

  Section Dom.
    Context (am bm : list (R * list (quad R))).
    Notation wf := (bij_wf (fun x => In x (map fst am)) (fun x => In x (map fst bm))).
    Lemma path_wf s cands f : path am bm s cands f -> wf s -> NoDup (map fst cands) ->
      (forall a, In a (map fst cands) -> ~ In a (map fst (forward s))) ->
      wf f /\ extends s f /\
      (forall a, In a (map fst (forward f)) <-> In a (map fst (forward s)) \/ In a (map fst cands)).
    Proof.
      induction 1 as [s|s a bs b sa sb cands f Hb C Ea Eb M P IH]; cbn [map fst]; intros W N D.
      - split; [assumption|]. split; [now intros a b|]. cbn; tauto.
      - inv N. assert (Na : ~ In a (map fst (forward s))) by (apply D; now left).
        destruct IH as (W' & X & K).
        + apply insert_wf; try assumption; eapply m_get_some_key; eassumption.
        + assumption.
        + intros x Hx. rewrite insert_keys. intros [->|H]; [contradiction|]. eapply D; [right|]; eassumption.
        + split; [assumption|]. split.
          * intros x y H. apply X. revert H. apply (insert_extends _ _ s a b W Na).
          * intros x. rewrite K, insert_keys. cbn. split; intuition.
    Qed.
  End Dom.

  (** ** Matching as equality of keys *)
  Context (iri_refl : forall t, iri_eqb t t = true) (tag_refl : forall t, tag_eqb t t = true).
  Context (apart : terms_apart iri_eqb (literal_cow_eqb iri_eqb tag_eqb) I st).

  Lemma literal_cow_refl l : literal_cow_eqb iri_eqb tag_eqb l l = true.
  Proof.
    unfold literal_cow_eqb, ltype_cow_eqb, str_eqb.
    destruct (list_eq_dec _ _ _); [|congruence]. cbn. destruct (lc_type l); auto.
  Qed.
  Lemma shares_spec a b : shares_term iri_eqb tag_eqb I st a b = true <-> a = b /\ anon a = false.
  Proof.
    unfold shares_term. rewrite orb_true_iff, !existsb_exists. split.
    - intros [(x & Hx & H)|(x & Hx & H)]; apply existsb_exists in H as (y & Hy & E).
      + split; [now apply (proj1 apart a b x y)|]. rewrite anon_nameless. unfold nameless.
        destruct (i_iris_of I st a); [destruct Hx|reflexivity].
      + split; [now apply (proj2 apart a b x y)|]. rewrite anon_nameless. unfold nameless.
        destruct (i_iris_of I st a); [|reflexivity].
        destruct (i_literals_of I st a); [destruct Hx|reflexivity].
    - intros [<- N]. rewrite anon_nameless in N. unfold nameless in N.
      destruct (i_iris_of I st a) as [|i l] eqn:E.
      + destruct (i_literals_of I st a) as [|x r]; [discriminate|]. right. exists x. split; [now left|].
        apply existsb_exists. exists x. split; [now left|apply literal_cow_refl].
      + left. exists i. split; [now left|]. apply existsb_exists. exists i. split; [now left|apply iri_refl].
  Qed.
  Lemma quad_with_spec {T} (f : R -> R -> bool) (ka kb : R -> T) :
    (forall x y, f x y = true <-> ka x = kb y) ->
    forall p q, quad_with f p q = true <-> qmap ka p = qmap kb q.
  Proof.
    intros F [s p o g] [s' p' o' g']. unfold quad_with, qmap. cbn.
    rewrite !andb_true_iff, !F. destruct g as [x|], g' as [x'|]; cbn; rewrite ?F; split;
      intuition congruence.
  Qed.

  Notation kn := (fun r => if anon r then None else Some r).
  Lemma sig_matches_spec a b :
    sig_matches iri_eqb tag_eqb I st a b = true <->
    Permutation (map (named_part anon) a) (map (named_part anon) b).
  Proof.
    apply sig_with_spec. intros p q. apply quad_with_spec. intros x y.
    unfold resource_matches. rewrite orb_true_iff, andb_true_iff, shares_spec.
    destruct (anon x) eqn:Ex, (anon y) eqn:Ey; split; try tauto; try congruence;
      try (intros [[? ?]|[? ?]]; congruence).
    - intros [= ->]. now left.
  Qed.

  Definition kA s r : option R := m_get cmp r (forward s).
  Definition kB s r : option R := if m_contains cmp r (backward s) then Some r else None.
  Lemma sig_matches_with_spec (da db : R -> Prop) s a b : bij_wf da db s ->
    (forall x, da x -> anon x = true) -> (forall x, db x -> anon x = true) ->
    sig_matches_with s a b = true <-> Permutation (map (qmap (kA s)) a) (map (qmap (kB s)) b).
  Proof.
    intros [S1 S2 V D] NA NB. apply sig_with_spec. intros p q. apply quad_with_spec. intros x y.
    unfold resource_matches_with, kA, kB, m_contains. rewrite orb_true_iff, shares_spec.
    destruct (m_get cmp x (forward s)) as [c|] eqn:E1.
    - unfold r_eqb.
      assert (X : (match cmp c y with Eq => true | _ => false end) = true <-> c = y) by apply (same_true L).
      rewrite X. destruct (D _ _ E1) as [Hx Hc]. apply NA in Hx. apply V in E1. split.
      + intros [[_ ?]| ->]; [congruence|]. now rewrite E1.
      + destruct (m_get cmp y (backward s)); [|discriminate]. intros [= ->]. now right.
    - destruct (m_get cmp y (backward s)) as [c|] eqn:E2.
      + unfold r_eqb.
        assert (X : (match cmp x c with Eq => true | _ => false end) = true <-> x = c) by apply (same_true L).
        rewrite X. apply V in E2. split; [|discriminate].
        intros [[-> N]| ->]; [|congruence]. destruct (D _ _ E2) as [_ H]. apply NB in H. congruence.
      + split; [reflexivity|now right].
  Qed.
End Search.
