(** What the search of IsoModel.v finds: exactly the half isomorphisms. *)
From Coq Require Import List Bool Arith Lia Permutation Sorted FinFun.
Import ListNotations.
From Verif Require Import Base TextModel DisplayModel TermModel TripleModel InterpretationModel
  SetSpec ContainerSpec IsoModel IsoSpec BaseProofs IsoMapProofs IsoProofs IsoSearchProofs.

(** ** Lists *)
Lemma filter_split {A} (f : A -> bool) l :
  Permutation l (filter f l ++ filter (fun x => negb (f x)) l).
Proof.
  induction l as [|x l IH]; cbn; [reflexivity|]. destruct (f x); cbn.
  - now constructor.
  - rewrite IH at 1. apply Permutation_middle.
Qed.
Lemma count_filter {A} (dec : forall x y : A, {x = y} + {x <> y}) (f : A -> bool) l x :
  count_occ dec (filter f l) x = if f x then count_occ dec l x else 0.
Proof.
  induction l as [|y l IH]; cbn; [now destruct (f x)|].
  destruct (f y) eqn:Ey; cbn; destruct (dec y x) as [->|N]; rewrite IH; rewrite ?Ey; try reflexivity.
Qed.
(** Removing from two lists elements they have in common, as many times. *)
Lemma permutation_erase {A} (dec : forall x y : A, {x = y} + {x <> y}) (later : A -> bool)
    (g : A -> A) l m :
  Permutation (map g l) (map g m) ->
  (forall x, In x l \/ In x m -> later x = false -> g x = x) ->
  (forall x, later x = true -> count_occ dec l x = count_occ dec m x) ->
  Permutation l m.
Proof.
  intros P G C.
  assert (Q : Permutation (filter later l) (filter later m)).
  { apply (Permutation_count_occ dec). intros x. rewrite !count_filter.
    destruct (later x) eqn:E; [now apply C|reflexivity]. }
  rewrite (filter_split later l), (filter_split later m) in P.
  rewrite !map_app, Q in P. apply Permutation_app_inv_l in P.
  assert (N : forall k, (k = l \/ k = m) ->
            map g (filter (fun x => negb (later x)) k) = filter (fun x => negb (later x)) k).
  { intros k Hk. rewrite <- (map_id (filter _ k)) at 2. apply map_ext_in. intros x Hx.
    apply filter_In in Hx as [Hx E]. apply negb_true_iff in E. apply G; [|assumption].
    destruct Hk; subst; tauto. }
  rewrite !N in P by tauto.
  now rewrite (filter_split later l), (filter_split later m), Q, P.
Qed.
Lemma list_sum_perm l m : Permutation l m -> list_sum l = list_sum m.
Proof. induction 1; unfold list_sum in *; cbn in *; lia. Qed.

Section Exact.
  Context {R St : Type} {cmp : R -> R -> comparison} (L : ord_laws cmp).
  Context {iri_eqb tag_eqb : text -> text -> bool} {I : interp_rev St R} {st : St}.
  Notation anon := (i_is_anonymous I st).
  Notation around := (around cmp).
  Notation collect := (collect_signatures cmp I st).
  Notation insert := (bij_insert cmp).
  Notation split_by_size := (split_by_size cmp).
  Notation candidates := (candidates cmp iri_eqb tag_eqb I st).
  Notation find_bijection_with := (find_bijection_with cmp iri_eqb tag_eqb I st).
  Notation path := (path (cmp := cmp) iri_eqb tag_eqb I st).
  Notation blank_of := (blank_of anon).
  Implicit Types (a b : list (quad R)).

  Definition odec : forall x y : option R, {x = y} + {x <> y}.
  Proof. intros x y. decide equality. apply (ord_dec L). Defined.
  Definition qdec : forall x y : quad (option R), {x = y} + {x <> y}.
  Proof.
    intros [s p o g] [s' p' o' g'].
    destruct (odec s s') as [->|N]; [|right; congruence].
    destruct (odec p p') as [->|N]; [|right; congruence].
    destruct (odec o o') as [->|N]; [|right; congruence].
    destruct g as [g|], g' as [g'|]; try (right; congruence); [|now left].
    destruct (odec g g') as [->|N]; [now left|right; congruence].
  Defined.

  (** ** No panic; the result is a bijection *)
  Notation wf a b :=
    (bij_wf (cmp := cmp) (fun x => In x (map fst (collect a))) (fun x => In x (map fst (collect b)))).

  Lemma candidates_known a b c :
    candidates (split_by_size (collect a)) (split_by_size (collect b)) [] = Some (Some c) ->
    msorted (cmp := cmp) c /\ (forall x, In x (map fst c) <-> blank_of a x) /\
    (forall x bs, In (x, bs) c -> cand_ok iri_eqb tag_eqb I st (collect a) (collect b) x bs) /\
    known (collect a) (collect b) c.
  Proof.
    intros H. destruct (candidates_keys L _ _ _ _ _ _ _ (collect_sorted L I st a) (collect_sorted L I st b) H)
      as (S & K & C).
    assert (C' : forall x bs, In (x, bs) c -> cand_ok iri_eqb tag_eqb I st (collect a) (collect b) x bs).
    { intros x bs Hx. apply C. now apply (in_m_get L). }
    split; [assumption|]. split; [intros x; rewrite K; apply (collect_key L)|]. split; [assumption|].
    intros x bs Hx. split.
    - apply K, in_map_iff. now exists (x, bs).
    - intros y Hy. destruct (C' x bs Hx) as (sa & Hsa & Hne & HB). apply HB in Hy. destruct Hy as (sb & Hb & Hm).
      apply in_of_size in Hb as [Hb _]. apply in_map_iff. now exists (y, sb).
  Qed.

  Lemma find_never_panics a b : find_bijection_with a b <> None.
  Proof.
    unfold IsoModel.find_bijection_with. cbv zeta in *.
    destruct (negb (length a =? length b)) eqn:E1; [discriminate|].
    destruct (negb (total_blank_count I st a =? _)) eqn:E2; [discriminate|].
    destruct (negb (length (collect a) =? _)) eqn:E3; [discriminate|].
    destruct (negb (length (split_by_size (collect a)) =? _)) eqn:E4; [discriminate|].
    destruct (negb (forallb _ (split_by_size (collect a)))) eqn:E5; [discriminate|].
    apply negb_false_iff in E5. rewrite forallb_forall in E5.
    destruct (candidates (split_by_size (collect a)) (split_by_size (collect b)) []) as [[c|]|] eqn:E.
    - apply (find_total L). now apply candidates_known in E.
    - discriminate.
    - exfalso. revert E. apply candidates_total. intros n g Hg.
      specialize (E5 (n, g) Hg). now apply (m_contains_true nat_compare_laws) in E5.
  Qed.

  Lemma find_inv a b f : find_bijection_with a b = Some (Some f) ->
    length a = length b /\ length (collect a) = length (collect b) /\
    exists c, candidates (split_by_size (collect a)) (split_by_size (collect b)) [] = Some (Some c) /\
      path (collect a) (collect b) bij_new c f.
  Proof.
    unfold IsoModel.find_bijection_with. intros H.
    cbv zeta in *.
    destruct (negb (length a =? length b)) eqn:E1; [discriminate|].
    destruct (negb (total_blank_count I st a =? _)) eqn:E2; [discriminate|].
    destruct (negb (length (collect a) =? _)) eqn:E3; [discriminate|].
    destruct (negb (length (split_by_size (collect a)) =? _)) eqn:E4; [discriminate|].
    destruct (negb (forallb _ (split_by_size (collect a)))) eqn:E5; [discriminate|].
    destruct (candidates (split_by_size (collect a)) (split_by_size (collect b)) []) as [[c|]|] eqn:E;
      try discriminate.
    apply negb_false_iff, Nat.eqb_eq in E1, E3.
    split; [assumption|]. split; [assumption|]. exists c. split; [reflexivity|]. now apply find_path.
  Qed.

  Lemma find_wf a b f : find_bijection_with a b = Some (Some f) ->
    wf a b f /\ forall x, In x (map fst (forward f)) <-> blank_of a x.
  Proof.
    intros H. apply find_inv in H as (_ & _ & c & E & P).
    apply candidates_known in E as (S & K & _ & _).
    apply (path_wf L) in P as (W & _ & D).
    - split; [assumption|]. intros x. rewrite D, K. cbn. tauto.
    - apply bij_new_wf.
    - now apply (ssorted_nodup L) in S.
    - cbn. tauto.
  Qed.

  Lemma find_bijective a b f : find_bijection_with a b = Some (Some f) ->
    blank_bijection anon a b (as_function cmp (forward f)) /\
    (forall x, In x (map fst (backward f)) <-> blank_of b x).
  Proof.
    intros H. destruct (find_wf a b f H) as [[S1 S2 V D] K].
    assert (Into : forall x, blank_of a x -> blank_of b (as_function cmp (forward f) x) /\
      m_get cmp x (forward f) = Some (as_function cmp (forward f) x)).
    { intros x Hx. apply K in Hx. rewrite (as_function_get L).
      apply (m_get_key L) in Hx as [y Hy]. rewrite Hy. split; [|reflexivity].
      apply D in Hy as [_ Hy]. now apply (collect_key L). }
    assert (Inj : forall x y, blank_of a x -> blank_of a y ->
      as_function cmp (forward f) x = as_function cmp (forward f) y -> x = y).
    { intros x y Hx Hy E. destruct (Into x Hx) as [_ Gx], (Into y Hy) as [_ Gy].
      rewrite E in Gx. apply V in Gx, Gy. congruence. }
    assert (Onto : forall y, blank_of b y -> exists x, blank_of a x /\ as_function cmp (forward f) x = y).
    { apply find_inv in H as (_ & EL & _).
      assert (ND : forall d, NoDup (map fst (collect d))).
      { intros d. apply (ssorted_nodup L), (collect_sorted L). }
      assert (NI : NoDup (map (as_function cmp (forward f)) (map fst (collect a)))).
      { clear -ND Inj L. specialize (ND a).
        assert (X : forall x y, In x (map fst (collect a)) -> In y (map fst (collect a)) ->
          as_function cmp (forward f) x = as_function cmp (forward f) y -> x = y).
        { intros x y Hx Hy. apply (collect_key L) in Hx, Hy. now apply Inj. }
        revert ND X. generalize (map fst (collect a)) as l. induction l as [|x l IH]; intros ND X; cbn;
          [constructor|].
        inv ND. constructor.
        - intros Hin. apply in_map_iff in Hin as (y & E & Hy).
          apply H1. rewrite <- (X y x); [assumption|now right|now left|assumption].
        - apply IH; [assumption|]. intros u v Hu Hv. apply X; now right. }
      assert (IC : incl (map fst (collect b)) (map (as_function cmp (forward f)) (map fst (collect a)))).
      { apply NoDup_length_incl.
        - assumption.
        - now rewrite !map_length, EL.
        - intros y Hy. apply in_map_iff in Hy as (x & <- & Hx). apply (collect_key L) in Hx.
          apply (collect_key L). now apply Into. }
      intros y Hy. apply (collect_key L) in Hy. apply IC in Hy. apply in_map_iff in Hy as (x & E & Hx).
      exists x. split; [now apply (collect_key L) in Hx|assumption]. }
    split.
    - split; [intros x Hx; now apply Into|assumption|assumption].
    - intros y. split.
      + intros Hy. apply (m_get_key L) in Hy as [x Hx]. apply V in Hx. apply D in Hx as [_ Hy].
        now apply (collect_key L) in Hy.
      + intros Hy. destruct (Onto y Hy) as (x & Hx & <-). destruct (Into x Hx) as [_ G].
        apply V in G. now apply (m_get_some_key L) in G.
  Qed.

  (** ** Counting *)
  Notation occK y K := (count_occ odec (quad_comps K) (Some y)).
  Notation bp h := (fun r : R => if anon r then Some (h r) else None).
  Lemma count_same x l (h : R -> R) : anon x = true ->
    (forall y, In y l -> anon y = true -> h y = h x -> y = x) ->
    length (filter (same cmp x) l) = count_occ odec (map (bp h) l) (Some (h x)).
  Proof.
    intros A H. induction l as [|y l IH]; [reflexivity|]. cbn [filter map count_occ].
    rewrite <- IH by (intros z Hz; apply H; now right).
    destruct (same cmp x y) eqn:E; cbn [length].
    - apply (same_true L) in E; subst y. rewrite A. now destruct (odec _ _); [|congruence].
    - apply (same_false L) in E. destruct (odec _ _) as [X|]; [|reflexivity]. exfalso. apply E.
      destruct (anon y) eqn:Ey; [|discriminate]. injection X as X. symmetry. apply H; [now left|assumption|assumption].
  Qed.
  Lemma count_const {A} (q : quad R) (l : list A) (f : quad R -> quad (option R)) K :
    count_occ qdec (map f (map (fun _ => q) l)) K = if qdec (f q) K then length l else 0.
  Proof.
    induction l as [|y l IH]; cbn [map count_occ]; [now destruct (qdec _ _)|].
    rewrite IH. now destruct (qdec (f q) K).
  Qed.
  Lemma count_around (h : R -> R) x d K : anon x = true ->
    (forall y, blank_of d y -> h y = h x -> y = x) ->
    count_occ qdec (map (blank_part anon h) (around d x)) K =
    occK (h x) K * count_occ qdec (map (blank_part anon h) d) K.
  Proof.
    intros A. induction d as [|q d IH]; intros H; [cbn; lia|].
    unfold IsoSpec.around in *. cbn [flat_map map]. rewrite map_app, count_occ_app, count_const, IH.
    - cbn [count_occ]. destruct (qdec (blank_part anon h q) K) as [<-|N]; [|lia].
      rewrite (count_same x (quad_comps q) h A).
      + replace (map (bp h) (quad_comps q)) with (quad_comps (blank_part anon h q)) by apply qmap_comps. lia.
      + intros y Hy Ay. apply H. split; [assumption|]. exists q. split; [now left|assumption].
    - intros y [Ay (p & Hp & Hy)]. apply H. split; [assumption|]. exists p. split; [now right|assumption].
  Qed.

  (** ** Keys under a partial bijection *)
  Definition erase (s : bijection R) (o : option R) : option R :=
    match o with Some y => kB (cmp := cmp) s y | None => None end.
  Definition inside (h : R -> R) (s : bijection R) : Prop :=
    forall x y, m_get cmp x (forward s) = Some y -> h x = y.
  Definition later (s : bijection R) (K : quad (option R)) : bool :=
    existsb (fun o => match o with Some y => negb (m_contains cmp y (backward s)) | None => false end)
      (quad_comps K).

  Lemma wf_anon a b s x y : wf a b s -> m_get cmp x (forward s) = Some y ->
    blank_of a x /\ blank_of b y.
  Proof. intros W H. apply W in H as [H1 H2]. split; now apply (collect_key L). Qed.

  Section Given.
    Context {a b : list (quad R)} {h : R -> R} (BB : blank_bijection anon a b h).

    Lemma kA_erase s : wf a b s -> inside h s ->
      forall l, incl l a -> map (qmap (kA (cmp := cmp) s)) l = map (qmap (erase s)) (map (blank_part anon h) l).
    Proof.
      intros W Hi l Hl. rewrite map_map. apply map_ext_in. intros q Hq. apply Hl in Hq.
      unfold blank_part. rewrite qmap_map. apply qmap_ext_in. intros x Hx.
      unfold kA. destruct (anon x) eqn:A; cbn [erase].
      - assert (Bx : blank_of a x) by (split; [assumption|now exists q]).
        unfold kB, m_contains. destruct (m_get cmp x (forward s)) as [y|] eqn:E.
        + pose proof (Hi _ _ E) as <-. apply W in E. now rewrite E.
        + destruct (m_get cmp (h x) (backward s)) as [x'|] eqn:E'; [|reflexivity].
          apply W in E'. pose proof (Hi _ _ E') as E2.
          destruct (wf_anon a b s _ _ W E') as [Bx' _].
          apply (bb_inj _ _ _ _ BB) in E2; [|assumption|assumption]. congruence.
      - destruct (m_get cmp x (forward s)) as [y|] eqn:E; [|reflexivity].
        destruct (wf_anon a b s _ _ W E) as [[Bx _] _]. congruence.
    Qed.
    Lemma kB_erase s : wf a b s -> forall l,
      map (qmap (kB (cmp := cmp) s)) l = map (qmap (erase s)) (map (blank_part anon (fun x => x)) l).
    Proof.
      intros W l. rewrite map_map. apply map_ext. intros q.
      unfold blank_part. rewrite qmap_map. apply qmap_ext_in. intros y _.
      destruct (anon y) eqn:A; cbn [erase]; [reflexivity|].
      unfold kB, m_contains. destruct (m_get cmp y (backward s)) as [x|] eqn:E; [|reflexivity].
      apply W in E. destruct (wf_anon a b s _ _ W E) as [_ [By _]]. congruence.
    Qed.

    Notation cA := (count_occ qdec (map (blank_part anon h) a)).
    Notation cB := (count_occ qdec (map (blank_part anon (fun x => x)) b)).

    Lemma around_incl d x : incl (around d x) d.
    Proof. intros q Hq. now apply (in_around L) in Hq. Qed.
    Lemma count_a x K : blank_of a x ->
      count_occ qdec (map (blank_part anon h) (around a x)) K = occK (h x) K * cA K.
    Proof.
      intros Bx. apply count_around; [apply Bx|]. intros y By. now apply (bb_inj _ _ _ _ BB).
    Qed.
    Lemma count_b y K : blank_of b y ->
      count_occ qdec (map (blank_part anon (fun x => x)) (around b y)) K = occK y K * cB K.
    Proof. intros By. apply (count_around (fun x => x)); [apply By|]. trivial. Qed.

    (** Blank nodes in the blank part of a quad. *)
    Lemma part_a K y : In K (map (blank_part anon h) a) -> In (Some y) (quad_comps K) ->
      exists x, blank_of a x /\ h x = y.
    Proof.
      intros HK Hy. apply in_map_iff in HK as (q & <- & Hq). unfold blank_part in Hy.
      rewrite qmap_comps in Hy. apply in_map_iff in Hy as (x & E & Hx).
      destruct (anon x) eqn:A; [|discriminate]. injection E as E. exists x. split; [|assumption].
      split; [assumption|]. now exists q.
    Qed.
    Lemma part_b K y : In K (map (blank_part anon (fun x => x)) b) -> In (Some y) (quad_comps K) ->
      exists x, blank_of a x /\ h x = y.
    Proof.
      intros HK Hy. apply (bb_onto _ _ _ _ BB).
      apply in_map_iff in HK as (q & <- & Hq). unfold blank_part in Hy.
      rewrite qmap_comps in Hy. apply in_map_iff in Hy as (x & E & Hx).
      destruct (anon x) eqn:A; [|discriminate]. injection E as <-. split; [assumption|]. now exists q.
    Qed.

    Lemma step_counts s x (later_ok : quad (option R) -> Prop) : wf a b s -> inside h s -> blank_of a x ->
      Permutation (map (qmap (kA (cmp := cmp) s)) (around a x))
                  (map (qmap (kB (cmp := cmp) s)) (around b (h x))) ->
      (forall K y, In (Some (h y)) (quad_comps K) -> blank_of a y ->
         ~ In y (map fst (forward s)) -> cA K = cB K) ->
      forall K, In (Some (h x)) (quad_comps K) -> cA K = cB K.
    Proof.
      intros W Hi Bx P IH.
      rewrite (kA_erase s W Hi), (kB_erase s W) in P by apply around_incl.
      apply (permutation_erase qdec (later s)) in P.
      - intros K HK. apply (Permutation_count_occ qdec) with (x := K) in P.
        rewrite (count_a x K Bx), (count_b (h x) K (bb_into _ _ _ _ BB x Bx)) in P.
        apply (count_occ_In odec) in HK. nia.
      - intros K _ E. apply qmap_id. intros [y|] Hy; [|reflexivity]. cbn [erase]. unfold kB.
        destruct (m_contains cmp y (backward s)) eqn:C; [reflexivity|].
        assert (X : later s K = true).
        { apply existsb_exists. exists (Some y). split; [assumption|]. now rewrite C. }
        congruence.
      - intros K E. rewrite (count_a x K Bx), (count_b (h x) K (bb_into _ _ _ _ BB x Bx)).
        f_equal. apply existsb_exists in E as ([y|] & Hy & C); [|discriminate].
        apply negb_true_iff in C.
        assert (X : (exists x, blank_of a x /\ h x = y) -> cA K = cB K).
        { intros (z & Bz & Ez). subst y. apply (IH K z); [assumption|assumption|]. intros Hin.
          apply (m_get_key L) in Hin as [v Hv]. pose proof (Hi _ _ Hv) as <-. apply W in Hv.
          apply (m_contains_false L) in C. apply (m_get_some_key L) in Hv. contradiction. }
        destruct (in_dec qdec K (map (blank_part anon h) a)) as [Ka|Ka]; [apply X; now apply (part_a K)|].
        destruct (in_dec qdec K (map (blank_part anon (fun x => x)) b)) as [Kb|Kb]; [apply X; now apply (part_b K)|].
        apply (count_occ_not_In qdec) in Ka, Kb. congruence.
    Qed.
  End Given.

  Context (iri_refl : forall t, iri_eqb t t = true) (tag_refl : forall t, tag_eqb t t = true).
  Context (apart : terms_apart iri_eqb (literal_cow_eqb iri_eqb tag_eqb) I st).

  Lemma matches_with_perm a b s x y sa sb : wf a b s ->
    m_get cmp x (collect a) = Some sa -> m_get cmp y (collect b) = Some sb ->
    sig_matches_with cmp iri_eqb tag_eqb I st s sa sb = true <->
    Permutation (map (qmap (kA (cmp := cmp) s)) (around a x)) (map (qmap (kB (cmp := cmp) s)) (around b y)).
  Proof.
    intros W Ea Eb. apply (collect_get L) in Ea as [_ Pa], Eb as [_ Pb].
    rewrite (sig_matches_with_spec L iri_eqb tag_eqb I st iri_refl tag_refl apart _ _ s sa sb W).
    - now rewrite Pa, Pb.
    - intros z Hz. now apply (collect_key L) in Hz as [? _].
    - intros z Hz. now apply (collect_key L) in Hz as [? _].
  Qed.

  Lemma path_inside_counts a b h s cands f : blank_bijection anon a b h ->
    path (collect a) (collect b) s cands f -> wf a b s -> NoDup (map fst cands) ->
    (forall x, In x (map fst cands) -> ~ In x (map fst (forward s))) ->
    (forall x, blank_of a x -> In x (map fst (forward s)) \/ In x (map fst cands)) ->
    inside h f ->
    forall K x, In x (map fst cands) -> In (Some (h x)) (quad_comps K) ->
      count_occ qdec (map (blank_part anon h) a) K =
      count_occ qdec (map (blank_part anon (fun x => x)) b) K.
  Proof.
    intros BB P. induction P as [s|s x bs y sa sb cands f Hb C Ea Eb M P IH]; cbn [map fst];
      intros W N D T Hi; [intros K x []|].
    inversion N as [|? ? N1 N2]; subst.
    assert (Nx : ~ In x (map fst (forward s))) by (apply D; now left).
    assert (W' : wf a b (insert x y s)).
    { apply (insert_wf L); try assumption; eapply (m_get_some_key L); eassumption. }
    assert (D' : forall z, In z (map fst cands) -> ~ In z (map fst (forward (insert x y s)))).
    { intros z Hz. rewrite (insert_keys L). intros [->|H]; [contradiction|]. eapply D; [right|]; eassumption. }
    assert (T' : forall z, blank_of a z -> In z (map fst (forward (insert x y s))) \/ In z (map fst cands)).
    { intros z Bz. rewrite (insert_keys L). destruct (T z Bz) as [?|[?|?]]; [left; now right|left; now left|now right]. }
    specialize (IH W' N2 D' T' Hi).
    destruct (path_wf L _ _ _ _ _ _ _ _ _ P W' N2 D') as (_ & X & _).
    assert (Hs : inside h (insert x y s)) by (intros u v H; now apply Hi, X).
    assert (Ey : h x = y).
    { apply Hs. eapply (insert_get L). exact W. }
    intros K z Hz HK. destruct Hz as [<-|Hz]; [|now apply (IH K z)].
    apply (step_counts BB (insert x y s) x (fun _ => True) W' Hs).
    - now apply (collect_get L) in Ea.
    - apply (matches_with_perm a b (insert x y s) x (h x) sa sb W' Ea); [now rewrite Ey|assumption].
    - intros K' u HK' Bu Nu. apply (IH K' u); [|assumption]. destruct (T' u Bu); [contradiction|assumption].
    - assumption.
  Qed.

  Lemma path_choice am bm s cands f : path am bm s cands f ->
    bij_wf (cmp := cmp) (fun x => In x (map fst am)) (fun x => In x (map fst bm)) s ->
    NoDup (map fst cands) ->
    (forall x, In x (map fst cands) -> ~ In x (map fst (forward s))) ->
    forall x bs, In (x, bs) cands -> exists y, In y bs /\ m_get cmp x (forward f) = Some y.
  Proof.
    induction 1 as [s|s x bs y sa sb cands f Hb C Ea Eb M P IH]; cbn [map fst]; intros W N D;
      [intros x bs []|].
    inversion N as [|? ? N1 N2]; subst.
    assert (Nx : ~ In x (map fst (forward s))) by (apply D; now left).
    assert (W' : bij_wf (cmp := cmp) (fun x => In x (map fst am)) (fun x => In x (map fst bm)) (insert x y s)).
    { apply (insert_wf L); try assumption; eapply (m_get_some_key L); eassumption. }
    assert (D' : forall z, In z (map fst cands) -> ~ In z (map fst (forward (insert x y s)))).
    { intros z Hz. rewrite (insert_keys L). intros [->|H]; [contradiction|]. eapply D; [right|]; eassumption. }
    intros u bs' [[= <- <-]|Hu].
    - exists y. split; [assumption|]. destruct (path_wf L _ _ _ _ _ _ _ _ _ P W' N2 D') as (_ & X & _).
      apply X. eapply (insert_get L). exact W.
    - now apply IH.
  Qed.

  (** Blank parts of the quads with blank nodes. *)
  Definition has_some (K : quad (option R)) : bool :=
    existsb (fun o => match o with Some _ => true | None => false end) (quad_comps K).
  Lemma has_blank_some (h : R -> R) q : has_some (blank_part anon h q) = has_blank anon q.
  Proof.
    unfold has_some, has_blank, blank_part. rewrite qmap_comps.
    induction (quad_comps q) as [|x l IH]; cbn; [reflexivity|]. rewrite IH. now destruct (anon x).
  Qed.
  Lemma filter_map_comm (h : R -> R) d :
    map (blank_part anon h) (filter (has_blank anon) d) = filter has_some (map (blank_part anon h) d).
  Proof.
    induction d as [|q d IH]; cbn [filter map]; [reflexivity|]. rewrite has_blank_some.
    destruct (has_blank anon q); cbn [map]; now rewrite IH.
  Qed.
  Lemma blank_parts_perm h a b :
    Permutation (map (blank_part anon h) (filter (has_blank anon) a))
                (map (blank_part anon (fun x => x)) (filter (has_blank anon) b)) <->
    (forall K, has_some K = true ->
       count_occ qdec (map (blank_part anon h) a) K =
       count_occ qdec (map (blank_part anon (fun x => x)) b) K).
  Proof.
    rewrite !filter_map_comm, (Permutation_count_occ qdec). split; intros H K.
    - intros E. specialize (H K). rewrite !count_filter, E in H. exact H.
    - rewrite !count_filter. destruct (has_some K) eqn:E; [now apply H|reflexivity].
  Qed.

  Lemma find_half a b f : find_bijection_with a b = Some (Some f) ->
    half_isomorphism cmp anon a b (as_function cmp (forward f)).
  Proof.
    intros H. destruct (find_bijective a b f H) as [BB _]. destruct (find_wf a b f H) as [W KF].
    set (h := as_function cmp (forward f)) in *.
    apply find_inv in H as (EL & _ & c & Ec & P).
    apply candidates_known in Ec as (S & K & C & _).
    apply (ssorted_nodup L) in S.
    assert (Hi : inside h f).
    { intros x y E. unfold h. now rewrite (as_function_get L), E. }
    split; [assumption|]. split; [assumption|]. split.
    - apply blank_parts_perm. intros k Hk. apply existsb_exists in Hk as ([y|] & Hy & Hs); [|discriminate].
      assert (X : (exists x, blank_of a x /\ h x = y) ->
        count_occ qdec (map (blank_part anon h) a) k =
        count_occ qdec (map (blank_part anon (fun x => x)) b) k).
      { intros (x & Bx & <-).
        apply (path_inside_counts a b h bij_new c f BB P) with (x := x); try assumption.
        - apply bij_new_wf.
        - cbn; tauto.
        - intros z Bz. right. now apply K.
        - now apply K. }
      destruct (in_dec qdec k (map (blank_part anon h) a)) as [Ka|Ka];
        [apply X; now apply (part_a (a := a) k)|].
      destruct (in_dec qdec k (map (blank_part anon (fun x => x)) b)) as [Kb|Kb];
        [apply X; now apply (part_b BB k)|].
      apply (count_occ_not_In qdec) in Ka, Kb. congruence.
    - intros x Bx. apply K in Bx. apply in_map_iff in Bx as ([x' bs] & E & Hc). cbn in E; subst x'.
      destruct (path_choice _ _ _ _ _ P (bij_new_wf _ _) S) with (x := x) (bs := bs) as (y & Hy & G);
        [cbn; tauto|assumption|].
      destruct (C x bs Hc) as (sa & Ha & _ & HB). apply HB in Hy. destruct Hy as (sb & Hb & M).
      apply in_of_size in Hb as [Hb _].
      apply (in_m_get L) in Ha, Hb; try apply (collect_sorted L).
      apply (collect_get L) in Ha as [_ Pa], Hb as [_ Pb].
      apply (sig_matches_spec iri_eqb tag_eqb I st iri_refl tag_refl apart) in M.
      rewrite Pa, Pb in M. now rewrite (Hi x y G).
  Qed.

  (** ** Conversely *)
  Lemma total_blanks d :
    total_blank_count I st d =
    list_sum (map (fun q => length (filter anon (quad_comps q))) (filter (has_blank anon) d)).
  Proof.
    unfold total_blank_count.
    assert (X : forall n, fold_left (fun c q => c + blank_count I st q) d n =
      n + list_sum (map (fun q => length (filter anon (quad_comps q))) (filter (has_blank anon) d))).
    { induction d as [|q d IH]; intros n; cbn [fold_left filter map list_sum]; [cbn; lia|]. rewrite IH.
      assert (E : blank_count I st q = length (filter anon (quad_comps q))).
      { destruct q as [s p o [g|]]; unfold blank_count, quad_comps; cbn;
          destruct (anon s), (anon p), (anon o); try destruct (anon g); reflexivity. }
      destruct (has_blank anon q) eqn:Hb; cbn [map list_sum fold_right]; [rewrite E; unfold list_sum; cbn [fold_right]; lia|].
      enough (blank_count I st q = 0) by lia. rewrite E.
      destruct (filter anon (quad_comps q)) as [|x l] eqn:F; [reflexivity|].
      assert (In x (filter anon (quad_comps q))) as Hx by (rewrite F; now left).
      apply filter_In in Hx as [Hx Ax].
      assert (has_blank anon q = true) by (apply existsb_exists; now exists x). congruence. }
    now rewrite X.
  Qed.
  Lemma somes_blanks (h : R -> R) q :
    length (filter (fun o => match o with Some _ => true | None => false end)
      (quad_comps (blank_part anon h q))) = length (filter anon (quad_comps q)).
  Proof.
    unfold blank_part. rewrite qmap_comps. induction (quad_comps q) as [|x l IH]; cbn; [reflexivity|].
    destruct (anon x); cbn; now rewrite IH.
  Qed.

  Section Follow.
    Context {a b : list (quad R)} {h : R -> R} (HI : half_isomorphism cmp anon a b h).

    Lemma follow_path s cands : wf a b s -> inside h s -> NoDup (map fst cands) ->
      (forall x, In x (map fst cands) -> ~ In x (map fst (forward s))) ->
      (forall x bs, In (x, bs) cands -> blank_of a x /\ In (h x) bs) ->
      exists f, path (collect a) (collect b) s cands f.
    Proof.
      destruct HI as (BB & _ & BP & _).
      revert s; induction cands as [|[x bs] cands IH]; intros s W Hi N D C; [exists s; constructor|].
      cbn [map fst] in *. inversion N as [|? ? N1 N2]; subst.
      destruct (C x bs (or_introl eq_refl)) as [Bx Hx].
      assert (Nx : ~ In x (map fst (forward s))) by (apply D; now left).
      assert (Nb : m_contains cmp (h x) (backward s) = false).
      { apply (m_contains_false L). intros Hin. apply (m_get_key L) in Hin as [x' E].
        apply W in E. destruct (wf_anon a b s _ _ W E) as [Bx' _].
        pose proof (Hi _ _ E) as E2. apply (bb_inj _ _ _ _ BB) in E2; [|assumption|assumption]. subst.
        apply (m_get_some_key L) in E. contradiction. }
      destruct (collect_get_ex L I st a x Bx) as [sa Ea].
      pose proof (bb_into _ _ _ _ BB x Bx) as By.
      destruct (collect_get_ex L I st b (h x) By) as [sb Eb].
      assert (W' : wf a b (insert x (h x) s)).
      { apply (insert_wf L); try assumption; eapply (m_get_some_key L); eassumption. }
      assert (Hi' : inside h (insert x (h x) s)).
      { intros u v. cbn. rewrite (m_get_insert L) by apply W.
        destruct (same cmp x u) eqn:E; [|apply Hi]. apply (same_true L) in E. congruence. }
      destruct (IH (insert x (h x) s) W' Hi' N2) as [f P].
      { intros z Hz. rewrite (insert_keys L). intros [->|H]; [contradiction|]. eapply D; [right|]; eassumption. }
      { intros z zs Hz. apply C. now right. }
      exists f. econstructor; try eassumption.
      apply (matches_with_perm a b _ x (h x) sa sb W' Ea Eb).
      rewrite (kA_erase BB _ W' Hi'), (kB_erase _ W') by apply around_incl.
      apply Permutation_map, (Permutation_count_occ qdec). intros K.
      rewrite (count_a BB x K Bx), (count_b (h x) K By).
      destruct (in_dec odec (Some (h x)) (quad_comps K)) as [HK|HK].
      - f_equal. apply (proj1 (blank_parts_perm h a b) BP). apply existsb_exists. now exists (Some (h x)).
      - apply (count_occ_not_In odec) in HK. now rewrite HK.
    Qed.

    Lemma sizes x sa sb : m_get cmp x (collect a) = Some sa -> m_get cmp (h x) (collect b) = Some sb ->
      length sb = length sa /\ sig_matches iri_eqb tag_eqb I st sa sb = true.
    Proof.
      intros Ea Eb. apply (collect_get L) in Ea as [Bx Pa], Eb as [_ Pb].
      destruct HI as (_ & _ & _ & HN). specialize (HN x Bx). rewrite <- Pa, <- Pb in HN. split.
      - apply Permutation_length in HN. rewrite !map_length in HN. congruence.
      - now apply (sig_matches_spec iri_eqb tag_eqb I st iri_refl tag_refl apart).
    Qed.

    Lemma keys_perm : Permutation (map h (map fst (collect a))) (map fst (collect b)).
    Proof.
      destruct HI as (BB & _).
      apply NoDup_Permutation.
      - assert (ND : NoDup (map fst (collect a))) by (apply (ssorted_nodup L), (collect_sorted L)).
        assert (X : forall x y, In x (map fst (collect a)) -> In y (map fst (collect a)) -> h x = h y -> x = y).
        { intros x y Hx Hy. apply (collect_key L) in Hx, Hy. now apply (bb_inj _ _ _ _ BB). }
        revert ND X. generalize (map fst (collect a)) as l. induction l as [|x l IH]; intros ND X; cbn;
          [constructor|].
        inversion ND as [|? ? H1 H2]; subst. constructor.
        + intros Hin. apply in_map_iff in Hin as (y & E & Hy).
          apply H1. rewrite <- (X y x); [assumption|now right|now left|assumption].
        + apply IH; [assumption|]. intros u v Hu Hv. apply X; now right.
      - apply (ssorted_nodup L), (collect_sorted L).
      - intros y. rewrite (collect_key L), in_map_iff. split.
        + intros (x & <- & Hx). apply (collect_key L) in Hx. now apply (bb_into _ _ _ _ BB).
        + intros By. destruct (bb_onto _ _ _ _ BB y By) as (x & Bx & E). exists x.
          split; [assumption|]. now apply (collect_key L).
    Qed.
    Lemma split_keys : map fst (split_by_size (collect a)) = map fst (split_by_size (collect b)).
    Proof.
      destruct HI as (BB & _).
      pose proof (collect_sorted L I st a) as SA. pose proof (collect_sorted L I st b) as SB.
      apply (ssorted_ext nat_compare_laws).
      - apply (split_spec L _ SA).
      - apply (split_spec L _ SB).
      - intros n. rewrite (split_key L _ n SA), (split_key L _ n SB). split.
        + intros (x & s & Hx & E). apply (in_m_get L) in Hx; [|assumption].
          destruct (collect_get L I st a x s Hx) as [Bx _].
          destruct (collect_get_ex L I st b (h x) (bb_into _ _ _ _ BB x Bx)) as [sb Eb].
          exists (h x), sb. split; [now apply (m_get_in L)|]. destruct (sizes x s sb Hx Eb). congruence.
        + intros (y & s & Hy & E). apply (in_m_get L) in Hy; [|assumption].
          destruct (collect_get L I st b y s Hy) as [By _].
          destruct (bb_onto _ _ _ _ BB y By) as (x & Bx & <-).
          destruct (collect_get_ex L I st a x Bx) as [sa Ea].
          exists x, sa. split; [now apply (m_get_in L)|]. destruct (sizes x sa s Ea Hy). congruence.
    Qed.

    Lemma half_find : exists f, find_bijection_with a b = Some (Some f).
    Proof.
      pose proof HI as (BB & EL & BP & HN).
      pose proof (collect_sorted L I st a) as SA. pose proof (collect_sorted L I st b) as SB.
      unfold IsoModel.find_bijection_with.
      rewrite (proj2 (Nat.eqb_eq _ _) EL). cbn [negb].
      assert (ET : total_blank_count I st a = total_blank_count I st b).
      { rewrite !total_blanks.
        rewrite (map_ext _ _ (fun q => eq_sym (somes_blanks h q)) (filter (has_blank anon) a)).
        rewrite (map_ext _ _ (fun q => eq_sym (somes_blanks (fun x => x) q)) (filter (has_blank anon) b)).
        apply list_sum_perm. apply (Permutation_map (fun K => length (filter (fun o : option R =>
          match o with Some _ => true | None => false end) (quad_comps K)))) in BP.
        now rewrite !map_map in BP. }
      rewrite ET, Nat.eqb_refl. cbn [negb].
      assert (EK : length (collect a) = length (collect b)).
      { pose proof keys_perm as P. apply Permutation_length in P. now rewrite !map_length in P. }
      rewrite EK, Nat.eqb_refl. cbn [negb].
      assert (EG : length (split_by_size (collect a)) = length (split_by_size (collect b))).
      { pose proof split_keys as P. apply (f_equal (@length nat)) in P. now rewrite !map_length in P. }
      rewrite EG, Nat.eqb_refl. cbn [negb].
      assert (EF : forallb (fun '(n, _) => m_contains Nat.compare n (split_by_size (collect b)))
        (split_by_size (collect a)) = true).
      { apply forallb_forall. intros [n g] Hg. apply (m_contains_true nat_compare_laws).
        rewrite <- split_keys. apply in_map_iff. now exists (n, g). }
      rewrite EF. cbn [negb].
      destruct (candidates_found L iri_eqb tag_eqb I st (collect a) (collect b) (split_by_size (collect a)) [] SA SB)
        as [c Ec].
      { trivial. }
      { intros x sa Hx. apply (in_m_get L) in Hx; [|assumption].
        destruct (collect_get L I st a x sa Hx) as [Bx _].
        destruct (collect_get_ex L I st b (h x) (bb_into _ _ _ _ BB x Bx)) as [sb Eb].
        exists (h x), sb. split; [now apply (m_get_in L)|]. now apply (sizes x). }
      rewrite Ec. apply candidates_known in Ec as (S & K & C & Kn).
      destruct (follow_path bij_new c) as [f P].
      - apply bij_new_wf.
      - intros x y H. discriminate.
      - now apply (ssorted_nodup L) in S.
      - cbn; tauto.
      - intros x bs Hx. assert (Bx : blank_of a x).
        { apply K, in_map_iff. now exists (x, bs). }
        split; [assumption|]. destruct (C x bs Hx) as (sa & Ha & _ & HB). apply HB.
        apply (in_m_get L) in Ha; [|assumption].
        destruct (collect_get_ex L I st b (h x) (bb_into _ _ _ _ BB x Bx)) as [sb Eb].
        destruct (sizes x sa sb Ha Eb) as [E M].
        exists sb. split; [|assumption]. apply in_of_size. split; [now apply (m_get_in L)|assumption].
      - apply (path_find L) in P; assumption.
    Qed.
  End Follow.
End Exact.
