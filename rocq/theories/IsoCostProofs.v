(** How many steps the search of IsoModel.v takes. *)
From Coq Require Import List Bool Arith Lia Permutation Sorted Factorial.
Import ListNotations.
From Verif Require Import Base TextModel DisplayModel TermModel TripleModel InterpretationModel
  SetSpec ContainerSpec IsoModel IsoSpec BaseProofs IsoMapProofs IsoProofs IsoSearchProofs IsoExactProofs
  IsoCostModel.

Section Cost.
  Context {R St : Type} {cmp : R -> R -> comparison} (L : ord_laws cmp).
  Context {iri_eqb tag_eqb : text -> text -> bool} {I : interp_rev St R} {st : St}.
  Notation anon := (i_is_anonymous I st).
  Notation around := (around cmp).
  Notation collect := (collect_signatures cmp I st).
  Notation insert := (bij_insert cmp).
  Notation split_by_size := (split_by_size cmp).
  Notation candidates_of := (candidates_of cmp iri_eqb tag_eqb I st).
  Notation candidates_group := (candidates_group cmp iri_eqb tag_eqb I st).
  Notation candidates := (candidates cmp iri_eqb tag_eqb I st).
  Notation find := (find_from_candidates cmp iri_eqb tag_eqb I st).
  Notation find_bijection_with := (find_bijection_with cmp iri_eqb tag_eqb I st).
  Notation sig_matches_with := (sig_matches_with cmp iri_eqb tag_eqb I st).
  Notation counted := (find_counted cmp iri_eqb tag_eqb I st).
  Notation find_bijection_counted := (find_bijection_counted cmp iri_eqb tag_eqb I st).
  Notation blank_of := (blank_of anon).
  Implicit Types (a b : list (quad R)) (am bm : list (R * list (quad R))) (s : bijection R).

  (** The loop over the candidates of one blank node. *)
  Definition tries s (x : R) cands am bm :=
    fix try (ys : list R) : option (option (bijection R)) * cost :=
    match ys with
    | [] => (Some None, no_cost)
    | y :: ys =>
        if m_contains cmp y (backward s) then try ys
        else
          match m_get cmp x am, m_get cmp y bm with
          | Some sa, Some sb =>
              if sig_matches_with (insert x y s) sa sb then
                let '(r, c) := counted (insert x y s) cands am bm in
                match r with
                | None => (None, c)
                | Some (Some f) => (Some (Some f), c)
                | Some None => let '(r, d) := try ys in (r, then_cost c d)
                end
              else try ys
          | _, _ => (None, no_cost)
          end
    end.
  Lemma counted_cons s x ys cands am bm :
    counted s ((x, ys) :: cands) am bm =
    let '(r, c) := tries s x cands am bm ys in (r, inside_call c).
  Proof. reflexivity. Qed.

  Lemma tries_cons s x cands am bm y ys :
    tries s x cands am bm (y :: ys) =
    if m_contains cmp y (backward s) then tries s x cands am bm ys
    else
      match m_get cmp x am, m_get cmp y bm with
      | Some sa, Some sb =>
          if sig_matches_with (insert x y s) sa sb then
            let '(r, c) := counted (insert x y s) cands am bm in
            match r with
            | None => (None, c)
            | Some (Some f) => (Some (Some f), c)
            | Some None => let '(r, d) := tries s x cands am bm ys in (r, then_cost c d)
            end
          else tries s x cands am bm ys
      | _, _ => (None, no_cost)
      end.
  Proof. reflexivity. Qed.

  (** ** Counting does not change the answer *)
  Lemma counted_find am bm cands : forall s, fst (counted s cands am bm) = find s cands am bm.
  Proof.
    induction cands as [|[x ys] cands IH]; intros s; [reflexivity|]. rewrite counted_cons.
    enough (E : fst (tries s x cands am bm ys) = find s ((x, ys) :: cands) am bm).
    { destruct (tries s x cands am bm ys). exact E. }
    induction ys as [|y ys IHy]; [reflexivity|]. rewrite find_cons, tries_cons.
    destruct (m_contains cmp y (backward s)); [assumption|].
    destruct (m_get cmp x am) as [sa|]; [|reflexivity].
    destruct (m_get cmp y bm) as [sb|]; [|reflexivity].
    destruct (sig_matches_with (insert x y s) sa sb); [|assumption].
    specialize (IH (insert x y s)). destruct (counted (insert x y s) cands am bm) as [r c]. cbn in IH. rewrite <- IH.
    destruct r as [[f|]|]; [reflexivity| |reflexivity].
    destruct (tries s x cands am bm ys). exact IHy.
  Qed.
  Lemma bijection_counted a b : fst (find_bijection_counted a b) = find_bijection_with a b.
  Proof.
    unfold IsoCostModel.find_bijection_counted, IsoModel.find_bijection_with. cbv zeta.
    destruct (negb (length a =? length b)); [reflexivity|].
    destruct (negb (total_blank_count I st a =? _)); [reflexivity|].
    destruct (negb (length (collect a) =? _)); [reflexivity|].
    destruct (negb (length (split_by_size (collect a)) =? _)); [reflexivity|].
    destruct (negb (forallb _ (split_by_size (collect a)))); [reflexivity|].
    destruct (candidates (split_by_size (collect a)) (split_by_size (collect b)) []) as [[c|]|]; [|reflexivity|reflexivity].
    apply counted_find.
  Qed.

  (** ** Depth *)
  Lemma counted_depth am bm cands : forall s,
    depth (snd (counted s cands am bm)) <= S (length cands) /\
    forall f, fst (counted s cands am bm) = Some (Some f) ->
      depth (snd (counted s cands am bm)) = S (length cands).
  Proof.
    induction cands as [|[x ys] cands IH]; intros s; [cbn; split; [lia|reflexivity]|]. rewrite counted_cons.
    assert (E : depth (snd (tries s x cands am bm ys)) <= S (length cands) /\
      forall f, fst (tries s x cands am bm ys) = Some (Some f) -> depth (snd (tries s x cands am bm ys)) = S (length cands)).
    { induction ys as [|y ys IHy]; [cbn; split; [lia|discriminate]|]. rewrite tries_cons.
      destruct (m_contains cmp y (backward s)); [assumption|].
      destruct (m_get cmp x am) as [sa|]; [|cbn; split; [lia|discriminate]].
      destruct (m_get cmp y bm) as [sb|]; [|cbn; split; [lia|discriminate]].
      destruct (sig_matches_with (insert x y s) sa sb); [|assumption].
      specialize (IH (insert x y s)). destruct (counted (insert x y s) cands am bm) as [r c]. cbn in IH.
      destruct IH as [H1 H2].
      destruct r as [[f|]|]; cbn; [|destruct (tries s x cands am bm ys) as [r d]; cbn in *|split; [lia|discriminate]].
      - split; [assumption|]. intros f' [= <-]. now apply (H2 f).
      - destruct IHy as [H3 H4]. split; [lia|]. intros f E. specialize (H4 f E). lia. }
    destruct (tries s x cands am bm ys) as [r c]. cbn in *. destruct E as [E1 E2].
    split; [lia|]. intros f E. now rewrite (E2 f E).
  Qed.

  (** ** Calls, from above *)
  Lemma NoDup_app_intro {A} (l m : list A) : NoDup l -> NoDup m -> (forall x, In x l -> In x m -> False) -> NoDup (l ++ m).
  Proof.
    induction 1 as [|x l Hx N IH]; intros Nm D; cbn; [assumption|]. constructor.
    - intros H. apply in_app_or in H as [H|H]; [contradiction|]. apply (D x); [now left|assumption].
    - apply IH; [assumption|]. intros y Hy. apply D. now right.
  Qed.
  Lemma m_alter_length {V} k (f : option V -> V) m : ~ In k (map fst m) -> length (m_alter cmp k f m) = S (length m).
  Proof.
    induction m as [|[k' v] m IH]; cbn; [reflexivity|]. intros N.
    destruct (cmp k k') eqn:E; [|reflexivity|cbn; now rewrite IH by tauto].
    apply L in E. subst. exfalso. tauto.
  Qed.
  Notation wf am bm := (bij_wf (cmp := cmp) (fun x => In x (map fst am)) (fun x => In x (map fst bm))).

  Lemma unused_few am bm s ys : wf am bm s -> NoDup ys -> (forall y, In y ys -> In y (map fst bm)) ->
    length (filter (fun y => negb (m_contains cmp y (backward s))) ys) + length (backward s) <= length bm.
  Proof.
    intros W N K. rewrite <- (map_length fst (backward s)), <- (map_length fst bm), <- app_length.
    apply NoDup_incl_length.
    - apply NoDup_app_intro; [now apply NoDup_filter|apply (ssorted_nodup L), W|].
      intros y Hy Hb. apply filter_In in Hy as [_ Hy]. apply negb_true_iff in Hy.
      now apply (m_contains_false L) in Hy.
    - intros y Hy. apply in_app_or in Hy as [Hy|Hy]; [apply filter_In in Hy as [Hy _]; auto|].
      apply (m_get_key L) in Hy as [x E]. apply (wf_inv _ _ _ W) in E. apply (wf_dom _ _ _ W) in E. tauto.
  Qed.

  Lemma counted_calls am bm cands : forall s, wf am bm s -> NoDup (map fst cands) ->
    (forall x, In x (map fst cands) -> ~ In x (map fst (forward s))) ->
    (forall x ys, In (x, ys) cands -> NoDup ys /\ forall y, In y ys -> In y (map fst bm)) ->
    length (backward s) + length cands = length bm ->
    calls (snd (counted s cands am bm)) <= fact (S (length cands)).
  Proof.
    induction cands as [|[x ys] cands IH]; intros s W N D K E; [cbn; lia|]. rewrite counted_cons.
    cbn [map fst] in N, D. inversion N as [|? ? N1 N2]; subst.
    destruct (K x ys (or_introl eq_refl)) as [Ny Ky].
    pose proof (unused_few am bm s ys W Ny Ky) as U.
    assert (H : forall y sa sb, m_contains cmp y (backward s) = false -> m_get cmp x am = Some sa ->
      m_get cmp y bm = Some sb -> calls (snd (counted (insert x y s) cands am bm)) <= fact (S (length cands))).
    { intros y sa sb C Ea Eb.
      assert (Nx : ~ In x (map fst (forward s))) by (apply D; now left).
      apply IH.
      - apply (insert_wf L); try assumption; eapply (m_get_some_key L); eassumption.
      - assumption.
      - intros z Hz. rewrite (insert_keys L). intros [->|Hf]; [contradiction|]. eapply D; [right|]; eassumption.
      - intros z zs Hz. apply (K z zs). now right.
      - apply (m_contains_false L) in C. cbn. unfold m_insert. rewrite m_alter_length by assumption. cbn in E. lia. }
    assert (X : calls (snd (tries s x cands am bm ys)) <=
      length (filter (fun y => negb (m_contains cmp y (backward s))) ys) * fact (S (length cands))).
    { cbn [length] in E. clear U Ny Ky K. induction ys as [|y ys IHy]; [cbn; lia|]. rewrite tries_cons. cbn [filter].
      destruct (m_contains cmp y (backward s)) eqn:C; cbn [negb]; [assumption|].
      cbn [length]. destruct (m_get cmp x am) as [sa|] eqn:Ea; [|cbn; lia].
      destruct (m_get cmp y bm) as [sb|] eqn:Eb; [|cbn; lia].
      destruct (sig_matches_with (insert x y s) sa sb); [|lia].
      specialize (H y sa sb C eq_refl Eb).
      destruct (counted (insert x y s) cands am bm) as [r c]. cbn [snd] in H.
      destruct r as [[f|]|]; cbn [snd]; [lia| |lia].
      destruct (tries s x cands am bm ys) as [r d]. cbn [snd calls then_cost] in *. lia. }
    destruct (tries s x cands am bm ys) as [r c]. cbn [snd calls inside_call length] in *.
    assert (Hn : length (filter (fun y => negb (m_contains cmp y (backward s))) ys) <= S (length cands)) by lia.
    pose proof (lt_O_fact (S (length cands))) as P.
    change (fact (S (S (length cands)))) with (S (S (length cands)) * fact (S (length cands))).
    apply (Nat.mul_le_mono_r _ _ (fact (S (length cands)))) in Hn. lia.
  Qed.

  (** ** Calls, with one candidate each *)
  Lemma counted_single am bm cands : forall s, (forall x ys, In (x, ys) cands -> length ys <= 1) ->
    calls (snd (counted s cands am bm)) <= S (length cands).
  Proof.
    induction cands as [|[x ys] cands IH]; intros s K; [cbn; lia|]. rewrite counted_cons.
    assert (K' : forall x ys, In (x, ys) cands -> length ys <= 1) by (intros; eapply K; right; eassumption).
    pose proof (K x ys (or_introl eq_refl)) as Hy.
    destruct ys as [|y [|z ys]]; [cbn; lia| |cbn in Hy; lia]. rewrite tries_cons.
    destruct (m_contains cmp y (backward s)); [cbn; lia|].
    destruct (m_get cmp x am) as [sa|]; [|cbn; lia].
    destruct (m_get cmp y bm) as [sb|]; [|cbn; lia].
    destruct (sig_matches_with (insert x y s) sa sb); [|cbn; lia].
    specialize (IH (insert x y s) K'). destruct (counted (insert x y s) cands am bm) as [r c].
    destruct r as [[f|]|]; cbn in *; lia.
  Qed.

  (** ** Calls, from below *)
  Lemma counted_some am bm cands s : 1 <= calls (snd (counted s cands am bm)).
  Proof.
    destruct cands as [|[x ys] cands]; [cbn; lia|]. rewrite counted_cons.
    destruct (tries s x cands am bm ys). cbn. lia.
  Qed.
  Lemma counted_factorial am bm (U : list R) :
    (forall y, In y U -> In y (map fst bm)) -> forall front rest,
    (forall s x ys y sa sb, In (x, ys) front -> In y U -> wf am bm s -> ~ In x (map fst (forward s)) ->
       m_contains cmp y (backward s) = false -> m_get cmp x am = Some sa -> m_get cmp y bm = Some sb ->
       sig_matches_with (insert x y s) sa sb = true) ->
    NoDup (map fst front) -> (forall x ys, In (x, ys) front -> In x (map fst am) /\ incl U ys) ->
    forall s V, wf am bm s -> NoDup V -> incl V U -> length V = length front ->
    (forall y, In y V -> m_contains cmp y (backward s) = false) ->
    (forall x, In x (map fst front) -> ~ In x (map fst (forward s))) ->
    fst (counted s (front ++ rest) am bm) = Some None ->
    fact (length front) <= calls (snd (counted s (front ++ rest) am bm)).
  Proof.
    intros HU. induction front as [|[x ys] front IH]; intros rest M N K s V W NV IV LV FV D E.
    { apply counted_some. }
    cbn [map fst app] in *. inversion N as [|? ? N1 N2]; subst. rewrite counted_cons in *.
    assert (Nx : ~ In x (map fst (forward s))) by (apply D; now left).
    destruct (K x ys (or_introl eq_refl)) as [Kx Ky].
    destruct (m_get_key L x am Kx) as [sa Ea].
    assert (H : forall y sb, In y V -> m_get cmp y bm = Some sb ->
      sig_matches_with (insert x y s) sa sb = true /\
      (fst (counted (insert x y s) (front ++ rest) am bm) = Some None ->
       fact (length front) <= calls (snd (counted (insert x y s) (front ++ rest) am bm)))).
    { intros y sb Hy Eb. split; [apply (M s x ys y sa sb); auto; now left|]. intros F.
      apply in_split in Hy as (V1 & V2 & ->). apply (IH rest) with (V := V1 ++ V2).
      - intros s0 x0 ys0 y0 sa0 sb0 H0. apply (M s0 x0 ys0). now right.
      - assumption.
      - intros z zs Hz. apply K. now right.
      - apply (insert_wf L); try assumption.
        + apply (m_get_some_key L) in Eb. assumption.
        + apply FV, in_elt.
      - now apply NoDup_remove_1 in NV.
      - intros z Hz. apply IV. apply in_app_or in Hz. apply in_or_app. cbn. tauto.
      - rewrite app_length in *. cbn in LV. lia.
      - intros z Hz. apply (m_contains_false L). cbn. unfold m_insert. rewrite (m_alter_keys L).
        intros [Hq|Hb]; [subst z; apply NoDup_remove_2 in NV; contradiction|].
        assert (Hz' : In z (V1 ++ y :: V2)) by (apply in_app_or in Hz; apply in_or_app; cbn; tauto).
        apply FV, (m_contains_false L) in Hz'. contradiction.
      - intros z Hz. rewrite (insert_keys L). intros [->|Hf]; [contradiction|]. eapply D; [right|]; eassumption.
      - assumption. }
    assert (X : forall zs V', NoDup V' -> incl V' V -> incl V' zs -> fst (tries s x (front ++ rest) am bm zs) = Some None ->
      length V' * fact (length front) <= calls (snd (tries s x (front ++ rest) am bm zs))).
    { clear E. induction zs as [|z zs IHz]; intros V' N' I1 I2 E.
      { destruct V' as [|v V']; [cbn; lia|]. destruct (I2 v (or_introl eq_refl)). }
      rewrite tries_cons in *.
      destruct (in_dec (ord_dec L) z V') as [Hz|Hz].
      - assert (Hz' : In z V) by now apply I1. rewrite (FV z Hz') in *.
        assert (Hzb : In z (map fst bm)) by now apply HU, IV.
        apply (m_get_key L) in Hzb as [sb Eb]. rewrite Ea, Eb in *.
        destruct (H z sb Hz' Eb) as [Hm H2]. rewrite Hm in *.
        destruct (counted (insert x z s) (front ++ rest) am bm) as [r c]. cbn [fst snd] in H2.
        destruct r as [[f|]|]; [discriminate| |discriminate]. specialize (H2 eq_refl).
        apply in_split in Hz as (V1 & V2 & ->).
        assert (H3 : length (V1 ++ V2) * fact (length front) <= calls (snd (tries s x (front ++ rest) am bm zs))).
        { apply IHz.
          - now apply NoDup_remove_1 in N'.
          - intros v Hv. apply I1. apply in_app_or in Hv. apply in_or_app. cbn. tauto.
          - intros v Hv. assert (Hv' : In v (V1 ++ z :: V2)) by (apply in_app_or in Hv; apply in_or_app; cbn; tauto).
            apply I2 in Hv' as [<-|]; [|assumption]. apply NoDup_remove_2 in N'; contradiction.
          - destruct (tries s x (front ++ rest) am bm zs). exact E. }
        destruct (tries s x (front ++ rest) am bm zs) as [r d]. cbn [snd calls then_cost] in *.
        rewrite app_length in *. cbn [length]. lia.
      - assert (I3 : incl V' zs) by (intros v Hv; destruct (I2 v Hv) as [<-|]; [contradiction|assumption]).
        destruct (m_contains cmp z (backward s)); [now apply IHz|]. rewrite Ea in *.
        destruct (m_get cmp z bm) as [sb|]; [|discriminate].
        destruct (sig_matches_with (insert x z s) sa sb); [|now apply IHz].
        destruct (counted (insert x z s) (front ++ rest) am bm) as [r c].
        destruct r as [[f|]|]; [discriminate| |discriminate].
        specialize (IHz V' N' I1 I3). destruct (tries s x (front ++ rest) am bm zs) as [r d].
        cbn [fst snd calls then_cost] in *. specialize (IHz E). lia. }
    assert (IVy : incl V ys) by (intros v Hv; now apply Ky, IV).
    specialize (X ys V NV (fun v H => H) IVy).
    destruct (tries s x (front ++ rest) am bm ys) as [r c]. cbn [fst snd calls inside_call length] in *.
    specialize (X E). rewrite LV in X. change (fact (S (length front))) with (S (length front) * fact (length front)). lia.
  Qed.
End Cost.
