(** Proofs about IsoModel.v. *)
From Coq Require Import List Bool Arith Lia Permutation Sorted.
Import ListNotations.
From Verif Require Import Base TextModel DisplayModel TermModel TripleModel InterpretationModel
  SetSpec ContainerSpec IsoModel IsoSpec BaseProofs IsoMapProofs.

Section Iso.
  Context {R St : Type} {cmp : R -> R -> comparison} (L : ord_laws cmp).
  Context (iri_eqb tag_eqb : text -> text -> bool) (I : interp_rev St R) (st : St).
  Notation anon := (i_is_anonymous I st).
  Notation occ x q := (filter (same cmp x) (quad_comps q)).

  Lemma anon_nameless r : anon r = nameless I st r.
  Proof.
    unfold i_is_anonymous, nameless, i_terms_of, terms_next. cbn.
    destruct (i_iris_of I st r); cbn; [|reflexivity]. now destruct (i_literals_of I st r).
  Qed.

  (** *** Signatures *)
  Notation collect_at := (collect_at cmp I st).
  Notation collect_quad := (collect_quad cmp I st).
  Notation around := (around cmp).
  Notation raw d := (fold_left collect_quad d []).

  Lemma collect_quad_fold m q :
    collect_quad m q = fold_left (fun m r => collect_at r q m) (quad_comps q) m.
  Proof. destruct q as [s p o [g|]]; reflexivity. Qed.

  Definition opt_list {A} (o : option (list A)) : list A := match o with Some l => l | None => [] end.
  Definition nonempty {A} (l : list A) : option (list A) :=
    match l with [] => None | _ => Some l end.

  Lemma nonempty_snoc {A} (l : list A) x : nonempty (l ++ [x]) = Some (l ++ [x]).
  Proof. destruct l; reflexivity. Qed.
  Lemma opt_nonempty {A} (l : list A) : opt_list (nonempty l) = l.
  Proof. now destruct l. Qed.

  Lemma collect_at_sorted r q m : msorted (cmp := cmp) m -> msorted (cmp := cmp) (collect_at r q m).
  Proof. unfold IsoModel.collect_at. intros H. destruct (anon r); [now apply m_alter_sorted|assumption]. Qed.
  Lemma collect_at_get r q (m : list (R * list (quad R))) x (l : list (quad R)) : msorted (cmp := cmp) m -> anon x = true ->
    m_get cmp x m = nonempty l ->
    m_get cmp x (collect_at r q m) = nonempty (l ++ if same cmp x r then [q] else []).
  Proof.
    intros S A H. unfold IsoModel.collect_at. destruct (anon r) eqn:E.
    - rewrite m_get_alter by assumption.
      destruct (same cmp r x) eqn:E1.
      + apply (same_true L) in E1; subst x. rewrite (proj2 (same_true L r r) eq_refl), H.
        unfold sig_insert. destruct l as [|y l]; cbn [nonempty]; reflexivity.
      + destruct (same cmp x r) eqn:E2.
        * apply (same_true L) in E2; subst. rewrite (proj2 (same_true L r r) eq_refl) in E1. discriminate.
        * now rewrite app_nil_r.
    - destruct (same cmp x r) eqn:E2.
      + apply (same_true L) in E2; subst. congruence.
      + now rewrite app_nil_r.
  Qed.
  Lemma collect_at_get_named r q m x : msorted (cmp := cmp) m -> anon x = false ->
    m_get cmp x m = None -> m_get cmp x (collect_at r q m) = None.
  Proof.
    intros S A H. unfold IsoModel.collect_at. destruct (anon r) eqn:E; [|assumption].
    rewrite m_get_alter by assumption.
    destruct (same cmp r x) eqn:E1; [|assumption]. apply (same_true L) in E1; subst. congruence.
  Qed.
  Lemma collect_list q rs m : msorted (cmp := cmp) m ->
    let m' := fold_left (fun m r => collect_at r q m) rs m in
    msorted (cmp := cmp) m' /\
    (forall x l, anon x = true -> m_get cmp x m = nonempty l ->
       m_get cmp x m' = nonempty (l ++ map (fun _ => q) (filter (same cmp x) rs))) /\
    (forall x, anon x = false -> m_get cmp x m = None -> m_get cmp x m' = None).
  Proof.
    revert m; induction rs as [|r rs IH]; intros m S; cbn [fold_left].
    - split; [assumption|]. split; [|tauto]. intros x l _ H. cbn. now rewrite app_nil_r.
    - destruct (IH (collect_at r q m) (collect_at_sorted r q m S)) as (S' & G & N).
      split; [assumption|]. split.
      + intros x l A H. erewrite G; [|assumption|apply collect_at_get; eassumption].
        cbn [filter]. destruct (same cmp x r); cbn [map]; rewrite <- ?app_assoc; reflexivity.
      + intros x A H. apply N; [assumption|]. now apply collect_at_get_named.
  Qed.
  Lemma raw_spec d :
    msorted (cmp := cmp) (raw d) /\
    (forall x, anon x = true -> m_get cmp x (raw d) = nonempty (around d x)) /\
    (forall x, anon x = false -> m_get cmp x (raw d) = None).
  Proof.
    induction d as [|q d IH] using rev_ind.
    - cbn. split; [constructor|]. split; reflexivity.
    - rewrite fold_left_app. cbn [fold_left]. rewrite collect_quad_fold.
      destruct IH as (S & G & N). destruct (collect_list q (quad_comps q) _ S) as (S' & G' & N').
      split; [assumption|]. split.
      + intros x A. erewrite G'; [|assumption|now apply G]. unfold IsoSpec.around.
        rewrite flat_map_app. cbn. now rewrite app_nil_r.
      + intros x A. now apply N', N.
  Qed.

  Notation collect := (collect_signatures cmp I st).
  Lemma collect_keys d : map fst (collect d) = map fst (raw d).
  Proof. unfold collect_signatures. rewrite map_map. apply map_ext. now intros [r s]. Qed.
  Lemma m_get_map {V W} (f : V -> W) x (m : list (R * V)) :
    m_get cmp x (map (fun '(r, s) => (r, f s)) m) = option_map f (m_get cmp x m).
  Proof.
    induction m as [|[k v] m IH]; cbn; [reflexivity|]. now destruct (cmp x k).
  Qed.
  Lemma in_around d x q : In q (around d x) <-> In q d /\ In x (quad_comps q).
  Proof.
    unfold IsoSpec.around. rewrite in_flat_map. split.
    - intros (p & Hp & H). apply in_map_iff in H as (y & <- & H). apply filter_In in H as [H E].
      apply (same_true L) in E; subst. now split.
    - intros [H E]. exists q. split; [assumption|]. apply in_map_iff. exists x. split; [reflexivity|].
      apply filter_In. split; [assumption|]. now apply (same_true L).
  Qed.
  Lemma collect_sorted d : msorted (cmp := cmp) (collect d).
  Proof. unfold msorted. rewrite collect_keys. apply (proj1 (raw_spec d)). Qed.
  Lemma collect_get d x s : m_get cmp x (collect d) = Some s ->
    blank_of anon d x /\ Permutation s (around d x).
  Proof.
    unfold collect_signatures. rewrite m_get_map.
    destruct (raw_spec d) as (S & G & N).
    destruct (anon x) eqn:E.
    - rewrite (G x E). destruct (around d x) as [|q l] eqn:E1; [discriminate|].
      cbn [nonempty option_map]. intros [= <-]. split; [|exact (sort_unstable_perm (cmp := quad_cmp cmp) (q :: l))].
      split; [assumption|]. exists q. apply in_around. rewrite E1. now left.
    - rewrite (N x E). discriminate.
  Qed.
  Lemma collect_key d x : In x (map fst (collect d)) <-> blank_of anon d x.
  Proof.
    split.
    - intros H. apply (m_get_key L) in H as [s H]. now apply collect_get in H.
    - intros [A (q & Hq & Hx)]. destruct (raw_spec d) as (S & G & N).
      rewrite collect_keys. specialize (G x A).
      assert (H : In q (around d x)) by (now apply in_around).
      destruct (around d x) as [|q' l]; [destruct H|]. cbn in G. now apply (m_get_some_key L) in G.
  Qed.
  Lemma collect_get_ex d x : blank_of anon d x -> exists s, m_get cmp x (collect d) = Some s.
  Proof. intros H. apply (m_get_key L). now apply collect_key. Qed.

  (** *** Groups *)
  Notation split_by_size := (split_by_size cmp).
  Definition of_size (n : nat) (m : list (R * list (quad R))) := filter (fun e => length (snd e) =? n) m.
  Lemma increasing_app l x : increasing cmp (l ++ [x]) ->
    increasing cmp l /\ forall y, In y l -> cmp y x = Lt.
  Proof.
    unfold increasing. induction l as [|z l IH]; cbn; intros H; [split; [constructor|tauto]|].
    apply StronglySorted_inv in H as [H F]. apply IH in H as [H G].
    rewrite Forall_forall in F. split.
    - constructor; [assumption|]. rewrite Forall_forall. intros y Hy. apply F, in_or_app. now left.
    - intros y [->|Hy]; [|now apply G]. apply F, in_or_app. right. now left.
  Qed.
  Lemma split_spec (m : list (R * list (quad R))) : msorted (cmp := cmp) m ->
    msorted (cmp := Nat.compare) (split_by_size m) /\
    forall n, m_get Nat.compare n (split_by_size m) = nonempty (of_size n m).
  Proof.
    induction m as [|[r s] m IH] using rev_ind; intros S.
    - split; [constructor|reflexivity].
    - unfold msorted in S. rewrite map_app in S. cbn in S. apply increasing_app in S as [S U].
      destruct (IH S) as [S' G]. unfold IsoModel.split_by_size in *. rewrite fold_left_app. cbn [fold_left].
      split; [now apply (m_alter_sorted nat_compare_laws)|].
      intros n. rewrite (m_get_alter nat_compare_laws) by assumption. rewrite !G.
      unfold of_size. rewrite filter_app. cbn [filter snd].
      destruct (same Nat.compare (length s) n) eqn:E.
      + apply (same_true nat_compare_laws) in E; subst. rewrite Nat.eqb_refl, nonempty_snoc.
        f_equal. fold (of_size (length s) m).
        assert (F : forall x, In x (map fst (of_size (length s) m)) -> cmp x r = Lt).
        { intros x H. apply U. apply in_map_iff in H as ([k v] & <- & H). apply filter_In in H as [H _].
          apply in_map_iff. now exists (k, v). }
        destruct (of_size (length s) m) as [|e l] eqn:E; cbn [nonempty]; [reflexivity|].
        now apply (m_insert_last L).
      + apply (same_false nat_compare_laws) in E. apply Nat.eqb_neq in E. now rewrite E, app_nil_r.
  Qed.
  Lemma in_of_size n m x s : In (x, s) (of_size n m) <-> In (x, s) m /\ length s = n.
  Proof. unfold of_size. rewrite filter_In. cbn. now rewrite Nat.eqb_eq. Qed.
  Lemma split_in (m : list (R * list (quad R))) n g : msorted (cmp := cmp) m ->
    In (n, g) (split_by_size m) -> g = of_size n m.
  Proof.
    intros S H. destruct (split_spec m S) as [S' G]. apply (in_m_get nat_compare_laws) in H; [|assumption].
    rewrite G in H. destruct (of_size n m); [discriminate|now injection H].
  Qed.
  Lemma split_key (m : list (R * list (quad R))) n : msorted (cmp := cmp) m ->
    In n (map fst (split_by_size m)) <-> exists x s, In (x, s) m /\ length s = n.
  Proof.
    intros S. destruct (split_spec m S) as [S' G]. specialize (G n). split.
    - intros H. apply (m_get_key nat_compare_laws) in H as [g H]. rewrite G in H.
      destruct (of_size n m) as [|[x s] l] eqn:E; [discriminate|].
      exists x, s. apply in_of_size. rewrite E. now left.
    - intros (x & s & H). apply in_of_size in H. destruct (of_size n m); [destruct H|].
      now apply (m_get_some_key nat_compare_laws) in G.
  Qed.

  (** *** Candidates *)
  Notation sig_matches := (sig_matches iri_eqb tag_eqb I st).
  Notation candidates_of := (candidates_of cmp iri_eqb tag_eqb I st).
  Lemma in_candidates_of sa g b :
    In b (candidates_of sa g) <-> exists sb, In (b, sb) g /\ sig_matches sa sb = true.
  Proof.
    induction g as [|[b' sb'] g IH] using rev_ind; unfold IsoModel.candidates_of in *.
    - cbn. split; [tauto|]. now intros (sb & [] & _).
    - rewrite fold_left_app. cbn [fold_left].
      assert (X : In b (if sig_matches sa sb'
          then s_insert cmp b' (fold_left (fun c '(b, sb) => if sig_matches sa sb then s_insert cmp b c else c) g [])
          else fold_left (fun c '(b, sb) => if sig_matches sa sb then s_insert cmp b c else c) g []) <->
        (b = b' /\ sig_matches sa sb' = true) \/
        In b (fold_left (fun c '(b, sb) => if sig_matches sa sb then s_insert cmp b c else c) g [])).
      { destruct (sig_matches sa sb'); [rewrite (in_s_insert L)|]; intuition congruence. }
      rewrite X, IH. split.
      + intros [[-> H]|(sb & H & M)].
        * exists sb'. split; [apply in_or_app; right; now left|assumption].
        * exists sb. split; [apply in_or_app; now left|assumption].
      + intros (sb & H & M). apply in_app_or in H as [H|[[= <- <-]|[]]]; [right; now exists sb|now left].
  Qed.

  Notation candidates_group := (candidates_group cmp iri_eqb tag_eqb I st).
  Notation candidates := (candidates cmp iri_eqb tag_eqb I st).
  (** What the candidates of [a] are. *)
  Definition cand_ok (am bm : list (R * list (quad R))) (a : R) (bs : list R) : Prop :=
    exists sa, In (a, sa) am /\ bs <> [] /\
      forall b, In b bs <-> exists sb, In (b, sb) (of_size (length sa) bm) /\ sig_matches sa sb = true.

  Lemma candidates_group_some am bm n ag c c' : (forall e, In e ag -> In e (of_size n am)) ->
    msorted (cmp := cmp) c -> candidates_group ag (of_size n bm) c = Some c' ->
    msorted (cmp := cmp) c' /\
    (forall a, In a (map fst c') <-> In a (map fst c) \/ In a (map fst ag)) /\
    ((forall a bs, m_get cmp a c = Some bs -> cand_ok am bm a bs) ->
     forall a bs, m_get cmp a c' = Some bs -> cand_ok am bm a bs).
  Proof.
    revert c; induction ag as [|[a sa] ag IH]; intros c HA S; cbn [IsoModel.candidates_group].
    - intros [= <-]. split; [assumption|]. split; [cbn; tauto|tauto].
    - destruct (candidates_of sa (of_size n bm)) as [|b0 bs0] eqn:E; [discriminate|]. intros H.
      set (bs := b0 :: bs0) in *.
      destruct (IH (m_insert cmp a bs c)) as (S' & K & C); [|now apply m_alter_sorted|assumption|].
      { intros e He. apply HA. now right. }
      split; [assumption|]. split.
      + intros x. rewrite K. unfold m_insert. rewrite (m_alter_keys L). cbn. intuition.
      + intros HC. apply C. intros x xs. rewrite (m_get_insert L) by assumption.
        destruct (same cmp a x) eqn:E1; [|now apply HC].
        apply (same_true L) in E1; subst x. intros [= <-]. exists sa.
        destruct (proj1 (in_of_size n am a sa)) as [H1 H2]; [apply HA; now left|].
        split; [assumption|]. split; [discriminate|]. intros b. rewrite H2, <- E. apply in_candidates_of.
  Qed.
  Lemma candidates_some am bm ags c c' : msorted (cmp := cmp) am -> msorted (cmp := cmp) bm ->
    (forall e, In e ags -> In e (split_by_size am)) -> msorted (cmp := cmp) c ->
    candidates ags (split_by_size bm) c = Some (Some c') ->
    msorted (cmp := cmp) c' /\
    (forall a, In a (map fst c') <->
       In a (map fst c) \/ exists n g, In (n, g) ags /\ In a (map fst g)) /\
    ((forall a bs, m_get cmp a c = Some bs -> cand_ok am bm a bs) ->
     forall a bs, m_get cmp a c' = Some bs -> cand_ok am bm a bs).
  Proof.
    intros SA SB. revert c; induction ags as [|[n ag] ags IH]; intros c HA S; cbn [IsoModel.candidates].
    - intros [= <-]. split; [assumption|]. split; [|tauto].
      intros a. split; [tauto|]. intros [?|(n & g & [] & _)]; assumption.
    - rewrite (proj2 (split_spec bm SB)).
      destruct (of_size n bm) as [|e l] eqn:E; cbn [nonempty]; [discriminate|]. rewrite <- E. clear e l E.
      destruct (candidates_group ag (of_size n bm) c) as [c1|] eqn:E; [|discriminate]. intros H.
      apply (candidates_group_some am bm) in E as (S1 & K1 & C1); [|intros e He|assumption].
      + destruct (IH c1) as (S2 & K2 & C2); [|assumption|assumption|].
        { intros e He. apply HA. now right. }
        split; [assumption|]. split.
        * intros a. rewrite K2, K1. split.
          -- intros [[?|?]|(n' & g & ? & ?)]; [now left|right; exists n, ag; split; [now left|assumption]|].
             right. exists n', g. split; [now right|assumption].
          -- intros [?|(n' & g & [[= <- <-]|?] & ?)]; [tauto|tauto|]. right. now exists n', g.
        * intros HC. now apply C2, C1.
      + specialize (HA (n, ag) (or_introl eq_refl)). apply (split_in am n ag SA) in HA. now rewrite <- HA.
  Qed.
  Lemma candidates_keys am bm c : msorted (cmp := cmp) am -> msorted (cmp := cmp) bm ->
    candidates (split_by_size am) (split_by_size bm) [] = Some (Some c) ->
    msorted (cmp := cmp) c /\ (forall a, In a (map fst c) <-> In a (map fst am)) /\
    (forall a bs, m_get cmp a c = Some bs -> cand_ok am bm a bs).
  Proof.
    intros SA SB H.
    apply (candidates_some am bm) in H as (S & K & C); [|assumption|assumption|trivial|constructor].
    split; [assumption|]. split; [|apply C; discriminate].
    intros a. rewrite K. cbn. split.
    - intros [[]|(n & g & H & Ha)]. apply (split_in am n g SA) in H. subst.
      apply in_map_iff in Ha as ([x s] & <- & Ha). apply in_of_size in Ha as [Ha _].
      apply in_map_iff. now exists (x, s).
    - intros Ha. right. apply in_map_iff in Ha as ([x s] & <- & Ha).
      assert (HK : In (length s) (map fst (split_by_size am))) by (apply (split_key am _ SA); now exists x, s).
      apply in_map_iff in HK as ([n g] & E & HK). cbn in E; subst n.
      exists (length s), g. split; [assumption|].
      apply (split_in am _ g SA) in HK. subst. apply in_map_iff. exists (x, s). split; [reflexivity|].
      now apply in_of_size.
  Qed.

  (** The candidates are found: no panic, and none is missing. *)
  Lemma candidates_total (bm : list (R * list (quad R))) ags c :
    (forall n g, In (n, g) ags -> In n (map fst (split_by_size bm))) ->
    candidates ags (split_by_size bm) c <> None.
  Proof.
    revert c; induction ags as [|[n g] ags IH]; intros c H; cbn [IsoModel.candidates];
      [discriminate|].
    destruct (m_get_key nat_compare_laws n (split_by_size bm)) as [bg E].
    { apply (H n g). now left. }
    rewrite E. destruct (candidates_group g bg c); [|discriminate]. apply IH.
    intros n' g' H'. apply (H n' g'). now right.
  Qed.
  Lemma candidates_group_found ag bg c :
    (forall a sa, In (a, sa) ag -> exists b sb, In (b, sb) bg /\ sig_matches sa sb = true) ->
    candidates_group ag bg c <> None.
  Proof.
    revert c; induction ag as [|[a sa] ag IH]; intros c H; cbn [IsoModel.candidates_group]; [discriminate|].
    destruct (H a sa (or_introl eq_refl)) as (b & sb & Hb & M).
    assert (X : In b (candidates_of sa bg)) by (apply in_candidates_of; now exists sb).
    destruct (candidates_of sa bg) as [|b0 bs]; [destruct X|]. apply IH.
    intros a' sa' H'. apply (H a' sa'). now right.
  Qed.
  Lemma candidates_found am bm ags c : msorted (cmp := cmp) am -> msorted (cmp := cmp) bm ->
    (forall e, In e ags -> In e (split_by_size am)) ->
    (forall a sa, In (a, sa) am -> exists b sb, In (b, sb) bm /\ length sb = length sa /\
       sig_matches sa sb = true) ->
    exists c', candidates ags (split_by_size bm) c = Some (Some c').
  Proof.
    intros SA SB. revert c; induction ags as [|[n g] ags IH]; intros c HA H; cbn [IsoModel.candidates];
      [now exists c|].
    assert (Hg : In (n, g) (split_by_size am)) by (apply HA; now left).
    pose proof (split_in am n g SA Hg) as ->.
    assert (HK : In n (map fst (split_by_size am))).
    { apply in_map_iff. exists (n, of_size n am). now split. }
    apply (split_key am n SA) in HK as (x & s & Hx & <-).
    rewrite (proj2 (split_spec bm SB)).
    destruct (H x s Hx) as (b & sb & Hb & E & M).
    assert (Hb' : In (b, sb) (of_size (length s) bm)) by (apply in_of_size; now split).
    destruct (of_size (length s) bm) as [|e l] eqn:Eb; [destruct Hb'|]. cbn [nonempty]. rewrite <- Eb in *.
    destruct (candidates_group (of_size (length s) am) (of_size (length s) bm) c) as [c1|] eqn:E1.
    - apply IH; [|assumption]. intros e' He. apply HA. now right.
    - exfalso. apply candidates_group_found in E1; [assumption|].
      intros a sa Ha. apply in_of_size in Ha as [Ha EL].
      destruct (H a sa Ha) as (b' & sb' & Hb2 & E2 & M2). exists b', sb'.
      split; [|assumption]. apply in_of_size. split; [assumption|congruence].
  Qed.
End Iso.
