(** The cost of the isomorphism test: bounds, and datasets that make it factorial. *)
From Coq Require Import List Bool Arith Lia Permutation Sorted Factorial NArith String.
Import ListNotations.
From Verif Require Import Base TextModel DisplayModel TermModel TripleModel InterpretationModel
  SetSpec ContainerSpec IsoModel IsoSpec BaseProofs TermProofs IsoMapProofs IsoProofs IsoSearchProofs IsoExactProofs
  IsoTopProofs IsoCostModel IsoCostSpec IsoCostProofs.
Local Open Scope nat_scope.
Local Open Scope list_scope.

Section Bounds.
  Context {R St : Type} {cmp : R -> R -> comparison} (L : ord_laws cmp).
  Context {iri_eqb tag_eqb : text -> text -> bool} {I : interp_rev St R} {st : St}.
  Notation anon := (i_is_anonymous I st).
  Notation around := (around cmp).
  Notation collect := (collect_signatures cmp I st).
  Notation split_by_size := (split_by_size cmp).
  Notation candidates_of := (candidates_of cmp iri_eqb tag_eqb I st).
  Notation candidates_group := (candidates_group cmp iri_eqb tag_eqb I st).
  Notation candidates := (candidates cmp iri_eqb tag_eqb I st).
  Notation counted := (find_counted cmp iri_eqb tag_eqb I st).
  Notation find_bijection_with := (find_bijection_with cmp iri_eqb tag_eqb I st).
  Notation find_bijection_counted := (find_bijection_counted cmp iri_eqb tag_eqb I st).
  Implicit Types (a b : list (quad R)).

  (** ** Candidates, each once *)
  Lemma s_insert_sorted (k : R) s : increasing cmp s -> increasing cmp (s_insert cmp k s).
  Proof.
    induction 1 as [|x s S IH F]; cbn; [repeat constructor|].
    destruct (cmp k x) eqn:E.
    - now constructor.
    - constructor; [now constructor|]. constructor; [assumption|].
      rewrite Forall_forall in *. intros y Hy. apply (ord_trans _ L _ x); auto.
    - constructor; [assumption|]. rewrite Forall_forall in *. intros y Hy.
      apply (in_s_insert L) in Hy as [->|Hy]; [now apply (ord_lt_gt L)|auto].
  Qed.
  Lemma candidates_of_sorted sa g : increasing cmp (candidates_of sa g).
  Proof.
    unfold IsoModel.candidates_of. assert (X : increasing cmp (@nil R)) by constructor. revert X.
    generalize (@nil R) as c. induction g as [|[y sb] g IH]; intros c S; cbn; [assumption|].
    apply IH. destruct (sig_matches iri_eqb tag_eqb I st sa sb); [now apply s_insert_sorted|assumption].
  Qed.
  Lemma in_m_insert (k : R) (v : list R) m e : In e (m_insert cmp k v m) -> snd e = v \/ In e m.
  Proof.
    unfold m_insert. induction m as [|[k' v'] m IH]; cbn.
    - intros [<-|[]]; now left.
    - destruct (cmp k k'); cbn; [intros [<-|H]; [now left|tauto]|intros [<-|H]; [now left|tauto]|].
      intros [<-|H]; [tauto|]. apply IH in H. tauto.
  Qed.
  Notation all_sorted c := (forall x ys, In (x, ys) c -> increasing cmp ys).
  Lemma candidates_group_sorted ag bg c c' : candidates_group ag bg c = Some c' -> all_sorted c -> all_sorted c'.
  Proof.
    revert c; induction ag as [|[x sa] ag IH]; intros c; cbn [IsoModel.candidates_group]; [intros [= <-]; auto|].
    destruct (candidates_of sa bg) as [|y ys] eqn:E; [discriminate|]. intros H A. apply (IH _ H).
    intros z zs Hz. apply in_m_insert in Hz as [Hz|Hz]; [|eauto]. cbn in Hz. rewrite Hz, <- E. apply candidates_of_sorted.
  Qed.
  Lemma candidates_sorted ags bgs c c' : candidates ags bgs c = Some (Some c') -> all_sorted c -> all_sorted c'.
  Proof.
    revert c; induction ags as [|[n ag] ags IH]; intros c; cbn [IsoModel.candidates]; [intros [= <-]; auto|].
    destruct (m_get Nat.compare n bgs) as [bg|]; [|discriminate].
    destruct (candidates_group ag bg c) as [c1|] eqn:E; [|discriminate]. intros H A.
    apply (IH _ H). now apply (candidates_group_sorted _ _ _ _ E).
  Qed.

  (** ** The cost is that of the search *)
  Lemma counted_inv a b :
    ((forall f, fst (find_bijection_counted a b) <> Some (Some f)) /\ snd (find_bijection_counted a b) = no_cost) \/
    exists c, candidates (split_by_size (collect a)) (split_by_size (collect b)) [] = Some (Some c) /\
      List.length (collect a) = List.length (collect b) /\
      find_bijection_counted a b = counted bij_new c (collect a) (collect b).
  Proof.
    unfold IsoCostModel.find_bijection_counted. cbv zeta.
    destruct (negb (List.length a =? List.length b)) eqn:E1; [left; split; [discriminate|reflexivity]|].
    destruct (negb (total_blank_count I st a =? _)) eqn:E2; [left; split; [discriminate|reflexivity]|].
    destruct (negb (List.length (collect a) =? _)) eqn:E3; [left; split; [discriminate|reflexivity]|].
    destruct (negb (List.length (split_by_size (collect a)) =? _)) eqn:E4; [left; split; [discriminate|reflexivity]|].
    destruct (negb (forallb _ (split_by_size (collect a)))) eqn:E5; [left; split; [discriminate|reflexivity]|].
    destruct (candidates (split_by_size (collect a)) (split_by_size (collect b)) []) as [[c|]|] eqn:E;
      [|left; split; [discriminate|reflexivity]|left; split; [discriminate|reflexivity]].
    right. exists c. apply negb_false_iff, Nat.eqb_eq in E3. now split.
  Qed.
  Lemma keys_length a l (c : list (R * list R)) : NoDup l -> (forall x, In x l <-> blank_of anon a x) ->
    increasing cmp (map fst c) -> (forall x, In x (map fst c) <-> blank_of anon a x) -> List.length c = List.length l.
  Proof.
    intros N A S K. rewrite <- (map_length fst c). apply Permutation_length, NoDup_Permutation.
    - now apply (ssorted_nodup L).
    - assumption.
    - intros x. now rewrite A, K.
  Qed.
  Lemma collect_length a l : NoDup l -> (forall x, In x l <-> blank_of anon a x) -> List.length (collect a) = List.length l.
  Proof.
    intros N A. rewrite <- (map_length fst (collect a)). apply Permutation_length, NoDup_Permutation.
    - apply (ssorted_nodup L), (collect_sorted L).
    - assumption.
    - intros x. now rewrite A, (collect_key L).
  Qed.

  Lemma cost_bounds a b l : NoDup l -> (forall x, In x l <-> blank_of anon a x) ->
    calls (snd (find_bijection_counted a b)) <= fact (S (List.length l)) /\
    depth (snd (find_bijection_counted a b)) <= S (List.length l) /\
    ((exists f, find_bijection_with a b = Some (Some f)) -> depth (snd (find_bijection_counted a b)) = S (List.length l)).
  Proof.
    intros N A. rewrite <- (bijection_counted (cmp := cmp)).
    destruct (counted_inv a b) as [[F ->]|(c & E & EL & ->)].
    { cbn [calls depth no_cost]. pose proof (lt_O_fact (S (List.length l))). split; [lia|]. split; [lia|].
      intros [f Ef]. now apply F in Ef. }
    pose proof (candidates_sorted _ _ _ _ E (fun _ _ H => match H with end)) as CS.
    apply (candidates_known L) in E as (S & K & _ & Kn).
    pose proof (keys_length a l c N A S K) as Lc.
    destruct (counted_depth (cmp := cmp) (iri_eqb := iri_eqb) (tag_eqb := tag_eqb) (I := I) (st := st)
      (collect a) (collect b) c bij_new) as [D1 D2].
    rewrite Lc in *. split; [|split; [assumption|intros [f Ef]; now apply (D2 f)]].
    rewrite <- Lc. apply (counted_calls L).
    - apply bij_new_wf.
    - now apply (ssorted_nodup L).
    - cbn. tauto.
    - intros x ys Hx. split; [exact (ssorted_nodup L _ (CS x ys Hx))|]. exact (proj2 (Kn x ys Hx)).
    - cbn. rewrite Lc, <- EL. symmetry. now apply collect_length.
  Qed.

  (** ** Blank nodes that look different *)
  Context (iri_refl : forall t, iri_eqb t t = true) (tag_refl : forall t, tag_eqb t t = true).
  Context (apart : terms_apart iri_eqb (literal_cow_eqb iri_eqb tag_eqb) I st).
  Notation alike := (look_alike cmp anon).

  Lemma candidates_alike a b c : candidates (split_by_size (collect a)) (split_by_size (collect b)) [] = Some (Some c) ->
    forall x ys, In (x, ys) c -> forall y, In y ys <-> blank_of anon b y /\ alike a b x y.
  Proof.
    intros E x ys Hx y. apply (candidates_known L) in E as (S & K & C & Kn).
    destruct (C x ys Hx) as (sa & Ha & _ & HB). rewrite HB. unfold look_alike.
    apply (in_m_get L) in Ha; [|apply (collect_sorted L)]. destruct (collect_get L I st a x sa Ha) as [_ Pa].
    split.
    - intros (sb & Hb & M). apply in_of_size in Hb as [Hb _]. apply (in_m_get L) in Hb; [|apply (collect_sorted L)].
      destruct (collect_get L I st b y sb Hb) as [By Pb]. split; [assumption|].
      apply (sig_matches_spec iri_eqb tag_eqb I st iri_refl tag_refl apart) in M. now rewrite Pa, Pb in M.
    - intros [By M]. destruct (collect_get_ex L I st b y By) as [sb Eb].
      destruct (collect_get L I st b y sb Eb) as [_ Pb]. rewrite <- Pa, <- Pb in M.
      exists sb. split; [|now apply (sig_matches_spec iri_eqb tag_eqb I st iri_refl tag_refl apart)].
      apply in_of_size. split; [now apply (m_get_in L)|].
      apply Permutation_length in M. now rewrite !map_length in M.
  Qed.

  Lemma cost_single a b l : NoDup l -> (forall x, In x l <-> blank_of anon a x) ->
    (forall x y z, blank_of anon a x -> blank_of anon b y -> blank_of anon b z ->
       alike a b x y -> alike a b x z -> y = z) ->
    calls (snd (find_bijection_counted a b)) <= S (List.length l).
  Proof.
    intros N A H. destruct (counted_inv a b) as [[F ->]|(c & E & EL & ->)]; [cbn; lia|].
    pose proof (candidates_alike a b c E) as CA.
    pose proof (candidates_sorted _ _ _ _ E (fun _ _ H => match H with end)) as CS.
    apply (candidates_known L) in E as (S & K & _ & Kn).
    rewrite <- (keys_length a l c N A S K). apply counted_single. intros x ys Hx.
    assert (Bx : blank_of anon a x) by (apply K, in_map_iff; now exists (x, ys)).
    specialize (CS x ys Hx). apply (ssorted_nodup L) in CS. specialize (CA x ys Hx).
    destruct ys as [|y [|z ys]]; cbn; try lia. exfalso. inversion CS as [|? ? H1 H2]; subst. apply H1. left.
    destruct (proj1 (CA y)) as [By Ay]; [now left|]. destruct (proj1 (CA z)) as [Bz Az]; [right; now left|].
    now apply (H x).
  Qed.

  (** ** Reaching the search *)
  Section Reach.
    Context {a b : list (quad R)}.
    Context (EL : List.length a = List.length b) (ET : total_blank_count I st a = total_blank_count I st b).
    Context (BB : forall x, blank_of anon a x <-> blank_of anon b x).
    Context (AL : forall x, blank_of anon a x -> alike a b x x).

    Lemma reach_sizes x sa sb : m_get cmp x (collect a) = Some sa -> m_get cmp x (collect b) = Some sb ->
      List.length sb = List.length sa /\ sig_matches iri_eqb tag_eqb I st sa sb = true.
    Proof.
      intros Ea Eb. apply (collect_get L) in Ea as [Bx Pa], Eb as [_ Pb].
      specialize (AL x Bx). unfold look_alike in AL. rewrite <- Pa, <- Pb in AL. split.
      - apply Permutation_length in AL. rewrite !map_length in AL. congruence.
      - now apply (sig_matches_spec iri_eqb tag_eqb I st iri_refl tag_refl apart).
    Qed.
    Lemma reach_keys : map fst (collect a) = map fst (collect b).
    Proof.
      apply (ssorted_ext L); [apply (collect_sorted L)..|]. intros x. rewrite !(collect_key L). apply BB.
    Qed.
    Lemma reach_split : map fst (split_by_size (collect a)) = map fst (split_by_size (collect b)).
    Proof.
      pose proof (collect_sorted L I st a) as SA. pose proof (collect_sorted L I st b) as SB.
      apply (ssorted_ext nat_compare_laws).
      - apply (split_spec L _ SA).
      - apply (split_spec L _ SB).
      - intros n. rewrite (split_key L _ n SA), (split_key L _ n SB). split.
        + intros (x & s & Hx & E). apply (in_m_get L) in Hx; [|assumption].
          destruct (collect_get L I st a x s Hx) as [Bx _].
          destruct (collect_get_ex L I st b x (proj1 (BB x) Bx)) as [sb Eb].
          exists x, sb. split; [now apply (m_get_in L)|]. destruct (reach_sizes x s sb Hx Eb). congruence.
        + intros (x & s & Hx & E). apply (in_m_get L) in Hx; [|assumption].
          destruct (collect_get L I st b x s Hx) as [Bx _].
          destruct (collect_get_ex L I st a x (proj2 (BB x) Bx)) as [sa Ea].
          exists x, sa. split; [now apply (m_get_in L)|]. destruct (reach_sizes x sa s Ea Hx). congruence.
    Qed.
    Lemma reach_search : exists c,
      candidates (split_by_size (collect a)) (split_by_size (collect b)) [] = Some (Some c) /\
      find_bijection_counted a b = counted bij_new c (collect a) (collect b).
    Proof.
      pose proof (collect_sorted L I st a) as SA. pose proof (collect_sorted L I st b) as SB.
      unfold IsoCostModel.find_bijection_counted. cbv zeta.
      rewrite (proj2 (Nat.eqb_eq _ _) EL), ET, Nat.eqb_refl. cbn [negb].
      assert (EK : List.length (collect a) = List.length (collect b)).
      { pose proof reach_keys as P. apply (f_equal (@List.length R)) in P. now rewrite !map_length in P. }
      rewrite EK, Nat.eqb_refl. cbn [negb].
      assert (EG : List.length (split_by_size (collect a)) = List.length (split_by_size (collect b))).
      { pose proof reach_split as P. apply (f_equal (@List.length nat)) in P. now rewrite !map_length in P. }
      rewrite EG, Nat.eqb_refl. cbn [negb].
      assert (EF : forallb (fun '(n, _) => m_contains Nat.compare n (split_by_size (collect b)))
        (split_by_size (collect a)) = true).
      { apply forallb_forall. intros [n g] Hg. apply (m_contains_true nat_compare_laws).
        rewrite <- reach_split. apply in_map_iff. now exists (n, g). }
      rewrite EF. cbn [negb].
      destruct (candidates_found L iri_eqb tag_eqb I st (collect a) (collect b) (split_by_size (collect a)) [] SA SB)
        as [c Ec].
      { trivial. }
      { intros x sa Hx. apply (in_m_get L) in Hx; [|assumption].
        destruct (collect_get L I st a x sa Hx) as [Bx _].
        destruct (collect_get_ex L I st b x (proj1 (BB x) Bx)) as [sb Eb].
        exists x, sb. split; [now apply (m_get_in L)|]. now apply (reach_sizes x). }
      exists c. now rewrite Ec.
    Qed.
  End Reach.
End Bounds.

(** ** Datasets that make the search factorial *)
(** [n] blank nodes described by one quad each, and two more quads. *)
Definition z_x (i : nat) : local_term := Anonymous (chars "_:" ++ repeat 97%N (S i)).
Definition z_u : local_term := Anonymous (chars "_:b").
Definition z_v : local_term := Anonymous (chars "_:c").
Definition z_p : local_term := Named (TIri (chars "ex:p")).
Definition z_q (i : nat) : quad local_term := Quad (z_x i) z_p z_p None.
Definition z_xs (n : nat) := map z_q (seq 0 n).
Definition z_a (n : nat) := z_xs n ++ [Quad z_u z_p z_v None; Quad z_v z_p z_u None].
Definition z_b (n : nat) := z_xs n ++ [Quad z_u z_p z_u None; Quad z_v z_p z_v None].

Section Family.
  Context {iri_eqb tag_eqb : text -> text -> bool} {iri_cmp tag_cmp : text -> text -> comparison}.
  Context (LI : ord_laws iri_cmp) (LT : ord_laws tag_cmp).
  Context (EI : forall x y, iri_eqb x y = true <-> x = y) (ET : forall x y, tag_eqb x y = true <-> x = y).
  Notation cmp := (local_cmp iri_cmp tag_cmp).
  Notation LO := (local_ord LI LT EI ET).
  Notation anon := local_is_anonymous.
  Notation i_anon := (i_is_anonymous unit_rev tt).
  Notation around := (around cmp).

  Lemma str_cmp_same l x y : str_cmp (l ++ x) (l ++ y) = str_cmp x y.
  Proof. unfold str_cmp. induction l as [|c l IH]; cbn; [reflexivity|]. now rewrite N.compare_refl. Qed.
  Lemma z_lt i j : i < j -> cmp (z_x i) (z_x j) = Lt.
  Proof.
    intros H. cbn [z_x local_cmp]. rewrite str_cmp_same.
    revert j H; induction i as [|i IH]; intros [|j] H; try lia.
    - reflexivity.
    - cbn [repeat]. specialize (IH j). cbn in IH |- *. apply IH. lia.
  Qed.
  Lemma z_ltu i : cmp (z_x i) z_u = Lt. Proof. reflexivity. Qed.
  Lemma z_ltv i : cmp (z_x i) z_v = Lt. Proof. reflexivity. Qed.
  Lemma z_luv : cmp z_u z_v = Lt. Proof. reflexivity. Qed.
  Lemma z_inj i j : z_x i = z_x j -> i = j.
  Proof.
    intros E. destruct (Nat.lt_trichotomy i j) as [H|[H|H]]; [|assumption|]; apply z_lt in H; rewrite E in H;
      rewrite (ord_refl LO) in H; discriminate.
  Qed.

  Lemma z_sorted n : increasing cmp (map z_x (seq 0 n) ++ [z_u; z_v]).
  Proof.
    generalize 0 as k. induction n as [|n IH]; intros k; cbn [seq map app].
    - repeat constructor.
    - constructor; [apply IH|]. apply Forall_forall. intros y Hy. apply in_app_or in Hy as [Hy|[<-|[<-|[]]]];
        [|apply z_ltu|apply z_ltv].
      apply in_map_iff in Hy as (j & <- & Hj). apply in_seq in Hj. apply z_lt. lia.
  Qed.
  Lemma z_blank_of n r x : (forall q, In q r -> In z_u (quad_comps q) \/ In z_v (quad_comps q)) ->
    (forall q y, In q r -> In y (quad_comps q) -> y = z_u \/ y = z_v \/ y = z_p) ->
    (exists q, In q r /\ In z_u (quad_comps q)) -> (exists q, In q r /\ In z_v (quad_comps q)) ->
    blank_of i_anon (z_xs n ++ r) x <-> In x (map z_x (seq 0 n) ++ [z_u; z_v]).
  Proof.
    intros _ Hr (qu & Hqu & Hu) (qv & Hqv & Hv). rewrite in_app_iff. split.
    - intros [A (q & Hq & Hx)]. apply in_app_or in Hq as [Hq|Hq].
      + apply in_map_iff in Hq as (i & <- & Hi). left. cbn in Hx.
        destruct Hx as [<-|[<-|[<-|[]]]]; [now apply in_map|discriminate|discriminate].
      + right. destruct (Hr q x Hq Hx) as [->|[->| ->]]; [now left|right; now left|discriminate].
    - intros [H|[<-|[<-|[]]]].
      + apply in_map_iff in H as (i & <- & Hi). split; [reflexivity|]. exists (z_q i).
        split; [apply in_or_app; left; now apply in_map|now left].
      + split; [reflexivity|]. exists qu. split; [apply in_or_app; now right|assumption].
      + split; [reflexivity|]. exists qv. split; [apply in_or_app; now right|assumption].
  Qed.
  Lemma z_blank_a n x : blank_of i_anon (z_a n) x <-> In x (map z_x (seq 0 n) ++ [z_u; z_v]).
  Proof.
    apply z_blank_of.
    - intros q [<-|[<-|[]]]; cbn; tauto.
    - intros q y [<-|[<-|[]]]; cbn; intuition.
    - eexists. split; [now left|]. cbn. tauto.
    - eexists. split; [now left|]. cbn. tauto.
  Qed.
  Lemma z_blank_b n x : blank_of i_anon (z_b n) x <-> In x (map z_x (seq 0 n) ++ [z_u; z_v]).
  Proof.
    apply z_blank_of.
    - intros q [<-|[<-|[]]]; cbn; tauto.
    - intros q y [<-|[<-|[]]]; cbn; intuition.
    - eexists. split; [now left|]. cbn. tauto.
    - eexists. split; [right; now left|]. cbn. tauto.
  Qed.

  Lemma around_app (a b : list (quad local_term)) x : around (a ++ b) x = around a x ++ around b x.
  Proof. apply flat_map_app. Qed.
  Lemma same_xx x : same cmp x x = true.
  Proof. now apply (same_true LO). Qed.
  Lemma z_around_x n i : i < n -> around (z_xs n) (z_x i) = [z_q i].
  Proof.
    intros H. unfold z_xs.
    assert (X : forall k n, i < k -> around (map z_q (seq k n)) (z_x i) = []).
    { intros k m; revert k. induction m as [|m IH]; intros k Hk; [reflexivity|]. cbn [seq map].
      change (z_q k :: map z_q (seq (S k) m)) with ([z_q k] ++ map z_q (seq (S k) m)). rewrite around_app, IH by lia.
      cbn. unfold same at 1. rewrite (z_lt i k Hk). reflexivity. }
    assert (Y : forall k n, k <= i < k + n -> around (map z_q (seq k n)) (z_x i) = [z_q i]).
    { intros k m; revert k. induction m as [|m IH]; intros k Hk; [lia|]. cbn [seq map].
      change (z_q k :: map z_q (seq (S k) m)) with ([z_q k] ++ map z_q (seq (S k) m)). rewrite around_app.
      destruct (Nat.eq_dec k i) as [->|N].
      - rewrite X by lia. cbn. rewrite same_xx. reflexivity.
      - rewrite IH by lia. cbn. assert (E : same cmp (z_x i) (z_x k) = false).
        { apply (same_false LO). intros E. apply z_inj in E. lia. }
        rewrite E. reflexivity. }
    apply Y. lia.
  Qed.
  Lemma z_around_none n y : (forall i, same cmp y (z_x i) = false) -> same cmp y z_p = false -> around (z_xs n) y = [].
  Proof.
    intros H P. unfold z_xs. generalize 0 as k. induction n as [|n IH]; intros k; [reflexivity|]. cbn [seq map].
    change (z_q k :: map z_q (seq (S k) n)) with ([z_q k] ++ map z_q (seq (S k) n)). rewrite around_app, IH.
    cbn. now rewrite H, P.
  Qed.
  Lemma z_around_ax n i : i < n -> around (z_a n) (z_x i) = [z_q i].
  Proof. intros H. unfold z_a. rewrite around_app, (z_around_x n i H). reflexivity. Qed.
  Lemma z_around_bx n i : i < n -> around (z_b n) (z_x i) = [z_q i].
  Proof. intros H. unfold z_b. rewrite around_app, (z_around_x n i H). reflexivity. Qed.

  Lemma z_alike n x : blank_of i_anon (z_a n) x -> look_alike cmp i_anon (z_a n) (z_b n) x x.
  Proof.
    intros H. apply z_blank_a in H. unfold look_alike. apply in_app_or in H as [H|[<-|[<-|[]]]].
    - apply in_map_iff in H as (i & <- & Hi). apply in_seq in Hi.
      rewrite z_around_ax, z_around_bx by lia. reflexivity.
    - unfold z_a, z_b. rewrite !around_app, !z_around_none by (intros; reflexivity). cbn. repeat constructor.
    - unfold z_a, z_b. rewrite !around_app, !z_around_none by (intros; reflexivity). cbn. repeat constructor.
  Qed.

  Notation find := (find_bijection iri_eqb tag_eqb iri_cmp tag_cmp).
  Notation are := (are_isomorphic iri_eqb tag_eqb iri_cmp tag_cmp).
  Notation counted := (are_isomorphic_counted iri_eqb tag_eqb iri_cmp tag_cmp).

  Lemma z_different n : are (z_a n) (z_b n) <> Some true.
  Proof.
    intros H. apply (loc_exact LI LT EI ET) in H as [h (BB & _ & BP & _)].
    assert (X : In (blank_part anon h (Quad z_u z_p z_v None))
      (map (blank_part anon (fun x => x)) (filter (has_blank anon) (z_b n)))).
    { eapply Permutation_in; [exact BP|]. apply in_map, filter_In. split; [|reflexivity].
      unfold z_a. apply in_or_app. right. now left. }
    apply in_map_iff in X as (q & E & Hq). apply filter_In in Hq as [Hq _].
    assert (h z_u = h z_v).
    { unfold z_b in Hq. apply in_app_or in Hq as [Hq|[<-|[<-|[]]]].
      - apply in_map_iff in Hq as (i & <- & _). discriminate.
      - pose proof (f_equal (fun q => q_s q) E : Some z_u = Some (h z_u)). pose proof (f_equal (fun q => q_o q) E : Some z_u = Some (h z_v)).
        congruence.
      - pose proof (f_equal (fun q => q_s q) E : Some z_v = Some (h z_u)). pose proof (f_equal (fun q => q_o q) E : Some z_v = Some (h z_v)).
        congruence. }
    assert (Bu : blank_of anon (z_a n) z_u).
    { split; [reflexivity|]. exists (Quad z_u z_p z_v None). split; [apply in_or_app; right; now left|now left]. }
    assert (Bv : blank_of anon (z_a n) z_v).
    { split; [reflexivity|]. exists (Quad z_u z_p z_v None). split; [apply in_or_app; right; now left|cbn; tauto]. }
    apply (bb_inj _ _ _ _ BB) in H; [discriminate|assumption|assumption].
  Qed.
  Lemma z_nodup n : NoDup (z_a n) /\ NoDup (z_b n).
  Proof.
    assert (X : NoDup (z_xs n)).
    { apply FinFun.Injective_map_NoDup; [|apply seq_NoDup]. intros i j E. apply z_inj. exact (f_equal (fun q => q_s q) E). }
    split; apply NoDup_app_intro; try assumption.
    - repeat constructor; cbn; intuition discriminate.
    - intros q Hq. apply in_map_iff in Hq as (i & <- & _). intros [E|[E|[]]]; discriminate.
    - repeat constructor; cbn; intuition discriminate.
    - intros q Hq. apply in_map_iff in Hq as (i & <- & _). intros [E|[E|[]]]; discriminate.
  Qed.

  Lemma factorial_calls n :
    NoDup (z_a n) /\ NoDup (z_b n) /\ List.length (z_a n) = n + 2 /\ List.length (z_b n) = n + 2 /\
    fst (counted (z_a n) (z_b n)) = Some false /\ fact n <= calls (snd (counted (z_a n) (z_b n))).
  Proof.
    split; [apply z_nodup|]. split; [apply z_nodup|].
    assert (La : List.length (z_a n) = n + 2) by (unfold z_a, z_xs; rewrite app_length, map_length, seq_length; reflexivity).
    assert (Lb : List.length (z_b n) = n + 2) by (unfold z_b, z_xs; rewrite app_length, map_length, seq_length; reflexivity).
    split; [assumption|]. split; [assumption|].
    assert (ri : forall t, iri_eqb t t = true) by (intros t; now apply EI).
    assert (rt : forall t, tag_eqb t t = true) by (intros t; now apply ET).
    assert (TB : total_blank_count unit_rev tt (z_a n) = total_blank_count unit_rev tt (z_b n)).
    { unfold total_blank_count, z_a, z_b. rewrite !fold_left_app. reflexivity. }
    destruct (reach_search LO ri rt (unit_apart EI ET) (a := z_a n) (b := z_b n)) as (c & Ec & Es).
    { congruence. }
    { exact TB. }
    { intros x. now rewrite z_blank_a, z_blank_b. }
    { apply z_alike. }
    pose proof (bijection_counted (cmp := cmp) (iri_eqb := iri_eqb) (tag_eqb := tag_eqb) (I := unit_rev) (st := tt)
      (z_a n) (z_b n)) as F.
    assert (FN : fst (find_bijection_counted cmp iri_eqb tag_eqb unit_rev tt (z_a n) (z_b n)) = Some None).
    { pose proof (z_different n) as D. rewrite F. unfold are_isomorphic, are_isomorphic_with in D.
      destruct (gen_total LO (iri_eqb := iri_eqb) (tag_eqb := tag_eqb) (I := unit_rev) (st := tt) (z_a n) (z_b n)) as [r Er].
      rewrite Er in *. destruct r; [cbn in D; congruence|reflexivity]. }
    unfold are_isomorphic_counted.
    pose proof (candidates_alike LO ri rt (unit_apart EI ET) _ _ _ Ec) as CA.
    apply (candidates_known LO) in Ec as (S & K & _ & Kn).
    assert (EK : map fst c = map z_x (seq 0 n) ++ [z_u; z_v]).
    { apply (ssorted_ext LO); [exact S|apply z_sorted|]. intros x. rewrite K. apply z_blank_a. }
    apply map_eq_app in EK as (front & rest & -> & EF & _).
    rewrite Es in FN |- *. rewrite (surjective_pairing (find_counted _ _ _ _ _ _ _ _ _)), FN. cbn [fst snd].
    split; [reflexivity|].
    assert (Lf : List.length front = n) by (rewrite <- (map_length fst front), EF, map_length; apply seq_length).
    rewrite <- Lf at 1. apply (counted_factorial LO) with (U := map z_x (seq 0 n)) (V := map z_x (seq 0 n)).
    - intros y Hy. apply (collect_key LO), z_blank_b, in_or_app. now left.
    - intros s x ys y sa sb Hx Hy W Nx Cy Ea Eb.
      assert (Hx' : In x (map z_x (seq 0 n))) by (rewrite <- EF; apply in_map_iff; now exists (x, ys)).
      apply in_map_iff in Hx' as (i & <- & Hi), Hy as (j & <- & Hj). apply in_seq in Hi, Hj.
      pose proof (m_get_some_key LO _ _ _ Ea) as Ka. pose proof (m_get_some_key LO _ _ _ Eb) as Kb.
      destruct (collect_get LO _ _ _ _ _ Ea) as [_ Pa]. destruct (collect_get LO _ _ _ _ _ Eb) as [_ Pb].
      rewrite (z_around_ax n i) in Pa by lia. rewrite (z_around_bx n j) in Pb by lia.
      pose proof (insert_wf LO _ _ s (z_x i) (z_x j) W Ka Kb Nx Cy) as W'.
      assert (NA : forall d x, In x (map fst (collect_signatures cmp unit_rev tt d)) -> i_anon x = true).
      { intros d x H. apply (collect_key LO) in H. apply H. }
      apply (sig_matches_with_spec LO iri_eqb tag_eqb unit_rev tt ri rt (unit_apart EI ET) _ _ _ sa sb W' (NA _) (NA _)).
      rewrite Pa, Pb. cbn [map]. unfold z_q, qmap. cbn [q_s q_p q_o q_g option_map].
      assert (E1 : kA (cmp := cmp) (bij_insert cmp (z_x i) (z_x j) s) (z_x i) = Some (z_x j)).
      { apply (insert_get LO _ _ _ _ _ W). }
      assert (E2 : kB (cmp := cmp) (bij_insert cmp (z_x i) (z_x j) s) (z_x j) = Some (z_x j)).
      { unfold kB. rewrite (proj2 (m_contains_true LO (z_x j) _)); [reflexivity|]. cbn. unfold m_insert.
        rewrite (m_alter_keys LO). now left. }
      assert (E3 : kA (cmp := cmp) (bij_insert cmp (z_x i) (z_x j) s) z_p = None).
      { unfold kA. destruct (m_get cmp z_p _) as [w|] eqn:E; [|reflexivity]. apply (wf_dom _ _ _ W') in E as [E _].
        apply NA in E. discriminate. }
      assert (E4 : kB (cmp := cmp) (bij_insert cmp (z_x i) (z_x j) s) z_p = None).
      { unfold kB, m_contains. destruct (m_get cmp z_p _) as [w|] eqn:E; [|reflexivity].
        apply (wf_inv _ _ _ W') in E. apply (wf_dom _ _ _ W') in E as [_ E]. apply NA in E. discriminate. }
      rewrite E1, E2, E3, E4. reflexivity.
    - rewrite EF. apply FinFun.Injective_map_NoDup; [exact z_inj|apply seq_NoDup].
    - intros x ys Hx.
      assert (Hx' : In x (map z_x (seq 0 n))) by (rewrite <- EF; apply in_map_iff; now exists (x, ys)). split.
      + apply (collect_key LO), z_blank_a, in_or_app. now left.
      + intros y Hy. apply (CA x ys); [apply in_or_app; now left|]. split; [apply z_blank_b, in_or_app; now left|].
        apply in_map_iff in Hx' as (i & <- & Hi), Hy as (j & <- & Hj). apply in_seq in Hi, Hj.
        unfold look_alike. rewrite z_around_ax, z_around_bx by lia. reflexivity.
    - apply bij_new_wf.
    - apply FinFun.Injective_map_NoDup; [exact z_inj|apply seq_NoDup].
    - intros y Hy. exact Hy.
    - now rewrite map_length, seq_length.
    - reflexivity.
    - cbn. tauto.
    - exact FN.
  Qed.
End Family.

(** ** Factorials outgrow polynomials *)
Lemma fact_pow m j : m ^ j <= fact (m + j).
Proof.
  induction j as [|j IH]; [rewrite Nat.add_0_r; pose proof (lt_O_fact m); cbn; lia|].
  rewrite Nat.add_succ_r. cbn [Nat.pow]. change (fact (S (m + j))) with (S (m + j) * fact (m + j)).
  apply Nat.mul_le_mono; lia.
Qed.
Lemma fact_outgrows c k : exists n, c * (n + 2) ^ k + c < fact n.
Proof.
  set (m := 3 + (2 * k + 1) + 2 * c). exists (m + m).
  apply Nat.lt_le_trans with (m ^ m); [|apply fact_pow].
  assert (H1 : (m + m + 2) ^ k <= m ^ (2 * k)).
  { rewrite Nat.pow_mul_r. apply Nat.pow_le_mono_l. cbn [Nat.pow]. rewrite Nat.mul_1_r.
    assert (3 * m <= m * m) by (apply Nat.mul_le_mono_r; unfold m; lia). unfold m in *. lia. }
  assert (H2 : m ^ (2 * k + 1) <= m ^ m) by (apply Nat.pow_le_mono_r; unfold m; lia).
  assert (H3 : m ^ (2 * k + 1) = m * m ^ (2 * k)) by (rewrite Nat.add_1_r; reflexivity).
  assert (H4 : 1 <= m ^ (2 * k)) by (apply Nat.lt_le_trans with (0 + 1); [lia|]; pose proof (Nat.pow_nonzero m (2 * k)); unfold m in *; lia).
  assert (H5 : c * (m + m + 2) ^ k <= c * m ^ (2 * k)) by (apply Nat.mul_le_mono_l; assumption).
  assert (H6 : (2 * c + 1) * m ^ (2 * k) <= m * m ^ (2 * k)) by (apply Nat.mul_le_mono_r; unfold m; lia).
  rewrite Nat.mul_add_distr_r in H6.
  assert (H7 : c * 1 <= c * m ^ (2 * k)) by (apply Nat.mul_le_mono_l; assumption). lia.
Qed.

(** ** The results, with [nameless] *)
Section With.
  Context {R St : Type} {cmp : R -> R -> comparison} (L : ord_laws cmp).
  Context {iri_eqb tag_eqb : text -> text -> bool} {I : interp_rev St R} {st : St}.
  Notation find_bijection_with := (find_bijection_with cmp iri_eqb tag_eqb I st).
  Notation find_bijection_counted := (find_bijection_counted cmp iri_eqb tag_eqb I st).
  Lemma with_bounds a b l : NoDup l -> (forall x, In x l <-> blank_of (nameless I st) a x) ->
    calls (snd (find_bijection_counted a b)) <= fact (S (List.length l)) /\
    depth (snd (find_bijection_counted a b)) <= S (List.length l) /\
    ((exists f, find_bijection_with a b = Some (Some f)) -> depth (snd (find_bijection_counted a b)) = S (List.length l)).
  Proof.
    intros N A. apply (cost_bounds L); [assumption|]. intros x. rewrite A.
    apply blank_of_ext. intros y. symmetry. apply anon_nameless.
  Qed.
  Lemma with_single a b l :
    (forall t, iri_eqb t t = true) -> (forall t, tag_eqb t t = true) ->
    terms_apart iri_eqb (literal_cow_eqb iri_eqb tag_eqb) I st ->
    NoDup l -> (forall x, In x l <-> blank_of (nameless I st) a x) ->
    (forall x y z, blank_of (nameless I st) a x -> blank_of (nameless I st) b y -> blank_of (nameless I st) b z ->
       look_alike cmp (nameless I st) a b x y -> look_alike cmp (nameless I st) a b x z -> y = z) ->
    calls (snd (find_bijection_counted a b)) <= S (List.length l).
  Proof.
    intros RI RT AP N A H. pose proof (anon_nameless I st) as E.
    apply (cost_single L RI RT AP); [assumption| |].
    - intros x. rewrite A. apply blank_of_ext. intros y. symmetry. apply E.
    - intros x y z Hx Hy Hz H1 H2. apply (H x).
      + now apply (blank_of_ext _ _ E).
      + now apply (blank_of_ext _ _ E).
      + now apply (blank_of_ext _ _ E).
      + unfold look_alike in *. rewrite <- !(map_ext _ _ (named_part_ext _ _ E)). assumption.
      + unfold look_alike in *. rewrite <- !(map_ext _ _ (named_part_ext _ _ E)). assumption.
  Qed.
End With.

Section LocalCost.
  Context {iri_eqb tag_eqb : text -> text -> bool} {iri_cmp tag_cmp : text -> text -> comparison}.
  Context (LI : ord_laws iri_cmp) (LT : ord_laws tag_cmp).
  Context (EI : forall x y, iri_eqb x y = true <-> x = y) (ET : forall x y, tag_eqb x y = true <-> x = y).
  Notation are := (are_isomorphic iri_eqb tag_eqb iri_cmp tag_cmp).
  Notation counted := (are_isomorphic_counted iri_eqb tag_eqb iri_cmp tag_cmp).
  Lemma are_counted a b : fst (counted a b) = are a b.
  Proof.
    unfold are_isomorphic_counted, are_isomorphic, are_isomorphic_with.
    rewrite <- (bijection_counted (cmp := local_cmp iri_cmp tag_cmp)).
    destruct (find_bijection_counted (local_cmp iri_cmp tag_cmp) iri_eqb tag_eqb unit_rev tt a b). reflexivity.
  Qed.
  Lemma are_cost a b : snd (counted a b) =
    snd (find_bijection_counted (local_cmp iri_cmp tag_cmp) iri_eqb tag_eqb unit_rev tt a b).
  Proof.
    unfold are_isomorphic_counted.
    destruct (find_bijection_counted (local_cmp iri_cmp tag_cmp) iri_eqb tag_eqb unit_rev tt a b). reflexivity.
  Qed.
  Lemma loc_bounds a b l : NoDup l -> (forall x, In x l <-> blank_of local_is_anonymous a x) ->
    calls (snd (counted a b)) <= fact (S (List.length l)) /\
    depth (snd (counted a b)) <= S (List.length l) /\
    (are a b = Some true -> depth (snd (counted a b)) = S (List.length l)).
  Proof.
    intros N A. rewrite are_cost.
    destruct (with_bounds (local_ord LI LT EI ET) (iri_eqb := iri_eqb) (tag_eqb := tag_eqb) (I := unit_rev) (st := tt) a b l N)
      as (H1 & H2 & H3).
    { intros x. rewrite A. symmetry. apply (blank_of_ext _ _ unit_nameless). }
    split; [assumption|]. split; [assumption|]. intros H. apply H3.
    apply (gen_are (cmp := local_cmp iri_cmp tag_cmp)). exact H.
  Qed.
  Lemma loc_single a b l : NoDup l -> (forall x, In x l <-> blank_of local_is_anonymous a x) ->
    (forall x y z, blank_of local_is_anonymous a x -> blank_of local_is_anonymous b y ->
       blank_of local_is_anonymous b z ->
       look_alike (local_cmp iri_cmp tag_cmp) local_is_anonymous a b x y ->
       look_alike (local_cmp iri_cmp tag_cmp) local_is_anonymous a b x z -> y = z) ->
    calls (snd (counted a b)) <= S (List.length l).
  Proof.
    intros N A H. rewrite are_cost.
    apply (with_single (local_ord LI LT EI ET)); [intros t; now apply EI|intros t; now apply ET|
      apply (unit_apart EI ET)|assumption| |].
    - intros x. rewrite A. symmetry. apply (blank_of_ext _ _ unit_nameless).
    - intros x y z Hx Hy Hz H1 H2. apply (H x).
      + now apply (blank_of_ext _ _ unit_nameless).
      + now apply (blank_of_ext _ _ unit_nameless).
      + now apply (blank_of_ext _ _ unit_nameless).
      + unfold look_alike in *. rewrite <- !(map_ext _ _ (named_part_ext _ _ unit_nameless)). assumption.
      + unfold look_alike in *. rewrite <- !(map_ext _ _ (named_part_ext _ _ unit_nameless)). assumption.
  Qed.
  Lemma factorial_found n : exists a b, NoDup a /\ NoDup b /\ List.length a = n + 2 /\ List.length b = n + 2 /\
    fst (counted a b) = Some false /\ fact n <= calls (snd (counted a b)).
  Proof. exists (z_a n), (z_b n). apply (factorial_calls LI LT EI ET). Qed.
  Lemma polynomial_refuted c k : exists a b, NoDup a /\ NoDup b /\ List.length b = List.length a /\
    c * List.length a ^ k + c < calls (snd (counted a b)).
  Proof.
    destruct (fact_outgrows c k) as [n H].
    destruct (factorial_found n) as (a & b & Na & Nb & La & Lb & _ & F). exists a, b.
    rewrite La, Lb. repeat split; try assumption. lia.
  Qed.
  Lemma deep_found n : exists a, NoDup a /\ List.length a = n /\ fst (counted a a) = Some true /\
    depth (snd (counted a a)) = S n.
  Proof.
    exists (z_xs n).
    assert (IN : forall l, NoDup l -> NoDup (map z_x l)).
    { intros l. apply FinFun.Injective_map_NoDup. intros i j. apply (z_inj LI LT EI ET). }
    assert (N : NoDup (z_xs n)).
    { apply FinFun.Injective_map_NoDup; [|apply seq_NoDup]. intros i j E. apply (z_inj LI LT EI ET).
      exact (f_equal (fun q => q_s q) E). }
    assert (E : are (z_xs n) (z_xs n) = Some true).
    { apply (loc_complete LI LT EI ET) with (h := fun x => x); [assumption|assumption|]. repeat split.
      - apply H.
      - apply H.
      - intros x y _ _ E. exact E.
      - intros y Hy. now exists y.
      - intros H. exists q. split; [assumption|]. now apply qmap_id.
      - intros (p & Hp & <-). now rewrite qmap_id. }
    split; [assumption|]. split; [unfold z_xs; now rewrite map_length, seq_length|]. rewrite are_counted.
    split; [assumption|].
    replace n with (List.length (map z_x (seq 0 n))) at 3 by now rewrite map_length, seq_length.
    apply loc_bounds; [apply IN, seq_NoDup| |assumption].
    intros x. split.
    - intros H. apply in_map_iff in H as (i & <- & Hi). split; [reflexivity|]. exists (z_q i).
      split; [now apply in_map|now left].
    - intros [A (q & Hq & Hx)]. apply in_map_iff in Hq as (i & <- & Hi). cbn in Hx.
      destruct Hx as [<-|[<-|[<-|[]]]]; [now apply in_map|discriminate|discriminate].
  Qed.
End LocalCost.

(** ** Blank nodes that look different *)
Lemma x_blank_a x : blank_of local_is_anonymous x_a x <-> In x [w_n0; w_n1].
Proof.
  split.
  - intros [A (q & Hq & Hx)]. repeat destruct Hq as [<-|Hq]; try destruct Hq;
      repeat destruct Hx as [<-|Hx]; try destruct Hx; try discriminate; cbn; tauto.
  - intros [<-|[<-|[]]]; (split; [reflexivity|]; exists (w_triple w_n0 x_knows w_n1); split; [now left|cbn; tauto]).
Qed.
Lemma x_blank_b x : blank_of local_is_anonymous x_b x -> x = w_n1 \/ x = w_n2.
Proof.
  intros [A (q & Hq & Hx)]. repeat destruct Hq as [<-|Hq]; try destruct Hq;
    repeat destruct Hx as [<-|Hx]; try destruct Hx; try discriminate; tauto.
Qed.
Lemma x_distinct :
  NoDup [w_n0; w_n1] /\ (forall x, In x [w_n0; w_n1] <-> blank_of local_is_anonymous x_a x) /\
  forall x y z, blank_of local_is_anonymous x_a x -> blank_of local_is_anonymous x_b y -> blank_of local_is_anonymous x_b z ->
    look_alike (local_cmp str_cmp str_cmp) local_is_anonymous x_a x_b x y ->
    look_alike (local_cmp str_cmp str_cmp) local_is_anonymous x_a x_b x z -> y = z.
Proof.
  split; [repeat constructor; cbn; intuition discriminate|]. split; [intros x; symmetry; apply x_blank_a|].
  intros x y z _ Hy Hz Y Z. unfold look_alike in *. pose proof (Permutation_trans (Permutation_sym Y) Z) as P.
  assert (A : let l := map (named_part local_is_anonymous) (around (local_cmp str_cmp str_cmp) x_b w_n1) in
              let m := map (named_part local_is_anonymous) (around (local_cmp str_cmp str_cmp) x_b w_n2) in
              ~ Permutation l m).
  { cbn zeta. intros H. apply Permutation_in with (x := Quad None (Some x_name) (Some (x_lit "Ann")) None) in H.
    - vm_compute in H. intuition discriminate.
    - vm_compute. tauto. }
  apply x_blank_b in Hy, Hz. destruct Hy as [->| ->], Hz as [->| ->]; try reflexivity; exfalso.
  - exact (A P).
  - exact (A (Permutation_sym P)).
Qed.
