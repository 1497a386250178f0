(** Proofs for C84. *)
From Coq Require Import List NArith Bool Ascii String Lia Arith.
Import ListNotations.
From Verif Require Import Base TextModel DisplayModel TermModel BlankIdModel BlankIdSpec TextProofs BlankIdProofs
  InterpretationModel InterpretationSpec InterpretationProofs GenCrashSpec GenCrashModel.

(** ** Histories *)
Section Run.
  Context {St R G T : Type} (put : St -> T -> result R * St) (next : G -> result T * G)
    (insert : St * G -> T -> result R * (St * G)) (new : St * G -> result R * (St * G)).
  Context (HI : forall w t, insert w t = (fst (put (fst w) t), (snd (put (fst w) t), snd w))).
  Context (HN : forall w, new w =
    match next (snd w) with
    | (Returned t, g) => (fst (put (fst w) t), (snd (put (fst w) t), g))
    | (Panicked, g) => (Panicked, (fst w, g))
    end).

  Lemma run_terms calls : forall w, p_run_calls insert new w calls =
    (let '(ts, g) := terms next (snd w) calls in
     let '(ys, st) := insert_each put (fst w) ts in (ys, (st, g))).
  Proof.
    induction calls as [|[t|] calls IH]; intros [st g]; cbn [p_run_calls terms fst snd]; [reflexivity| |].
    - rewrite HI. cbn [fst snd]. rewrite IH. cbn [fst snd].
      destruct (terms next g calls) as [ts g']. cbn [insert_each].
      destruct (put st t) as [y st1]. cbn [fst snd].
      destruct (insert_each put st1 ts). reflexivity.
    - rewrite HN. cbn [fst snd]. destruct (next g) as [[t|] g1].
      + rewrite IH. cbn [fst snd]. destruct (terms next g1 calls) as [ts g']. cbn [insert_each].
        destruct (put st t) as [y st1]. cbn [fst snd].
        destruct (insert_each put st1 ts). reflexivity.
      + rewrite IH. cbn [fst snd]. destruct (terms next g1 calls) as [ts g']. cbn [insert_each].
        destruct (insert_each put st ts). reflexivity.
  Qed.

  Lemma terms_draw calls : forall g,
    let '(ts, g') := terms next g calls in
    draw next (news calls) g = (to_new calls ts, g') /\ List.length ts = List.length calls.
  Proof.
    induction calls as [|[t|] calls IH]; intros g; cbn [terms news to_new draw].
    - now split.
    - specialize (IH g). destruct (terms next g calls) as [ts g']. destruct IH as [A B]. cbn. now split; auto.
    - destruct (next g) as [t g1]. specialize (IH g1). destruct (terms next g1 calls) as [ts g'].
      destruct IH as [A B]. rewrite A. cbn. now split; auto.
  Qed.

  Lemma insert_each_length ts : forall st, List.length (fst (insert_each put st ts)) = List.length ts.
  Proof.
    induction ts as [|[t|] ts IH]; intros st; cbn [insert_each]; [reflexivity| |].
    - destruct (put st t) as [y st1]. specialize (IH st1). destruct (insert_each put st1 ts). cbn in *. now f_equal.
    - specialize (IH st). destruct (insert_each put st ts). cbn in *. now f_equal.
  Qed.

  Section Survives.
    Context (look : St -> T -> option R) (F : survives look put).

    Lemma insert_each_old ts : forall st ys st', insert_each put st ts = (ys, st') ->
      forall u s, look st u = Some s -> look st' u = Some s.
    Proof.
      induction ts as [|[t|] ts IH]; intros st ys st'; cbn [insert_each].
      - intros H. injection H as <- <-. auto.
      - destruct (put st t) as [y st1] eqn:E. destruct (insert_each put st1 ts) as [ys1 st2] eqn:E1.
        intros H. injection H as <- <-. intros u s L.
        apply (IH _ _ _ E1). exact (survives_old _ _ F _ _ _ _ _ _ E L).
      - destruct (insert_each put st ts) as [ys1 st2] eqn:E1. intros H. injection H as <- <-.
        exact (IH _ _ _ E1).
    Qed.
    Lemma insert_each_new ts : forall st ys st', insert_each put st ts = (ys, st') ->
      forall i r, nth_error ys i = Some (Returned r) ->
        exists t, nth_error ts i = Some (Returned t) /\ look st' t = Some r.
    Proof.
      induction ts as [|[t|] ts IH]; intros st ys st'; cbn [insert_each].
      - intros H. injection H as <- <-. intros [|i] r; discriminate.
      - destruct (put st t) as [y st1] eqn:E. destruct (insert_each put st1 ts) as [ys1 st2] eqn:E1.
        intros H. injection H as <- <-. intros [|i] r; cbn.
        + intros L. injection L as ->. exists t. split; [reflexivity|].
          apply (insert_each_old _ _ _ _ E1). exact (survives_new _ _ F _ _ _ _ E).
        + exact (IH _ _ _ E1 i r).
      - destruct (insert_each put st ts) as [ys1 st2] eqn:E1. intros H. injection H as <- <-.
        intros [|i] r; cbn; [discriminate|]. exact (IH _ _ _ E1 i r).
    Qed.

    (** Different terms from the generator, different resources. *)
    Lemma to_new_at {A B} (calls : list (call T)) : forall (l : list A) (m : list B) i a,
      List.length l = List.length m -> nth_error (to_new calls l) i = Some a ->
      exists j b, nth_error l j = Some a /\ nth_error m j = Some b /\ nth_error (to_new calls m) i = Some b.
    Proof.
      induction calls as [|[t|] calls IH]; intros [|x l] [|y m] i a; cbn; try discriminate;
        try (destruct i; discriminate).
      - intros L E. injection L as L. destruct (IH l m i a L E) as (j & b & H1 & H2 & H3).
        exists (S j), b. cbn. auto.
      - intros L. injection L as L. destruct i as [|i]; cbn.
        + intros E. exists 0, y. cbn. auto.
        + intros E. destruct (IH l m i a L E) as (j & b & H1 & H2 & H3). exists (S j), b. cbn. auto.
    Qed.
    Lemma returned_in {A} (l : list (result A)) x : In x (returned l) <-> In (Returned x) l.
    Proof.
      induction l as [|[y|] l IH]; cbn; [tauto| |].
      - rewrite IH. split; (intros [E|E]; [left; congruence|auto]).
      - rewrite IH. split; [auto|]. intros [E|E]; [discriminate|auto].
    Qed.
    Lemma returned_nodup_at {A} (l : list (result A)) : NoDup (returned l) <->
      (forall i j x, nth_error l i = Some (Returned x) -> nth_error l j = Some (Returned x) -> i = j).
    Proof.
      induction l as [|[y|] l IH]; cbn.
      - split; [|constructor]. intros _ [|i] j x; discriminate.
      - split.
        + intros N. inversion N as [|? ? N1 N2]; subst. intros [|i] [|j] x; cbn; intros E1 E2.
          * reflexivity.
          * injection E1 as ->. destruct N1. apply returned_in. exact (nth_error_In _ _ E2).
          * injection E2 as ->. destruct N1. apply returned_in. exact (nth_error_In _ _ E1).
          * f_equal. exact (proj1 IH N2 _ _ _ E1 E2).
        + intros H. constructor.
          * intros K. apply returned_in in K. apply In_nth_error in K as [n K].
            specialize (H 0 (S n) y eq_refl K). discriminate.
          * apply IH. intros i j x E1 E2. specialize (H (S i) (S j) x E1 E2). now injection H.
      - rewrite IH. split.
        + intros H [|i] [|j] x; cbn; try discriminate. intros E1 E2. f_equal. exact (H _ _ _ E1 E2).
        + intros H i j x E1 E2. specialize (H (S i) (S j) x E1 E2). now injection H.
    Qed.

    Lemma new_distinct calls st g ts g' ys st' :
      terms next g calls = (ts, g') -> insert_each put st ts = (ys, st') ->
      separate look st' -> NoDup (returned (fst (draw next (news calls) g))) ->
      NoDup (returned (to_new calls ys)).
    Proof.
      intros E1 E2 S N. pose proof (terms_draw calls g) as D. rewrite E1 in D. destruct D as [D L].
      rewrite D in N. cbn [fst] in N. rewrite returned_nodup_at in N. apply returned_nodup_at.
      assert (L2 : List.length ys = List.length ts)
        by (rewrite <- (insert_each_length ts st), E2; reflexivity).
      intros i j r Hi Hj.
      destruct (to_new_at calls ys ts _ _ L2 Hi) as (i' & a & A1 & A2 & A3).
      destruct (to_new_at calls ys ts _ _ L2 Hj) as (j' & b & B1 & B2 & B3).
      destruct (insert_each_new _ _ _ _ E2 _ _ A1) as (t & T1 & T2).
      destruct (insert_each_new _ _ _ _ E2 _ _ B1) as (u & U1 & U2).
      rewrite T1 in A2. injection A2 as <-. rewrite U1 in B2. injection B2 as <-.
      rewrite (S _ _ _ T2 U2) in *. exact (N _ _ _ A3 B3).
    Qed.
  End Survives.
End Run.

(** ** [WithGenerator] and [WithLocalGenerator] *)
Section WG.
  Context {St R G : Type} (M : p_interp_mut St R) (L : p_interp_local_mut St R).
  Definition p_put (st : St) (t : term) := give (p_insert_iri M st) (p_insert_literal M st) t.
  Definition p_local_put (st : St) (t : local_term) :=
    give_local (p_insert_iri M st) (p_insert_literal M st) (p_insert_blank_id L st) t.

  Lemma wg_insert_eq (w : St * G) t : p_insert_term (p_wg_mut M) w (term_into_cow t) =
    (fst (p_put (fst w) t), (snd (p_put (fst w) t), snd w)).
  Proof. destruct t as [i|[v [y|y]]]; reflexivity. Qed.
  Lemma wlg_insert_eq (w : St * G) t :
    p_insert_local_term (p_wg_mut M) (p_wg_local_mut L) w (local_into_cow t) =
    (fst (p_local_put (fst w) t), (snd (p_local_put (fst w) t), snd w)).
  Proof. destruct t as [b|[i|[v [y|y]]]]; reflexivity. Qed.
  Lemma wg_new_eq (next : G -> result term * G) w : p_wg_new_resource M next w =
    match next (snd w) with
    | (Returned t, g) => (fst (p_put (fst w) t), (snd (p_put (fst w) t), g))
    | (Panicked, g) => (Panicked, (fst w, g))
    end.
  Proof. unfold p_wg_new_resource. destruct (next (snd w)) as [[[i|[v [y|y]]]|] g]; reflexivity. Qed.
  Lemma wlg_new_eq (next : G -> result local_term * G) w : p_wlg_new_resource M L next w =
    match next (snd w) with
    | (Returned t, g) => (fst (p_local_put (fst w) t), (snd (p_local_put (fst w) t), g))
    | (Panicked, g) => (Panicked, (fst w, g))
    end.
  Proof. unfold p_wlg_new_resource. destruct (next (snd w)) as [[[b|[i|[v [y|y]]]]|] g]; reflexivity. Qed.

  Lemma wg_crash (next : G -> result term * G) calls (w : St * G) ts g ys st :
    terms next (snd w) calls = (ts, g) -> insert_each p_put (fst w) ts = (ys, st) ->
    p_wg_run M next w calls = (ys, (st, g)) /\
    draw next (news calls) (snd w) = (to_new calls ts, g).
  Proof.
    intros E1 E2. split.
    - unfold p_wg_run. rewrite (run_terms p_put next _ _ wg_insert_eq (wg_new_eq next)).
      rewrite E1, E2. reflexivity.
    - pose proof (terms_draw next calls (snd w)) as D. rewrite E1 in D. exact (proj1 D).
  Qed.
  Lemma wlg_crash (next : G -> result local_term * G) calls (w : St * G) ts g ys st :
    terms next (snd w) calls = (ts, g) -> insert_each p_local_put (fst w) ts = (ys, st) ->
    p_wlg_run M L next w calls = (ys, (st, g)) /\
    draw next (news calls) (snd w) = (to_new calls ts, g).
  Proof.
    intros E1 E2. split.
    - unfold p_wlg_run. rewrite (run_terms p_local_put next _ _ wlg_insert_eq (wlg_new_eq next)).
      rewrite E1, E2. reflexivity.
    - pose proof (terms_draw next calls (snd w)) as D. rewrite E1 in D. exact (proj1 D).
  Qed.

  Context (I : interp St R) (IL : interp_local St R).
  Definition p_look (st : St) (t : term) := i_term I st (term_as_ref t).
  Definition p_local_look (st : St) (t : local_term) := i_local_term I IL st (local_as_ref t).

  Lemma wg_look (w : St * G) t : i_term (wg_interp I) w (term_as_ref t) = p_look (fst w) t.
  Proof. destruct t; reflexivity. Qed.
  Lemma wlg_look (w : St * G) t :
    i_local_term (wg_interp I) (wg_local IL) w (local_as_ref t) = p_local_look (fst w) t.
  Proof. destruct t as [b|[i|[v [y|y]]]]; reflexivity. Qed.

  Lemma wg_means (next : G -> result term * G) : survives p_look p_put -> forall calls (w : St * G) ys w',
    p_wg_run M next w calls = (ys, w') ->
    (forall i r, nth_error ys i = Some (Returned r) -> exists t,
       nth_error (fst (terms next (snd w) calls)) i = Some (Returned t) /\
       i_term (wg_interp I) w' (term_as_ref t) = Some r) /\
    (forall t r, i_term (wg_interp I) w (term_as_ref t) = Some r ->
                 i_term (wg_interp I) w' (term_as_ref t) = Some r) /\
    (separate p_look (fst w') -> NoDup (returned (fst (draw next (news calls) (snd w)))) ->
       NoDup (returned (to_new calls ys))).
  Proof.
    intros F calls w ys w' H. unfold p_wg_run in H.
    rewrite (run_terms p_put next _ _ wg_insert_eq (wg_new_eq next)) in H.
    destruct (terms next (snd w) calls) as [ts g] eqn:E1.
    destruct (insert_each p_put (fst w) ts) as [ys1 st] eqn:E2. injection H as <- <-.
    split; [|split].
    - intros i r Hi. destruct (insert_each_new _ _ F _ _ _ _ E2 _ _ Hi) as (t & A & B).
      exists t. split; [exact A|]. rewrite wg_look. exact B.
    - intros t r. rewrite !wg_look. exact (insert_each_old _ _ F _ _ _ _ E2 _ _).
    - intros S N. exact (new_distinct p_put next _ F _ _ _ _ _ _ _ E1 E2 S N).
  Qed.
  Lemma wlg_means (next : G -> result local_term * G) : survives p_local_look p_local_put -> forall calls (w : St * G) ys w',
    p_wlg_run M L next w calls = (ys, w') ->
    (forall i r, nth_error ys i = Some (Returned r) -> exists t,
       nth_error (fst (terms next (snd w) calls)) i = Some (Returned t) /\
       i_local_term (wg_interp I) (wg_local IL) w' (local_as_ref t) = Some r) /\
    (forall t r, i_local_term (wg_interp I) (wg_local IL) w (local_as_ref t) = Some r ->
                 i_local_term (wg_interp I) (wg_local IL) w' (local_as_ref t) = Some r) /\
    (separate p_local_look (fst w') -> NoDup (returned (fst (draw next (news calls) (snd w)))) ->
       NoDup (returned (to_new calls ys))).
  Proof.
    intros F calls w ys w' H. unfold p_wlg_run in H.
    rewrite (run_terms p_local_put next _ _ wlg_insert_eq (wlg_new_eq next)) in H.
    destruct (terms next (snd w) calls) as [ts g] eqn:E1.
    destruct (insert_each p_local_put (fst w) ts) as [ys1 st] eqn:E2. injection H as <- <-.
    split; [|split].
    - intros i r Hi. destruct (insert_each_new _ _ F _ _ _ _ E2 _ _ Hi) as (t & A & B).
      exists t. split; [exact A|]. rewrite wlg_look. exact B.
    - intros t r. rewrite !wlg_look. exact (insert_each_old _ _ F _ _ _ _ E2 _ _).
    - intros S N. exact (new_distinct p_local_put next _ F _ _ _ _ _ _ _ E1 E2 S N).
  Qed.
End WG.

(** ** The generator of blank node identifiers *)
Open Scope N_scope.
Lemma draw_length {G T} (next : G -> result T * G) n : forall g, List.length (fst (draw next n g)) = n.
Proof.
  induction n as [|n IH]; intros g; cbn [draw]; [reflexivity|].
  destruct (next g) as [t g1]. specialize (IH g1). destruct (draw next n g1). cbn in *. now f_equal.
Qed.

Lemma blank_stuck max n : forall g, max <= g_count g ->
  draw (p_blank_next max true) n g = (repeat Panicked n, g).
Proof.
  induction n as [|n IH]; intros g H; cbn [draw repeat]; [reflexivity|].
  unfold p_blank_next at 1. rewrite (proj2 (N.ltb_ge _ _) H). now rewrite IH.
Qed.

Lemma blank_draws max n : forall p o, o <= max ->
  let '(l, g) := draw (p_blank_next max true) n (gen_full p o) in
  g_prefix g = p /\ g_count g = N.min max (o + N.of_nat n) /\
  forall i, (i < n)%nat ->
    nth_error l i = Some (if o + N.of_nat i <? max then Returned (Anonymous (gen_id p (o + N.of_nat i)))
                          else Panicked).
Proof.
  induction n as [|n IH]; intros p o Ho; cbn [draw].
  - cbn. split; [reflexivity|]. split; [lia|]. intros i H. lia.
  - unfold p_blank_next at 1. cbn [gen_full g_count g_prefix].
    destruct (N.ltb_spec o max) as [E|E].
    + specialize (IH p (o + 1) ltac:(lia)). unfold gen_full in IH.
      destruct (draw (p_blank_next max true) n (Generator p (o + 1))) as [l g].
      destruct IH as (A & B & C). split; [exact A|]. split; [lia|].
      intros [|i] H; cbn [nth_error].
      * replace (o + N.of_nat 0) with o by lia. now rewrite (proj2 (N.ltb_lt _ _) E).
      * rewrite C by lia. now replace (o + 1 + N.of_nat i) with (o + N.of_nat (S i)) by lia.
    + rewrite blank_stuck by exact E. cbn [gen_full g_prefix g_count]. split; [reflexivity|].
      split; [lia|]. intros i H. rewrite (proj2 (N.ltb_ge _ _)) by lia.
      destruct i as [|i]; [reflexivity|]. cbn [nth_error]. clear - H.
      revert i H. induction n as [|n IH]; intros i H; [lia|]. destruct i as [|i]; [reflexivity|].
      cbn. apply IH. lia.
Qed.

Lemma blank_checked max n p o : o <= max ->
  let '(l, g) := draw (p_blank_next max true) n (gen_full p o) in
  List.length l = n /\
  (forall i, (i < n)%nat -> o + N.of_nat i < max -> exists d,
     nth_error l i = Some (Returned (Anonymous ([0x5F; 0x3A] ++ p ++ d))) /\ numeral d /\
     dec_value d = o + N.of_nat i) /\
  (forall i, (i < n)%nat -> max <= o + N.of_nat i -> nth_error l i = Some Panicked).
Proof.
  intros Ho. pose proof (blank_draws max n p o Ho) as D. pose proof (draw_length (p_blank_next max true) n (gen_full p o)) as E.
  destruct (draw (p_blank_next max true) n (gen_full p o)) as [l g]. destruct D as (_ & _ & D).
  split; [exact E|]. split.
  - intros i Hi L. exists (dec (o + N.of_nat i)). rewrite (D i Hi), (proj2 (N.ltb_lt _ _) L).
    split; [reflexivity|]. split; [apply dec_numeral|apply dec_value_dec].
  - intros i Hi L. rewrite (D i Hi), (proj2 (N.ltb_ge _ _) L). reflexivity.
Qed.

Lemma blank_generate max checked n : forall g l g', generate max checked n g = Some (l, g') ->
  draw (p_blank_next max checked) n g = (map (fun b => Returned (Anonymous b)) l, g').
Proof.
  induction n as [|n IH]; intros g l g'; cbn [generate draw].
  - intros H. injection H as <- <-. reflexivity.
  - unfold next_blank_id, p_blank_next at 1. destruct (g_count g <? max).
    + destruct (generate max checked n _) as [[l1 g1]|] eqn:E; [|discriminate].
      intros H. injection H as <- <-. now rewrite (IH _ _ _ E).
    + destruct checked; [discriminate|].
      destruct (generate max false n _) as [[l1 g1]|] eqn:E; [|discriminate].
      intros H. injection H as <- <-. now rewrite (IH _ _ _ E).
Qed.
Lemma returned_map {A B} (f : A -> B) l : returned (map (fun x => Returned (f x)) l) = map f l.
Proof. induction l as [|x l IH]; cbn; congruence. Qed.

Lemma blank_never_repeats max checked n p o : o <= max -> checked = true \/ N.of_nat n <= max + 1 ->
  NoDup (returned (fst (draw (p_blank_next max checked) n (gen_full p o)))).
Proof.
  intros Ho [->|H].
  - pose proof (blank_draws max n p o Ho) as D. pose proof (draw_length (p_blank_next max true) n (gen_full p o)) as E.
    destruct (draw (p_blank_next max true) n (gen_full p o)) as [l g]. destruct D as (_ & _ & D). cbn [fst] in *.
    apply returned_nodup_at. intros i j x Hi Hj.
    assert (Li : (i < n)%nat) by (rewrite <- E; apply nth_error_Some; congruence).
    assert (Lj : (j < n)%nat) by (rewrite <- E; apply nth_error_Some; congruence).
    rewrite (D i Li) in Hi. rewrite (D j Lj) in Hj.
    destruct (o + N.of_nat i <? max); [|discriminate]. destruct (o + N.of_nat j <? max); [|discriminate].
    injection Hi as Hi. injection Hj as Hj.
    assert (gen_id p (o + N.of_nat i) = gen_id p (o + N.of_nat j)) as K by congruence.
    apply gen_id_inj in K. lia.
  - destruct checked.
    + pose proof (blank_draws max n p o Ho) as D. pose proof (draw_length (p_blank_next max true) n (gen_full p o)) as E.
      destruct (draw (p_blank_next max true) n (gen_full p o)) as [l g]. destruct D as (_ & _ & D). cbn [fst] in *.
      apply returned_nodup_at. intros i j x Hi Hj.
      assert (Li : (i < n)%nat) by (rewrite <- E; apply nth_error_Some; congruence).
      assert (Lj : (j < n)%nat) by (rewrite <- E; apply nth_error_Some; congruence).
      rewrite (D i Li) in Hi. rewrite (D j Lj) in Hj.
      destruct (o + N.of_nat i <? max); [|discriminate]. destruct (o + N.of_nat j <? max); [|discriminate].
      injection Hi as Hi. injection Hj as Hj.
      assert (gen_id p (o + N.of_nat i) = gen_id p (o + N.of_nat j)) as K by congruence.
      apply gen_id_inj in K. lia.
    + destruct (generate_unchecked max n (gen_full p o)) as (l & g' & E).
      rewrite (blank_generate _ _ _ _ _ _ E). cbn [fst].
      rewrite (returned_map Anonymous). apply FinFun.Injective_map_NoDup; [intros x y; congruence|].
      exact (proj1 (generate_distinct _ _ _ _ _ _ _ Ho (or_intror H) E)).
Qed.
Close Scope N_scope.

(** Resources made from them. *)
Lemma news_length {T} (calls : list (call T)) : news calls <= List.length calls.
Proof. induction calls as [|[t|] calls IH]; cbn; lia. Qed.
Lemma wlg_blank_distinct {St R} (M : p_interp_mut St R) (L : p_interp_local_mut St R) (I : interp St R)
    (IL : interp_local St R) max checked : survives (p_local_look I IL) (p_local_put M L) ->
  forall calls st p o ys w',
  p_wlg_run M L (p_blank_next max checked) (st, gen_full p o) calls = (ys, w') ->
  (o <= max)%N -> checked = true \/ (N.of_nat (List.length calls) <= max + 1)%N ->
  separate (p_local_look I IL) (fst w') -> NoDup (returned (to_new calls ys)).
Proof.
  intros F calls st p o ys w' H Ho Hb S.
  destruct (wlg_means M L I IL _ F _ _ _ _ H) as (_ & _ & A). apply (A S). cbn [snd].
  apply blank_never_repeats; [exact Ho|]. destruct Hb as [Hb|Hb]; [now left|right].
  pose proof (news_length calls). lia.
Qed.

(** ** The cell *)
Section CellProofs.
  Context {G T : Type} (b : G -> behaviour G T).

  Lemma cell_borrowed depth c : c_borrowed c = true -> cell_new_resource b depth c = (Panicked, c).
  Proof.
    intros H. destruct depth as [|depth]; [reflexivity|]. cbn [cell_new_resource].
    unfold borrow_mut. now rewrite H.
  Qed.
  Lemma work_alone depth p : forall g0,
    work (cell_new_resource b depth) (Cell true g0) p = (fst (alone p), Cell true (snd (alone p))).
  Proof.
    induction p as [r g|g k IH]; intros g0; cbn [work alone c_borrowed]; [reflexivity|].
    rewrite cell_borrowed by reflexivity. cbn [c_value]. apply IH.
  Qed.
  Lemma cell_free depth g : cell_new_resource b (S depth) (Cell false g) =
    (fst (alone (b g)), Cell false (snd (alone (b g)))).
  Proof.
    cbn [cell_new_resource borrow_mut c_borrowed c_value]. rewrite work_alone. reflexivity.
  Qed.
  Lemma cell_history depth n : forall g, cell_run b (S depth) n (cell_new g) =
    (fst (draw (fun g => alone (b g)) n g), cell_new (snd (draw (fun g => alone (b g)) n g))).
  Proof.
    unfold cell_new. induction n as [|n IH]; intros g; cbn [cell_run draw]; [reflexivity|].
    rewrite cell_free, IH. destruct (alone (b g)) as [t g1]. cbn [fst snd].
    destruct (draw (fun g => alone (b g)) n g1) as [l g2]. reflexivity.
  Qed.
  Lemma cell_facts depth n g :
    let '(l, g') := draw (fun g => alone (b g)) n g in
    cell_run b (S depth) n (cell_new g) = (l, cell_new g') /\
    cell_into_inner (snd (cell_run b (S depth) n (cell_new g))) = g'.
  Proof.
    rewrite cell_history. destruct (draw (fun g => alone (b g)) n g) as [l g'].
    split; reflexivity.
  Qed.
End CellProofs.

(** ** Something to try this on: the terms are numbered, but the blank node [_:1] makes the interpretation
    panic. *)
Definition p_number (st : list local_term) (t : local_term) : result nat * list local_term :=
  if local_dec t (Anonymous (chars "_:1")) then (Panicked, st)
  else (Returned (fst (number st t)), snd (number st t)).
Definition pn_mut : p_interp_mut (list local_term) nat :=
  PInterpMut (fun st i => p_number st (local_iri (cow_text i)))
             (fun st l => p_number st (local_literal (literal_cow_into_owned l))).
Definition pn_local_mut : p_interp_local_mut (list local_term) nat :=
  PInterpLocalMut (fun st b => p_number st (Anonymous (cow_text b))).
Lemma pn_put st t : p_local_put pn_mut pn_local_mut st t = p_number st t.
Proof. destruct t as [x|[i|[v [i|x]]]]; reflexivity. Qed.
Lemma pn_survives : survives (p_local_look num_interp num_local) (p_local_put pn_mut pn_local_mut).
Proof.
  split.
  - intros st t r st'. rewrite pn_put. unfold p_number.
    destruct (local_dec t (Anonymous (chars "_:1"))); [discriminate|]. intros H. injection H as <- <-.
    pose proof (faith_new _ _ num_faithful st t) as F. rewrite num_put in F. exact F.
  - intros st t y st' u s. rewrite pn_put. unfold p_number.
    destruct (local_dec t (Anonymous (chars "_:1"))); intros H; injection H as <- <-; [auto|].
    pose proof (faith_old _ _ num_faithful st t u s) as F. rewrite num_put in F. exact F.
Qed.
(** A generator that calls the interpretation that holds it, catches the panic and counts. *)
Definition nested (n : nat) : behaviour nat nat :=
  Calls (S n) (fun r n => match r with Panicked => Ends (Returned n) n | Returned x => Ends (Returned x) n end).
