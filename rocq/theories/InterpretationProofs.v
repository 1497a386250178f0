(** Proofs about interpretations. *)
From Coq Require Import List NArith Bool Lia Ascii String.
Import ListNotations.
From Verif Require Import Base TextModel DisplayModel TermModel TermProofs BlankIdModel BlankIdProofs
  InterpretationModel InterpretationSpec.

(** ** Iterators *)
Lemma terms_enumerated is : forall ls n, List.length is + List.length ls <= n ->
  take_next terms_next n (is, ls) = map CIri is ++ map CLit ls.
Proof.
  induction is as [|i is IH]; intros ls n Hn; cbn in Hn.
  - revert n Hn. induction ls as [|l ls IH]; intros n Hn; cbn in Hn.
    + now destruct n.
    + destruct n as [|n]; [lia|]. cbn. f_equal. apply IH. cbn. lia.
  - destruct n as [|n]; [lia|]. cbn. f_equal. apply IH. lia.
Qed.
Lemma local_terms_enumerated is : forall ls bs n,
  List.length is + List.length ls + List.length bs <= n ->
  take_next local_terms_next n ((is, ls), bs) =
  map CNamed (map CIri is ++ map CLit ls) ++ map CAnonymous bs.
Proof.
  induction is as [|i is IH]; intros ls bs n Hn; cbn in Hn.
  - revert n Hn. induction ls as [|l ls IH]; intros n Hn; cbn in Hn.
    + revert n Hn. induction bs as [|b bs IH]; intros n Hn; cbn in Hn.
      * now destruct n.
      * destruct n as [|n]; [lia|]. cbn. f_equal. apply IH. cbn. lia.
    + destruct n as [|n]; [lia|]. cbn. f_equal. apply IH. cbn. lia.
  - destruct n as [|n]; [lia|]. cbn. f_equal. apply IH. lia.
Qed.

Section Rev.
  Context {St R : Type} (I : interp_rev St R) (L : interp_rev_local St R).
  Lemma terms_of_enumerates st r n :
    List.length (i_iris_of I st r) + List.length (i_literals_of I st r) <= n ->
    take_next terms_next n (i_terms_of I st r) =
    map CIri (i_iris_of I st r) ++ map CLit (i_literals_of I st r).
  Proof. apply terms_enumerated. Qed.
  Lemma local_terms_of_enumerates st r n :
    List.length (i_iris_of I st r) + List.length (i_literals_of I st r) +
      List.length (i_blank_ids_of L st r) <= n ->
    take_next local_terms_next n (i_local_terms_of I L st r) =
    map CNamed (map CIri (i_iris_of I st r) ++ map CLit (i_literals_of I st r)) ++
    map CAnonymous (i_blank_ids_of L st r).
  Proof. apply local_terms_enumerated. Qed.
  Lemma is_anonymous_iff st r : i_is_anonymous I st r = true <->
    i_iris_of I st r = [] /\ i_literals_of I st r = [].
  Proof.
    unfold i_is_anonymous, i_terms_of, terms_next. cbn.
    destruct (i_iris_of I st r); cbn; [|split; [discriminate|now intros []]].
    destruct (i_literals_of I st r); cbn; split; try discriminate; try tauto. now intros [].
  Qed.
  Lemma is_anonymous_terms st r : i_is_anonymous I st r = true <->
    forall n, take_next terms_next n (i_terms_of I st r) = [].
  Proof.
    unfold i_is_anonymous. split.
    - intros H [|n]; [reflexivity|]. cbn. now destruct (terms_next _) as [[]|].
    - intros H. specialize (H 1%nat). cbn in H. now destruct (terms_next _) as [[]|].
  Qed.
  Lemma is_anonymous_facts st r :
    (i_is_anonymous I st r = true <-> i_iris_of I st r = [] /\ i_literals_of I st r = []) /\
    (i_is_anonymous I st r = true <-> forall n, take_next terms_next n (i_terms_of I st r) = []).
  Proof. exact (conj (is_anonymous_iff st r) (is_anonymous_terms st r)). Qed.
End Rev.

(** ** The lexical interpretations *)
Lemma unit_lexical t :
  i_term unit_interp tt (term_as_ref t) = Some (Named t) /\
  fst (i_insert_term unit_mut tt (term_as_cow t)) = Named t /\
  fst (i_insert_term unit_mut tt (term_into_cow t)) = Named t /\
  (forall n, 1 <= n -> map term_cow_into_owned
     (take_next terms_next n (i_terms_of unit_rev tt (Named t))) = [t]) /\
  i_is_anonymous unit_rev tt (Named t) = false.
Proof.
  destruct t as [i|l].
  - repeat apply conj; try reflexivity. intros n H.
    rewrite terms_of_enumerates by (cbn; lia). reflexivity.
  - repeat apply conj; try (destruct l as [v [i|x]]; reflexivity). intros n H.
    rewrite terms_of_enumerates by (cbn; lia). cbn. now rewrite literal_cow_round.
Qed.
Lemma unit_denotes r t : i_term unit_interp tt (term_as_ref t) = Some r <->
  In (term_as_cow t) (map CIri (i_iris_of unit_rev tt r) ++ map CLit (i_literals_of unit_rev tt r)).
Proof.
  split.
  - intros H. rewrite (proj1 (unit_lexical t)) in H. injection H as <-. destruct t; cbn; auto.
  - rewrite (proj1 (unit_lexical t)). destruct r as [b|[i|l]]; cbn; try tauto.
    + intros [H|[]]. destruct t; cbn in H; [|discriminate]. injection H as <-. reflexivity.
    + intros [H|[]]. destruct t as [i|m]; cbn in H; [discriminate|].
      injection H as H. rewrite <- (literal_cow_round l), <- (literal_cow_round m).
      do 3 f_equal. unfold literal_as_cow. congruence.
Qed.

Section LGI.
  Context {G : Type}.
  Lemma lgi_lexical (g : G) t :
    i_local_term lgi_interp lgi_local g (local_as_ref t) = Some t /\
    (forall n, 1 <= n ->
       take_next local_terms_next n (i_local_terms_of lgi_rev lgi_rev_local g t) = [local_as_cow t]) /\
    (i_is_anonymous lgi_rev g t = local_is_anonymous t).
  Proof.
    split; [|split].
    - destruct t as [b|[i|[v [i|x]]]]; reflexivity.
    - intros n Hn. rewrite local_terms_of_enumerates.
      + destruct t as [b|[i|[v [i|x]]]]; reflexivity.
      + destruct t as [b|[i|[v [i|x]]]]; cbn; lia.
    - destruct t as [b|[i|[v [i|x]]]]; reflexivity.
  Qed.
  Lemma lgi_insert (g : G) t :
    i_insert_term lgi_mut g (term_as_cow t) = (Named t, g) /\
    i_insert_term lgi_mut g (term_into_cow t) = (Named t, g).
  Proof. destruct t as [i|[v [i|x]]]; split; reflexivity. Qed.
  Lemma lgi_id (g : G) i :
    i_id lgi_interp lgi_local g (id_as_ref i) =
    Some (match i with IBlank b => Anonymous b | IIri i => Named (TIri i) end).
  Proof. now destruct i. Qed.
End LGI.

(** The generated resources are the blank node identifiers of the generator. *)
Lemma lgi_run_blank max checked n : forall g,
  lgi_run (blank_next_local_term max checked) n g =
  bind (generate max checked n g) (fun '(l, g) => Some (map Anonymous l, g)).
Proof.
  induction n as [|n IH]; intros g; [reflexivity|]. cbn.
  unfold lgi_new_resource, blank_next_local_term.
  destruct (next_blank_id max checked g) as [[b g1]|]; [|reflexivity]. cbn.
  rewrite IH. now destruct (generate max checked n g1) as [[l g2]|].
Qed.
Lemma lgi_fresh max checked n p offset l g' :
  (offset <= max)%N -> checked = true \/ (N.of_nat n <= max + 1)%N ->
  lgi_run (blank_next_local_term max checked) n (gen_full p offset) = Some (l, g') ->
  NoDup l /\ List.length l = n /\
  forall r, In r l -> exists b, r = Anonymous b /\
    i_blank_id lgi_local g' b = Some r /\ i_is_anonymous lgi_rev g' r = true.
Proof.
  intros H1 H2. rewrite lgi_run_blank.
  destruct (generate max checked n (gen_full p offset)) as [[bs g1]|] eqn:E; [|discriminate].
  cbn. intros H. injection H as <- <-. apply generate_distinct in E; [|assumption..].
  destruct E as [E1 E2]. split; [|split].
  - apply FinFun.Injective_map_NoDup; [intros x y; congruence|assumption].
  - now rewrite map_length.
  - intros r Hr. apply in_map_iff in Hr. destruct Hr as [b [<- _]]. now exists b.
Qed.
(** But an identifier the user already employs may be generated. *)
Lemma lgi_not_fresh : exists b r g',
  i_blank_id lgi_local gen_new b = Some r /\
  lgi_new_resource (blank_next_local_term (2 ^ 64 - 1) true) gen_new = Some (r, g').
Proof. exists (chars "_:0"), (Anonymous (chars "_:0")). eexists. now split. Qed.

(** ** [WithGenerator], [WithLocalGenerator] *)
Section Faithful.
  Context {W R T : Type} (lookup : W -> T -> option R) (insert : W -> T -> R * W)
    (new : W -> option (R * W)) (label : W -> option T).
  (** Generating is inserting the label, in a state that denotes the same. *)
  Context (F : faithful lookup insert).
  Context (HN : forall w t r w', label w = Some t -> new w = Some (r, w') ->
    exists w1, (forall u, lookup w1 u = lookup (snd (insert w t)) u) /\
      (forall u, lookup w' u = lookup w1 u) /\ r = fst (insert w t)).

  Lemma calls_faithful calls : forall w l w', run_calls insert new label w calls = Some (l, w') ->
    (forall t r, In (t, r) l -> lookup w' t = Some r) /\
    (forall t r, lookup w t = Some r -> lookup w' t = Some r).
  Proof.
    induction calls as [|[t|] calls IH]; intros w l w'; cbn.
    - intros H. injection H as <- <-. split; [intros t r []|auto].
    - pose proof (faith_new _ _ F w t) as H1. pose proof (faith_old _ _ F w t) as H2.
      destruct (insert w t) as [r w1]. cbn in *.
      destruct (run_calls insert new label w1 calls) as [[l1 w2]|] eqn:E; [|discriminate].
      cbn. intros H. injection H as <- <-. destruct (IH _ _ _ E) as [I1 I2]. split.
      + intros u s [H|H]; [injection H as <- <-|]; auto.
      + auto.
    - destruct (label w) as [t|] eqn:EL; [|discriminate]. cbn.
      destruct (new w) as [[r w1]|] eqn:EN; [|discriminate]. cbn.
      destruct (run_calls insert new label w1 calls) as [[l1 w2]|] eqn:E; [|discriminate].
      cbn. intros H. injection H as <- <-. destruct (IH _ _ _ E) as [I1 I2].
      destruct (HN _ _ _ _ EL EN) as (w0 & A & B & ->).
      pose proof (faith_new _ _ F w t) as H1. pose proof (faith_old _ _ F w t) as H2. split.
      + intros u s [H|H]; [injection H as <- <-|auto]. apply I2. now rewrite B, A.
      + intros u s H. apply I2. rewrite B, A. auto.
  Qed.
  (** Different terms, different resources, if the interpretation separates. *)
  Lemma calls_fresh calls w l w' : run_calls insert new label w calls = Some (l, w') ->
    separate lookup w' -> forall t r u s, In (t, r) l -> In (u, s) l -> r = s -> t = u.
  Proof.
    intros H S t r u s H1 H2 ->. destruct (calls_faithful _ _ _ _ H) as [A _].
    exact (S _ _ _ (A _ _ H1) (A _ _ H2)).
  Qed.
End Faithful.

Section WG.
  Context {St R G : Type} (I : interp St R) (M : interp_mut St R) (L : interp_local St R)
    (LM : interp_local_mut St R).
  Let W : Type := St * G.

  Definition look (st : St) (t : term) := i_term I st (term_as_ref t).
  Definition put (st : St) (t : term) := i_insert_term M st (term_into_cow t).
  Definition local_look (st : St) (t : local_term) := i_local_term I L st (local_as_ref t).
  Definition local_put (st : St) (t : local_term) := i_insert_local_term M LM st (local_into_cow t).

  Lemma wg_term (w : W) t : i_term (wg_interp I) w t = i_term I (fst w) t.
  Proof. now destruct t. Qed.
  Lemma wg_local_term (w : W) t :
    i_local_term (wg_interp I) (wg_local L) w t = i_local_term I L (fst w) t.
  Proof. now destruct t as [b|[i|l]]. Qed.
  Lemma wg_insert (w : W) t : i_insert_term (wg_mut M) w t = lift (i_insert_term M (fst w) t) (snd w).
  Proof. now destruct t. Qed.
  Lemma wg_local_insert (w : W) t : i_insert_local_term (wg_mut M) (wg_local_mut LM) w t =
    lift (i_insert_local_term M LM (fst w) t) (snd w).
  Proof. now destruct t as [b|[i|l]]. Qed.
  Lemma wg_faithful : faithful look put ->
    faithful (fun (w : W) t => i_term (wg_interp I) w (term_as_ref t))
      (fun w t => i_insert_term (wg_mut M) w (term_into_cow t)).
  Proof.
    intros [A B]. split.
    - intros w t. rewrite wg_term, wg_insert. apply A.
    - intros w t u r. rewrite !wg_term, wg_insert. apply B.
  Qed.
  Lemma wlg_faithful : faithful local_look local_put ->
    faithful (fun (w : W) t => i_local_term (wg_interp I) (wg_local L) w (local_as_ref t))
      (fun w t => i_insert_local_term (wg_mut M) (wg_local_mut LM) w (local_into_cow t)).
  Proof.
    intros [A B]. split.
    - intros w t. rewrite wg_local_term, wg_local_insert. apply A.
    - intros w t u r. rewrite !wg_local_term, wg_local_insert. apply B.
  Qed.

  Lemma wg_history next : faithful look put -> forall calls (w : W) l w',
    wg_run M next w calls = Some (l, w') ->
    (forall t r, In (t, r) l -> i_term (wg_interp I) w' (term_as_ref t) = Some r) /\
    (forall t r, i_term (wg_interp I) w (term_as_ref t) = Some r ->
                 i_term (wg_interp I) w' (term_as_ref t) = Some r) /\
    (separate look (fst w') -> forall t r u s, In (t, r) l -> In (u, s) l -> r = s -> t = u).
  Proof.
    intros F calls w l w' H.
    assert (HN : forall (w : W) t r w', option_map fst (next (snd w)) = Some t ->
      wg_new_resource M next w = Some (r, w') ->
      exists w1 : W, (forall u, i_term (wg_interp I) w1 (term_as_ref u) =
          i_term (wg_interp I) (snd (i_insert_term (wg_mut M) w (term_into_cow t))) (term_as_ref u)) /\
        (forall u, i_term (wg_interp I) w' (term_as_ref u) = i_term (wg_interp I) w1 (term_as_ref u)) /\
        r = fst (i_insert_term (wg_mut M) w (term_into_cow t))).
    { clear. intros w t r w' E. unfold wg_new_resource.
      destruct (next (snd w)) as [[t' g]|]; [|discriminate]. cbn in E. injection E as ->. cbn.
      intros H. injection H as <- <-. rewrite wg_insert. unfold term_cow_from.
      exists (snd (lift (i_insert_term M (fst w) (term_into_cow t)) g)).
      split; [|split]; [|reflexivity..]. intros u. now rewrite !wg_term. }
    destruct (calls_faithful _ _ _ _ (wg_faithful F) HN calls _ _ _ H) as [A B].
    split; [exact A|]. split; [exact B|]. intros S t r u s H1 H2 ->.
    apply A in H1, H2. rewrite wg_term in H1, H2. exact (S _ _ _ H1 H2).
  Qed.

  Lemma wlg_history next : faithful local_look local_put -> forall calls (w : W) l w',
    wlg_run M LM next w calls = Some (l, w') ->
    (forall t r, In (t, r) l ->
       i_local_term (wg_interp I) (wg_local L) w' (local_as_ref t) = Some r) /\
    (forall t r, i_local_term (wg_interp I) (wg_local L) w (local_as_ref t) = Some r ->
                 i_local_term (wg_interp I) (wg_local L) w' (local_as_ref t) = Some r) /\
    (separate local_look (fst w') -> forall t r u s, In (t, r) l -> In (u, s) l -> r = s -> t = u).
  Proof.
    intros F calls w l w' H.
    assert (HN : forall (w : W) t r w', option_map fst (next (snd w)) = Some t ->
      wlg_new_resource M LM next w = Some (r, w') ->
      let lk (w : W) t := i_local_term (wg_interp I) (wg_local L) w (local_as_ref t) in
      let ins (w : W) t := i_insert_local_term (wg_mut M) (wg_local_mut LM) w (local_into_cow t) in
      exists w1 : W, (forall u, lk w1 u = lk (snd (ins w t)) u) /\
        (forall u, lk w' u = lk w1 u) /\ r = fst (ins w t)).
    { clear. intros w t r w' E. unfold wlg_new_resource.
      destruct (next (snd w)) as [[t' g]|]; [|discriminate]. cbn in E. injection E as ->. cbn zeta.
      cbn [bind]. intros H. injection H as <- <-. rewrite wg_local_insert. unfold local_cow_from.
      exists (snd (lift (i_insert_local_term M LM (fst w) (local_into_cow t)) g)).
      split; [|split]; [|reflexivity..]. intros u. now rewrite !wg_local_term. }
    destruct (calls_faithful _ _ _ _ (wlg_faithful F) HN calls _ _ _ H) as [A B].
    split; [exact A|]. split; [exact B|]. intros S t r u s H1 H2 ->.
    apply A in H1, H2. rewrite wg_local_term in H1, H2. exact (S _ _ _ H1 H2).
  Qed.
End WG.

(** ** An interpretation to try this on: it numbers the terms. *)
Definition local_dec (a b : local_term) : {a = b} + {a <> b}.
Proof. repeat decide equality. Defined.
Fixpoint index_of (t : local_term) (l : list local_term) : option nat :=
  match l with
  | [] => None
  | u :: l => if local_dec t u then Some 0 else option_map S (index_of t l)
  end.
Definition number (st : list local_term) (t : local_term) : nat * list local_term :=
  match index_of t st with Some n => (n, st) | None => (List.length st, st ++ [t]) end.
Definition num_interp : interp (list local_term) nat :=
  Interp (fun st i => index_of (local_iri i) st)
         (fun st l => index_of (local_literal (literal_ref_to_owned l)) st).
Definition num_local : interp_local (list local_term) nat :=
  InterpLocal (fun st b => index_of (Anonymous b) st).
Definition num_mut : interp_mut (list local_term) nat :=
  InterpMut (fun st i => number st (local_iri (cow_text i)))
            (fun st l => number st (local_literal (literal_cow_into_owned l))).
Definition num_local_mut : interp_local_mut (list local_term) nat :=
  InterpLocalMut (fun st b => number st (Anonymous (cow_text b))).

Lemma index_of_nth t l n : index_of t l = Some n -> nth_error l n = Some t.
Proof.
  revert n. induction l as [|u l IH]; cbn; [discriminate|]. intros n.
  destruct (local_dec t u) as [->|H]; intros E; [now injection E as <-|].
  destruct (index_of t l) as [m|]; [|discriminate]. injection E as <-. cbn. now apply IH.
Qed.
Lemma index_of_app t u l n : index_of t l = Some n -> index_of t (l ++ [u]) = Some n.
Proof.
  revert n. induction l as [|x l IH]; cbn; [discriminate|]. intros n.
  destruct (local_dec t x); [auto|]. destruct (index_of t l) as [m|]; [|discriminate].
  intros E. injection E as <-. now rewrite (IH m).
Qed.
Lemma index_of_new t l : index_of t l = None -> index_of t (l ++ [t]) = Some (List.length l).
Proof.
  induction l as [|x l IH]; cbn.
  - intros _. now destruct (local_dec t t).
  - destruct (local_dec t x); [discriminate|]. destruct (index_of t l); [discriminate|].
    intros _. now rewrite IH.
Qed.
Lemma num_look st t : local_look num_interp num_local st t = index_of t st.
Proof. destruct t as [b|[i|[v [i|x]]]]; reflexivity. Qed.
Lemma num_put st t : local_put num_mut num_local_mut st t = number st t.
Proof. destruct t as [b|[i|[v [i|x]]]]; reflexivity. Qed.
Lemma num_faithful : faithful (local_look num_interp num_local) (local_put num_mut num_local_mut).
Proof.
  split.
  - intros st t. rewrite num_look, num_put. unfold number.
    destruct (index_of t st) eqn:E; cbn; [assumption|]. now apply index_of_new.
  - intros st t u r. rewrite !num_look, num_put. unfold number.
    destruct (index_of t st) eqn:E; cbn; [auto|]. apply index_of_app.
Qed.
Lemma num_separate st : separate (local_look num_interp num_local) st.
Proof.
  intros t u r. rewrite !num_look. intros H1 H2. apply index_of_nth in H1, H2. congruence.
Qed.
(** A user's [_:0] and the generated one are the same resource. *)
Lemma wlg_not_fresh : exists b l w',
  wlg_run num_mut num_local_mut (blank_next_local_term (2 ^ 64 - 1) true) ([], gen_new)
    [Insert (Anonymous b); New] = Some (l, w') /\ map snd l = [0; 0].
Proof. exists (chars "_:0"). eexists. eexists. now split. Qed.

(** ** Dispatch *)
Lemma dispatch_lookup {St R} (I : interp St R) (L : interp_local St R) st :
  (forall i, i_local_term I L st (local_as_ref (local_from_iri i)) = i_iri I st i) /\
  (forall l, i_local_term I L st (local_as_ref (local_from_literal l)) = i_literal I st (literal_as_ref l)) /\
  (forall b, i_local_term I L st (local_as_ref (local_from_blank b)) = i_blank_id L st b) /\
  (forall t, i_local_term I L st (local_as_ref (local_from_term t)) = i_term I st (term_as_ref t)) /\
  (forall b, i_id I L st (id_as_ref (IBlank b)) = i_blank_id L st b) /\
  (forall i, i_id I L st (id_as_ref (IIri i)) = i_iri I st i).
Proof. repeat split. Qed.
Lemma dispatch_insert {St R} (M : interp_mut St R) (L : interp_local_mut St R) st :
  (forall i, i_insert_local_term M L st (local_into_cow (local_from_iri i)) = i_insert_iri M st (Owned i)) /\
  (forall l, i_insert_local_term M L st (local_into_cow (local_from_literal l)) =
             i_insert_literal M st (literal_into_cow l)) /\
  (forall b, i_insert_local_term M L st (local_into_cow (local_from_blank b)) =
             i_insert_blank_id L st (Owned b)) /\
  (forall b, i_insert_id M L st (id_as_cow (IBlank b)) =
             i_insert_local_term M L st (local_as_cow (local_from_blank b))) /\
  (forall i, i_insert_id M L st (id_as_cow (IIri i)) =
             i_insert_local_term M L st (local_as_cow (local_from_iri i))).
Proof. repeat split. Qed.
Lemma try_facts {R St E : Type} :
  (forall r : option (R * St), @try_new_resource R St E r = None <-> r = None) /\
  (forall x st, @try_new_resource R St E (Some (x, st)) = Some (inl x, st)) /\
  (forall l : list R, exists m, @try_resources R E l = map inl m /\ m = l).
Proof.
  split; [|split].
  - intros [[x st]|]; cbn; split; congruence.
  - reflexivity.
  - intros l. now exists l.
Qed.

(** ** The way back, through a generator *)
Lemma wg_reverse {St R G} (I : interp St R) (M : interp_mut St R) (V : interp_rev St R)
    (next : G -> option (term * G)) :
  let look st t := i_term I st (term_as_ref t) in
  let back st r := map CIri (i_iris_of V st r) ++ map CLit (i_literals_of V st r) in
  faithful look (fun st t => i_insert_term M st (term_into_cow t)) ->
  (forall st r t, In t (map term_cow_into_owned (back st r)) <-> look st t = Some r) ->
  forall calls w l w', wg_run M next w calls = Some (l, w') ->
  forall t r, In (t, r) l ->
    i_is_anonymous (wg_rev V) w' r = false /\
    exists n, In t (map term_cow_into_owned (take_next terms_next n (i_terms_of (wg_rev V) w' r))).
Proof.
  intros look back F B calls w l w' E t r Hin.
  destruct (wg_history I M next F calls w l w' E) as (H & _ & _).
  pose proof (proj2 (B (fst w') r t) (H t r Hin)) as Ht.
  assert (E' : forall n, List.length (i_iris_of V (fst w') r) + List.length (i_literals_of V (fst w') r) <= n ->
    take_next terms_next n (i_terms_of (wg_rev V) w' r) = back (fst w') r)
    by (intros n Hn; exact (terms_of_enumerates (wg_rev (G:=G) V) w' r n Hn)).
  specialize (E' _ (le_n _)); split; [|eexists; rewrite E'; exact Ht].
  destruct (i_is_anonymous (wg_rev V) w' r) eqn:A; [|reflexivity].
  apply (proj2 (is_anonymous_facts (wg_rev (G:=G) V) w' r)) with (n := List.length (i_iris_of V (fst w') r) + List.length (i_literals_of V (fst w') r)) in A.
  rewrite E' in A; rewrite A in Ht; destruct Ht.
Qed.

Lemma wlg_reverse {St R G} (I : interp St R) (M : interp_mut St R) (L : interp_local St R)
    (LM : interp_local_mut St R) (V : interp_rev St R) (LV : interp_rev_local St R)
    (next : G -> option (local_term * G)) :
  let look st t := i_local_term I L st (local_as_ref t) in
  let back st r := map CNamed (map CIri (i_iris_of V st r) ++ map CLit (i_literals_of V st r)) ++
                   map CAnonymous (i_blank_ids_of LV st r) in
  faithful look (fun st t => i_insert_local_term M LM st (local_into_cow t)) ->
  (forall st r t, In t (map local_cow_value (back st r)) <-> look st t = Some r) ->
  forall calls w l w', wlg_run M LM next w calls = Some (l, w') ->
  forall t r, In (t, r) l ->
    exists n, In t (map local_cow_value
                      (take_next local_terms_next n (i_local_terms_of (wg_rev V) (wg_rev_local LV) w' r))).
Proof.
  intros look back F B calls w l w' E t r Hin.
  destruct (wlg_history I M L LM next F calls w l w' E) as (H & _ & _).
  pose proof (proj2 (B (fst w') r t) (H t r Hin)) as Ht.
  eexists; rewrite (local_terms_of_enumerates (wg_rev (G:=G) V) (wg_rev_local (G:=G) LV) w' r _ (le_n _)); exact Ht.
Qed.

(** The numbering, backwards. *)
Definition num_at (st : list local_term) (r : nat) : option local_term :=
  match nth_error st r with
  | Some t => if match index_of t st with Some i => Nat.eqb i r | None => false end then Some t else None
  | None => None
  end.
Definition num_rev : interp_rev (list local_term) nat :=
  InterpRev (fun st r => match num_at st r with Some (Named (TIri i)) => [Owned i] | _ => [] end)
            (fun st r => match num_at st r with Some (Named (TLit l)) => [literal_into_cow l] | _ => [] end).
Definition num_rev_local : interp_rev_local (list local_term) nat :=
  InterpRevLocal (fun st r => match num_at st r with Some (Anonymous b) => [Owned b] | _ => [] end).
Lemma num_at_spec st r t : num_at st r = Some t <-> index_of t st = Some r.
Proof.
  unfold num_at; split.
  - destruct (nth_error st r) as [u|]; [|discriminate]; destruct (index_of u st) as [i|] eqn:E; [|discriminate].
    destruct (Nat.eqb i r) eqn:Er; [|discriminate]; intros H; injection H as ->; apply PeanoNat.Nat.eqb_eq in Er; congruence.
  - intros H; pose proof (index_of_nth _ _ _ H) as Hn; rewrite Hn, H, PeanoNat.Nat.eqb_refl; reflexivity.
Qed.
Lemma num_back st r t :
  In t (map local_cow_value
    (map CNamed (map CIri (i_iris_of num_rev st r) ++ map CLit (i_literals_of num_rev st r)) ++
     map CAnonymous (i_blank_ids_of num_rev_local st r))) <->
  i_local_term num_interp num_local st (local_as_ref t) = Some r.
Proof.
  change (i_local_term num_interp num_local st (local_as_ref t)) with (local_look num_interp num_local st t).
  rewrite num_look, <- num_at_spec; cbn; destruct (num_at st r) as [[b|[i|l]]|]; cbn.
  - split; [intros [H|[]]; congruence|intros H; left; congruence].
  - split; [intros [H|[]]; congruence|intros H; left; congruence].
  - assert (literal_cow_into_owned (literal_into_cow l) = l) as -> by (destruct l as [v []]; reflexivity).
    split; [intros [H|[]]; congruence|intros H; left; congruence].
  - split; [contradiction|discriminate].
Qed.

(** ** What is generated *)
Section Drawn.
  Context {W R T G : Type} (insert : W -> T -> R * W) (new : W -> option (R * W))
    (label : W -> option T) (state : W -> G) (next : G -> option (T * G)).
  Context (HI : forall w t, state (snd (insert w t)) = state w).
  Context (HN : forall w t r w', label w = Some t -> new w = Some (r, w') ->
    next (state w) = Some (t, state w')).

  Lemma calls_drawn calls : forall w l w', run_calls insert new label w calls = Some (l, w') ->
    draws next (state w) (map fst (answers_to_new calls l)) (state w') /\
    Forall2 answers calls l.
  Proof.
    induction calls as [|[t|] calls IH]; intros w l w'; cbn.
    - intros H. injection H as <- <-. split; constructor.
    - specialize (HI w t). destruct (insert w t) as [r w1]. cbn in HI.
      destruct (run_calls insert new label w1 calls) as [[l1 w2]|] eqn:E; [|discriminate].
      cbn. intros H. injection H as <- <-. destruct (IH _ _ _ E) as [A B]. rewrite HI in A.
      split; [exact A|]. now constructor.
    - destruct (label w) as [t|] eqn:EL; [|discriminate]. cbn.
      destruct (new w) as [[r w1]|] eqn:EN; [|discriminate]. cbn.
      destruct (run_calls insert new label w1 calls) as [[l1 w2]|] eqn:E; [|discriminate].
      cbn. intros H. injection H as <- <-. destruct (IH _ _ _ E) as [A B].
      split; [|now constructor]. cbn. exact (draws_one _ _ _ _ _ _ (HN _ _ _ _ EL EN) A).
  Qed.
End Drawn.

Lemma wg_drawn {St R G} (M : interp_mut St R) (next : G -> option (term * G)) calls w l w' :
  wg_run M next w calls = Some (l, w') ->
  draws next (snd w) (map fst (answers_to_new calls l)) (snd w') /\ Forall2 answers calls l.
Proof.
  apply (calls_drawn _ _ _ snd).
  - intros w0 t. now rewrite wg_insert.
  - clear. intros w t r w' E. unfold wg_new_resource.
    destruct (next (snd w)) as [[t' g]|]; [|discriminate]. cbn in E. injection E as ->. cbn.
    intros H. injection H as <- <-. reflexivity.
Qed.
Lemma wlg_drawn {St R G} (M : interp_mut St R) (LM : interp_local_mut St R)
    (next : G -> option (local_term * G)) calls w l w' :
  wlg_run M LM next w calls = Some (l, w') ->
  draws next (snd w) (map fst (answers_to_new calls l)) (snd w') /\ Forall2 answers calls l.
Proof.
  apply (calls_drawn _ _ _ snd).
  - intros w0 t. now rewrite wg_local_insert.
  - clear. intros w t r w' E. unfold wlg_new_resource.
    destruct (next (snd w)) as [[t' g]|]; [|discriminate]. cbn in E. injection E as ->. cbn [bind].
    intros H. injection H as <- <-. reflexivity.
Qed.

Lemma draws_generate max checked l : forall g g',
  draws (blank_next_local_term max checked) g l g' ->
  exists bs, l = map Anonymous bs /\ generate max checked (List.length l) g = Some (bs, g').
Proof.
  induction l as [|t l IH]; intros g g' H; inversion H as [|? ? g1 ? ? E D]; subst.
  - now exists [].
  - destruct (IH _ _ D) as (bs & -> & Hg). unfold blank_next_local_term in E.
    destruct (next_blank_id max checked g) as [[b g2]|] eqn:EB; [|discriminate].
    injection E as <- <-. exists (b :: bs). split; [reflexivity|].
    cbn. rewrite EB. cbn. now rewrite Hg.
Qed.

(** Resources generated through [WithLocalGenerator] differ from one another. *)
Lemma answers_to_new_in {T R} (calls : list (call T)) : forall (l : list (T * R)) x,
  In x (answers_to_new calls l) -> In x l.
Proof.
  induction calls as [|[t|] calls IH]; intros [|a l] x; cbn; try tauto.
  - auto.
  - intros [H|H]; auto.
Qed.
Lemma nodup_fst_snd {T R} (l : list (T * R)) :
  (forall t r u s, In (t, r) l -> In (u, s) l -> r = s -> t = u) ->
  NoDup (map fst l) -> NoDup (map snd l).
Proof.
  induction l as [|[t r] l IH]; intros H N; [constructor|]. cbn in *.
  inversion N as [|? ? N1 N2]; subst. constructor.
  - intros K. apply in_map_iff in K. destruct K as [[u s] [K1 K2]]. cbn in K1. subst s.
    apply N1. rewrite (H t r u r); auto. apply in_map_iff. now exists (u, r).
  - apply IH; [|assumption]. intros t' r' u s H1 H2. apply H; auto.
Qed.
Lemma wlg_distinct {St R} (I : interp St R) (M : interp_mut St R) (L : interp_local St R)
    (LM : interp_local_mut St R) max checked :
  faithful (local_look I L) (local_put M LM) ->
  forall calls st p offset l w',
  wlg_run M LM (blank_next_local_term max checked) (st, gen_full p offset) calls = Some (l, w') ->
  (offset <= max)%N -> checked = true \/ (N.of_nat (List.length calls) <= max + 1)%N ->
  separate (local_look I L) (fst w') ->
  NoDup (map snd (answers_to_new calls l)) /\
  (forall t r, In (t, r) (answers_to_new calls l) -> exists b, t = Anonymous b).
Proof.
  intros F calls st p offset l w' H Ho Hb S.
  destruct (wlg_history I M L LM _ F _ _ _ _ H) as (_ & _ & A).
  destruct (wlg_drawn _ _ _ _ _ _ _ H) as [D E].
  destruct (draws_generate _ _ _ _ _ D) as (bs & Eb & G). cbn [snd] in G.
  split.
  - apply nodup_fst_snd.
    + intros t r u s H1 H2. apply (A S); eapply answers_to_new_in; eassumption.
    + rewrite Eb. apply FinFun.Injective_map_NoDup; [intros x y; congruence|].
      refine (proj1 (generate_distinct _ _ _ _ _ _ _ Ho _ G)).
      destruct Hb as [Hb|Hb]; [now left|right].
      enough (List.length (map fst (answers_to_new calls l)) <= List.length calls) by lia.
      rewrite map_length. clear. revert l. induction calls as [|[t|] calls IH]; intros [|a l]; cbn; try lia.
      * specialize (IH l). lia.
      * specialize (IH l). lia.
  - intros t r K. apply (in_map fst) in K. rewrite Eb in K. apply in_map_iff in K.
    destruct K as [b [K _]]. now exists b.
Qed.
