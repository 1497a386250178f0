(** Loading quads of terms into a dataset of resources, and reading them back. *)
From Coq Require Import List Bool Arith Lia.
Import ListNotations.
From Verif Require Import Base TextModel DisplayModel TermModel TripleModel InterpretationModel
  InterpretationSpec InterpretationProofs MapCallModel SetSpec ContainerSpec Machine BaseProofs
  BTreeDatasetModel BTreeDatasetProofs IsoSpec LoadModel.
From Verif Require MapCallSpec MapCallProofs.

Lemma comps_mapped {R T} (f : R -> T) q : quad_comps (qmap f q) = map f (quad_comps q).
Proof. now destruct q as [s p o [g|]]. Qed.

(** A quad is determined by its components and by whether it has a graph. *)
Lemma quad_by_comps {A B C} (f : A -> C) (g : B -> C) p q :
  map f (quad_comps p) = map g (quad_comps q) -> (q_g p = None <-> q_g q = None) ->
  qmap f p = qmap g q.
Proof.
  destruct p as [s p o [x|]], q as [s' p' o' [x'|]]; cbn; unfold qmap; cbn; intros H X.
  - injection H; intros -> -> -> ->; reflexivity.
  - exfalso. destruct X as [_ X]. discriminate (X eq_refl).
  - exfalso. destruct X as [X _]. discriminate (X eq_refl).
  - injection H; intros -> -> ->; reflexivity.
Qed.
Lemma qmap_id {R} (q : quad R) : qmap (fun x => x) q = q.
Proof. now destruct q as [s p o [g|]]. Qed.
Lemma qmap_ext_in {R T} (f g : R -> T) q : (forall x, In x (quad_comps q) -> f x = g x) -> qmap f q = qmap g q.
Proof.
  intros H. destruct q as [s p o [x|]]; unfold qmap; cbn in *; rewrite !H by tauto; reflexivity.
Qed.
Lemma qmap_eq_in {A B C} (f : A -> C) (g : B -> C) p q : qmap f p = qmap g q ->
  map f (quad_comps p) = map g (quad_comps q) /\ (q_g p = None <-> q_g q = None).
Proof.
  destruct p as [s p o [x|]], q as [s' p' o' [x'|]]; unfold qmap; cbn; intros H; inversion H; subst;
    split; try reflexivity; try congruence; split; congruence.
Qed.
Lemma qmap_inj_in {R T} (f : R -> T) p q : qmap f p = qmap f q ->
  (forall x y, In x (quad_comps p) -> In y (quad_comps q) -> f x = f y -> x = y) -> p = q.
Proof.
  intros H K. destruct p as [s p o [g|]], q as [s' p' o' [g'|]]; unfold qmap in H; cbn in *; inversion H;
    f_equal; try (apply K; tauto). f_equal. apply K; tauto.
Qed.

Section Load.
  Context {St R : Type} (I : interp St R) (L : interp_local St R).
  Context (M : interp_mut St R) (LM : interp_local_mut St R).
  Definition den (st : St) (t : local_term) : option R := i_local_term I L st (local_as_ref t).
  Context (F : faithful den (fun st t => i_insert_local_term M LM st (local_into_cow t))).
  Notation load_term := (load_term M LM).

  Lemma feed_den ts : forall st rs st', MapCallSpec.feed load_term ts st = (rs, st') ->
    map (den st') ts = map Some rs /\ forall t r, den st t = Some r -> den st' t = Some r.
  Proof.
    induction ts as [|t ts IH]; intros st rs st' H; cbn in H; [inv H; now split|].
    destruct (load_term t st) as [r st1] eqn:E.
    destruct (MapCallSpec.feed load_term ts st1) as [us st2] eqn:E2. inv H.
    destruct (IH _ _ _ E2) as [A B]. unfold LoadModel.load_term in E.
    pose proof (faith_new _ _ F st t) as N. cbv beta in N.
    change (local_cow_from t) with (local_into_cow t) in E. rewrite E in N. cbn in N.
    split; [cbn; rewrite A; f_equal; apply B; exact N|].
    intros u x Hu. apply B. pose proof (faith_old _ _ F st t u x Hu) as O. cbv beta in O. now rewrite E in O.
  Qed.

  Lemma quad_den q st q' st' : quad_mapm load_term q st = (q', st') ->
    qmap (den st') q = qmap Some q' /\ forall t r, den st t = Some r -> den st' t = Some r.
  Proof.
    intros H. destruct (MapCallProofs.quad_mapm_feed _ _ _ _ _ H) as [X Y].
    change (MapCallSpec.quad_comps q) with (quad_comps q) in X.
    change (MapCallSpec.quad_comps q') with (quad_comps q') in X.
    destruct (feed_den _ _ _ _ X) as [A B]. split; [|exact B]. apply quad_by_comps; [exact A|tauto].
  Qed.

  Lemma den_later st st' q q' : (forall t r, den st t = Some r -> den st' t = Some r) ->
    qmap (den st) q = qmap Some q' -> qmap (den st') q = qmap Some q'.
  Proof.
    intros H E. rewrite <- E. apply qmap_ext_in. intros t Ht.
    destruct (den st t) as [r|] eqn:D; [auto|]. exfalso.
    destruct (qmap_eq_in _ _ _ _ E) as [X _]. apply (in_map (den st)) in Ht. rewrite X, D in Ht.
    apply in_map_iff in Ht as (x & Hx & _). discriminate.
  Qed.

  Context {cmp : R -> R -> comparison} (O : ord_laws cmp) (keep : bool).
  Notation qcmp := (quad_cmp cmp).
  Let OQ : ord_laws qcmp := quad_cmp_laws cmp O.

  (** [q'] is what [q] denotes. *)
  Definition denotes (st : St) (q : quad local_term) (q' : quad R) : Prop := qmap (den st) q = qmap Some q'.

  Lemma denotes_fun st q a b : denotes st q a -> denotes st q b -> a = b.
  Proof.
    unfold denotes. intros -> H. apply (qmap_inj_in Some); [exact H|]. intros x y _ _ E. now inv E.
  Qed.

  Lemma load_rep l : forall st out s, bd_rep (cmp:=cmp) out s ->
    exists out' st' s', load M LM cmp keep l st out = Some (out', st') /\ bd_rep (cmp:=cmp) out' s' /\
      (forall t r, den st t = Some r -> den st' t = Some r) /\
      (forall q, In q l -> exists q', denotes st' q q') /\
      (forall q', In q' s' <-> In q' s \/ exists q, In q l /\ denotes st' q q').
  Proof.
    induction l as [|q l IH]; intros st out s H; cbn [load].
    - exists out, st, s. split; [reflexivity|]. split; [exact H|]. split; [auto|]. split; [easy|].
      intros q'. split; [auto|]. intros [X|(? & [] & _)]; exact X.
    - destruct (quad_mapm load_term q st) as [q1 st1] eqn:E. destruct (quad_den _ _ _ _ E) as [D B].
      destruct (bd_insert_rep O keep _ _ q1 H) as (out1 & -> & H1).
      destruct (IH st1 out1 _ H1) as (out' & st' & s' & -> & R' & B' & T' & M').
      exists out', st', s'. split; [reflexivity|]. split; [exact R'|]. split; [auto|].
      assert (D' : denotes st' q q1) by exact (den_later _ _ _ _ B' D). split.
      + intros p [<-|Hp]; [eauto|auto].
      + intros q'. rewrite M', (in_add OQ). split.
        * intros [[->|X]|(p & Hp & X)]; [right; exists q; split; [now left|exact D']|tauto|].
          right. exists p. split; [now right|exact X].
        * intros [X|(p & [<-|Hp] & X)]; [tauto| |right; eauto].
          left. left. exact (denotes_fun _ _ _ _ X D').
  Qed.
End Load.

Section Export.
  Context {St R : Type} (I : interp St R) (L : interp_local St R).
  Context (V : interp_rev St R) (LV : interp_rev_local St R) (st : St).
  (** The terms of a resource. *)
  Definition terms (r : R) : list local_term :=
    map local_cow_value
      (map CNamed (map CIri (i_iris_of V st r) ++ map CLit (i_literals_of V st r)) ++
       map CAnonymous (i_blank_ids_of LV st r)).
  Context (B : forall r t, In t (terms r) <-> den I L st t = Some r).
  Notation export_term := (export_term V LV st).

  Lemma export_some r : (exists t, den I L st t = Some r) ->
    exists t, (forall ok, export_term r ok = (t, ok)) /\ den I L st t = Some r.
  Proof.
    intros [t Ht]. apply B in Ht. unfold terms in Ht.
    assert (X : forall u, In u (terms r) -> den I L st u = Some r) by (intros u; apply B). unfold terms in X.
    unfold LoadModel.export_term, i_local_terms_of, i_terms_of, local_terms_next, terms_next; cbn.
    destruct (i_iris_of V st r) as [|i is]; cbn in *.
    - destruct (i_literals_of V st r) as [|k ks]; cbn in *.
      + destruct (i_blank_ids_of LV st r) as [|b bs]; cbn in *; [tauto|].
        eexists. split; [reflexivity|]. apply X. now left.
      + eexists. split; [reflexivity|]. apply X. now left.
    - eexists. split; [reflexivity|]. apply X. now left.
  Qed.
  Lemma export_none r : ~ (exists t, den I L st t = Some r) -> forall ok, snd (export_term r ok) = false.
  Proof.
    intros H ok. assert (X : forall u, ~ In u (terms r)) by (intros u U; apply H; exists u; now apply B).
    unfold terms in X. unfold LoadModel.export_term, i_local_terms_of, i_terms_of, local_terms_next, terms_next; cbn.
    destruct (i_iris_of V st r) as [|i is]; cbn in *; [|exfalso; eapply X; now left].
    destruct (i_literals_of V st r) as [|k ks]; cbn in *; [|exfalso; eapply X; now left].
    destruct (i_blank_ids_of LV st r) as [|b bs]; cbn in *; [reflexivity|exfalso; eapply X; now left].
  Qed.

  Definition named (q : quad R) : Prop := forall r, In r (quad_comps q) -> exists t, den I L st t = Some r.

  Lemma export_false rs : forall us b, MapCallSpec.feed export_term rs false = (us, b) -> b = false.
  Proof.
    induction rs as [|r rs IH]; intros us b H; cbn in H; [now inv H|].
    assert (X : snd (export_term r false) = false).
    { unfold LoadModel.export_term. destruct (local_terms_next _) as [[[c|c] ?]|]; reflexivity. }
    destruct (export_term r false) as [t ok]; cbn in X; subst ok.
    destruct (MapCallSpec.feed export_term rs false) as [vs b'] eqn:E. inv H. eauto.
  Qed.

  Lemma export_feed rs : forall us b, MapCallSpec.feed export_term rs true = (us, b) ->
    if b then map (den I L st) us = map Some rs else ~ (forall r, In r rs -> exists t, den I L st t = Some r).
  Proof.
    induction rs as [|r rs IH]; intros us b H; cbn in H; [now inv H|].
    destruct (export_term r true) as [t ok] eqn:E.
    destruct (MapCallSpec.feed export_term rs ok) as [vs b'] eqn:E'. inv H.
    destruct ok.
    - specialize (IH _ _ E'). destruct b; [|intros K; apply IH; intros x Hx; apply K; now right].
      cbn. rewrite IH. f_equal.
      assert (N : exists t', den I L st t' = Some r).
      { destruct (terms r) as [|u us] eqn:T; [|exists u; apply B; rewrite T; now left].
        exfalso. pose proof (export_none r ltac:(intros [u U]; apply B in U; now rewrite T in U) true) as Z.
        rewrite E in Z. discriminate. }
      destruct (export_some r N) as (t' & X & D). rewrite X in E. inv E. exact D.
    - rewrite (export_false _ _ _ E'). intros K. destruct (export_some r (K r (or_introl eq_refl))) as (t' & X & _).
      rewrite X in E. discriminate.
  Qed.

  Lemma export_quad q : forall q' b, quad_mapm export_term q true = (q', b) ->
    if b then denotes I L st q' q else ~ named q.
  Proof.
    intros q' b H. destruct (MapCallProofs.quad_mapm_feed _ _ _ _ _ H) as [X Y].
    change (MapCallSpec.quad_comps q) with (quad_comps q) in X.
    change (MapCallSpec.quad_comps q') with (quad_comps q') in X.
    pose proof (export_feed _ _ _ X) as Z. destruct b; [|exact Z].
    apply quad_by_comps; [exact Z|exact Y].
  Qed.

  Context {cmp : local_term -> local_term -> comparison} (O : ord_laws cmp) (keep : bool).
  Notation qcmp := (quad_cmp cmp).
  Let OQ : ord_laws qcmp := quad_cmp_laws cmp O.

  Lemma export_rep l : forall out s, bd_rep (cmp:=cmp) out s ->
    match export_into V LV st cmp keep l out with
    | Some out' => exists s', bd_rep (cmp:=cmp) out' s' /\ (forall q, In q l -> named q) /\
        (forall q, In q s' -> In q s \/ exists q', In q' l /\ denotes I L st q q') /\
        (forall q, In q s -> In q s') /\
        (forall q', In q' l -> exists q, In q s' /\ denotes I L st q q')
    | None => ~ (forall q, In q l -> named q)
    end.
  Proof.
    induction l as [|q l IH]; intros out s H; cbn [export_into].
    - exists s. split; [exact H|]. split; [easy|]. split; [auto|]. split; [auto|easy].
    - destruct (quad_mapm export_term q true) as [q1 b] eqn:E. pose proof (export_quad _ _ _ E) as D.
      destruct b; [|intros K; apply D, K; now left].
      destruct (bd_insert_rep O keep _ _ q1 H) as (out1 & -> & H1).
      pose proof (IH out1 _ H1) as X. destruct (export_into V LV st cmp keep l out1) as [out'|].
      + destruct X as (s' & R' & N' & A' & I' & B'). exists s'. split; [exact R'|].
        split; [intros p [<-|Hp]; [|auto]|].
        { intros r Hr. destruct (qmap_eq_in _ _ _ _ D) as [Y _]. apply (in_map Some) in Hr. rewrite <- Y in Hr.
          apply in_map_iff in Hr as (t & Ht & _). eauto. }
        split; [|split].
        * intros p Hp. destruct (A' p Hp) as [Hp'|(p' & Hp' & Dp)]; [|right; exists p'; split; [now right|exact Dp]].
          apply (in_add OQ) in Hp' as [->|Hp']; [|now left]. right. exists q. split; [now left|exact D].
        * intros p Hp. apply I'. apply (in_add OQ). now right.
        * intros p' [<-|Hp]; [|auto]. exists q1. split; [|exact D]. apply I', (in_add OQ). now left.
      + intros K. apply X. intros p Hp. apply K. now right.
  Qed.
End Export.

Section Programs.
  Context {St R : Type} {I : interp St R} {L : interp_local St R}.
  Context {M : interp_mut St R} {LM : interp_local_mut St R}.
  Context {V : interp_rev St R} {LV : interp_rev_local St R}.
  Context {cmp : R -> R -> comparison} (O : ord_laws cmp).
  Context {tcmp : local_term -> local_term -> comparison} (OT : ord_laws tcmp).
  Context (keep : bool).
  Notation den := (den I L).
  Notation put := (fun st t => i_insert_local_term M LM st (local_into_cow t)).

  Lemma loaded ops xs d0 l0 : faithful den put ->
    run (bd_step cmp keep) bd_new ops = Some (xs, d0) -> bd_iter d0 = Some l0 ->
    forall l st, exists d st' l', load M LM cmp keep l st d0 = Some (d, st') /\ bd_iter d = Some l' /\
      (forall t r, den st t = Some r -> den st' t = Some r) /\
      (forall q, In q l -> exists q', denotes I L st' q q') /\
      (forall q', In q' l' <-> In q' l0 \/ exists q, In q l /\ denotes I L st' q q') /\
      (separate den st' -> NoDup l -> l0 = [] -> length l' = length l).
  Proof.
    intros F H Hl l st. pose proof (bd_run_rep_new O keep ops xs d0 H) as Rp.
    pose proof (bd_iter_rep _ _ Rp) as X. rewrite Hl in X. inv X.
    destruct (load_rep I L M LM F O keep l st d0 _ Rp) as (d & st' & s' & E & R' & A & T & B).
    exists d, st', (sorted_elements (quad_cmp cmp) s'). split; [exact E|]. split; [exact (bd_iter_rep _ _ R')|].
    split; [exact A|]. split; [exact T|].
    assert (B' : forall q', In q' (sorted_elements (quad_cmp cmp) s') <->
      In q' (sorted_elements (quad_cmp cmp) (spec_set (quad_cmp cmp) ops)) \/ exists q, In q l /\ denotes I L st' q q').
    { intros q'. rewrite !in_sorted_elements. apply B. }
    split; [exact B'|]. intros S N Z. rewrite Z in B'.
    assert (NS : NoDup (sorted_elements (quad_cmp cmp) s')).
    { apply (ssorted_nodup (quad_cmp_laws _ O)), (sorted_elements_sorted (quad_cmp_laws _ O)), R'. }
    revert B' NS. generalize (sorted_elements (quad_cmp cmp) s'). intros m B' NS.
    rewrite <- (map_length (qmap Some) m), <- (map_length (qmap (den st')) l).
    assert (N1 : NoDup (map (qmap (@Some R)) m)).
    { apply FinFun.Injective_map_NoDup; [|exact NS]. intros a b Hab. apply (qmap_inj_in Some); [exact Hab|].
      intros x y _ _ Exy. now inv Exy. }
    assert (N2 : NoDup (map (qmap (den st')) l)).
    { assert (K : forall p q, In p l -> In q l -> qmap (den st') p = qmap (den st') q -> p = q).
      { intros p q Hp Hq E'. apply (qmap_inj_in _ _ _ E'). intros x y Hx Hy Exy.
        destruct (T p Hp) as [p' Dp]. destruct (qmap_eq_in _ _ _ _ Dp) as [Y _].
        apply (in_map (den st')) in Hx. rewrite Y in Hx. apply in_map_iff in Hx as (r & Er & _).
        apply (S x y r); congruence. }
      clear - N K. induction l as [|a l IH]; cbn; [constructor|]. inversion N as [|? ? Ia Na]; subst. constructor.
      - intros C. apply in_map_iff in C as (b & E & Hb). apply Ia.
        rewrite (K a b); [exact Hb|now left|now right|now symmetry].
      - apply IH; [exact Na|]. intros; apply K; try (right; assumption); assumption. }
    apply Nat.le_antisymm; apply NoDup_incl_length; try assumption; intros x Hx; apply in_map_iff in Hx as (q & <- & Hq).
    - apply B' in Hq as [[]|(p & Hp & D)]. rewrite <- D. now apply in_map.
    - destruct (T q Hq) as [q' D]. rewrite D. apply in_map, B'. right. eauto.
  Qed.

  (** Loading into an empty dataset, and reading back. *)
  Lemma round_trip : faithful den put -> forall l st,
    exists d st', load M LM cmp keep l st bd_new = Some (d, st') /\
    ((forall r t, In t (terms V LV st' r) <-> den st' t = Some r) ->
     exists d' l', export V LV st' tcmp keep d = Some d' /\ bd_iter d' = Some l' /\
       (forall q, In q l -> exists q', In q' l' /\ qmap (den st') q' = qmap (den st') q) /\
       (forall q', In q' l' -> exists q, In q l /\ qmap (den st') q' = qmap (den st') q) /\
       (separate den st' -> forall q, In q l' <-> In q l)).
  Proof.
    intros F l st. destruct (load_rep I L M LM F O keep l st _ _ (bd_rep_new (cmp:=cmp)))
      as (d & st' & s & E & Rd & A & T & B).
    exists d, st'. split; [exact E|]. intros K. unfold export. rewrite (bd_iter_rep _ _ Rd).
    pose proof (export_rep I L V LV st' K OT keep (sorted_elements (quad_cmp cmp) s) _ _ (bd_rep_new (cmp:=tcmp))) as X.
    assert (N : forall q, In q (sorted_elements (quad_cmp cmp) s) -> named I L st' q).
    { intros q' Hq. apply in_sorted_elements, B in Hq as [[]|(q & Hq & D)]. intros r Hr.
      destruct (qmap_eq_in _ _ _ _ D) as [Y _]. apply (in_map Some) in Hr. rewrite <- Y in Hr.
      apply in_map_iff in Hr as (t & Ht & _). eauto. }
    destruct (export_into _ _ _ _ _ _ _) as [d'|]; [|destruct (X N)].
    destruct X as (s' & R' & _ & C & _ & D). exists d'. eexists. split; [reflexivity|].
    split; [exact (bd_iter_rep _ _ R')|].
    assert (P1 : forall q, In q l -> exists q', In q' (sorted_elements (quad_cmp tcmp) s') /\ qmap (den st') q' = qmap (den st') q).
    { intros q Hq. destruct (T q Hq) as [r Dq].
      destruct (D r) as (q' & Hq' & Dq'); [apply in_sorted_elements, B; right; eauto|].
      exists q'. split; [now apply in_sorted_elements|]. unfold denotes in *. congruence. }
    assert (P2 : forall q', In q' (sorted_elements (quad_cmp tcmp) s') -> exists q, In q l /\ qmap (den st') q' = qmap (den st') q).
    { intros q' Hq. apply in_sorted_elements, C in Hq as [[]|(r & Hr & Dr)].
      apply in_sorted_elements, B in Hr as [[]|(q & Hq & Dq)]. exists q. split; [exact Hq|].
      unfold denotes in *. congruence. }
    split; [exact P1|]. split; [exact P2|]. intros S.
    assert (J : forall p q, In q l -> qmap (den st') p = qmap (den st') q -> p = q).
    { intros p q Hq Epq. symmetry. symmetry in Epq. apply (qmap_inj_in _ _ _ Epq). intros x y Hx Hy Exy.
      destruct (T q Hq) as [r Dq]. destruct (qmap_eq_in _ _ _ _ Dq) as [Y _].
      apply (in_map (den st')) in Hx. rewrite Y in Hx. apply in_map_iff in Hx as (z & Ez & _).
      apply (S x y z); congruence. }
    intros q. split; intros Hq.
    - destruct (P2 q Hq) as (p & Hp & Epq). now rewrite (J q p Hp Epq).
    - destruct (P1 q Hq) as (p & Hp & Epq). now rewrite <- (J p q Hq Epq).
  Qed.

  Lemma exported ops xs d l st :
    run (bd_step cmp keep) bd_new ops = Some (xs, d) -> bd_iter d = Some l ->
    (forall r t, In t (terms V LV st r) <-> den st t = Some r) ->
    (export V LV st tcmp keep d <> None <->
     forall q r, In q l -> In r (quad_comps q) -> exists t, den st t = Some r) /\
    forall d', export V LV st tcmp keep d = Some d' -> exists l', bd_iter d' = Some l' /\
      (forall q, In q l' -> exists q', In q' l /\ denotes I L st q q') /\
      (forall q', In q' l -> exists q, In q l' /\ denotes I L st q q').
  Proof.
    intros H Hl K. unfold export. rewrite Hl.
    pose proof (export_rep I L V LV st K OT keep l _ _ (bd_rep_new (cmp:=tcmp))) as X.
    destruct (export_into _ _ _ _ _ _ _) as [d'|].
    - destruct X as (s' & R' & N & C & _ & D). split.
      + split; [intros _ q r Hq; exact (N q Hq r)|discriminate].
      + intros d1 E1. inv E1. eexists. split; [exact (bd_iter_rep _ _ R')|]. split.
        * intros q Hq. apply in_sorted_elements, C in Hq as [[]|Hq]. exact Hq.
        * intros q' Hq. destruct (D q' Hq) as (q & Hq' & Dq). exists q. split; [now apply in_sorted_elements|exact Dq].
    - split; [|discriminate]. split; [congruence|]. intros N. destruct X. intros q Hq r Hr. eauto.
  Qed.
End Programs.
