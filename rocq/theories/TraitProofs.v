(** Proofs about the provided methods of the dataset and graph traits. *)
From Coq Require Import List Bool.
Import ListNotations.
From Verif Require Import Base TripleModel TriplePatternModel QuadPatternModel PatternSpec
  PatternProofs TraitSpec TraitModel.

Lemma yields_list {X} (l : list X) : yields list_next l l.
Proof.
  induction l as [|x l IH].
  - now apply yields_end with (j := []).
  - apply yields_item with (j := l); [reflexivity|exact IH].
Qed.

Lemma yields_det {I X} (next : I -> option X * I) i l m :
  yields next i l -> yields next i m -> l = m.
Proof.
  intros H; revert m. induction H as [i j E|i j x l E H IH]; intros m M; inversion M; subst; try congruence.
  rewrite E in H0. inversion H0; subst. f_equal. now apply IH.
Qed.

Lemma yields_map {I J X Y} (next : I -> option X * I) (next' : J -> option Y * J)
  (f : X -> Y) (g : I -> J) :
  (forall i, next' (g i) = (option_map f (fst (next i)), g (snd (next i)))) ->
  forall i l, yields next i l -> yields next' (g i) (map f l).
Proof.
  intros H i l Y1. induction Y1 as [i j E|i j x l E H1 IH].
  - apply yields_end with (j := g j). rewrite H, E. reflexivity.
  - cbn. apply yields_item with (j := g j); [rewrite H, E; reflexivity|exact IH].
Qed.

Lemma yields_found {I X} (next : I -> option X * I) i l :
  yields next i l -> (found (next i) = true <-> exists x, In x l).
Proof.
  unfold found. intros [j k E|j k x m E H]; rewrite E; cbn.
  - split; [discriminate|intros (x & [])].
  - split; [intros _; exists x; now left|reflexivity].
Qed.

Section Dataset.
  Context {R I : Type} (next : I -> option (quad R) * I) (start : cqp R -> I).
  Variable s : list (quad R).

  Lemma found_exact c : exact_quads_at next start s c ->
    (found (next (start c)) = true <-> exists q, In q s /\ cq_matches c q).
  Proof.
    intros E. destruct E as (l & Y & _ & H). rewrite (yields_found _ _ _ Y).
    split; intros (q & Q); exists q; now apply H.
  Qed.

  Lemma ds_contains : exact_quads next start s ->
    (forall q, contains_quad next start q = true <-> In q s) /\
    (forall r, contains_quad_subject next start r = true <-> exists q, In q s /\ q_s q = r) /\
    (forall r, contains_quad_predicate next start r = true <-> exists q, In q s /\ q_p q = r) /\
    (forall r, contains_quad_object next start r = true <-> exists q, In q s /\ q_o q = r) /\
    (forall r, contains_named_graph next start r = true <-> exists q, In q s /\ q_g q = Some r).
  Proof.
    intros E. repeat split; unfold contains_quad, contains_quad_subject, contains_quad_predicate,
      contains_quad_object, contains_named_graph.
    - intros H. apply (found_exact _ (E _)) in H as (r & H & M). apply from_quad_matches in M. now subst.
    - intros H. apply (found_exact _ (E _)). exists q. split; [easy|]. now apply from_quad_matches.
    - intros H. apply (found_exact _ (E _)) in H as (q & H & M). exists q. split; [easy|apply M].
    - intros (q & H & M). apply (found_exact _ (E _)). exists q. split; [easy|]. now split.
    - intros H. apply (found_exact _ (E _)) in H as (q & H & M). exists q. split; [easy|apply M].
    - intros (q & H & M). apply (found_exact _ (E _)). exists q. split; [easy|]. now split.
    - intros H. apply (found_exact _ (E _)) in H as (q & H & M). exists q. split; [easy|apply M].
    - intros (q & H & M). apply (found_exact _ (E _)). exists q. split; [easy|]. now split.
    - intros H. apply (found_exact _ (E _)) in H as (q & H & M). exists q. split; [easy|apply M].
    - intros (q & H & M). apply (found_exact _ (E _)). exists q. split; [easy|]. exact M.
  Qed.

  Lemma objects_inner i l : yields next i l ->
    yields (quad_objects_next next) (QObjects None i) (map q_o l).
  Proof.
    apply (yields_map next (quad_objects_next next) q_o (fun i => QObjects None i)).
    intros j. unfold quad_objects_next. cbn. now destruct (next j).
  Qed.

  Lemma objects_nodup g r p l : NoDup l ->
    (forall q : quad R, In q l -> q_s q = r /\ q_p q = p /\ q_g q = g) -> NoDup (map q_o l).
  Proof.
    induction l as [|x l IH]; intros N H; [constructor|].
    inversion N as [|? ? N1 N2]; subst. cbn. constructor.
    - intros M. apply in_map_iff in M as (y & M1 & M2). apply N1. enough (x = y) by now subst.
      destruct (H x) as (A & B & C); [now left|]. destruct (H y) as (A' & B' & C'); [now right|].
      destruct x, y; cbn in *. congruence.
    - apply IH; [exact N2|]. intros q Q. apply H. now right.
  Qed.

  Lemma objects_of g r p l : NoDup l ->
    (forall q, In q l <-> In q s /\ q_s q = r /\ q_p q = p /\ q_g q = g) ->
    NoDup (map q_o l) /\ forall o, In o (map q_o l) <-> In (Quad r p o g) s.
  Proof.
    intros N H. split.
    - apply (objects_nodup g r p); [exact N|]. intros q Q. now apply H in Q.
    - intros o. rewrite in_map_iff. split.
      + intros (q & <- & Q). apply H in Q as (Q & <- & <- & <-). now destruct q.
      + intros Q. exists (Quad r p o g). split; [reflexivity|]. apply H. now repeat split.
  Qed.

  Lemma ds_objects g r p :
    exact_quads_at next start s (CQ_GivenS r (QG_GivenP p (QGG_Any (QGGA_Given g)))) -> exists l,
    yields (quad_objects_next next) (quad_objects start g r p) l /\ NoDup l /\
    forall o, In o l <-> In (Quad r p o g) s.
  Proof.
    unfold quad_objects. cbn. intros E. destruct E as (l & Y & N & H).
    exists (map q_o l). split; [now apply objects_inner|].
    apply objects_of; [exact N|]. intros q. rewrite H. cbn. tauto.
  Qed.

  Definition good_group (g : option R) (r : R) (x : R * quad_objects_st) : Prop :=
    exists os, yields (quad_objects_next next) (snd x) os /\ os <> [] /\ NoDup os /\
      forall o, In o os <-> In (Quad r (fst x) o g) s.

  Lemma ds_predicates_objects_gen g r ps :
    (forall p, exact_quads_at next start s (CQ_GivenS r (QG_GivenP p (QGG_Any (QGGA_Given g))))) ->
    exists l,
    yields (quad_predicates_objects_next next start g r) ps l /\
    (forall x, In x l -> good_group g r x) /\
    (forall p, In p (map fst l) <-> In p ps /\ exists o, In (Quad r p o g) s) /\
    (NoDup ps -> NoDup (map fst l)).
  Proof.
    intros E. induction ps as [|p ps (l & Y & G & P & D)].
    { exists []. split; [now apply yields_end with (j := [])|]. split; [easy|]. split; [|easy].
      intros p. cbn. tauto. }
    destruct (E p) as (m & Ym & N & H).
    assert (H' : forall q, In q m <-> In q s /\ q_s q = r /\ q_p q = p /\ q_g q = g).
    { intros q. rewrite H. cbn. tauto. }
    destruct (objects_of g r p m N H') as (No & Ho).
    inversion Ym as [i j E1 F1 F2|i j x m' E1 Y1 F1 F2]; subst.
    - exists l. assert (Z : quad_predicates_objects_next next start g r (p :: ps) =
                           quad_predicates_objects_next next start g r ps) by (cbn; now rewrite E1).
      split.
      { inversion Y as [? ? Z1|? ? ? ? Z1 Z2]; subst.
        - apply yields_end with (j := j0). now rewrite Z.
        - apply yields_item with (j := j0); [now rewrite Z|exact Z2]. }
      split; [exact G|]. split.
      + intros k. rewrite P. cbn. split; [tauto|]. intros ([<-|K] & o & O); [|eauto].
        exfalso. apply Ho in O. exact O.
      + intros ND. apply D. now inversion ND.
    - exists ((p, QObjects (Some (q_o x)) j) :: l). split.
      { apply yields_item with (j := ps); [cbn; now rewrite E1|exact Y]. }
      split.
      { intros y [<-|Q]; [|now apply G]. exists (map q_o (x :: m')). cbn [fst snd]. split.
        - cbn. apply yields_item with (j := QObjects None j); [reflexivity|now apply objects_inner].
        - split; [discriminate|]. split; [exact No|exact Ho]. }
      split.
      + intros k. cbn. rewrite P. split.
        * intros [<-|(K & O)]; [|eauto]. split; [now left|]. exists (q_o x). apply Ho. now left.
        * intros ([<-|K] & O); [now left|now right].
      + intros ND. cbn. inversion ND as [|? ? N1 N2]; subst. constructor; [|now apply D].
        intros K. apply P in K. now destruct K.
  Qed.

  (** As soon as [ps] lists the predicates in use (and maybe others). *)
  Lemma ds_predicates_objects g r ps :
    (forall p, exact_quads_at next start s (CQ_GivenS r (QG_GivenP p (QGG_Any (QGGA_Given g))))) ->
    NoDup ps -> (forall q, In q s -> In (q_p q) ps) ->
    exists l,
      yields (quad_predicates_objects_next next start g r) ps l /\
      NoDup (map fst l) /\
      (forall p, In p (map fst l) <-> exists o, In (Quad r p o g) s) /\
      (forall p i, In (p, i) l -> exists os,
         yields (quad_objects_next next) i os /\ NoDup os /\
         forall o, In o os <-> In (Quad r p o g) s).
  Proof.
    intros E N A. destruct (ds_predicates_objects_gen g r ps E) as (l & Y & G & P & D).
    exists l. split; [exact Y|]. split; [now apply D|]. split.
    - intros p. rewrite P. split; [tauto|]. intros (o & O). split; [|eauto].
      exact (A _ O).
    - intros p i Q. destruct (G _ Q) as (os & O1 & _ & O2 & O3). now exists os.
  Qed.

  (** The fallible methods of an infallible dataset. *)
  Lemma ds_try Err : exact_quads next start s ->
    (forall c l, yields next (start c) l ->
       yields (infallible_next (E := Err) next) (start c) (map Ok l)) /\
    forall t, exists b,
      try_dataset_contains_triple (infallible_next (E := Err) next) start t = Ok b /\
      (b = true <-> exists g, In (into_quad t g) s).
  Proof.
    intros E. split.
    - intros c l. apply (yields_map next (infallible_next (E := Err) next) Ok (fun i => i)).
      intros i. unfold infallible_next. now destruct (next i).
    - intros t. unfold try_dataset_contains_triple, infallible_next.
      pose proof (found_exact (cq_from_triple t) (E _)) as F. unfold found in F.
      destruct (next (start (cq_from_triple t))) as [[q|] j]; cbn in F |- *.
      + exists true. split; [reflexivity|]. split; [intros _|easy].
        destruct F as [F _]. destruct F as (x & X & M); [reflexivity|].
        apply quad_from_triple_matches in M. exists (q_g x). subst t. now destruct x.
      + exists false. split; [reflexivity|]. split; [easy|]. intros (g & G). apply F.
        exists (into_quad t g). split; [exact G|]. apply quad_from_triple_matches. now destruct t.
  Qed.

End Dataset.

(** A fallible dataset: the error met first, or an answer. *)
Lemma ds_try_error {R I Er} (next : I -> option (result Er (quad R)) * I) start (t : triple R) l :
  yields next (start (cq_from_triple t)) l ->
  try_dataset_contains_triple next start t =
  match l with [] => Ok false | Ok _ :: _ => Ok true | Err e :: _ => Err e end.
Proof.
  unfold try_dataset_contains_triple. intros [i j E|i j x m E H]; rewrite E; cbn; [reflexivity|].
  now destruct x.
Qed.

Section Graph.
  Context {R I : Type} (next : I -> option (triple R) * I) (start : ctp R -> I).
  Variable s : list (triple R).

  Lemma tfound_exact c : exact_triples_at next start s c ->
    (found (next (start c)) = true <-> exists q, In q s /\ ct_matches c q).
  Proof.
    intros E. destruct E as (l & Y & _ & H). rewrite (yields_found _ _ _ Y).
    split; intros (q & Q); exists q; now apply H.
  Qed.

  Lemma gr_contains : exact_triples next start s ->
    (forall t, contains_triple next start t = true <-> In t s) /\
    (forall r, contains_triple_subject next start r = true <-> exists t, In t s /\ t_s t = r) /\
    (forall r, contains_triple_predicate next start r = true <-> exists t, In t s /\ t_p t = r) /\
    (forall r, contains_triple_object next start r = true <-> exists t, In t s /\ t_o t = r).
  Proof.
    intros E. repeat split; unfold contains_triple, contains_triple_subject, contains_triple_predicate,
      contains_triple_object.
    - intros H. apply (tfound_exact _ (E _)) in H as (r & H & M). apply from_triple_matches in M. now subst.
    - intros H. apply (tfound_exact _ (E _)). exists t. split; [easy|]. now apply from_triple_matches.
    - intros H. apply (tfound_exact _ (E _)) in H as (q & H & M). exists q. split; [easy|apply M].
    - intros (q & H & M). apply (tfound_exact _ (E _)). exists q. split; [easy|]. now split.
    - intros H. apply (tfound_exact _ (E _)) in H as (q & H & M). exists q. split; [easy|apply M].
    - intros (q & H & M). apply (tfound_exact _ (E _)). exists q. split; [easy|]. now split.
    - intros H. apply (tfound_exact _ (E _)) in H as (q & H & M). exists q. split; [easy|apply M].
    - intros (q & H & M). apply (tfound_exact _ (E _)). exists q. split; [easy|]. exact M.
  Qed.

  Lemma tobjects_inner i l : yields next i l ->
    yields (triple_objects_next next) (TObjects None i) (map t_o l).
  Proof.
    apply (yields_map next (triple_objects_next next) t_o (fun i => TObjects None i)).
    intros j. unfold triple_objects_next. cbn. now destruct (next j).
  Qed.

  Lemma tobjects_of r p l : NoDup l ->
    (forall t, In t l <-> In t s /\ t_s t = r /\ t_p t = p) ->
    NoDup (map t_o l) /\ forall o, In o (map t_o l) <-> In (Triple r p o) s.
  Proof.
    intros N H. split.
    - assert (H' : forall t, In t l -> t_s t = r /\ t_p t = p) by (intros t T; now apply H in T).
      clear H. induction l as [|x l IH]; [constructor|].
      inversion N as [|? ? N1 N2]; subst. cbn. constructor.
      + intros M. apply in_map_iff in M as (y & M1 & M2). apply N1. enough (x = y) by now subst.
        destruct (H' x) as (A & B); [now left|]. destruct (H' y) as (A' & B'); [now right|].
        destruct x, y; cbn in *. congruence.
      + apply IH; [exact N2|]. intros t T. apply H'. now right.
    - intros o. rewrite in_map_iff. split.
      + intros (q & <- & Q). apply H in Q as (Q & <- & <-). now destruct q.
      + intros Q. exists (Triple r p o). split; [reflexivity|]. apply H. now repeat split.
  Qed.

  Lemma gr_objects r p :
    exact_triples_at next start s (CT_GivenS r (TG_GivenP p TGG_Any)) -> exists l,
    yields (triple_objects_next next) (triple_objects start r p) l /\ NoDup l /\
    forall o, In o l <-> In (Triple r p o) s.
  Proof.
    unfold triple_objects. cbn. intros E. destruct E as (l & Y & N & H).
    exists (map t_o l). split; [now apply tobjects_inner|].
    apply tobjects_of; [exact N|]. intros q. rewrite H. cbn. tauto.
  Qed.

  Definition good_tgroup (r : R) (x : R * triple_objects_st) : Prop :=
    exists os, yields (triple_objects_next next) (snd x) os /\ NoDup os /\
      forall o, In o os <-> In (Triple r (fst x) o) s.

  Lemma gr_predicates_objects_gen r ps :
    (forall p, exact_triples_at next start s (CT_GivenS r (TG_GivenP p TGG_Any))) ->
    exists l,
    yields (triple_predicates_objects_next next start r) ps l /\
    (forall x, In x l -> good_tgroup r x) /\
    (forall p, In p (map fst l) <-> In p ps /\ exists o, In (Triple r p o) s) /\
    (NoDup ps -> NoDup (map fst l)).
  Proof.
    intros E. induction ps as [|p ps (l & Y & G & P & D)].
    { exists []. split; [now apply yields_end with (j := [])|]. split; [easy|]. split; [|easy].
      intros p. cbn. tauto. }
    destruct (E p) as (m & Ym & N & H).
    assert (H' : forall q, In q m <-> In q s /\ t_s q = r /\ t_p q = p).
    { intros q. rewrite H. cbn. tauto. }
    destruct (tobjects_of r p m N H') as (No & Ho).
    inversion Ym as [i j E1 F1 F2|i j x m' E1 Y1 F1 F2]; subst.
    - exists l. assert (Z : triple_predicates_objects_next next start r (p :: ps) =
                           triple_predicates_objects_next next start r ps) by (cbn; now rewrite E1).
      split.
      { inversion Y as [? ? Z1|? ? ? ? Z1 Z2]; subst.
        - apply yields_end with (j := j0). now rewrite Z.
        - apply yields_item with (j := j0); [now rewrite Z|exact Z2]. }
      split; [exact G|]. split.
      + intros k. rewrite P. cbn. split; [tauto|]. intros ([<-|K] & o & O); [|eauto].
        exfalso. apply Ho in O. exact O.
      + intros ND. apply D. now inversion ND.
    - exists ((p, TObjects (Some (t_o x)) j) :: l). split.
      { apply yields_item with (j := ps); [cbn; now rewrite E1|exact Y]. }
      split.
      { intros y [<-|Q]; [|now apply G]. exists (map t_o (x :: m')). cbn [fst snd]. split.
        - cbn. apply yields_item with (j := TObjects None j); [reflexivity|now apply tobjects_inner].
        - split; [exact No|exact Ho]. }
      split.
      + intros k. cbn. rewrite P. split.
        * intros [<-|(K & O)]; [|eauto]. split; [now left|]. exists (t_o x). apply Ho. now left.
        * intros ([<-|K] & O); [now left|now right].
      + intros ND. cbn. inversion ND as [|? ? N1 N2]; subst. constructor; [|now apply D].
        intros K. apply P in K. now destruct K.
  Qed.

  Lemma gr_predicates_objects r ps :
    (forall p, exact_triples_at next start s (CT_GivenS r (TG_GivenP p TGG_Any))) ->
    NoDup ps -> (forall t, In t s -> In (t_p t) ps) ->
    exists l,
      yields (triple_predicates_objects_next next start r) ps l /\
      NoDup (map fst l) /\
      (forall p, In p (map fst l) <-> exists o, In (Triple r p o) s) /\
      (forall p i, In (p, i) l -> exists os,
         yields (triple_objects_next next) i os /\ NoDup os /\
         forall o, In o os <-> In (Triple r p o) s).
  Proof.
    intros E N A. destruct (gr_predicates_objects_gen r ps E) as (l & Y & G & P & D).
    exists l. split; [exact Y|]. split; [now apply D|]. split.
    - intros p. rewrite P. split; [tauto|]. intros (o & O). split; [|eauto]. exact (A _ O).
    - intros p i Q. exact (G _ Q).
  Qed.

  Lemma gr_try Err : exact_triples next start s ->
    (forall c l, yields next (start c) l ->
       yields (infallible_next (E := Err) next) (start c) (map Ok l)) /\
    forall t, exists b,
      try_graph_contains_triple (infallible_next (E := Err) next) start t = Ok b /\
      (b = true <-> In t s).
  Proof.
    intros E. split.
    - intros c l. apply (yields_map next (infallible_next (E := Err) next) Ok (fun i => i)).
      intros i. unfold infallible_next. now destruct (next i).
    - intros t. unfold try_graph_contains_triple, infallible_next.
      pose proof (proj1 (gr_contains E) t) as F. unfold contains_triple, found in F.
      destruct (next (start (ct_from_triple t))) as [[q|] j]; cbn in F |- *.
      + exists true. split; [reflexivity|exact F].
      + exists false. split; [reflexivity|exact F].
  Qed.

  (** The graph seen as a dataset. *)
  Lemma gr_quads i l : yields next i l ->
    yields (t2q_next next) i (map in_default l).
  Proof.
    apply (yields_map next (t2q_next next) in_default (fun i => i)).
    intros j. unfold t2q_next. destruct (next j) as [[[]|] k]; reflexivity.
  Qed.

  Lemma gr_graph_next i l : yields next i l ->
    yields (graph_next next) (Some i) (map in_default l).
  Proof.
    intros Y. apply gr_quads in Y. rewrite <- (map_id (map _ l)).
    apply (yields_map (t2q_next next) (graph_next next) (fun q => q) (fun i => Some i)); [|exact Y].
    intros j. unfold graph_next, option_next. destruct (t2q_next next j) as [[q|] k]; reflexivity.
  Qed.

  Lemma gr_exact_quads : exact_triples next start s ->
    exact_quads (graph_next next) (graph_start start) (map in_default s).
  Proof.
    intros E c. unfold graph_start, exact_quads_at.
    pose proof (fun t => into_triple_matches c (in_default t)) as M.
    assert (M0 : forall q, In q (map in_default s) -> exists t, q = in_default t /\ In t s).
    { intros q Q. apply in_map_iff in Q as (t & <- & Q). eauto. }
    destruct (cq_into_triple c) as [ct g].
    assert (Empty : (forall t, ~ cq_matches c (in_default t)) -> exists l,
      yields (graph_next next) None l /\ NoDup l /\
      (forall q, In q l <-> In q (map in_default s) /\ cq_matches c q)).
    { intros H. exists []. split; [now apply yields_end with (j := None)|]. split; [constructor|].
      intros q. split; [easy|]. intros (Q & X). destruct (M0 q Q) as (t & -> & _). now apply H in X. }
    assert (Full : (forall t, cq_matches c (in_default t) <-> ct_matches ct t) -> exists l,
      yields (graph_next next) (Some (start ct)) l /\ NoDup l /\
      (forall q, In q l <-> In q (map in_default s) /\ cq_matches c q)).
    { intros H. destruct (E ct) as (l & Y & N & L). exists (map in_default l).
      split; [now apply gr_graph_next|]. split.
      - apply FinFun.Injective_map_NoDup; [|exact N]. intros [] []; unfold in_default; cbn; congruence.
      - intros q. rewrite !in_map_iff. split.
        + intros (t & <- & T). apply L in T as (T & C). split; [eauto|]. now apply H.
        + intros ((t & <- & T) & C). exists t. split; [reflexivity|]. apply L. split; [exact T|].
          now apply H. }
    assert (M' : forall t, cq_matches c (in_default t) <->
                 ct_matches ct t /\ g_ok g (t_s t) (t_p t) (t_o t) None).
    { intros t. specialize (M t). destruct t. exact M. }
    destruct g as [| | | |[x|]]; cbn in M'.
    - apply Full. intros t. rewrite M'. tauto.
    - apply Empty. intros t. rewrite M'. intros (_ & H); discriminate.
    - apply Empty. intros t. rewrite M'. intros (_ & H); discriminate.
    - apply Empty. intros t. rewrite M'. intros (_ & H); discriminate.
    - apply Empty. intros t. rewrite M'. intros (_ & H); discriminate.
    - apply Full. intros t. rewrite M'. tauto.
  Qed.

End Graph.

Lemma gr_try_error {R I Er} (next : I -> option (result Er (triple R)) * I) start (t : triple R) l :
  yields next (start (ct_from_triple t)) l ->
  try_graph_contains_triple next start t =
  match l with [] => Ok false | Ok _ :: _ => Ok true | Err e :: _ => Err e end.
Proof.
  unfold try_graph_contains_triple. intros [i j E|i j x m E H]; rewrite E; cbn; [reflexivity|].
  now destruct x.
Qed.
