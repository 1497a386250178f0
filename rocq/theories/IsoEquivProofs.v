(** The isomorphism test is an equivalence (C70). *)
From Coq Require Import List Bool Arith Lia Permutation.
Import ListNotations.
From Verif Require Import Base TextModel DisplayModel TermModel TripleModel InterpretationModel
  SetSpec ContainerSpec IsoModel IsoSpec BaseProofs TermSpec TermProofs IsoTopProofs IsoClassProofs.

Section Equiv.
  Context {R : Type} (cmp : R -> R -> comparison) (L : ord_laws cmp) (blank : R -> bool).
  Local Notation half := (half_isomorphism cmp blank).

  Lemma half_refl a : half a a (fun x => x).
  Proof.
    split; [|split; [reflexivity|split; [apply Permutation_refl|intros; apply Permutation_refl]]].
    constructor; eauto.
  Qed.

  Lemma half_perm a b : Permutation a b -> half a b (fun x => x).
  Proof.
    intros P; split; [|split; [now apply Permutation_length|split]].
    - assert (E : forall x, blank_of blank a x <-> blank_of blank b x).
      { intros x; unfold blank_of; split; intros (B & q & I & J); split; auto; exists q; split; auto;
          [eapply Permutation_in; eauto|eapply Permutation_in; [symmetry|]; eauto]. }
      constructor; intros x; rewrite ?E; eauto.
      intros H; exists x; rewrite E; auto.
    - apply Permutation_map; clear L.
      induction P; cbn [filter]; auto; [| |etransitivity; eauto].
      + destruct (has_blank blank x); auto.
      + destruct (has_blank blank x), (has_blank blank y); auto; apply perm_swap.
    - intros x _; apply Permutation_map; now apply Permutation_flat_map.
  Qed.

  Lemma qmap_qmap {A B C} (f : A -> B) (g : B -> C) q : qmap g (qmap f q) = qmap (fun x => g (f x)) q.
  Proof. destruct q as [s p o [x|]]; reflexivity. Qed.
  Lemma qmap_in {A B} (f g : A -> B) q : (forall x, In x (quad_comps q) -> f x = g x) -> qmap f q = qmap g q.
  Proof.
    intros H; destruct q as [s p o [x|]]; unfold qmap; cbn in *; f_equal; auto; f_equal; auto 6.
  Qed.

  Lemma half_trans a b c h k : half a b h -> half b c k -> half a c (fun x => k (h x)).
  Proof.
    intros (B1 & L1 & P1 & A1) (B2 & L2 & P2 & A2); split; [|split; [congruence|split]].
    - constructor.
      + intros x H; apply B2, B1, H.
      + intros x y X Y E; apply (bb_inj _ _ _ _ B1); auto; apply (bb_inj _ _ _ _ B2); auto; now apply B1.
      + intros z H; destruct (bb_onto _ _ _ _ B2 z H) as (y & Hy & <-).
        destruct (bb_onto _ _ _ _ B1 y Hy) as (x & Hx & <-); eauto.
    - apply (Permutation_map (qmap (option_map k))) in P1; rewrite !map_map in P1.
      etransitivity; [|etransitivity; [exact P1|]].
      + erewrite map_ext; [apply Permutation_refl|]; intros q; unfold blank_part; rewrite qmap_qmap.
        apply qmap_in; intros x _; now destruct (blank x).
      + erewrite map_ext; [exact P2|]; intros q; unfold blank_part; rewrite qmap_qmap.
        apply qmap_in; intros x _; now destruct (blank x).
    - intros x H; etransitivity; [apply A1, H|apply A2, B1, H].
  Qed.

  (** The inverse of a bijection. *)
  Fixpoint inverse (h : R -> R) (l : list R) (y : R) : R :=
    match l with
    | [] => y
    | x :: l => if blank x && same cmp (h x) y then x else inverse h l y
    end.
  Lemma inverse_spec h y l : (exists x, In x l /\ blank x = true /\ h x = y) ->
    In (inverse h l y) l /\ blank (inverse h l y) = true /\ h (inverse h l y) = y.
  Proof.
    induction l as [|x l IH]; intros (z & I & B & E); [contradiction|]; cbn [inverse].
    destruct (blank x) eqn:Bx; cbn [andb].
    - destruct (same cmp (h x) y) eqn:S.
      + apply (same_true L) in S; repeat split; auto; now left.
      + destruct I as [->|I]; [rewrite (proj2 (same_true L _ _) E) in S; discriminate|].
        destruct IH as (A & C & D); [now exists z|]; repeat split; auto; now right.
    - destruct I as [->|I]; [congruence|].
      destruct IH as (A & C & D); [now exists z|]; repeat split; auto; now right.
  Qed.

  Lemma half_sym a b h : half a b h -> half b a (inverse h (flat_map quad_comps a)).
  Proof.
    intros (B & Le & P & A); set (g := inverse h (flat_map quad_comps a)).
    assert (G : forall y, blank_of blank b y -> blank_of blank a (g y) /\ h (g y) = y).
    { intros y H; destruct (bb_onto _ _ _ _ B y H) as (x & (Bx & q & Iq & Ix) & E).
      destruct (inverse_spec h y (flat_map quad_comps a)) as (I & C & D).
      { exists x; split; [apply in_flat_map; eauto|auto]. }
      split; [|exact D]; split; [exact C|]; apply in_flat_map in I; exact I. }
    assert (K : forall x, blank_of blank a x -> g (h x) = x).
    { intros x H; destruct (G (h x)) as [X Y]; [now apply B|]; now apply (bb_inj _ _ _ _ B). }
    split; [|split; [congruence|split]].
    - constructor.
      + intros y H; apply G, H.
      + intros y z Y Z E; apply G in Y as [_ <-], Z as [_ <-]; now rewrite E.
      + intros x H; exists (h x); split; [now apply B|now apply K].
    - apply (Permutation_map (qmap (option_map g))) in P; rewrite !map_map in P; symmetry in P.
      etransitivity; [|etransitivity; [exact P|]].
      + erewrite map_ext; [apply Permutation_refl|]; intros q; unfold blank_part; rewrite qmap_qmap.
        apply qmap_in; intros x _; now destruct (blank x).
      + erewrite map_ext_in; [apply Permutation_refl|]; intros q Hq; unfold blank_part; rewrite qmap_qmap.
        apply qmap_in; intros x Hx; destruct (blank x) eqn:Ex; cbn; [|reflexivity]; f_equal; apply K.
        apply filter_In in Hq as [Hq _]; split; eauto.
    - intros y H; destruct (G y H) as [X Y]; symmetry; rewrite <- Y at 2; now apply A.
  Qed.
End Equiv.

(** A test (a panic is [None]) that is exactly half isomorphism of some quads. *)
Section Test.
  Context {A R : Type} (cmp : R -> R -> comparison) (L : ord_laws cmp) (blank : R -> bool).
  Context (test : A -> A -> option bool) (norm : A -> list (quad R)).
  Context (total : forall a b, exists r, test a b = Some r).
  Context (exact_ : forall a b, test a b = Some true <->
    exists h, half_isomorphism cmp blank (norm a) (norm b) h).

  Lemma test_same a b c d :
    ((exists h, half_isomorphism cmp blank (norm a) (norm b) h) <->
     (exists h, half_isomorphism cmp blank (norm c) (norm d) h)) -> test a b = test c d.
  Proof.
    intros E; destruct (total a b) as [[|] X], (total c d) as [[|] Y]; rewrite X, Y; auto;
      exfalso; [apply exact_, E, exact_ in X|apply exact_, E, exact_ in Y]; congruence.
  Qed.
  Lemma test_refl a : test a a = Some true.
  Proof. apply exact_; eexists; apply half_refl. Qed.
  Lemma test_sym a b : test a b = test b a.
  Proof.
    apply test_same; split; intros [h H]; eexists; eapply half_sym; eauto.
  Qed.
  Lemma test_trans a b c : test a b = Some true -> test b c = test a c.
  Proof.
    intros H; apply test_same; apply exact_ in H as [h H].
    split; intros [k K]; eexists; eapply half_trans; eauto; eapply half_sym; eauto.
  Qed.
  Lemma test_perm a a' b b' : Permutation (norm a) (norm a') -> Permutation (norm b) (norm b') ->
    test a b = test a' b'.
  Proof.
    intros P Q; transitivity (test a' b).
    - apply test_trans; apply exact_; eexists; apply half_perm; now symmetry.
    - rewrite (test_sym a' b), (test_sym a' b').
      apply test_trans; apply exact_; eexists; apply half_perm; now symmetry.
  Qed.
  Lemma test_rename a a' b h : NoDup (norm a) -> NoDup (norm a') ->
    isomorphism blank (norm a) (norm a') h -> test a b = test a' b.
  Proof.
    intros Na Na' H; apply (isomorphism_half L) in H; auto.
    symmetry; apply test_trans, exact_; eauto.
  Qed.
End Test.

(** ** The theorems *)
Section With.
  Context {R St : Type} (cmp : R -> R -> comparison) (L : ord_laws cmp).
  Context (iri_eqb tag_eqb : text -> text -> bool) (I : interp_rev St R) (st : St).
  Context (ri : forall t, iri_eqb t t = true) (rt : forall t, tag_eqb t t = true).
  Context (TA : terms_apart iri_eqb (literal_cow_eqb iri_eqb tag_eqb) I st).
  Local Notation are := (are_isomorphic_with cmp iri_eqb tag_eqb I st).

  Lemma with_total a b : exists r, are a b = Some r.
  Proof.
    destruct (gen_total L (iri_eqb := iri_eqb) (tag_eqb := tag_eqb) (I := I) (st := st) a b) as [r H].
    unfold are_isomorphic_with; rewrite H; eexists; reflexivity.
  Qed.
  Lemma with_exact a b : are a b = Some true <-> exists h, half_isomorphism cmp (nameless I st) a b h.
  Proof. apply gen_are_exact; auto. Qed.

  Lemma with_equivalence :
    (forall a, are a a = Some true) /\ (forall a b, are a b = are b a) /\
    (forall a b c, are a b = Some true -> are b c = are a c).
  Proof.
    split; [|split].
    - exact (test_refl _ _ _ (fun a => a) with_exact).
    - exact (test_sym _ L _ _ (fun a => a) with_total with_exact).
    - exact (test_trans _ L _ _ (fun a => a) with_total with_exact).
  Qed.
  Lemma with_perm a a' b b' : Permutation a a' -> Permutation b b' -> are a b = are a' b'.
  Proof. exact (test_perm _ L _ _ (fun a => a) with_total with_exact a a' b b'). Qed.
  Lemma with_rename a a' b h : NoDup a -> NoDup a' -> isomorphism (nameless I st) a a' h ->
    are a b = are a' b.
  Proof. exact (test_rename _ L _ _ (fun a => a) with_total with_exact a a' b h). Qed.
End With.

Section Normal.
  Context (iri_eqb tag_eqb : text -> text -> bool) (iri_cmp tag_cmp : text -> text -> comparison).
  Context (ki kt : text -> text) (ci ct : text -> text -> comparison).
  Context (LI : ord_laws ci) (LT : ord_laws ct).
  Context (CI : forall x y, iri_cmp x y = ci (ki x) (ki y)) (CT : forall x y, tag_cmp x y = ct (kt x) (kt y)).
  Context (EI : forall x y, iri_eqb x y = true <-> ki x = ki y)
    (ET : forall x y, tag_eqb x y = true <-> kt x = kt y).
  Local Notation are := (are_isomorphic iri_eqb tag_eqb iri_cmp tag_cmp).
  Local Notation normal := (map (qmap (normal_term ki kt))).

  Lemma normal_total a b : exists r, are a b = Some r.
  Proof. rewrite <- (are_norm CI CT EI ET); refine (proj2 (loc_total LI LT _ _ _ _)); exact str_eqb_spec. Qed.
  Lemma normal_equivalence :
    (forall a, are a a = Some true) /\ (forall a b, are a b = are b a) /\
    (forall a b c, are a b = Some true -> are b c = are a c).
  Proof.
    split; [|split].
    - exact (test_refl _ _ _ normal (cls_exact LI LT CI CT EI ET)).
    - exact (test_sym _ (local_ord LI LT str_eqb_spec str_eqb_spec) _ _ normal normal_total (cls_exact LI LT CI CT EI ET)).
    - exact (test_trans _ (local_ord LI LT str_eqb_spec str_eqb_spec) _ _ normal normal_total (cls_exact LI LT CI CT EI ET)).
  Qed.
  Lemma normal_perm a a' b b' : Permutation (normal a) (normal a') -> Permutation (normal b) (normal b') ->
    are a b = are a' b'.
  Proof. exact (test_perm _ (local_ord LI LT str_eqb_spec str_eqb_spec) _ _ normal normal_total (cls_exact LI LT CI CT EI ET) a a' b b'). Qed.
  Lemma normal_rename a a' b h : NoDup (normal a) -> NoDup (normal a') ->
    isomorphism local_is_anonymous (normal a) (normal a') h -> are a b = are a' b.
  Proof. exact (test_rename _ (local_ord LI LT str_eqb_spec str_eqb_spec) _ _ normal normal_total (cls_exact LI LT CI CT EI ET) a a' b h). Qed.
End Normal.
