(** What renamed, merged and isomorphic datasets state. *)
From Coq Require Import List Bool Arith NArith Lia Ascii String.
Import ListNotations.
From Verif Require Import Base TextModel DisplayModel TermModel TripleModel BlankIdModel SetSpec ContainerSpec
  Machine BaseProofs BTreeDatasetModel BTreeDatasetProofs IsoModel IsoSpec TermProofs BlankIdProofs IsoTopProofs IsoEquivProofs
  RelabelModel RelabelSpec RelabelProofs MergeModel MeaningSpec.
Open Scope list_scope.
Notation anon := local_is_anonymous.

Section Meaning.
  Context (W : world).
  Implicit Types l : list (quad local_term).

  Lemma true_in_qmap l : true_in W l <-> exists a, forall q, In q l -> holds W (qmap (thing_of W a) q).
  Proof. reflexivity. Qed.

  Lemma true_in_incl l l' : incl l l' -> true_in W l' -> true_in W l.
  Proof. intros I (a & A); exists a; intros q Hq; apply A, I, Hq. Qed.

  (** Isomorphic datasets. *)
  Lemma iso_back l l' h : isomorphism anon l l' h -> true_in W l' -> true_in W l.
  Proof.
    intros (_ & Hn & M) (a & A); exists (fun b => thing_of W a (h (Anonymous b))); intros q Hq.
    assert (In (qmap h q) l') as Hq' by (apply M; eauto).
    specialize (A _ Hq'); change (holds W (qmap (thing_of W a) (qmap h q))) in A.
    rewrite qmap_qmap in A; rewrite (qmap_in _ (thing_of W (fun b => thing_of W a (h (Anonymous b))))) in A; [exact A|].
    intros [b|n] _; [reflexivity|]; now rewrite (Hn (Named n) eq_refl).
  Qed.

  Notation scmp := (local_cmp str_cmp str_cmp).
  Lemma scmp_laws : ord_laws scmp.
  Proof. exact (local_ord str_cmp_laws str_cmp_laws str_eqb_spec str_eqb_spec). Qed.

  Lemma iso_sym l l' h : isomorphism anon l l' h -> exists k, isomorphism anon l' l k.
  Proof.
    intros (B & Hn & M); set (g := inverse scmp anon h (flat_map quad_comps l)).
    assert (G : forall y, blank_of anon l' y -> blank_of anon l (g y) /\ h (g y) = y).
    { intros y H; destruct (bb_onto _ _ _ _ B y H) as (x & (Bx & q & Iq & Ix) & E).
      destruct (inverse_spec scmp scmp_laws anon h y (flat_map quad_comps l)) as (I & C & D).
      { exists x; split; [apply in_flat_map; eauto|auto]. }
      split; [|exact D]; split; [exact C|]; apply in_flat_map in I; exact I. }
    assert (K : forall x, blank_of anon l x -> g (h x) = x).
    { intros x H; destruct (G (h x)) as [X Y]; [now apply B|]; now apply (bb_inj _ _ _ _ B). }
    exists (fun x => if anon x then g x else x); split; [|split].
    - assert (forall y, blank_of anon l' y -> (if anon y then g y else y) = g y) as E
        by (intros y [-> _]; reflexivity).
      constructor.
      + intros y H; rewrite (E _ H); apply G, H.
      + intros y z Y Z; rewrite (E _ Y), (E _ Z); intros F; apply G in Y as [_ <-], Z as [_ <-]; now rewrite F.
      + intros x H; exists (h x); assert (blank_of anon l' (h x)) as H' by now apply B.
        split; [exact H'|]; rewrite (E _ H'); now apply K.
    - intros x ->; reflexivity.
    - assert (forall p, In p l -> qmap (fun x => if anon x then g x else x) (qmap h p) = p) as E.
      { intros p Hp; rewrite qmap_qmap; transitivity (qmap (fun x => x) p); [|now destruct p as [? ? ? []]].
        apply qmap_in; intros x Hx; destruct (anon x) eqn:Ex.
        - assert (blank_of anon l x) as H by (split; eauto).
          assert (anon (h x) = true) as -> by (apply (bb_into _ _ _ _ B x H)); now apply K.
        - rewrite (Hn x Ex), Ex; reflexivity. }
      intros q; split.
      + intros Hq; exists (qmap h q); split; [apply M; eauto|now apply E].
      + intros (p & Hp & <-); apply M in Hp as (r & Hr & <-); now rewrite (E r Hr).
  Qed.

  Lemma iso_meaning l l' h : isomorphism anon l l' h -> (true_in W l <-> true_in W l').
  Proof.
    intros H; split; [|exact (iso_back _ _ _ H)].
    destruct (iso_sym _ _ _ H) as (k & K); exact (iso_back _ _ _ K).
  Qed.

  (** Datasets without common blank nodes. *)
  Lemma apart_meaning l1 l2 l :
    (forall x, blank_of anon l1 x -> blank_of anon l2 x -> False) ->
    (forall q, In q l <-> In q l1 \/ In q l2) ->
    (true_in W l <-> true_in W l1 /\ true_in W l2).
  Proof.
    intros D M; split.
    - intros H; split; apply (true_in_incl _ l); auto; intros q Hq; apply M; auto.
    - intros [(a1 & A1) (a2 & A2)].
      exists (fun b => if in_dec (list_eq_dec N.eq_dec) b (met l1) then a1 b else a2 b); intros q Hq.
      change (holds W (qmap (thing_of W (fun b => if in_dec (list_eq_dec N.eq_dec) b (met l1) then a1 b else a2 b)) q)).
      apply M in Hq as [Hq|Hq]; [specialize (A1 q Hq)|specialize (A2 q Hq)].
      + rewrite (qmap_in _ (thing_of W a1)); [exact A1|]; intros [b|n] Hx; [|reflexivity]; cbn.
        destruct in_dec as [|N]; [reflexivity|]; destruct N; apply met_in; split; eauto.
      + rewrite (qmap_in _ (thing_of W a2)); [exact A2|]; intros [b|n] Hx; [|reflexivity]; cbn.
        destruct in_dec as [N|]; [|reflexivity]; apply met_in in N.
        destruct (D _ N); split; eauto.
  Qed.
End Meaning.

Section Programs.
  Context {iri_eqb tag_eqb : text -> text -> bool} {iri_cmp tag_cmp : text -> text -> comparison}.
  Context (LI : ord_laws iri_cmp) (LT : ord_laws tag_cmp).
  Context (EI : forall x y, iri_eqb x y = true <-> x = y) (ET : forall x y, tag_eqb x y = true <-> x = y).
  Notation cmp := (local_cmp iri_cmp tag_cmp).
  Let LO : ord_laws cmp := local_ord LI LT EI ET.
  Notation are := (are_isomorphic iri_eqb tag_eqb iri_cmp tag_cmp).

  Lemma renamed_meaning max checked keep ops xs d l p offset d' g' names :
    run (bd_step cmp keep) bd_new ops = Some (xs, d) -> bd_iter d = Some l ->
    (offset <= max)%N -> checked = true \/ (N.of_nat (List.length (met l)) <= max + 1)%N ->
    relabel max checked cmp keep d (gen_full p offset) = Some (d', g', names) ->
    exists l', bd_iter d' = Some l' /\ same_meaning l l'.
  Proof.
    intros H Hl Ho Hc E.
    destruct (relabelled LI LT EI ET max checked keep _ _ _ _ _ _ _ _ _ H Hl Ho Hc E) as (l' & _ & h & I & Ih & _).
    exists l'; split; [exact I|]; intros W; exact (iso_meaning W _ _ _ Ih).
  Qed.

  Lemma into_iter_same d s : bd_rep (cmp:=cmp) d s -> bd_into_iter d = bd_iter d.
  Proof.
    intros H; rewrite (bd_iter_rep _ _ H); destruct H as [_ (vs & I)]; exact (bd_into_iter_spec LO _ _ _ I).
  Qed.

  Lemma merged_meaning max checked keep ops1 xs1 d1 l1 ops2 xs2 d2 l2 p offset d g :
    run (bd_step cmp keep) bd_new ops1 = Some (xs1, d1) -> bd_iter d1 = Some l1 ->
    run (bd_step cmp keep) bd_new ops2 = Some (xs2, d2) -> bd_iter d2 = Some l2 ->
    (offset <= max)%N ->
    checked = true \/ (N.of_nat (List.length (met l1) + List.length (met l2)) <= max + 1)%N ->
    merge max checked cmp keep d1 d2 (gen_full p offset) = Some (d, g) ->
    exists l ids, bd_iter d = Some l /\
      generate max checked (List.length (met l1) + List.length (met l2)) (gen_full p offset) = Some (ids, g) /\
      (forall x, blank_of anon l x <-> exists i, In i ids /\ x = Anonymous i) /\
      forall W, true_in W l <-> true_in W l1 /\ true_in W l2.
  Proof.
    intros H1 Hl1 H2 Hl2 Ho Hc; unfold merge.
    destruct (relabel max checked cmp keep d1 (gen_full p offset)) as [[[d1' g1] m1]|] eqn:E1; [|discriminate].
    destruct (relabel max checked cmp keep d2 g1) as [[[d2' g2] m2]|] eqn:E2; [|discriminate].
    destruct (relabel_any LI LT EI ET max checked keep _ _ _ _ _ _ _ _ H1 Hl1 E1)
      as (i1 & k1 & G1 & _ & K1 & _ & _ & F1 & S1 & M1 & _).
    destruct (relabel_any LI LT EI ET max checked keep _ _ _ _ _ _ _ _ H2 Hl2 E2)
      as (i2 & k2 & G2 & _ & K2 & _ & _ & F2 & S2 & M2 & s & R & _).
    rewrite (into_iter_same _ _ R).
    destruct (relabel_merge LI LT EI ET max checked keep _ _ _ _ _ _ _ _ _ _ _ _ _ _ _ _ H1 Hl1 H2 Hl2 Ho Hc E1 E2)
      as (l1' & l2' & h1 & h2 & d0 & l & I1 & J1 & I2 & J2 & D & X & I & M).
    rewrite I2, X; cbn [option_map]; intros E; injection E as <- <-; exists l, (i1 ++ i2); split; [exact I|].
    split; [exact (generate_app _ _ _ _ _ _ _ _ _ G1 G2)|].
    rewrite I1 in K1; injection K1 as <-; rewrite I2 in K2; injection K2 as <-; split.
    { pose proof (new_blanks _ _ _ F1 M1) as B1; pose proof (new_blanks _ _ _ F2 M2) as B2; rewrite S1 in B1; rewrite S2 in B2.
      intros x; transitivity (blank_of anon l1' x \/ blank_of anon l2' x).
      - unfold blank_of; split.
        + intros (B & q & Hq & Hx); apply M in Hq as [Hq|Hq]; [left|right]; eauto.
        + intros [(B & q & Hq & Hx)|(B & q & Hq & Hx)]; split; auto; exists q; split; auto; apply M; auto.
      - rewrite B1, B2; split.
        + intros [(i & Hi & ->)|(i & Hi & ->)]; exists i; split; auto; apply in_or_app; auto.
        + intros (i & Hi & ->); apply in_app_or in Hi as [Hi|Hi]; eauto. }
    intros W; rewrite (iso_meaning W _ _ _ J1), (iso_meaning W _ _ _ J2); exact (apart_meaning W _ _ _ D M).
  Qed.

  Lemma merge_returns max checked keep ops1 xs1 d1 l1 ops2 xs2 d2 l2 p offset :
    run (bd_step cmp keep) bd_new ops1 = Some (xs1, d1) -> bd_iter d1 = Some l1 ->
    run (bd_step cmp keep) bd_new ops2 = Some (xs2, d2) -> bd_iter d2 = Some l2 ->
    (offset <= max)%N ->
    (merge max checked cmp keep d1 d2 (gen_full p offset) <> None <->
     checked = false \/ (N.of_nat (List.length (met l1) + List.length (met l2)) <= max - offset)%N).
  Proof.
    intros H1 Hl1 H2 Hl2 Ho.
    assert (Split : generate max checked (List.length (met l1) + List.length (met l2)) (gen_full p offset) <> None <->
      exists i1 g1 i2 g2, generate max checked (List.length (met l1)) (gen_full p offset) = Some (i1, g1) /\
        generate max checked (List.length (met l2)) g1 = Some (i2, g2)).
    { generalize (List.length (met l1)), (List.length (met l2)), (gen_full p offset); clear.
      induction n as [|n IH]; intros m g0; cbn [generate Nat.add].
      - split.
        + intros H; destruct (generate max checked m g0) as [[i g]|] eqn:E; [|easy].
          exists [], g0, i, g; split; [reflexivity|exact E].
        + intros (i1 & g1 & i2 & g2 & E1 & E2); injection E1 as <- <-; congruence.
      - destruct (next_blank_id max checked g0) as [[i g]|]; [|split; [easy|intros (? & ? & ? & ? & ? & _); discriminate]].
        specialize (IH m g); split.
        + intros H; destruct IH as [IH _]; destruct IH as (i1 & g1 & i2 & g2 & E1 & E2).
          { destruct (generate max checked (n + m) g) as [[]|]; [discriminate|easy]. }
          rewrite E1; do 4 eexists; split; [reflexivity|exact E2].
        + intros (i1 & g1 & i2 & g2 & E1 & E2).
          destruct (generate max checked n g) as [[j1 k1]|] eqn:E; [|discriminate]; injection E1 as <- <-.
          destruct IH as [_ IH]; assert (generate max checked (n + m) g <> None) as X
            by (apply IH; exists j1, k1, i2, g2; auto).
          destruct (generate max checked (n + m) g) as [[]|]; [discriminate|easy]. }
    transitivity (generate max checked (List.length (met l1) + List.length (met l2)) (gen_full p offset) <> None).
    - rewrite Split; unfold merge.
      destruct (relabel max checked cmp keep d1 (gen_full p offset)) as [[[d1' g1] m1]|] eqn:E1.
      + destruct (relabel_any LI LT EI ET max checked keep _ _ _ _ _ _ _ _ H1 Hl1 E1)
          as (i1 & l1' & G1 & _ & _ & _ & _ & _ & _ & _ & s1 & R1 & _).
        destruct (relabel max checked cmp keep d2 g1) as [[[d2' g2] m2]|] eqn:E2.
        * destruct (relabel_any LI LT EI ET max checked keep _ _ _ _ _ _ _ _ H2 Hl2 E2)
            as (i2 & l2' & G2 & _ & I2 & _ & _ & _ & _ & _ & s & R & _).
          rewrite (into_iter_same _ _ R), I2.
          destruct (bd_extend_rep LO keep l2' _ _ R1) as (d & -> & _).
          split; [intros _; exists i1, g1, i2, g2; auto|discriminate].
        * split; [easy|]; intros (j1 & k1 & j2 & k2 & F1 & F2).
          assert (k1 = g1) as -> by congruence.
          assert (relabel max checked cmp keep d2 g1 <> None) as X
            by (apply (relabel_returns LI LT EI ET max checked keep _ _ _ _ _ H2 Hl2); congruence).
          now rewrite E2 in X.
      + split; [easy|]; intros (j1 & k1 & j2 & k2 & F1 & F2).
        assert (relabel max checked cmp keep d1 (gen_full p offset) <> None) as X
          by (apply (relabel_returns LI LT EI ET max checked keep _ _ _ _ _ H1 Hl1); congruence).
        now rewrite E1 in X.
    - destruct checked.
      + rewrite (generate_capacity _ _ _ _ Ho); split; [tauto|]; intros [X|X]; [discriminate|exact X].
      + destruct (generate_unchecked max (List.length (met l1) + List.length (met l2)) (gen_full p offset)) as (i & g & ->).
        split; [now left|discriminate].
  Qed.

  (** Adding quads as they are. *)
  Lemma added_meaning keep ops xs d l l2 :
    run (bd_step cmp keep) bd_new ops = Some (xs, d) -> bd_iter d = Some l ->
    exists d' l', bd_extend cmp keep d l2 = Some d' /\ bd_iter d' = Some l' /\
      (forall W, true_in W l' -> true_in W l /\ true_in W l2) /\
      ((forall x, blank_of anon l x -> blank_of anon l2 x -> False) ->
       forall W, true_in W l /\ true_in W l2 -> true_in W l').
  Proof.
    intros H Hl; pose proof (bd_run_rep_new LO keep ops xs d H) as R.
    destruct (bd_extend_rep LO keep l2 _ _ R) as (d' & X & R').
    exists d'; eexists; split; [exact X|]; split; [exact (bd_iter_rep _ _ R')|].
    rewrite (bd_iter_rep _ _ R) in Hl; injection Hl as <-.
    assert (M : forall q, In q (sorted_elements (quad_cmp cmp) (fold_left (fun s q => add (quad_cmp cmp) q s) l2 (spec_set (quad_cmp cmp) ops))) <->
              In q (sorted_elements (quad_cmp cmp) (spec_set (quad_cmp cmp) ops)) \/ In q l2).
    { intros q; rewrite !in_sorted_elements, (in_fold_add LO); tauto. }
    split.
    - intros W T; split; revert T; apply true_in_incl; intros q Hq; apply M; auto.
    - intros D W T; now apply (apart_meaning W _ _ _ D M).
  Qed.

  (** Datasets recognised as isomorphic, if they are. *)
  Lemma recognised_meaning a b :
    NoDup a -> NoDup b ->
    (forall q, In q a -> has_blank anon q = false -> In q b) -> identifiable anon a ->
    are a b = Some true -> same_meaning a b.
  Proof.
    intros Na Nb G I E; apply (loc_iff LI LT EI ET a b Na Nb G I) in E as (h & Ih); intros W; exact (iso_meaning W _ _ _ Ih).
  Qed.
End Programs.

(** ** Datasets that do not state the same *)
Definition of_quads (l : list (quad local_term)) : world := World local_term Named (fun q => In q l).
Lemma of_quads_true l : true_in (of_quads l) l.
Proof.
  exists Anonymous; intros q Hq; cbn.
  assert (E : forall x, thing_of (of_quads l) Anonymous x = x) by (now intros []).
  rewrite !E; destruct q as [s p o [g|]]; cbn in *; rewrite ?E; exact Hq.
Qed.

(** recognised as isomorphic, *)
Lemma ring_meaning : NoDup w_ring_a /\ NoDup w_ring_b /\
  are_isomorphic str_eqb str_eqb str_cmp str_cmp w_ring_a w_ring_b = Some true /\ ~ same_meaning w_ring_a w_ring_b.
Proof.
  destruct w_ring_refutes as (A & B & _ & _ & C & _); split; [exact A|]; split; [exact B|]; split; [exact C|].
  intros S; destruct (S (of_quads w_ring_a)) as [T _]; destruct (T (of_quads_true _)) as (a & F).
  pose proof (F (w_triple w_n0 w_next w_n1) ltac:(now left)) as X.
  pose proof (F (w_triple w_n1 w_next w_n0) ltac:(right; now left)) as Y.
  clear - X Y; vm_compute in a, X, Y.
  repeat destruct X as [X|X]; try contradiction; try discriminate X; injection X as X1 X2;
    repeat destruct Y as [Y|Y]; try contradiction; try discriminate Y; injection Y as Y1 Y2;
    rewrite <- Y1 in X2; rewrite <- Y2 in X1; discriminate.
Qed.

(** and one added to another as it is. *)
Definition m_triple (s p o : string) : quad local_term := Quad (Anonymous (chars s)) (Named (TIri (chars p))) (Named (TIri (chars o))) None.
Definition m_a := [m_triple "_:x" "ex:name" "ex:Ann"].
Definition m_b := [m_triple "_:x" "ex:age" "ex:7"].
Lemma added_mixed : exists W a b, true_in W a /\ true_in W b /\ ~ true_in W (a ++ b).
Proof.
  exists (of_quads [m_triple "_:1" "ex:name" "ex:Ann"; m_triple "_:2" "ex:age" "ex:7"]), m_a, m_b.
  split; [exists (fun _ => Anonymous (chars "_:1")); intros q [<-|[]]; now left|].
  split; [exists (fun _ => Anonymous (chars "_:2")); intros q [<-|[]]; right; now left|].
  intros (a & F).
  pose proof (F (m_triple "_:x" "ex:name" "ex:Ann") ltac:(now left)) as X.
  pose proof (F (m_triple "_:x" "ex:age" "ex:7") ltac:(right; now left)) as Y.
  clear - X Y; vm_compute in a, X, Y.
  destruct X as [X|[X|[]]]; [|discriminate]; destruct Y as [Y|[Y|[]]]; [discriminate|].
  injection X as X; injection Y as Y; rewrite <- X in Y; discriminate.
Qed.
