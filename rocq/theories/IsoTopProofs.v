(** Isomorphisms, half isomorphisms and the search of IsoModel.v. *)
From Coq Require Import List Bool Arith Lia Permutation Sorted NArith String.
Import ListNotations.
From Verif Require Import Base TextModel DisplayModel TermModel TripleModel InterpretationModel
  SetSpec ContainerSpec IsoModel IsoSpec BaseProofs TermSpec TermProofs IsoMapProofs IsoProofs IsoSearchProofs
  IsoExactProofs.

(** ** The notions depend on the values of [blank] only *)
Section Congruence.
  Context {R : Type} (cmp : R -> R -> comparison) (f g : R -> bool) (E : forall x, f x = g x).
  Lemma blank_of_ext a x : blank_of f a x <-> blank_of g a x.
  Proof. unfold blank_of. now rewrite E. Qed.
  Lemma blank_bijection_ext a b h : blank_bijection f a b h <-> blank_bijection g a b h.
  Proof.
    split; intros [H1 H2 H3]; split.
    - intros x Hx. apply blank_of_ext, H1. now apply blank_of_ext.
    - intros x y Hx Hy. apply H2; now apply blank_of_ext.
    - intros y Hy. apply blank_of_ext in Hy. destruct (H3 y Hy) as (x & Hx & Ex). exists x.
      split; [now apply blank_of_ext|assumption].
    - intros x Hx. apply blank_of_ext, H1. now apply blank_of_ext.
    - intros x y Hx Hy. apply H2; now apply blank_of_ext.
    - intros y Hy. apply blank_of_ext in Hy. destruct (H3 y Hy) as (x & Hx & Ex). exists x.
      split; [now apply blank_of_ext|assumption].
  Qed.
  Lemma isomorphism_ext a b h : isomorphism f a b h <-> isomorphism g a b h.
  Proof.
    unfold isomorphism. rewrite blank_bijection_ext.
    split; intros (H1 & H2 & H3); (split; [assumption|split; [|assumption]]);
      intros x Hx; apply H2; [now rewrite E|now rewrite <- E].
  Qed.
  Lemma named_part_ext q : named_part f q = named_part g q.
  Proof. apply qmap_ext_in. intros x _. now rewrite E. Qed.
  Lemma blank_part_ext h q : blank_part f h q = blank_part g h q.
  Proof. apply qmap_ext_in. intros x _. now rewrite E. Qed.
  Lemma has_blank_ext q : has_blank f q = has_blank g q.
  Proof. unfold has_blank. induction (quad_comps q); cbn; congruence. Qed.
  Lemma half_isomorphism_ext a b h : half_isomorphism cmp f a b h <-> half_isomorphism cmp g a b h.
  Proof.
    unfold half_isomorphism. rewrite blank_bijection_ext.
    rewrite (map_ext _ _ (blank_part_ext h)), (map_ext _ _ (blank_part_ext (fun x => x))).
    rewrite !(filter_ext _ _ has_blank_ext).
    split; intros (H1 & H2 & H3 & H4); (split; [assumption|]; split; [assumption|]; split; [assumption|]);
      intros x Hx; apply blank_of_ext in Hx; specialize (H4 x Hx).
    - now rewrite !(map_ext _ _ named_part_ext) in H4.
    - now rewrite !(map_ext _ _ named_part_ext).
  Qed.
  Lemma identifiable_ext a : identifiable f a <-> identifiable g a.
  Proof.
    unfold identifiable, blanks, same_shape.
    split; intros H p Hp B.
    - rewrite (filter_ext g f) in B by (intros; now rewrite E).
      destruct (H p Hp B) as (x & Bx & Hx & U). exists x. split; [now rewrite <- E|]. split; [assumption|].
      intros q Hq Hxq S. rewrite <- !named_part_ext. apply U; try assumption.
      rewrite (qmap_ext_in f g p), (qmap_ext_in f g q) by (intros; apply E). assumption.
    - rewrite (filter_ext f g) in B by (intros; now rewrite E).
      destruct (H p Hp B) as (x & Bx & Hx & U). exists x. split; [now rewrite E|]. split; [assumption|].
      intros q Hq Hxq S. rewrite !named_part_ext. apply U; try assumption.
      rewrite (qmap_ext_in g f p), (qmap_ext_in g f q) by (intros; now rewrite E). assumption.
  Qed.
End Congruence.

Lemma nodup_map_in {A B} (f : A -> B) l : NoDup l ->
  (forall x y, In x l -> In y l -> f x = f y -> x = y) -> NoDup (map f l).
Proof.
  induction 1 as [|x l Hx N IH]; intros H; cbn; [constructor|]. constructor.
  - intros Hin. apply in_map_iff in Hin as (y & Ey & Hy).
    apply Hx. rewrite <- (H y x); [assumption|now right|now left|assumption].
  - apply IH. intros u v Hu Hv. apply H; now right.
Qed.
Lemma map_in_inj {A B} (f : A -> B) l m :
  (forall x y, In x l -> In y m -> f x = f y -> x = y) -> map f l = map f m -> l = m.
Proof.
  revert m; induction l as [|x l IH]; intros [|y m] H E; try discriminate; [reflexivity|].
  injection E as E1 E2. f_equal; [apply H; [now left|now left|assumption]|].
  apply IH; [|assumption]. intros u v Hu Hv. apply H; now right.
Qed.

(** ** Isomorphisms are half isomorphisms *)
Section Iso.
  Context {R : Type} {cmp : R -> R -> comparison} (L : ord_laws cmp) (blank : R -> bool).

  (** Renaming is injective on the quads of [a]. *)
  Lemma rename_inj a b h : blank_bijection blank a b h -> (forall x, blank x = false -> h x = x) ->
    forall p q, In p a -> In q a -> qmap h p = qmap h q -> p = q.
  Proof.
    intros BB Hn p q Hp Hq E. apply (f_equal quad_comps) in E. rewrite !qmap_comps in E.
    apply quad_comps_inj. apply (map_in_inj h); [|assumption]. intros x y Hx Hy Exy.
    destruct (blank x) eqn:Bx, (blank y) eqn:By.
    - apply (bb_inj _ _ _ _ BB); [split; [assumption|now exists p]|split; [assumption|now exists q]|assumption].
    - rewrite (Hn y By) in Exy. assert (blank_of blank b (h x)) as [H _].
      { apply (bb_into _ _ _ _ BB). split; [assumption|now exists p]. }
      congruence.
    - rewrite (Hn x Bx) in Exy. assert (blank_of blank b (h y)) as [H _].
      { apply (bb_into _ _ _ _ BB). split; [assumption|now exists q]. }
      congruence.
    - now rewrite (Hn x Bx), (Hn y By) in Exy.
  Qed.

  Lemma isomorphism_perm a b h : NoDup a -> NoDup b -> isomorphism blank a b h ->
    Permutation b (map (qmap h) a).
  Proof.
    intros Na Nb (BB & Hn & Hq). apply NoDup_Permutation; [assumption| |].
    - apply nodup_map_in; [assumption|]. now apply (rename_inj a b h).
    - intros q. rewrite Hq, in_map_iff. split; intros (p & H1 & H2); exists p; tauto.
  Qed.

  Lemma isomorphism_half a b h : NoDup a -> NoDup b -> isomorphism blank a b h ->
    half_isomorphism cmp blank a b h.
  Proof.
    intros Na Nb HI. pose proof (isomorphism_perm a b h Na Nb HI) as P. destruct HI as (BB & Hn & _).
    assert (Hb : forall x q, In q a -> In x (quad_comps q) -> blank (h x) = blank x).
    { intros x q Hq Hx. destruct (blank x) eqn:E; [|now rewrite Hn].
      assert (blank_of blank b (h x)) as [H _]; [|assumption].
      apply (bb_into _ _ _ _ BB). split; [assumption|now exists q]. }
    split; [assumption|]. split; [now rewrite (Permutation_length P), map_length|]. split.
    - assert (E : forall d, incl d a ->
        map (blank_part blank h) (filter (has_blank blank) d) =
        map (blank_part blank (fun x => x)) (filter (has_blank blank) (map (qmap h) d))).
      { induction d as [|q d IH]; intros Hd; [reflexivity|]. cbn [filter map].
        assert (Hq : In q a) by (apply Hd; now left).
        assert (has_blank blank (qmap h q) = has_blank blank q) as ->.
        { unfold has_blank. rewrite qmap_comps.
          assert (X : forall x, In x (quad_comps q) -> blank (h x) = blank x) by (intros x Hx; now apply (Hb x q)).
          revert X. induction (quad_comps q) as [|x l IHl]; intros X; cbn; [reflexivity|].
          rewrite (X x) by (now left). f_equal. apply IHl. intros y Hy. apply X. now right. }
        assert (Hd' : incl d a) by (intros z Hz; apply Hd; now right).
        destruct (has_blank blank q); cbn [map]; [|now apply IH]. f_equal; [|now apply IH].
        unfold blank_part. rewrite qmap_map. apply qmap_ext_in. intros x Hx. now rewrite (Hb x q). }
      rewrite (E a) by apply incl_refl. apply Permutation_map.
      clear -P. symmetry in P. induction P; cbn [filter].
      + reflexivity.
      + destruct (has_blank blank x); [now apply perm_skip|assumption].
      + destruct (has_blank blank x), (has_blank blank y); try reflexivity. apply perm_swap.
      + etransitivity; eassumption.
    - intros x Bx.
      assert (P1 : Permutation (around cmp b (h x)) (around cmp (map (qmap h) a) (h x))).
      { apply Permutation_flat_map. assumption. }
      rewrite P1.
      assert (E : forall d, incl d a -> around cmp (map (qmap h) d) (h x) = map (qmap h) (around cmp d x)).
      { unfold around. induction d as [|q d IH]; intros Hd; [reflexivity|]. cbn [map flat_map].
        rewrite map_app, IH by (intros z Hz; apply Hd; now right). f_equal.
        rewrite qmap_comps, map_map.
        assert (X : forall y, In y (quad_comps q) -> same cmp (h x) (h y) = same cmp x y).
        { intros y Hy. assert (Hq : In q a) by (apply Hd; now left).
          destruct (same cmp x y) eqn:Exy.
          - apply (same_true L) in Exy; subst. now apply (same_true L).
          - apply (same_false L). apply (same_false L) in Exy. intros Eh. apply Exy.
            destruct (blank y) eqn:By.
            + apply (bb_inj _ _ _ _ BB); [assumption|split; [assumption|now exists q]|assumption].
            + rewrite (Hn y By) in Eh. pose proof (bb_into _ _ _ _ BB x Bx) as [Hbx _]. congruence. }
        revert X. induction (quad_comps q) as [|y l IHl]; intros X; cbn; [reflexivity|].
        rewrite (X y) by (now left).
        destruct (same cmp x y); cbn; [f_equal|]; apply IHl; intros z Hz; apply X; now right. }
      rewrite (E a) by apply incl_refl. rewrite map_map.
      rewrite (map_ext_in (fun q => named_part blank (qmap h q)) (named_part blank)); [reflexivity|].
      intros q Hq. apply (in_around L) in Hq as [Hq _]. unfold named_part. rewrite qmap_map.
      apply qmap_ext_in. intros y Hy. rewrite (Hb y q Hq Hy). destruct (blank y) eqn:By; [reflexivity|].
      now rewrite (Hn y By).
  Qed.

  (** ** When half isomorphisms are isomorphisms *)
  Lemma part_quads (h : R -> R) p q :
    (forall x, In x (quad_comps p) -> blank x = false -> h x = x) ->
    blank_part blank h p = blank_part blank (fun x => x) q -> named_part blank p = named_part blank q ->
    qmap h p = q.
  Proof.
    intros Hn E1 E2. apply (f_equal quad_comps) in E1, E2. unfold blank_part, named_part in *.
    rewrite !qmap_comps in E1, E2. apply quad_comps_inj. rewrite qmap_comps.
    revert E1 E2 Hn. generalize (quad_comps p) as l, (quad_comps q) as m.
    induction l as [|x l IH]; intros [|y m] E1 E2 Hn; try discriminate; [reflexivity|].
    cbn in *. injection E1 as E1 F1. injection E2 as E2 F2. f_equal.
    - destruct (blank x) eqn:Bx, (blank y); try congruence. injection E2 as E2. rewrite (Hn x); auto.
    - apply IH; auto.
  Qed.
  Lemma part_shape h p q : blank_part blank h p = blank_part blank (fun x => x) q -> same_shape blank p q.
  Proof.
    intros E. apply (f_equal quad_comps) in E. unfold blank_part, same_shape in *. rewrite !qmap_comps in E.
    apply quad_comps_inj. rewrite !qmap_comps.
    revert E. generalize (quad_comps p) as l, (quad_comps q) as m.
    induction l as [|x l IH]; intros [|y m] E; try discriminate; [reflexivity|].
    cbn in *. injection E as E F. f_equal; [|now apply IH]. destruct (blank x), (blank y); congruence.
  Qed.
  Lemma named_shape p q : named_part blank p = named_part blank q -> same_shape blank p q.
  Proof.
    intros E. apply (f_equal quad_comps) in E. unfold named_part, same_shape in *. rewrite !qmap_comps in E.
    apply quad_comps_inj. rewrite !qmap_comps.
    revert E. generalize (quad_comps p) as l, (quad_comps q) as m.
    induction l as [|x l IH]; intros [|y m] E; try discriminate; [reflexivity|].
    cbn in *. injection E as E F. f_equal; [|now apply IH]. destruct (blank x), (blank y); congruence.
  Qed.
  (** One blank node. *)
  Lemma single_part (h : R -> R) x p q : blanks blank p = 1 -> blank x = true -> In x (quad_comps p) ->
    blank (h x) = true -> In (h x) (quad_comps q) ->
    named_part blank p = named_part blank q -> blank_part blank h p = blank_part blank (fun x => x) q.
  Proof.
    unfold blanks, named_part, blank_part. intros B Bx Hx Bhx Hhx E.
    apply quad_comps_inj. apply (f_equal quad_comps) in E. rewrite !qmap_comps in E. rewrite !qmap_comps.
    revert B Hx Hhx E. generalize (quad_comps p) as l, (quad_comps q) as m.
    assert (N : forall l m, List.length (filter blank l) = 0 ->
      map (fun r : R => if blank r then None else Some r) l = map (fun r : R => if blank r then None else Some r) m ->
      map (fun r : R => if blank r then Some (h r) else None) l = map (fun r : R => if blank r then Some r else None) m /\
      (forall z, In z l \/ In z m -> blank z = false)).
    { induction l as [|y l IH]; intros [|z m] B E; try discriminate; [split; [reflexivity|cbn; tauto]|].
      cbn in *. injection E as E F. destruct (blank y) eqn:By; [discriminate|].
      destruct (blank z) eqn:Bz; [discriminate|]. destruct (IH m B F) as [G1 G2]. split; [now rewrite G1|].
      intros u [[<-|Hu]|[<-|Hu]]; auto. }
    induction l as [|y l IH]; intros [|z m] B Hx Hhx E; try discriminate. cbn in *.
    injection E as E F. destruct (blank y) eqn:By.
    - destruct (blank z) eqn:Bz; [|discriminate]. cbn in B. injection B as B.
      destruct (N l m B F) as [G1 G2]. rewrite G1. f_equal. f_equal.
      destruct Hx as [->|Hx]; [|rewrite (G2 x) in Bx by tauto; discriminate].
      destruct Hhx as [->|Hhx]; [reflexivity|rewrite (G2 (h x)) in Bhx by tauto; discriminate].
    - destruct (blank z) eqn:Bz; [discriminate|]. f_equal. apply IH; try assumption.
      + destruct Hx as [->|?]; [congruence|assumption].
      + destruct Hhx as [->|?]; [congruence|assumption].
  Qed.
  Lemma shape_blanks p q : same_shape blank p q -> blanks blank p = blanks blank q.
  Proof.
    unfold same_shape, blanks. intros E. apply (f_equal quad_comps) in E. rewrite !qmap_comps in E.
    revert E. generalize (quad_comps p) as l, (quad_comps q) as m.
    induction l as [|x l IH]; intros [|y m] E; try discriminate; [reflexivity|].
    cbn in *. injection E as E F. specialize (IH m F). rewrite E. destruct (blank y); cbn; congruence.
  Qed.
  Lemma blanks_pos p : 1 <= blanks blank p -> exists x, blank x = true /\ In x (quad_comps p).
  Proof.
    unfold blanks. destruct (filter blank (quad_comps p)) as [|x l] eqn:E; cbn; [lia|]. intros _.
    assert (In x (filter blank (quad_comps p))) as H by (rewrite E; now left).
    apply filter_In in H as [H1 H2]. now exists x.
  Qed.
  Lemma has_blank_pos p : has_blank blank p = true <-> 1 <= blanks blank p.
  Proof.
    split.
    - intros H. apply existsb_exists in H as (x & Hx & Bx). unfold blanks.
      assert (In x (filter blank (quad_comps p))) by (now apply filter_In).
      destruct (filter blank (quad_comps p)); [easy|cbn; lia].
    - intros H. apply blanks_pos in H as (x & Bx & Hx). apply existsb_exists. now exists x.
  Qed.

  Lemma half_isomorphism_full a b h : NoDup a -> NoDup b -> (forall x, blank x = false -> h x = x) ->
    (forall q, In q a -> has_blank blank q = false -> In q b) -> identifiable blank a ->
    half_isomorphism cmp blank a b h -> isomorphism blank a b h.
  Proof.
    intros Na Nb Hn G ID (BB & EL & BP & HN).
    assert (Into : forall p, In p a -> In (qmap h p) b).
    { intros p Hp. destruct (has_blank blank p) eqn:E.
      - apply has_blank_pos in E.
        destruct (Nat.eq_dec (blanks blank p) 1) as [E1|E1].
        + destruct (blanks_pos p E) as (x & Bx & Hx).
          assert (Bax : blank_of blank a x) by (split; [assumption|now exists p]).
          assert (Hin : In (named_part blank p) (map (named_part blank) (around cmp b (h x)))).
          { eapply Permutation_in; [exact (HN x Bax)|]. apply in_map. now apply (in_around L). }
          apply in_map_iff in Hin as (q & Eq & Hq). apply (in_around L) in Hq as [Hq Hhx].
          rewrite (part_quads h p q); [assumption|auto| |now symmetry].
          apply (single_part h x); try assumption; [|now symmetry].
          apply (bb_into _ _ _ _ BB x Bax).
        + assert (E2 : 2 <= blanks blank p) by lia. clear E1.
          destruct (ID p Hp E2) as (x & Bx & Hx & U).
          assert (Bax : blank_of blank a x) by (split; [assumption|now exists p]).
          assert (Hin : In (blank_part blank h p)
            (map (blank_part blank (fun x => x)) (filter (has_blank blank) b))).
          { eapply Permutation_in; [exact BP|]. apply in_map, filter_In. split; [assumption|].
            now apply has_blank_pos. }
          apply in_map_iff in Hin as (q & Eq & Hq). apply filter_In in Hq as [Hq _].
          rewrite (part_quads h p q); [assumption|auto|now symmetry|].
          assert (Hhx : In (h x) (quad_comps q)).
          { assert (X : In (Some (h x)) (quad_comps (blank_part blank h p))).
            { unfold blank_part. rewrite qmap_comps. apply in_map_iff. exists x. now rewrite Bx. }
            rewrite <- Eq in X. unfold blank_part in X. rewrite qmap_comps in X.
            apply in_map_iff in X as (y & Ey & Hy). destruct (blank y); [|discriminate]. now injection Ey as <-. }
          assert (Hin : In (named_part blank q) (map (named_part blank) (around cmp a x))).
          { eapply Permutation_in; [symmetry; exact (HN x Bax)|]. apply in_map. now apply (in_around L). }
          apply in_map_iff in Hin as (r & Er & Hr). apply (in_around L) in Hr as [Hr Hxr].
          rewrite <- Er. symmetry. apply U; try assumption.
          symmetry in Eq. apply part_shape in Eq. apply named_shape in Er.
          unfold same_shape in *. congruence.
      - rewrite qmap_id; [now apply G|]. intros x Hx. apply Hn. destruct (blank x) eqn:Bx; [|reflexivity].
        assert (has_blank blank p = true) by (apply existsb_exists; now exists x). congruence. }
    split; [assumption|]. split; [assumption|].
    assert (IC : incl b (map (qmap h) a)).
    { apply NoDup_length_incl.
      - apply nodup_map_in; [assumption|]. now apply (rename_inj a b h).
      - rewrite map_length. lia.
      - intros q Hq. apply in_map_iff in Hq as (p & <- & Hp). now apply Into. }
    intros q. split.
    - intros Hq. apply IC, in_map_iff in Hq as (p & E & Hp). now exists p.
    - intros (p & Hp & <-). now apply Into.
  Qed.
End Iso.

(** ** The interpretation in general *)
Section General.
  Context {R St : Type} {cmp : R -> R -> comparison} (L : ord_laws cmp).
  Context {iri_eqb tag_eqb : text -> text -> bool} {I : interp_rev St R} {st : St}.
  Notation find_bijection_with := (find_bijection_with cmp iri_eqb tag_eqb I st).
  Notation anon := (nameless I st).

  Lemma gen_bijection a b f : find_bijection_with a b = Some (Some f) ->
    blank_bijection anon a b (as_function cmp (forward f)) /\
    increasing cmp (map fst (forward f)) /\ increasing cmp (map fst (backward f)) /\
    (forall x, In x (map fst (forward f)) <-> blank_of anon a x) /\
    (forall y, In y (map fst (backward f)) <-> blank_of anon b y) /\
    (forall x y, In (x, y) (forward f) <-> In (y, x) (backward f)).
  Proof.
    intros H. destruct (find_bijective L a b f H) as [BB KB]. destruct (find_wf L a b f H) as [W KF].
    split; [apply (blank_bijection_ext _ _ (anon_nameless I st)), BB|].
    split; [apply W|]. split; [apply W|].
    split; [intros x; rewrite KF; apply blank_of_ext, anon_nameless|].
    split; [intros x; rewrite KB; apply blank_of_ext, anon_nameless|].
    intros x y. destruct W as [S1 S2 V _]. split; intros Hi.
    - apply (in_m_get L) in Hi; [|assumption]. apply V in Hi. now apply (m_get_in L).
    - apply (in_m_get L) in Hi; [|assumption]. apply V in Hi. now apply (m_get_in L).
  Qed.
  Lemma gen_total a b : exists r, find_bijection_with a b = Some r.
  Proof.
    destruct (find_bijection_with a b) as [r|] eqn:E; [now exists r|].
    now apply (find_never_panics L) in E.
  Qed.

  Context (iri_refl : forall t, iri_eqb t t = true) (tag_refl : forall t, tag_eqb t t = true).
  Context (apart : terms_apart iri_eqb (literal_cow_eqb iri_eqb tag_eqb) I st).

  Lemma gen_half a b f : find_bijection_with a b = Some (Some f) ->
    half_isomorphism cmp anon a b (as_function cmp (forward f)).
  Proof.
    intros H. apply (half_isomorphism_ext cmp _ _ (anon_nameless I st)). now apply (find_half L iri_refl tag_refl apart).
  Qed.
  Lemma gen_find a b h : half_isomorphism cmp anon a b h -> exists f, find_bijection_with a b = Some (Some f).
  Proof.
    intros H. apply (half_isomorphism_ext cmp _ _ (anon_nameless I st)) in H. now apply (half_find L iri_refl tag_refl apart H).
  Qed.
  Lemma gen_complete a b h : NoDup a -> NoDup b -> isomorphism anon a b h ->
    exists f, find_bijection_with a b = Some (Some f).
  Proof. intros Na Nb H. now apply (gen_find a b h), (isomorphism_half L). Qed.
  Lemma gen_named a b f x : find_bijection_with a b = Some (Some f) -> anon x = false ->
    as_function cmp (forward f) x = x.
  Proof.
    intros H A. rewrite (as_function_get L). destruct (m_get cmp x (forward f)) eqn:E; [|reflexivity].
    apply (m_get_some_key L) in E. apply (proj1 (proj2 (proj2 (proj2 (gen_bijection a b f H))))) in E.
    destruct E. congruence.
  Qed.
  Lemma gen_sound a b f : NoDup a -> NoDup b ->
    (forall q, In q a -> has_blank anon q = false -> In q b) -> identifiable anon a ->
    find_bijection_with a b = Some (Some f) -> isomorphism anon a b (as_function cmp (forward f)).
  Proof.
    intros Na Nb G ID H. apply (half_isomorphism_full L); try assumption.
    - intros x. now apply (gen_named a b).
    - now apply gen_half.
  Qed.
  Lemma gen_are a b : are_isomorphic_with cmp iri_eqb tag_eqb I st a b = Some true <->
    exists f, find_bijection_with a b = Some (Some f).
  Proof.
    unfold are_isomorphic_with. destruct (find_bijection_with a b) as [[f|]|]; cbn; split.
    - intros _. now exists f.
    - reflexivity.
    - discriminate.
    - intros [f H]; discriminate.
    - discriminate.
    - intros [f H]; discriminate.
  Qed.
  Lemma gen_are_exact a b : are_isomorphic_with cmp iri_eqb tag_eqb I st a b = Some true <->
    exists h, half_isomorphism cmp anon a b h.
  Proof.
    rewrite gen_are. split; [intros [f H]|intros [h H]; now apply (gen_find a b h)].
    exists (as_function cmp (forward f)). now apply gen_half.
  Qed.
  Lemma gen_are_iff a b : NoDup a -> NoDup b ->
    (forall q, In q a -> has_blank anon q = false -> In q b) -> identifiable anon a ->
    are_isomorphic_with cmp iri_eqb tag_eqb I st a b = Some true <-> exists h, isomorphism anon a b h.
  Proof.
    intros Na Nb G ID. rewrite gen_are. split; [intros [f H]|intros [h H]; now apply (gen_complete a b h)].
    exists (as_function cmp (forward f)). now apply gen_sound.
  Qed.
End General.

(** ** Local terms *)
Section Local.
  Context {iri_eqb tag_eqb : text -> text -> bool} {iri_cmp tag_cmp : text -> text -> comparison}.
  Context (LI : ord_laws iri_cmp) (LT : ord_laws tag_cmp).
  Context (EI : forall x y, iri_eqb x y = true <-> x = y) (ET : forall x y, tag_eqb x y = true <-> x = y).

  Lemma unit_nameless t : nameless unit_rev tt t = local_is_anonymous t.
  Proof. destruct t as [|[|]]; reflexivity. Qed.
  Lemma unit_apart : terms_apart iri_eqb (literal_cow_eqb iri_eqb tag_eqb) unit_rev tt.
  Proof.
    split; intros x y i j; cbn.
    - destruct x as [?|[u|?]], y as [?|[v|?]]; cbn; try tauto.
      intros [<-|[]] [<-|[]]. cbn. intros E. apply EI in E. congruence.
    - destruct x as [?|[?|[u k]]], y as [?|[?|[v l]]]; cbn; try tauto.
      intros [<-|[]] [<-|[]]. unfold literal_cow_eqb, literal_as_cow. cbn. rewrite andb_true_iff, str_eqb_spec.
      intros [-> E]. destruct k, l; cbn in E; try discriminate; [apply EI in E|apply ET in E]; congruence.
  Qed.
  Lemma local_ord : ord_laws (local_cmp iri_cmp tag_cmp).
  Proof.
    assert (X : lawful (local_eqb iri_eqb tag_eqb) (local_cmp iri_cmp tag_cmp)).
    { apply local_lawful; now apply lawful_of_ord. }
    apply (ord_of_lawful _ _ X). intros [x|[x|[x k]]] [y|[y|[y l]]]; cbn; try (split; congruence).
    - rewrite str_eqb_spec. split; congruence.
    - rewrite EI. split; congruence.
    - unfold literal_eqb. cbn. rewrite andb_true_iff, str_eqb_spec.
      destruct k, l; cbn; rewrite ?EI, ?ET; split; intuition congruence.
  Qed.
End Local.

Section LocalResults.
  Context {iri_eqb tag_eqb : text -> text -> bool} {iri_cmp tag_cmp : text -> text -> comparison}.
  Context (LI : ord_laws iri_cmp) (LT : ord_laws tag_cmp).
  Context (EI : forall x y, iri_eqb x y = true <-> x = y) (ET : forall x y, tag_eqb x y = true <-> x = y).
  Notation cmp := (local_cmp iri_cmp tag_cmp).
  Notation LO := (local_ord LI LT EI ET).
  Notation find := (find_bijection iri_eqb tag_eqb iri_cmp tag_cmp).
  Notation are := (are_isomorphic iri_eqb tag_eqb iri_cmp tag_cmp).
  Notation anon := local_is_anonymous.
  Let ri : forall t, iri_eqb t t = true. Proof. intros t. now apply EI. Qed.
  Let rt : forall t, tag_eqb t t = true. Proof. intros t. now apply ET. Qed.

  Lemma loc_total a b : (exists r, find a b = Some r) /\ (exists r, are a b = Some r).
  Proof.
    destruct (gen_total LO (iri_eqb := iri_eqb) (tag_eqb := tag_eqb) (I := unit_rev) (st := tt) a b) as [r H].
    split; [now exists r|]. unfold are_isomorphic, are_isomorphic_with. rewrite H. eexists. reflexivity.
  Qed.
  Lemma loc_complete a b h : NoDup a -> NoDup b -> isomorphism anon a b h ->
    (exists f, find a b = Some (Some f)) /\ are a b = Some true.
  Proof.
    intros Na Nb H. apply (isomorphism_ext _ _ unit_nameless) in H.
    pose proof (gen_complete LO ri rt (unit_apart EI ET) a b h Na Nb H) as F.
    split; [exact F|]. apply (gen_are (cmp := cmp)). exact F.
  Qed.
  Lemma loc_bijection a b f : find a b = Some (Some f) ->
    blank_bijection anon a b (as_function cmp (forward f)) /\
    increasing cmp (map fst (forward f)) /\ increasing cmp (map fst (backward f)) /\
    (forall x, In x (map fst (forward f)) <-> blank_of anon a x) /\
    (forall y, In y (map fst (backward f)) <-> blank_of anon b y) /\
    (forall x y, In (x, y) (forward f) <-> In (y, x) (backward f)).
  Proof.
    intros H. destruct (gen_bijection LO a b f H) as (H1 & H2 & H3 & H4 & H5 & H6).
    split; [now apply (blank_bijection_ext _ _ unit_nameless)|].
    split; [assumption|]. split; [assumption|].
    split; [intros x; rewrite H4; apply (blank_of_ext _ _ unit_nameless)|].
    split; [intros x; rewrite H5; apply (blank_of_ext _ _ unit_nameless)|assumption].
  Qed.
  Lemma loc_exact a b : are a b = Some true <-> exists h, half_isomorphism cmp anon a b h.
  Proof.
    pose proof (gen_are_exact LO ri rt (unit_apart EI ET) a b) as H. split.
    - intros E. apply H in E as [h E]. exists h. now apply (half_isomorphism_ext _ _ _ unit_nameless).
    - intros [h E]. apply H. exists h. now apply (half_isomorphism_ext _ _ _ unit_nameless).
  Qed.
  Lemma loc_half a b f : find a b = Some (Some f) ->
    half_isomorphism cmp anon a b (as_function cmp (forward f)).
  Proof.
    intros H. apply (half_isomorphism_ext _ _ _ unit_nameless).
    exact (gen_half LO ri rt (unit_apart EI ET) a b f H).
  Qed.
  Lemma loc_sound a b f : NoDup a -> NoDup b ->
    (forall q, In q a -> has_blank anon q = false -> In q b) -> identifiable anon a ->
    find a b = Some (Some f) -> isomorphism anon a b (as_function cmp (forward f)).
  Proof.
    intros Na Nb G ID H. apply (isomorphism_ext _ _ unit_nameless).
    apply (gen_sound LO ri rt (unit_apart EI ET)); try assumption.
    - intros q Hq E. apply G; [assumption|]. now rewrite <- (has_blank_ext _ _ unit_nameless).
    - now apply (identifiable_ext _ _ unit_nameless).
  Qed.
  Lemma loc_iff a b : NoDup a -> NoDup b ->
    (forall q, In q a -> has_blank anon q = false -> In q b) -> identifiable anon a ->
    are a b = Some true <-> exists h, isomorphism anon a b h.
  Proof.
    intros Na Nb G ID. split.
    - intros H. apply (gen_are (cmp := cmp)) in H as [f H].
      exists (as_function cmp (forward f)). now apply loc_sound.
    - intros [h H]. now apply (loc_complete a b h).
  Qed.
End LocalResults.

(** ** Counterexamples *)
Definition w_iri (s : string) : local_term := Named (TIri (chars s)).
Definition w_blank (s : string) : local_term := Anonymous (chars s).
Definition w_triple (s p o : local_term) : quad local_term := Quad s p o None.
Open Scope string_scope.
(** Different facts without blank nodes. *)
Definition w_ground_a := [w_triple (w_iri "ex:cat") (w_iri "ex:eats") (w_iri "ex:fish")].
Definition w_ground_b := [w_triple (w_iri "ex:dog") (w_iri "ex:eats") (w_iri "ex:meat")].
(** Four nodes in a ring: [ex:next] and [ex:prev] around it, or alternating. *)
Definition w_n0 := w_blank "n0".
Definition w_n1 := w_blank "n1".
Definition w_n2 := w_blank "n2".
Definition w_n3 := w_blank "n3".
Definition w_next := w_iri "ex:next".
Definition w_prev := w_iri "ex:prev".
Definition w_ring_a :=
  [w_triple w_n0 w_next w_n1; w_triple w_n1 w_next w_n2; w_triple w_n2 w_next w_n3; w_triple w_n3 w_next w_n0;
   w_triple w_n0 w_prev w_n3; w_triple w_n1 w_prev w_n0; w_triple w_n2 w_prev w_n1; w_triple w_n3 w_prev w_n2].
Definition w_ring_b :=
  [w_triple w_n0 w_next w_n1; w_triple w_n1 w_next w_n0; w_triple w_n2 w_next w_n3; w_triple w_n3 w_next w_n2;
   w_triple w_n1 w_prev w_n2; w_triple w_n2 w_prev w_n1; w_triple w_n3 w_prev w_n0; w_triple w_n0 w_prev w_n3].
Notation w_are := (are_isomorphic str_eqb str_eqb str_cmp str_cmp).

Lemma nodup_dec_true {A} (dec : forall x y : A, {x = y} + {x <> y}) l :
  (if ListDec.NoDup_dec dec l then true else false) = true -> NoDup l.
Proof. destruct (ListDec.NoDup_dec dec l); [trivial|discriminate]. Qed.

Lemma w_ground_refutes : NoDup w_ground_a /\ NoDup w_ground_b /\
  w_are w_ground_a w_ground_b = Some true /\
  ~ exists h, isomorphism local_is_anonymous w_ground_a w_ground_b h.
Proof.
  split; [repeat constructor; cbn; tauto|]. split; [repeat constructor; cbn; tauto|].
  split; [vm_compute; reflexivity|].
  intros (h & _ & Hn & Hq).
  destruct (proj1 (Hq (w_triple (w_iri "ex:dog") (w_iri "ex:eats") (w_iri "ex:meat")))) as (p & Hp & E);
    [now left|].
  destruct Hp as [<-|[]]. unfold qmap, w_triple in E. cbn in E. injection E as E1 _.
  rewrite Hn in E1 by reflexivity. discriminate E1.
Qed.

Lemma w_ring_refutes : NoDup w_ring_a /\ NoDup w_ring_b /\
  (forall q, In q w_ring_a -> has_blank local_is_anonymous q = true) /\
  (forall q, In q w_ring_b -> has_blank local_is_anonymous q = true) /\
  w_are w_ring_a w_ring_b = Some true /\
  ~ exists h, isomorphism local_is_anonymous w_ring_a w_ring_b h.
Proof.
  assert (N : forall x l, forallb (fun y => negb (match quad_cmp (local_cmp str_cmp str_cmp) x y with Eq => true | _ => false end)) l = true ->
    ~ In x l).
  { intros x l H Hin. rewrite forallb_forall in H. specialize (H x Hin).
    rewrite (ord_refl (quad_cmp_laws _ (local_ord str_cmp_laws str_cmp_laws str_eqb_spec str_eqb_spec))) in H.
    discriminate. }
  split; [repeat (constructor; [apply N; vm_compute; reflexivity|]); constructor|].
  split; [repeat (constructor; [apply N; vm_compute; reflexivity|]); constructor|].
  split; [intros q Hq; repeat (destruct Hq as [<-|Hq]; [reflexivity|]); destruct Hq|].
  split; [intros q Hq; repeat (destruct Hq as [<-|Hq]; [reflexivity|]); destruct Hq|].
  split; [vm_compute; reflexivity|].
  intros (h & [_ Inj _] & Hn & Hq).
  assert (H1 : In (w_triple (h w_n0) w_next (h w_n1)) w_ring_b).
  { apply Hq. exists (w_triple w_n0 w_next w_n1). split; [now left|]. unfold qmap, w_triple. cbn.
    now rewrite (Hn w_next) by reflexivity. }
  assert (H2 : In (w_triple (h w_n1) w_next (h w_n2)) w_ring_b).
  { apply Hq. exists (w_triple w_n1 w_next w_n2). split; [right; now left|]. unfold qmap, w_triple. cbn.
    now rewrite (Hn w_next) by reflexivity. }
  assert (E : h w_n0 = h w_n2).
  { revert H1 H2. generalize (h w_n0), (h w_n1), (h w_n2). intros x y z H1 H2.
    unfold w_ring_b, w_triple in H1, H2. cbn [In] in H1, H2.
    assert (NE : w_prev <> w_next) by discriminate.
    assert (P : (x = w_n0 /\ y = w_n1) \/ (x = w_n1 /\ y = w_n0) \/ (x = w_n2 /\ y = w_n3) \/ (x = w_n3 /\ y = w_n2)).
    { repeat (destruct H1 as [H1|H1];
        [injection H1; clear H1; intros; subst; solve [tauto|exfalso; now apply NE]|]). destruct H1. }
    assert (Q : (y = w_n0 /\ z = w_n1) \/ (y = w_n1 /\ z = w_n0) \/ (y = w_n2 /\ z = w_n3) \/ (y = w_n3 /\ z = w_n2)).
    { repeat (destruct H2 as [H2|H2];
        [injection H2; clear H2; intros; subst; solve [tauto|exfalso; now apply NE]|]). destruct H2. }
    clear H1 H2 N. 
    destruct P as [[-> ->]|[[-> ->]|[[-> ->]|[-> ->]]]];
      destruct Q as [[E1 ->]|[[E1 ->]|[[E1 ->]|[E1 ->]]]]; try reflexivity; discriminate E1. }
  apply Inj in E; [discriminate E| |].
  - split; [reflexivity|]. exists (w_triple w_n0 w_next w_n1). split; [now left|now left].
  - split; [reflexivity|]. exists (w_triple w_n2 w_next w_n3). split; [right; right; now left|now left].
Qed.

(** ** A small example *)
Definition x_name := w_iri "ex:name".
Definition x_knows := w_iri "ex:knows".
Definition x_lit (s : string) : local_term := Named (TLit (Literal (chars s) (LAny XSD_STRING))).
Definition x_a :=
  [w_triple w_n0 x_knows w_n1; w_triple w_n0 x_name (x_lit "Ann"); w_triple w_n1 x_name (x_lit "Bob");
   w_triple (w_iri "ex:cat") (w_iri "ex:eats") (w_iri "ex:fish")].
Definition x_b :=
  [w_triple (w_iri "ex:cat") (w_iri "ex:eats") (w_iri "ex:fish"); w_triple w_n2 x_name (x_lit "Bob");
   w_triple w_n1 x_knows w_n2; w_triple w_n1 x_name (x_lit "Ann")].
Definition x_h : local_term -> local_term := as_function (local_cmp str_cmp str_cmp) [(w_n0, w_n1); (w_n1, w_n2)].

Lemma x_nodup (l : list (quad local_term)) :
  (fix go l := match l with
     | [] => true
     | x :: r => forallb (fun y => negb (same (quad_cmp (local_cmp str_cmp str_cmp)) x y)) r && go r
     end) l = true -> NoDup l.
Proof.
  pose proof (quad_cmp_laws _ (local_ord str_cmp_laws str_cmp_laws str_eqb_spec str_eqb_spec)) as LQ.
  induction l as [|x l IH]; intros H; constructor.
  - apply andb_true_iff in H as [H _]. intros Hin. rewrite forallb_forall in H. specialize (H x Hin).
    rewrite (proj2 (same_true LQ x x) eq_refl) in H. discriminate.
  - apply IH. now apply andb_true_iff in H as [_ H].
Qed.
Ltac all_in H := repeat (destruct H as [H|H]; [subst|]); [..|destruct H].
Lemma x_iso : NoDup x_a /\ NoDup x_b /\ isomorphism local_is_anonymous x_a x_b x_h /\
  (forall q, In q x_a -> has_blank local_is_anonymous q = false -> In q x_b) /\
  identifiable local_is_anonymous x_a.
Proof.
  split; [now apply x_nodup|]. split; [now apply x_nodup|].
  assert (BA : forall x, blank_of local_is_anonymous x_a x <-> x = w_n0 \/ x = w_n1).
  { intros x. split.
    - intros [A (q & Hq & Hx)]. unfold x_a in Hq. all_in Hq; cbn in Hx; all_in Hx; try discriminate A; tauto.
    - intros [->| ->]; (split; [reflexivity|]).
      + exists (w_triple w_n0 x_knows w_n1). cbn. tauto.
      + exists (w_triple w_n0 x_knows w_n1). cbn. tauto. }
  assert (BB : forall x, blank_of local_is_anonymous x_b x <-> x = w_n1 \/ x = w_n2).
  { intros x. split.
    - intros [A (q & Hq & Hx)]. unfold x_b in Hq. all_in Hq; cbn in Hx; all_in Hx; try discriminate A; tauto.
    - intros [->| ->]; (split; [reflexivity|]).
      + exists (w_triple w_n1 x_knows w_n2). cbn. tauto.
      + exists (w_triple w_n1 x_knows w_n2). cbn. tauto. }
  split.
  { split; [split|split].
    - intros x Hx. apply BA in Hx. apply BB. destruct Hx as [->| ->]; [left|right]; reflexivity.
    - intros x y Hx Hy E. apply BA in Hx, Hy.
      destruct Hx as [->| ->], Hy as [->| ->]; try reflexivity; discriminate E.
    - intros y Hy. apply BB in Hy. destruct Hy as [->| ->].
      + exists w_n0. split; [apply BA; tauto|reflexivity].
      + exists w_n1. split; [apply BA; tauto|reflexivity].
    - intros x Hx. destruct x as [|]; [discriminate|]. reflexivity.
    - intros q. split.
      + intros Hq. unfold x_b in Hq. all_in Hq.
        * exists (w_triple (w_iri "ex:cat") (w_iri "ex:eats") (w_iri "ex:fish")). cbn. split; [tauto|reflexivity].
        * exists (w_triple w_n1 x_name (x_lit "Bob")). cbn. split; [tauto|reflexivity].
        * exists (w_triple w_n0 x_knows w_n1). cbn. split; [tauto|reflexivity].
        * exists (w_triple w_n0 x_name (x_lit "Ann")). cbn. split; [tauto|reflexivity].
      + intros (p & Hp & <-). unfold x_a in Hp. all_in Hp; vm_compute; tauto. }
  split.
  { intros q Hq E. unfold x_a in Hq. all_in Hq; try discriminate E. now left. }
  intros p Hp H2. unfold x_a in Hp.
  all_in Hp; try (unfold blanks in H2; cbn in H2; lia).
  exists w_n0. split; [reflexivity|]. split; [now left|].
  intros q Hq Hx S. unfold x_a in Hq. all_in Hq; try reflexivity; discriminate S.
Qed.
