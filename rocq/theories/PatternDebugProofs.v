(** What [Debug] shows of pattern maps. *)
From Coq Require Import List Arith NArith Bool Ascii String Permutation Lia.
Import ListNotations.
From Verif Require Import Base TextModel DisplayModel WriteModel WriteSpec WriteProofs TripleModel
  TriplePatternModel PatternMapModel PatternMapSpec PatternMapProofs DebugModel DebugSpec DebugProofs
  DebugReadProofs DebugRunProofs PatternDebugModel PatternDebugSpec PatternDebugReadProofs.
Local Open Scope N_scope.

Section Maps.
  Context {V T : Type} (veqb : V -> V -> bool) (teqb : T -> T -> bool).
  Context (veqb_spec : forall x y, veqb x y = true <-> x = y)
          (teqb_spec : forall x y, teqb x y = true <-> x = y).
  Context (dv : V -> dval) (dk : T -> dval) (sv : bool -> V -> text) (sk : bool -> T -> text).
  Context (class : char -> Prop).
  Definition shows_ok : Prop := (forall v, shows (dv v) (fun p => sv p v)) /\
    (forall k, shows (dk k) (fun p => sk p k)).
  Definition reads_ok : Prop := forall p, readable (sv p) /\ opens (sv p) /\
    key_readable (sk p) /\ opens (sk p).
  Definition class_ok : Prop := has_ascii class /\ (forall v, all_in class (sv false v)) /\
    (forall k, all_in class (sk false k)).

  (** ** Tables *)
  Record kind {C M} (some : C -> Prop) (eqc : C -> C -> Prop) (order : M -> M -> Prop)
      (d : M -> dval) (tr : M -> tree) (rep : C -> M -> Prop) (sub : C -> tree -> Prop) (dflt : M) : Prop := {
    k_shows : shows_ok -> forall m, shows (d m) (fun p => shown p (tr m));
    k_reads : reads_ok -> forall p a b, tree_agree p (tr a) (tr b) (a = b);
    k_class : class_ok -> forall m, all_in class (shown false (tr m));
    k_order : forall R m m', rep R m -> order m m' -> rep R m';
    k_same : forall R m m', rep R m -> rep R m' -> order m m';
    k_sub : forall R m, rep R m -> sub R (tr m);
    k_ex : forall R t, sub R t -> exists m, rep R m /\ t = tr m;
    k_eq : forall R R' m, rep R m -> rep R' m -> eqc R R';
    k_ext : forall R R' m, eqc R R' -> rep R m -> rep R' m;
    k_some : forall R R', eqc R R' -> some R -> some R';
    k_none : forall R R', ~ some R -> ~ some R' -> eqc R R';
    k_sym : forall R R', eqc R R' -> eqc R' R;
    k_default : forall R, ~ some R -> rep R dflt
  }.

  Definition rep_set (P : V -> Prop) (s : list V) : Prop := NoDup s /\ forall v, In v s <-> P v.
  Definition tr_set (s : list V) : tree := SetOf (map (leaf sv) s).
  Definition eq_set (P Q : V -> Prop) : Prop := forall v, P v <-> Q v.
  Lemma kind_set : kind some_value eq_set hs_order (d_hs dv) tr_set rep_set (set_shown (leaf sv)) [].
  Proof.
    constructor.
    - intros [S _] m. apply shows_set. induction m as [|v m IH]; cbn; constructor; auto. apply (S v).
    - intros RD p a b. unfold tree_agree, tr_set. rewrite !set_braces.
      destruct (RD p) as (A & B & _). apply braces_agree; [|exact B].
      intros x y. exact (A x y).
    - intros (A & B & _) m. apply all_set; [exact A|].
      intros t I. apply in_map_iff in I. destruct I as (v & <- & _). apply B.
    - intros P s s' [N S] O. split; [exact (Permutation_NoDup O N)|].
      intros v. rewrite <- S. split; apply Permutation_in; [now symmetry|exact O].
    - intros P s s' [N S] [N' S']. apply NoDup_Permutation; auto. intros v. now rewrite S, S'.
    - intros P s [N S]. now exists s.
    - intros P t (s & -> & N & S). now exists s.
    - intros P Q s [_ S] [_ S'] v. now rewrite <- S, S'.
    - intros P Q s E [N S]. split; [exact N|]. intros v. rewrite S. apply E.
    - intros P Q E (v & H). exists v. now apply E.
    - intros P Q NP NQ v. split; intros H; exfalso; [apply NP|apply NQ]; now exists v.
    - intros P Q E v. symmetry. apply E.
    - intros P NP. split; [constructor|]. intros v. split; [intros []|]. intros H. apply NP. now exists v.
  Qed.
  Lemma set_insert P P' v s : rep_set P s -> (forall w, P' w <-> w = v \/ P w) ->
    rep_set P' (snd (hs_insert veqb v s)).
  Proof.
    intros [N S] E. unfold hs_insert. destruct (existsb (veqb v) s) eqn:X; cbn [snd].
    - split; [exact N|]. apply existsb_exists in X. destruct X as (w & I & X). apply veqb_spec in X. subst w.
      intros w. rewrite E, <- S. split; [now right|]. intros [->|H]; auto.
    - assert (NI : ~ In v s).
      { intros I. assert (Y : existsb (veqb v) s = true); [|congruence].
        apply existsb_exists. exists v. split; [exact I|now apply veqb_spec]. }
      split.
      + apply (Permutation_NoDup (Permutation_cons_append s v)). now constructor.
      + intros w. rewrite in_app_iff, E, <- S. cbn. split; [intros [H|[H|[]]]; auto|intros [->|H]; auto].
  Qed.
  Lemma set_extend s' : forall P P' s, rep_set P s -> (forall w, P' w <-> P w \/ In w s') ->
    rep_set P' (hs_extend veqb s s').
  Proof.
    unfold hs_extend. induction s' as [|v s' IH]; intros P P' s H E; cbn [fold_left].
    - apply (k_ext _ _ _ _ _ _ _ _ kind_set P); [|exact H]. intros w. rewrite E. cbn. tauto.
    - apply (IH (fun w => w = v \/ P w)).
      + now apply (set_insert P).
      + intros w. rewrite E. cbn. split; [intros [A|[A|A]]; auto|intros [[A|A]|A]; auto].
  Qed.
  Lemma set_union P Q P' s s' : rep_set P s -> rep_set Q s' -> (forall w, P' w <-> Q w \/ P w) ->
    rep_set P' (hs_extend veqb s s').
  Proof.
    intros H [_ S] E. apply (set_extend s' P); [exact H|]. intros w. rewrite E, S. tauto.
  Qed.

  (** ** Tables of tables *)
  Section Table.
    Context {C M} {some : C -> Prop} {eqc : C -> C -> Prop} {order : M -> M -> Prop} {d : M -> dval}
      {tr : M -> tree} {rep : C -> M -> Prop} {sub : C -> tree -> Prop} {dflt : M}
      (K : kind some eqc order d tr rep sub dflt).
    Definition rep_map (R : T -> C) (h : list (T * M)) : Prop := NoDup (map fst h) /\
      (forall k, In k (map fst h) <-> some (R k)) /\ (forall k a, In (k, a) h -> rep (R k) a).
    Definition tr_map (h : list (T * M)) : tree :=
      MapOf (map (fun e => (leaf sk (fst e), tr (snd e))) h).
    Definition eq_map (R R' : T -> C) : Prop := forall k, eqc (R k) (R' k).

    Lemma map_shows : shows_ok -> forall h, shows (d_hm dk d h) (fun p => shown p (tr_map h)).
    Proof.
      intros S h. apply shows_map. induction h as [|[k a] h IH]; cbn; constructor; auto.
      split; [apply (proj2 S k)|now apply (k_shows _ _ _ _ _ _ _ _ K)].
    Qed.
    Lemma map_reads : reads_ok -> forall p a b, tree_agree p (tr_map a) (tr_map b) (a = b).
    Proof.
      intros RD p a b. unfold tree_agree, tr_map. rewrite !map_braces.
      destruct (RD p) as (_ & _ & A & B). apply braces_agree.
      - intros [k x] [k' y]. unfold entry_tree. cbn [fst snd].
        eapply agree_imp; [apply entry_agree; [exact (A k k')|exact (k_reads _ _ _ _ _ _ _ _ K RD p x y)]|].
        now intros [-> ->].
      - intros [k x]. destruct (B k) as (c & r & E & N). exists c.
        unfold entry_tree, entry_text. cbn [fst snd leaf shown]. rewrite E. cbn [app]. now eexists.
    Qed.
    Lemma map_class : class_ok -> forall m, all_in class (shown false (tr_map m)).
    Proof.
      intros CO m. apply all_map; [apply CO|]. intros e I. apply in_map_iff in I.
      destruct I as ([k a] & <- & _). cbn [fst snd]. split; [apply CO|now apply (k_class _ _ _ _ _ _ _ _ K)].
    Qed.
    Lemma map_ordered R h h' : rep_map R h -> hm_order order h h' -> rep_map R h'.
    Proof.
      intros (N & S & E) (h1 & P & F).
      assert (N1 : NoDup (map fst h1)) by exact (Permutation_NoDup (Permutation_map fst P) N).
      assert (S1 : forall k, In k (map fst h1) <-> some (R k)).
      { intros k. rewrite <- S. split; apply Permutation_in; apply Permutation_map; [now symmetry|exact P]. }
      assert (E1 : forall k a, In (k, a) h1 -> rep (R k) a).
      { intros k a I. apply E. now apply (Permutation_in _ (Permutation_sym P)). }
      assert (X : map fst h1 = map fst h').
      { clear - F. induction F as [|x y l m [A _] F IH]; cbn; congruence. }
      unfold rep_map. rewrite <- X. split; [exact N1|split; [exact S1|]].
      clear - F E1 K. induction F as [|[k x] [k' y] l m [A B] F IH]; [easy|].
      cbn in A, B. subst k'. intros j a [I|I].
      - injection I as <- <-. apply (k_order _ _ _ _ _ _ _ _ K _ x); [|exact B]. apply E1. now left.
      - apply IH; [|exact I]. intros; apply E1; now right.
    Qed.
    Lemma map_same h' : forall R h, rep_map R h -> rep_map R h' -> hm_order order h h'.
    Proof.
      intros R h (N & S & E) (N' & S' & E').
      assert (X : forall (h' : list (T * M)) (h : list (T * M)), NoDup (map fst h) -> NoDup (map fst h') ->
        (forall k, In k (map fst h) <-> In k (map fst h')) ->
        exists h1, Permutation h h1 /\ map fst h1 = map fst h').
      { clear. induction h' as [|[k a] h' IH]; intros h N N' S.
        - destruct h as [|[j x] h]; [now exists []|]. exfalso. apply (S j). now left.
        - assert (I : In k (map fst h)) by (apply S; now left).
          apply in_map_iff in I. destruct I as ([j x] & J & I). cbn in J. subst j.
          apply in_split in I. destruct I as (l1 & l2 & ->).
          assert (P : Permutation (l1 ++ (k, x) :: l2) ((k, x) :: l1 ++ l2))
            by (symmetry; apply Permutation_middle).
          assert (N1 : NoDup (k :: map fst (l1 ++ l2)))
            by exact (Permutation_NoDup (Permutation_map fst P) N).
          inversion N1 as [|? ? N2 N3]; subst. inversion N' as [|? ? N4 N5]; subst.
          destruct (IH (l1 ++ l2) N3 N5) as (h1 & P1 & E1).
          { intros j. split; intros J.
            - assert (Z : In j (map fst ((k, a) :: h'))).
              { apply S. apply (Permutation_in _ (Permutation_map fst (Permutation_sym P))). now right. }
              destruct Z as [Z|Z]; [|exact Z]. cbn in Z. subst j. easy.
            - assert (Z : In j (map fst (l1 ++ (k, x) :: l2))) by (apply S; now right).
              apply (Permutation_in _ (Permutation_map fst P)) in Z.
              destruct Z as [Z|Z]; [|exact Z]. cbn in Z. subst j. easy. }
          exists ((k, x) :: h1). split; [|cbn; congruence].
          rewrite P. now constructor. }
      destruct (X h' h N N') as (h1 & P & F); [intros k; now rewrite S, S'|].
      exists h1. split; [exact P|].
      assert (E1 : forall k a, In (k, a) h1 -> rep (R k) a).
      { intros k a I. apply E. now apply (Permutation_in _ (Permutation_sym P)). }
      clear - F E1 E' K. revert h1 F E1. induction h' as [|[k y] h' IH]; intros [|[j x] h1] F E1; try discriminate.
      - constructor.
      - cbn in F. injection F as -> F. constructor.
        + split; [reflexivity|]. cbn. apply (k_same _ _ _ _ _ _ _ _ K (R k)); [apply E1; now left|apply E'; now left].
        + apply IH; [|exact F|]; intros; [apply E'|apply E1]; now right.
    Qed.
    Lemma map_sub R h : rep_map R h -> map_shown (leaf sk) some sub R (tr_map h).
    Proof.
      intros (N & S & E). exists (map (fun e => (fst e, tr (snd e))) h). split; [|split; [|split]].
      - unfold tr_map. now rewrite map_map.
      - rewrite map_map. exact N.
      - intros k. rewrite map_map. apply S.
      - intros k u I. apply in_map_iff in I. destruct I as ([j a] & J & I). injection J as <- <-.
        apply (k_sub _ _ _ _ _ _ _ _ K). now apply E.
    Qed.
    Lemma map_ex R t : map_shown (leaf sk) some sub R t -> exists h, rep_map R h /\ t = tr_map h.
    Proof.
      intros (es & -> & N & S & E).
      assert (X : exists h, map fst h = map fst es /\ (forall k a, In (k, a) h -> rep (R k) a) /\
        map (fun e => (leaf sk (fst e), snd e)) es = map (fun e => (leaf sk (fst e), tr (snd e))) h).
      { clear N S. induction es as [|[k u] es IH]; [now exists []|].
        destruct IH as (h & F & H & X); [intros; apply E; now right|].
        destruct (k_ex _ _ _ _ _ _ _ _ K (R k) u) as (a & A & ->); [apply E; now left|].
        exists ((k, a) :: h). split; [cbn; congruence|]. split; [|cbn; congruence].
        intros j x [I|I]; [now injection I as <- <-|now apply H]. }
      destruct X as (h & F & H & X). exists h. split; [|unfold tr_map; now rewrite X].
      unfold rep_map. rewrite F. auto.
    Qed.
    Lemma key_dec k (h : list (T * M)) : In k (map fst h) \/ ~ In k (map fst h).
    Proof.
      destruct (existsb (teqb k) (map fst h)) eqn:X; [left|right].
      - apply existsb_exists in X. destruct X as (j & I & X). apply teqb_spec in X. now subst j.
      - intros I. assert (Y : existsb (teqb k) (map fst h) = true); [|congruence].
        apply existsb_exists. exists k. split; [exact I|now apply teqb_spec].
    Qed.
    Lemma map_eq R R' h : rep_map R h -> rep_map R' h -> eq_map R R'.
    Proof.
      intros (_ & S & E) (_ & S' & E') k. destruct (key_dec k h) as [I|I].
      - apply in_map_iff in I. destruct I as ([j a] & J & I). cbn in J. subst j.
        apply (k_eq _ _ _ _ _ _ _ _ K _ _ a); auto.
      - apply (k_none _ _ _ _ _ _ _ _ K); intros H; apply I; [now apply S|now apply S'].
    Qed.
    Lemma map_ext R R' h : eq_map R R' -> rep_map R h -> rep_map R' h.
    Proof.
      intros Q (N & S & E). split; [exact N|]. split.
      - intros k. rewrite S. split; apply (k_some _ _ _ _ _ _ _ _ K); [apply Q|].
        apply (k_sym _ _ _ _ _ _ _ _ K), Q.
      - intros k a I. apply (k_ext _ _ _ _ _ _ _ _ K (R k)); [apply Q|auto].
    Qed.
    Lemma map_default R : (forall k, ~ some (R k)) -> rep_map R [].
    Proof.
      intros H. split; [constructor|]. split; [|easy]. intros k. split; [intros []|]. intros X. now apply (H k).
    Qed.

    (** One table of them is replaced. *)
    Lemma get_in k (h : list (T * M)) :
      match hm_get teqb k h with Some a => In (k, a) h | None => ~ In k (map fst h) end.
    Proof.
      induction h as [|[j x] h IH]; cbn; [easy|]. destruct (teqb k j) eqn:X.
      - apply teqb_spec in X. subst j. now left.
      - destruct (hm_get teqb k h); [now right|]. intros [->|I]; [|easy].
        assert (Y : teqb k k = true) by now apply teqb_spec. congruence.
    Qed.
    Lemma set_keys k b (h : list (T * M)) : forall j, In j (map fst (hm_set teqb k b h)) <->
      j = k \/ In j (map fst h).
    Proof.
      induction h as [|[i x] h IH]; intros j; cbn; [split; intros [H|H]; auto; easy|].
      destruct (teqb k i) eqn:X; cbn.
      - apply teqb_spec in X. subst i. split; [intros [H|H]; auto|intros [H|[H|H]]; auto].
      - rewrite IH. split; [intros [H|[H|H]]; auto|intros [H|[H|H]]; auto].
    Qed.
    Lemma set_nodup k b (h : list (T * M)) : NoDup (map fst h) -> NoDup (map fst (hm_set teqb k b h)).
    Proof.
      induction h as [|[i x] h IH]; cbn; intros N; [repeat constructor; easy|].
      inversion N as [|? ? N1 N2]; subst. destruct (teqb k i) eqn:X; cbn; [now constructor|].
      constructor; [|auto]. rewrite set_keys. intros [->|H]; [|easy].
      assert (Y : teqb k k = true) by now apply teqb_spec. congruence.
    Qed.
    Lemma set_entries k b (h : list (T * M)) j a : NoDup (map fst h) -> In (j, a) (hm_set teqb k b h) ->
      j = k /\ a = b \/ j <> k /\ In (j, a) h.
    Proof.
      induction h as [|[i x] h IH]; cbn; intros N I.
      - destruct I as [I|[]]. injection I as <- <-. auto.
      - inversion N as [|? ? N1 N2]; subst. destruct (teqb k i) eqn:X.
        + apply teqb_spec in X. subst i. destruct I as [I|I]; [injection I as <- <-; auto|].
          right. split; [|now right]. intros ->. apply N1. now apply (in_map fst) in I.
        + destruct I as [I|I].
          * injection I as -> ->. right. split; [|now left]. intros ->.
            assert (Y : teqb k k = true) by now apply teqb_spec. congruence.
          * destruct (IH N2 I) as [H|[H1 H2]]; auto.
    Qed.
    Lemma map_set R R' k b h : rep_map R h -> (forall j, j <> k -> eqc (R j) (R' j)) ->
      some (R' k) -> rep (R' k) b -> rep_map R' (hm_set teqb k b h).
    Proof.
      intros (N & S & E) Q SK B. split; [now apply set_nodup|]. split.
      - intros j. rewrite set_keys, S. destruct (teqb j k) eqn:X.
        + apply teqb_spec in X. subst j. tauto.
        + assert (J : j <> k) by (intros ->; rewrite (proj2 (teqb_spec k k) eq_refl) in X; discriminate).
          split; [intros [H|H]; [easy|]|intros H; right].
          * exact (k_some _ _ _ _ _ _ _ _ K _ _ (Q j J) H).
          * exact (k_some _ _ _ _ _ _ _ _ K _ _ (k_sym _ _ _ _ _ _ _ _ K _ _ (Q j J)) H).
      - intros j a I. apply set_entries in I; [|exact N]. destruct I as [[-> ->]|[J I]]; [exact B|].
        apply (k_ext _ _ _ _ _ _ _ _ K (R j)); [now apply Q|now apply E].
    Qed.
    Lemma map_entry R R' k f h : rep_map R h -> (forall j, j <> k -> eqc (R j) (R' j)) ->
      some (R' k) -> (forall a, rep (R k) a -> rep (R' k) (snd (f a))) ->
      rep_map R' (snd (hm_entry teqb dflt k f h)).
    Proof.
      intros H Q SK F. unfold hm_entry.
      assert (X : rep (R k) (match hm_get teqb k h with Some a => a | None => dflt end)).
      { pose proof (get_in k h) as G. destruct H as (N & S & E). destruct (hm_get teqb k h) as [a|].
        - now apply E.
        - apply (k_default _ _ _ _ _ _ _ _ K). intros Y. apply G. now apply S. }
      specialize (F _ X). destruct (f _) as [b a]. cbn [snd] in *. now apply (map_set R).
    Qed.
    Lemma extend_spec h' : forall h : list (T * M), NoDup (map fst h) -> NoDup (map fst h') ->
      NoDup (map fst (hm_extend teqb h h')) /\
      (forall j, In j (map fst (hm_extend teqb h h')) <-> In j (map fst h) \/ In j (map fst h')) /\
      (forall j a, In (j, a) (hm_extend teqb h h') -> In (j, a) h' \/ ~ In j (map fst h') /\ In (j, a) h).
    Proof.
      unfold hm_extend. induction h' as [|[k b] h' IH]; intros h N N'; cbn [fold_left fst snd].
      - split; [exact N|]. split; [intros j; cbn; tauto|]. intros j a I. right. split; [easy|exact I].
      - cbn in N'. inversion N' as [|? ? N1 N2]; subst.
        destruct (IH (hm_set teqb k b h) (set_nodup k b h N) N2) as (A & B & D). split; [exact A|]. split.
        + intros j. rewrite B, set_keys. cbn. split.
          * intros [[->|H]|H]; auto.
          * intros [H|[->|H]]; auto.
        + intros j a I. apply D in I. destruct I as [I|[J I]]; [left; now right|].
          apply set_entries in I; [|exact N]. destruct I as [[-> ->]|[X I]]; [left; now left|].
          right. split; [|exact I]. cbn. intros [->|Y]; easy.
    Qed.
    Lemma map_union h' : forall R R' R'' h, rep_map R h -> rep_map R' h' ->
      (forall k, some (R' k) -> eqc (R' k) (R'' k)) -> (forall k, ~ some (R' k) -> eqc (R k) (R'' k)) ->
      rep_map R'' (hm_extend teqb h h').
    Proof.
      intros R R' R'' h (N & S & E) (N' & S' & E') A B.
      destruct (extend_spec h' h N N') as (X & Y & Z). split; [exact X|]. split.
      - intros k. rewrite Y. destruct (key_dec k h') as [I|I].
        + split; [|tauto]. intros _. apply S' in I. exact (k_some _ _ _ _ _ _ _ _ K _ _ (A k I) I).
        + assert (Q : eqc (R k) (R'' k)) by (apply B; now rewrite <- S'). rewrite S.
          split; [intros [H|H]; [|easy]|intros H; left].
          * exact (k_some _ _ _ _ _ _ _ _ K _ _ Q H).
          * exact (k_some _ _ _ _ _ _ _ _ K _ _ (k_sym _ _ _ _ _ _ _ _ K _ _ Q) H).
      - intros k a I. apply Z in I. destruct I as [I|[J I]].
        + apply (k_ext _ _ _ _ _ _ _ _ K (R' k)); [|auto]. apply A, S'. now apply (in_map fst) in I.
        + apply (k_ext _ _ _ _ _ _ _ _ K (R k)); [|auto]. apply B. now rewrite <- S'.
    Qed.
  End Table.

  (** ** The maps *)
  Definition eq_pairs {P} (R R' : P -> V -> Prop) : Prop := forall c v, R c v <-> R' c v.
  Ltac kind_default N := let X := fresh in intros X; apply N;
    first [destruct X as (?c & ?v & X)|destruct X as (?v & X)]; do 2 eexists; exact X.

  Definition rep_ga (R : t_ga T -> V -> Prop) (m : m_ga V T) : Prop :=
    rep_set (R TGA_Any) (mga_any m) /\
    rep_set (R TGA_SameP) (mga_samep m) /\
    @rep_map _ _ some_value rep_set (fun k => R (TGA_Given k)) (mga_given m).
  Definition tr_ga (m : m_ga V T) : tree := Struct "GivenSubjectAnyPredicateMap"
    [("any"%string, tr_set (mga_any m)); ("same_as_predicate"%string, tr_set (mga_samep m)); ("given"%string, @tr_map _ tr_set (mga_given m))].
  Lemma kind_ga : kind some_pair eq_pairs mga_order (d_mga dv dk) tr_ga rep_ga (ga_shown (leaf sv) (leaf sk)) mga_default.
  Proof.
    constructor.
    - intros H m. apply shows_struct; [discriminate|]. repeat (apply Forall2_cons; [split; [reflexivity|cbn [snd]]|]); [..|apply Forall2_nil].
      + exact (k_shows _ _ _ _ _ _ _ _ kind_set H _).
      + exact (k_shows _ _ _ _ _ _ _ _ kind_set H _).
      + exact (map_shows kind_set H _).
    - intros H p a b. eapply agree_imp.
      + apply agree_fields; [discriminate|].
        apply fa_cons; [exact (k_reads _ _ _ _ _ _ _ _ kind_set H p _ _)|].
        apply fa_cons; [exact (k_reads _ _ _ _ _ _ _ _ kind_set H p _ _)|].
        apply fa_cons; [exact (map_reads kind_set H p _ _)|].
        apply fa_nil.
      + destruct a, b. cbn. intuition congruence.
    - intros H m. apply all_struct; [apply H|reflexivity|]. intros f I. cbn in I.
      destruct I as [<-|I]; [split; [reflexivity|exact (k_class _ _ _ _ _ _ _ _ kind_set H _)]|].
      destruct I as [<-|I]; [split; [reflexivity|exact (k_class _ _ _ _ _ _ _ _ kind_set H _)]|].
      destruct I as [<-|I]; [split; [reflexivity|exact (map_class kind_set H _)]|].
      destruct I.
    - intros R m m' (A & B & C) (A' & B' & C'). refine (conj _ (conj _ _)).
      + exact (k_order _ _ _ _ _ _ _ _ kind_set _ _ _ A A').
      + exact (k_order _ _ _ _ _ _ _ _ kind_set _ _ _ B B').
      + exact (map_ordered kind_set _ _ _ C C').
    - intros R m m' (A & B & C) (A' & B' & C'). refine (conj _ (conj _ _)).
      + exact (k_same _ _ _ _ _ _ _ _ kind_set _ _ _ A A').
      + exact (k_same _ _ _ _ _ _ _ _ kind_set _ _ _ B B').
      + exact (map_same kind_set _ _ _ C C').
    - intros R m (A & B & C). do 3 eexists. split; [reflexivity|]. refine (conj _ (conj _ _)).
      + exact (k_sub _ _ _ _ _ _ _ _ kind_set _ _ A).
      + exact (k_sub _ _ _ _ _ _ _ _ kind_set _ _ B).
      + exact (map_sub kind_set _ _ C).
    - intros R t (t0 & t1 & t2 & -> & A & B & C).
      destruct (k_ex _ _ _ _ _ _ _ _ kind_set _ _ A) as (m0 & M0 & ->).
      destruct (k_ex _ _ _ _ _ _ _ _ kind_set _ _ B) as (m1 & M1 & ->).
      destruct (map_ex kind_set _ _ C) as (m2 & M2 & ->).
      exists (MGA m0 m1 m2). split; [|reflexivity]. exact (conj M0 (conj M1 M2)).
    - intros R R' m (A & B & C) (A' & B' & C').
      assert (forall c v, R c v <-> R' c v); [|easy]. intros [  |  | k] v.
      + exact (k_eq _ _ _ _ _ _ _ _ kind_set _ _ _ A A' v).
      + exact (k_eq _ _ _ _ _ _ _ _ kind_set _ _ _ B B' v).
      + exact (map_eq kind_set _ _ _ C C' k v).
    - intros R R' m E (A & B & C). refine (conj _ (conj _ _)).
      + exact (k_ext _ _ _ _ _ _ _ _ kind_set _ _ _ (fun v => E TGA_Any v) A).
      + exact (k_ext _ _ _ _ _ _ _ _ kind_set _ _ _ (fun v => E TGA_SameP v) B).
      + exact (map_ext kind_set _ _ _ (fun k v => E (TGA_Given k) v) C).
    - intros R R' E (c & v & H). exists c, v. now apply E.
    - intros R R' N N' c v. split; intros H; exfalso; [apply N|apply N']; now exists c, v.
    - intros R R' E c v. symmetry. apply E.
    - intros R N. refine (conj _ (conj _ _)).
      + apply (k_default _ _ _ _ _ _ _ _ kind_set). kind_default N.
      + apply (k_default _ _ _ _ _ _ _ _ kind_set). kind_default N.
      + apply map_default. intros k. kind_default N.
  Qed.

  Definition rep_gg (R : t_gg T -> V -> Prop) (m : m_gg V T) : Prop :=
    rep_set (R TGG_Any) (mgg_any m) /\
    @rep_map _ _ some_value rep_set (fun k => R (TGG_Given k)) (mgg_given m).
  Definition tr_gg (m : m_gg V T) : tree := Struct "GivenSubjectGivenPredicateMap"
    [("any"%string, tr_set (mgg_any m)); ("given"%string, @tr_map _ tr_set (mgg_given m))].
  Lemma kind_gg : kind some_pair eq_pairs mgg_order (d_mgg dv dk) tr_gg rep_gg (gg_shown (leaf sv) (leaf sk)) mgg_default.
  Proof.
    constructor.
    - intros H m. apply shows_struct; [discriminate|]. repeat (apply Forall2_cons; [split; [reflexivity|cbn [snd]]|]); [..|apply Forall2_nil].
      + exact (k_shows _ _ _ _ _ _ _ _ kind_set H _).
      + exact (map_shows kind_set H _).
    - intros H p a b. eapply agree_imp.
      + apply agree_fields; [discriminate|].
        apply fa_cons; [exact (k_reads _ _ _ _ _ _ _ _ kind_set H p _ _)|].
        apply fa_cons; [exact (map_reads kind_set H p _ _)|].
        apply fa_nil.
      + destruct a, b. cbn. intuition congruence.
    - intros H m. apply all_struct; [apply H|reflexivity|]. intros f I. cbn in I.
      destruct I as [<-|I]; [split; [reflexivity|exact (k_class _ _ _ _ _ _ _ _ kind_set H _)]|].
      destruct I as [<-|I]; [split; [reflexivity|exact (map_class kind_set H _)]|].
      destruct I.
    - intros R m m' (A & B) (A' & B'). refine (conj _ _).
      + exact (k_order _ _ _ _ _ _ _ _ kind_set _ _ _ A A').
      + exact (map_ordered kind_set _ _ _ B B').
    - intros R m m' (A & B) (A' & B'). refine (conj _ _).
      + exact (k_same _ _ _ _ _ _ _ _ kind_set _ _ _ A A').
      + exact (map_same kind_set _ _ _ B B').
    - intros R m (A & B). do 2 eexists. split; [reflexivity|]. refine (conj _ _).
      + exact (k_sub _ _ _ _ _ _ _ _ kind_set _ _ A).
      + exact (map_sub kind_set _ _ B).
    - intros R t (t0 & t1 & -> & A & B).
      destruct (k_ex _ _ _ _ _ _ _ _ kind_set _ _ A) as (m0 & M0 & ->).
      destruct (map_ex kind_set _ _ B) as (m1 & M1 & ->).
      exists (MGG m0 m1). split; [|reflexivity]. exact (conj M0 M1).
    - intros R R' m (A & B) (A' & B').
      assert (forall c v, R c v <-> R' c v); [|easy]. intros [  | k] v.
      + exact (k_eq _ _ _ _ _ _ _ _ kind_set _ _ _ A A' v).
      + exact (map_eq kind_set _ _ _ B B' k v).
    - intros R R' m E (A & B). refine (conj _ _).
      + exact (k_ext _ _ _ _ _ _ _ _ kind_set _ _ _ (fun v => E TGG_Any v) A).
      + exact (map_ext kind_set _ _ _ (fun k v => E (TGG_Given k) v) B).
    - intros R R' E (c & v & H). exists c, v. now apply E.
    - intros R R' N N' c v. split; intros H; exfalso; [apply N|apply N']; now exists c, v.
    - intros R R' E c v. symmetry. apply E.
    - intros R N. refine (conj _ _).
      + apply (k_default _ _ _ _ _ _ _ _ kind_set). kind_default N.
      + apply map_default. intros k. kind_default N.
  Qed.

  Definition rep_aa (R : t_aa T -> V -> Prop) (m : m_aa V T) : Prop :=
    rep_set (R TAA_Any) (maa_any m) /\
    rep_set (R TAA_SameS) (maa_sames m) /\
    rep_set (R TAA_SameP) (maa_samep m) /\
    @rep_map _ _ some_value rep_set (fun k => R (TAA_Given k)) (maa_given m).
  Definition tr_aa (m : m_aa V T) : tree := Struct "AnySubjectAnyPredicateMap"
    [("any"%string, tr_set (maa_any m)); ("same_as_subject"%string, tr_set (maa_sames m)); ("same_as_predicate"%string, tr_set (maa_samep m)); ("given"%string, @tr_map _ tr_set (maa_given m))].
  Lemma kind_aa : kind some_pair eq_pairs maa_order (d_maa dv dk) tr_aa rep_aa (aa_shown (leaf sv) (leaf sk)) maa_default.
  Proof.
    constructor.
    - intros H m. apply shows_struct; [discriminate|]. repeat (apply Forall2_cons; [split; [reflexivity|cbn [snd]]|]); [..|apply Forall2_nil].
      + exact (k_shows _ _ _ _ _ _ _ _ kind_set H _).
      + exact (k_shows _ _ _ _ _ _ _ _ kind_set H _).
      + exact (k_shows _ _ _ _ _ _ _ _ kind_set H _).
      + exact (map_shows kind_set H _).
    - intros H p a b. eapply agree_imp.
      + apply agree_fields; [discriminate|].
        apply fa_cons; [exact (k_reads _ _ _ _ _ _ _ _ kind_set H p _ _)|].
        apply fa_cons; [exact (k_reads _ _ _ _ _ _ _ _ kind_set H p _ _)|].
        apply fa_cons; [exact (k_reads _ _ _ _ _ _ _ _ kind_set H p _ _)|].
        apply fa_cons; [exact (map_reads kind_set H p _ _)|].
        apply fa_nil.
      + destruct a, b. cbn. intuition congruence.
    - intros H m. apply all_struct; [apply H|reflexivity|]. intros f I. cbn in I.
      destruct I as [<-|I]; [split; [reflexivity|exact (k_class _ _ _ _ _ _ _ _ kind_set H _)]|].
      destruct I as [<-|I]; [split; [reflexivity|exact (k_class _ _ _ _ _ _ _ _ kind_set H _)]|].
      destruct I as [<-|I]; [split; [reflexivity|exact (k_class _ _ _ _ _ _ _ _ kind_set H _)]|].
      destruct I as [<-|I]; [split; [reflexivity|exact (map_class kind_set H _)]|].
      destruct I.
    - intros R m m' (A & B & C & D) (A' & B' & C' & D'). refine (conj _ (conj _ (conj _ _))).
      + exact (k_order _ _ _ _ _ _ _ _ kind_set _ _ _ A A').
      + exact (k_order _ _ _ _ _ _ _ _ kind_set _ _ _ B B').
      + exact (k_order _ _ _ _ _ _ _ _ kind_set _ _ _ C C').
      + exact (map_ordered kind_set _ _ _ D D').
    - intros R m m' (A & B & C & D) (A' & B' & C' & D'). refine (conj _ (conj _ (conj _ _))).
      + exact (k_same _ _ _ _ _ _ _ _ kind_set _ _ _ A A').
      + exact (k_same _ _ _ _ _ _ _ _ kind_set _ _ _ B B').
      + exact (k_same _ _ _ _ _ _ _ _ kind_set _ _ _ C C').
      + exact (map_same kind_set _ _ _ D D').
    - intros R m (A & B & C & D). do 4 eexists. split; [reflexivity|]. refine (conj _ (conj _ (conj _ _))).
      + exact (k_sub _ _ _ _ _ _ _ _ kind_set _ _ A).
      + exact (k_sub _ _ _ _ _ _ _ _ kind_set _ _ B).
      + exact (k_sub _ _ _ _ _ _ _ _ kind_set _ _ C).
      + exact (map_sub kind_set _ _ D).
    - intros R t (t0 & t1 & t2 & t3 & -> & A & B & C & D).
      destruct (k_ex _ _ _ _ _ _ _ _ kind_set _ _ A) as (m0 & M0 & ->).
      destruct (k_ex _ _ _ _ _ _ _ _ kind_set _ _ B) as (m1 & M1 & ->).
      destruct (k_ex _ _ _ _ _ _ _ _ kind_set _ _ C) as (m2 & M2 & ->).
      destruct (map_ex kind_set _ _ D) as (m3 & M3 & ->).
      exists (MAA m0 m1 m2 m3). split; [|reflexivity]. exact (conj M0 (conj M1 (conj M2 M3))).
    - intros R R' m (A & B & C & D) (A' & B' & C' & D').
      assert (forall c v, R c v <-> R' c v); [|easy]. intros [  |  |  | k] v.
      + exact (k_eq _ _ _ _ _ _ _ _ kind_set _ _ _ A A' v).
      + exact (k_eq _ _ _ _ _ _ _ _ kind_set _ _ _ B B' v).
      + exact (k_eq _ _ _ _ _ _ _ _ kind_set _ _ _ C C' v).
      + exact (map_eq kind_set _ _ _ D D' k v).
    - intros R R' m E (A & B & C & D). refine (conj _ (conj _ (conj _ _))).
      + exact (k_ext _ _ _ _ _ _ _ _ kind_set _ _ _ (fun v => E TAA_Any v) A).
      + exact (k_ext _ _ _ _ _ _ _ _ kind_set _ _ _ (fun v => E TAA_SameS v) B).
      + exact (k_ext _ _ _ _ _ _ _ _ kind_set _ _ _ (fun v => E TAA_SameP v) C).
      + exact (map_ext kind_set _ _ _ (fun k v => E (TAA_Given k) v) D).
    - intros R R' E (c & v & H). exists c, v. now apply E.
    - intros R R' N N' c v. split; intros H; exfalso; [apply N|apply N']; now exists c, v.
    - intros R R' E c v. symmetry. apply E.
    - intros R N. refine (conj _ (conj _ (conj _ _))).
      + apply (k_default _ _ _ _ _ _ _ _ kind_set). kind_default N.
      + apply (k_default _ _ _ _ _ _ _ _ kind_set). kind_default N.
      + apply (k_default _ _ _ _ _ _ _ _ kind_set). kind_default N.
      + apply map_default. intros k. kind_default N.
  Qed.

  Definition rep_ag (R : t_ag T -> V -> Prop) (m : m_ag V T) : Prop :=
    rep_set (R TAG_Any) (mag_any m) /\
    rep_set (R TAG_SameS) (mag_sames m) /\
    @rep_map _ _ some_value rep_set (fun k => R (TAG_Given k)) (mag_given m).
  Definition tr_ag (m : m_ag V T) : tree := Struct "AnySubjectGivenPredicateMap"
    [("any"%string, tr_set (mag_any m)); ("same_as_subject"%string, tr_set (mag_sames m)); ("given"%string, @tr_map _ tr_set (mag_given m))].
  Lemma kind_ag : kind some_pair eq_pairs mag_order (d_mag dv dk) tr_ag rep_ag (ag_shown (leaf sv) (leaf sk)) mag_default.
  Proof.
    constructor.
    - intros H m. apply shows_struct; [discriminate|]. repeat (apply Forall2_cons; [split; [reflexivity|cbn [snd]]|]); [..|apply Forall2_nil].
      + exact (k_shows _ _ _ _ _ _ _ _ kind_set H _).
      + exact (k_shows _ _ _ _ _ _ _ _ kind_set H _).
      + exact (map_shows kind_set H _).
    - intros H p a b. eapply agree_imp.
      + apply agree_fields; [discriminate|].
        apply fa_cons; [exact (k_reads _ _ _ _ _ _ _ _ kind_set H p _ _)|].
        apply fa_cons; [exact (k_reads _ _ _ _ _ _ _ _ kind_set H p _ _)|].
        apply fa_cons; [exact (map_reads kind_set H p _ _)|].
        apply fa_nil.
      + destruct a, b. cbn. intuition congruence.
    - intros H m. apply all_struct; [apply H|reflexivity|]. intros f I. cbn in I.
      destruct I as [<-|I]; [split; [reflexivity|exact (k_class _ _ _ _ _ _ _ _ kind_set H _)]|].
      destruct I as [<-|I]; [split; [reflexivity|exact (k_class _ _ _ _ _ _ _ _ kind_set H _)]|].
      destruct I as [<-|I]; [split; [reflexivity|exact (map_class kind_set H _)]|].
      destruct I.
    - intros R m m' (A & B & C) (A' & B' & C'). refine (conj _ (conj _ _)).
      + exact (k_order _ _ _ _ _ _ _ _ kind_set _ _ _ A A').
      + exact (k_order _ _ _ _ _ _ _ _ kind_set _ _ _ B B').
      + exact (map_ordered kind_set _ _ _ C C').
    - intros R m m' (A & B & C) (A' & B' & C'). refine (conj _ (conj _ _)).
      + exact (k_same _ _ _ _ _ _ _ _ kind_set _ _ _ A A').
      + exact (k_same _ _ _ _ _ _ _ _ kind_set _ _ _ B B').
      + exact (map_same kind_set _ _ _ C C').
    - intros R m (A & B & C). do 3 eexists. split; [reflexivity|]. refine (conj _ (conj _ _)).
      + exact (k_sub _ _ _ _ _ _ _ _ kind_set _ _ A).
      + exact (k_sub _ _ _ _ _ _ _ _ kind_set _ _ B).
      + exact (map_sub kind_set _ _ C).
    - intros R t (t0 & t1 & t2 & -> & A & B & C).
      destruct (k_ex _ _ _ _ _ _ _ _ kind_set _ _ A) as (m0 & M0 & ->).
      destruct (k_ex _ _ _ _ _ _ _ _ kind_set _ _ B) as (m1 & M1 & ->).
      destruct (map_ex kind_set _ _ C) as (m2 & M2 & ->).
      exists (MAG m0 m1 m2). split; [|reflexivity]. exact (conj M0 (conj M1 M2)).
    - intros R R' m (A & B & C) (A' & B' & C').
      assert (forall c v, R c v <-> R' c v); [|easy]. intros [  |  | k] v.
      + exact (k_eq _ _ _ _ _ _ _ _ kind_set _ _ _ A A' v).
      + exact (k_eq _ _ _ _ _ _ _ _ kind_set _ _ _ B B' v).
      + exact (map_eq kind_set _ _ _ C C' k v).
    - intros R R' m E (A & B & C). refine (conj _ (conj _ _)).
      + exact (k_ext _ _ _ _ _ _ _ _ kind_set _ _ _ (fun v => E TAG_Any v) A).
      + exact (k_ext _ _ _ _ _ _ _ _ kind_set _ _ _ (fun v => E TAG_SameS v) B).
      + exact (map_ext kind_set _ _ _ (fun k v => E (TAG_Given k) v) C).
    - intros R R' E (c & v & H). exists c, v. now apply E.
    - intros R R' N N' c v. split; intros H; exfalso; [apply N|apply N']; now exists c, v.
    - intros R R' E c v. symmetry. apply E.
    - intros R N. refine (conj _ (conj _ _)).
      + apply (k_default _ _ _ _ _ _ _ _ kind_set). kind_default N.
      + apply (k_default _ _ _ _ _ _ _ _ kind_set). kind_default N.
      + apply map_default. intros k. kind_default N.
  Qed.

  Definition rep_gs (R : t_gs T -> V -> Prop) (m : m_gs V T) : Prop :=
    rep_ga (fun r => R (TG_AnyP r)) (mgs_any m) /\
    @rep_map _ _ some_pair rep_gg (fun k r => R (TG_GivenP k r)) (mgs_given m).
  Definition tr_gs (m : m_gs V T) : tree := Struct "GivenSubjectMap"
    [("any"%string, tr_ga (mgs_any m)); ("given"%string, @tr_map _ tr_gg (mgs_given m))].
  Lemma kind_gs : kind some_pair eq_pairs mgs_order (d_mgs dv dk) tr_gs rep_gs (gs_shown (leaf sv) (leaf sk)) mgs_default.
  Proof.
    constructor.
    - intros H m. apply shows_struct; [discriminate|]. repeat (apply Forall2_cons; [split; [reflexivity|cbn [snd]]|]); [..|apply Forall2_nil].
      + exact (k_shows _ _ _ _ _ _ _ _ kind_ga H _).
      + exact (map_shows kind_gg H _).
    - intros H p a b. eapply agree_imp.
      + apply agree_fields; [discriminate|].
        apply fa_cons; [exact (k_reads _ _ _ _ _ _ _ _ kind_ga H p _ _)|].
        apply fa_cons; [exact (map_reads kind_gg H p _ _)|].
        apply fa_nil.
      + destruct a, b. cbn. intuition congruence.
    - intros H m. apply all_struct; [apply H|reflexivity|]. intros f I. cbn in I.
      destruct I as [<-|I]; [split; [reflexivity|exact (k_class _ _ _ _ _ _ _ _ kind_ga H _)]|].
      destruct I as [<-|I]; [split; [reflexivity|exact (map_class kind_gg H _)]|].
      destruct I.
    - intros R m m' (A & B) (A' & B'). refine (conj _ _).
      + exact (k_order _ _ _ _ _ _ _ _ kind_ga _ _ _ A A').
      + exact (map_ordered kind_gg _ _ _ B B').
    - intros R m m' (A & B) (A' & B'). refine (conj _ _).
      + exact (k_same _ _ _ _ _ _ _ _ kind_ga _ _ _ A A').
      + exact (map_same kind_gg _ _ _ B B').
    - intros R m (A & B). do 2 eexists. split; [reflexivity|]. refine (conj _ _).
      + exact (k_sub _ _ _ _ _ _ _ _ kind_ga _ _ A).
      + exact (map_sub kind_gg _ _ B).
    - intros R t (t0 & t1 & -> & A & B).
      destruct (k_ex _ _ _ _ _ _ _ _ kind_ga _ _ A) as (m0 & M0 & ->).
      destruct (map_ex kind_gg _ _ B) as (m1 & M1 & ->).
      exists (MGS m0 m1). split; [|reflexivity]. exact (conj M0 M1).
    - intros R R' m (A & B) (A' & B').
      assert (forall c v, R c v <-> R' c v); [|easy]. intros [ r | k r] v.
      + exact (k_eq _ _ _ _ _ _ _ _ kind_ga _ _ _ A A' r v).
      + exact (map_eq kind_gg _ _ _ B B' k r v).
    - intros R R' m E (A & B). refine (conj _ _).
      + exact (k_ext _ _ _ _ _ _ _ _ kind_ga _ _ _ (fun r v => E (TG_AnyP r) v) A).
      + exact (map_ext kind_gg _ _ _ (fun k r v => E (TG_GivenP k r) v) B).
    - intros R R' E (c & v & H). exists c, v. now apply E.
    - intros R R' N N' c v. split; intros H; exfalso; [apply N|apply N']; now exists c, v.
    - intros R R' E c v. symmetry. apply E.
    - intros R N. refine (conj _ _).
      + apply (k_default _ _ _ _ _ _ _ _ kind_ga). kind_default N.
      + apply map_default. intros k. kind_default N.
  Qed.

  Definition rep_as (R : t_as T -> V -> Prop) (m : m_as V T) : Prop :=
    rep_aa (fun r => R (TA_AnyP r)) (mas_any m) /\
    rep_ag (fun r => R (TA_SameS r)) (mas_sames m) /\
    @rep_map _ _ some_pair rep_ag (fun k r => R (TA_GivenP k r)) (mas_given m).
  Definition tr_as (m : m_as V T) : tree := Struct "AnySubjectMap"
    [("any"%string, tr_aa (mas_any m)); ("same_as_subject"%string, tr_ag (mas_sames m)); ("given"%string, @tr_map _ tr_ag (mas_given m))].
  Lemma kind_as : kind some_pair eq_pairs mas_order (d_mas dv dk) tr_as rep_as (as_shown (leaf sv) (leaf sk)) mas_default.
  Proof.
    constructor.
    - intros H m. apply shows_struct; [discriminate|]. repeat (apply Forall2_cons; [split; [reflexivity|cbn [snd]]|]); [..|apply Forall2_nil].
      + exact (k_shows _ _ _ _ _ _ _ _ kind_aa H _).
      + exact (k_shows _ _ _ _ _ _ _ _ kind_ag H _).
      + exact (map_shows kind_ag H _).
    - intros H p a b. eapply agree_imp.
      + apply agree_fields; [discriminate|].
        apply fa_cons; [exact (k_reads _ _ _ _ _ _ _ _ kind_aa H p _ _)|].
        apply fa_cons; [exact (k_reads _ _ _ _ _ _ _ _ kind_ag H p _ _)|].
        apply fa_cons; [exact (map_reads kind_ag H p _ _)|].
        apply fa_nil.
      + destruct a, b. cbn. intuition congruence.
    - intros H m. apply all_struct; [apply H|reflexivity|]. intros f I. cbn in I.
      destruct I as [<-|I]; [split; [reflexivity|exact (k_class _ _ _ _ _ _ _ _ kind_aa H _)]|].
      destruct I as [<-|I]; [split; [reflexivity|exact (k_class _ _ _ _ _ _ _ _ kind_ag H _)]|].
      destruct I as [<-|I]; [split; [reflexivity|exact (map_class kind_ag H _)]|].
      destruct I.
    - intros R m m' (A & B & C) (A' & B' & C'). refine (conj _ (conj _ _)).
      + exact (k_order _ _ _ _ _ _ _ _ kind_aa _ _ _ A A').
      + exact (k_order _ _ _ _ _ _ _ _ kind_ag _ _ _ B B').
      + exact (map_ordered kind_ag _ _ _ C C').
    - intros R m m' (A & B & C) (A' & B' & C'). refine (conj _ (conj _ _)).
      + exact (k_same _ _ _ _ _ _ _ _ kind_aa _ _ _ A A').
      + exact (k_same _ _ _ _ _ _ _ _ kind_ag _ _ _ B B').
      + exact (map_same kind_ag _ _ _ C C').
    - intros R m (A & B & C). do 3 eexists. split; [reflexivity|]. refine (conj _ (conj _ _)).
      + exact (k_sub _ _ _ _ _ _ _ _ kind_aa _ _ A).
      + exact (k_sub _ _ _ _ _ _ _ _ kind_ag _ _ B).
      + exact (map_sub kind_ag _ _ C).
    - intros R t (t0 & t1 & t2 & -> & A & B & C).
      destruct (k_ex _ _ _ _ _ _ _ _ kind_aa _ _ A) as (m0 & M0 & ->).
      destruct (k_ex _ _ _ _ _ _ _ _ kind_ag _ _ B) as (m1 & M1 & ->).
      destruct (map_ex kind_ag _ _ C) as (m2 & M2 & ->).
      exists (MAS m0 m1 m2). split; [|reflexivity]. exact (conj M0 (conj M1 M2)).
    - intros R R' m (A & B & C) (A' & B' & C').
      assert (forall c v, R c v <-> R' c v); [|easy]. intros [ r | r | k r] v.
      + exact (k_eq _ _ _ _ _ _ _ _ kind_aa _ _ _ A A' r v).
      + exact (k_eq _ _ _ _ _ _ _ _ kind_ag _ _ _ B B' r v).
      + exact (map_eq kind_ag _ _ _ C C' k r v).
    - intros R R' m E (A & B & C). refine (conj _ (conj _ _)).
      + exact (k_ext _ _ _ _ _ _ _ _ kind_aa _ _ _ (fun r v => E (TA_AnyP r) v) A).
      + exact (k_ext _ _ _ _ _ _ _ _ kind_ag _ _ _ (fun r v => E (TA_SameS r) v) B).
      + exact (map_ext kind_ag _ _ _ (fun k r v => E (TA_GivenP k r) v) C).
    - intros R R' E (c & v & H). exists c, v. now apply E.
    - intros R R' N N' c v. split; intros H; exfalso; [apply N|apply N']; now exists c, v.
    - intros R R' E c v. symmetry. apply E.
    - intros R N. refine (conj _ (conj _ _)).
      + apply (k_default _ _ _ _ _ _ _ _ kind_aa). kind_default N.
      + apply (k_default _ _ _ _ _ _ _ _ kind_ag). kind_default N.
      + apply map_default. intros k. kind_default N.
  Qed.

  Definition rep_tp (R : ctp T -> V -> Prop) (m : tpm V T) : Prop :=
    rep_as (fun r => R (CT_AnyS r)) (tpm_any m) /\
    @rep_map _ _ some_pair rep_gs (fun k r => R (CT_GivenS k r)) (tpm_given m).
  Definition tr_tp (m : tpm V T) : tree := Struct "TriplePatternMap"
    [("any"%string, tr_as (tpm_any m)); ("given"%string, @tr_map _ tr_gs (tpm_given m))].
  Lemma kind_tp : kind some_pair eq_pairs tpm_order (d_tpm dv dk) tr_tp rep_tp (tp_shown (leaf sv) (leaf sk)) tpm_default.
  Proof.
    constructor.
    - intros H m. apply shows_struct; [discriminate|]. repeat (apply Forall2_cons; [split; [reflexivity|cbn [snd]]|]); [..|apply Forall2_nil].
      + exact (k_shows _ _ _ _ _ _ _ _ kind_as H _).
      + exact (map_shows kind_gs H _).
    - intros H p a b. eapply agree_imp.
      + apply agree_fields; [discriminate|].
        apply fa_cons; [exact (k_reads _ _ _ _ _ _ _ _ kind_as H p _ _)|].
        apply fa_cons; [exact (map_reads kind_gs H p _ _)|].
        apply fa_nil.
      + destruct a, b. cbn. intuition congruence.
    - intros H m. apply all_struct; [apply H|reflexivity|]. intros f I. cbn in I.
      destruct I as [<-|I]; [split; [reflexivity|exact (k_class _ _ _ _ _ _ _ _ kind_as H _)]|].
      destruct I as [<-|I]; [split; [reflexivity|exact (map_class kind_gs H _)]|].
      destruct I.
    - intros R m m' (A & B) (A' & B'). refine (conj _ _).
      + exact (k_order _ _ _ _ _ _ _ _ kind_as _ _ _ A A').
      + exact (map_ordered kind_gs _ _ _ B B').
    - intros R m m' (A & B) (A' & B'). refine (conj _ _).
      + exact (k_same _ _ _ _ _ _ _ _ kind_as _ _ _ A A').
      + exact (map_same kind_gs _ _ _ B B').
    - intros R m (A & B). do 2 eexists. split; [reflexivity|]. refine (conj _ _).
      + exact (k_sub _ _ _ _ _ _ _ _ kind_as _ _ A).
      + exact (map_sub kind_gs _ _ B).
    - intros R t (t0 & t1 & -> & A & B).
      destruct (k_ex _ _ _ _ _ _ _ _ kind_as _ _ A) as (m0 & M0 & ->).
      destruct (map_ex kind_gs _ _ B) as (m1 & M1 & ->).
      exists (TPM m0 m1). split; [|reflexivity]. exact (conj M0 M1).
    - intros R R' m (A & B) (A' & B').
      assert (forall c v, R c v <-> R' c v); [|easy]. intros [ r | k r] v.
      + exact (k_eq _ _ _ _ _ _ _ _ kind_as _ _ _ A A' r v).
      + exact (map_eq kind_gs _ _ _ B B' k r v).
    - intros R R' m E (A & B). refine (conj _ _).
      + exact (k_ext _ _ _ _ _ _ _ _ kind_as _ _ _ (fun r v => E (CT_AnyS r) v) A).
      + exact (map_ext kind_gs _ _ _ (fun k r v => E (CT_GivenS k r) v) B).
    - intros R R' E (c & v & H). exists c, v. now apply E.
    - intros R R' N N' c v. split; intros H; exfalso; [apply N|apply N']; now exists c, v.
    - intros R R' E c v. symmetry. apply E.
    - intros R N. refine (conj _ _).
      + apply (k_default _ _ _ _ _ _ _ _ kind_as). kind_default N.
      + apply map_default. intros k. kind_default N.
  Qed.

  (** ** Insertion, and union *)
  Ltac ins_eq E := unfold eq_map, eq_pairs, eq_set; intros; cbn beta; rewrite E; intuition congruence.

  Lemma ins_ga R R' c v m : rep_ga R m -> (forall c' v', R' c' v' <-> c' = c /\ v' = v \/ R c' v') ->
    rep_ga R' (snd (mga_insert veqb teqb c v m)).
  Proof.
    destruct m as [f0 f1 f2]. destruct c as [  |  | k]; intros (A & B & C) E; cbn [mga_any mga_samep mga_given mga_insert] in *.
    - assert (X : rep_set (R' TGA_Any) (snd (hs_insert veqb v f0))) by (apply (set_insert (R TGA_Any)); [exact A|ins_eq E]).
      destruct (hs_insert veqb v f0).
      refine (conj _ (conj _ _)).
      + exact X.
      + apply (k_ext _ _ _ _ _ _ _ _ kind_set (R TGA_SameP)); [ins_eq E|exact B].
      + apply (map_ext kind_set (fun k => R (TGA_Given k))); [ins_eq E|exact C].
    - assert (X : rep_set (R' TGA_SameP) (snd (hs_insert veqb v f1))) by (apply (set_insert (R TGA_SameP)); [exact B|ins_eq E]).
      destruct (hs_insert veqb v f1).
      refine (conj _ (conj _ _)).
      + apply (k_ext _ _ _ _ _ _ _ _ kind_set (R TGA_Any)); [ins_eq E|exact A].
      + exact X.
      + apply (map_ext kind_set (fun k => R (TGA_Given k))); [ins_eq E|exact C].
    - assert (X : @rep_map _ _ some_value rep_set (fun k => R' (TGA_Given k)) (snd (hm_entry teqb [] k (hs_insert veqb v) f2))).
      { apply (map_entry kind_set (fun k => R (TGA_Given k))); [exact C|ins_eq E| |].
        - exists v. apply E. auto.
        - intros a H. apply (set_insert (R (TGA_Given k))); [exact H|ins_eq E]. }
      destruct (hm_entry _ _ _ _ _).
      refine (conj _ (conj _ _)).
      + apply (k_ext _ _ _ _ _ _ _ _ kind_set (R TGA_Any)); [ins_eq E|exact A].
      + apply (k_ext _ _ _ _ _ _ _ _ kind_set (R TGA_SameP)); [ins_eq E|exact B].
      + exact X.
  Qed.

  Lemma ins_gg R R' c v m : rep_gg R m -> (forall c' v', R' c' v' <-> c' = c /\ v' = v \/ R c' v') ->
    rep_gg R' (snd (mgg_insert veqb teqb c v m)).
  Proof.
    destruct m as [f0 f1]. destruct c as [  | k]; intros (A & B) E; cbn [mgg_any mgg_given mgg_insert] in *.
    - assert (X : rep_set (R' TGG_Any) (snd (hs_insert veqb v f0))) by (apply (set_insert (R TGG_Any)); [exact A|ins_eq E]).
      destruct (hs_insert veqb v f0).
      refine (conj _ _).
      + exact X.
      + apply (map_ext kind_set (fun k => R (TGG_Given k))); [ins_eq E|exact B].
    - assert (X : @rep_map _ _ some_value rep_set (fun k => R' (TGG_Given k)) (snd (hm_entry teqb [] k (hs_insert veqb v) f1))).
      { apply (map_entry kind_set (fun k => R (TGG_Given k))); [exact B|ins_eq E| |].
        - exists v. apply E. auto.
        - intros a H. apply (set_insert (R (TGG_Given k))); [exact H|ins_eq E]. }
      destruct (hm_entry _ _ _ _ _).
      refine (conj _ _).
      + apply (k_ext _ _ _ _ _ _ _ _ kind_set (R TGG_Any)); [ins_eq E|exact A].
      + exact X.
  Qed.

  Lemma ins_aa R R' c v m : rep_aa R m -> (forall c' v', R' c' v' <-> c' = c /\ v' = v \/ R c' v') ->
    rep_aa R' (snd (maa_insert veqb teqb c v m)).
  Proof.
    destruct m as [f0 f1 f2 f3]. destruct c as [  |  |  | k]; intros (A & B & C & D) E; cbn [maa_any maa_sames maa_samep maa_given maa_insert] in *.
    - assert (X : rep_set (R' TAA_Any) (snd (hs_insert veqb v f0))) by (apply (set_insert (R TAA_Any)); [exact A|ins_eq E]).
      destruct (hs_insert veqb v f0).
      refine (conj _ (conj _ (conj _ _))).
      + exact X.
      + apply (k_ext _ _ _ _ _ _ _ _ kind_set (R TAA_SameS)); [ins_eq E|exact B].
      + apply (k_ext _ _ _ _ _ _ _ _ kind_set (R TAA_SameP)); [ins_eq E|exact C].
      + apply (map_ext kind_set (fun k => R (TAA_Given k))); [ins_eq E|exact D].
    - assert (X : rep_set (R' TAA_SameS) (snd (hs_insert veqb v f1))) by (apply (set_insert (R TAA_SameS)); [exact B|ins_eq E]).
      destruct (hs_insert veqb v f1).
      refine (conj _ (conj _ (conj _ _))).
      + apply (k_ext _ _ _ _ _ _ _ _ kind_set (R TAA_Any)); [ins_eq E|exact A].
      + exact X.
      + apply (k_ext _ _ _ _ _ _ _ _ kind_set (R TAA_SameP)); [ins_eq E|exact C].
      + apply (map_ext kind_set (fun k => R (TAA_Given k))); [ins_eq E|exact D].
    - assert (X : rep_set (R' TAA_SameP) (snd (hs_insert veqb v f2))) by (apply (set_insert (R TAA_SameP)); [exact C|ins_eq E]).
      destruct (hs_insert veqb v f2).
      refine (conj _ (conj _ (conj _ _))).
      + apply (k_ext _ _ _ _ _ _ _ _ kind_set (R TAA_Any)); [ins_eq E|exact A].
      + apply (k_ext _ _ _ _ _ _ _ _ kind_set (R TAA_SameS)); [ins_eq E|exact B].
      + exact X.
      + apply (map_ext kind_set (fun k => R (TAA_Given k))); [ins_eq E|exact D].
    - assert (X : @rep_map _ _ some_value rep_set (fun k => R' (TAA_Given k)) (snd (hm_entry teqb [] k (hs_insert veqb v) f3))).
      { apply (map_entry kind_set (fun k => R (TAA_Given k))); [exact D|ins_eq E| |].
        - exists v. apply E. auto.
        - intros a H. apply (set_insert (R (TAA_Given k))); [exact H|ins_eq E]. }
      destruct (hm_entry _ _ _ _ _).
      refine (conj _ (conj _ (conj _ _))).
      + apply (k_ext _ _ _ _ _ _ _ _ kind_set (R TAA_Any)); [ins_eq E|exact A].
      + apply (k_ext _ _ _ _ _ _ _ _ kind_set (R TAA_SameS)); [ins_eq E|exact B].
      + apply (k_ext _ _ _ _ _ _ _ _ kind_set (R TAA_SameP)); [ins_eq E|exact C].
      + exact X.
  Qed.

  Lemma ins_ag R R' c v m : rep_ag R m -> (forall c' v', R' c' v' <-> c' = c /\ v' = v \/ R c' v') ->
    rep_ag R' (snd (mag_insert veqb teqb c v m)).
  Proof.
    destruct m as [f0 f1 f2]. destruct c as [  |  | k]; intros (A & B & C) E; cbn [mag_any mag_sames mag_given mag_insert] in *.
    - assert (X : rep_set (R' TAG_Any) (snd (hs_insert veqb v f0))) by (apply (set_insert (R TAG_Any)); [exact A|ins_eq E]).
      destruct (hs_insert veqb v f0).
      refine (conj _ (conj _ _)).
      + exact X.
      + apply (k_ext _ _ _ _ _ _ _ _ kind_set (R TAG_SameS)); [ins_eq E|exact B].
      + apply (map_ext kind_set (fun k => R (TAG_Given k))); [ins_eq E|exact C].
    - assert (X : rep_set (R' TAG_SameS) (snd (hs_insert veqb v f1))) by (apply (set_insert (R TAG_SameS)); [exact B|ins_eq E]).
      destruct (hs_insert veqb v f1).
      refine (conj _ (conj _ _)).
      + apply (k_ext _ _ _ _ _ _ _ _ kind_set (R TAG_Any)); [ins_eq E|exact A].
      + exact X.
      + apply (map_ext kind_set (fun k => R (TAG_Given k))); [ins_eq E|exact C].
    - assert (X : @rep_map _ _ some_value rep_set (fun k => R' (TAG_Given k)) (snd (hm_entry teqb [] k (hs_insert veqb v) f2))).
      { apply (map_entry kind_set (fun k => R (TAG_Given k))); [exact C|ins_eq E| |].
        - exists v. apply E. auto.
        - intros a H. apply (set_insert (R (TAG_Given k))); [exact H|ins_eq E]. }
      destruct (hm_entry _ _ _ _ _).
      refine (conj _ (conj _ _)).
      + apply (k_ext _ _ _ _ _ _ _ _ kind_set (R TAG_Any)); [ins_eq E|exact A].
      + apply (k_ext _ _ _ _ _ _ _ _ kind_set (R TAG_SameS)); [ins_eq E|exact B].
      + exact X.
  Qed.

  Lemma ins_gs R R' c v m : rep_gs R m -> (forall c' v', R' c' v' <-> c' = c /\ v' = v \/ R c' v') ->
    rep_gs R' (snd (mgs_insert veqb teqb c v m)).
  Proof.
    destruct m as [f0 f1]. destruct c as [ r | k r]; intros (A & B) E; cbn [mgs_any mgs_given mgs_insert] in *.
    - assert (X : rep_ga (fun r => R' (TG_AnyP r)) (snd (mga_insert veqb teqb r v f0))) by (apply (ins_ga (fun r => R (TG_AnyP r))); [exact A|ins_eq E]).
      destruct (mga_insert _ _ _ _ _).
      refine (conj _ _).
      + exact X.
      + apply (map_ext kind_gg (fun k r => R (TG_GivenP k r))); [ins_eq E|exact B].
    - assert (X : @rep_map _ _ some_pair rep_gg (fun k r => R' (TG_GivenP k r)) (snd (hm_entry teqb mgg_default k (mgg_insert veqb teqb r v) f1))).
      { apply (map_entry kind_gg (fun k r => R (TG_GivenP k r))); [exact B|ins_eq E| |].
        - exists r, v. apply E. auto.
        - intros a H. apply (ins_gg (fun r => R (TG_GivenP k r))); [exact H|ins_eq E]. }
      destruct (hm_entry _ _ _ _ _).
      refine (conj _ _).
      + apply (k_ext _ _ _ _ _ _ _ _ kind_ga (fun r => R (TG_AnyP r))); [ins_eq E|exact A].
      + exact X.
  Qed.

  Lemma ins_as R R' c v m : rep_as R m -> (forall c' v', R' c' v' <-> c' = c /\ v' = v \/ R c' v') ->
    rep_as R' (snd (mas_insert veqb teqb c v m)).
  Proof.
    destruct m as [f0 f1 f2]. destruct c as [ r | r | k r]; intros (A & B & C) E; cbn [mas_any mas_sames mas_given mas_insert] in *.
    - assert (X : rep_aa (fun r => R' (TA_AnyP r)) (snd (maa_insert veqb teqb r v f0))) by (apply (ins_aa (fun r => R (TA_AnyP r))); [exact A|ins_eq E]).
      destruct (maa_insert _ _ _ _ _).
      refine (conj _ (conj _ _)).
      + exact X.
      + apply (k_ext _ _ _ _ _ _ _ _ kind_ag (fun r => R (TA_SameS r))); [ins_eq E|exact B].
      + apply (map_ext kind_ag (fun k r => R (TA_GivenP k r))); [ins_eq E|exact C].
    - assert (X : rep_ag (fun r => R' (TA_SameS r)) (snd (mag_insert veqb teqb r v f1))) by (apply (ins_ag (fun r => R (TA_SameS r))); [exact B|ins_eq E]).
      destruct (mag_insert _ _ _ _ _).
      refine (conj _ (conj _ _)).
      + apply (k_ext _ _ _ _ _ _ _ _ kind_aa (fun r => R (TA_AnyP r))); [ins_eq E|exact A].
      + exact X.
      + apply (map_ext kind_ag (fun k r => R (TA_GivenP k r))); [ins_eq E|exact C].
    - assert (X : @rep_map _ _ some_pair rep_ag (fun k r => R' (TA_GivenP k r)) (snd (hm_entry teqb mag_default k (mag_insert veqb teqb r v) f2))).
      { apply (map_entry kind_ag (fun k r => R (TA_GivenP k r))); [exact C|ins_eq E| |].
        - exists r, v. apply E. auto.
        - intros a H. apply (ins_ag (fun r => R (TA_GivenP k r))); [exact H|ins_eq E]. }
      destruct (hm_entry _ _ _ _ _).
      refine (conj _ (conj _ _)).
      + apply (k_ext _ _ _ _ _ _ _ _ kind_aa (fun r => R (TA_AnyP r))); [ins_eq E|exact A].
      + apply (k_ext _ _ _ _ _ _ _ _ kind_ag (fun r => R (TA_SameS r))); [ins_eq E|exact B].
      + exact X.
  Qed.

  Lemma ins_tp R R' c v m : rep_tp R m -> (forall c' v', R' c' v' <-> c' = c /\ v' = v \/ R c' v') ->
    rep_tp R' (snd (tpm_insert veqb teqb c v m)).
  Proof.
    destruct m as [f0 f1]. destruct c as [ r | k r]; intros (A & B) E; cbn [tpm_any tpm_given tpm_insert] in *.
    - assert (X : rep_as (fun r => R' (CT_AnyS r)) (snd (mas_insert veqb teqb r v f0))) by (apply (ins_as (fun r => R (CT_AnyS r))); [exact A|ins_eq E]).
      destruct (mas_insert _ _ _ _ _).
      refine (conj _ _).
      + exact X.
      + apply (map_ext kind_gs (fun k r => R (CT_GivenS k r))); [ins_eq E|exact B].
    - assert (X : @rep_map _ _ some_pair rep_gs (fun k r => R' (CT_GivenS k r)) (snd (hm_entry teqb mgs_default k (mgs_insert veqb teqb r v) f1))).
      { apply (map_entry kind_gs (fun k r => R (CT_GivenS k r))); [exact B|ins_eq E| |].
        - exists r, v. apply E. auto.
        - intros a H. apply (ins_gs (fun r => R (CT_GivenS k r))); [exact H|ins_eq E]. }
      destruct (hm_entry _ _ _ _ _).
      refine (conj _ _).
      + apply (k_ext _ _ _ _ _ _ _ _ kind_as (fun r => R (CT_AnyS r))); [ins_eq E|exact A].
      + exact X.
  Qed.

  Lemma history_rep {P M} (i : P -> V -> M -> bool * M) (rep : (P -> V -> Prop) -> M -> Prop) :
    (forall R R' m, eq_pairs R R' -> rep R m -> rep R' m) ->
    (forall R R' c v m, rep R m -> (forall c' v', R' c' v' <-> c' = c /\ v' = v \/ R c' v') ->
      rep R' (snd (i c v m))) ->
    forall l R R' m, rep R m -> (forall c v, R' c v <-> R c v \/ In (c, v) l) ->
      rep R' (snd (insert_all i l m)).
  Proof.
    intros ext ins l. induction l as [|[c v] l IH]; intros R R' m H E; cbn [insert_all].
    - apply (ext R); [|exact H]. intros c v. rewrite E. cbn. tauto.
    - pose proof (ins R (fun c' v' => c' = c /\ v' = v \/ R c' v') c v m H) as X.
      destruct (i c v m) as [b m1]. cbn [snd] in X.
      specialize (IH _ R' m1 (X (fun _ _ => iff_refl _))).
      destruct (insert_all i l m1) as [bs m2]. cbn [snd] in *. apply IH.
      intros c' v'. rewrite E. cbn. split; [intros [Z|[Z|Z]]; auto|intros [[[-> ->]|Z]|Z]; auto].
      injection Z as -> ->. auto.
  Qed.


  Lemma uni_ga R Q R' m n : rep_ga R m -> rep_ga Q n ->
    (forall c v, R' c v <-> Q c v \/ R c v /\ ~ exists c' v', Q c' v' /\ same_key_ga c' c) ->
    rep_ga R' (mga_union veqb teqb m n).
  Proof.
    intros (A & B & C) (A' & B' & C') E. refine (conj _ (conj _ _)).
    - apply (set_union (R TGA_Any) (Q TGA_Any)); [exact A|exact A'|]. intros w. rewrite E. split.
      + intros [H|[H _]]; auto.
      + intros [H|H]; [now left|]. right. split; [exact H|]. intros (c' & v' & _ & K). destruct c'; exact K.
    - apply (set_union (R TGA_SameP) (Q TGA_SameP)); [exact B|exact B'|]. intros w. rewrite E. split.
      + intros [H|[H _]]; auto.
      + intros [H|H]; [now left|]. right. split; [exact H|]. intros (c' & v' & _ & K). destruct c'; exact K.
    - apply (map_union kind_set _ (fun k => R (TGA_Given k)) (fun k => Q (TGA_Given k))); [exact C|exact C'| |].
      + intros k (v0 & H0) v. cbn beta. rewrite E. split; [auto|]. intros [H|[_ N]]; [exact H|]. exfalso. apply N.
        do 2 eexists. split; [exact H0|reflexivity].
      + intros k N v. cbn beta. rewrite E. split.
        * intros H. right. split; [exact H|]. intros (c' & v' & H' & K). destruct c'; cbn in K; try easy.
          subst. apply N. now exists v'.
        * intros [H|[H _]]; [|exact H]. exfalso. apply N. now exists v.
  Qed.

  Lemma uni_gg R Q R' m n : rep_gg R m -> rep_gg Q n ->
    (forall c v, R' c v <-> Q c v \/ R c v /\ ~ exists c' v', Q c' v' /\ same_key_gg c' c) ->
    rep_gg R' (mgg_union veqb teqb m n).
  Proof.
    intros (A & B) (A' & B') E. refine (conj _ _).
    - apply (set_union (R TGG_Any) (Q TGG_Any)); [exact A|exact A'|]. intros w. rewrite E. split.
      + intros [H|[H _]]; auto.
      + intros [H|H]; [now left|]. right. split; [exact H|]. intros (c' & v' & _ & K). destruct c'; exact K.
    - apply (map_union kind_set _ (fun k => R (TGG_Given k)) (fun k => Q (TGG_Given k))); [exact B|exact B'| |].
      + intros k (v0 & H0) v. cbn beta. rewrite E. split; [auto|]. intros [H|[_ N]]; [exact H|]. exfalso. apply N.
        do 2 eexists. split; [exact H0|reflexivity].
      + intros k N v. cbn beta. rewrite E. split.
        * intros H. right. split; [exact H|]. intros (c' & v' & H' & K). destruct c'; cbn in K; try easy.
          subst. apply N. now exists v'.
        * intros [H|[H _]]; [|exact H]. exfalso. apply N. now exists v.
  Qed.

  Lemma uni_aa R Q R' m n : rep_aa R m -> rep_aa Q n ->
    (forall c v, R' c v <-> Q c v \/ R c v /\ ~ exists c' v', Q c' v' /\ same_key_aa c' c) ->
    rep_aa R' (maa_union veqb teqb m n).
  Proof.
    intros (A & B & C & D) (A' & B' & C' & D') E. refine (conj _ (conj _ (conj _ _))).
    - apply (set_union (R TAA_Any) (Q TAA_Any)); [exact A|exact A'|]. intros w. rewrite E. split.
      + intros [H|[H _]]; auto.
      + intros [H|H]; [now left|]. right. split; [exact H|]. intros (c' & v' & _ & K). destruct c'; exact K.
    - apply (set_union (R TAA_SameS) (Q TAA_SameS)); [exact B|exact B'|]. intros w. rewrite E. split.
      + intros [H|[H _]]; auto.
      + intros [H|H]; [now left|]. right. split; [exact H|]. intros (c' & v' & _ & K). destruct c'; exact K.
    - apply (set_union (R TAA_SameP) (Q TAA_SameP)); [exact C|exact C'|]. intros w. rewrite E. split.
      + intros [H|[H _]]; auto.
      + intros [H|H]; [now left|]. right. split; [exact H|]. intros (c' & v' & _ & K). destruct c'; exact K.
    - apply (map_union kind_set _ (fun k => R (TAA_Given k)) (fun k => Q (TAA_Given k))); [exact D|exact D'| |].
      + intros k (v0 & H0) v. cbn beta. rewrite E. split; [auto|]. intros [H|[_ N]]; [exact H|]. exfalso. apply N.
        do 2 eexists. split; [exact H0|reflexivity].
      + intros k N v. cbn beta. rewrite E. split.
        * intros H. right. split; [exact H|]. intros (c' & v' & H' & K). destruct c'; cbn in K; try easy.
          subst. apply N. now exists v'.
        * intros [H|[H _]]; [|exact H]. exfalso. apply N. now exists v.
  Qed.

  Lemma uni_ag R Q R' m n : rep_ag R m -> rep_ag Q n ->
    (forall c v, R' c v <-> Q c v \/ R c v /\ ~ exists c' v', Q c' v' /\ same_key_ag c' c) ->
    rep_ag R' (mag_union veqb teqb m n).
  Proof.
    intros (A & B & C) (A' & B' & C') E. refine (conj _ (conj _ _)).
    - apply (set_union (R TAG_Any) (Q TAG_Any)); [exact A|exact A'|]. intros w. rewrite E. split.
      + intros [H|[H _]]; auto.
      + intros [H|H]; [now left|]. right. split; [exact H|]. intros (c' & v' & _ & K). destruct c'; exact K.
    - apply (set_union (R TAG_SameS) (Q TAG_SameS)); [exact B|exact B'|]. intros w. rewrite E. split.
      + intros [H|[H _]]; auto.
      + intros [H|H]; [now left|]. right. split; [exact H|]. intros (c' & v' & _ & K). destruct c'; exact K.
    - apply (map_union kind_set _ (fun k => R (TAG_Given k)) (fun k => Q (TAG_Given k))); [exact C|exact C'| |].
      + intros k (v0 & H0) v. cbn beta. rewrite E. split; [auto|]. intros [H|[_ N]]; [exact H|]. exfalso. apply N.
        do 2 eexists. split; [exact H0|reflexivity].
      + intros k N v. cbn beta. rewrite E. split.
        * intros H. right. split; [exact H|]. intros (c' & v' & H' & K). destruct c'; cbn in K; try easy.
          subst. apply N. now exists v'.
        * intros [H|[H _]]; [|exact H]. exfalso. apply N. now exists v.
  Qed.

  Lemma uni_gs R Q R' m n : rep_gs R m -> rep_gs Q n ->
    (forall c v, R' c v <-> Q c v \/ R c v /\ ~ exists c' v', Q c' v' /\ same_key_gs c' c) ->
    rep_gs R' (mgs_union veqb teqb m n).
  Proof.
    intros (A & B) (A' & B') E. refine (conj _ _).
    - apply (uni_ga (fun r => R (TG_AnyP r)) (fun r => Q (TG_AnyP r))); [exact A|exact A'|]. intros r v. rewrite E. split.
      + intros [H|[H N]]; [now left|]. right. split; [exact H|]. intros (c' & v' & H' & K). apply N.
        now exists (TG_AnyP c'), v'.
      + intros [H|[H N]]; [now left|]. right. split; [exact H|]. intros (c' & v' & H' & K).
        destruct c' as [ c' | ? ?]; cbn in K; try easy. apply N. now exists c', v'.
    - apply (map_union kind_gg _ (fun k r => R (TG_GivenP k r)) (fun k r => Q (TG_GivenP k r))); [exact B|exact B'| |].
      + intros k (r0 & v0 & H0) r v. cbn beta. rewrite E. split; [auto|]. intros [H|[_ N]]; [exact H|]. exfalso. apply N.
        do 2 eexists. split; [exact H0|reflexivity].
      + intros k N r v. cbn beta. rewrite E. split.
        * intros H. right. split; [exact H|]. intros (c' & v' & H' & K). destruct c'; cbn in K; try easy.
          subst. apply N. do 2 eexists; exact H'.
        * intros [H|[H _]]; [|exact H]. exfalso. apply N. now exists r, v.
  Qed.

  Lemma uni_as R Q R' m n : rep_as R m -> rep_as Q n ->
    (forall c v, R' c v <-> Q c v \/ R c v /\ ~ exists c' v', Q c' v' /\ same_key_as c' c) ->
    rep_as R' (mas_union veqb teqb m n).
  Proof.
    intros (A & B & C) (A' & B' & C') E. refine (conj _ (conj _ _)).
    - apply (uni_aa (fun r => R (TA_AnyP r)) (fun r => Q (TA_AnyP r))); [exact A|exact A'|]. intros r v. rewrite E. split.
      + intros [H|[H N]]; [now left|]. right. split; [exact H|]. intros (c' & v' & H' & K). apply N.
        now exists (TA_AnyP c'), v'.
      + intros [H|[H N]]; [now left|]. right. split; [exact H|]. intros (c' & v' & H' & K).
        destruct c' as [ c' | ? | ? ?]; cbn in K; try easy. apply N. now exists c', v'.
    - apply (uni_ag (fun r => R (TA_SameS r)) (fun r => Q (TA_SameS r))); [exact B|exact B'|]. intros r v. rewrite E. split.
      + intros [H|[H N]]; [now left|]. right. split; [exact H|]. intros (c' & v' & H' & K). apply N.
        now exists (TA_SameS c'), v'.
      + intros [H|[H N]]; [now left|]. right. split; [exact H|]. intros (c' & v' & H' & K).
        destruct c' as [ ? | c' | ? ?]; cbn in K; try easy. apply N. now exists c', v'.
    - apply (map_union kind_ag _ (fun k r => R (TA_GivenP k r)) (fun k r => Q (TA_GivenP k r))); [exact C|exact C'| |].
      + intros k (r0 & v0 & H0) r v. cbn beta. rewrite E. split; [auto|]. intros [H|[_ N]]; [exact H|]. exfalso. apply N.
        do 2 eexists. split; [exact H0|reflexivity].
      + intros k N r v. cbn beta. rewrite E. split.
        * intros H. right. split; [exact H|]. intros (c' & v' & H' & K). destruct c'; cbn in K; try easy.
          subst. apply N. do 2 eexists; exact H'.
        * intros [H|[H _]]; [|exact H]. exfalso. apply N. now exists r, v.
  Qed.

  (** ** The texts *)
  Section Texts.
    Context {P M : Type} {order : M -> M -> Prop} {d : M -> dval}
      {tr : M -> tree} {rep : (P -> V -> Prop) -> M -> Prop} {sub : (P -> V -> Prop) -> tree -> Prop} {dflt : M}
      (K : kind some_pair eq_pairs order d tr rep sub dflt).
    Lemma kind_text R m m' : shows_ok -> rep R m -> order m m' ->
      exists t, sub R t /\ shows (d m') (fun p => shown p t).
    Proof.
      intros S H O. exists (tr m'). split; [|now apply (k_shows _ _ _ _ _ _ _ _ K)].
      apply (k_sub _ _ _ _ _ _ _ _ K). now apply (k_order _ _ _ _ _ _ _ _ K R m).
    Qed.
    Lemma kind_any R m t : shows_ok -> rep R m -> sub R t ->
      exists m', order m m' /\ shows (d m') (fun p => shown p t).
    Proof.
      intros S H X. destruct (k_ex _ _ _ _ _ _ _ _ K _ _ X) as (m' & H' & ->). exists m'.
      split; [now apply (k_same _ _ _ _ _ _ _ _ K R)|now apply (k_shows _ _ _ _ _ _ _ _ K)].
    Qed.
    Lemma kind_read R R' t t' p : reads_ok -> sub R t -> sub R' t' -> shown p t = shown p t' ->
      forall c v, R c v <-> R' c v.
    Proof.
      intros RD H H' E. destruct (k_ex _ _ _ _ _ _ _ _ K _ _ H) as (m & A & ->).
      destruct (k_ex _ _ _ _ _ _ _ _ K _ _ H') as (m' & A' & ->).
      destruct (k_reads _ _ _ _ _ _ _ _ K RD p m m' (chars "}") (chars "}")) as [-> _];
        [apply (follows_brace [])|apply (follows_brace [])|now rewrite E|].
      exact (k_eq _ _ _ _ _ _ _ _ K _ _ _ A A').
    Qed.
    Lemma kind_chars R t : class_ok -> sub R t -> forall c, In c (shown false t) -> class c.
    Proof.
      intros C H. destruct (k_ex _ _ _ _ _ _ _ _ K _ _ H) as (m & _ & ->). now apply (k_class _ _ _ _ _ _ _ _ K).
    Qed.
    Lemma rep_nothing : rep (fun _ _ => False) dflt.
    Proof. apply (k_default _ _ _ _ _ _ _ _ K). now intros (c & v & H). Qed.
  End Texts.
  Lemma built_ga l : rep_ga (fun c v => In (c, v) l) (snd (insert_all (mga_insert veqb teqb) l mga_default)).
  Proof.
    apply (history_rep _ _ (k_ext _ _ _ _ _ _ _ _ kind_ga) ins_ga l _ _ _ (rep_nothing kind_ga)). intros; cbn; tauto.
  Qed.
  Lemma built_gg l : rep_gg (fun c v => In (c, v) l) (snd (insert_all (mgg_insert veqb teqb) l mgg_default)).
  Proof.
    apply (history_rep _ _ (k_ext _ _ _ _ _ _ _ _ kind_gg) ins_gg l _ _ _ (rep_nothing kind_gg)). intros; cbn; tauto.
  Qed.
  Lemma built_aa l : rep_aa (fun c v => In (c, v) l) (snd (insert_all (maa_insert veqb teqb) l maa_default)).
  Proof.
    apply (history_rep _ _ (k_ext _ _ _ _ _ _ _ _ kind_aa) ins_aa l _ _ _ (rep_nothing kind_aa)). intros; cbn; tauto.
  Qed.
  Lemma built_ag l : rep_ag (fun c v => In (c, v) l) (snd (insert_all (mag_insert veqb teqb) l mag_default)).
  Proof.
    apply (history_rep _ _ (k_ext _ _ _ _ _ _ _ _ kind_ag) ins_ag l _ _ _ (rep_nothing kind_ag)). intros; cbn; tauto.
  Qed.
  Lemma built_gs l : rep_gs (fun c v => In (c, v) l) (snd (insert_all (mgs_insert veqb teqb) l mgs_default)).
  Proof.
    apply (history_rep _ _ (k_ext _ _ _ _ _ _ _ _ kind_gs) ins_gs l _ _ _ (rep_nothing kind_gs)). intros; cbn; tauto.
  Qed.
  Lemma built_as l : rep_as (fun c v => In (c, v) l) (snd (insert_all (mas_insert veqb teqb) l mas_default)).
  Proof.
    apply (history_rep _ _ (k_ext _ _ _ _ _ _ _ _ kind_as) ins_as l _ _ _ (rep_nothing kind_as)). intros; cbn; tauto.
  Qed.
  Lemma built_tp l : rep_tp (fun c v => In (c, v) l) (snd (insert_all (tpm_insert veqb teqb) l tpm_default)).
  Proof.
    apply (history_rep _ _ (k_ext _ _ _ _ _ _ _ _ kind_tp) ins_tp l _ _ _ (rep_nothing kind_tp)). intros; cbn; tauto.
  Qed.
End Maps.
