(** Removing all that mentions a resource. *)
From Coq Require Import List Bool Arith Lia.
Import ListNotations.
From Verif Require Import Base TripleModel TriplePatternModel QuadPatternModel SetSpec ContainerSpec PatternSpec
  IndexedSpec ScanSpec Machine BaseProofs BTreeDatasetModel BTreeGraphModel IResourceModel IndexedDatasetModel
  IndexedGraphModel IndexedHistoryProofs IndexedRunProofs IndexedGraphProofs IndexedGraphRunProofs ScanProofs LedgerSpec SightSpec SightProofs
  EntailProofs CopyModel CopySpec CopyProofs PatchModel PatchProofs PullProofs ForgetModel.

Section Generic.
  Context {D X P : Type} {cmp : X -> X -> comparison} (L : ord_laws cmp).
  Context {iter : D -> option (list X)} {query : D -> P -> option (list X)}
    {insert remove : D -> X -> option (bool * D)}.
  Context {rep : D -> list X -> Prop}.
  Context (Hn : forall d s, rep d s -> NoDup s).
  Context (Hi : forall d s, rep d s -> iter d = Some (sorted_elements cmp s)).
  Context (Ha : forall d s x, rep d s ->
    exists d', insert d x = Some (negb (mem cmp x s), d') /\ rep d' (add cmp x s)).
  Context (Hd : forall d s x, rep d s ->
    exists d', remove d x = Some (mem cmp x s, d') /\ rep d' (del cmp x s)).

  Lemma del_length x s : NoDup s -> (if mem cmp x s then 1 else 0) + length (del cmp x s) = length s.
  Proof.
    intros N. assert (Nd : NoDup (del cmp x s)) by now apply NoDup_filter.
    destruct (mem cmp x s) eqn:E.
    - apply (mem_true L) in E. change (length (x :: del cmp x s) = length s). apply same_length; [|exact N|].
      + constructor; [|exact Nd]. rewrite (in_del L). tauto.
      + intros y. cbn [In]. rewrite (in_del L). split; [intros [<-|[_ H]]; assumption|].
        intros H. destruct (same cmp x y) eqn:F; [left; now apply (same_true L)|right].
        split; [|exact H]. intros ->. now rewrite (proj2 (same_true L x x) eq_refl) in F.
    - apply (mem_false L) in E. apply same_length; [exact Nd|exact N|]. intros y. rewrite (in_del L).
      split; [tauto|]. intros H. split; [|exact H]. now intros ->.
  Qed.
  Lemma remove_balance l : forall n d s, rep d s ->
    exists k d', each remove l n d = Some (k, d') /\ rep d' (fold_left (fun s x => del cmp x s) l s) /\
      k + length (fold_left (fun s x => del cmp x s) l s) = n + length s.
  Proof.
    induction l as [|x l IH]; intros n d s R; cbn [each fold_left].
    - exists n, d. auto.
    - destruct (Hd d s x R) as (d1 & -> & R1). pose proof (del_length x s (Hn _ _ R)) as E.
      destruct (IH (if mem cmp x s then S n else n) d1 _ R1) as (k & d2 & -> & R2 & B).
      exists k, d2. split; [reflexivity|]. split; [exact R2|]. rewrite B. destruct (mem cmp x s); lia.
  Qed.
  Lemma iter_length d s l : rep d s -> iter d = Some l -> length l = length s.
  Proof.
    intros R E. apply same_length; [exact (iter_nodup L Hn Hi d s l R E)|exact (Hn _ _ R)|].
    intros x. exact (iter_in Hi d s l x R E).
  Qed.

  Lemma forgotten d s l ps found : rep d s -> iter d = Some l -> find_all query d ps = Some found ->
    exists n d' l', forget query insert remove d ps = Some (n, d') /\ iter d' = Some l' /\ n + length l' = length l /\
      forall x, In x l' <-> In x l /\ ~ In x found.
  Proof.
    intros R E F. unfold forget, patch. rewrite F. destruct (remove_balance found 0 d s R) as (n & d' & -> & R' & B).
    cbn [each]. exists n, d', (sorted_elements cmp (fold_left (fun s x => del cmp x s) found s)).
    split; [reflexivity|]. split; [exact (Hi _ _ R')|].
    split; [rewrite (iter_length _ _ _ R' (Hi _ _ R')), (iter_length _ _ _ R E); exact B|].
    intros x. rewrite in_sorted_elements, (in_dels L), (iter_in Hi d s l x R E). tauto.
  Qed.

  Lemma find_all_sound d (M : X -> Prop) ps :
    (forall p, In p ps -> exists l, query d p = Some l /\ forall x, In x l -> M x) ->
    exists found, find_all query d ps = Some found /\ (forall x, In x found -> M x) /\
      forall p l x, In p ps -> query d p = Some l -> In x l -> In x found.
  Proof.
    induction ps as [|p ps IH]; intros H; cbn [find_all].
    - exists []. split; [reflexivity|]. split; [intros x []|intros p l x []].
    - destruct (H p (or_introl eq_refl)) as (l & E & Hl). destruct IH as (m & F & Hm & Hc).
      { intros p' Hp. apply H. now right. }
      rewrite E, F. exists (l ++ m). split; [reflexivity|]. split.
      + intros x Hx. apply in_app_iff in Hx as [Hx|Hx]; [now apply Hl|now apply Hm].
      + intros p' l' x [<-|Hp] E' Hx; apply in_app_iff; [left|right; now apply (Hc p' l')].
        rewrite E in E'. inv E'. exact Hx.
  Qed.
End Generic.

(** ** The account of a resource when nothing was removed *)
Section Log.
  Context {X R : Type} {xcmp : X -> X -> comparison} (LX : ord_laws xcmp).
  Context {cmp : R -> R -> comparison} (L : ord_laws cmp) (comps : X -> list R).

  Lemma times_some r x : In r (comps x) -> times cmp comps r x <> 0.
  Proof.
    intros H E. unfold times in E. apply length_zero_iff_nil in E.
    assert (In r (filter (same cmp r) (comps x))) by (apply filter_In; split; [exact H|now apply (same_true L)]).
    rewrite E in H0. destruct H0.
  Qed.
  Lemma times_in r x : times cmp comps r x <> 0 -> In r (comps x).
  Proof.
    unfold times. intros H. destruct (filter (same cmp r) (comps x)) as [|y m] eqn:E; [now elim H|].
    assert (I : In y (filter (same cmp r) (comps x))) by (rewrite E; now left).
    apply filter_In in I as [I1 I2]. apply (same_true L) in I2. now subst.
  Qed.

  Lemma account_full r l : NoDup l ->
    let a := account xcmp cmp comps r (adds l) in
    (reported a = false -> a = ledger_new) /\ (reported a = true -> number a = 1) /\
    (forall x, In x l -> In r (comps x) -> reported a = true /\
       exists mk, find (fun m => same xcmp x (fst m)) (filed a) = Some (x, (1, mk))).
  Proof.
    induction l as [|x l IH] using rev_ind; intros N a.
    - cbn in a. subst a. cbn. split; [reflexivity|]. split; [discriminate|]. intros x [].
    - assert (Nl : NoDup l) by (rewrite <- (app_nil_r l); exact (NoDup_remove_1 _ _ _ N)).
      assert (Nx : ~ In x l) by (rewrite <- (app_nil_r l); exact (NoDup_remove_2 _ _ _ N)).
      specialize (IH Nl). cbv zeta in IH.
      assert (A : a = file cmp comps r x (account xcmp cmp comps r (adds l))).
      { unfold a, account, adds. now rewrite map_app, fold_left_app. }
      set (b := account xcmp cmp comps r (adds l)) in *. destruct IH as (I1 & I2 & I3).
      clearbody a. subst a. unfold file. destruct (Nat.eqb_spec (times cmp comps r x) 0) as [T|T].
      + split; [exact I1|]. split; [exact I2|]. intros y Hy Hr. apply in_app_iff in Hy as [Hy|[<-|[]]]; [now apply I3|].
        now apply times_some in Hr.
      + apply times_in in T. destruct (reported b) eqn:B.
        * rewrite (I2 eq_refl). cbn [reported number filed]. split; [discriminate|]. split; [reflexivity|].
          intros y Hy Hr. split; [reflexivity|]. cbn [find fst]. destruct (same xcmp y x) eqn:S.
          -- apply (same_true LX) in S. subst y. eauto.
          -- apply in_app_iff in Hy as [Hy|[<-|[]]]; [now apply I3|].
             now rewrite (proj2 (same_true LX x x) eq_refl) in S.
        * rewrite (I1 eq_refl). cbn [reported number filed ledger_new]. split; [discriminate|]. split; [reflexivity|].
          intros y Hy Hr. split; [reflexivity|]. apply in_app_iff in Hy as [Hy|[<-|[]]].
          -- destruct (I3 y Hy Hr) as [F _]. discriminate.
          -- cbn [find fst]. rewrite (proj2 (same_true LX x x) eq_refl). eauto.
  Qed.

  Lemma first_index r (l : list R) : In r l ->
    exists k, nth_error l k = Some r /\ existsb (same cmp r) (firstn k l) = false.
  Proof.
    induction l as [|y l IH]; intros H; [destruct H|]. destruct (same cmp r y) eqn:Q.
    - apply (same_true L) in Q. subst y. exists 0. split; reflexivity.
    - destruct H as [->|H]; [now rewrite (proj2 (same_true L r r) eq_refl) in Q|].
      destruct (IH H) as (k & E & F). exists (S k). split; [exact E|]. cbn. now rewrite Q.
  Qed.
  Lemma last_index r (l : list R) : In r l ->
    exists k, nth_error l k = Some r /\ existsb (same cmp r) (skipn (S k) l) = false.
  Proof.
    induction l as [|y l IH]; intros H; [destruct H|]. destruct (existsb (same cmp r) l) eqn:Q.
    - apply existsb_exists in Q as (z & Hz & E). apply (same_true L) in E. subst z.
      destruct (IH Hz) as (k & E & F). exists (S k). split; [exact E|exact F].
    - destruct H as [->|H]; [exists 0; split; [reflexivity|exact Q]|].
      assert (existsb (same cmp r) l = true) by (apply existsb_exists; exists r; split; [exact H|now apply (same_true L)]).
      congruence.
  Qed.

  (** Some position in which it occurs is found. *)
  Lemma some_found keep l x r : NoDup l -> In x l -> In r (comps x) ->
    exists k, nth_error (comps x) k = Some r /\
      finds cmp r (label xcmp cmp comps keep (adds l) x k r) = true.
  Proof.
    intros N Hx Hr. destruct (account_full r l N) as (_ & I2 & I3). destruct (I3 x Hx Hr) as (I & mk & F).
    assert (C : exists k, nth_error (comps x) k = Some r /\ chosen cmp keep r k (comps x) = true).
    { unfold chosen. destruct keep; [destruct (first_index r _ Hr) as (k & E & G)|destruct (last_index r _ Hr) as (k & E & G)];
        exists k; (split; [exact E|]); now rewrite G. }
    destruct C as (k & E & C). exists k. split; [exact E|]. unfold finds, label. rewrite F. cbn [fst snd].
    rewrite (I2 I), I, C, orb_true_r, (proj2 (same_true L r r) eq_refl). reflexivity.
  Qed.
End Log.

Section Datasets.
  Context {R : Type} {cmp : R -> R -> comparison} (L : ord_laws cmp) {keep : bool}.
  Notation qcmp := (quad_cmp cmp).
  Let LQ : ord_laws qcmp := quad_cmp_laws cmp L.
  Notation forget_in d spare r :=
    (forget (fun d => id_pattern_matching cmp d spare) (id_insert cmp keep) (id_remove cmp) d (quad_mentions r)).

  Lemma bare_label log q : bare (label_quad cmp keep log q) = q.
  Proof.
    destruct q as [s p o [g|]]; unfold label_quad, bare; cbn;
      unfold label; repeat (match goal with |- context [find ?f ?l] => destruct (find f l) as [[? [? ?]]|] end); reflexivity.
  Qed.
  Lemma mentions_match (r : R) p q : In p (quad_mentions r) -> cq_matches p q -> In r (quad_comps q).
  Proof.
    destruct q as [s p' o [g|]]; intros [<-|[<-|[<-|[<-|[]]]]]; cbn; intros H; intuition (subst; auto; try congruence; try discriminate).
  Qed.
  Lemma id_found_all ops0 ops xs d spare r : id_reached cmp keep ops0 ops xs d ->
    exists found, find_all (fun d => id_pattern_matching cmp d spare) d (quad_mentions r) = Some found /\
      (forall q, In q found -> In r (quad_comps q)) /\
      forall p l q, In p (quad_mentions r) -> id_pattern_matching cmp d spare p = Some l -> In q l -> In q found.
  Proof.
    intros H. apply (find_all_sound (query := fun d => id_pattern_matching cmp d spare)). intros p Hp.
    destruct (id_pattern_sound L keep ops0 ops xs d spare p H) as (l & E & _ & S).
    exists l. split; [exact E|]. intros q Hq. apply (mentions_match r p q Hp). now apply S.
  Qed.

  Lemma id_forgotten ops0 ops xs d l found spare r : id_reached cmp keep ops0 ops xs d -> id_iter d = Some l ->
    find_all (fun d => id_pattern_matching cmp d spare) d (quad_mentions r) = Some found ->
    exists n d' l', forget_in d spare r = Some (n, d') /\ id_iter d' = Some l' /\ n + length l' = length l /\
      forall q, In q l' <-> In q l /\ ~ In q found.
  Proof.
    intros H E F. apply (reached_state L) in H as [H _].
    eapply (forgotten LQ (rep := id_holds (cmp:=cmp))); [..|exact E|exact F].
    - intros e s (s0 & K & n & m & G & ->). apply (is_rep _ _ _ _ _ G).
    - intros e s (s0 & K & n & m & G & ->). exact (id_iter_rep _ _ (is_rep _ _ _ _ _ G)).
    - intros e s z G. destruct (id_holds_step L (keep:=keep) e s (Remove z) G) as (d' & E' & H'). cbn in E', H'.
      destruct (id_remove cmp e z) as [[u d1]|]; [|discriminate]. cbn in E'. inv E'. eauto.
    - do 4 eexists. split; [exact H|reflexivity].
  Qed.

  Lemma id_forget ops0 ops xs d l spare r : id_reached cmp keep ops0 ops xs d -> id_iter d = Some l ->
    exists n d' l', forget_in d spare r = Some (n, d') /\ id_iter d' = Some l' /\ n + length l' = length l /\
      (forall q, In q l' -> In q l) /\ (forall q, In q l -> ~ In r (quad_comps q) -> In q l').
  Proof.
    intros H E. destruct (id_found_all _ _ _ _ spare r H) as (found & F & S & _).
    destruct (id_forgotten _ _ _ _ _ _ spare r H E F) as (n & d' & l' & A & B & C & I).
    exists n, d', l'. split; [exact A|]. split; [exact B|]. split; [exact C|]. split.
    - intros q Hq. now apply I.
    - intros q Hq Hr. apply I. split; [exact Hq|]. intros Hf. exact (Hr (S q Hf)).
  Qed.

  Lemma collected_found l d spare r q : NoDup l -> id_from_iter cmp keep l = Some d -> In q l -> In r (quad_comps q) ->
    exists p a, In p (quad_mentions r) /\ id_pattern_matching cmp d spare p = Some a /\ In q a.
  Proof.
    intros N E Hq Hr. apply collected_reached in E.
    destruct (some_found LQ L quad_comps keep l q r N Hq Hr) as (k & Hk & Hf).
    exists (one_given k r). destruct (id_sights L keep _ _ _ _ E) as (S1 & _). eexists.
    split; [destruct k as [|[|[|k]]]; cbn; tauto|]. split; [apply S1|].
    pose proof (row_after L keep _ _ _ _ E) as Hrow; rewrite collected_log, collected_set, rev_involutive in Hrow by (exact L || exact N).
    rewrite (Hrow (adds_added _)), collected_log by (exact L || exact N).
    unfold sight. rewrite map_map. cbn [option_map].
    rewrite <- (map_map (label_quad cmp keep (adds l)) Some).
    apply in_map_iff. exists (label_quad cmp keep (adds l) q). split; [apply bare_label|].
    assert (I : In (label_quad cmp keep (adds l) q) (map (label_quad cmp keep (adds l)) l)) by now apply in_map.
    destruct q as [s p o g]; destruct k as [|[|[|[|k]]]]; cbn in Hk; unfold query, one_given.
    - rewrite present_full. apply filter_In. split; [exact I|]. inversion Hk; subst. cbn. now rewrite Hf.
    - rewrite (scan_full _ _ None Logic.I). apply filter_In. split; [exact I|]. inversion Hk; subst. cbn. now rewrite Hf.
    - rewrite (scan_full _ _ None Logic.I). apply filter_In. split; [exact I|]. inversion Hk; subst. cbn. now rewrite Hf.
    - rewrite (scan_full _ _ None Logic.I). apply filter_In. split; [exact I|].
      destruct g as [g|]; inversion Hk; subst. cbn. now rewrite Hf.
    - destruct g as [g|]; [|discriminate]; destruct k; discriminate.
  Qed.

  Lemma id_forget_copy ops0 ops xs d l spare r : id_reached cmp keep ops0 ops xs d -> id_iter d = Some l ->
    exists c n d' l', id_copy cmp keep d = Some c /\ forget_in c spare r = Some (n, d') /\ id_iter d' = Some l' /\
      n + length l' = length l /\ forall q, In q l' <-> In q l /\ ~ In r (quad_comps q).
  Proof.
    intros H E. destruct (id_copied L keep _ _ _ _ H) as (l0 & c & E0 & Ec & El & _). rewrite E in E0. inv E0.
    pose proof Ec as Ef. unfold id_copy in Ef. rewrite E in Ef. pose proof (collected_reached keep _ _ Ef) as Hc.
    assert (N : NoDup l0).
    { destruct (id_contents L keep _ _ _ _ H) as (l1 & E1 & _ & Hi & _). rewrite E in E1. inv E1.
      exact (ssorted_nodup LQ _ Hi). }
    destruct (id_found_all _ _ _ _ spare r Hc) as (found & F & S & T).
    destruct (id_forgotten _ _ _ _ _ _ spare r Hc El F) as (n & d' & l' & A & B & C & I).
    exists c, n, d', l'. split; [exact Ec|]. split; [exact A|]. split; [exact B|]. split; [exact C|].
    intros q. rewrite I. split; intros [Hq Hr]; (split; [exact Hq|]); intros X; apply Hr.
    - destruct (collected_found l0 c spare r q N Ef Hq X) as (p & a & Hp & Ea & Ha). exact (T p a q Hp Ea Ha).
    - exact (S q X).
  Qed.
End Datasets.

Section Graphs.
  Context {R : Type} {cmp : R -> R -> comparison} (L : ord_laws cmp) {keep : bool}.
  Notation tcmp := (triple_cmp cmp).
  Let LT : ord_laws tcmp := triple_cmp_laws cmp L.
  Notation forget_in g spare r :=
    (forget (fun g => ig_pattern_matching cmp g spare) (ig_insert cmp keep) (ig_remove cmp) g (triple_mentions r)).

  Lemma bare_label_triple log t : bare_triple (label_triple cmp keep log t) = t.
  Proof.
    destruct t as [s p o]; unfold label_triple, bare_triple; cbn;
      unfold label; repeat (match goal with |- context [find ?f ?l] => destruct (find f l) as [[? [? ?]]|] end); reflexivity.
  Qed.
  Lemma t_mentions_match (r : R) p t : In p (triple_mentions r) -> ct_matches p t -> In r (triple_comps t).
  Proof.
    destruct t as [s p' o]; intros [<-|[<-|[<-|[]]]]; cbn; intros H; intuition (subst; auto).
  Qed.
  Lemma ig_found_all ops0 ops g spare r : ig_reached cmp keep ops0 ops g ->
    exists found, find_all (fun g => ig_pattern_matching cmp g spare) g (triple_mentions r) = Some found /\
      (forall t, In t found -> In r (triple_comps t)) /\
      forall p l t, In p (triple_mentions r) -> ig_pattern_matching cmp g spare p = Some l -> In t l -> In t found.
  Proof.
    intros H. apply (find_all_sound (query := fun g => ig_pattern_matching cmp g spare)). intros p Hp.
    destruct (ig_pattern_sound L keep ops0 ops g spare p H) as (l & E & _ & S).
    exists l. split; [exact E|]. intros t Ht. apply (t_mentions_match r p t Hp). now apply S.
  Qed.

  Lemma ig_forgotten ops0 ops g l found spare r : ig_reached cmp keep ops0 ops g -> ig_iter g = Some l ->
    find_all (fun g => ig_pattern_matching cmp g spare) g (triple_mentions r) = Some found ->
    exists n g' l', forget_in g spare r = Some (n, g') /\ ig_iter g' = Some l' /\ n + length l' = length l /\
      forall t, In t l' <-> In t l /\ ~ In t found.
  Proof.
    intros H E F. apply (greached L keep) in H.
    eapply (forgotten LT (rep := ig_holds (cmp:=cmp))); [..|exact E|exact F].
    - intros e s (s0 & K & n & m & G & ->). exact (grep_nodup _ _ (gstate_rep _ _ _ _ _ G)).
    - intros e s (s0 & K & n & m & G & ->). exact (grep_iter _ _ (gstate_rep _ _ _ _ _ G)).
    - intros e s z G. destruct (ig_holds_step L (keep:=keep) e s (Remove z) G) as (d' & E' & H'). cbn in E', H'.
      destruct (ig_remove cmp e z) as [[u d1]|]; [|discriminate]. cbn in E'. inv E'. eauto.
    - do 4 eexists. split; [exact H|reflexivity].
  Qed.

  Lemma ig_forget ops0 ops g l spare r : ig_reached cmp keep ops0 ops g -> ig_iter g = Some l ->
    exists n g' l', forget_in g spare r = Some (n, g') /\ ig_iter g' = Some l' /\ n + length l' = length l /\
      (forall t, In t l' -> In t l) /\ (forall t, In t l -> ~ In r (triple_comps t) -> In t l').
  Proof.
    intros H E. destruct (ig_found_all _ _ _ spare r H) as (found & F & S & _).
    destruct (ig_forgotten _ _ _ _ _ spare r H E F) as (n & d' & l' & A & B & C & I).
    exists n, d', l'. split; [exact A|]. split; [exact B|]. split; [exact C|]. split.
    - intros t Ht. now apply I.
    - intros t Ht Hr. apply I. split; [exact Ht|]. intros Hf. exact (Hr (S t Hf)).
  Qed.

  Lemma g_collected_found l g spare r t : NoDup l -> ig_from_iter cmp keep l = Some g -> In t l -> In r (triple_comps t) ->
    exists p a, In p (triple_mentions r) /\ ig_pattern_matching cmp g spare p = Some a /\ In t a.
  Proof.
    intros N E Ht Hr. apply g_collected_reached in E.
    destruct (some_found LT L triple_comps keep l t r N Ht Hr) as (k & Hk & Hf).
    exists (t_one_given k r). eexists.
    split; [destruct k as [|[|k]]; cbn; tauto|]. split; [apply (ig_sight L keep _ _ _ E)|].
    pose proof (row_ops tcmp ([] ++ [Extend l]) []) as Hrow.
    rewrite g_collected_log in Hrow by (exact L || exact N). specialize (Hrow (adds_added _)).
    unfold place_ops; change (@nil (option (triple R)), @nil nat) with (row (@nil (triple R))).
    rewrite Hrow; fold (spec_set tcmp ([] ++ [Extend l])).
    rewrite g_collected_log, g_collected_set by (exact L || exact N); unfold row; cbn [fst]; rewrite rev_involutive.
    unfold triple_sight; rewrite map_map; cbn [option_map].
    rewrite <- (map_map (label_triple cmp keep (adds l)) Some).
    apply in_map_iff. exists (label_triple cmp keep (adds l) t). split; [apply bare_label_triple|].
    assert (I : In (label_triple cmp keep (adds l) t) (map (label_triple cmp keep (adds l)) l)) by now apply in_map.
    destruct t as [s p o]; destruct k as [|[|[|k]]]; cbn in Hk; unfold triple_query, t_one_given.
    - rewrite present_full. apply filter_In. split; [exact I|]. inversion Hk; subst. cbn. now rewrite Hf.
    - rewrite (scan_full _ _ None Logic.I). apply filter_In. split; [exact I|]. inversion Hk; subst. cbn. now rewrite Hf.
    - rewrite (scan_full _ _ None Logic.I). apply filter_In. split; [exact I|]. inversion Hk; subst. cbn. now rewrite Hf.
    - destruct k; discriminate.
  Qed.

  Lemma ig_forget_copy ops0 ops g l spare r : ig_reached cmp keep ops0 ops g -> ig_iter g = Some l ->
    exists c n g' l', ig_copy cmp keep g = Some c /\ forget_in c spare r = Some (n, g') /\ ig_iter g' = Some l' /\
      n + length l' = length l /\ forall t, In t l' <-> In t l /\ ~ In r (triple_comps t).
  Proof.
    intros H E. destruct (ig_copied L keep _ _ _ H) as (l0 & c & E0 & Ec & El & _). rewrite E in E0. inv E0.
    pose proof Ec as Ef. unfold ig_copy in Ef. rewrite E in Ef. pose proof (g_collected_reached keep _ _ Ef) as Hc.
    assert (N : NoDup l0).
    { destruct (ig_contents L keep _ _ _ H) as (l1 & E1 & _ & Hi & _). rewrite E in E1. inv E1.
      exact (ssorted_nodup LT _ Hi). }
    destruct (ig_found_all _ _ _ spare r Hc) as (found & F & S & T).
    destruct (ig_forgotten _ _ _ _ _ spare r Hc El F) as (n & d' & l' & A & B & C & I).
    exists c, n, d', l'. split; [exact Ec|]. split; [exact A|]. split; [exact B|]. split; [exact C|].
    intros t. rewrite I. split; intros [Ht Hr]; (split; [exact Ht|]); intros X; apply Hr.
    - destruct (g_collected_found l0 c spare r t N Ef Ht X) as (p & a & Hp & Ea & Ha). exact (T p a t Hp Ea Ha).
    - exact (S t X).
  Qed.
End Graphs.
