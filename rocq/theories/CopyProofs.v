(** Queries on an indexed container filled from a sequence, or copied. *)
From Coq Require Import List Bool Arith Lia.
Import ListNotations.
From Verif Require Import Base TripleModel TriplePatternModel QuadPatternModel SetSpec ContainerSpec PatternSpec
  IndexedSpec ScanSpec Machine BaseProofs BTreeDatasetModel BTreeGraphModel IResourceModel IndexedDatasetModel
  IndexedGraphModel IndexedRunProofs IndexedGraphProofs IndexedGraphRunProofs ScanProofs LedgerSpec SightSpec SightProofs
  EntailProofs CopyModel CopySpec.

Section Log.
  Context {X R : Type} {xcmp : X -> X -> comparison} (LX : ord_laws xcmp).
  Context {cmp : R -> R -> comparison} (L : ord_laws cmp) (comps : X -> list R).

  Definition adds (l : list X) : list (change X) := map (pair true) l.

  Lemma extend_adds l : forall s, NoDup l -> (forall x, In x l -> ~ In x s) -> extend_changes xcmp s l = adds l.
  Proof.
    induction l as [|x l IH]; intros s N H; cbn [extend_changes adds map]; [reflexivity|].
    inversion N as [|? ? Nx Nl]; subst.
    assert (M : mem xcmp x s = false) by (apply (mem_false LX), H; now left); rewrite M; f_equal; apply IH; [exact Nl|].
    intros y Hy; unfold add; rewrite M; intros [->|Hs]; [contradiction|]; exact (H y (or_intror Hy) Hs).
  Qed.
  Lemma fold_adds l : forall s, NoDup l -> (forall x, In x l -> ~ In x s) ->
    fold_left (fun s x => add xcmp x s) l s = rev l ++ s.
  Proof.
    induction l as [|x l IH]; intros s N H; cbn [fold_left rev]; [reflexivity|].
    inversion N as [|? ? Nx Nl]; subst.
    assert (M : mem xcmp x s = false) by (apply (mem_false LX), H; now left).
    assert (A : add xcmp x s = x :: s) by (unfold add; now rewrite M).
    rewrite A, IH, <- app_assoc; [reflexivity|exact Nl|].
    intros y Hy [->|Hs]; [contradiction|]; exact (H y (or_intror Hy) Hs).
  Qed.
  Lemma adds_added l : only_added (adds l).
  Proof. apply Forall_forall; intros c Hc; apply in_map_iff in Hc as (x & <- & _); reflexivity. Qed.

  Lemma adds_known l : NoDup l -> introduced comps l -> known_log xcmp comps any_resource [] (adds l).
  Proof.
    intros N H.
    assert (G : forall b a, l = b ++ a -> known_log xcmp comps any_resource (rev b) (adds a)).
    2:{ exact (G [] l eq_refl). }
    intros b a; revert b; induction a as [|x a IH]; intros b E; cbn [adds map known_log]; [exact I|]; split.
    - intros i j r Hr Hij Hi Hj; destruct (H b x a E i j r Hr Hij Hi Hj) as (y & Hy & Hc).
      exists y; split; [now apply in_rev in Hy|exact Hc].
    - assert (M : mem xcmp x (rev b) = false).
      { apply (mem_false LX); intros Hb; apply in_rev in Hb; rewrite E in N.
        apply NoDup_remove_2 in N; apply N, in_app_iff; now left. }
      assert (A : apply_change xcmp (rev b) (true, x) = rev (b ++ [x])).
      { rewrite rev_app_distr; unfold apply_change; cbn; unfold add; now rewrite M. }
      rewrite A; apply IH; rewrite <- app_assoc; exact E.
  Qed.

  (** The account of a resource that an element brings in twice. *)
  Lemma times_none r x : ~ In r (comps x) -> times cmp comps r x = 0.
  Proof.
    intros H; unfold times; replace (filter (same cmp r) (comps x)) with (@nil R); [reflexivity|].
    symmetry; revert H; induction (comps x) as [|y l IH]; intros H; cbn; [reflexivity|].
    destruct (same cmp r y) eqn:E; [exfalso; apply H; left; symmetry; now apply (same_true L)|].
    apply IH; intros Hl; apply H; now right.
  Qed.
  Lemma filter_two (f : R -> bool) l : forall i j r, i < j -> nth_error l i = Some r -> nth_error l j = Some r ->
    f r = true -> 2 <= length (filter f l).
  Proof.
    induction l as [|y l IH]; intros i j r Hij Hi Hj Hf; [destruct i; discriminate|].
    destruct j as [|j]; [lia|]; destruct i as [|i]; cbn in Hi, Hj |- *.
    - inversion Hi; subst; rewrite Hf; cbn; apply nth_error_In in Hj.
      assert (In r (filter f l)) by (apply filter_In; auto); destruct (filter f l); [contradiction|cbn; lia].
    - assert (2 <= length (filter f l)) by (apply (IH i j r); [lia| | |]; assumption).
      destruct (f y); cbn; lia.
  Qed.

  Lemma account_none r l : ~ occurs comps r l ->
    fold_left (entry xcmp cmp comps r) (adds l) ledger_new = ledger_new.
  Proof.
    induction l as [|x l IH]; intros H; cbn [adds map fold_left]; [reflexivity|].
    unfold entry at 2; cbn [fst snd]; unfold file; rewrite times_none; cbn.
    - apply IH; intros (y & Hy & Hc); apply H; exists y; split; [now right|exact Hc].
    - intros Hc; apply H; exists x; split; [now left|exact Hc].
  Qed.
  Lemma account_kept r x m l : forall a, reported a = true -> ~ In x l ->
    find (fun m => same xcmp x (fst m)) (filed a) = Some m ->
    find (fun m => same xcmp x (fst m)) (filed (fold_left (entry xcmp cmp comps r) (adds l) a)) = Some m.
  Proof.
    induction l as [|y l IH]; intros a Ha Hx Hf; cbn [adds map fold_left]; [exact Hf|].
    assert (Hl : ~ In x l) by (intros F; apply Hx; now right).
    unfold entry at 2; cbn [fst snd]; unfold file; destruct (times cmp comps r y =? 0); [now apply IH|].
    rewrite Ha; apply IH; [reflexivity|exact Hl|]; cbn [filed find fst].
    destruct (same xcmp x y) eqn:E; [|exact Hf].
    exfalso; apply Hx; left; symmetry; now apply (same_true LX).
  Qed.

  Lemma account_marked r b x a i j : NoDup (b ++ x :: a) -> ~ occurs comps r b -> i < j ->
    nth_error (comps x) i = Some r -> nth_error (comps x) j = Some r ->
    find (fun m => same xcmp x (fst m)) (filed (account xcmp cmp comps r (adds (b ++ x :: a)))) =
      Some (x, (1, true)).
  Proof.
    intros N Hb Hij Hi Hj; unfold account, adds; rewrite map_app, fold_left_app; fold (adds b).
    rewrite account_none by exact Hb; cbn [map fold_left]; fold (adds a).
    assert (T : 2 <= times cmp comps r x).
    { unfold times; apply (filter_two _ _ i j r); try assumption; now apply (same_true L). }
    unfold entry at 2; cbn [fst snd]; unfold file.
    destruct (Nat.eqb_spec (times cmp comps r x) 0) as [E|_]; [lia|]; cbn [reported ledger_new].
    apply account_kept; cbn [reported filed find fst]; [reflexivity| |].
    - intros F; apply NoDup_remove_2 in N; apply N, in_app_iff; now right.
    - rewrite (proj2 (same_true LX x x) eq_refl); do 3 f_equal; now apply Nat.ltb_lt.
  Qed.

  (** One of the two is not found. *)
  Lemma marked_hidden keep r b x a i j : NoDup (b ++ x :: a) -> ~ occurs comps r b -> i < j ->
    nth_error (comps x) i = Some r -> nth_error (comps x) j = Some r ->
    exists k, nth_error (comps x) k = Some r /\
      finds cmp r (label xcmp cmp comps keep (adds (b ++ x :: a)) x k r) = false.
  Proof.
    intros N Hb Hij Hi Hj; exists (if keep then j else i); split; [now destruct keep|].
    unfold label; rewrite (account_marked _ _ _ _ _ _ N Hb Hij Hi Hj); unfold finds; cbn [fst snd negb orb].
    assert (C : chosen cmp keep r (if keep then j else i) (comps x) = false).
    { unfold chosen; apply negb_false_iff, existsb_exists; exists r; split; [|now apply (same_true L)].
      destruct keep.
      - apply (nth_error_In _ i); rewrite <- Hi; clear - Hij.
        revert i j Hij; induction (comps x) as [|y l IH]; intros i j H; destruct i, j; try lia; cbn; try reflexivity.
        apply IH; lia.
      - apply (nth_error_In _ (j - S i)); rewrite <- Hj; clear - Hij.
        revert i j Hij; induction (comps x) as [|y l IH]; intros i j H; destruct j; try lia; cbn.
        + now destruct (j - i).
        + destruct i; cbn; [now rewrite Nat.sub_0_r|]; rewrite <- (IH i j) by lia; reflexivity. }
    rewrite C, !andb_false_r; reflexivity.
  Qed.
End Log.

Section Datasets.
  Context {R : Type} {cmp : R -> R -> comparison} (L : ord_laws cmp) (keep : bool).
  Notation qcmp := (quad_cmp cmp).
  Let LQ : ord_laws qcmp := quad_cmp_laws cmp L.

  Lemma collected_reached l d : id_from_iter cmp keep l = Some d ->
    id_reached cmp keep [] [IOp (Extend l)] [IOut OUnit] d.
  Proof.
    intros E; exists [], bd_new, id_new; split; [reflexivity|]; split; [reflexivity|].
    unfold id_from_iter in E; cbn [run id_step]; rewrite E; reflexivity.
  Qed.
  Lemma collected_log l : NoDup l -> full_log cmp [] [IOp (Extend l)] [IOut OUnit] = adds l.
  Proof.
    intros N; unfold full_log, late_log; cbn [set_log app log changes set_changes]; rewrite app_nil_r.
    apply (extend_adds LQ); [exact N|]; cbn; tauto.
  Qed.
  Lemma collected_set l : NoDup l -> final_set cmp [] [IOp (Extend l)] [IOut OUnit] = rev l.
  Proof.
    intros N; pose proof (collected_log l N) as E; unfold full_log in E; cbn [set_log app] in E.
    unfold final_set; rewrite E; change (spec_set qcmp []) with (@nil (quad R)).
    pose proof (extend_adds LQ l [] N ltac:(cbn; tauto)) as E'; rewrite <- E', apply_extend.
    rewrite (fold_adds LQ) by (cbn; tauto); apply app_nil_r.
  Qed.

  Definition one_given (k : nat) (r : R) : cqp R :=
    match k with
    | 0 => CQ_GivenS r (QG_AnyP (QGA_Any QGAA_Any))
    | 1 => CQ_AnyS (QA_GivenP r (QAG_Any QAGA_Any))
    | 2 => CQ_AnyS (QA_AnyP (QAA_Given r QAAG_Any))
    | _ => CQ_AnyS (QA_AnyP (QAA_Any (QAAA_Given (Some r))))
    end.
  Lemma one_given_matches q k r : nth_error (quad_comps q) k = Some r -> cq_matches (one_given k r) q.
  Proof.
    destruct q as [s p o [g|]]; do 4 (destruct k as [|k]; cbn; [intros E; inversion E; subst; cbn; tauto|]);
      destruct k; discriminate.
  Qed.

  Lemma id_collected l : NoDup l -> exists d, id_from_iter cmp keep l = Some d /\
    (introduced quad_comps l ->
     forall spare c f, (forall q, f q = true <-> cq_matches c q) ->
       id_pattern_matching cmp d spare c = Some (filter f l)) /\
    (forall before q after r i j, l = before ++ q :: after -> ~ occurs quad_comps r before -> i < j ->
       nth_error (quad_comps q) i = Some r -> nth_error (quad_comps q) j = Some r ->
     exists c, cq_matches c q /\
       forall spare, exists a, id_pattern_matching cmp d spare c = Some a /\ ~ In q a).
  Proof.
    intros N; destruct (id_from_iter_rep L keep l) as (d & E & _); exists d; split; [exact E|].
    apply collected_reached in E; split.
    - intros H spare c f Hf; rewrite (id_in_order L keep _ _ _ _ E) with (f := f);
        rewrite ?collected_log, ?collected_set, ?rev_involutive by exact N; try reflexivity.
      + now apply (adds_known LQ).
      + apply adds_added.
      + exact Hf.
    - intros b q a r i j -> Hb Hij Hi Hj.
      destruct (marked_hidden LQ L quad_comps keep r b q a i j N Hb Hij Hi Hj) as (k & Hk & Hf).
      exists (one_given k r); split; [now apply one_given_matches|]; intros spare.
      destruct (id_sights L keep _ _ _ _ E) as (S1 & _); rewrite S1; eexists; split; [reflexivity|].
      pose proof (row_after L keep _ _ _ _ E) as Hrow; rewrite collected_log, collected_set, rev_involutive in Hrow by exact N.
      rewrite (Hrow (adds_added _)), collected_log by exact N.
      unfold sight; rewrite map_map; cbn [option_map].
      rewrite <- (map_map (label_quad cmp keep (adds (b ++ q :: a))) Some).
      intros Hin; apply in_map_iff in Hin as (x & Ex & Hx).
      assert (G : forallb (passes x) (cq_checks (label_cmp cmp) (finds cmp) (one_given k r)) = true /\
                  match one_given k r with CQ_AnyS _ => true | CQ_GivenS a _ => finds cmp a (q_s x) end = true /\
                  In x (map (label_quad cmp keep (adds (b ++ q :: a))) (b ++ q :: a))).
      { unfold query in Hx; destruct (one_given k r) as [c|a0 c].
        - rewrite (scan_full _ _ None Logic.I) in Hx; apply filter_In in Hx; tauto.
        - rewrite present_full in Hx; apply filter_In in Hx as [H1 H2]; apply andb_true_iff in H2; tauto. }
      destruct G as (G1 & G2 & G3); apply in_map_iff in G3 as (q' & <- & _).
      assert (Q : q' = q) by (rewrite <- Ex; destruct q' as [s p o [g|]]; unfold label_quad, bare; cbn;
        unfold label; repeat (match goal with |- context [find ?f ?l] => destruct (find f l) as [[? [? ?]]|] end); reflexivity).
      subst q'; clear Ex Hx; destruct q as [s p o g]; destruct k as [|[|[|[|k]]]]; cbn in Hk.
      + inversion Hk; subst; cbn in G2; congruence.
      + inversion Hk; subst; cbn in G1; rewrite andb_true_r in G1; congruence.
      + inversion Hk; subst; cbn in G1; rewrite andb_true_r in G1; congruence.
      + destruct g as [g|]; inversion Hk; subst; cbn in G1; rewrite andb_true_r in G1; congruence.
      + destruct g as [g|]; [|discriminate]; destruct k; discriminate.
  Qed.

  Lemma id_copied ops0 ops xs d : id_reached cmp keep ops0 ops xs d ->
    exists l d', id_iter d = Some l /\ id_copy cmp keep d = Some d' /\ id_iter d' = Some l /\
      (introduced quad_comps l ->
       forall spare c f, (forall q, f q = true <-> cq_matches c q) ->
         id_pattern_matching cmp d' spare c = Some (filter f l)).
  Proof.
    intros H; destruct (id_contents L keep _ _ _ _ H) as (l & E & _ & Hi & _).
    pose proof (ssorted_nodup LQ _ Hi) as N.
    destruct (id_collected l N) as (d' & E' & A & _); exists l, d'; split; [exact E|].
    unfold id_copy; rewrite E; split; [exact E'|]; split; [|exact A].
    apply collected_reached in E'; destruct (id_contents L keep _ _ _ _ E') as (m & Em & _ & Hm & Mm & _).
    rewrite Em; f_equal; apply (ssorted_ext LQ); [exact Hm|exact Hi|].
    intros q; rewrite Mm, (collected_set l N), <- in_rev; reflexivity.
  Qed.
End Datasets.

Section Graphs.
  Context {R : Type} {cmp : R -> R -> comparison} (L : ord_laws cmp) (keep : bool).
  Notation tcmp := (triple_cmp cmp).
  Let LT : ord_laws tcmp := triple_cmp_laws cmp L.

  Lemma g_collected_reached l g : ig_from_iter cmp keep l = Some g -> ig_reached cmp keep [] [Extend l] g.
  Proof.
    intros E; exists [], bg_new, ig_new, [OUnit]; split; [reflexivity|]; split; [reflexivity|].
    unfold ig_from_iter in E; cbn [run ig_step]; rewrite E; reflexivity.
  Qed.
  Lemma g_collected_log (l : list (triple R)) : NoDup l -> set_log tcmp [] ([] ++ [Extend l]) = adds l.
  Proof.
    intros N; cbn [set_log app set_changes]; rewrite app_nil_r; apply (extend_adds LT); [exact N|]; cbn; tauto.
  Qed.
  Lemma g_collected_set (l : list (triple R)) : NoDup l -> spec_set tcmp ([] ++ [Extend l]) = rev l.
  Proof.
    intros N; cbn; rewrite (fold_adds LT) by (cbn; tauto); apply app_nil_r.
  Qed.

  Definition t_one_given (k : nat) (r : R) : ctp R :=
    match k with
    | 0 => CT_GivenS r (TG_AnyP TGA_Any)
    | 1 => CT_AnyS (TA_GivenP r TAG_Any)
    | _ => CT_AnyS (TA_AnyP (TAA_Given r))
    end.
  Lemma t_one_given_matches t k r : nth_error (triple_comps t) k = Some r -> ct_matches (t_one_given k r) t.
  Proof.
    destruct t as [s p o]; do 3 (destruct k as [|k]; cbn; [intros E; inversion E; subst; cbn; tauto|]);
      destruct k; discriminate.
  Qed.

  Lemma ig_collected l : NoDup l -> exists g, ig_from_iter cmp keep l = Some g /\
    (introduced triple_comps l ->
     forall spare c f, (forall t, f t = true <-> ct_matches c t) ->
       ig_pattern_matching cmp g spare c = Some (filter f l)) /\
    (forall before t after r i j, l = before ++ t :: after -> ~ occurs triple_comps r before -> i < j ->
       nth_error (triple_comps t) i = Some r -> nth_error (triple_comps t) j = Some r ->
     exists c, ct_matches c t /\
       forall spare, exists a, ig_pattern_matching cmp g spare c = Some a /\ ~ In t a).
  Proof.
    intros N; destruct (ig_from_iter_rep L keep l) as (g & E & _); exists g; split; [exact E|].
    apply g_collected_reached in E; split.
    - intros H spare c f Hf; rewrite (ig_in_order L keep _ _ _ E) with (f := f);
        rewrite ?g_collected_log, ?g_collected_set, ?rev_involutive by exact N; try reflexivity.
      + now apply (adds_known LT).
      + apply adds_added.
      + exact Hf.
    - intros b t a r i j -> Hb Hij Hi Hj.
      destruct (marked_hidden LT L triple_comps keep r b t a i j N Hb Hij Hi Hj) as (k & Hk & Hf).
      exists (t_one_given k r); split; [now apply t_one_given_matches|]; intros spare.
      rewrite (ig_sight L keep _ _ _ E); eexists; split; [reflexivity|].
      pose proof (row_ops tcmp ([] ++ [Extend (b ++ t :: a)]) [] ltac:(rewrite g_collected_log by exact N; apply adds_added)) as Hrow.
      unfold place_ops; change (@nil (option (triple R)), @nil nat) with (row (@nil (triple R))).
      rewrite Hrow; fold (spec_set tcmp ([] ++ [Extend (b ++ t :: a)])).
      rewrite g_collected_log, g_collected_set by exact N; unfold row; cbn [fst]; rewrite rev_involutive.
      unfold triple_sight; rewrite map_map; cbn [option_map].
      rewrite <- (map_map (label_triple cmp keep (adds (b ++ t :: a))) Some).
      intros Hin; apply in_map_iff in Hin as (x & Ex & Hx).
      assert (G : forallb (passes x) (ct_checks (label_cmp cmp) (finds cmp) (t_one_given k r)) = true /\
                  match t_one_given k r with CT_AnyS _ => true | CT_GivenS a _ => finds cmp a (t_s x) end = true /\
                  In x (map (label_triple cmp keep (adds (b ++ t :: a))) (b ++ t :: a))).
      { unfold triple_query in Hx; destruct (t_one_given k r) as [c|a0 c].
        - rewrite (scan_full _ _ None Logic.I) in Hx; apply filter_In in Hx; tauto.
        - rewrite present_full in Hx; apply filter_In in Hx as [H1 H2]; apply andb_true_iff in H2; tauto. }
      destruct G as (G1 & G2 & G3); apply in_map_iff in G3 as (t' & <- & _).
      assert (Q : t' = t) by (rewrite <- Ex; destruct t' as [s p o]; unfold label_triple, bare_triple; cbn;
        unfold label; repeat (match goal with |- context [find ?f ?l] => destruct (find f l) as [[? [? ?]]|] end); reflexivity).
      subst t'; clear Ex Hx; destruct t as [s p o]; destruct k as [|[|[|k]]]; cbn in Hk.
      + inversion Hk; subst; cbn in G2; congruence.
      + inversion Hk; subst; cbn in G1; rewrite andb_true_r in G1; congruence.
      + inversion Hk; subst; cbn in G1; rewrite andb_true_r in G1; congruence.
      + destruct k; discriminate.
  Qed.

  Lemma ig_copied ops0 ops g : ig_reached cmp keep ops0 ops g ->
    exists l g', ig_iter g = Some l /\ ig_copy cmp keep g = Some g' /\ ig_iter g' = Some l /\
      (introduced triple_comps l ->
       forall spare c f, (forall t, f t = true <-> ct_matches c t) ->
         ig_pattern_matching cmp g' spare c = Some (filter f l)).
  Proof.
    intros H; destruct (ig_contents L keep _ _ _ H) as (l & E & _ & Hi & _).
    pose proof (ssorted_nodup LT _ Hi) as N.
    destruct (ig_collected l N) as (g' & E' & A & _); exists l, g'; split; [exact E|].
    unfold ig_copy; rewrite E; split; [exact E'|]; split; [|exact A].
    apply g_collected_reached in E'; destruct (ig_contents L keep _ _ _ E') as (m & Em & _ & Hm & Mm & _).
    rewrite Em; f_equal; apply (ssorted_ext LT); [exact Hm|exact Hi|].
    intros t; rewrite Mm, (g_collected_set l N), <- in_rev; reflexivity.
  Qed.
End Graphs.
