(** Queries that look at much more than the elements that share a component. *)
From Coq Require Import List Bool Arith Lia.
Import ListNotations.
From Verif Require Import Base SlabModel TripleModel TriplePatternModel QuadPatternModel SetSpec
  ContainerSpec PatternSpec IndexedSpec Machine BaseProofs BResourceModel BTreeDatasetModel BTreeGraphModel
  BTreeGraphProofs IResourceModel IResourceProofs IndexedDatasetModel IndexedDatasetProofs
  IndexedHistoryProofs IndexedConvertProofs IndexedPatternProofs IndexedRunProofs IndexedGraphModel
  IndexedGraphProofs IndexedGraphRunProofs HeapSpec HeapProofs HeapBoundProofs
  QueryCostModel QueryCostSpec QueryCostProofs QueryCostTopProofs.
Open Scope panic_scope.

Notation tcmp := (triple_cmp Nat.compare).
Definition LN : ord_laws Nat.compare := nat_compare_laws.
Definition LT : ord_laws tcmp := triple_cmp_laws Nat.compare LN.

(** [n] triples that have the predicate 0 and nothing else in common. *)
Definition row (i : nat) : triple nat := Triple (2 * i + 1) 0 (2 * i + 2).
Definition rows (n : nat) : list (op (triple nat)) := map (fun i => Insert (row i)) (seq 0 n).

Lemma row_inj i j : row i = row j -> i = j.
Proof. unfold row; intros E; injection E; lia. Qed.

Lemma run_rows l : forall s x,
  In x (snd (spec_run tcmp s (map (fun i => Insert (row i)) l))) <-> In x s \/ exists i, In i l /\ x = row i.
Proof.
  induction l as [|i l IH]; intros s x; cbn [map spec_run spec_step].
  - cbn; split; [auto|]; intros [H|(i & [] & _)]; exact H.
  - specialize (IH (add tcmp (row i) s) x).
    destruct (spec_run tcmp (add tcmp (row i) s) (map (fun i => Insert (row i)) l)) as [xs s']; cbn [snd] in *.
    rewrite IH, (in_add LT); cbn [In]; split.
    + intros [[->|H]|(j & H & ->)]; eauto.
    + intros [H|(j & [->|H] & ->)]; eauto.
Qed.
Lemma run_rows_nodup l : forall s, NoDup s -> NoDup (snd (spec_run tcmp s (map (fun i => Insert (row i)) l))).
Proof.
  induction l as [|i l IH]; intros s H; cbn [map spec_run spec_step]; [exact H|].
  specialize (IH _ (nodup_add LT (row i) s H)).
  destruct (spec_run tcmp (add tcmp (row i) s) (map (fun i => Insert (row i)) l)); exact IH.
Qed.
Lemma in_rows n x : In x (spec_set tcmp (rows n)) <-> exists i, i < n /\ x = row i.
Proof.
  unfold spec_set, rows; rewrite run_rows; cbn [In]; split.
  - intros [[]|(i & H & ->)]; apply in_seq in H; exists i; split; [lia|reflexivity].
  - intros (i & H & ->); right; exists i; rewrite in_seq; split; [lia|reflexivity].
Qed.
Lemma rows_nodup n : NoDup (spec_set tcmp (rows n)).
Proof. apply run_rows_nodup; constructor. Qed.

Lemma row_known W s i : repeats_known triple_comps W s (row i).
Proof.
  intros a b r _ Hab Ha Hb.
  destruct a as [|[|[|a]]], b as [|[|[|b]]]; cbn in Ha, Hb; try lia; try discriminate;
    try (destruct a; discriminate); try (destruct b; discriminate); injection Ha as <-; injection Hb; lia.
Qed.
Lemma rows_log l : forall s W,
  known_log tcmp triple_comps W s (set_log tcmp s (map (fun i => Insert (row i)) l)) /\
  vacancies 0 (set_log tcmp s (map (fun i => Insert (row i)) l)) = 0.
Proof.
  induction l as [|i l IH]; intros s W; cbn [map set_log set_changes spec_step snd]; [split; [exact I|reflexivity]|].
  destruct (IH (add tcmp (row i) s) W) as [A B].
  destruct (mem tcmp (row i) s) eqn:Em; cbn [app known_log vacancies pred].
  - assert (Ea : add tcmp (row i) s = s) by (unfold add; now rewrite Em).
    rewrite Ea in *; split; assumption.
  - split; [split; [apply row_known|exact A]|exact B].
Qed.

(** A component of one element only. *)
Lemma number_one {X} (has : X -> bool) s :
  NoDup s -> (forall x y, In x s -> In y s -> has x = true -> has y = true -> x = y) -> number has s <= 1.
Proof.
  intros Hn H; unfold number.
  assert (Hf : NoDup (filter has s)) by now apply NoDup_filter.
  destruct (filter has s) as [|x [|y l]] eqn:E; cbn; try lia.
  assert (Hx : In x (filter has s)) by (rewrite E; now left).
  assert (Hy : In y (filter has s)) by (rewrite E; right; now left).
  apply filter_In in Hx as [Hx Px]; apply filter_In in Hy as [Hy Py].
  rewrite (H x y Hx Hy Px Py) in Hf; inversion Hf as [|? ? N _]; destruct N; now left.
Qed.

Lemma nat_same x y : same Nat.compare x y = true <-> x = y.
Proof. apply (same_true LN). Qed.

(** The graph after the history, as a dataset. *)
Lemma rows_reached keep n : exists g dg,
  ig_reached Nat.compare keep [] (rows n) g /\
  id_rep (cmp:=Nat.compare) (iemb g dg) (map iq (spec_set tcmp (rows n))) /\
  id_exact any_resource (iemb g dg) /\ free (ig_triples g) = [].
Proof.
  destruct (ig_total LN keep [] (rows n)) as (b & g0 & g & Eb & E0 & E).
  assert (H : ig_reached Nat.compare keep [] (rows n) g) by (do 4 eexists; eauto).
  destruct (reached_graph LN keep _ _ _ H) as [_ (dg & Hr)].
  destruct (rows_log (seq 0 n) [] any_resource) as [A B].
  exists g, dg; split; [exact H|]; split; [exact Hr|]; split.
  - exact (reached_gexact LN keep any_resource [] (rows n) g dg H A).
  - exact (reached_gfull LN keep [] (rows n) g H B).
Qed.

(** ** A subject and a predicate *)
Lemma max_in (l : list nat) : l <> [] -> exists i, In i l /\ forall j, In j l -> j <= i.
Proof.
  induction l as [|x l IH]; [congruence|]; intros _.
  destruct l as [|y l]; [exists x; split; [now left|]; intros j [->|[]]; lia|].
  destruct IH as (i & Hi & H); [discriminate|].
  destruct (Nat.le_gt_cases i x).
  - exists x; split; [now left|]; intros j [->|Hj]; [lia|]; specialize (H j Hj); lia.
  - exists i; split; [now right|]; intros j [->|Hj]; [lia|auto].
Qed.

Lemma collect_first {R} fuel cap (d : @idataset R) m l w m' i q n :
  pm_i m < cap -> round (id_quads d) m = Yield i q m' -> sizes m = n + sizes m' ->
  pm_collect_counted fuel cap d m = Some (l, w) -> n <= passed w.
Proof.
  intros Hi Hr Hn E; destruct fuel as [|fuel]; [discriminate|]; cbn [pm_collect_counted] in E.
  destruct (pm_next_round cap cap (id_quads d) m) as (k & Hk & Ek).
  rewrite Hr in Hk, Ek; cbn [left_over] in Hk.
  rewrite (proj2 (Nat.ltb_lt _ _) Hi) in Ek; rewrite Ek in E; cbn [bind] in E.
  destruct (i_quad_with_resources (id_resources d) q); [|discriminate]; cbn [bind] in E.
  destruct (pm_collect_counted fuel cap d m') as [[l' w']|]; [|discriminate].
  injection E as <- <-; cbn; lia.
Qed.

Lemma single_drop i l : NoDup l -> IResourceProofs.nsorted l -> In i l -> (forall j, In j l -> j <= i) -> drop_lt i l = [i].
Proof.
  intros Hn Hs Hi Hm; pose proof (nsorted_lesorted _ Hs) as Hl.
  assert (Hd : forall j, In j (drop_lt i l) <-> j = i).
  { intros j; rewrite (in_drop_lt i l j Hl); split; [|intros ->; auto].
    intros [Hj Hij]; specialize (Hm j Hj); lia. }
  assert (Hnd : NoDup (drop_lt i l)).
  { clear - Hn; induction l as [|x l IH]; cbn [drop_lt]; [constructor|].
    inversion Hn; subst; destruct (x <? i); auto. }
  destruct (drop_lt i l) as [|x [|y r]].
  - destruct (proj2 (Hd i) eq_refl).
  - f_equal; apply Hd; now left.
  - assert (x = i) by (apply Hd; now left); assert (y = i) by (apply Hd; right; now left); subst.
    inversion Hnd as [|? ? N _]; destruct N; now left.
Qed.

Theorem query_passes a b keep :
  exists ops g c n, ig_reached Nat.compare keep [] ops g /\
    s_share Nat.compare t_s (spec_set tcmp ops) (ct_subject c) = Some n /\
    forall spare, exists out w, ig_pattern_matching_counted Nat.compare g spare c = Some (out, w) /\
      a * n + b < passed w.
Proof.
  set (N := a + b + 2).
  destruct (rows_reached keep N) as (g & dg & H & Hr & X & _).
  pose proof Hr as [_ (vs & I)].
  set (d := iemb g dg) in *; set (s := spec_set tcmp (rows N)) in *.
  (* the last slot *)
  destruct (max_in (id_qi d)) as (i & Hi & Hmax).
  { intros E. assert (Hin : In (iq (row 0)) (map iq s)).
    { apply in_map, in_rows; exists 0; split; [unfold N; lia|reflexivity]. }
    apply (in_sorted_elements (cmp:=quad_cmp Nat.compare)) in Hin.
    destruct (id_elem_index _ _ _ _ I Hin) as (j & x & Hx & _).
    assert (Hj : In j (id_qi d)) by (apply (ii_live _ _ _ I); congruence); rewrite E in Hj; destruct Hj. }
  apply (ii_live _ _ _ I) in Hi; destruct (sget (id_quads d) i) as [x|] eqn:Hx; [clear Hi|congruence].
  destruct (id_live_value _ _ _ _ _ I Hx) as (q & Hq & Hin).
  apply (in_sorted_elements (cmp:=quad_cmp Nat.compare)), in_map_iff in Hin as (t & <- & Ht).
  apply in_rows in Ht as (k & Hk & ->).
  set (r := 2 * k + 1).
  exists (rows N), g, (CT_GivenS r (TG_GivenP 0 TGG_Any)), (number (fun t => same Nat.compare (t_s t) r) s).
  split; [exact H|]; split; [reflexivity|]; intros spare.
  assert (N1 : number (fun t => same Nat.compare (t_s t) r) s <= 1).
  { apply number_one; [apply rows_nodup|]; intros u v Hu Hv; rewrite !nat_same.
    apply in_rows in Hu as (iu & _ & ->); apply in_rows in Hv as (iv & _ & ->); cbn; intros; f_equal; lia. }
  set (c := CT_GivenS r (TG_GivenP 0 TGG_Any)).
  destruct (rep_bounds LN _ _ spare (anyg c) Hr) as (out & w & E & _).
  (* the constraints *)
  assert (Gs : exists ls, given_constraint (Q:=quad nat) Nat.compare (id_resources d) (id_ri d) PosS r = Some (CFixed ls) /\
             ls = [i]).
  { unfold given_constraint; destruct (get_resource_spec LN _ _ _ r I) as (f & -> & Hf); cbn [bind].
    destruct f as [y|].
    2: { exfalso; apply (not_in_vs any_resource _ _ _ _ _ _ PosS r I X Logic.I Hf Hx Hq); reflexivity. }
    destruct Hf as (ky & Hky & Hv); eexists; split; [reflexivity|].
    destruct (iri_use _ _ _ _ (ii_res _ _ _ I) _ _ Hky) as [Hu _]; destruct (Hu PosS) as [Hs Hu'].
    assert (Hii : In i (ir_at PosS y)).
    { apply (resource_uses LN _ _ _ _ _ PosS _ _ _ _ I Hky Hv Hx Hq) with any_resource; [exact X|exact Logic.I|reflexivity]. }
    assert (Hall : forall j, In j (ir_at PosS y) -> j = i).
    { intros j Hj; pose proof Hj as Hj'; apply Hu' in Hj' as (z & Hz & _).
      destruct (id_live_value _ _ _ _ _ I Hz) as (q' & Hq' & Hin').
      pose proof (proj1 (resource_uses LN _ _ _ _ _ PosS _ _ _ _ I Hky Hv Hz Hq') Hj) as Hc; cbn in Hc.
      apply (in_sorted_elements (cmp:=quad_cmp Nat.compare)), in_map_iff in Hin' as (t' & <- & Ht').
      apply in_rows in Ht' as (k' & _ & ->); cbn in Hc; injection Hc as Hc.
      assert (k' = k) by (unfold r in Hc; lia); subst k'.
      eapply (id_index_inj LN _ _ _ j i _ I); unfold i_quad_at; rewrite ?Hx, ?Hz; eassumption. }
    pose proof (nsorted_nodup _ Hs) as Hnd; destruct (ir_at PosS y) as [|u [|v rest]]; [destruct Hii| |].
    - f_equal; apply Hall; now left.
    - assert (u = i) by (apply Hall; now left); assert (v = i) by (apply Hall; right; now left); subst.
      inversion Hnd as [|? ? Nn _]; destruct Nn; now left. }
  destruct Gs as (ls & Es & ->).
  assert (Gp : exists lp, given_constraint (Q:=quad nat) Nat.compare (id_resources d) (id_ri d) PosP 0 = Some (CFixed lp) /\
             drop_lt i lp = [i] /\ N <= length lp).
  { unfold given_constraint; destruct (get_resource_spec LN _ _ _ 0 I) as (f & -> & Hf); cbn [bind].
    destruct f as [y|].
    2: { exfalso; apply (not_in_vs any_resource _ _ _ _ _ _ PosP 0 I X Logic.I Hf Hx Hq); reflexivity. }
    destruct Hf as (ky & Hky & Hv); eexists; split; [reflexivity|].
    destruct (iri_use _ _ _ _ (ii_res _ _ _ I) _ _ Hky) as [Hu _]; destruct (Hu PosP) as [Hs Hu'].
    assert (Hall : forall j, sget (id_quads d) j <> None -> In j (ir_at PosP y)).
    { intros j Hj; destruct (sget (id_quads d) j) as [z|] eqn:Hz; [|congruence].
      destruct (id_live_value _ _ _ _ _ I Hz) as (q' & Hq' & Hin').
      apply (resource_uses LN _ _ _ _ _ PosP _ _ _ _ I Hky Hv Hz Hq') with any_resource; [exact X|exact Logic.I|].
      apply (in_sorted_elements (cmp:=quad_cmp Nat.compare)), in_map_iff in Hin' as (t' & <- & Ht').
      apply in_rows in Ht' as (k' & _ & ->); reflexivity. }
    assert (Hlive : forall j, In j (ir_at PosP y) -> In j (id_qi d)).
    { intros j Hj; apply Hu' in Hj as (z & Hz & _); apply (ii_live _ _ _ I); congruence. }
    split.
    - apply single_drop; [now apply nsorted_nodup|exact Hs|apply Hall; congruence|auto].
    - rewrite <- (seq_length N 0), <- (map_length (fun i => iq (row i))).
      destruct (mapM_total (i_quad_at (id_resources d) (id_quads d)) (ir_at PosP y)) as (ks & Ek).
      { intros j Hj; apply Hu' in Hj as (z & Hz & _); destruct (id_live_value _ _ _ _ _ I Hz) as (q' & Hq' & _).
        unfold i_quad_at; rewrite Hz; cbn [bind]; rewrite Hq'; discriminate. }
      rewrite <- (mapM_length _ _ _ Ek); apply NoDup_incl_length.
      + apply FinFun.Injective_map_NoDup; [|apply seq_NoDup].
        intros u v Euv; injection Euv; lia.
      + intros z Hz; apply in_map_iff in Hz as (u & <- & Hu1); apply in_seq in Hu1.
        apply (mapM_in _ _ _ _ Ek).
        assert (Hin : In (iq (row u)) (map iq s)).
        { apply in_map, in_rows; exists u; split; [lia|reflexivity]. }
        apply (in_sorted_elements (cmp:=quad_cmp Nat.compare)) in Hin.
        destruct (id_elem_index _ _ _ _ I Hin) as (j & z & Hz & Hwr).
        exists j; split; [apply Hall; congruence|]; unfold i_quad_at; now rewrite Hz. }
  destruct Gp as (lp & Ep & Dp & Hlp).
  pose proof (ig_counted_iemb Nat.compare g dg spare c) as Ed; fold d in Ed; rewrite E in Ed.
  destruct (ig_pattern_matching_counted Nat.compare g spare c) as [[out' w']|] eqn:Ec; [|discriminate].
  injection Ed as -> ->; exists out', w'; split; [reflexivity|]; rename E into Ed; cbn [fst snd] in Ed.
  unfold id_pattern_matching_counted in Ed.
  assert (Em : pm_new Nat.compare d (anyg c) = Some (PM (CFixed [i]) (CFixed lp) CAny CAny 0)).
  { unfold pm_new; destruct (anyg_parts c) as (-> & -> & -> & ->).
    cbn [ct_subject ct_predicate ct_object c p_constraint o_constraint g_constraint].
    change (s_constraint Nat.compare (id_resources d) (id_ri d) (PS_Given r))
      with (given_constraint (Q:=quad nat) Nat.compare (id_resources d) (id_ri d) PosS r).
    rewrite Es; cbn [bind tgs_predicate tgs_object p_constraint o_constraint]; rewrite Ep; reflexivity. }
  rewrite Em in Ed; cbn [bind] in Ed.
  eapply (collect_first _ _ _ _ _ _ (PM (CFixed [i]) (CFixed [i]) CAny CAny (S i)) i x (length lp - 1)) in Ed.
  - unfold N in Hlp.
    assert (a * number (fun t => same Nat.compare (t_s t) r) s <= a * 1) by (apply Nat.mul_le_mono_l; exact N1).
    lia.
  - cbn [pm_i]; apply sget_lt in Hx; unfold capacity; lia.
  - unfold round; cbn [pm_s pm_i s_next drop_lt]; cbn [Nat.ltb Nat.leb].
    rewrite Hx; cbn [pm_p c_next]; rewrite Dp, Nat.eqb_refl; reflexivity.
  - unfold sizes; cbn [pm_s pm_p pm_o pm_g fixed_size length]; unfold N in Hlp; lia.
Qed.

(** ** A repeated variable and an object *)
Lemma next_walks qs cap test co cg fuel : forall k r w,
  (forall i, i < length (ents qs) -> exists x, sget qs i = Some x /\ test x = false) ->
  length (ents qs) <= cap ->
  pm_next_counted fuel cap qs (PM CAny (CSame test) co cg k) = Some (r, w) ->
  r = None /\ length (ents qs) - k <= looked w.
Proof.
  induction fuel as [|fuel IH]; intros k r w H Hc E; [discriminate|].
  destruct (pm_next_round fuel cap qs (PM CAny (CSame test) co cg k)) as (n & _ & Er).
  rewrite Er in E; clear Er; cbn [pm_i] in E.
  destruct (k <? cap) eqn:Ek.
  2: { apply Nat.ltb_ge in Ek; injection E as <- <-; split; [reflexivity|cbn; lia]. }
  unfold round in E; cbn [pm_s pm_i s_next] in E.
  destruct (Nat.lt_ge_cases k (length (ents qs))) as [Hk|Hk].
  - destruct (H k Hk) as (x & Hx & Ht); rewrite Hx in E; cbn [pm_p c_next] in E; rewrite Ht in E.
    cbn [pm_o pm_g] in E.
    destruct (pm_next_counted fuel cap qs (PM CAny (CSame test) co cg (S k))) as [[r' w']|] eqn:E'; [|discriminate].
    injection E as <- <-; apply IH in E' as [A B]; auto; split; [assumption|]; cbn; lia.
  - assert (Hx : sget qs k = None) by (destruct (sget qs k) eqn:Hx; [apply sget_lt in Hx; lia|reflexivity]).
    rewrite Hx in E; injection E as <- <-; split; [reflexivity|]; cbn; lia.
Qed.

Theorem query_looks a b keep :
  exists ops g c n, ig_reached Nat.compare keep [] ops g /\
    o_share Nat.compare t_o (spec_set tcmp ops) (ct_object c) = Some n /\
    forall spare, exists w, ig_pattern_matching_counted Nat.compare g spare c = Some ([], w) /\
      a * n + b < looked w.
Proof.
  set (N := a + b + 1).
  destruct (rows_reached keep N) as (g & dg & H & Hr & X & F).
  pose proof Hr as [_ (vs & I)].
  set (d := iemb g dg) in *; set (s := spec_set tcmp (rows N)) in *.
  set (c := CT_AnyS (TA_SameS (TAG_Given 2)) : ctp nat).
  exists (rows N), g, c, (number (fun t => same Nat.compare (t_o t) 2) s).
  split; [exact H|]; split; [reflexivity|]; intros spare.
  assert (N1 : number (fun t => same Nat.compare (t_o t) 2) s <= 1).
  { apply number_one; [apply rows_nodup|]; intros u v Hu Hv; rewrite !nat_same.
    apply in_rows in Hu as (iu & _ & ->); apply in_rows in Hv as (iv & _ & ->); cbn; intros; f_equal; lia. }
  assert (Hfull : forall i, i < length (ents (id_quads d)) ->
     exists x, sget (id_quads d) i = Some x /\ (q_s x =? q_p x) = false).
  { intros i Hi; destruct (sget (id_quads d) i) as [x|] eqn:Hx.
    2: { exfalso; apply (hole_free _ _ (ii_wf _ _ _ I) Hi Hx); exact F. }
    exists x; split; [reflexivity|]; apply Nat.eqb_neq; intros Exy.
    destruct (id_live_value _ _ _ _ _ I Hx) as (q & Hq & Hin).
    apply (in_sorted_elements (cmp:=quad_cmp Nat.compare)), in_map_iff in Hin as (t & <- & Ht).
    apply in_rows in Ht as (k & _ & ->).
    apply iqwr_some in Hq as (A & B & _); rewrite Exy in A; rewrite A in B; cbn in B; injection B; lia. }
  assert (Hlen : N <= length (ents (id_quads d))).
  { destruct (ig_heap LN keep _ _ _ H) as (E & _ & El & _).
    assert (Hs : N <= length s).
    { rewrite <- (seq_length N 0), <- (map_length row); apply NoDup_incl_length.
      - apply FinFun.Injective_map_NoDup; [exact row_inj|apply seq_NoDup].
      - intros x Hx; apply in_map_iff in Hx as (i & <- & Hi); apply in_seq in Hi.
        apply in_rows; exists i; split; [lia|reflexivity]. }
    pose proof (peak_end (cmp:=tcmp) (@length (triple nat)) (set_log tcmp [] ([] ++ rows N)) []) as Hp.
    rewrite (apply_set_log LT) in Hp; change (length s <= peak tcmp (length (A:=triple nat)) [] (set_log tcmp [] ([] ++ rows N))) in Hp.
    rewrite <- E in Hp; unfold slots in Hp; cbn [d iemb id_quads smap ents]; rewrite map_length; lia. }
  destruct (rep_bounds LN _ _ spare (anyg c) Hr) as (out & w & E & _).
  pose proof (ig_counted_iemb Nat.compare g dg spare c) as Ed; fold d in Ed; rewrite E in Ed.
  destruct (ig_pattern_matching_counted Nat.compare g spare c) as [[out' w']|] eqn:Ec; [|discriminate].
  injection Ed as -> ->; cbn [fst snd] in E.
  unfold id_pattern_matching_counted in E.
  destruct (pm_new Nat.compare d (anyg c)) as [m|] eqn:Em; [|discriminate]; cbn [bind] in E.
  assert (Hm : exists co, m = PM CAny (CSame (fun q => q_s q =? q_p q)) co CAny 0).
  { unfold pm_new in Em.
    destruct (anyg_parts c) as (P1 & P2 & P3 & P4); rewrite P1, P2, P3, P4 in Em.
    cbn in Em; destruct (given_constraint Nat.compare (ig_resources g) (ig_ri g) PosO 2) as [co|]; [|discriminate].
    cbn in Em; injection Em as <-; eauto. }
  destruct Hm as (co & ->).
  cbn [pm_collect_counted] in E.
  destruct (pm_next_counted (S (capacity d spare)) (capacity d spare) (id_quads d) (PM CAny (CSame (fun q => q_s q =? q_p q)) co CAny 0))
    as [[r w]|] eqn:En; [|discriminate]; cbn [bind] in E.
  destruct (next_walks _ _ _ _ _ _ _ _ _ Hfull (Nat.le_add_r _ _) En) as [-> Hw].
  injection E as Eo ->; destruct out'; [|discriminate]; exists w'; split; [reflexivity|].
  assert (a * number (fun t => same Nat.compare (t_o t) 2) s <= a * 1) by (apply Nat.mul_le_mono_l; exact N1).
  unfold N in Hlen; lia.
Qed.
