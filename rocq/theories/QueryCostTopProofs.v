(** The work of a query on a reachable container. *)
From Coq Require Import List Bool Arith Lia.
Import ListNotations.
From Verif Require Import Base SlabModel TripleModel TriplePatternModel QuadPatternModel SetSpec
  ContainerSpec PatternSpec IndexedSpec Machine BaseProofs BResourceModel BTreeDatasetModel BTreeGraphModel
  BTreeGraphProofs IResourceModel IResourceProofs IndexedDatasetModel IndexedDatasetProofs
  IndexedHistoryProofs IndexedConvertProofs IndexedPatternProofs IndexedRunProofs IndexedGraphModel
  IndexedGraphProofs IndexedGraphRunProofs HeapSpec HeapProofs HeapBoundProofs
  QueryCostModel QueryCostSpec QueryCostProofs.
Open Scope panic_scope.

Section Bounds.
  Context {R : Type} {cmp : R -> R -> comparison} (L : ord_laws cmp).
  Notation qcmp := (quad_cmp cmp).
  Notation inv_ := (id_inv (cmp:=cmp)).
  Let LQ : ord_laws qcmp := quad_cmp_laws cmp L.

  (** Distinct slots hold distinct quads. *)
  Lemma slots_number d s (l : list nat) (has : quad R -> bool) :
    id_rep (cmp:=cmp) d s -> NoDup l ->
    (forall i, In i l -> exists x q, sget (id_quads d) i = Some x /\
       i_quad_with_resources (id_resources d) x = Some q /\ has q = true) ->
    length l <= number has s.
  Proof.
    intros [Hn (vs & I)] Hl H.
    destruct (mapM_total (i_quad_at (id_resources d) (id_quads d)) l) as (ks & E).
    { intros i Hi; destruct (H i Hi) as (x & q & Hx & Hq & _); unfold i_quad_at; rewrite Hx; cbn; congruence. }
    rewrite <- (mapM_length _ _ _ E); apply NoDup_incl_length.
    - eapply mapM_nodup_inj; [|exact Hl|exact E].
      intros i j q _ _ Hi Hj; exact (id_index_inj L _ _ _ i j q I Hi Hj).
    - intros q Hq; apply (mapM_in _ _ _ _ E) in Hq as (i & Hi & Hq).
      destruct (H i Hi) as (x & q' & Hx & Hq' & Hh); unfold i_quad_at in Hq; rewrite Hx in Hq; cbn in Hq.
      assert (q' = q) by congruence; subst q'.
      apply filter_In; split; [|assumption].
      destruct (id_live_value _ _ _ _ _ I Hx) as (q' & Hw & Hin).
      apply (in_sorted_elements (cmp:=qcmp)); congruence.
  Qed.

  Lemma same_true x y : same cmp x y = true <-> x = y.
  Proof. unfold same; pose proof (ord_eq _ L x y) as H; destruct (cmp x y); intuition congruence. Qed.

  Lemma given_share d s p r c :
    id_rep (cmp:=cmp) d s -> given_constraint cmp (id_resources d) (id_ri d) p r = Some c ->
    c_fixed c /\
    fixed_size (Q:=quad nat) c <=
      number (fun q => match comp p q with Some v => same cmp v r | None => false end) s.
  Proof.
    intros H; pose proof H as [_ (vs & I)]; unfold given_constraint.
    destruct (get_resource_spec L _ _ _ r I) as (f & -> & Hf); cbn [bind]; intros E; injection E as <-.
    destruct f as [y|]; cbn; [|split; [exact Logic.I|lia]]; split; [exact Logic.I|].
    destruct Hf as (k & Hk & Hv).
    destruct (iri_use _ _ _ _ (ii_res _ _ _ I) _ _ Hk) as [Hu _]; destruct (Hu p) as [Hs Hin].
    apply slots_number with (d := d); [assumption|now apply nsorted_nodup|].
    intros i Hi; pose proof Hi as Hi'; apply Hin in Hi' as (x & Hx & _).
    destruct (id_live_value _ _ _ _ _ I Hx) as (q & Hq & _).
    exists x, q; split; [assumption|]; split; [assumption|].
    rewrite (proj1 (resource_uses L _ _ _ _ _ p _ _ _ _ I Hk Hv Hx Hq) Hi); now apply same_true.
  Qed.

  Lemma default_share d s :
    id_rep (cmp:=cmp) d s -> length (id_dg d) <= number (fun q => same_graph cmp (q_g q) None) s.
  Proof.
    intros H; pose proof H as [_ (vs & I)]; destruct (ii_dg _ _ _ I) as [Hs Hin].
    apply slots_number with (d := d); [assumption|now apply nsorted_nodup|].
    intros i Hi; apply Hin in Hi as (x & Hx & Hg).
    destruct (id_live_value _ _ _ _ _ I Hx) as (q & Hq & _).
    exists x, q; split; [assumption|]; split; [assumption|].
    apply iqwr_some in Hq as (_ & _ & _ & Hq); rewrite Hg in Hq; destruct (q_g q); [contradiction|reflexivity].
  Qed.

  Definition of_share (x : option nat) : nat := match x with Some n => n | None => 0 end.

  (** The constraints made for a pattern. *)
  Lemma pm_new_shares d s c m :
    id_rep (cmp:=cmp) d s -> pm_new cmp d c = Some m ->
    pm_i m = 0 /\
    (fixed_size (pm_s m) <= of_share (s_share cmp q_s s (cq_subject c)) /\
     (s_share cmp q_s s (cq_subject c) <> None -> s_fixed m)) /\
    (fixed_size (pm_p m) <= of_share (p_share cmp q_p s (cq_predicate c)) /\
     (p_share cmp q_p s (cq_predicate c) <> None -> c_fixed (pm_p m)) /\
     (cq_predicate c = PP_Any -> pm_p m = CAny)) /\
    (fixed_size (pm_o m) <= of_share (o_share cmp q_o s (cq_object c)) /\
     (o_share cmp q_o s (cq_object c) <> None -> c_fixed (pm_o m)) /\
     (cq_object c = PO_Any -> pm_o m = CAny)) /\
    (fixed_size (pm_g m) <= of_share (g_share cmp q_g s (cq_graph c)) /\
     (g_share cmp q_g s (cq_graph c) <> None -> c_fixed (pm_g m))).
  Proof.
    intros H; unfold pm_new.
    destruct (s_constraint cmp (id_resources d) (id_ri d) (cq_subject c)) as [cs|] eqn:Es; [|discriminate].
    destruct (p_constraint cmp d (cq_predicate c)) as [cp|] eqn:Ep; [|discriminate].
    destruct (o_constraint cmp d (cq_object c)) as [co|] eqn:Eo; [|discriminate].
    destruct (g_constraint cmp d (cq_graph c)) as [cg|] eqn:Eg; [|discriminate].
    cbn [bind]; intros E; injection E as <-; unfold s_fixed; cbn [pm_s pm_p pm_o pm_g pm_i].
    split; [reflexivity|]; split; [|split; [|split]].
    - destruct (cq_subject c) as [|r]; cbn [s_share of_share].
      + injection Es as <-; cbn; split; [lia|congruence].
      + change (given_constraint cmp (id_resources d) (id_ri d) PosS r = Some cs) in Es.
        apply (given_share _ _ _ _ _ H) in Es as [A B]; split; [exact B|].
        intros _; destruct cs; try contradiction; exact Logic.I.
    - destruct (cq_predicate c) as [| |r]; cbn [p_share of_share p_constraint] in *.
      + injection Ep as <-; cbn; repeat split; try lia; congruence.
      + injection Ep as <-; cbn; repeat split; try lia; congruence.
      + apply (given_share _ _ _ _ _ H) in Ep as [A B]; split; [exact B|]; split; [auto|discriminate].
    - destruct (cq_object c) as [| | |r]; cbn [o_share of_share o_constraint] in *.
      1-3: injection Eo as <-; cbn; repeat split; try lia; congruence.
      apply (given_share _ _ _ _ _ H) in Eo as [A B]; split; [exact B|]; split; [auto|discriminate].
    - destruct (cq_graph c) as [| | | |[r|]]; cbn [g_share of_share g_constraint] in *.
      1-4: injection Eg as <-; cbn; repeat split; try lia; congruence.
      + apply (given_share _ _ _ _ _ H) in Eg as [A B]; split; [|auto].
        exact B.
      + injection Eg as <-; cbn; split; [now apply default_share|auto].
  Qed.

  (** What bounds the number of quads looked at. *)
  Lemma rep_bounds d s spare c :
    id_rep (cmp:=cmp) d s ->
    exists out w, id_pattern_matching_counted cmp d spare c = Some (out, w) /\
      passed w <= total (quad_shares cmp s c) /\
      looked w <= S (slots (id_quads d)) /\
      (forall n, s_share cmp q_s s (cq_subject c) = Some n -> looked w <= S n) /\
      (forall n, p_share cmp q_p s (cq_predicate c) = Some n -> looked w <= S (2 * n)) /\
      (forall n, cq_predicate c = PP_Any -> o_share cmp q_o s (cq_object c) = Some n ->
         looked w <= S (2 * n)) /\
      (forall n, cq_predicate c = PP_Any -> cq_object c = PO_Any ->
         g_share cmp q_g s (cq_graph c) = Some n -> looked w <= S (2 * n)).
  Proof.
    intros H; destruct (id_pattern_found L _ _ spare c H) as (l & E & _).
    rewrite <- id_counted_same in E.
    destruct (id_pattern_matching_counted cmp d spare c) as [[out w]|] eqn:Ec; [|discriminate].
    exists out, w; split; [reflexivity|]; clear E; unfold id_pattern_matching_counted in Ec.
    destruct (pm_new cmp d c) as [m|] eqn:Em; [|discriminate]; cbn [bind] in Ec.
    destruct (pm_new_shares _ _ _ _ H Em) as (Z & [As Bs] & (Ap & Bp & Cp) & (Ao & Bo & Co) & [Ag Bg]).
    split; [|split; [|split; [|split; [|split]]]].
    - apply collect_passed in Ec; unfold sizes in Ec; unfold total, quad_shares; cbn [map list_sum fold_right].
      unfold of_share in *; lia.
    - apply collect_slots in Ec; unfold slots; lia.
    - intros n Hn; rewrite Hn in *; cbn [of_share] in *.
      apply collect_subject in Ec; [lia|apply Bs; discriminate].
    - intros n Hn; rewrite Hn in *; cbn [of_share] in *.
      apply (collect_key pm_p (fun _ => True)) in Ec; [lia| |exact Logic.I|apply Bp; discriminate].
      intros qs m0 _; apply consults_p.
    - intros n Hp Hn; rewrite Hn in *; cbn [of_share] in *.
      apply (collect_key pm_o (fun m => pm_p m = CAny)) in Ec; [lia| |now apply Cp|apply Bo; discriminate].
      intros qs m0; apply consults_o.
    - intros n Hp Ho Hn; rewrite Hn in *; cbn [of_share] in *.
      apply (collect_key pm_g (fun m => pm_p m = CAny /\ pm_o m = CAny)) in Ec;
        [lia| |split; [now apply Cp|now apply Co]|apply Bg; discriminate].
      intros qs m0; apply consults_g.
  Qed.

  Theorem id_query_work keep ops0 ops xs (d : @idataset R) spare c :
    id_reached cmp keep ops0 ops xs d ->
    let s := final_set cmp ops0 ops xs in
    exists out w, id_pattern_matching_counted cmp d spare c = Some (out, w) /\
      passed w <= total (quad_shares cmp s c) /\
      looked w <= S (peak qcmp (@length (quad R)) [] (full_log cmp ops0 ops xs)) /\
      (forall n, s_share cmp q_s s (cq_subject c) = Some n -> looked w <= S n) /\
      (forall n, p_share cmp q_p s (cq_predicate c) = Some n -> looked w <= S (2 * n)) /\
      (forall n, cq_predicate c = PP_Any -> o_share cmp q_o s (cq_object c) = Some n ->
         looked w <= S (2 * n)) /\
      (forall n, cq_predicate c = PP_Any -> cq_object c = PO_Any ->
         g_share cmp q_g s (cq_graph c) = Some n -> looked w <= S (2 * n)).
  Proof.
    intros H s; rewrite <- (proj1 (id_heap L keep _ _ _ _ H)).
    exact (rep_bounds _ _ spare c (reached_rep L keep _ _ _ _ H)).
  Qed.
End Bounds.

(** ** Graphs *)
Definition mm_work (x : option (nat * triple nat * gm) * work) : option (nat * quad nat * pm) * work :=
  (option_map (fun '(i, t, m) => (i, iq t, mm m)) (fst x), snd x).

Lemma s_counted_cm c i : s_next_counted (cm c) i =
  let '(r, c', n) := s_next_counted c i in (r, cm c', n).
Proof. destruct c as [| | |l]; cbn; try reflexivity; destruct (drop_lt_counted i l); reflexivity. Qed.
Lemma c_counted_cm c i t : c_next_counted (cm c) i (iq t) =
  let '(r, c', n) := c_next_counted c i t in (r, cm c', n).
Proof.
  destruct c as [| | |l]; cbn; try reflexivity; [now rewrite dq_iq|].
  destruct (drop_lt_counted i l); reflexivity.
Qed.

Lemma gm_next_counted_mm fuel cap ts : forall m,
  pm_next_counted fuel cap (smap iq ts) (mm m) = option_map mm_work (gm_next_counted fuel cap ts m).
Proof.
  induction fuel as [|fuel IH]; intros m; [reflexivity|]; cbn [pm_next_counted gm_next_counted].
  change (pm_i (mm m)) with (gm_i m); destruct (gm_i m <? cap); [|reflexivity].
  change (pm_s (mm m)) with (cm (gm_s m)); rewrite s_counted_cm.
  destruct (s_next_counted (gm_s m) (gm_i m)) as [[[i|] cs] n]; [|reflexivity].
  rewrite sget_smap; destruct (sget ts i) as [t|]; [|reflexivity]; cbn [option_map].
  change (pm_p (mm m)) with (cm (gm_p m)); rewrite c_counted_cm.
  destruct (c_next_counted (gm_p m) i t) as [[[|[j|]] cp] np]; [| |reflexivity].
  2: { change (PM (cm cs) (cm cp) (pm_o (mm m)) (pm_g (mm m)) j) with (mm (GM cs cp (gm_o m) j)).
       rewrite IH; destruct (gm_next_counted fuel cap ts (GM cs cp (gm_o m) j)) as [[]|]; reflexivity. }
  change (pm_o (mm m)) with (cm (gm_o m)); rewrite c_counted_cm.
  destruct (c_next_counted (gm_o m) i t) as [[[|[j|]] co] no]; [| |reflexivity].
  2: { change (PM (cm cs) (cm cp) (cm co) (pm_g (mm m)) j) with (mm (GM cs cp co j)).
       rewrite IH; destruct (gm_next_counted fuel cap ts (GM cs cp co j)) as [[]|]; reflexivity. }
  cbn; now rewrite Nat.add_0_r.
Qed.

Definition iq_work {R} (x : list (triple R) * work) : list (quad R) * work := (map iq (fst x), snd x).

Lemma gm_collect_counted_mm {R} fuel cap (g : @igraph R) dg : forall m,
  pm_collect_counted fuel cap (iemb g dg) (mm m) = option_map iq_work (gm_collect_counted fuel cap g m).
Proof.
  induction fuel as [|fuel IH]; intros m; [reflexivity|]; cbn [pm_collect_counted gm_collect_counted].
  change (id_quads (iemb g dg)) with (smap iq (ig_triples g)); rewrite gm_next_counted_mm.
  destruct (gm_next_counted (S cap) cap (ig_triples g) m) as [[[[[i t] m']|] w]|]; cbn [option_map mm_work fst snd bind];
    [|reflexivity|reflexivity].
  change (id_resources (iemb g dg)) with (ig_resources g); rewrite iwr_iq.
  destruct (i_triple_with_resources (ig_resources g) t) as [x|]; cbn [option_map bind]; [|reflexivity].
  rewrite IH; destruct (gm_collect_counted fuel cap g m') as [[]|]; reflexivity.
Qed.

Lemma ig_counted_iemb {R} (cmp : R -> R -> comparison) g dg spare c :
  id_pattern_matching_counted cmp (iemb g dg) spare (anyg c) =
  option_map iq_work (ig_pattern_matching_counted cmp g spare c).
Proof.
  unfold id_pattern_matching_counted, ig_pattern_matching_counted; rewrite gm_new_mm.
  destruct (gm_new cmp g c) as [m|]; [|reflexivity]; cbn [option_map bind].
  assert (capacity (iemb g dg) spare = gcapacity g spare) as ->.
  { unfold capacity, gcapacity; cbn; now rewrite map_length. }
  apply gm_collect_counted_mm.
Qed.

Lemma map_iq_inj {R} (a b : list (triple R)) : map iq a = map iq b -> a = b.
Proof.
  revert b; induction a as [|x a IH]; intros [|y b] E; try discriminate; [reflexivity|].
  injection E as E1 E2 E3 E; f_equal; [destruct x, y; cbn in *; congruence|auto].
Qed.

Theorem ig_counted_same {R} (cmp : R -> R -> comparison) g spare c :
  option_map fst (ig_pattern_matching_counted cmp g spare c) = ig_pattern_matching cmp g spare c.
Proof.
  pose proof (id_counted_same cmp (iemb g []) spare (anyg c)) as H.
  rewrite ig_counted_iemb, iemb_pattern in H.
  destruct (ig_pattern_matching_counted cmp g spare c) as [[l w]|], (ig_pattern_matching cmp g spare c) as [l'|];
    cbn in H |- *; try discriminate; [|reflexivity].
  injection H as H; f_equal; now apply map_iq_inj.
Qed.

Lemma number_iq {R} (has : quad R -> bool) (s : list (triple R)) :
  forall has', (forall t, has (iq t) = has' t) -> number has (map iq s) = number has' s.
Proof.
  intros has' H; unfold number; induction s as [|t s IH]; [reflexivity|]; cbn [map filter].
  rewrite H; destruct (has' t); cbn [length]; now rewrite IH.
Qed.

Section Graph.
  Context {R : Type} {cmp : R -> R -> comparison} (L : ord_laws cmp).
  Notation tcmp := (triple_cmp cmp).

  Lemma shares_iq s (c : ctp R) :
    s_share cmp q_s (map iq s) (cq_subject (anyg c)) = s_share cmp t_s s (ct_subject c) /\
    p_share cmp q_p (map iq s) (cq_predicate (anyg c)) = p_share cmp t_p s (ct_predicate c) /\
    o_share cmp q_o (map iq s) (cq_object (anyg c)) = o_share cmp t_o s (ct_object c) /\
    g_share cmp q_g (map iq s) (cq_graph (anyg c)) = None.
  Proof.
    destruct (anyg_parts c) as (-> & -> & -> & ->).
    split; [|split; [|split]].
    - destruct (ct_subject c) as [|r]; [reflexivity|]; unfold s_share; f_equal; apply number_iq; reflexivity.
    - destruct (ct_predicate c) as [| |r]; [reflexivity|reflexivity|]; unfold p_share; f_equal; apply number_iq; reflexivity.
    - destruct (ct_object c) as [| | |r]; [reflexivity|reflexivity|reflexivity|]; unfold o_share; f_equal; apply number_iq; reflexivity.
    - reflexivity.
  Qed.

  Theorem ig_query_work keep ops0 ops (g : @igraph R) spare c :
    ig_reached cmp keep ops0 ops g ->
    let s := spec_set tcmp (ops0 ++ ops) in
    exists out w, ig_pattern_matching_counted cmp g spare c = Some (out, w) /\
      passed w <= total (triple_shares cmp s c) /\
      looked w <= S (peak tcmp (@length (triple R)) [] (set_log tcmp [] (ops0 ++ ops))) /\
      (forall n, s_share cmp t_s s (ct_subject c) = Some n -> looked w <= S n) /\
      (forall n, p_share cmp t_p s (ct_predicate c) = Some n -> looked w <= S (2 * n)) /\
      (forall n, ct_predicate c = PP_Any -> o_share cmp t_o s (ct_object c) = Some n ->
         looked w <= S (2 * n)).
  Proof.
    intros H s; rewrite <- (proj1 (ig_heap L keep _ _ _ H)).
    destruct (reached_graph L keep _ _ _ H) as [_ (dg & Hr)].
    destruct (rep_bounds L _ _ spare (anyg c) Hr) as (out & w & E & B1 & B2 & B3 & B4 & B5 & _).
    rewrite ig_counted_iemb in E.
    destruct (ig_pattern_matching_counted cmp g spare c) as [[l w']|]; [|discriminate].
    injection E as <- <-; exists l, w'; split; [reflexivity|].
    destruct (shares_iq s c) as (E1 & E2 & E3 & E4).
    fold s in B1, B3, B4, B5; unfold quad_shares, total in B1.
    rewrite E1, E2, E3, E4 in B1; rewrite E1 in B3; rewrite E2 in B4; rewrite E3 in B5.
    destruct (anyg_parts c) as (_ & P & _); rewrite P in B5.
    unfold total, triple_shares; cbn [map list_sum fold_right] in *.
    split; [lia|]; split; [|auto].
    unfold slots in *; cbn in B2; now rewrite map_length in B2.
  Qed.
End Graph.
