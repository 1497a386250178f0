(** Histories of [IndexedBTreeGraph]: contents, queries, resources, comparison. *)
From Coq Require Import List Bool Arith Lia Permutation Sorted.
Import ListNotations.
From Verif Require Import Base SlabModel TripleModel TriplePatternModel QuadPatternModel SetSpec
  ContainerSpec PatternSpec IndexedSpec Machine BaseProofs PatternProofs BResourceModel
  BResourceProofs BTreeDatasetModel BTreeDatasetProofs BTreeGraphModel BTreeGraphProofs
  IResourceModel IResourceProofs IndexedDatasetModel IndexedDatasetProofs IndexedHistoryProofs
  IndexedConvertProofs IndexedPatternProofs IndexedRunProofs IndexedGraphModel
  IndexedGraphProofs.
Open Scope panic_scope.

(** ** Patterns: the graph is left out *)
Section AnyGraph.
  Context {T : Type}.
  Definition taa_q (c : t_aa T) : q_aa T :=
    match c with
    | TAA_Any => QAA_Any QAAA_Any | TAA_SameS => QAA_SameS QAAG_Any
    | TAA_SameP => QAA_SameP QAAG_Any | TAA_Given o => QAA_Given o QAAG_Any
    end.
  Definition tag_q (c : t_ag T) : q_ag T :=
    match c with
    | TAG_Any => QAG_Any QAGA_Any | TAG_SameS => QAG_SameS QAGG_Any
    | TAG_Given o => QAG_Given o QAGG_Any
    end.
  Definition tga_q (c : t_ga T) : q_ga T :=
    match c with
    | TGA_Any => QGA_Any QGAA_Any | TGA_SameP => QGA_SameP QGAG_Any
    | TGA_Given o => QGA_Given o QGAG_Any
    end.
  Definition tgg_q (c : t_gg T) : q_gg T :=
    match c with TGG_Any => QGG_Any QGGA_Any | TGG_Given o => QGG_Given o QGGG_Any end.
  Definition anyg (c : ctp T) : cqp T :=
    match c with
    | CT_AnyS (TA_AnyP c) => CQ_AnyS (QA_AnyP (taa_q c))
    | CT_AnyS (TA_SameS c) => CQ_AnyS (QA_SameS (tag_q c))
    | CT_AnyS (TA_GivenP p c) => CQ_AnyS (QA_GivenP p (tag_q c))
    | CT_GivenS s (TG_AnyP c) => CQ_GivenS s (QG_AnyP (tga_q c))
    | CT_GivenS s (TG_GivenP p c) => CQ_GivenS s (QG_GivenP p (tgg_q c))
    end.

  Ltac cases c := destruct c as [[[]|[]|p []]|s [[]|p []]].

  Lemma anyg_parts c :
    cq_subject (anyg c) = ct_subject c /\ cq_predicate (anyg c) = ct_predicate c /\
    cq_object (anyg c) = ct_object c /\ cq_graph (anyg c) = PG_Any.
  Proof. cases c; repeat split; reflexivity. Qed.

  Lemma anyg_matches c (t : triple T) : cq_matches (anyg c) (iq t) <-> ct_matches c t.
  Proof. destruct t; cases c; cbn; intuition congruence. Qed.

  Lemma anyg_checked {R} c (t : triple R) : cq_checked (anyg c) (iq t) = ct_checked c t.
  Proof. destruct t; cases c; reflexivity. Qed.

  Lemma anyg_subject c : any_subject (anyg c) = match c with CT_AnyS _ => true | _ => false end.
  Proof. cases c; reflexivity. Qed.
End AnyGraph.

(** ** The iterator *)
Definition dq {A} (q : quad A) : triple A := Triple (q_s q) (q_p q) (q_o q).
Lemma dq_iq {A} (t : triple A) : dq (iq t) = t.
Proof. destruct t; reflexivity. Qed.

Definition cm (c : constraint (triple nat)) : constraint (quad nat) :=
  match c with
  | CNone => CNone | CAny => CAny | CSame t => CSame (fun q => t (dq q)) | CFixed l => CFixed l
  end.
Definition mm (m : gm) : pm := PM (cm (gm_s m)) (cm (gm_p m)) (cm (gm_o m)) CAny (gm_i m).

Lemma s_next_cm c i : s_next (cm c) i = (fst (s_next c i), cm (snd (s_next c i))).
Proof. destruct c as [| | |l]; cbn; try reflexivity; destruct (drop_lt i l); reflexivity. Qed.

Lemma c_next_cm c i t : c_next (cm c) i (iq t) = (fst (c_next c i t), cm (snd (c_next c i t))).
Proof.
  destruct c as [| | |l]; cbn; try reflexivity.
  now rewrite dq_iq.
Qed.

Lemma gm_next_mm fuel cap ts : forall m,
  pm_next fuel cap (smap iq ts) (mm m) =
  option_map (option_map (fun '(i, t, m) => (i, iq t, mm m))) (gm_next fuel cap ts m).
Proof.
  induction fuel as [|fuel IH]; intros m; [reflexivity|]; cbn [pm_next gm_next].
  change (pm_i (mm m)) with (gm_i m); destruct (gm_i m <? cap); [|reflexivity].
  change (pm_s (mm m)) with (cm (gm_s m)); rewrite s_next_cm.
  destruct (s_next (gm_s m) (gm_i m)) as [[i|] cs]; cbn [fst snd]; [|reflexivity].
  rewrite sget_smap; destruct (sget ts i) as [t|]; [|reflexivity]; cbn [option_map].
  change (pm_p (mm m)) with (cm (gm_p m)); rewrite c_next_cm.
  destruct (c_next (gm_p m) i t) as [[|[j|]] cp]; cbn [fst snd]; [| |reflexivity].
  2: exact (IH (GM cs cp (gm_o m) j)).
  change (pm_o (mm m)) with (cm (gm_o m)); rewrite c_next_cm.
  destruct (c_next (gm_o m) i t) as [[|[j|]] co]; cbn [fst snd]; [|exact (IH (GM cs cp co j))|reflexivity].
  reflexivity.
Qed.

Section Proofs.
  Context {R : Type} {cmp : R -> R -> comparison} (L : ord_laws cmp).
  Context (keep : bool).
  Notation qcmp := (quad_cmp cmp).
  Notation tcmp := (triple_cmp cmp).
  Let LQ : ord_laws qcmp := quad_cmp_laws cmp L.
  Let LT : ord_laws tcmp := triple_cmp_laws cmp L.
  Notation gstate := (gstate (cmp:=cmp)).
  Notation grep := (grep (cmp:=cmp)).

  Lemma gm_collect_mm fuel cap g dg : forall m,
    pm_collect fuel cap (iemb g dg) (mm m) = option_map (map iq) (gm_collect (R:=R) fuel cap g m).
  Proof.
    induction fuel as [|fuel IH]; intros m; [reflexivity|]; cbn [pm_collect gm_collect].
    change (id_quads (iemb g dg)) with (smap iq (ig_triples g)); rewrite gm_next_mm.
    destruct (gm_next (S cap) cap (ig_triples g) m) as [[[[i t] m']|]|]; cbn [option_map bind];
      [|reflexivity|reflexivity].
    change (id_resources (iemb g dg)) with (ig_resources g); rewrite iwr_iq.
    destruct (i_triple_with_resources (ig_resources g) t) as [x|]; cbn [option_map bind]; [|reflexivity].
    rewrite IH; destruct (gm_collect fuel cap g m'); reflexivity.
  Qed.

  Lemma given_cm (rs : slab (iresource R)) ri p r :
    given_constraint cmp rs ri p r = option_map cm (given_constraint cmp rs ri p r).
  Proof.
    unfold given_constraint.
    destruct (i_get_resource cmp rs ri r) as [[x|]|]; reflexivity.
  Qed.

  Lemma gm_new_mm g dg c : pm_new cmp (iemb g dg) (anyg c) = option_map mm (gm_new cmp g c).
  Proof.
    unfold pm_new, gm_new; destruct (anyg_parts c) as (-> & -> & -> & ->); cbn [id_resources id_ri iemb].
    assert (E : s_constraint cmp (ig_resources g) (ig_ri g) (ct_subject c) =
                option_map cm (s_constraint cmp (ig_resources g) (ig_ri g) (ct_subject c)))
      by (destruct (ct_subject c) as [|r]; [reflexivity|]; cbn; destruct (i_get_resource _ _ _ r) as [[]|]; reflexivity).
    rewrite E; clear E; destruct (s_constraint _ _ _ _) as [s|]; [|reflexivity]; cbn [option_map bind].
    assert (E' : p_constraint cmp (iemb g dg) (ct_predicate c) =
                option_map cm (gp_constraint cmp g (ct_predicate c)))
      by (destruct (ct_predicate c); [reflexivity|reflexivity|apply (given_cm _ _ _ _)]).
    rewrite E'; destruct (gp_constraint _ _ _) as [p|]; [|reflexivity]; cbn [option_map bind].
    assert (E2 : o_constraint cmp (iemb g dg) (ct_object c) =
                option_map cm (go_constraint cmp g (ct_object c)))
      by (destruct (ct_object c); [reflexivity|reflexivity|reflexivity|apply (given_cm _ _ _ _)]).
    rewrite E2; destruct (go_constraint _ _ _) as [o|]; reflexivity.
  Qed.

  Lemma iemb_pattern g dg spare c :
    id_pattern_matching cmp (iemb g dg) spare (anyg c) =
    option_map (map iq) (ig_pattern_matching cmp g spare c).
  Proof.
    unfold id_pattern_matching, ig_pattern_matching; rewrite gm_new_mm.
    destruct (gm_new cmp g c) as [m|]; [|reflexivity]; cbn [option_map bind].
    assert (capacity (iemb g dg) spare = gcapacity g spare) as ->.
    { unfold capacity, gcapacity; cbn; now rewrite map_length. }
    apply gm_collect_mm.
  Qed.

  (** ** Reachable graphs *)
  Lemma spec_run_app (X : Type) (xc : X -> X -> comparison) a b : forall s,
    snd (spec_run xc s (a ++ b)) = snd (spec_run xc (snd (spec_run xc s a)) b) /\
    fst (spec_run xc s (a ++ b)) = fst (spec_run xc s a) ++ fst (spec_run xc (snd (spec_run xc s a)) b).
  Proof.
    induction a as [|o a IH]; intros s; [split; reflexivity|]; cbn [app spec_run].
    destruct (spec_step xc s o) as [x s1]; destruct (IH s1) as [A B].
    destruct (spec_run xc s1 (a ++ b)) as [ys s2], (spec_run xc s1 a) as [zs s3]; cbn [fst snd] in *.
    subst; auto.
  Qed.

  Lemma set_log_app (X : Type) (xc : X -> X -> comparison) a b : forall s,
    set_log xc s (a ++ b) = set_log xc s a ++ set_log xc (snd (spec_run xc s a)) b.
  Proof.
    induction a as [|o a IH]; intros s; [reflexivity|]; cbn [app set_log spec_run].
    rewrite IH, <- app_assoc; do 3 f_equal.
    destruct (spec_step xc s o) as [x s1]; cbn [snd]; destruct (spec_run xc s1 a); reflexivity.
  Qed.

  Lemma reached_graph ops0 ops g :
    ig_reached cmp keep ops0 ops g ->
    apply tcmp (set_log tcmp (spec_set tcmp ops0) ops) (spec_set tcmp ops0) =
      spec_set tcmp (ops0 ++ ops) /\
    grep g (spec_set tcmp (ops0 ++ ops)).
  Proof.
    intros H; assert (E : apply tcmp (set_log tcmp (spec_set tcmp ops0) ops) (spec_set tcmp ops0) =
      spec_set tcmp (ops0 ++ ops)).
    { rewrite (apply_set_log LT); unfold spec_set; now rewrite (proj1 (spec_run_app _ _ _ _ _)). }
    split; [exact E|]; rewrite <- E; eapply gstate_rep, (greached L keep); exact H.
  Qed.

  Lemma graph_known W ops0 ops :
    known_log tcmp triple_comps W [] (set_log tcmp [] (ops0 ++ ops)) ->
    known_log tcmp triple_comps W [] (set_log tcmp [] ops0) /\
    known_log tcmp triple_comps W (spec_set tcmp ops0) (set_log tcmp (spec_set tcmp ops0) ops).
  Proof. rewrite set_log_app, known_log_app, (apply_set_log LT); auto. Qed.

  Lemma gstate_exact W g s0 K n l :
    gstate g s0 K n l -> K W -> known_log tcmp triple_comps W s0 l -> exists dg, id_exact W (iemb g dg).
  Proof.
    intros (dg & H) HK Hk; exists dg; apply (is_exact _ _ _ _ _ H W HK); now apply known_log_iq.
  Qed.

  Lemma exact_dg W (g : @igraph R) dg dg' : id_exact W (iemb g dg) -> id_exact W (iemb g dg').
  Proof. intros H; exact H. Qed.

  Lemma reached_gexact W ops0 ops g dg :
    ig_reached cmp keep ops0 ops g ->
    known_log tcmp triple_comps W [] (set_log tcmp [] (ops0 ++ ops)) -> id_exact W (iemb g dg).
  Proof.
    intros H Hk; apply graph_known in Hk as [K1 K2].
    destruct (gstate_exact W _ _ _ _ _ (greached L keep _ _ _ H) K1 K2) as (dg' & X).
    exact (exact_dg _ _ _ _ X).
  Qed.

  Lemma reached_gfull ops0 ops g :
    ig_reached cmp keep ops0 ops g -> vacancies 0 (set_log tcmp [] (ops0 ++ ops)) = 0 ->
    free (ig_triples g) = [].
  Proof.
    intros H Hv; apply (greached L) in H as (dg & H); apply length_zero_iff_nil.
    pose proof (is_free _ _ _ _ _ H) as E.
    rewrite set_log_app, vacancies_app in Hv; rewrite vacancies_iq in E.
    unfold spec_set in E; cbn in E; rewrite E; exact Hv.
  Qed.

  (** ** C33: a set of triples *)
  Lemma grep_iter g s : grep g s -> ig_iter g = Some (sorted_elements tcmp s).
  Proof.
    intros (dg & H); apply id_iter_rep in H; rewrite iemb_iter, sorted_iq in H.
    apply option_map_some in H as (l & -> & E); f_equal; now apply map_iq_inj.
  Qed.

  Lemma grep_nodup g s : grep g s -> NoDup s.
  Proof. intros (dg & H & _); now apply NoDup_map_inv in H. Qed.

  Lemma grep_len g s : grep g s -> ig_len g = length s.
  Proof. intros (dg & H); rewrite <- (iemb_len _ dg), (id_len_rep L _ _ H); apply map_length. Qed.

  Lemma tmem_sorted t s : mem tcmp t (sorted_elements tcmp s) = mem tcmp t s.
  Proof.
    destruct (mem tcmp t s) eqn:E.
    - apply (mem_true LT) in E; apply (mem_true LT); now apply in_sorted_elements.
    - apply (mem_false LT) in E; apply (mem_false LT); now rewrite in_sorted_elements.
  Qed.

  Lemma ig_behaves ops0 ops :
    exists b g0 xs g, run (bg_step cmp keep) bg_new ops0 = Some (spec_outs tcmp ops0, b) /\
      ig_from_non_indexed b = Some g0 /\ run (ig_step cmp keep) g0 ops = Some (xs, g) /\
      spec_outs tcmp (ops0 ++ ops) = spec_outs tcmp ops0 ++ xs.
  Proof.
    destruct (ig_total L keep ops0 ops) as (b & g0 & g & A & B & C).
    exists b, g0, (fst (spec_run tcmp (spec_set tcmp ops0) ops)), g; repeat (split; [assumption|]).
    unfold spec_outs, spec_set; apply (spec_run_app _ tcmp ops0 ops []).
  Qed.

  Lemma ig_contents ops0 ops g :
    ig_reached cmp keep ops0 ops g ->
    let s := spec_set tcmp (ops0 ++ ops) in
    exists l, ig_iter g = Some l /\ ig_into_iter g = Some l /\
      increasing tcmp l /\ (forall t, In t l <-> In t s) /\
      ig_len g = length l /\ (ig_is_empty g = true <-> l = []) /\
      (forall t, ig_contains cmp g t = Some (mem tcmp t l)).
  Proof.
    intros H s; apply reached_graph in H as [_ H]; fold s in H.
    pose proof (grep_nodup _ _ H) as Hn.
    exists (sorted_elements tcmp s); split; [now apply grep_iter|].
    assert (El : ig_len g = length (sorted_elements tcmp s)).
    { rewrite (grep_len _ _ H); symmetry; now apply tlength_sorted. }
    destruct H as (dg & H); split.
    { pose proof (id_into_iter_rep L _ _ H) as E; rewrite iemb_into_iter, sorted_iq in E.
      apply option_map_some in E as (l & -> & E); f_equal; now apply map_iq_inj. }
    split; [now apply (sorted_elements_sorted LT)|].
    split; [intros; apply in_sorted_elements|]; split; [exact El|]; split.
    - unfold ig_is_empty; rewrite El, Nat.eqb_eq; apply length_zero_iff_nil.
    - intros t; rewrite <- (iemb_contains _ dg), (id_contains_rep L _ _ _ H), mem_iq; f_equal.
      symmetry; apply tmem_sorted.
  Qed.

  Lemma ig_new_converted : ig_from_non_indexed (@bg_new R) = Some ig_new.
  Proof. reflexivity. Qed.

  Lemma ig_converted ops xs b :
    run (bg_step cmp keep) bg_new ops = Some (xs, b) ->
    exists g l, ig_from_non_indexed b = Some g /\ bg_iter b = Some l /\ ig_iter g = Some l /\
      ig_len g = bg_len b /\ (forall t, ig_contains cmp g t = bg_contains cmp b t).
  Proof.
    intros H; pose proof (bg_run_rep_new L keep _ _ _ H) as Hb.
    destruct (gstart L keep _ _ _ H) as (g & E & Hs).
    pose proof (gstate_rep _ _ _ _ _ Hs) as Hg; cbn in Hg.
    exists g, (sorted_elements tcmp (spec_set tcmp ops)); split; [exact E|].
    split; [exact (bg_iter_rep _ _ Hb)|]; split; [exact (grep_iter _ _ Hg)|]; split.
    - now rewrite (grep_len _ _ Hg), (bg_len_rep L _ _ Hb).
    - intros t; rewrite (bg_contains_rep L _ _ _ Hb); destruct Hg as (dg & Hg).
      rewrite <- (iemb_contains _ dg), (id_contains_rep L _ _ _ Hg), mem_iq; reflexivity.
  Qed.

  (** ** C34: patterns *)
  Lemma ig_pattern_found g s dg spare c :
    id_rep (cmp:=cmp) (iemb g dg) (map iq s) ->
    exists l, ig_pattern_matching cmp g spare c = Some l /\ NoDup l /\
      (forall t, In t l -> In t s /\ ct_matches c t) /\
      (t_subject_given c \/ free (ig_triples g) = [] ->
       forall W t, id_exact W (iemb g dg) -> In t s -> ct_matches c t ->
         (forall r, In r (ct_checked c t) -> W r) -> In t l).
  Proof.
    intros H; destruct (id_pattern_found L _ _ spare (anyg c) H) as (l & E & A & B & C).
    rewrite iemb_pattern in E; apply option_map_some in E as (l' & E & <-).
    exists l'; split; [exact E|]; split; [now apply NoDup_map_inv in A|]; split.
    - intros t Ht; apply in_map_iq, B in Ht as [Ht Hm]; split; [now apply in_map_iq|].
      now apply anyg_matches.
    - intros Hc W t X Ht Hm Hw; apply in_map_iq, C with (W := W); auto.
      + rewrite anyg_subject; destruct Hc as [Hc|Hc]; [destruct c; [destruct Hc|auto]|right].
        exact Hc.
      + now apply in_map_iq.
      + now apply anyg_matches.
      + intros r; rewrite anyg_checked; apply Hw.
  Qed.

  Lemma ig_pattern_sound ops0 ops g spare c :
    ig_reached cmp keep ops0 ops g ->
    exists l, ig_pattern_matching cmp g spare c = Some l /\ NoDup l /\
      forall t, In t l -> In t (spec_set tcmp (ops0 ++ ops)) /\ ct_matches c t.
  Proof.
    intros H; apply reached_graph in H as [_ (dg & H)].
    destruct (ig_pattern_found _ _ _ spare c H) as (l & E & A & B & _); eauto.
  Qed.

  Lemma ig_pattern_complete ops0 ops g spare c :
    ig_reached cmp keep ops0 ops g ->
    t_subject_given c \/ vacancies 0 (set_log tcmp [] (ops0 ++ ops)) = 0 ->
    exists l, ig_pattern_matching cmp g spare c = Some l /\ NoDup l /\
      (forall t, In t l -> In t (spec_set tcmp (ops0 ++ ops)) /\ ct_matches c t) /\
      (forall t, In t (spec_set tcmp (ops0 ++ ops)) -> ct_matches c t ->
         known_log tcmp triple_comps (fun r => In r (ct_checked c t)) []
           (set_log tcmp [] (ops0 ++ ops)) ->
         In t l).
  Proof.
    intros H Hv; pose proof (reached_graph _ _ _ H) as [_ (dg & Hr)].
    destruct (ig_pattern_found _ _ _ spare c Hr) as (l & E & A & B & C).
    exists l; split; [exact E|]; split; [exact A|]; split; [exact B|].
    intros t Ht Hm Hk; apply C with (W := fun r => In r (ct_checked c t)); auto;
      [|now apply (reached_gexact _ ops0 ops)].
    destruct Hv as [Hv|Hv]; [now left|right; now apply (reached_gfull ops0 ops)].
  Qed.

  Lemma ig_pattern_all ops0 ops g spare :
    ig_reached cmp keep ops0 ops g ->
    vacancies 0 (set_log tcmp [] (ops0 ++ ops)) = 0 ->
    exists l, ig_pattern_matching cmp g spare (CT_AnyS (TA_AnyP TAA_Any)) = Some l /\ NoDup l /\
      forall t, In t l <-> In t (spec_set tcmp (ops0 ++ ops)).
  Proof.
    intros H Hv.
    destruct (ig_pattern_complete _ _ _ spare (CT_AnyS (TA_AnyP TAA_Any)) H (or_intror Hv))
      as (l & E & A & B & C).
    exists l; split; [exact E|]; split; [exact A|]; intros t; split; [apply B|].
    intros Ht; apply C; auto; [repeat split|].
    cbn; generalize (set_log tcmp [] (ops0 ++ ops)); generalize (@nil (triple R)); clear.
    intros s l; revert s; induction l as [|[b x] l IH]; intros s; cbn -[apply_change]; [exact I|].
    split; [|apply IH]; destruct b; [|exact I]; intros i j r [].
  Qed.

  Lemma ig_pattern_exact ops0 ops g spare c :
    ig_reached cmp keep ops0 ops g ->
    known_log tcmp triple_comps any_resource [] (set_log tcmp [] (ops0 ++ ops)) ->
    t_subject_given c \/ vacancies 0 (set_log tcmp [] (ops0 ++ ops)) = 0 ->
    exists l, ig_pattern_matching cmp g spare c = Some l /\ NoDup l /\
      forall t, In t l <-> In t (spec_set tcmp (ops0 ++ ops)) /\ ct_matches c t.
  Proof.
    intros H Hk Hv; destruct (ig_pattern_complete _ _ _ spare c H Hv) as (l & E & A & B & C).
    exists l; split; [exact E|]; split; [exact A|]; intros t; split; [apply B|].
    intros [Ht Hm]; apply C; auto; eapply known_log_weaken; [|exact Hk]; intros; exact I.
  Qed.

  (** ** C35: resources by position *)
  Lemma ig_positions_sound ops0 ops g :
    ig_reached cmp keep ops0 ops g ->
    let s := spec_set tcmp (ops0 ++ ops) in
    (exists v, ig_subjects g = Some v /\ ig_subject_count g = length v /\
       forall r, In r v -> exists t, In t s /\ t_s t = r) /\
    (exists v, ig_predicates g = Some v /\ ig_predicate_count g = length v /\
       forall r, In r v -> exists t, In t s /\ t_p t = r) /\
    (exists v, ig_objects g = Some v /\ ig_object_count g = length v /\
       forall r, In r v -> exists t, In t s /\ t_o t = r).
  Proof.
    intros H s; apply reached_graph in H as [_ (dg & H)]; fold s in H.
    split; [|split].
    - destruct (positions_sound PosS _ _ ltac:(discriminate) H) as (v & A & B & C).
      exists v; split; [exact A|]; split; [exact B|]; intros r Hr; apply C in Hr as (q & Hq & <-).
      apply in_map_iff in Hq as (t & <- & Ht); exists t; auto.
    - destruct (positions_sound PosP _ _ ltac:(discriminate) H) as (v & A & B & C).
      exists v; split; [exact A|]; split; [exact B|]; intros r Hr; apply C in Hr as (q & Hq & <-).
      apply in_map_iff in Hq as (t & <- & Ht); exists t; auto.
    - destruct (positions_sound PosO _ _ ltac:(discriminate) H) as (v & A & B & C).
      exists v; split; [exact A|]; split; [exact B|]; intros r Hr; apply C in Hr as (q & Hq & <-).
      apply in_map_iff in Hq as (t & <- & Ht); exists t; auto.
  Qed.

  Lemma ig_positions_each ops0 ops g :
    ig_reached cmp keep ops0 ops g ->
    let s := spec_set tcmp (ops0 ++ ops) in
    let l := set_log tcmp (spec_set tcmp ops0) ops in
    exists vs vp vo, ig_subjects g = Some vs /\ ig_predicates g = Some vp /\ ig_objects g = Some vo /\
      forall r, known_log tcmp triple_comps (eq r) [] (set_log tcmp [] (ops0 ++ ops)) ->
        once r vs /\ (In r vs <-> stable cmp t_s s l r) /\
        once r vp /\ (In r vp <-> stable cmp t_p s l r) /\
        once r vo /\ (In r vo <-> stable cmp t_o s l r).
  Proof.
    intros H s l; pose proof (proj1 (reached_graph _ _ _ H)) as E; fold s l in E.
    apply (greached L) in H as (dg & H); fold l in H.
    pose proof (fun p Hp => positions_stable L p _ _ _ _ _ Hp H) as P; rewrite apply_iq, E in P.
    destruct (P PosS ltac:(discriminate)) as (vs & Es & Hs).
    destruct (P PosP ltac:(discriminate)) as (vp & Ep & Hp).
    destruct (P PosO ltac:(discriminate)) as (vo & Eo & Ho); clear P.
    exists vs, vp, vo; split; [exact Es|]; split; [exact Ep|]; split; [exact Eo|].
    intros r Hk; apply graph_known in Hk as [K1 K2]; fold l in K2; apply known_log_iq in K2.
    destruct (Hs r K1 K2) as [S1 S2], (Hp r K1 K2) as [P1 P2], (Ho r K1 K2) as [O1 O2].
    rewrite S2, P2, O2; split; [exact S1|]; split; [apply (stable_iq q_s)|].
    split; [exact P1|]; split; [apply (stable_iq q_p)|].
    split; [exact O1|]; apply (stable_iq q_o).
  Qed.

  Lemma ig_positions_at ops0 ops g :
    ig_reached cmp keep ops0 ops g ->
    let s := spec_set tcmp (ops0 ++ ops) in
    let s0 := spec_set tcmp ops0 in
    let l := set_log tcmp s0 ops in
    exists vs vp vo, ig_subjects g = Some vs /\ ig_predicates g = Some vp /\ ig_objects g = Some vo /\
      forall r, known_log tcmp triple_comps (eq r) [] (set_log tcmp [] (ops0 ++ ops)) ->
        (lonely_at tcmp t_s r s0 l -> (In r vs <-> exists t, In t s /\ t_s t = r)) /\
        (lonely_at tcmp t_p r s0 l -> (In r vp <-> exists t, In t s /\ t_p t = r)) /\
        (lonely_at tcmp t_o r s0 l -> (In r vo <-> exists t, In t s /\ t_o t = r)).
  Proof.
    intros H s s0 l; pose proof (proj1 (reached_graph _ _ _ H)) as E; fold s s0 l in E.
    destruct (ig_positions_each _ _ _ H) as (vs & vp & vo & Es & Ep & Eo & G).
    exists vs, vp, vo; split; [exact Es|]; split; [exact Ep|]; split; [exact Eo|].
    intros r Hk; destruct (G r Hk) as (_ & A & _ & B & _ & C); fold s s0 l in A, B, C.
    rewrite A, B, C, <- E; split; [|split]; apply (stable_lonely_at L _ _ _ _ LT).
  Qed.

  Lemma ig_positions_stable ops0 ops g :
    ig_reached cmp keep ops0 ops g ->
    known_log tcmp triple_comps any_resource [] (set_log tcmp [] (ops0 ++ ops)) ->
    let s := spec_set tcmp (ops0 ++ ops) in
    let l := set_log tcmp (spec_set tcmp ops0) ops in
    (exists v, ig_subjects g = Some v /\ NoDup v /\ forall r, In r v <-> stable cmp t_s s l r) /\
    (exists v, ig_predicates g = Some v /\ NoDup v /\ forall r, In r v <-> stable cmp t_p s l r) /\
    (exists v, ig_objects g = Some v /\ NoDup v /\ forall r, In r v <-> stable cmp t_o s l r).
  Proof.
    intros H Hk s l; destruct (ig_positions_each _ _ _ H) as (vs & vp & vo & Es & Ep & Eo & G).
    assert (G' : forall r, known_log tcmp triple_comps (eq r) [] (set_log tcmp [] (ops0 ++ ops)))
      by (intros r; eapply known_log_weaken; [|exact Hk]; intros; exact I).
    split; [exists vs|split; [exists vp|exists vo]]; (split; [assumption|]);
      (split; [apply once_nodup; intros r|intros r]); destruct (G r (G' r)); tauto.
  Qed.

  Lemma ig_positions_exact ops0 ops g :
    ig_reached cmp keep ops0 ops g ->
    known_log tcmp triple_comps any_resource [] (set_log tcmp [] (ops0 ++ ops)) ->
    let s := spec_set tcmp (ops0 ++ ops) in
    let s0 := spec_set tcmp ops0 in
    let l := set_log tcmp s0 ops in
    (lonely tcmp t_s s0 l ->
     exists v, ig_subjects g = Some v /\ NoDup v /\ forall r, In r v <-> exists t, In t s /\ t_s t = r) /\
    (lonely tcmp t_p s0 l ->
     exists v, ig_predicates g = Some v /\ NoDup v /\ forall r, In r v <-> exists t, In t s /\ t_p t = r) /\
    (lonely tcmp t_o s0 l ->
     exists v, ig_objects g = Some v /\ NoDup v /\ forall r, In r v <-> exists t, In t s /\ t_o t = r).
  Proof.
    intros H Hk s s0 l; pose proof (proj1 (reached_graph _ _ _ H)) as E; fold s s0 l in E.
    destruct (ig_positions_stable _ _ _ H Hk) as ((v1 & A1 & B1 & C1) & (v2 & A2 & B2 & C2) & (v3 & A3 & B3 & C3)).
    fold s s0 l in C1, C2, C3; rewrite <- E in *.
    split; [|split]; intros Hl.
    - exists v1; split; [exact A1|]; split; [exact B1|]; intros r; rewrite C1; now apply (stable_lonely L).
    - exists v2; split; [exact A2|]; split; [exact B2|]; intros r; rewrite C2; now apply (stable_lonely L).
    - exists v3; split; [exact A3|]; split; [exact B3|]; intros r; rewrite C3; now apply (stable_lonely L).
  Qed.

  Lemma ig_resources_used ops0 ops g :
    ig_reached cmp keep ops0 ops g ->
    exists l, ig_resources_iter g = Some l /\ increasing cmp l /\
      (forall r, ig_contains_resource cmp g r = Some (mem cmp r l)) /\
      (forall r, In r l -> occurs triple_comps r (spec_set tcmp (ops0 ++ ops))) /\
      (forall r, known_log tcmp triple_comps (eq r) [] (set_log tcmp [] (ops0 ++ ops)) ->
       (In r l <-> occurs triple_comps r (spec_set tcmp (ops0 ++ ops)))) /\
      (known_log tcmp triple_comps any_resource [] (set_log tcmp [] (ops0 ++ ops)) ->
       ig_resource_count g = length l).
  Proof.
    intros H; pose proof (reached_graph _ _ _ H) as [_ (dg & Hn & (vs & I))].
    pose proof (iri_idx _ _ _ _ (ii_res _ _ _ I)) as J.
    assert (U : forall r, In r vs -> occurs triple_comps r (spec_set tcmp (ops0 ++ ops))).
    { intros r Hr; apply occurs_iq, (occurs_sorted (cmp:=cmp)); eapply id_vs_used; eauto. }
    exists vs; split; [apply J|]; split; [apply J|]; split; [|split; [exact U|split]].
    - intros r; unfold ig_contains_resource.
      destruct (i_index_of_resource_spec L _ _ _ _ r (ii_res _ _ _ I)) as (f & E & Hf).
      cbn [id_resources id_ri iemb] in E; rewrite E; cbn.
      f_equal; symmetry; destruct f; [now apply (mem_true L)|now apply (mem_false L)].
    - intros r Hk; pose proof (reached_gexact _ _ _ _ dg H Hk) as X.
      split; [apply U|]; intros Hr.
      eapply (id_used_vs (eq r)); eauto; apply (occurs_sorted (cmp:=cmp)); now apply occurs_iq.
    - intros Hk; pose proof (reached_gexact _ _ _ _ dg H Hk) as X.
      unfold ig_resource_count; rewrite (slen_keys _ (ig_ri g)).
      + destruct J as [J _]; symmetry; eapply mapM_length; exact J.
      + exact (indexes_nodup L _ _ _ J).
      + intros i; split.
        * intros Hi; destruct J as [J _].
          destruct (mapM_in_inv _ _ _ _ J Hi) as (v & Hv & _); cbn in Hv; unfold ir_val in Hv.
          destruct (sget (ig_resources g) i); discriminate.
        * intros Hi; destruct (sget (ig_resources g) i) as [y|] eqn:Ey; [|congruence].
          apply (X i (ir_value y)); [unfold ir_val; cbn; now rewrite Ey|exact Logic.I].
  Qed.

  Lemma ig_no_panic ops0 ops g :
    ig_reached cmp keep ops0 ops g ->
    ig_iter g <> None /\ ig_into_iter g <> None /\ ig_resources_iter g <> None /\
    ig_subjects g <> None /\ ig_predicates g <> None /\ ig_objects g <> None /\
    (forall t, ig_contains cmp g t <> None) /\
    (forall r, ig_contains_resource cmp g r <> None) /\
    (forall spare c, ig_pattern_matching cmp g spare c <> None) /\
    (forall o, ig_step cmp keep g o <> None).
  Proof.
    intros H; destruct (ig_contents _ _ _ H) as (l & -> & -> & _ & _ & _ & _ & Hc).
    destruct (ig_resources_used _ _ _ H) as (rs & -> & _ & Hr & _).
    destruct (ig_positions_sound _ _ _ H) as ((v1 & -> & _) & (v2 & -> & _) & (v3 & -> & _)).
    repeat (split; [discriminate|]); split; [intros t; rewrite Hc; discriminate|].
    split; [intros r; rewrite Hr; discriminate|]; split.
    - intros spare c; destruct (ig_pattern_sound _ _ _ spare c H) as (m & -> & _); discriminate.
    - intros o; destruct (gstate_step L keep _ _ _ _ _ o (greached L keep _ _ _ H)) as (g' & -> & _).
      discriminate.
  Qed.

  (** ** Comparison and rebuilding *)
  Lemma ig_eqb_rep (eqb : R -> R -> bool) a b s t :
    (forall x y, eqb x y = true <-> x = y) -> grep a s -> grep b t ->
    exists r, ig_eqb eqb a b = Some r /\ (r = true <-> forall q, In q s <-> In q t).
  Proof.
    intros H Ha Hb; unfold ig_eqb.
    rewrite (grep_len _ _ Ha), (grep_len _ _ Hb), (grep_iter _ _ Ha), (grep_iter _ _ Hb).
    cbn; apply grep_nodup in Ha, Hb.
    destruct (_ =? _) eqn:E.
    - apply Nat.eqb_eq in E; eexists; split; [reflexivity|].
      rewrite (forallb_combine_t (triple_eqb eqb eqb eqb)).
      + now apply (tsorted_ext L).
      + now apply triple_eqb_spec.
      + now rewrite !(tlength_sorted L).
    - apply Nat.eqb_neq in E; exists false; split; [reflexivity|]; split; [discriminate|].
      intros Hq; exfalso; apply E; rewrite <- (tlength_sorted L s), <- (tlength_sorted L t) by assumption.
      f_equal; now apply (tsorted_ext L).
  Qed.

  Lemma ig_equality (eqb : R -> R -> bool) ops01 ops1 g1 ops02 ops2 g2 :
    (forall x y, eqb x y = true <-> x = y) ->
    ig_reached cmp keep ops01 ops1 g1 -> ig_reached cmp keep ops02 ops2 g2 ->
    exists b h1 h2, ig_eqb eqb g1 g2 = Some b /\
      ig_hash_input g1 = Some h1 /\ ig_hash_input g2 = Some h2 /\
      (b = true <->
         forall t, In t (spec_set tcmp (ops01 ++ ops1)) <-> In t (spec_set tcmp (ops02 ++ ops2))) /\
      (b = true <-> ig_cmp cmp g1 g2 = Some Eq) /\
      (b = true <-> h1 = h2).
  Proof.
    intros He H1 H2; apply reached_graph in H1 as [_ H1]; apply reached_graph in H2 as [_ H2].
    destruct (ig_eqb_rep eqb _ _ _ _ He H1 H2) as (b & Eb & Hb).
    exists b; unfold ig_hash_input, ig_cmp.
    rewrite (grep_len _ _ H1), (grep_len _ _ H2), (grep_iter _ _ H1), (grep_iter _ _ H2).
    cbn; eexists _, _; split; [exact Eb|]; split; [reflexivity|]; split; [reflexivity|].
    split; [exact Hb|]; apply grep_nodup in H1, H2; split.
    - rewrite Hb, <- (tsorted_ext L _ _ H1 H2), <- (ord_eq _ (list_cmp_laws LT)).
      split; congruence.
    - rewrite Hb, <- (tsorted_ext L _ _ H1 H2); split.
      + intros E; f_equal; [|exact E].
        rewrite <- (tlength_sorted L _ H1), E; now apply (tlength_sorted L).
      + intros E; inv E; reflexivity.
  Qed.

  Lemma ig_ordering ops01 ops1 g1 ops02 ops2 g2 :
    ig_reached cmp keep ops01 ops1 g1 -> ig_reached cmp keep ops02 ops2 g2 ->
    exists l1 l2, ig_iter g1 = Some l1 /\ ig_iter g2 = Some l2 /\
      ig_cmp cmp g1 g2 = Some (list_cmp tcmp l1 l2) /\ ord_laws (list_cmp tcmp).
  Proof.
    intros H1 H2; apply reached_graph in H1 as [_ H1]; apply reached_graph in H2 as [_ H2].
    unfold ig_cmp; rewrite (grep_iter _ _ H1), (grep_iter _ _ H2).
    eexists _, _; split; [reflexivity|]; split; [reflexivity|].
    split; [reflexivity|apply (list_cmp_laws LT)].
  Qed.

  Lemma ig_from_iter_rep l :
    exists g, ig_from_iter cmp keep l = Some g /\ grep g (fold_left (fun s t => add tcmp t s) l []).
  Proof.
    destruct (gstart L keep [] _ _ eq_refl) as (g0 & E0 & H0); inv E0.
    destruct (gstate_step L keep _ _ _ _ _ (Extend l) H0) as (g & E & H).
    exists g; unfold ig_from_iter; split.
    - cbn [ig_step] in E; change (IGraphS slab_new slab_new [] [] [] [] []) with (@ig_new R) in E.
      change (ig_extend cmp keep (@ig_new R) l = Some g).
      match type of E with (x <- ?e ;; _) = _ => change e with (ig_extend cmp keep (@ig_new R) l) in E end.
      destruct (ig_extend cmp keep ig_new l); [|discriminate]; cbn in E; inv E; reflexivity.
    - apply gstate_rep in H; cbn -[apply extend_changes] in H.
      change (apply tcmp [] (spec_set tcmp [])) with (@nil (triple R)) in H.
      rewrite <- (apply_extend (cmp:=tcmp)); exact H.
  Qed.

  Lemma ig_collect l :
    exists g, ig_from_iter cmp keep l = Some g /\
      exists m, ig_iter g = Some m /\ increasing tcmp m /\ forall t, In t m <-> In t l.
  Proof.
    destruct (ig_from_iter_rep l) as (g & E & H); exists g; split; [exact E|].
    eexists; split; [apply (grep_iter _ _ H)|]; split.
    - apply grep_nodup in H; now apply (sorted_elements_sorted LT).
    - intros q; rewrite in_sorted_elements, (in_fold_add_t L); cbn; tauto.
  Qed.

  Lemma ig_rebuild (eqb : R -> R -> bool) ops0 ops g :
    (forall x y, eqb x y = true <-> x = y) ->
    ig_reached cmp keep ops0 ops g ->
    exists l g', ig_iter g = Some l /\ ig_serialize g = Some (length l, l) /\
      ig_from_iter cmp keep l = Some g' /\ ig_eqb eqb g g' = Some true.
  Proof.
    intros He H; apply reached_graph in H as [_ H].
    set (l := sorted_elements tcmp (spec_set tcmp (ops0 ++ ops))).
    destruct (ig_from_iter_rep l) as (g' & E & H').
    exists l, g'; unfold ig_serialize; rewrite (grep_iter _ _ H), (grep_len _ _ H).
    split; [reflexivity|]; split.
    - cbn; f_equal; f_equal; symmetry; apply (tlength_sorted L), (grep_nodup _ _ H).
    - split; [exact E|].
      destruct (ig_eqb_rep eqb _ _ _ _ He H H') as (b & Eb & Hb); rewrite Eb; f_equal.
      apply Hb; intros q; rewrite (in_fold_add_t L); cbn; unfold l; rewrite in_sorted_elements; tauto.
  Qed.
End Proofs.

(** ** Counterexamples *)
Definition gafter (ops : list (op (triple nat))) (keep : bool) : @igraph nat :=
  match run (ig_step Nat.compare keep) ig_new ops with Some (_, g) => g | None => ig_new end.

Lemma gafter_reached keep ops xs :
  option_map fst (run (ig_step Nat.compare keep) ig_new ops) = Some xs ->
  ig_reached Nat.compare keep [] ops (gafter ops keep).
Proof.
  intros H; exists [], bg_new, ig_new, xs; split; [reflexivity|]; split; [reflexivity|].
  unfold gafter; destruct (run _ _ ops) as [[ys d]|]; inv H; reflexivity.
Qed.

Ltac greach := eapply gafter_reached; match goal with k : bool |- _ => destruct k end;
  vm_compute; reflexivity.

Lemma ig_pattern_counterexample_repeat :
  exists ops g c t, forall keep,
    ig_reached Nat.compare keep [] ops (g keep) /\
    In t (spec_set (triple_cmp Nat.compare) ops) /\ ct_matches c t /\
    forall spare, exists l, ig_pattern_matching Nat.compare (g keep) spare c = Some l /\ ~ In t l.
Proof.
  set (ops := [Insert (Triple 1 1 2)]).
  exists ops, (gafter ops), (CT_AnyS (TA_SameS TAG_Any)), (Triple 1 1 2).
  intros keep; split; [greach|]; split; [now left|]; split; [repeat split|].
  intros spare; exists []; split; [|intros []]; destruct keep, spare; vm_compute; reflexivity.
Qed.

Lemma ig_pattern_counterexample_hole :
  exists ops g c t, forall keep,
    ig_reached Nat.compare keep [] ops (g keep) /\
    known_log (triple_cmp Nat.compare) triple_comps any_resource [] (set_log (triple_cmp Nat.compare) [] ops) /\
    In t (spec_set (triple_cmp Nat.compare) ops) /\ ct_matches c t /\
    forall spare, exists l, ig_pattern_matching Nat.compare (g keep) spare c = Some l /\ ~ In t l.
Proof.
  set (ops := [Insert (Triple 1 2 3); Insert (Triple 4 5 6); Remove (Triple 1 2 3)]).
  exists ops, (gafter ops), (CT_AnyS (TA_AnyP TAA_Any)), (Triple 4 5 6).
  intros keep; split; [greach|]; split; [known|]; split; [vm_compute; auto|]; split; [repeat split|].
  intros spare; exists []; split; [|intros []]; destruct keep, spare; vm_compute; reflexivity.
Qed.

Lemma ig_positions_counterexample :
  exists ops g t, forall keep,
    ig_reached Nat.compare keep [] ops (g keep) /\
    known_log (triple_cmp Nat.compare) triple_comps any_resource [] (set_log (triple_cmp Nat.compare) [] ops) /\
    In t (spec_set (triple_cmp Nat.compare) ops) /\
    ig_subjects (g keep) = Some [] /\ ig_predicates (g keep) = Some [].
Proof.
  set (ops := [Insert (Triple 1 2 3); Insert (Triple 1 2 4); Remove (Triple 1 2 3)]).
  exists ops, (gafter ops), (Triple 1 2 4).
  intros keep; split; [greach|]; split; [known|]; split; [vm_compute; auto|].
  destruct keep; vm_compute; auto.
Qed.

Lemma ig_objects_counterexample :
  exists ops g t, forall keep,
    ig_reached Nat.compare keep [] ops (g keep) /\
    known_log (triple_cmp Nat.compare) triple_comps any_resource [] (set_log (triple_cmp Nat.compare) [] ops) /\
    In t (spec_set (triple_cmp Nat.compare) ops) /\ ig_objects (g keep) = Some [].
Proof.
  set (ops := [Insert (Triple 1 2 3); Insert (Triple 4 5 3); Remove (Triple 1 2 3)]).
  exists ops, (gafter ops), (Triple 4 5 3).
  intros keep; split; [greach|]; split; [known|]; split; [vm_compute; auto|].
  destruct keep; vm_compute; auto.
Qed.

Lemma ig_duplicate_counterexample :
  exists ops g v w, forall keep,
    ig_reached Nat.compare keep [] ops (g keep) /\
    ig_subjects (g keep) = Some (v keep) /\ ig_predicates (g keep) = Some (w keep) /\
    ~ (NoDup (v keep) /\ NoDup (w keep)).
Proof.
  set (ops := [Insert (Triple 1 1 2); Insert (Triple 1 3 4); Insert (Triple 5 1 6)]).
  exists ops, (gafter ops),
    (fun k => match ig_subjects (gafter ops k) with Some v => v | None => [] end),
    (fun k => match ig_predicates (gafter ops k) with Some v => v | None => [] end).
  intros keep; split; [greach|]; destruct keep; vm_compute; (split; [reflexivity|]);
    (split; [reflexivity|]); intros [A B]; inversion A as [|a la Ha Ha']; inversion B as [|b lb Hb Hb'];
    subst; inversion Ha' as [|c lc Hc Hc']; inversion Hb' as [|e le Hh Hh']; subst; cbn in *; tauto.
Qed.
