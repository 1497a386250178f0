(** Histories of indexed containers whose comparison may panic. *)
From Coq Require Import List Bool Arith Lia Permutation Sorted.
Import ListNotations.
From Verif Require Import Base SlabModel TripleModel TriplePatternModel QuadPatternModel SetSpec ContainerSpec
  IndexedSpec Machine BaseProofs BResourceModel BResourceProofs BTreeDatasetModel BTreeDatasetProofs
  BTreeGraphModel BTreeGraphProofs IResourceModel IResourceProofs IndexedDatasetModel IndexedDatasetProofs
  IndexedHistoryProofs IndexedRunProofs IndexedGraphModel
  CrashModel CrashSpec ICrashSpec CrashProofs BCrashProofs CrashAgree BGCrashProofs CrashHistoryProofs
  ICrashModel ICrashProofs ICrashReads ICrashAgree IGCrashProofs ICrashConvert.

Section Proofs.
  Context {R : Type} {cmp : R -> R -> comparison} (L : ord_laws cmp).
  Context (keep : bool).
  Notation qcmp := (quad_cmp cmp).
  Notation tcmp := (triple_cmp cmp).
  Let LQ : ord_laws qcmp := quad_cmp_laws cmp L.

  (** ** From an indexed dataset that was never interrupted *)
  Lemma id_inv_weak F (d : @idataset R) ks vs : id_inv (cmp:=cmp) d ks vs -> wid_inv (cmp:=cmp) F d ks [].
  Proof.
    intros [I1 I2 I3 I4 [Is Is'] [Ip Ip'] [Io Io'] _ _].
    assert (ND : NoDup (id_qi d)) by (eapply (indexes_nodup LQ), I3).
    split; auto.
    - destruct I4 as [A B C D]; split; [exact A| | |eauto].
      + intros r x Hx p; apply (B r x Hx).
      + intros p r i [Hu _]; destruct (sget (id_resources d) r) as [x|] eqn:Ex.
        * exists x; split; [reflexivity|]; now apply (B r x Ex).
        * exfalso; exact (C r Ex p i Hu).
    - cbn; rewrite Nat.add_0_r, (slen_keys _ _ ND I2); destruct I3 as [HM _]; now apply mapM_length in HM.
    - intros _; exists []; rewrite app_nil_r; auto.
    - split; auto.
    - split; auto.
    - split; auto.
  Qed.

  Lemma id_rep_weak F (d : @idataset R) s : id_rep (cmp:=cmp) d s -> wid_rep (cmp:=cmp) F d s [].
  Proof. intros [ND (vs & I)]; split; [exact ND|]; now apply id_inv_weak with vs. Qed.

  Lemma id_interrupted ops0 ops xs d0 (l : list (op (quad R) * nat)) :
    id_reached cmp keep ops0 ops xs d0 ->
    exists ys d s lost vs,
      m_run (m_id_step cmp keep) d0 l = Some (ys, d) /\
      history qcmp (final_set cmp ops0 ops xs) [] (map fst l) ys s lost /\
      id_len d = length s + length lost /\ id_iter d = Some (sorted_elements qcmp s) /\
      id_resources_iter d = Some vs /\ increasing cmp vs /\
      (forall v, id_contains_resource cmp d v = Some (mem cmp v vs)) /\
      id_queries_within cmp d (s ++ lost).
  Proof.
    intros H; apply (reached_rep L) in H; apply (id_rep_weak True) in H.
    destruct (run_id_history L keep True l _ _ _ H) as (ys & d & s & lost & E & Hh & W).
    destruct (wid_reads L _ _ _ _ W) as (A & B & vs & C & D & G).
    exists ys, d, s, lost, vs.
    split; [exact E|]; split; [exact Hh|]; split; [exact A|]; split; [exact B|].
    split; [exact C|]; split; [exact D|]; split; [exact G|].
    exact (wid_queries L _ _ _ W).
  Qed.

  (** ** [remove_graph] *)
  Lemma id_set_step_run ops : forall d ys d',
    run (id_set_step cmp keep) d ops = Some (ys, d') <->
    run (id_step cmp keep) d (map IOp ops) = Some (map IOut ys, d').
  Proof.
    induction ops as [|o ops IH]; intros d ys d'; cbn [run map].
    - split; intros E; [now inv E|]; destruct ys; inv E; reflexivity.
    - assert (Hs : match id_step cmp keep d (IOp o) with
                   | Some (IOut _, _) | None => True | _ => False end).
      { destruct o; cbn; repeat match goal with
          | |- context [bind ?m _] => destruct m as [?|]; cbn [bind]; try exact I
          end; repeat match goal with x : _ * _ |- _ => destruct x end; exact I. }
      unfold id_set_step; destruct (id_step cmp keep d (IOp o)) as [[x d1]|]; [|split; discriminate].
      destruct x as [x|r|r]; try contradiction; fold (id_set_step cmp keep).
      specialize (IH d1).
      destruct (run (id_set_step cmp keep) d1 ops) as [[zs d2]|].
      + specialize (IH zs d2); destruct IH as [IH _]; rewrite (IH eq_refl).
        split; intros E; inv E; [reflexivity|].
        destruct ys as [|y ys]; cbn in *; [discriminate|].
        injection H0 as -> E; f_equal; f_equal; f_equal.
        revert ys E; clear; induction zs as [|z zs IHz]; intros [|y ys] E; try discriminate; [reflexivity|].
        cbn in E; injection E as -> E; f_equal; auto.
      + split; [discriminate|]; intros E.
        destruct (run (id_step cmp keep) d1 (map IOp ops)) as [[zs d2]|]; [|discriminate]; inv E.
        destruct ys as [|y ys]; [discriminate|]; cbn in *; injection H0 as -> ->.
        destruct (IH ys d') as [_ IH']; specialize (IH' eq_refl); discriminate.
  Qed.

  Lemma id_enough d0 l ys d :
    run (id_step cmp keep) d0 (map IOp l) = Some (map IOut ys, d) ->
    exists k, forall n, k <= n ->
      m_run (m_id_step cmp keep) d0 (map (fun o => (o, n)) l) = Some (map Some ys, d).
  Proof.
    intros E; apply id_set_step_run in E; revert E; apply run_enough; intros s o; apply agrees_id_step.
  Qed.

  Lemma id_all_done d0 l ys d :
    m_run (m_id_step cmp keep) d0 l = Some (map Some ys, d) ->
    run (id_step cmp keep) d0 (map IOp (map fst l)) = Some (map IOut ys, d).
  Proof.
    intros E; apply id_set_step_run; revert E; apply run_all_done; intros s o; apply agrees_id_step.
  Qed.

  Lemma runs_remove_by_index F d ks lost i q n :
    wid_inv (cmp:=cmp) F d ks lost -> In i (id_qi d) ->
    i_quad_at (id_resources d) (id_quads d) i = Some q ->
    runs (m_id_remove_by_index cmp i true) n d
      (fun _ d' => wid_inv (cmp:=cmp) F d' (del qcmp q ks) lost)
      (fun d' => wid_inv (cmp:=cmp) F d' ks lost \/ wid_inv (cmp:=cmp) F d' (del qcmp q ks) lost).
  Proof.
    intros W Hi Hv; pose proof (wid_idx _ _ _ _ W) as I2.
    unfold m_id_remove_by_index; apply runs_get_then.
    destruct (bt_remove_spec LQ _ _ _ q I2) as (r & qi & E & I2' & Hr).
    assert (Hin : In q ks).
    { destruct I2 as [HM _]; destruct (mapM_in_inv _ _ _ _ HM Hi) as (y & Hy & Hin); congruence. }
    destruct r as [i'|]; [|destruct Hr; contradiction].
    destruct Hr as (Hv' & _ & HP).
    assert (i' = i) as ->.
    { eapply (indexes_inj LQ _ _ _ _ _ _ I2); eauto.
      eapply Permutation_in; [symmetry; exact HP|now left]. }
    clear Hv'; pose proof Hv as Hv0.
    unfold i_quad_at in Hv; destruct (sget (id_quads d) i) as [x|] eqn:Ex; [|discriminate].
    cbn in Hv; destruct (sremove_some _ _ _ Ex) as (qs & Eqs).
    apply runs_andthen.
    eapply runs_quiet_then.
    { eapply quiet_eq; [eapply quiet_m_remove; intros; apply quiet_quad_index_cmp|].
      rewrite (bt_remove_icmp qcmp _ i q _ Hv0); exact E. }
    { auto. }
    intros m; cbn beta iota; apply runs_put; intros m'; apply runs_get_then.
    cbn [id_quads id_resources id_ri id_qi id_s id_p id_o id_dg id_ng].
    eapply runs_need_then; [exact Eqs|]; cbn beta iota; apply runs_put_then.
    eapply runs_weak; [apply (runs_removal L F false d ks lost i x q qs qi m' W Hin Ex Hv Eqs HP I2')| |];
      cbn beta; auto.
  Qed.

  Lemma runs_remove_all g idx : forall d s (b : @bgraph R) t n,
    id_rep (cmp:=cmp) d s -> NoDup idx ->
    (forall i, In i idx -> exists q, i_quad_at (id_resources d) (id_quads d) i = Some q /\ In q s /\ q_g q = g) ->
    bg_rep (cmp:=cmp) b t ->
    runs (m_id_remove_all cmp keep idx b) n d (fun _ _ => True)
      (fun d' => exists s', wid_rep (cmp:=cmp) True d' s' [] /\ (forall q, In q s' -> In q s) /\
                   forall q, In q s -> In q s' \/ q_g q = g).
  Proof.
    induction idx as [|i idx IH]; intros d s b t n H ND Hi Hb; [now apply runs_ret|].
    cbn [m_id_remove_all]; apply runs_get_then.
    destruct (Hi i (or_introl eq_refl)) as (q & Hq & Hs & Hg).
    eapply runs_need_then; [exact Hq|].
    eapply runs_quiet_then; [apply quiet_cloned|exists s; split; [exact (id_rep_weak True _ _ H)|]; auto|].
    clear n; intros n; pose proof H as [Hnd (vs & I)].
    destruct (id_remove_by_index_spec L _ _ _ i q I Hq) as (d1 & vs1 & x & E1 & I1 & D1 & _).
    assert (H1 : id_rep (cmp:=cmp) d1 (del qcmp q s)).
    { split; [now apply (nodup_del (cmp:=qcmp))|]; exists vs1; now rewrite (del_ext L) in I1. }
    assert (Sub : forall y, In y (del qcmp q s) -> In y s) by (intros y Hy; now apply (in_del LQ) in Hy).
    assert (Keep : forall y, In y s -> In y (del qcmp q s) \/ q_g y = g).
    { intros y Hy; destruct (mem qcmp y (del qcmp q s)) eqn:Em; [left; now apply (mem_true LQ) in Em|right].
      apply (mem_false LQ) in Em; rewrite (in_del LQ) in Em.
      destruct (qcmp y q) eqn:Ey.
      - apply (ord_eq _ LQ) in Ey; now subst.
      - exfalso; apply Em; split; [intros ->; rewrite (proj2 (ord_eq _ LQ q q) eq_refl) in Ey; discriminate|exact Hy].
      - exfalso; apply Em; split; [intros ->; rewrite (proj2 (ord_eq _ LQ q q) eq_refl) in Ey; discriminate|exact Hy]. }
    assert (Hl : In i (id_qi d)).
    { apply (ii_live _ _ _ I); unfold i_quad_at in Hq; destruct (sget (id_quads d) i); discriminate. }
    pose proof (runs_remove_by_index True d _ [] i q n (id_inv_weak True _ _ _ I) Hl Hq) as Hr.
    pose proof (agrees_id_remove_by_index cmp d i true) as (k & Hk); rewrite E1 in Hk; cbn [option_map] in Hk.
    destruct (Hk n) as [Hlt Hle].
    apply runs_andthen; unfold runs in *.
    destruct (m_id_remove_by_index cmp i true n d) as [u m d2|d2|]; [| |contradiction].
    - assert (d2 = d1) as ->.
      { destruct (le_lt_dec k n) as [Ho|Ho]; [specialize (Hle Ho); congruence|].
        destruct (Hlt Ho); discriminate. }
      assert (Next : forall b1 t1 m1, bg_rep (cmp:=cmp) b1 t1 ->
        runs (m_id_remove_all cmp keep idx b1) m1 d1 (fun _ _ => True)
          (fun d' => exists s', wid_rep (cmp:=cmp) True d' s' [] /\ (forall q, In q s' -> In q s) /\
                   forall q, In q s -> In q s' \/ q_g q = g)).
      { intros b1 t1 m1 Hb1; inv ND.
        eapply runs_weak; [apply (IH d1 (del qcmp q s) b1 t1 m1 H1); auto|auto|].
        - intros j Hj; destruct (Hi j (or_intror Hj)) as (qj & Hqj & Hsj & Hgj).
          assert (Hne : j <> i) by (intros ->; contradiction).
          assert (Hj1 : exists y, sget (id_quads d1) j = Some y /\ sget (id_quads d) j = Some y).
          { destruct D1 as (Er & _); rewrite (sget_sremove _ _ _ _ _ Er).
            apply Nat.eqb_neq in Hne; rewrite Hne.
            unfold i_quad_at in Hqj; destruct (sget (id_quads d) j); [eauto|discriminate]. }
          destruct Hj1 as (y & Hy1 & Hy).
          destruct H1 as [_ (vs1' & I1')].
          destruct (id_live_value _ _ _ _ _ I1' Hy1) as (z & Hz & Hzin).
          destruct D1 as (_ & M & _).
          assert (z = qj).
          { pose proof (iqwr_mono _ _ _ _ M Hz) as Hz'; unfold i_quad_at in Hqj; rewrite Hy in Hqj; cbn in Hqj.
            congruence. }
          subst z; exists qj; split; [unfold i_quad_at; now rewrite Hy1|]; split; [|exact Hgj].
          apply (in_sorted_elements (cmp:=qcmp)); exact Hzin.
        - intros d' (s' & W' & A & B); exists s'; split; [exact W'|]; split; [auto|].
          intros y Hy; destruct (Keep y Hy) as [Hy'|]; auto. }
      intros m0; unfold local; unfold andthen.
      destruct (bg_insert_rep L keep b t (fst (into_triple q)) Hb) as (b1 & Eb & Hb1).
      pose proof (agrees_bg_step (cmp:=cmp) keep b (Insert (fst (into_triple q)))) as (k2 & Hk2).
      cbn [bg_step m_bg_step] in Hk2; rewrite Eb in Hk2; cbn [bind] in Hk2; destruct (Hk2 m0) as [Hlt2 Hle2].
      unfold andthen in Hlt2, Hle2.
      destruct (m_bg_insert cmp keep (fst (into_triple q)) m0 b) as [x2 m2 b2|b2|b2].
      + assert (b2 = b1) as ->.
        { destruct (le_lt_dec k2 m0) as [Ho|Ho]; [specialize (Hle2 Ho); unfold ret in Hle2; congruence|].
          destruct (Hlt2 Ho); discriminate. }
        exact (Next b1 _ m2 Hb1).
      + exists (del qcmp q s); split; [exact (id_rep_weak True _ _ H1)|]; split; [exact Sub|exact Keep].
      + destruct (le_lt_dec k2 m0) as [Ho|Ho]; [specialize (Hle2 Ho); discriminate|].
        destruct (Hlt2 Ho); discriminate.
    - destruct Hr as [W|W].
      + exists s; split; [split; assumption|]; auto.
      + exists (del qcmp q s); rewrite (del_ext L) in W by assumption.
        split; [split; [now apply (nodup_del (cmp:=qcmp))|exact W]|]; split; [exact Sub|exact Keep].
  Qed.

  Lemma runs_remove_graph d s g n :
    id_rep (cmp:=cmp) d s ->
    runs (m_id_remove_graph cmp keep g) n d (fun _ _ => True)
      (fun d' => exists s', wid_rep (cmp:=cmp) True d' s' [] /\ (forall q, In q s' -> In q s) /\
                   forall q, In q s -> In q s' \/ q_g q = g).
  Proof.
    intros H; pose proof (agrees_id_remove_graph cmp keep d g) as Ag.
    unfold m_id_remove_graph.
    destruct (id_graph_indexes L d s g H) as (r & Er & Hidx).
    match goal with |- runs (andthen ?m _) _ _ _ _ =>
      assert (A : agrees m d (Some (r, d))) end.
    { destruct g as [g|]; [|inv Er; apply agrees_get, agrees_ret].
      pose proof (agrees_i_index_of cmp (id_resources d) (id_ri d) g) as A.
      destruct (i_index_of_resource cmp (id_resources d) (id_ri d) g) as [f|]; [|discriminate].
      cbn [bind option_map] in *; eapply agrees_id_table; [exact A|].
      replace (IDataset (id_resources d) (id_quads d) (id_ri d) (id_qi d) (id_s d) (id_p d) (id_o d) (id_dg d) (id_ng d))
        with d by (destruct d; reflexivity).
      apply agrees_get; destruct f as [k|]; [|inv Er; apply agrees_ret].
      destruct (ns_mem k (id_ng d)); [|inv Er; apply agrees_ret].
      destruct (sget (id_resources d) k); [|discriminate]; cbn in Er; inv Er.
      apply agrees_need_then, agrees_ret. }
    assert (Quiet : forall (B : Type) (f : option (list nat) -> act (@idataset R) B) P (E : _ -> Prop),
              E d -> (forall m, runs (f r) m d P E) ->
              forall m, agrees m d (Some (r, d)) ->
              (forall n d', m n d = Interrupted d' -> d' = d) -> runs (andthen m f) n d P E).
    { intros B f P E He Hf m (k & Hk) Hint; unfold runs, andthen in *; destruct (Hk n) as [Hlt Hle].
      destruct (le_lt_dec k n) as [Ho|Ho].
      - rewrite (Hle Ho); apply Hf.
      - destruct (Hlt Ho) as (d' & Ed); rewrite Ed; now rewrite (Hint _ _ Ed). }
    apply Quiet.
    - exists s; split; [exact (id_rep_weak True _ _ H)|]; auto.
    - intros m; destruct r as [idx|]; [|now apply runs_ret].
      apply runs_andthen; destruct Hidx as (ND & Hin & _).
      eapply runs_weak; [apply (runs_remove_all g idx d s bg_new [] m H ND Hin); apply bg_rep_new|cbn beta|auto].
      intros b d' _ m'; now apply runs_ret.
    - exact A.
    - clear; intros n d'; destruct g as [g|]; [|discriminate].
      assert (Q : exists x, quiet (m_get (St:=@itable R) (m_resource_cmp cmp (ir_val (id_resources d))) g (id_ri d)) x).
      { eexists; eapply quiet_m_get; intros; apply quiet_resource_cmp. }
      destruct Q as (x & k & Hq).
      unfold m_id_table, zoom, m_i_index_of_resource, andthen at 1 3, get at 1; cbn.
      unfold andthen at 1; cbn; rewrite Hq.
      destruct (n <? k); cbn.
      + intros E; inv E; destruct d; reflexivity.
      + destruct x as [[kk|]|]; cbn; try discriminate.
        destruct (ns_mem kk (id_ng d)); cbn; [|discriminate].
        destruct (sget (id_resources d) kk); cbn; discriminate.
  Qed.

  (** With enough comparisons [remove_graph] is the one of the model without
      panics; with fewer it is interrupted, and never panics by itself. *)
  Lemma id_remove_graph_same ops0 ops xs d g :
    id_reached cmp keep ops0 ops xs d ->
    exists r d', id_remove_graph cmp keep d g = Some (r, d') /\
      exists k, forall n,
        (k <= n -> m_id_remove_graph cmp keep g n d = Done r (n - k) d') /\
        (n < k -> exists d', m_id_remove_graph cmp keep g n d = Interrupted d').
  Proof.
    intros H.
    destruct (id_remove_graph_any L keep _ _ _ d g H) as (r & d' & _ & E & _).
    exists r, d'; split; [exact E|].
    destruct (agrees_id_remove_graph cmp keep d g) as (k & Hk); rewrite E in Hk.
    exists k; intros n; destruct (Hk n); auto.
  Qed.

  Lemma id_remove_graph_interrupted ops0 ops xs d g n d' :
    id_reached cmp keep ops0 ops xs d ->
    m_id_remove_graph cmp keep g n d = Interrupted d' ->
    exists s0, NoDup s0 /\
      (forall q, In q s0 -> In q (final_set cmp ops0 ops xs)) /\
      (forall q, In q (final_set cmp ops0 ops xs) -> q_g q <> g -> In q s0) /\
      id_iter d' = Some (sorted_elements qcmp s0) /\ id_len d' = length s0 /\
      forall l, exists ys d2 s lost,
        m_run (m_id_step cmp keep) d' l = Some (ys, d2) /\
        history qcmp s0 [] (map fst l) ys s lost /\
        id_len d2 = length s + length lost /\ id_iter d2 = Some (sorted_elements qcmp s) /\
        id_queries_within cmp d2 (s ++ lost).
  Proof.
    intros H E; apply (reached_rep L) in H.
    pose proof (runs_remove_graph d _ g n H) as Hr; unfold runs in Hr; rewrite E in Hr.
    destruct Hr as (s0 & W & Sub & Keep).
    exists s0; split; [exact (proj1 W)|]; split; [exact Sub|].
    split; [intros q Hq Hg; destruct (Keep q Hq); [assumption|contradiction]|].
    destruct (wid_reads L _ _ _ _ W) as (A & B & _).
    split; [exact B|]; split; [now rewrite Nat.add_0_r in A|].
    intros l; destruct (run_id_history L keep True l _ _ _ W) as (ys & d2 & s & lost & Er & Hh & W2).
    destruct (wid_reads L _ _ _ _ W2) as (A2 & B2 & _).
    exists ys, d2, s, lost; split; [exact Er|]; split; [exact Hh|]; split; [exact A2|]; split; [exact B2|].
    exact (wid_queries L _ _ _ W2).
  Qed.

  (** ** From a [BTreeDataset] whose history was interrupted *)
  Lemma id_interrupted_converted (l0 l : list (op (quad R) * nat)) :
    exists ys0 b s0 lost0 d0,
      m_run (m_bd_step cmp keep) bd_new l0 = Some (ys0, b) /\
      history qcmp [] [] (map fst l0) ys0 s0 lost0 /\
      id_from_non_indexed b = Some d0 /\
      exists ys d s lost vs,
        m_run (m_id_step cmp keep) d0 l = Some (ys, d) /\
        history qcmp s0 lost0 (map fst l) ys s lost /\
        id_len d = length s + length lost /\ id_iter d = Some (sorted_elements qcmp s) /\
        id_resources_iter d = Some vs /\ increasing cmp vs /\
        (forall v, id_contains_resource cmp d v = Some (mem cmp v vs)) /\
        (lost0 = [] ->
         id_queries_within cmp d (s ++ lost)).
  Proof.
    destruct (run_history L keep l0 bd_new [] []) as (ys0 & b & s0 & lost0 & E0 & H0 & W0);
      [apply wd_rep_new|].
    assert (Q : forall F : Prop, (F -> lost0 = []) ->
      exists d0, id_from_non_indexed b = Some d0 /\
        exists ys d s lost, m_run (m_id_step cmp keep) d0 l = Some (ys, d) /\
          history qcmp s0 lost0 (map fst l) ys s lost /\ wid_rep (cmp:=cmp) F d s lost).
    { intros F HF; destruct (convert_weak L b s0 lost0 F W0 HF) as (d0 & Ec & W).
      destruct (run_id_history L keep F l _ _ _ W) as (ys & d & s & lost & E & Hh & W').
      exists d0; split; [exact Ec|]; now exists ys, d, s, lost. }
    destruct (Q (lost0 = []) (fun x => x)) as (d0 & Ec & ys & d & s & lost & E & Hh & W).
    exists ys0, b, s0, lost0, d0; split; [exact E0|]; split; [exact H0|]; split; [exact Ec|].
    destruct (wid_reads L _ _ _ _ W) as (A & B & vs & C & D & G).
    exists ys, d, s, lost, vs.
    split; [exact E|]; split; [exact Hh|]; split; [exact A|]; split; [exact B|].
    split; [exact C|]; split; [exact D|]; split; [exact G|].
    intros Hz; apply (wid_queries L).
    exact (wid_rep_imp _ True _ _ _ (fun _ => Hz) W).
  Qed.

  (** ** The graph *)
  Lemma ig_interrupted (l0 l : list (op (triple R) * nat)) :
    exists ys0 b s0 lost0 g0,
      m_run (m_bg_step cmp keep) bg_new l0 = Some (ys0, b) /\
      history tcmp [] [] (map fst l0) ys0 s0 lost0 /\
      ig_from_non_indexed b = Some g0 /\
      exists ys g s lost vs,
        m_run (m_ig_step cmp keep) g0 l = Some (ys, g) /\
        history tcmp s0 lost0 (map fst l) ys s lost /\
        ig_len g = length s + length lost /\ ig_iter g = Some (sorted_elements tcmp s) /\
        ig_resources_iter g = Some vs /\ increasing cmp vs /\
        (forall v, ig_contains_resource cmp g v = Some (mem cmp v vs)) /\
        (lost0 = [] ->
         ig_queries_within cmp g (s ++ lost)).
  Proof.
    destruct (run_bg_history L keep l0 bg_new [] []) as (ys0 & b & s0 & lost0 & E0 & H0 & W0);
      [apply wg_rep_new|].
    assert (Q : forall F : Prop, (F -> lost0 = []) ->
      exists d0, ig_from_non_indexed b = Some d0 /\
        exists ys d s lost, m_run (m_ig_step cmp keep) d0 l = Some (ys, d) /\
          history tcmp s0 lost0 (map fst l) ys s lost /\ wig_rep (cmp:=cmp) F d s lost).
    { intros F HF; destruct (convert_weak_graph L b s0 lost0 F W0 HF) as (d0 & Ec & W).
      destruct (run_ig_history L keep F l _ _ _ W) as (ys & d & s & lost & E & Hh & W').
      exists d0; split; [exact Ec|]; now exists ys, d, s, lost. }
    destruct (Q (lost0 = []) (fun x => x)) as (d0 & Ec & ys & d & s & lost & E & Hh & W).
    exists ys0, b, s0, lost0, d0; split; [exact E0|]; split; [exact H0|]; split; [exact Ec|].
    destruct (wig_reads L _ _ _ _ W) as (A & B & vs & C & D & G).
    exists ys, d, s, lost, vs.
    split; [exact E|]; split; [exact Hh|]; split; [exact A|]; split; [exact B|].
    split; [exact C|]; split; [exact D|]; split; [exact G|].
    intros Hz; apply (wig_queries L).
    destruct W as [dg W]; exists dg; exact (wid_rep_imp _ True _ _ _ (fun _ => Hz) W).
  Qed.

  Lemma ig_enough g0 l ys g :
    run (ig_step cmp keep) g0 l = Some (ys, g) ->
    exists k, forall n, k <= n ->
      m_run (m_ig_step cmp keep) g0 (map (fun o => (o, n)) l) = Some (map Some ys, g).
  Proof. apply run_enough; intros s o; apply agrees_ig_step. Qed.

  Lemma ig_all_done g0 l ys g :
    m_run (m_ig_step cmp keep) g0 l = Some (map Some ys, g) ->
    run (ig_step cmp keep) g0 (map fst l) = Some (ys, g).
  Proof. apply run_all_done; intros s o; apply agrees_ig_step. Qed.
End Proofs.
