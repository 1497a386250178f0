(** Operations that do not change the set do not change the container at all, whether
    they are interrupted or not. *)
From Coq Require Import List Bool Arith Lia Permutation.
Import ListNotations.
From Verif Require Import Base SlabModel TripleModel SetSpec ContainerSpec IndexedSpec Machine BaseProofs
  BResourceModel BTreeDatasetModel BTreeDatasetProofs BTreeGraphModel BTreeGraphProofs IResourceModel
  IndexedDatasetModel IndexedDatasetProofs IndexedHistoryProofs IndexedRunProofs IndexedGraphModel IndexedGraphProofs
  CrashModel CrashSpec CrashProofs BCrashProofs BGCrashProofs CrashHistoryProofs
  ICrashModel ICrashProofs ICrashReads IGCrashProofs ICrashConvert ICrashHistory.

Section Proofs.
  Context {R : Type} {cmp : R -> R -> comparison} (L : ord_laws cmp).
  Context (keep : bool).
  Notation qcmp := (quad_cmp cmp).
  Notation tcmp := (triple_cmp cmp).
  Let LQ : ord_laws qcmp := quad_cmp_laws cmp L.

  (** ** [BTreeDataset] *)
  Lemma bd_insert_idle (d : @bdataset R) s lost q n :
    wd_rep (cmp:=cmp) d s lost -> mem qcmp q s = true ->
    runs (m_bd_insert cmp keep q) n d (fun b d' => b = false /\ d' = d) (fun d' => d' = d).
  Proof.
    intros [Hn W] Hq; unfold m_bd_insert; apply runs_andthen.
    eapply runs_weak; [apply (runs_contains L _ _ _ q n W)| |]; cbn beta; [|auto].
    intros b d' [-> ->] m; rewrite (mem_sorted L), Hq; now apply runs_ret.
  Qed.

  Lemma bd_extend_idle (d : @bdataset R) s lost l : forall n,
    wd_rep (cmp:=cmp) d s lost -> (forall q, In q l -> mem qcmp q s = true) ->
    runs (m_bd_extend cmp keep l) n d (fun _ d' => d' = d) (fun d' => d' = d).
  Proof.
    induction l as [|q l IH]; intros n W H; [now apply runs_ret|].
    cbn [m_bd_extend]; apply runs_andthen.
    eapply runs_weak; [apply (bd_insert_idle _ _ _ q n W), H; now left| |]; cbn beta; [|auto].
    intros b d' [-> ->] m; apply IH; [exact W|]; intros; apply H; now right.
  Qed.

  Lemma bd_step_idle (d : @bdataset R) s lost o :
    wd_rep (cmp:=cmp) d s lost -> idle qcmp s o ->
    leaves_as_is (m_bd_step cmp keep o) d (answer qcmp s lost o).
  Proof.
    intros W H n.
    cut (runs (m_bd_step cmp keep o) n d (fun _ d' => d' = d) (fun d' => d' = d)).
    { pose proof (runs_step L keep d s lost o n W) as A; unfold runs in *.
      destruct (m_bd_step cmp keep o n d); tauto. }
    destruct o as [q|q|l|q| | | |]; cbn [m_bd_step idle] in *.
    - apply runs_andthen; eapply runs_weak; [exact (bd_insert_idle _ _ _ q n W H)| |]; cbn beta; [|auto].
      intros b d' [_ ->] m; now apply runs_ret.
    - apply runs_andthen; destruct W as [Hn Wi]; pose proof (wd_idx _ _ _ Wi) as I2.
      assert (A : runs (m_bd_remove cmp q) n d (fun _ d' => d' = d) (fun d' => d' = d)).
      { unfold m_bd_remove; apply runs_get_then.
        destruct (bt_remove_spec LQ _ _ _ q I2) as (r & qi & E & I2' & Hr).
        eapply runs_quiet_then; [eapply quiet_eq; [eapply quiet_m_remove; intros; apply quiet_quad_at_cmp|exact E]
                                |reflexivity|].
        intros m; cbn beta iota; apply runs_put_then; destruct r as [i|].
        * exfalso; destruct Hr as (_ & Hin & _); apply (mem_true LQ) in Hin; rewrite (mem_sorted L) in Hin; congruence.
        * destruct Hr as [_ ->]; apply runs_ret; destruct d; reflexivity. }
      eapply runs_weak; [exact A| |]; cbn beta; [|auto].
      intros b d' -> m; now apply runs_ret.
    - apply runs_andthen; eapply runs_weak; [exact (bd_extend_idle _ _ _ l n W H)| |]; cbn beta; [|auto].
      intros b d' -> m; now apply runs_ret.
    - apply runs_andthen; eapply runs_weak; [apply (runs_contains L _ _ _ q n (proj2 W))| |]; cbn beta; [|auto].
      intros b d' [_ ->] m; now apply runs_ret.
    - apply runs_get_then; now apply runs_ret.
    - apply runs_get_then; now apply runs_ret.
    - apply runs_get_then; pose proof W as [Hn Wi]; pose proof (wd_idx _ _ _ Wi) as [HM _].
      eapply runs_need_then; [exact HM|]; now apply runs_ret.
    - pose proof (runs_step L keep d s lost IntoIter n W) as A; cbn [m_bd_step] in A.
      unfold runs, andthen, get, need, ret in *; destruct (bd_into_iter d); auto.
  Qed.

  Lemma bd_idle (l : list (op (quad R) * nat)) :
    exists ys d s lost,
      m_run (m_bd_step cmp keep) bd_new l = Some (ys, d) /\
      history qcmp [] [] (map fst l) ys s lost /\
      forall o, idle qcmp s o -> leaves_as_is (m_bd_step cmp keep o) d (answer qcmp s lost o).
  Proof.
    destruct (run_history L keep l _ _ _ (wd_rep_new (cmp:=cmp))) as (ys & d & s & lost & E & Hh & W).
    exists ys, d, s, lost; split; [exact E|]; split; [exact Hh|].
    intros o; now apply bd_step_idle.
  Qed.

  (** ** [BTreeGraph] *)
  Lemma iemb_inj (g g' : @igraph R) dg dg' : iemb g dg = iemb g' dg' -> g = g'.
  Proof.
    destruct g as [r t i j a b c], g' as [r' t' i' j' a' b' c']; unfold iemb;
      cbn [ig_resources ig_triples ig_ri ig_ti ig_s ig_p ig_o]; intros E.
    assert (smap iq t = smap iq t') by congruence; assert (t = t') by now apply smap_iq_inj.
    congruence.
  Qed.

  Lemma idle_iq s o : idle tcmp s o -> idle qcmp (map iq s) (op_iq o).
  Proof.
    destruct o as [t|t|l|t| | | |]; cbn; rewrite ?mem_iq; auto.
    intros H q Hq; apply in_map_iff in Hq as (t & <- & Ht); rewrite mem_iq; auto.
  Qed.

  Lemma bg_idle (l : list (op (triple R) * nat)) :
    exists ys g s lost,
      m_run (m_bg_step cmp keep) bg_new l = Some (ys, g) /\
      history tcmp [] [] (map fst l) ys s lost /\
      forall o, idle tcmp s o -> leaves_as_is (m_bg_step cmp keep o) g (answer tcmp s lost o).
  Proof.
    destruct (run_bg_history L keep l _ _ _ (wg_rep_new (cmp:=cmp))) as (ys & g & s & lost & E & Hh & W).
    exists ys, g, s, lost; split; [exact E|]; split; [exact Hh|].
    intros o Ho n; apply idle_iq in Ho.
    pose proof (bd_step_idle _ _ _ _ W Ho n) as A.
    pose proof (sim_bg_step (cmp:=cmp) keep o n g (emb g) eq_refl) as S.
    destruct (m_bg_step cmp keep o n g) as [x m g'|g'|g'],
      (m_bd_step cmp keep (op_iq o) n (emb g)) as [y m' d'|d'|d']; try contradiction.
    - destruct S as (-> & _ & S), A as [A1 A2]; unfold gd in S; subst d'.
      split; [rewrite answer_iq in A1; now apply out_iq_inj|now apply emb_inj].
    - unfold gd in S; subst d'; now apply emb_inj.
  Qed.

  (** ** [IndexedBTreeDataset] *)
  Lemma id_insert_idle F (d : @idataset R) s lost q n :
    wid_rep (cmp:=cmp) F d s lost -> mem qcmp q s = true ->
    runs (m_id_insert cmp keep q) n d (fun b d' => b = false /\ d' = d) (fun d' => d' = d).
  Proof.
    intros [Hn W] Hq; unfold m_id_insert; apply runs_andthen.
    eapply runs_weak; [apply (runs_id_contains L F _ _ _ q n W)| |]; cbn beta; [|auto].
    intros b d' [-> ->] m; rewrite (mem_sorted L), Hq; now apply runs_ret.
  Qed.

  Lemma id_extend_idle F (d : @idataset R) s lost l : forall n,
    wid_rep (cmp:=cmp) F d s lost -> (forall q, In q l -> mem qcmp q s = true) ->
    runs (m_id_extend cmp keep l) n d (fun _ d' => d' = d) (fun d' => d' = d).
  Proof.
    induction l as [|q l IH]; intros n W H; [now apply runs_ret|].
    cbn [m_id_extend]; apply runs_andthen.
    eapply runs_weak; [apply (id_insert_idle F _ _ _ q n W), H; now left| |]; cbn beta; [|auto].
    intros b d' [-> ->] m; apply IH; [exact W|]; intros; apply H; now right.
  Qed.

  Lemma id_step_idle F byval (d : @idataset R) s lost o :
    wid_rep (cmp:=cmp) F d s lost -> idle qcmp s o ->
    leaves_as_is (m_step_as (cmp:=cmp) keep byval o) d (answer qcmp s lost o).
  Proof.
    intros W H n.
    cut (runs (m_step_as (cmp:=cmp) keep byval o) n d (fun _ d' => d' = d) (fun d' => d' = d)).
    { pose proof (runs_id_step L keep F byval d s lost o n W) as A; unfold runs in *.
      destruct (m_step_as keep byval o n d); tauto. }
    destruct o as [q|q|l|q| | | |]; cbn [m_step_as m_id_step idle] in *.
    - apply runs_andthen; eapply runs_weak; [exact (id_insert_idle F _ _ _ q n W H)| |]; cbn beta; [|auto].
      intros b d' [_ ->] m; now apply runs_ret.
    - apply runs_andthen; destruct W as [Hn Wi]; pose proof (wid_idx _ _ _ _ Wi) as I2.
      assert (A : runs (m_remove_as (cmp:=cmp) byval q) n d (fun _ d' => d' = d) (fun d' => d' = d)).
      { unfold m_remove_as; apply runs_get_then.
        destruct (bt_remove_spec LQ _ _ _ q I2) as (r & qi & E & I2' & Hr).
        eapply runs_quiet_then; [eapply quiet_eq; [eapply quiet_m_remove; intros; apply quiet_quad_at_cmp|exact E]
                                |reflexivity|].
        intros m; cbn beta iota; apply runs_put_then; destruct r as [i|].
        * exfalso; destruct Hr as (_ & Hin & _); apply (mem_true LQ) in Hin; rewrite (mem_sorted L) in Hin; congruence.
        * destruct Hr as [_ ->]; apply runs_ret; destruct d; reflexivity. }
      eapply runs_weak; [exact A| |]; cbn beta; [|auto].
      intros b d' -> m; now apply runs_ret.
    - apply runs_andthen; eapply runs_weak; [exact (id_extend_idle F _ _ _ l n W H)| |]; cbn beta; [|auto].
      intros b d' -> m; now apply runs_ret.
    - apply runs_andthen; eapply runs_weak; [apply (runs_id_contains L F _ _ _ q n (proj2 W))| |]; cbn beta; [|auto].
      intros b d' [_ ->] m; now apply runs_ret.
    - apply runs_get_then; now apply runs_ret.
    - apply runs_get_then; now apply runs_ret.
    - apply runs_get_then; pose proof W as [Hn Wi]; pose proof (wid_idx _ _ _ _ Wi) as [HM _].
      eapply runs_need_then; [exact HM|]; now apply runs_ret.
    - pose proof (runs_id_step L keep F byval d s lost IntoIter n W) as A; cbn [m_step_as m_id_step] in A.
      unfold runs, andthen, get, need, ret in *; destruct (id_into_iter d); auto.
  Qed.

  Lemma id_idle ops0 ops xs d0 (l : list (op (quad R) * nat)) :
    id_reached cmp keep ops0 ops xs d0 ->
    exists ys d s lost,
      m_run (m_id_step cmp keep) d0 l = Some (ys, d) /\
      history qcmp (final_set cmp ops0 ops xs) [] (map fst l) ys s lost /\
      forall o, idle qcmp s o -> leaves_as_is (m_id_step cmp keep o) d (answer qcmp s lost o).
  Proof.
    intros H; apply (reached_rep L) in H; apply (id_rep_weak L True) in H.
    destruct (run_id_history L keep True l _ _ _ H) as (ys & d & s & lost & E & Hh & W).
    exists ys, d, s, lost; split; [exact E|]; split; [exact Hh|].
    intros o Ho n; rewrite <- m_step_as_false; exact (id_step_idle True false _ _ _ _ W Ho n).
  Qed.

  Lemma id_idle_converted (l0 l : list (op (quad R) * nat)) :
    exists ys0 b s0 lost0 d0,
      m_run (m_bd_step cmp keep) bd_new l0 = Some (ys0, b) /\
      history qcmp [] [] (map fst l0) ys0 s0 lost0 /\
      id_from_non_indexed b = Some d0 /\
      exists ys d s lost,
        m_run (m_id_step cmp keep) d0 l = Some (ys, d) /\
        history qcmp s0 lost0 (map fst l) ys s lost /\
        forall o, idle qcmp s o -> leaves_as_is (m_id_step cmp keep o) d (answer qcmp s lost o).
  Proof.
    destruct (run_history L keep l0 bd_new [] []) as (ys0 & b & s0 & lost0 & E0 & H0 & W0);
      [apply wd_rep_new|].
    destruct (convert_weak L b s0 lost0 False W0) as (d0 & Ec & W); [contradiction|].
    destruct (run_id_history L keep False l _ _ _ W) as (ys & d & s & lost & E & Hh & W').
    exists ys0, b, s0, lost0, d0; split; [exact E0|]; split; [exact H0|]; split; [exact Ec|].
    exists ys, d, s, lost; split; [exact E|]; split; [exact Hh|].
    intros o Ho n; rewrite <- m_step_as_false; exact (id_step_idle False false _ _ _ _ W' Ho n).
  Qed.

  (** ** [IndexedBTreeGraph] *)
  Lemma ig_idle (l0 l : list (op (triple R) * nat)) :
    exists ys0 b s0 lost0 g0,
      m_run (m_bg_step cmp keep) bg_new l0 = Some (ys0, b) /\
      history tcmp [] [] (map fst l0) ys0 s0 lost0 /\
      ig_from_non_indexed b = Some g0 /\
      exists ys g s lost,
        m_run (m_ig_step cmp keep) g0 l = Some (ys, g) /\
        history tcmp s0 lost0 (map fst l) ys s lost /\
        forall o, idle tcmp s o -> leaves_as_is (m_ig_step cmp keep o) g (answer tcmp s lost o).
  Proof.
    destruct (run_bg_history L keep l0 bg_new [] []) as (ys0 & b & s0 & lost0 & E0 & H0 & W0);
      [apply wg_rep_new|].
    destruct (convert_weak_graph L b s0 lost0 False W0) as (d0 & Ec & W); [contradiction|].
    destruct (run_ig_history L keep False l _ _ _ W) as (ys & g & s & lost & E & Hh & dg & W').
    exists ys0, b, s0, lost0, d0; split; [exact E0|]; split; [exact H0|]; split; [exact Ec|].
    exists ys, g, s, lost; split; [exact E|]; split; [exact Hh|].
    intros o Ho n; apply idle_iq in Ho.
    pose proof (id_step_idle False true _ _ _ _ W' Ho n) as A.
    pose proof (sim_ig_step (cmp:=cmp) keep o n g (iemb g dg) (ex_intro _ dg eq_refl)) as S.
    destruct (m_ig_step cmp keep o n g) as [x m g'|g'|g'],
      (m_step_as keep true (op_iq o) n (iemb g dg)) as [y m' d'|d'|d']; try contradiction.
    - destruct S as (-> & _ & dg' & ->), A as [A1 A2].
      split; [rewrite answer_iq in A1; now apply out_iq_inj|now apply iemb_inj in A2].
    - destruct S as [dg' ->]; now apply iemb_inj in A.
  Qed.
End Proofs.
