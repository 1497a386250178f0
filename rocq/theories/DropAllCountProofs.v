(** How many times the destructor of resources is called by [remove_graph] and by extractions. *)
From Coq Require Import List Bool Arith Lia Permutation.
Import ListNotations.
From Verif Require Import Base SlabModel TripleModel QuadPatternModel SetSpec ContainerSpec IndexedSpec Machine BaseProofs BResourceModel
  BResourceProofs BTreeDatasetModel BTreeDatasetProofs BTreeGraphModel BTreeGraphProofs IResourceModel IResourceProofs
  IndexedDatasetModel IndexedDatasetProofs IndexedHistoryProofs IndexedRunProofs IterModel IterSpec IterProofs
  CrashModel CrashSpec ICrashSpec CrashProofs BCrashProofs CrashAgree BGCrashProofs
  ICrashModel ICrashProofs ICrashReads ICrashAgree ICrashHistory ExtractCrashModel ExtractCrashSpec ExtractCrashProofs
  SurviveSpec SurviveModel SurviveProofs DropSpec DropModel DropProofs DropIProofs DropCountProofs DropAllModel DropAllProofs.
Open Scope act_scope.

Section Rules.
  Context {St : Type}.
  Lemma costs_quiet {A} (a : act St A) x s : quiet a (Some x) -> exists k, costs a s k x s.
  Proof.
    intros [k Q]; exists k; intros n; rewrite Q; split; intros Hn.
    - apply Nat.ltb_lt in Hn; rewrite Hn; eauto.
    - apply Nat.ltb_ge in Hn; now rewrite Hn.
  Qed.

  Lemma costs_local {T A} (a : act T A) t k x t' (s : St) :
    costs a t k x t' -> costs (local a t) s k (x, t') s.
  Proof.
    intros C n; unfold local; destruct (C n) as [C1 C2]; split; intros Hn.
    - destruct (C1 Hn) as (u & ->); eauto.
    - rewrite (C2 Hn); reflexivity.
  Qed.

  Lemma costs_zoom {T A} (g : St -> T) (p : T -> St -> St) (a : act T A) s k x t :
    costs a (g s) k x t -> costs (zoom g p a) s k x (p t s).
  Proof.
    intros C n; unfold zoom; destruct (C n) as [C1 C2]; split; intros Hn.
    - destruct (C1 Hn) as (u & ->); eauto.
    - rewrite (C2 Hn); reflexivity.
  Qed.

  Lemma costs_unique {A} (a : act St A) s k x s' k' y s'' : costs a s k x s' -> costs a s k' y s'' -> x = y /\ s' = s''.
  Proof.
    intros C C'; destruct (C (k + k')) as [_ E], (C' (k + k')) as [_ E'].
    rewrite E in E' by lia; specialize (E' ltac:(lia)); inv E'; auto.
  Qed.
End Rules.

Section Count.
  Context {R : Type} {cmp : R -> R -> comparison} (L : ord_laws cmp).
  Context (keep : bool).
  Notation qcmp := (quad_cmp cmp).
  Notation wrep := (wid_rep (cmp:=cmp) True).
  Notation outs := (taken_out qcmp).
  Notation iheld := (fun d : @idataset R => slen (id_resources d)).
  Notation iwf := (fun d : @idataset R => swf (id_resources d)).
  Notation gheld := (fun g : @bgraph R => slen (bg_resources g)).
  Notation gwf := (fun g : @bgraph R => swf (bg_resources g)).

  Lemma spends_bg_insert t g : gwf g ->
    spends gheld gwf 3 (d_bg_insert cmp keep t) (m_bg_insert cmp keep t) g.
  Proof.
    intros W; assert (Hinj : forall x x' (y : bool), x = y -> x' = y -> x = x') by congruence.
    destruct (spends_bd_insert cmp keep (iq t) (emb g) W) as [(k & j & y & d & B1 & A1 & H1 & E1)|N].
    - destruct (costs_emb _ Hinj _ _ _ _ _ _ (sim_bg_insert (cmp:=cmp) keep t) B1) as (x & g' & B2 & Hx & ->).
      destruct (costs_emb _ Hinj _ _ _ _ _ _ (sim_d_bg_insert (cmp:=cmp) keep t) A1) as (x2 & g2 & A2 & Hx2 & E2).
      apply emb_inj in E2; subst g2; rewrite (Hinj _ _ _ Hx2 Hx) in A2.
      left; exists k, j, x, g'; split; [exact B2|]; split; [exact A2|]; split; [exact H1|exact E1].
    - right; eapply agrees_emb_none; [apply sim_bg_insert|exact N].
  Qed.

  Lemma spends_id_remove_by_index i b d : iwf d ->
    spends iheld iwf 0 (d_id_remove_by_index cmp i b) (m_id_remove_by_index cmp i b) d.
  Proof.
    intros W; unfold d_id_remove_by_index, m_id_remove_by_index; apply spends_get.
    apply (spends_then _ _ 0 0).
    { destruct b; [|apply spends_ret; exact W].
      eapply spends_quiet; [eapply quiet_m_remove; intros; apply quiet_quad_index_cmp|].
      intros [f qi] _; apply spends_put_end; [exact W|reflexivity]. }
    intros _ s0 W0; apply spends_get.
    apply spends_need; intros [x qs] _; apply spends_put; [reflexivity|].
    apply (spends_then _ _ 0 0); [now apply spends_id_release|]; intros _ s1 W1.
    apply (spends_then _ _ 0 0); [now apply spends_id_release|]; intros _ s2 W2.
    apply (spends_then _ _ 0 0); [now apply spends_id_release|]; intros _ s3 W3.
    destruct (q_g x).
    - apply (spends_then _ _ 0 0); [now apply spends_id_release|]; intros gone s4 W4.
      apply spends_get, spends_put_end; [exact W4|reflexivity].
    - apply spends_get, spends_put_end; [exact W3|reflexivity].
  Qed.

  Notation total qs := (fold_right (fun q n => quad_values q + n) 0 qs).

  Lemma spends_remove_all idx : forall d s lost b,
    wrep d s lost -> gwf b ->
    (exists qs k j b' d' s' lost',
       outs qs s lost s' lost' /\ wrep d' s' lost' /\
       costs (m_id_remove_all cmp keep idx b) d k b' d' /\
       costs (d_id_remove_all cmp keep idx b) d (k + j) b' d' /\
       j + iheld d' + gheld b' = total qs + iheld d + gheld b) \/
    agrees (m_id_remove_all cmp keep idx b) d None.
  Proof.
    induction idx as [|i idx IH]; intros d s lost b W Wb; cbn [d_id_remove_all m_id_remove_all].
    { left; exists [], 0, 0, b, d, s, lost; split; [constructor|]; split; [exact W|].
      split; [apply costs_ret|]; split; [apply costs_ret|reflexivity]. }
    destruct (i_quad_at (id_resources d) (id_quads d) i) as [q|] eqn:Hq.
    2: { right; apply agrees_get; rewrite Hq; apply agrees_need_none. }
    assert (Hd : iwf d) by (destruct W as [_ W]; exact (wii_wf _ _ _ (wid_res _ _ _ _ W))).
    destruct (costs_quiet (m_cloned q) q d (quiet_cloned q)) as (kc & Cc).
    destruct (spends_id_remove_by_index i true d Hd) as [(k1 & j1 & [] & d1 & B1 & A1 & W1 & E1)|N].
    2: { right; apply agrees_get; rewrite Hq; apply agrees_need_then.
         eapply agrees_then; [apply costs_agrees; eauto|]; now apply agrees_then_none. }
    assert (H1 : exists s1 lost1, one_out qcmp q s lost s1 lost1 /\ wrep d1 s1 lost1).
    { pose proof (d_runs_out_rep L d s lost i q (k1 + j1) W Hq) as Hr; unfold runs in Hr.
      destruct (A1 (k1 + j1)) as [_ A2]; rewrite (A2 (le_n _)) in Hr.
      destruct Hr as (s1 & lost1 & O & W2 & _); eauto. }
    destruct H1 as (s1 & lost1 & O & Wr1).
    destruct (spends_bg_insert (fst (into_triple q)) b Wb) as [(k2 & j2 & x & b1 & B2 & A2 & W2 & E2)|N].
    2: { right; apply agrees_get; rewrite Hq; apply agrees_need_then.
         eapply agrees_then; [apply costs_agrees; eauto|].
         eapply agrees_then; [apply costs_agrees; eauto|]; now apply agrees_local_none. }
    destruct (IH d1 s1 lost1 b1 Wr1 W2) as [(qs & k3 & j3 & b' & d' & s' & lost' & Os & W' & B3 & A3 & E3)|N].
    2: { right; apply agrees_get; rewrite Hq; apply agrees_need_then.
         eapply agrees_then; [apply costs_agrees; eauto|].
         eapply agrees_then; [apply costs_agrees; eauto|].
         eapply agrees_local; [apply costs_agrees; eauto|exact N]. }
    set (g := match snd (into_triple q) with Some _ => 1 | None => 0 end).
    assert (Eq : quad_values q = 3 + g) by (unfold g, quad_values, into_triple; destruct q as [? ? ? []]; reflexivity).
    left; exists (q :: qs), (kc + (k1 + (k2 + k3))), (j1 + j2 + g + j3), b', d', s', lost'.
    split; [econstructor; eauto|]; split; [exact W'|]; split; [|split].
    - change (costs (_q <- need (i_quad_at (id_resources d) (id_quads d) i) ;; q <- m_cloned _q ;;
          _ <- m_id_remove_by_index cmp i true ;;
          '(_, g) <- local (m_bg_insert cmp keep (fst (into_triple q))) b ;; m_id_remove_all cmp keep idx g)
          d (kc + (k1 + (k2 + k3))) b' d'); rewrite Hq.
      change (costs (_q <- m_cloned q ;;
          _ <- m_id_remove_by_index cmp i true ;;
          '(_, g) <- local (m_bg_insert cmp keep (fst (into_triple _q))) b ;; m_id_remove_all cmp keep idx g)
          d (kc + (k1 + (k2 + k3))) b' d').
      eapply costs_then; [exact Cc|]; eapply costs_then; [exact B1|].
      eapply costs_then; [exact (costs_local _ _ _ _ _ d1 B2)|exact B3].
    - change (costs (_q <- need (i_quad_at (id_resources d) (id_quads d) i) ;; q <- m_cloned _q ;;
          _ <- d_id_remove_by_index cmp i true ;;
          '(_, g) <- local (d_bg_insert cmp keep (fst (into_triple q))) b ;;
          _ <- drops (match snd (into_triple q) with Some _ => 1 | None => 0 end) ;; d_id_remove_all cmp keep idx g)
          d (kc + (k1 + (k2 + k3)) + (j1 + j2 + g + j3)) b' d'); rewrite Hq.
      change (costs (_q <- m_cloned q ;;
          _ <- d_id_remove_by_index cmp i true ;;
          '(_, g) <- local (d_bg_insert cmp keep (fst (into_triple _q))) b ;;
          _ <- drops (match snd (into_triple _q) with Some _ => 1 | None => 0 end) ;; d_id_remove_all cmp keep idx g)
          d (kc + (k1 + (k2 + k3)) + (j1 + j2 + g + j3)) b' d').
      replace (kc + (k1 + (k2 + k3)) + (j1 + j2 + g + j3)) with (kc + ((k1 + j1) + ((k2 + j2) + (g + (k3 + j3))))) by lia.
      eapply costs_then; [exact Cc|]; eapply costs_then; [exact A1|].
      eapply costs_then; [exact (costs_local _ _ _ _ _ d1 A2)|].
      eapply costs_then; [exact (costs_drops _ d1)|exact A3].
    - cbn [fold_right]; rewrite Eq; cbn beta in *; lia.
  Qed.

  (** [remove_graph]: the resources released and the values cloned are dropped, or in the graph returned. *)
  Lemma remove_graph_counted ops0 ops xs d g b d' l l' :
    id_reached cmp keep ops0 ops xs d -> id_remove_graph cmp keep d g = Some (Some b, d') ->
    id_iter d = Some l -> id_iter d' = Some l' ->
    exists qs k j, NoDup qs /\ (forall q, In q qs <-> In q l /\ ~ In q l') /\
      costs (m_id_remove_graph cmp keep g) d k (Some b) d' /\
      costs (d_id_remove_graph cmp keep g) d (k + j) (Some b) d' /\
      j + slen (id_resources d') + slen (bg_resources b) = total qs + slen (id_resources d).
  Proof.
    intros Hd Er El El'.
    pose proof (id_rep_weak L True _ _ (reached_rep L keep _ _ _ _ Hd)) as W.
    destruct (wid_reads L _ _ _ _ W) as (_ & Ei & _); rewrite El in Ei; inv Ei.
    pose proof (agrees_id_remove_graph cmp keep d g) as [k0 A]; rewrite Er in A; change (costs (m_id_remove_graph cmp keep g) d k0 (Some b) d') in A.
    assert (Go : forall idx,
      (forall r, agrees (g <- m_id_remove_all cmp keep idx bg_new ;; ret (Some g)) d r -> r = Some (Some b, d')) ->
      exists qs k j, NoDup qs /\ (forall q, In q qs <-> In q (sorted_elements qcmp (final_set cmp ops0 ops xs)) /\ ~ In q l') /\
        costs (g <- m_id_remove_all cmp keep idx bg_new ;; ret (Some g)) d k (Some b) d' /\
        costs (g <- d_id_remove_all cmp keep idx bg_new ;; ret (Some g)) d (k + j) (Some b) d' /\
        j + slen (id_resources d') + slen (bg_resources b) = total qs + slen (id_resources d)).
    { intros idx C.
      destruct (spends_remove_all idx d _ [] bg_new W swf_new) as [(qs & k1 & j & b1 & d1 & s' & lost' & O & W' & B1 & A1 & E)|N].
      2: { exfalso; apply (agrees_then_none _ (fun g => ret (Some g))), C in N; discriminate. }
      pose proof (costs_then _ (fun g => ret (Some g)) _ _ _ _ _ _ _ B1 (costs_ret (Some b1) d1)) as B2.
      specialize (C (Some (Some b1, d1)) ltac:(apply costs_agrees; eauto)); inv C.
      destruct (taken_clean L _ _ _ _ _ O eq_refl) as (-> & A2 & A3 & A4).
      destruct (wid_reads L _ _ _ _ W') as (_ & Ei & _); rewrite El' in Ei; inv Ei.
      exists qs, (k1 + 0), j; split; [exact A2|]; split; [|split; [exact B2|split]].
      - intros q; rewrite !(in_sorted_elements (cmp:=qcmp)), A4; split; [intros Hq; split; [now apply A3|tauto]|].
        intros [H1 H2]; destruct (mem qcmp q qs) eqn:Em; [now apply (mem_true (quad_cmp_laws cmp L)) in Em|exfalso].
        apply (mem_false (quad_cmp_laws cmp L)) in Em; tauto.
      - replace (k1 + 0 + j) with ((k1 + j) + 0) by lia; eapply costs_then; [exact A1|apply costs_ret].
      - cbn beta in E; cbn [bg_resources bg_new] in E; change (slen (@slab_new (bresource R))) with 0 in E; lia. }
    assert (First : forall P kP idx, costs P d kP idx d ->
      m_id_remove_graph cmp keep g = andthen P (fun idx => match idx with None => ret None
        | Some idx => g <- m_id_remove_all cmp keep idx bg_new ;; ret (Some g) end) ->
      d_id_remove_graph cmp keep g = andthen P (fun idx => match idx with None => ret None
        | Some idx => g <- d_id_remove_all cmp keep idx bg_new ;; ret (Some g) end) ->
      exists qs k j, NoDup qs /\ (forall q, In q qs <-> In q (sorted_elements qcmp (final_set cmp ops0 ops xs)) /\ ~ In q l') /\
        costs (m_id_remove_graph cmp keep g) d k (Some b) d' /\
        costs (d_id_remove_graph cmp keep g) d (k + j) (Some b) d' /\
        j + slen (id_resources d') + slen (bg_resources b) = total qs + slen (id_resources d)).
    { intros P kP [idx|] CP Em Ed.
      - destruct (Go idx) as (qs & k & j & A1 & A2 & A3 & A4 & A5).
        { intros r Hr; eapply agrees_unique; [|apply costs_agrees; eauto].
          rewrite Em; eapply agrees_then; [apply costs_agrees; eauto|exact Hr]. }
        exists qs, (kP + k), j; rewrite Em, Ed; split; [exact A1|]; split; [exact A2|].
        split; [eapply costs_then; [exact CP|exact A3]|].
        split; [rewrite <- Nat.add_assoc; eapply costs_then; [exact CP|exact A4]|exact A5].
      - exfalso; assert (Some (Some b, d') = Some (None, d)) as F; [|discriminate].
        eapply agrees_unique; [apply costs_agrees; eauto|].
        rewrite Em; eapply agrees_then; [apply costs_agrees; eauto|apply agrees_ret]. }
    destruct g as [g|].
    2: { eapply (First (d <- get ;; ret (Some (id_dg d))) 0 (Some (id_dg d))); [|reflexivity|reflexivity].
         intros n; split; [lia|]; intros _; unfold andthen, get, ret; now rewrite Nat.sub_0_r. }
    pose proof (agrees_zoom (fun d => (id_resources d, id_ri d))
      (fun '(rs, ri) d => IDataset rs (id_quads d) ri (id_qi d) (id_s d) (id_p d) (id_o d) (id_dg d) (id_ng d)) _ d _
      (agrees_i_index_of cmp (id_resources d) (id_ri d) g)) as Q.
    unfold id_remove_graph in Er.
    destruct (i_index_of_resource cmp (id_resources d) (id_ri d) g) as [f|]; cbn [bind option_map] in *; [|discriminate].
    assert (Ed : IDataset (id_resources d) (id_quads d) (id_ri d) (id_qi d) (id_s d) (id_p d) (id_o d) (id_dg d) (id_ng d) = d)
      by (destruct d; reflexivity).
    rewrite Ed in Q; destruct Q as [kf Q].
    destruct f as [j|]; cbn [bind] in Er; [|discriminate].
    destruct (ns_mem j (id_ng d)) eqn:En; [|discriminate].
    destruct (sget (id_resources d) j) as [r|] eqn:Es; cbn [bind] in Er; [|discriminate].
    eapply (First (f <- m_id_table (m_i_index_of_resource cmp g) ;; d <- get ;;
        match f with
        | None => ret None
        | Some k => if ns_mem k (id_ng d) then r <- need (sget (id_resources d) k) ;; ret (Some (ir_g r)) else ret None
        end) (kf + 0) (Some (ir_g r))); [|reflexivity|reflexivity].
    eapply costs_then; [exact Q|].
    intros n; split; [lia|]; intros _; unfold andthen, get; rewrite En, Es; unfold need, ret; now rewrite Nat.sub_0_r.
  Qed.

  (** Calls of [next] of an extraction. *)
  Lemma spends_extract_call cap d m : iwf d ->
    spends (fun s => iheld (fst s)) (fun s => iwf (fst s)) 0 (d_extract_call cmp cap) (m_extract_call cmp cap) (d, m).
  Proof.
    intros W; unfold d_extract_call, m_extract_call; apply spends_get.
    apply spends_need; intros [f m1] _; apply spends_put; [reflexivity|].
    destruct f as [[i x]|]; [|apply spends_ret; exact W].
    apply spends_need; intros q _.
    eapply spends_quiet; [apply quiet_cloned|]; intros v _.
    apply (spends_then _ _ 0 0).
    - destruct (spends_id_remove_by_index i true d W) as [(k & j & y & d' & B1 & A1 & W1 & E1)|N].
      + left; exists k, j, y, (d', m1); split; [exact (costs_zoom fst (fun d s => (d, snd s)) _ (d, m1) _ _ _ B1)|].
        split; [exact (costs_zoom fst (fun d s => (d, snd s)) _ (d, m1) _ _ _ A1)|]; split; [exact W1|exact E1].
      + right; exact (agrees_zoom fst (fun d s => (d, snd s)) _ (d, m1) None N).
    - intros _ [d2 m2] W2; apply spends_get; apply spends_put; [reflexivity|]; apply spends_ret; exact W2.
  Qed.

  Lemma extract_counted ops0 ops xs d cap m n ys d' m' :
    id_reached cmp keep ops0 ops xs d ->
    run (fun s (_ : unit) => extract_call cmp cap s) (d, m) (repeat tt n) = Some (ys, (d', m')) ->
    exists k j,
      costs (all_of (fun _ => m_extract_call cmp cap) (repeat tt n)) (d, m) k ys (d', m') /\
      costs (all_of (fun _ => d_extract_call cmp cap) (repeat tt n)) (d, m) (k + j) ys (d', m') /\
      j + slen (id_resources d') = slen (id_resources d).
  Proof.
    intros Hd; pose proof (id_rep_weak L True _ _ (reached_rep L keep _ _ _ _ Hd)) as [_ W].
    assert (Wd : iwf d) by exact (wii_wf _ _ _ (wid_res _ _ _ _ W)); clear W Hd.
    revert d m ys Wd; induction n as [|n IH]; intros d m ys Wd E; cbn [repeat run all_of] in *.
    - inv E; exists 0, 0; split; [apply costs_ret|]; split; [apply costs_ret|reflexivity].
    - pose proof (agrees_extract_call (cmp:=cmp) cap d m) as A.
      destruct (extract_call cmp cap (d, m)) as [[y [d1 m1]]|]; [|discriminate].
      destruct (run _ (d1, m1) (repeat tt n)) as [[zs s2]|] eqn:Er; [|discriminate]; inv E.
      destruct (spends_extract_call cap d m Wd) as [(k & j & x & s1 & B1 & A1 & W1 & E1)|N];
        [|pose proof (agrees_unique _ _ _ _ A N); discriminate].
      assert (Some (y, (d1, m1)) = Some (x, s1)) as U by (eapply agrees_unique; [exact A|apply costs_agrees; eauto]).
      inv U; destruct (IH _ _ _ W1 Er) as (k2 & j2 & B2 & A2 & E2).
      exists (k + (k2 + 0)), (j + j2); split; [|split; [|cbn [fst] in *; lia]].
      + eapply costs_then; [exact B1|]; eapply costs_then; [exact B2|apply costs_ret].
      + replace (k + (k2 + 0) + (j + j2)) with ((k + j) + (k2 + j2 + 0)) by lia.
        eapply costs_then; [exact A1|]; eapply costs_then; [exact A2|apply costs_ret].
  Qed.
End Count.
