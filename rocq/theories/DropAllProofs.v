(** All the operations of an indexed dataset, interrupted or not, one after the other, when destructors
    may panic too (compare SurviveProofs.v). *)
From Coq Require Import List Bool Arith Lia Permutation Sorted.
Import ListNotations.
From Verif Require Import Base SlabModel TripleModel TriplePatternModel QuadPatternModel SetSpec ContainerSpec PatternSpec
  IndexedSpec Machine BaseProofs BResourceModel BResourceProofs BTreeDatasetModel BTreeDatasetProofs
  BTreeGraphModel BTreeGraphProofs IResourceModel IResourceProofs IndexedDatasetModel IndexedDatasetProofs IndexedPatternProofs
  IndexedHistoryProofs IndexedRunProofs IterModel IterSpec IterProofs
  CrashModel CrashSpec ICrashSpec CrashProofs BCrashProofs CrashAgree BGCrashProofs CrashHistoryProofs
  ICrashModel ICrashProofs ICrashReads ICrashAgree ICrashHistory ExtractCrashModel ExtractCrashSpec ExtractCrashProofs
  SurviveSpec SurviveModel SurviveProofs DropSpec DropModel DropProofs DropIProofs DropAllModel.
Open Scope act_scope.

(** ** No panic *)
Section Agree.
  Context {R : Type} (cmp : R -> R -> comparison) (keep : bool).

  Lemma agrees_d_bg_insert g t : agrees (d_bg_insert cmp keep t) g (bg_insert cmp keep g t).
  Proof.
    pose proof (agrees_d_bg_step cmp keep g (Insert t)) as [k H]; exists k; intros n.
    destruct (H n) as [H1 H2]; cbn [d_bg_step bg_step] in *; split; intros Hn.
    - destruct (H1 Hn) as (s' & E); unfold andthen in E.
      destruct (d_bg_insert cmp keep t n g); try discriminate; eauto.
    - specialize (H2 Hn); unfold andthen in H2; destruct (bg_insert cmp keep g t) as [[b g']|]; cbn [bind] in H2.
      + destruct (d_bg_insert cmp keep t n g); try discriminate; cbn in H2; now inv H2.
      + destruct H2 as (s' & H2).
        destruct (d_bg_insert cmp keep t n g); try discriminate; eauto.
  Qed.

  Lemma agrees_m_bg_insert g t : agrees (m_bg_insert cmp keep t) g (bg_insert cmp keep g t).
  Proof.
    pose proof (agrees_bg_step (cmp:=cmp) keep g (Insert t)) as [k H]; exists k; intros n.
    destruct (H n) as [H1 H2]; cbn [m_bg_step bg_step] in *; split; intros Hn.
    - destruct (H1 Hn) as (s' & E); unfold andthen in E.
      destruct (m_bg_insert cmp keep t n g); try discriminate; eauto.
    - specialize (H2 Hn); unfold andthen in H2; destruct (bg_insert cmp keep g t) as [[b g']|]; cbn [bind] in H2.
      + destruct (m_bg_insert cmp keep t n g); try discriminate; cbn in H2; now inv H2.
      + destruct H2 as (s' & H2).
        destruct (m_bg_insert cmp keep t n g); try discriminate; eauto.
  Qed.

  Lemma pad_drops {St A} k (f g : act St A) : pad f g -> pad (andthen (drops k) (fun _ => f)) g.
  Proof.
    intros H s; destruct (H s) as (r & A1 & B1); exists r; split; [|exact B1].
    eapply agrees_then; [apply agrees_quiet_some, quiet_drops|exact A1].
  Qed.

  Lemma pad_id_remove_all idx : forall g, pad (d_id_remove_all cmp keep idx g) (m_id_remove_all cmp keep idx g).
  Proof.
    induction idx as [|i idx IH]; intros g; cbn [d_id_remove_all m_id_remove_all]; [apply pad_ret|].
    apply pad_get; intros d.
    apply pad_then; [apply pad_need|]; intros q.
    apply pad_then; [eapply pad_quiet, quiet_cloned|]; clear q; intros q.
    apply pad_then; [apply pad_id_remove_by_index|]; intros _ s.
    pose proof (agrees_d_bg_insert g (fst (into_triple q))) as A; pose proof (agrees_m_bg_insert g (fst (into_triple q))) as B.
    destruct (bg_insert cmp keep g (fst (into_triple q))) as [[b g']|].
    - destruct (pad_drops (match snd (into_triple q) with Some _ => 1 | None => 0 end) _ _ (IH g') s) as (r & A1 & B1).
      exists r; split; eapply agrees_local; eauto.
    - exists None; split; now apply agrees_local_none.
  Qed.

  Lemma agrees_d_id_remove_graph d g : agrees (d_id_remove_graph cmp keep g) d (id_remove_graph cmp keep d g).
  Proof.
    destruct (agrees_id_remove_graph cmp keep d g) as [k0 H0].
    eapply pad_agrees; [|exists k0; exact H0]; clear k0 H0.
    unfold d_id_remove_graph, m_id_remove_graph.
    assert (P : forall idx : option (list nat),
      pad (match idx with None => ret None | Some idx => g <- d_id_remove_all cmp keep idx bg_new ;; ret (Some g) end)
        (match idx with None => ret None | Some idx => g <- m_id_remove_all cmp keep idx bg_new ;; ret (Some g) end)).
    { intros [idx|]; [|apply pad_ret]; apply pad_then; [apply pad_id_remove_all|intros; apply pad_ret]. }
    apply pad_then; [|exact P].
    destruct g as [g|]; [|apply pad_get; intros; apply pad_ret].
    apply pad_then.
    { apply pad_zoom, pad_same; intros [rs ri]; eexists; apply agrees_i_index_of. }
    intros f; apply pad_get; intros e; destruct f as [k|]; [|apply pad_ret].
    destruct (ns_mem k (id_ng e)); [|apply pad_ret]; apply pad_then; [apply pad_need|intros; apply pad_ret].
  Qed.

  Lemma agrees_d_extract_call cap d m : agrees (d_extract_call cmp cap) (d, m) (extract_call cmp cap (d, m)).
  Proof.
    eapply pad_agrees; [|apply agrees_extract_call].
    unfold d_extract_call, m_extract_call; apply pad_get; intros [d1 m1].
    apply pad_then; [apply pad_need|]; intros [f m2].
    apply pad_then; [apply pad_put|]; intros _; destruct f as [[i x]|]; [|apply pad_ret].
    apply pad_then; [apply pad_need|]; intros q.
    apply pad_then; [eapply pad_quiet, quiet_cloned|]; clear q; intros q.
    apply pad_then; [|intros _; apply pad_get; intros [d3 m3]; apply pad_then; [apply pad_put|intros; apply pad_ret]].
    intros s; destruct (pad_id_remove_by_index cmp i true (fst s)) as (r & A1 & B1).
    eexists; split; apply agrees_zoom; eassumption.
  Qed.
End Agree.

Section Proofs.
  Context {R : Type} {cmp : R -> R -> comparison} (L : ord_laws cmp).
  Context (keep : bool).
  Notation qcmp := (quad_cmp cmp).
  Notation tcmp := (triple_cmp cmp).
  Let LQ : ord_laws qcmp := quad_cmp_laws cmp L.
  Let LT : ord_laws tcmp := triple_cmp_laws cmp L.
  Notation wr d := (i_quad_with_resources (id_resources d)).
  Notation vals d r := (mapM (fun e : nat * quad nat => wr d (snd e)) r).
  Notation winv := (wid_inv (cmp:=cmp) True).
  Notation wrep := (wid_rep (cmp:=cmp) True).

  (** Facts of the operations without interruption. *)
  Lemma d_id_remove_graph_same ops0 ops xs d g :
    id_reached cmp keep ops0 ops xs d ->
    exists r d', id_remove_graph cmp keep d g = Some (r, d') /\
      exists k, forall n,
        (k <= n -> d_id_remove_graph cmp keep g n d = Done r (n - k) d') /\
        (n < k -> exists d', d_id_remove_graph cmp keep g n d = Interrupted d').
  Proof.
    intros H.
    destruct (id_remove_graph_any L keep _ _ _ d g H) as (r & d' & _ & E & _).
    exists r, d'; split; [exact E|].
    destruct (agrees_d_id_remove_graph cmp keep d g) as (k & Hk); rewrite E in Hk.
    exists k; intros n; destruct (Hk n); auto.
  Qed.

  Lemma d_id_extract_enough (d : @idataset R) c m cap j ys s :
    pm_new cmp d c = Some m -> calls (extract_call cmp cap) j (d, m) = Some (ys, s) ->
    exists k, forall n, k <= n ->
      (exists e, m_pm_new cmp c n d = Done m e d) /\
      m_run (fun _ : unit => d_extract_call cmp cap) (d, m) (repeat (tt, n) j) = Some (map Some ys, s).
  Proof.
    intros Em E; rewrite calls_run in E.
    assert (A : forall s (o : unit), agrees (d_extract_call cmp cap) s (extract_call cmp cap s))
      by (intros [d0 m0] o; apply agrees_d_extract_call).
    destruct (run_enough (fun _ : unit => d_extract_call cmp cap) _ A _ _ _ _ E) as (k1 & H1).
    destruct (steady_pm_new (cmp:=cmp) d c) as (k2 & H2); rewrite Em in H2.
    exists (k1 + k2); intros n Hn; split.
    - rewrite H2; replace (n <? k2) with false by (symmetry; apply Nat.ltb_ge; lia); eauto.
    - rewrite <- (H1 n) by lia; f_equal; clear; induction j as [|j IH]; cbn; congruence.
  Qed.

  Lemma d_id_extract_all_done (d : @idataset R) c m cap n e d' l ys s :
    m_pm_new cmp c n d = Done m e d' -> m_run (fun _ : unit => d_extract_call cmp cap) (d', m) l = Some (map Some ys, s) ->
    d' = d /\ pm_new cmp d c = Some m /\ calls (extract_call cmp cap) (length l) (d, m) = Some (ys, s).
  Proof.
    intros E1 E2; destruct (steady_pm_new (cmp:=cmp) d c) as (k & Hk); rewrite Hk in E1.
    destruct (n <? k); [discriminate|].
    destruct (pm_new cmp d c) as [m0|]; inversion E1; subst; clear E1.
    split; [reflexivity|]; split; [reflexivity|].
    assert (A : forall s (o : unit), agrees (d_extract_call cmp cap) s (extract_call cmp cap s))
      by (intros [d0 m1] o; apply agrees_d_extract_call).
    apply (run_all_done (fun _ : unit => d_extract_call cmp cap) _ A) in E2.
    rewrite calls_run, <- E2; f_equal; clear; induction l as [|[[] n] l IH]; cbn; congruence.
  Qed.

  Lemma cut_lost s lost o s1 lost1 :
    cut qcmp s lost o s1 lost1 -> length lost1 <= Datatypes.S (length lost).
  Proof.
    assert (One : forall s x, insertion_cut qcmp s lost x s1 lost1 -> length lost1 <= Datatypes.S (length lost)).
    { intros s0 x [[_ ->]|[(_ & _ & ->)|[_ ->]]]; cbn; lia. }
    intros H; destruct o; cbn in H; try contradiction.
    - eapply One, H.
    - destruct H as (_ & ->); lia.
    - destruct H as (l1 & x & l2 & _ & H); eapply One, H.
    - destruct H as (_ & ->); lia.
  Qed.

  Lemma leaves_d_release p i k qs rs0 n d :
    fewer qs rs0 d -> leaves (d_id_release cmp p i k) n d (fewer qs rs0).
  Proof.
    intros H; apply leaves_then; [now apply leaves_release|]; clear; intros b n d H.
    apply leaves_then; [|clear; intros _ n d H; exact H].
    destruct b; [|exact H]; unfold leaves.
    destruct (quiet_called (St:=@idataset R) tt) as (k & ->); destruct (n <? k); exact H.
  Qed.

  Lemma leaves_d_tail i x q n d qs rs0 :
    fewer qs rs0 d -> leaves (d_tail (cmp:=cmp) false i x q) n d (fewer qs rs0).
  Proof.
    intros H; unfold d_tail.
    apply leaves_then; [now apply leaves_d_release|]; clear; intros _ n d H.
    apply leaves_then; [now apply leaves_d_release|]; clear; intros _ n d H.
    apply leaves_then; [now apply leaves_d_release|]; clear; intros _ n d H.
    destruct (q_g x) as [g|]; [|exact H].
    apply leaves_then; [now apply leaves_d_release|]; clear; intros b n d H; exact H.
  Qed.

  Lemma d_runs_drop d ks lost i x q qs qi ks' lost' gi n :
    winv d ks lost -> sget (id_quads d) i = Some x -> wr d x = Some q ->
    sremove (id_quads d) i = Some (x, qs) ->
    indexes (cmpk:=qcmp) (i_quad_at (id_resources d) (id_quads d)) qi ks' ->
    length ks + length lost = S (length ks' + length lost') ->
    NoDup (qi ++ gi) -> (forall j, In j (qi ++ gi) <-> sget (id_quads d) j <> None /\ j <> i) ->
    mapM (i_quad_at (id_resources d) (id_quads d)) gi = Some lost' ->
    runs (d_tail (cmp:=cmp) false i x q) n
      (IDataset (id_resources d) qs (id_ri d) qi (ns_remove (q_s x) (id_s d))
         (ns_remove (q_p x) (id_p d)) (ns_remove (q_o x) (id_o d)) (id_dg d) (id_ng d))
      (fun _ d' => winv d' ks' lost') (fun d' => winv d' ks' lost').
  Proof.
    intros [I1 I2 I3 I4 I8 I5 I6 I7] Ex Hq Eqs I2' Hlen ND HB HM.
    assert (Gq : forall j, sget qs j = if j =? i then None else sget (id_quads d) j)
      by (intros j; apply (sget_sremove _ _ _ _ _ Eqs)).
    assert (Fin : forall d', (exists rs ri dg ng,
        d' = IDataset rs qs ri qi (ns_remove (q_s x) (id_s d))
               (ns_remove (q_p x) (id_p d)) (ns_remove (q_o x) (id_o d)) dg ng /\
        imidr (cmp:=cmp) True qs qi (id_resources d) (fun _ _ _ => False) rs ri) ->
      winv d' ks' lost').
    { intros d' (rs & ri & dg & ng & -> & M & V).
      assert (Same : forall j, j <> i ->
        i_quad_at rs qs j = i_quad_at (id_resources d) (id_quads d) j).
      { intros j Ej; apply Nat.eqb_neq in Ej; unfold i_quad_at; rewrite Gq, Ej.
        destruct (sget (id_quads d) j) as [y|] eqn:Ey; cbn; [|reflexivity].
        assert (Hy : forall p r, slot p y = Some r -> ir_val rs r = ir_val (id_resources d) r).
        { intros p r Hs; apply (V p r j); left; split; [|auto].
          exists y; rewrite Gq, Ej; auto. }
        unfold i_quad_with_resources.
        rewrite (Hy PosS _ eq_refl), (Hy PosP _ eq_refl), (Hy PosO _ eq_refl).
        destruct (q_g y) as [g|] eqn:Eg; [|reflexivity].
        rewrite (Hy PosG g Eg); reflexivity. }
      split; cbn [id_quads id_resources id_ri id_qi id_s id_p id_o].
      - eapply swf_sremove; eauto.
      - eapply indexes_ext; [|exact I2']; intros j Hj; apply Same.
        intros ->; destruct (proj1 (HB i)); [apply in_or_app; now left|congruence].
      - eapply wiinv_le; [exact M|]; cbn; auto.
      - rewrite (slen_sremove _ _ _ _ Eqs) in I4; lia.
      - intros _; exists gi; split; [exact ND|]; split.
        + intros j; rewrite HB, Gq; destruct (j =? i) eqn:Ej.
          * apply Nat.eqb_eq in Ej; subst; split; [tauto|congruence].
          * apply Nat.eqb_neq in Ej; tauto.
        + rewrite <- HM; apply mapM_ext; intros j Hj; apply Same.
          intros ->; destruct (proj1 (HB i)); [apply in_or_app; now right|congruence].
      - eapply (spo_ok_remove True (id_quads d) qs i x); auto.
      - eapply (spo_ok_remove True (id_quads d) qs i x); auto.
      - eapply (spo_ok_remove True (id_quads d) qs i x); auto. }
    eapply runs_weak; [eapply (runs_d_tail L True)| |]; cbn [id_quads id_resources id_ri id_qi id_s id_p id_o].
    - rewrite Gq, Nat.eqb_refl; reflexivity.
    - split; [|auto]; eapply wiinv_le; [exact I3|]; intros p r j [[(y & Hy & Hs) _]|(_ & Hs & ->)].
      + split; [exists y; split; [|exact Hs]|auto]; rewrite Gq in Hy; destruct (j =? i); [discriminate|exact Hy].
      + split; [exists x; auto|auto].
    - exact Hq.
    - intros _; exact Fin.
    - exact Fin.
  Qed.

  (** [remove_by_index] of any quad of the slab. *)
  Lemma d_runs_out d ks lost i q n :
    winv d ks lost -> i_quad_at (id_resources d) (id_quads d) i = Some q ->
    let left d' := exists lost', (In q ks /\ winv d' (del qcmp q ks) lost' /\ Permutation lost lost' \/
                       ~ In q ks /\ winv d' ks lost' /\ Permutation lost (q :: lost')) /\ without i d d' in
    runs (d_id_remove_by_index cmp i true) n d (fun _ => left) (fun d' => d' = d \/ left d').
  Proof.
    intros W Hv left; pose proof (wid_idx _ _ _ _ W) as I2.
    destruct (wid_ghosts _ _ _ _ W Logic.I) as (gi & GA & GB & GC).
    unfold d_id_remove_by_index; apply runs_get_then.
    destruct (bt_remove_spec LQ _ _ _ q I2) as (r & qi & E & I2' & Hr).
    pose proof Hv as Hv0.
    unfold i_quad_at in Hv; destruct (sget (id_quads d) i) as [x|] eqn:Ex; [|discriminate].
    cbn in Hv; destruct (sremove_some _ _ _ Ex) as (qs & Eqs).
    apply runs_andthen.
    eapply runs_quiet_then.
    { eapply quiet_eq; [eapply quiet_m_remove; intros; apply quiet_quad_index_cmp|].
      rewrite (bt_remove_icmp qcmp _ i q _ Hv0); exact E. }
    { auto. }
    intros m; cbn beta iota; apply runs_put; intros m'; apply runs_get_then.
    cbn [id_quads id_resources id_ri id_qi id_s id_p id_o id_dg id_ng].
    eapply runs_need_then; [exact Eqs|]; cbn beta iota; apply runs_put_then.
    assert (G : forall d', fewer qs (id_resources d) d' -> without i d d').
    { intros d' [Hq Hr']; split; [|exact Hr']; intros j; rewrite Hq; apply (sget_sremove _ _ _ _ _ Eqs). }
    assert (Ii : In i (id_qi d ++ gi)) by (apply GB; congruence).
    pose proof (indexes_nodup LQ _ _ _ I2) as NQ.
    assert (NK : NoDup ks) by (apply (ssorted_nodup LQ), I2).
    assert (Goal_ : exists ks' lost' gi',
      (In q ks /\ ks' = del qcmp q ks /\ Permutation lost lost' \/
       ~ In q ks /\ ks' = ks /\ Permutation lost (q :: lost')) /\
      indexes (cmpk:=qcmp) (i_quad_at (id_resources d) (id_quads d)) qi ks' /\
      length ks + length lost = S (length ks' + length lost') /\
      NoDup (qi ++ gi') /\ (forall j, In j (qi ++ gi') <-> sget (id_quads d) j <> None /\ j <> i) /\
      mapM (i_quad_at (id_resources d) (id_quads d)) gi' = Some lost').
    { destruct r as [j|].
      - destruct Hr as (Hj & Hin & HP).
        assert (P1 : Permutation (id_qi d ++ gi) (j :: qi ++ gi)) by now rewrite HP.
        assert (N1 : NoDup (j :: qi ++ gi)) by (apply (Permutation_NoDup P1), GA).
        destruct (Nat.eq_dec j i) as [->|Ne].
        + exists (del qcmp q ks), lost, gi; inversion N1 as [|? ? Ni N2]; subst.
          split; [left; auto|]; split; [exact I2'|]; split.
          { rewrite (length_del L q ks NK Hin); lia. }
          split; [exact N2|]; split; [|exact GC].
          intros k; rewrite <- GB, (perm_in_iff _ _ P1 k); cbn; split; [intros H; split; [auto|intros ->; contradiction]|].
          intros [[->|H] Hk]; [congruence|exact H].
        + assert (Ig : In i gi).
          { apply in_app_or in Ii as [Ii|Ii]; [|exact Ii]; exfalso; apply Ne.
            eapply (indexes_inj LQ _ _ _ _ _ _ I2); eauto.
            eapply Permutation_in; [symmetry; exact HP|now left]. }
          destruct (in_split _ _ Ig) as (g1 & g2 & ->).
          destruct (mapM_perm _ _ (i :: g1 ++ g2) (Permutation_sym (Permutation_middle g1 g2 i)) _ GC) as (l1 & El & Pl).
          cbn [mapM] in El; rewrite Hv0 in El; cbn [bind] in El.
          destruct (mapM (i_quad_at (id_resources d) (id_quads d)) (g1 ++ g2)) as [l2|] eqn:E2; [|discriminate].
          cbn in El; inv El.
          assert (P2 : Permutation (j :: qi ++ g1 ++ i :: g2) (i :: qi ++ j :: g1 ++ g2)).
          { transitivity (j :: i :: qi ++ g1 ++ g2).
            - constructor; rewrite !app_assoc; symmetry; apply Permutation_middle.
            - rewrite perm_swap; constructor; apply Permutation_middle. }
          assert (N2 : NoDup (i :: qi ++ j :: g1 ++ g2)) by (apply (Permutation_NoDup P2), N1).
          inversion N2 as [|? ? Ni N3]; subst.
          exists (del qcmp q ks), (q :: l2), (j :: g1 ++ g2).
          split; [left; auto|]; split; [exact I2'|]; split.
          { rewrite (length_del L q ks NK Hin), (Permutation_length Pl); cbn; lia. }
          split; [exact N3|]; split.
          * intros k; rewrite <- GB, (perm_in_iff _ _ P1 k), (perm_in_iff _ _ P2 k).
            split; [intros H; split; [now right|intros ->; contradiction]|].
            intros [[->|H] Hk]; [congruence|exact H].
          * cbn [mapM]; rewrite Hj; cbn [bind]; rewrite E2; reflexivity.
      - destruct Hr as (Hn & ->).
        assert (Ig : In i gi).
        { apply in_app_or in Ii as [Ii|Ii]; [|exact Ii]; exfalso; apply Hn.
          destruct I2 as [HM _]; destruct (mapM_in_inv _ _ _ _ HM Ii) as (y & Hy & Hy'); congruence. }
        destruct (in_split _ _ Ig) as (g1 & g2 & ->).
        destruct (mapM_perm _ _ (i :: g1 ++ g2) (Permutation_sym (Permutation_middle g1 g2 i)) _ GC) as (l1 & El & Pl).
        cbn [mapM] in El; rewrite Hv0 in El; cbn [bind] in El.
        destruct (mapM (i_quad_at (id_resources d) (id_quads d)) (g1 ++ g2)) as [l2|] eqn:E2; [|discriminate].
        cbn in El; inv El.
        assert (P2 : Permutation (id_qi d ++ g1 ++ i :: g2) (i :: id_qi d ++ g1 ++ g2))
          by (rewrite !app_assoc; symmetry; apply Permutation_middle).
        assert (N2 : NoDup (i :: id_qi d ++ g1 ++ g2)) by (apply (Permutation_NoDup P2), GA).
        inversion N2 as [|? ? Ni N3]; subst.
        exists ks, l2, (g1 ++ g2); split; [right; auto|].
        rewrite (del_notin LQ) in I2' by assumption.
        split; [exact I2'|]; split; [rewrite (Permutation_length Pl); cbn; lia|]; split; [exact N3|]; split; [|exact E2].
        intros k; rewrite <- GB, (perm_in_iff _ _ P2 k); split; [intros H; split; [now right|intros ->; contradiction]|].
        intros [[->|H] Hk]; [congruence|exact H]. }
    destruct Goal_ as (ks' & lost' & gi' & Out & H1 & H2 & H3 & H4 & H5).
    eapply runs_weak;
      [apply runs_leaves;
        [apply (d_runs_drop d ks lost i x q qs qi ks' lost' gi' m' W Ex Hv Eqs H1 H2 H3 H4 H5)
        |apply (leaves_d_tail i x q m' _ qs (id_resources d)); split; [reflexivity|auto]]
      | |]; cbn beta.
    - intros _ d' [A B]; exists lost'; split; [|auto].
      destruct Out as [(O1 & -> & O2)|(O1 & -> & O2)]; [left|right]; auto.
    - intros d' [A B]; right; exists lost'; split; [|auto].
      destruct Out as [(O1 & -> & O2)|(O1 & -> & O2)]; [left|right]; auto.
  Qed.

  Notation out1 := (one_out qcmp).
  Notation outs := (taken_out qcmp).

  Lemma d_runs_out_rep d s lost i q n :
    wrep d s lost -> i_quad_at (id_resources d) (id_quads d) i = Some q ->
    let left d' := exists s' lost', out1 q s lost s' lost' /\ wrep d' s' lost' /\ without i d d' in
    runs (d_id_remove_by_index cmp i true) n d (fun _ => left) (fun d' => d' = d \/ left d').
  Proof.
    intros [ND W] Hq left.
    assert (St : forall d', (exists lost', (In q (sorted_elements qcmp s) /\ winv d' (del qcmp q (sorted_elements qcmp s)) lost' /\ Permutation lost lost' \/
                       ~ In q (sorted_elements qcmp s) /\ winv d' (sorted_elements qcmp s) lost' /\ Permutation lost (q :: lost')) /\ without i d d') ->
                left d').
    { intros d' (lost' & [(A & B & C)|(A & B & C)] & G); rewrite (in_sorted_elements (cmp:=qcmp)) in A.
      - exists (del qcmp q s), lost'; split; [left; auto|]; split; [|exact G].
        rewrite (del_ext L) in B by assumption; split; [now apply (nodup_del (cmp:=qcmp))|exact B].
      - exists s, lost'; split; [right; auto|]; split; [split; assumption|exact G]. }
    eapply runs_weak; [exact (d_runs_out d _ lost i q n W Hq)| |]; cbn beta.
    - intros _ d' H; now apply St.
    - intros d' [->|H]; [now left|right; now apply St].
  Qed.

  (** ** Extraction *)
  Lemma d_runs_x_end cap (d : @idataset R) m n :
    comes cap (id_quads d) m [] ->
    runs (d_extract_call cmp cap) n (d, m)
      (fun y s => y = None /\ fst s = d /\ comes cap (id_quads d) (snd s) []) (fun _ => False).
  Proof.
    intros (m' & E); unfold d_extract_call; apply runs_get_then; cbn beta iota.
    eapply runs_need_then; [exact E|]; cbn beta iota; apply runs_put_then, runs_ret.
    split; [reflexivity|]; split; [reflexivity|]; exists m'; exact (pm_seek_over _ _ _ _ _ E cap).
  Qed.

  Lemma d_runs_x_item cap d s lost m i x r q l n :
    wrep d s lost -> comes cap (id_quads d) m ((i, x) :: r) ->
    vals d ((i, x) :: r) = Some (q :: l) ->
    runs (d_extract_call cmp cap) n (d, m)
      (fun y '(d', m') => y = Some q /\ exists s' lost', out1 q s lost s' lost' /\ wrep d' s' lost' /\
         comes cap (id_quads d') m' r /\ vals d' r = Some l)
      (fun '(d', m') => d' = d /\ comes cap (id_quads d) m' ((i, x) :: r) \/
         exists s' lost', out1 q s lost s' lost' /\ wrep d' s' lost' /\ comes cap (id_quads d') m' []).
  Proof.
    intros W (m' & E & Hx & T) V.
    apply mapM_cons in V as (q' & l' & Hq & Hl & Eql); inversion Eql; subst q' l'; cbn [snd] in Hq; clear Eql.
    destruct (pm_seek_again _ _ _ _ _ _ _ E) as (_ & Again).
    assert (Same : comes cap (id_quads d) m' ((i, x) :: r)).
    { exists m'; split; [apply Again; exact Hx|]; split; [exact Hx|exact T]. }
    unfold d_extract_call; apply runs_get_then; cbn beta iota.
    eapply runs_need_then; [exact E|]; cbn beta iota; apply runs_put_then.
    eapply runs_need_then; [exact Hq|].
    eapply runs_quiet_then; [apply quiet_cloned|left; split; [reflexivity|exact Same]|].
    clear n; intros n; apply runs_andthen, runs_zoom; cbn [fst snd].
    eapply runs_weak; [apply (d_runs_out_rep d s lost i q n W)| |].
    { unfold i_quad_at; rewrite Hx; exact Hq. }
    - intros u d' (s' & lost' & O & W2 & Gq & Gr) n'; apply runs_get_then; cbn beta iota; apply runs_put_then, runs_ret.
      split; [reflexivity|]; exists s', lost'; split; [exact O|]; split; [exact W2|].
      assert (T2 : comes cap (id_quads d') (bump i m') r).
      { eapply comes_local; [exact T|]; intros j Hj; cbn [bump pm_i] in Hj; rewrite Gq.
        destruct (j =? i) eqn:Ej; [apply Nat.eqb_eq in Ej; lia|reflexivity]. }
      split; [exact T2|].
      rewrite <- Hl; apply mapM_ext; intros [j z] Hj; cbn [snd].
      pose proof (comes_live _ _ _ _ T2 _ _ Hj) as Hz.
      destruct (wid_quads _ _ _ _ _ W2 Hz) as (v & Hv); rewrite Hv; symmetry.
      eapply iqwr_mono; [|exact Hv]; exact Gr.
    - intros d' [->|(s' & lost' & O & W2 & Gq & Gr)]; [now left|right].
      exists s', lost'; split; [exact O|]; split; [exact W2|].
      exists m'; apply Again; rewrite Gq, Nat.eqb_refl; reflexivity.
  Qed.

  Lemma d_x_calls_over cap (d : @idataset R) : forall ns m,
    comes cap (id_quads d) m [] ->
    exists ys m', dx_calls cmp cap ns (d, m) = (ys, false, (d, m')) /\ over ys /\ length ys = length ns.
  Proof.
    induction ns as [|n ns IH]; intros m H; [exists [], m; split; [reflexivity|]; split; [intros y []|reflexivity]|].
    pose proof (d_runs_x_end cap d m n H) as Hr; unfold runs in Hr; cbn [dx_calls].
    destruct (d_extract_call cmp cap n (d, m)) as [y k [d1 m1]|s|s]; [|contradiction|contradiction].
    cbn [fst snd] in Hr; destruct Hr as (-> & -> & H1).
    destruct (IH m1 H1) as (ys & m' & -> & Ho & Hl); exists (Some None :: ys), m'; split; [reflexivity|].
    split; [|cbn; now rewrite Hl]; intros y [<-|Hy]; [reflexivity|auto].
  Qed.

  Lemma d_x_calls_drained cap : forall ns d s lost m r qs,
    wrep d s lost -> comes cap (id_quads d) m r -> vals d r = Some qs ->
    exists ys d' m' taken s' lost', dx_calls cmp cap ns (d, m) = (ys, false, (d', m')) /\
      length ys = length ns /\ drained qs ys taken /\ outs taken s lost s' lost' /\ wrep d' s' lost'.
  Proof.
    induction ns as [|n ns IH]; intros d s lost m r qs W H V.
    { exists [], d, m, [], s, lost; split; [reflexivity|]; split; [reflexivity|].
      split; [constructor|]; split; [constructor|exact W]. }
    destruct r as [|[i x] r].
    - cbn in V; inversion V; subst qs; clear V.
      pose proof (d_runs_x_end cap d m n H) as Hr; unfold runs in Hr; cbn [dx_calls].
      destruct (d_extract_call cmp cap n (d, m)) as [y k [d1 m1]|w|w]; [|contradiction|contradiction].
      cbn [fst snd] in Hr; destruct Hr as (-> & -> & H1).
      destruct (d_x_calls_over cap d ns m1 H1) as (ys & m' & -> & Ho & Hl).
      exists (Some None :: ys), d, m', [], s, lost; split; [reflexivity|]; split; [cbn; now rewrite Hl|].
      split; [now constructor|]; split; [constructor|exact W].
    - destruct qs as [|q qs].
      { apply mapM_cons in V as (y & ys & _ & _ & F); discriminate. }
      pose proof (d_runs_x_item cap d s lost m i x r q qs n W H V) as Hr; unfold runs in Hr; cbn [dx_calls].
      destruct (d_extract_call cmp cap n (d, m)) as [y k [d1 m1]|[d1 m1]|w]; [| |contradiction].
      + destruct Hr as (-> & s1 & lost1 & O & W1 & H1 & V1).
        destruct (IH d1 s1 lost1 m1 r qs W1 H1 V1) as (ys & d' & m' & taken & s' & lost' & -> & Hl & D & Os & W').
        exists (Some (Some q) :: ys), d', m', (q :: taken), s', lost'; split; [reflexivity|].
        split; [cbn; now rewrite Hl|]; split; [now constructor|]; split; [econstructor; eauto|exact W'].
      + destruct Hr as [[-> H1]|(s1 & lost1 & O & W1 & H1)].
        * destruct (IH d s lost m1 _ _ W H1 V) as (ys & d' & m' & taken & s' & lost' & -> & Hl & D & Os & W').
          exists (None :: ys), d', m', taken, s', lost'; split; [reflexivity|].
          split; [cbn; now rewrite Hl|]; split; [now constructor|]; split; [exact Os|exact W'].
        * destruct (d_x_calls_over cap d1 ns m1 H1) as (ys & m' & -> & Ho & Hl).
          exists (None :: ys), d1, m', [q], s1, lost1; split; [reflexivity|]; split; [cbn; now rewrite Hl|].
          split; [now constructor|]; split; [econstructor; [exact O|constructor]|exact W1].
  Qed.

  Lemma d_x_extract d s lost spare c n :
    wrep d s lost ->
    exists qs, id_pattern_matching cmp d spare c = Some qs /\ among qs (s ++ lost) /\
    match m_pm_new cmp c n d with
    | Failed _ => False
    | Interrupted d' => d' = d
    | Done m _ d' => d' = d /\ pm_new cmp d c = Some m /\
        forall ns, exists ys d' m' taken s' lost',
          dx_calls cmp (capacity d spare) ns (d, m) = (ys, false, (d', m')) /\ length ys = length ns /\
          drained qs ys taken /\ outs taken s lost s' lost' /\ wrep d' s' lost'
    end.
  Proof.
    intros W; destruct (wid_queries L _ _ _ W spare) as (Q & _).
    destruct (Q c) as (qs & Eq & Am); exists qs; split; [exact Eq|]; split; [exact Am|].
    unfold id_pattern_matching in Eq.
    destruct (steady_pm_new (cmp:=cmp) d c) as (k & Hk); rewrite Hk; destruct (n <? k); [reflexivity|].
    destruct (pm_new cmp d c) as [m|]; [|discriminate]; split; [reflexivity|]; split; [reflexivity|].
    intros ns; cbn [bind] in Eq; destruct (collect_comes _ _ _ _ _ Eq) as (r & T & V).
    exact (d_x_calls_drained _ ns d s lost m r qs W T V).
  Qed.

  (** ** Removal of a graph *)
  Definition d_took (d : @idataset R) (idx : list nat) (s lost : list (quad R)) (qs : list (quad R)) (d' : @idataset R) : Prop :=
    exists s' lost', mapM (i_quad_at (id_resources d) (id_quads d)) idx = Some qs /\
      outs qs s lost s' lost' /\ wrep d' s' lost'.

  Lemma d_x_remove_all idx : forall d s lost (b : @bgraph R) t n,
    wrep d s lost -> bg_rep (cmp:=cmp) b t ->
    match d_id_remove_all cmp keep idx b n d with
    | Done b' _ d' => exists qs, d_took d idx s lost qs d' /\
        bg_rep (cmp:=cmp) b' (fold_left (fun t x => add tcmp x t) (map (fun q => fst (into_triple q)) qs) t)
    | Interrupted d' | Failed d' => exists part rest qs, idx = part ++ rest /\ d_took d part s lost qs d'
    end.
  Proof.
    assert (None_ : forall d s lost idx, wrep d s lost ->
              exists part rest qs, idx = part ++ rest /\ d_took d part s lost qs d).
    { clear; intros d s lost l W; exists [], l, []; split; [reflexivity|].
      exists s, lost; split; [reflexivity|]; split; [constructor|exact W]. }
    induction idx as [|i idx IH]; intros d s lost b t n W Hb; cbn [d_id_remove_all].
    { exists []; split; [|exact Hb]; exists s, lost; split; [reflexivity|]; split; [constructor|exact W]. }
    unfold andthen at 1, get, need.
    destruct (i_quad_at (id_resources d) (id_quads d) i) as [q|] eqn:Hq; [|now apply None_].
    unfold andthen at 1, andthen at 1.
    destruct (quiet_cloned (St:=@idataset R) q) as (kc & Hc); rewrite Hc.
    destruct (n <? kc); [now apply None_|]; cbv iota.
    unfold andthen at 1; pose proof (d_runs_out_rep d s lost i q (n - kc) W Hq) as Hr; unfold runs in Hr.
    assert (One : forall d1 s1 lost1, out1 q s lost s1 lost1 -> wrep d1 s1 lost1 ->
              exists part rest qs, i :: idx = part ++ rest /\ d_took d part s lost qs d1).
    { intros d1 s1 lost1 O W1; exists [i], idx, [q]; split; [reflexivity|].
      exists s1, lost1; split; [cbn; now rewrite Hq|]; split; [econstructor; [exact O|constructor]|exact W1]. }
    destruct (d_id_remove_by_index cmp i true (n - kc) d) as [u n1 d1|d1|]; [| |contradiction].
    2: { destruct Hr as [->|(s1 & lost1 & O & W1 & _)]; [now apply None_|eapply One; eauto]. }
    destruct Hr as (s1 & lost1 & O & W1 & Gq & Gr).
    assert (Up : forall part qs d2, d_took d1 part s1 lost1 qs d2 -> d_took d (i :: part) s lost (q :: qs) d2).
    { intros part qs d2 (s2 & lost2 & Em & Os & W2); exists s2, lost2; split; [|split; [econstructor; eauto|exact W2]].
      cbn [mapM]; rewrite Hq; cbn [bind].
      assert (mapM (i_quad_at (id_resources d) (id_quads d)) part = Some qs) as ->; [|reflexivity].
      rewrite <- Em; apply mapM_ext; intros j Hj.
      destruct (mapM_in_inv _ _ _ _ Em Hj) as (z & Hz & _); rewrite Hz.
      unfold i_quad_at in *; rewrite Gq in Hz; destruct (j =? i); [discriminate|].
      destruct (sget (id_quads d) j); [|discriminate]; cbn in *; eapply iqwr_mono; eauto. }
    unfold local, andthen.
    destruct (bg_insert_rep L keep b t (fst (into_triple q)) Hb) as (b1 & Eb & Hb1).
    pose proof (agrees_d_bg_insert cmp keep b (fst (into_triple q))) as (k2 & Hk2).
    rewrite Eb in Hk2; destruct (Hk2 n1) as [Hlt2 Hle2].
    destruct (d_bg_insert cmp keep (fst (into_triple q)) n1 b) as [x2 m2 b2|b2|b2].
    - assert (b2 = b1) as ->.
      { destruct (le_lt_dec k2 n1) as [Ho|Ho]; [specialize (Hle2 Ho); congruence|].
        destruct (Hlt2 Ho); discriminate. }
      match goal with |- context [@drops ?St ?c ?m ?s] => destruct (@quiet_drops St c) as (k3 & Hk3); rewrite (Hk3 m s) end.
      destruct (m2 <? k3); [eapply One; eauto|]; generalize (m2 - k3); clear m2 Hlt2 Hle2; intros m2.
      specialize (IH d1 s1 lost1 b1 _ m2 W1 Hb1); cbn [snd] in *.
      destruct (d_id_remove_all cmp keep idx b1 m2 d1) as [b' n' d'|d'|d'].
      + destruct IH as (qs & T & B); exists (q :: qs); split; [now apply Up|exact B].
      + destruct IH as (part & rest & qs & -> & T); exists (i :: part), rest, (q :: qs); split; [reflexivity|now apply Up].
      + destruct IH as (part & rest & qs & -> & T); exists (i :: part), rest, (q :: qs); split; [reflexivity|now apply Up].
    - eapply One; eauto.
    - eapply One; eauto.
  Qed.

  (** The indexes that [remove_graph] goes through. *)
  Definition indexes_of_graph (d : @idataset R) (g : option R) : option (option (list nat)) :=
    match g with
    | Some g =>
        bind (i_index_of_resource cmp (id_resources d) (id_ri d) g) (fun f =>
          match f with
          | None => Some None
          | Some k =>
              if ns_mem k (id_ng d) then bind (sget (id_resources d) k) (fun r => Some (Some (ir_g r))) else Some None
          end)
    | None => Some (Some (id_dg d))
    end.
  Definition listed (d : @idataset R) (g : option R) (qs : list (quad R)) : Prop :=
    forall q, In q qs -> exists idx i, indexes_of_graph d g = Some (Some idx) /\ In i idx /\
      i_quad_at (id_resources d) (id_quads d) i = Some q.

  Lemma listed_graph d s g qs q :
    id_rep (cmp:=cmp) d s -> listed d g qs -> In q qs -> q_g q = g.
  Proof.
    intros H Hl Hq; destruct (Hl q Hq) as (idx & i & Ei & Hi & Ev).
    destruct (id_graph_indexes L d s g H) as (r & Er & Hr).
    fold (indexes_of_graph d g) in Er; rewrite Ei in Er; inv Er.
    destruct Hr as (_ & Hr & _); destruct (Hr i Hi) as (q' & E' & _ & Hg); congruence.
  Qed.

  Lemma Some_listed d g part rest qs :
    (forall i q, In i (part ++ rest) -> i_quad_at (id_resources d) (id_quads d) i = Some q -> listed d g [q]) ->
    mapM (i_quad_at (id_resources d) (id_quads d)) part = Some qs -> listed d g qs.
  Proof.
    intros H Em q Hq.
    assert (M : exists i, In i part /\ i_quad_at (id_resources d) (id_quads d) i = Some q).
    { clear H; revert qs Em Hq; induction part as [|i part IH]; intros qs Em Hq; [inv Em; contradiction|].
      apply mapM_cons in Em as (y & ys & Ey & Eys & ->); destruct Hq as [<-|Hq]; [exists i; split; [now left|exact Ey]|].
      destruct (IH _ Eys Hq) as (j & Hj & Ej); exists j; split; [now right|exact Ej]. }
    destruct M as (i & Hi & Ei); apply (H i q); [apply in_or_app; now left|exact Ei|now left].
  Qed.

  (** What [remove_graph] does to a dataset, whatever its indexes hold. *)
  Lemma d_x_remove_graph d s lost g n :
    wrep d s lost ->
    match d_id_remove_graph cmp keep g n d with
    | Done None _ d' => d' = d /\ g <> None
    | Done (Some b) _ d' => exists qs s' lost' ts, outs qs s lost s' lost' /\ wrep d' s' lost' /\
        bg_iter b = Some ts /\ increasing tcmp ts /\
        forall t, In t ts <-> exists q, In q qs /\ Triple (q_s q) (q_p q) (q_o q) = t
    | Interrupted d' | Failed d' => exists qs s' lost', outs qs s lost s' lost' /\ wrep d' s' lost' /\ listed d g qs
    end.
  Proof.
    intros W.
    assert (Stay : exists qs s' lost', outs qs s lost s' lost' /\ wrep d s' lost' /\ listed d g qs)
      by (exists [], s, lost; split; [constructor|]; split; [exact W|intros q []]).
    assert (Go : forall idx n, (forall i q, In i idx -> i_quad_at (id_resources d) (id_quads d) i = Some q -> listed d g [q]) -> match andthen (d_id_remove_all cmp keep idx bg_new) (fun g => ret (Some g)) n d with
      | Done None _ d' => d' = d /\ g <> None
      | Done (Some b) _ d' => exists qs s' lost' ts, outs qs s lost s' lost' /\ wrep d' s' lost' /\
          bg_iter b = Some ts /\ increasing tcmp ts /\
          forall t, In t ts <-> exists q, In q qs /\ Triple (q_s q) (q_p q) (q_o q) = t
      | Interrupted d' | Failed d' => exists qs s' lost', outs qs s lost s' lost' /\ wrep d' s' lost' /\ listed d g qs
      end).
    { intros idx n0 HL; pose proof (d_x_remove_all idx d s lost bg_new [] n0 W bg_rep_new) as H.
      unfold andthen; destruct (d_id_remove_all cmp keep idx bg_new n0 d) as [b n' d'|d'|d'].
      - destruct H as (qs & (s' & lost' & _ & O & W') & B); unfold ret.
        exists qs, s', lost', (sorted_elements tcmp (fold_left (fun t x => add tcmp x t) (map (fun q => fst (into_triple q)) qs) [])).
        split; [exact O|]; split; [exact W'|]; split; [exact (bg_iter_rep _ _ B)|].
        split; [apply (sorted_elements_sorted LT), B|].
        assert (Fold : forall l s t, In t (fold_left (fun s x => add tcmp x s) l s) <-> In t s \/ In t l).
        { induction l as [|x l IH]; intros s0 t; cbn; [tauto|].
          rewrite IH, (in_add LT); intuition congruence. }
        intros t; rewrite (in_sorted_elements (cmp:=tcmp)), Fold, in_map_iff; cbn; split.
        + intros [[]|(q & E & Hq)]; exists q; split; [exact Hq|]; destruct q; exact E.
        + intros (q & Hq & E); right; exists q; split; [destruct q; exact E|exact Hq].
      - destruct H as (part & rest & qs & -> & s' & lost' & Em & O & W'); exists qs, s', lost'; split; [exact O|]; split; [exact W'|].
        eapply Some_listed; eauto.
      - destruct H as (part & rest & qs & -> & s' & lost' & Em & O & W'); exists qs, s', lost'; split; [exact O|]; split; [exact W'|].
        eapply Some_listed; eauto. }
    unfold d_id_remove_graph; destruct g as [g|].
    2: { unfold andthen at 1, andthen at 1, get, ret at 1; apply Go.
         intros i q Hi Hq x [<-|[]]; exists (id_dg d), i; auto. }
    pose proof (quiet_m_get (St:=@itable R) _ _ g (id_ri d)
      (fun i => quiet_resource_cmp cmp (ir_val (id_resources d)) i g)) as (k & Hk).
    unfold andthen at 1; unfold andthen at 1; unfold m_id_table, zoom, m_i_index_of_resource.
    unfold andthen at 1; unfold get at 1; cbn [fst snd]; rewrite Hk.
    assert (Ed : IDataset (id_resources d) (id_quads d) (id_ri d) (id_qi d) (id_s d) (id_p d) (id_o d) (id_dg d) (id_ng d) = d)
      by (destruct d; reflexivity).
    destruct (n <? k); [rewrite Ed; exact Stay|].
    match goal with |- match match match match match ?x with _ => _ end with _ => _ end with _ => _ end with _ => _ end with _ => _ end =>
      destruct x as [f|] eqn:Ef end; rewrite Ed; [|exact Stay].
    unfold andthen at 1, get; destruct f as [j|]; [|split; [reflexivity|discriminate]].
    destruct (ns_mem j (id_ng d)) eqn:En; [|split; [reflexivity|discriminate]].
    unfold andthen at 1, need; destruct (sget (id_resources d) j) as [r|] eqn:Er; [|exact Stay].
    unfold ret at 1; apply Go.
    intros i q Hi Hq x [<-|[]]; exists (ir_g r), i; split; [|auto]; cbn [indexes_of_graph].
    unfold i_index_of_resource, i_resource_cmp.
    match goal with |- bind ?a _ = _ => change a with (Some (Some j)) || (replace a with (Some (Some j)) by (rewrite <- Ef; reflexivity)) end.
    cbn [bind]; rewrite En, Er; reflexivity.
  Qed.

  Notation reached d := (exists ops0 ops xs, id_reached cmp keep ops0 ops xs d).

  Lemma d_x_calls_run cap : forall ns st ys st',
    dx_calls cmp cap ns st = (ys, false, st') ->
    m_run (fun _ : unit => d_extract_call cmp cap) st (map (pair tt) ns) = Some (ys, st').
  Proof.
    induction ns as [|n ns IH]; intros st ys st' E; [now inv E|]; cbn [dx_calls map m_run] in *.
    destruct (d_extract_call cmp cap n st) as [y k st1|st1|st1]; [| |discriminate];
      destruct (dx_calls cmp cap ns st1) as [[ys1 f1] st2] eqn:E1; inv E; rewrite (IH _ _ _ E1); reflexivity.
  Qed.

  Lemma d_x_step_kept clean d s lost o :
    kept_up (cmp:=cmp) keep clean d s lost ->
    exists y d', dx_step cmp keep d o = (y, d') /\
      exists clean1 s1 lost1, kept_up (cmp:=cmp) keep clean1 d' s1 lost1 /\
      forall l ys s' lost', survives cmp (cut qcmp) clean1 s1 lost1 l ys s' lost' ->
        survives cmp (cut qcmp) clean s lost (o :: l) (y :: ys) s' lost'.
  Proof.
    intros [W C]; destruct o as [o n|g n|c spare n ns]; cbn [dx_step].
    - pose proof (runs_d_id_step L keep True d s lost o n W) as Hr; unfold runs in Hr.
      destruct (d_id_step cmp keep o n d) as [y k d'|d'|] eqn:Ed; [| |contradiction].
      + destruct Hr as (-> & W'); eexists _, d'; split; [reflexivity|].
        exists clean, (snd (spec_step qcmp s o)), lost; split; [split; [exact W'|]|intros; now constructor].
        intros Ec; destruct (C Ec) as (-> & ops0 & ops & xs & Hd); split; [reflexivity|].
        pose proof (id_drop_done cmp keep d [(o, n)] [answer qcmp s [] o] d') as A; cbn [m_run map fst] in A; rewrite Ed in A.
        specialize (A eq_refl); exists ops0, (ops ++ [IOp o]), (xs ++ [IOut (answer qcmp s [] o)]).
        eapply reached_more; [exact Hd|].
        cbn [run] in A; destruct (id_step cmp keep d (IOp o)) as [[z d1]|]; [|discriminate]; inv A; reflexivity.
      + destruct Hr as (s1 & lost1 & W' & Lo); eexists _, d'; split; [reflexivity|].
        exists false, s1, lost1; split; [split; [exact W'|discriminate]|].
        intros; eapply sv_interrupted; eauto.
    - pose proof (d_x_remove_graph d s lost g n W) as Hr.
      destruct (d_id_remove_graph cmp keep g n d) as [[b|] k d'|d'|d'] eqn:Ed.
      + destruct Hr as (qs & s1 & lost1 & ts & O & W' & Eb & Inc & Ht); rewrite Eb.
        eexists _, d'; split; [reflexivity|]; exists clean, s1, lost1.
        assert (Cl : clean = true -> (lost1 = [] /\ reached d') /\
          NoDup qs /\ (forall q, In q qs -> In q s /\ q_g q = g) /\
          (g = None -> forall q, In q s -> q_g q = None -> In q qs)).
        { intros Ec; destruct (C Ec) as (-> & ops0 & ops & xs & Hd).
          destruct (taken_clean L _ _ _ _ _ O eq_refl) as (-> & A1 & A2 & A3).
          destruct (id_remove_graph_any L keep _ _ _ d g Hd) as (r & d2 & l' & Er & El & Hr & Hk).
          destruct (d_id_remove_graph_same _ _ _ d g Hd) as (r' & d2' & Er' & k' & Hs).
          rewrite Er in Er'; inv Er'.
          destruct (Hs n) as [S1 S2]; destruct (le_lt_dec k' n) as [Ho|Ho];
            [|destruct (S2 Ho) as (d3 & E3); rewrite Ed in E3; discriminate].
          specialize (S1 Ho); rewrite Ed in S1; inv S1.
          destruct (wid_reads L _ _ _ _ W') as (_ & Ei & _); rewrite El in Ei; inv Ei.
          destruct Hr as (ts' & Et & _ & Hin & Hl).
          assert (Es : forall q, In q s <-> In q (final_set cmp ops0 ops xs)).
          { apply (same_iter L d); [exact W|]; apply (id_rep_weak L), (reached_rep L keep), Hd. }
          split; [|split; [exact A1|split]].
          - split; [reflexivity|]; exists ops0, (ops ++ [IRemoveGraph g]), (xs ++ [IGraph (Some ts)]).
            eapply reached_more; [exact Hd|]; cbn [id_step]; rewrite Er; cbn [bind]; rewrite Eb; reflexivity.
          - intros q Hq; split; [now apply A2|].
            destruct (option_eq_dec L (q_g q) g) as [|N]; [assumption|exfalso].
            assert (Hq' : In q (sorted_elements qcmp s1)) by (apply Hl; split; [now apply Es, A2|tauto]).
            apply (in_sorted_elements (cmp:=qcmp)), A3 in Hq' as [_ F]; contradiction.
          - intros -> q Hq Hg; destruct Hk as [Hk _]; [apply known_nothing; discriminate|].
            destruct (mem qcmp q qs) eqn:Em; [now apply (mem_true LQ) in Em|exfalso].
            apply (mem_false LQ) in Em.
            assert (Hq' : In q (sorted_elements qcmp s1)) by (apply (in_sorted_elements (cmp:=qcmp)), A3; auto).
            apply Hk in Hq' as [_ F]; contradiction. }
        split; [split; [exact W'|intros Ec; apply (Cl Ec)]|].
        intros l ys s' lost' Hs; eapply sv_graph; [exact O|exact Inc|exact Ht|intros Ec; apply (Cl Ec)|exact Hs].
      + destruct Hr as (-> & Hg); eexists _, d; split; [reflexivity|]; exists clean, s, lost.
        split; [split; assumption|]; intros; now constructor.
      + destruct Hr as (qs & s1 & lost1 & O & W' & Hl).
        eexists _, d'; split; [reflexivity|]; exists false, s1, lost1.
        split; [split; [exact W'|discriminate]|].
        intros l ys s' lost' Hs; eapply sv_graph_interrupted; [exact O| |exact Hs].
        intros Ec; destruct (C Ec) as (-> & ops0 & ops & xs & Hd).
        destruct (taken_clean L _ _ _ _ _ O eq_refl) as (-> & A1 & A2 & A3); split; [exact A1|].
        intros q Hq; split; [now apply A2|].
        pose proof (reached_rep L keep _ _ _ _ Hd) as Hrep.
        exact (listed_graph _ _ _ _ _ Hrep Hl Hq).
      + destruct clean.
        * exfalso; destruct (C eq_refl) as (_ & ops0 & ops & xs & Hd).
          destruct (d_id_remove_graph_same _ _ _ d g Hd) as (r' & d2' & _ & k' & Hs).
          destruct (Hs n) as [S1 S2]; destruct (le_lt_dec k' n) as [Ho|Ho];
            [specialize (S1 Ho); congruence|destruct (S2 Ho); congruence].
        * destruct Hr as (qs & s1 & lost1 & O & W' & _).
          eexists _, d'; split; [reflexivity|]; exists false, s1, lost1.
          split; [split; [exact W'|discriminate]|].
          intros l ys s' lost' Hs; eapply sv_graph_failed; [exact O|exact Hs].
    - destruct (d_x_extract d s lost spare c n W) as (qs & Eq & Am & Hx).
      destruct (m_pm_new cmp c n d) as [m k d1|d1|] eqn:Ed; [| |contradiction].
      + destruct Hx as (-> & Em & Hx); destruct (Hx ns) as (ys1 & d' & m' & taken & s1 & lost1 & Ex & Hl & D & O & W').
        rewrite Ex; eexists _, d'; split; [reflexivity|].
        assert (Cl : clean = true -> ~ In None ys1 -> lost1 = [] /\ reached d').
        { intros Ec Hn; destruct (C Ec) as (-> & ops0 & ops & xs & Hd).
          destruct (taken_clean L _ _ _ _ _ O eq_refl) as (-> & _); split; [reflexivity|].
          destruct (no_none _ Hn) as (zs & ->).
          apply d_x_calls_run in Ex.
          destruct (d_id_extract_all_done _ _ _ _ _ _ _ _ _ _ Ed Ex) as (_ & _ & Ec2).
          destruct (id_extract_next cmp L keep _ _ _ d spare c Hd) as (m0 & l & d_end & Em0 & El & Hc).
          rewrite Em in Em0; inv Em0; rewrite map_length in Ec2.
          destruct (Hc (length ns)) as (d2 & m2 & E2 & E3 & _); rewrite Ec2 in E2; inv E2.
          exists ops0, (ops ++ [IExtract c (length ns) spare]), (xs ++ [IQuads (firstn (length ns) l)]).
          eapply reached_more; [exact Hd|]; cbn [id_step]; rewrite E3; reflexivity. }
        assert (Mt : clean = true -> forall q, In q qs -> cq_matches c q).
        { intros Ec; destruct (C Ec) as (-> & ops0 & ops & xs & Hd).
          destruct (id_pattern_sound L keep _ _ _ _ spare c Hd) as (l & El & _ & Hm).
          rewrite Eq in El; inv El; intros q Hq; now apply Hm. }
        destruct (not_none_dec ys1) as [Hn|Hn].
        * exists false, s1, lost1; split; [split; [exact W'|discriminate]|].
          intros l ys s' lost' Hs; eapply sv_extract; try eassumption; [discriminate|contradiction].
        * exists clean, s1, lost1; split; [split; [exact W'|auto]|].
          intros l ys s' lost' Hs; eapply sv_extract; try eassumption; auto.
      + subst d1; eexists _, d; split; [reflexivity|]; exists clean, s, lost; split; [split; assumption|].
        intros; now apply sv_extract_interrupted.
  Qed.

  Lemma d_x_run_kept l : forall clean d s lost,
    kept_up (cmp:=cmp) keep clean d s lost ->
    exists ys d' s' lost', dx_run cmp keep d l = (ys, d') /\
      survives cmp (cut qcmp) clean s lost l ys s' lost' /\ wrep d' s' lost'.
  Proof.
    induction l as [|o l IH]; intros clean d s lost K; cbn [dx_run].
    - exists [], d, s, lost; split; [reflexivity|]; split; [constructor|exact (proj1 K)].
    - destruct (d_x_step_kept clean d s lost o K) as (y & d1 & E & clean1 & s1 & lost1 & K1 & Next).
      rewrite E; destruct (IH _ _ _ _ K1) as (ys & d' & s' & lost' & E' & Sv & W); rewrite E'.
      exists (y :: ys), d', s', lost'; split; [reflexivity|]; split; [now apply Next|exact W].
  Qed.

  Lemma d_x_history ops0 ops xs d0 l :
    id_reached cmp keep ops0 ops xs d0 ->
    exists ys d s lost, dx_run cmp keep d0 l = (ys, d) /\
      survives cmp (cut qcmp) true (final_set cmp ops0 ops xs) [] l ys s lost /\ wrep d s lost.
  Proof.
    intros H; apply d_x_run_kept; split; [apply (id_rep_weak L), (reached_rep L keep), H|].
    intros _; split; [reflexivity|eauto].
  Qed.

  Lemma d_x_reads ops0 ops xs d0 l :
    id_reached cmp keep ops0 ops xs d0 ->
    exists ys d s lost, dx_run cmp keep d0 l = (ys, d) /\
      survives cmp (cut qcmp) true (final_set cmp ops0 ops xs) [] l ys s lost /\ NoDup s /\
      id_len d = length s + length lost /\ id_iter d = Some (sorted_elements qcmp s) /\
      (exists vs, id_resources_iter d = Some vs /\ increasing cmp vs /\
         forall v, id_contains_resource cmp d v = Some (mem cmp v vs)) /\
      id_queries_within cmp d (s ++ lost).
  Proof.
    intros H; destruct (d_x_history _ _ _ _ l H) as (ys & d & s & lost & E & Sv & W).
    exists ys, d, s, lost; split; [exact E|]; split; [exact Sv|]; split; [exact (proj1 W)|].
    destruct (wid_reads L _ _ _ _ W) as (A & B & C).
    split; [exact A|]; split; [exact B|]; split; [exact C|exact (wid_queries L _ _ _ W)].
  Qed.

  Lemma d_x_extract_after ops0 ops xs d0 l ys d spare c n :
    id_reached cmp keep ops0 ops xs d0 -> dx_run cmp keep d0 l = (ys, d) ->
    exists qs, id_pattern_matching cmp d spare c = Some qs /\
    match m_pm_new cmp c n d with
    | Failed _ => False
    | Interrupted d' => d' = d
    | Done m _ d' => d' = d /\
        forall ns, exists zs d' m' k lost,
          dx_calls cmp (capacity d spare) ns (d, m) = (zs, false, (d', m')) /\ length zs = length ns /\
          drained qs zs (firstn (k + lost) qs) /\ items zs = firstn k qs /\
          k + lost <= length qs /\ lost <= 1 /\ (lost = 1 -> In None zs) /\
          id_len d' + k + lost = id_len d
    end.
  Proof.
    intros H E; destruct (d_x_history _ _ _ _ l H) as (ys' & d' & s & lost & E' & _ & W).
    rewrite E in E'; inv E'.
    destruct (d_x_extract d' s lost spare c n W) as (qs & Eq & _ & Hx); exists qs; split; [exact Eq|].
    destruct (m_pm_new cmp c n d') as [m k d1|d1|]; [|exact Hx|exact Hx].
    destruct Hx as (-> & _ & Hx); split; [reflexivity|]; intros ns.
    destruct (Hx ns) as (zs & d2 & m' & taken & s' & lost' & Ex & Hl & D & O & W').
    destruct (drained_items _ _ _ D) as (k0 & lo & A1 & A2 & A3 & A4 & A5 & _).
    exists zs, d2, m', k0, lo; split; [exact Ex|]; split; [exact Hl|]; split; [now rewrite <- A4|].
    split; [exact A3|]; split; [exact A1|]; split; [exact A2|]; split; [exact A5|].
    destruct (wid_reads L _ _ _ _ W) as (B & _), (wid_reads L _ _ _ _ W') as (B' & _).
    rewrite B, B'; destruct (taken_length L _ _ _ _ _ O (proj1 W)) as (-> & _).
    rewrite A4, firstn_length_le by exact A1; lia.
  Qed.

  Lemma d_x_bounds ops0 ops xs d0 l ys d :
    id_reached cmp keep ops0 ops xs d0 -> dx_run cmp keep d0 l = (ys, d) ->
    length ys = length l /\
    (exists n, id_iter d = Some n /\ length n <= id_len d <= length n + length (filter interrupted ys)) /\
    forall before after, ys = before ++ XFailed :: after -> exists y, In y before /\ interrupted y = true.
  Proof.
    intros H E; destruct (d_x_reads _ _ _ _ l H) as (ys' & d' & s & lost & E' & Sv & ND & A & B & _).
    rewrite E in E'; inv E'; destruct (survives_lost _ _ _ _ _ _ _ _ cut_lost Sv) as (C1 & C2).
    split; [exact C2|]; split.
    - exists (sorted_elements qcmp s); split; [exact B|]; rewrite (length_sorted L _ ND), A; cbn in C1; lia.
    - intros before after Ey; destruct (survives_failed _ _ _ _ _ _ _ _ Sv _ _ Ey) as [F|F]; [discriminate|exact F].
  Qed.

  Lemma d_x_step_plain ops0 ops xs d o y d' :
    id_reached cmp keep ops0 ops xs d -> dx_step cmp keep d o = (y, d') -> interrupted y = false ->
    exists z, id_step cmp keep d (plain o) = Some (z, d') /\ same_out y z.
  Proof.
    intros Hd E Hi; destruct o as [o n|g n|c spare n ns]; cbn [dx_step plain] in *.
    - assert (W : wrep d (final_set cmp ops0 ops xs) []) by (apply (id_rep_weak L), (reached_rep L keep), Hd).
      pose proof (runs_d_id_step L keep True d _ [] o n W) as Hr; unfold runs in Hr.
      destruct (d_id_step cmp keep o n d) as [x k d1|d1|] eqn:Ed; [|inv E; discriminate|contradiction]; inv E.
      pose proof (id_drop_done cmp keep d [(o, n)] [x] d') as A; cbn [m_run map fst] in A; rewrite Ed in A.
      specialize (A eq_refl); exists (IOut x); split; [|reflexivity].
      cbn [run] in A; destruct (id_step cmp keep d (IOp o)) as [[z d1]|]; [|discriminate]; inv A; reflexivity.
    - destruct (id_remove_graph_any L keep _ _ _ d g Hd) as (r & d2 & l' & Er & El & Hr & _).
      destruct (d_id_remove_graph_same _ _ _ d g Hd) as (r' & d2' & Er' & k' & Hs).
      rewrite Er in Er'; inv Er'; destruct (Hs n) as [S1 S2]; destruct (le_lt_dec k' n) as [Ho|Ho].
      + rewrite (S1 Ho) in E; cbn [id_step]; rewrite Er; cbn [bind]; destruct r' as [b|].
        * destruct Hr as (ts & Et & _); rewrite Et in *; inv E; eexists; split; reflexivity.
        * inv E; eexists; split; reflexivity.
      + destruct (S2 Ho) as (d3 & E3); rewrite E3 in E; inv E; discriminate.
    - assert (W : wrep d (final_set cmp ops0 ops xs) []) by (apply (id_rep_weak L), (reached_rep L keep), Hd).
      destruct (d_x_extract d _ _ spare c n W) as (qs & Eq & _ & Hx).
      destruct (m_pm_new cmp c n d) as [m k d1|d1|] eqn:Ed; [|inv E; discriminate|contradiction].
      destruct Hx as (-> & Em & Hx); destruct (Hx ns) as (ys1 & d1 & m' & taken & s1 & lost1 & Ex & _).
      rewrite Ex in E; inv E; cbn [interrupted] in Hi.
      assert (Hn : ~ In None ys1) by (intros F; rewrite (existsb_none _ F) in Hi; discriminate).
      destruct (no_none _ Hn) as (zs & ->); apply d_x_calls_run in Ex.
      destruct (d_id_extract_all_done _ _ _ _ _ _ _ _ _ _ Ed Ex) as (_ & _ & Ec2).
      destruct (id_extract_next cmp L keep _ _ _ d spare c Hd) as (m0 & l & d_end & Em0 & El & Hc).
      rewrite Em in Em0; inv Em0; rewrite map_length in Ec2.
      destruct (Hc (length ns)) as (d2 & m2 & E2 & E3 & _); rewrite Ec2 in E2; inv E2.
      exists (IQuads (firstn (length ns) l)); cbn [id_step]; rewrite E3; split; [reflexivity|].
      eexists; split; [reflexivity|]; split; [exact Hn|apply items_nth].
  Qed.

  Lemma d_x_run_plain l : forall ops0 ops xs d ys d',
    id_reached cmp keep ops0 ops xs d -> dx_run cmp keep d l = (ys, d') ->
    (forall y, In y ys -> interrupted y = false) ->
    exists zs, run (id_step cmp keep) d (map plain l) = Some (zs, d') /\ Forall2 same_out ys zs.
  Proof.
    induction l as [|o l IH]; intros ops0 ops xs d ys d' Hd E Hi; cbn [dx_run map run] in *.
    - inv E; exists []; split; [reflexivity|constructor].
    - destruct (dx_step cmp keep d o) as [y d1] eqn:E1; destruct (dx_run cmp keep d1 l) as [ys1 d2] eqn:E2; inv E.
      destruct (d_x_step_plain _ _ _ _ _ _ _ Hd E1 (Hi y (or_introl eq_refl))) as (z & Ez & Sz).
      destruct (IH _ _ _ _ _ _ (reached_more keep _ _ _ _ _ _ _ Hd Ez) E2 (fun y H => Hi y (or_intror H))) as (zs & Ezs & Szs).
      exists (z :: zs); rewrite Ez, Ezs; split; [reflexivity|now constructor].
  Qed.

  Lemma d_x_run_calls cap : forall ns st ys st',
    m_run (fun _ : unit => d_extract_call cmp cap) st (map (pair tt) ns) = Some (ys, st') ->
    dx_calls cmp cap ns st = (ys, false, st').
  Proof.
    induction ns as [|n ns IH]; intros st ys st' E; [now inv E|]; cbn [dx_calls map m_run] in *.
    destruct (d_extract_call cmp cap n st) as [y k st1|st1|st1]; [| |discriminate];
      destruct (m_run _ st1 (map (pair tt) ns)) as [[ys1 st2]|] eqn:E1; try discriminate;
      inv E; rewrite (IH _ _ _ E1); reflexivity.
  Qed.

  Lemma d_x_step_enough ops0 ops xs d o z d' :
    id_reached cmp keep ops0 ops xs d -> id_step cmp keep d o = Some (z, d') ->
    exists k, forall n, k <= n -> exists y, dx_step cmp keep d (within n o) = (y, d') /\ same_out y z.
  Proof.
    intros Hd E; destruct o as [o|g|c j spare].
    - pose proof (agrees_d_id_step cmp keep d o) as (k & Hk); exists k; intros n Hn; cbn [within dx_step].
      destruct (Hk n) as [_ Hle]; specialize (Hle Hn); unfold id_set_step in Hle; rewrite E in Hle.
      assert (Z : exists x, z = IOut x).
      { destruct o; cbn in E; repeat match type of E with
          | context [bind ?m _] => destruct m as [?|]; cbn [bind] in E; try discriminate
          end; repeat match goal with x : _ * _ |- _ => destruct x end; inv E; eauto. }
      destruct Z as (x & ->); rewrite Hle; eexists; split; reflexivity.
    - cbn [id_step] in E.
      destruct (d_id_remove_graph_same _ _ _ d g Hd) as (r' & d2' & Er' & k' & Hs).
      rewrite Er' in E; cbn [bind] in E; exists k'; intros n Hn; destruct (Hs n) as [S1 _]; cbn [within dx_step].
      rewrite (S1 Hn); destruct r' as [b|]; [|inv E; eexists; split; reflexivity].
      destruct (bg_iter b) as [ts|]; [|discriminate]; inv E; eexists; split; reflexivity.
    - cbn [id_step] in E.
      destruct (id_extract_next cmp L keep _ _ _ d spare c Hd) as (m & l & d_end & Em & El & Hc).
      destruct (Hc j) as (d2 & m2 & E2 & E3 & _); rewrite E3 in E; cbn [bind] in E; inv E.
      destruct (d_id_extract_enough _ _ _ _ _ _ _ Em E2) as (k & Hk); exists k; intros n Hn.
      destruct (Hk n Hn) as ((e & Ee) & Er); cbn [within dx_step]; rewrite Ee.
      assert (Ec : dx_calls cmp (capacity d spare) (repeat n j) (d, m) = (map Some (map (nth_error l) (seq 0 j)), false, (d', m2))).
      { apply d_x_run_calls; rewrite <- Er; f_equal; clear; induction j as [|j IH]; cbn; congruence. }
      rewrite Ec; eexists; split; [reflexivity|]; eexists; split; [reflexivity|]; split; [|apply items_nth].
      intros F; apply in_map_iff in F as (? & ? & _); discriminate.
  Qed.

  Lemma d_x_run_enough iops : forall ops0 ops xs d zs d',
    id_reached cmp keep ops0 ops xs d -> run (id_step cmp keep) d iops = Some (zs, d') ->
    exists k, forall n, k <= n -> exists ys, dx_run cmp keep d (map (within n) iops) = (ys, d') /\ Forall2 same_out ys zs.
  Proof.
    induction iops as [|o iops IH]; intros ops0 ops xs d zs d' Hd E; cbn [run map dx_run] in *.
    - inv E; exists 0; intros n _; exists []; split; [reflexivity|constructor].
    - destruct (id_step cmp keep d o) as [[z d1]|] eqn:E1; [|discriminate].
      destruct (run (id_step cmp keep) d1 iops) as [[zs1 d2]|] eqn:E2; [|discriminate]; inv E.
      destruct (d_x_step_enough _ _ _ _ _ _ _ Hd E1) as (k1 & H1).
      destruct (IH _ _ _ _ _ _ (reached_more keep _ _ _ _ _ _ _ Hd E1) E2) as (k2 & H2).
      exists (k1 + k2); intros n Hn.
      destruct (H1 n) as (y & Ey & Sy); [lia|]; destruct (H2 n) as (ys & Eys & Sys); [lia|].
      exists (y :: ys); rewrite Ey, Eys; split; [reflexivity|now constructor].
  Qed.
End Proofs.
