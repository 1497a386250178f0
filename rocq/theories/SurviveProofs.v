(** All the operations of an indexed dataset, interrupted or not, one after the other. *)
From Coq Require Import List Bool Arith Lia Permutation Sorted.
Import ListNotations.
From Verif Require Import Base SlabModel TripleModel TriplePatternModel QuadPatternModel SetSpec ContainerSpec PatternSpec
  IndexedSpec Machine BaseProofs BResourceModel BResourceProofs BTreeDatasetModel BTreeDatasetProofs
  BTreeGraphModel BTreeGraphProofs IResourceModel IResourceProofs IndexedDatasetModel IndexedDatasetProofs IndexedPatternProofs
  IndexedHistoryProofs IndexedRunProofs IterModel IterSpec IterProofs
  CrashModel CrashSpec ICrashSpec CrashProofs BCrashProofs CrashAgree BGCrashProofs CrashHistoryProofs
  ICrashModel ICrashProofs ICrashReads ICrashAgree ICrashHistory ExtractCrashModel ExtractCrashSpec ExtractCrashProofs
  SurviveSpec SurviveModel.

(** ** The search, whatever the indexes hold *)
Lemma pm_seek_local cap qs qs' fuel : forall m,
  (forall j, pm_i m <= j -> sget qs j = sget qs' j) -> pm_seek fuel cap qs m = pm_seek fuel cap qs' m.
Proof.
  induction fuel as [|fuel IH]; intros m H; [reflexivity|]; cbn [pm_seek].
  destruct (pm_i m <? cap); [|reflexivity].
  destruct (s_next (pm_s m) (pm_i m)) as [[i|] cs] eqn:Es; [|reflexivity].
  apply s_next_le in Es; rewrite <- (H i Es); destruct (sget qs i) as [q|]; [|reflexivity].
  destruct (c_next (pm_p m) i q) as [[|[j|]] cp] eqn:Ep;
    [|apply c_next_lt in Ep; apply IH; cbn; intros k Hk; apply H; lia|reflexivity].
  destruct (c_next (pm_o m) i q) as [[|[j|]] co] eqn:Eo;
    [|apply c_next_lt in Eo; apply IH; cbn; intros k Hk; apply H; lia|reflexivity].
  destruct (c_next (pm_g m) i q) as [[|[j|]] cg] eqn:Eg;
    [reflexivity|apply c_next_lt in Eg; apply IH; cbn; intros k Hk; apply H; lia|reflexivity].
Qed.

Lemma pm_seek_from cap qs fuel : forall m i x m',
  pm_seek fuel cap qs m = Some (Some (i, x), m') -> pm_i m <= i.
Proof.
  induction fuel as [|fuel IH]; intros m i x m' H; [discriminate|]; cbn [pm_seek] in H.
  destruct (pm_i m <? cap); [|discriminate].
  destruct (s_next (pm_s m) (pm_i m)) as [[k|] cs] eqn:Es; [|discriminate].
  apply s_next_le in Es; destruct (sget qs k) as [q|]; [|discriminate].
  destruct (c_next (pm_p m) k q) as [[|[j|]] cp] eqn:Ep;
    [|apply c_next_lt in Ep; apply IH in H; cbn in H; lia|discriminate].
  destruct (c_next (pm_o m) k q) as [[|[j|]] co] eqn:Eo;
    [|apply c_next_lt in Eo; apply IH in H; cbn in H; lia|discriminate].
  destruct (c_next (pm_g m) k q) as [[|[j|]] cg] eqn:Eg;
    [|apply c_next_lt in Eg; apply IH in H; cbn in H; lia|discriminate].
  now inversion H; subst.
Qed.

Fixpoint comes (cap : nat) (qs : slab (quad nat)) (m : pm) (r : list (nat * quad nat)) : Prop :=
  match r with
  | [] => exists m', pm_seek (S cap) cap qs m = Some (None, m')
  | (i, x) :: r => exists m', pm_seek (S cap) cap qs m = Some (Some (i, x), m') /\
                     sget qs i = Some x /\ comes cap qs (bump i m') r
  end.

Lemma comes_local cap qs qs' r : forall m,
  comes cap qs m r -> (forall j, pm_i m <= j -> sget qs j = sget qs' j) -> comes cap qs' m r.
Proof.
  induction r as [|[i x] r IH]; cbn [comes]; intros m H E.
  - rewrite <- (pm_seek_local cap qs qs' _ m E); exact H.
  - destruct H as (m' & H1 & H2 & H3); exists m'.
    rewrite <- (pm_seek_local cap qs qs' _ m E); pose proof (pm_seek_from _ _ _ _ _ _ _ H1) as Hi.
    split; [exact H1|]; rewrite <- (E i Hi); split; [exact H2|].
    apply IH; [exact H3|]; cbn; intros j Hj; apply E; lia.
Qed.

Lemma comes_live cap qs r : forall m, comes cap qs m r -> forall i x, In (i, x) r -> sget qs i = Some x.
Proof.
  induction r as [|[i x] r IH]; cbn [comes]; intros m H j y [].
  - inversion H0; subst; now destruct H as (m' & _ & H & _).
  - destruct H as (m' & _ & _ & H); eauto.
Qed.

Section Proofs.
  Context {R : Type} {cmp : R -> R -> comparison} (L : ord_laws cmp).
  Context (keep : bool).
  Notation qcmp := (quad_cmp cmp).
  Notation tcmp := (triple_cmp cmp).
  Let LQ : ord_laws qcmp := quad_cmp_laws cmp L.
  Let LT : ord_laws tcmp := triple_cmp_laws cmp L.
  Notation wr d := (i_quad_with_resources (id_resources d)).
  Notation vals d r := (mapM (fun e : nat * quad nat => wr d (snd e)) r).
  Notation winv := (wid_inv (cmp:=cmp) True).
  Notation wrep := (wid_rep (cmp:=cmp) True).

  Lemma collect_comes cap (d : @idataset R) fuel : forall m l,
    pm_collect fuel cap d m = Some l ->
    exists r, comes cap (id_quads d) m r /\ vals d r = Some l.
  Proof.
    induction fuel as [|fuel IH]; intros m l H; [discriminate|]; cbn [pm_collect] in H.
    rewrite pm_next_seek in H.
    destruct (pm_seek (S cap) cap (id_quads d) m) as [[[[i x]|] m']|] eqn:E; [| |discriminate]; cbn [bind] in H.
    - destruct (wr d x) as [q|] eqn:Eq; [|discriminate]; cbn [bind] in H.
      destruct (pm_collect fuel cap d (bump i m')) as [l'|] eqn:El; [|discriminate]; cbn in H; inv H.
      destruct (IH _ _ El) as (r & A & B); exists ((i, x) :: r); split.
      + cbn [comes]; exists m'; split; [exact E|]; split; [|exact A].
        now destruct (pm_seek_again _ _ _ _ _ _ _ E).
      + cbn [mapM snd]; rewrite Eq; cbn [bind]; rewrite B; reflexivity.
    - inv H; exists []; split; [exists m'; exact E|reflexivity].
  Qed.

  (** ** A quad of the slab is removed, whether it is in the index or not *)
  Lemma mapM_perm {A B} (f : A -> option B) l m : Permutation l m ->
    forall r, mapM f l = Some r -> exists r', mapM f m = Some r' /\ Permutation r r'.
  Proof.
    induction 1 as [|x l m P IH|x y l|l m n P1 IH1 P2 IH2]; intros r Hr.
    - exists r; auto.
    - cbn in *; destruct (f x); [|discriminate]; cbn in *; destruct (mapM f l); [|discriminate].
      destruct (IH _ eq_refl) as (r' & -> & Pr); inv Hr; eexists; split; [reflexivity|now constructor].
    - cbn in *; destruct (f x), (f y); try discriminate; cbn in *.
      destruct (mapM f l); [|discriminate]; inv Hr; eexists; split; [reflexivity|constructor].
    - destruct (IH1 _ Hr) as (r1 & E1 & Q1), (IH2 _ E1) as (r2 & E2 & Q2).
      exists r2; split; [exact E2|]; now rewrite Q1.
  Qed.

  Lemma perm_in_iff {A} (l m : list A) (P : Permutation l m) x : In x l <-> In x m.
  Proof. split; apply Permutation_in; [|symmetry]; exact P. Qed.

  Lemma runs_drop d ks lost i x q qs qi ks' lost' gi n :
    winv d ks lost -> sget (id_quads d) i = Some x -> wr d x = Some q ->
    sremove (id_quads d) i = Some (x, qs) ->
    indexes (cmpk:=qcmp) (i_quad_at (id_resources d) (id_quads d)) qi ks' ->
    length ks + length lost = S (length ks' + length lost') ->
    NoDup (qi ++ gi) -> (forall j, In j (qi ++ gi) <-> sget (id_quads d) j <> None /\ j <> i) ->
    mapM (i_quad_at (id_resources d) (id_quads d)) gi = Some lost' ->
    runs (m_tail (cmp:=cmp) false i x q) n
      (IDataset (id_resources d) qs (id_ri d) qi (ns_remove (q_s x) (id_s d))
         (ns_remove (q_p x) (id_p d)) (ns_remove (q_o x) (id_o d)) (id_dg d) (id_ng d))
      (fun _ d' => winv d' ks' lost') (fun d' => winv d' ks' lost').
  Proof.
    intros [I1 I2 I3 I4 I8 I5 I6 I7] Ex Hq Eqs I2' Hlen ND HB HM.
    assert (Gq : forall j, sget qs j = if j =? i then None else sget (id_quads d) j)
      by (intros j; apply (sget_sremove _ _ _ _ _ Eqs)).
    assert (Fin : forall d', (exists rs ri dg ng,
        d' = IDataset rs qs ri qi (ns_remove (q_s x) (id_s d))
               (ns_remove (q_p x) (id_p d)) (ns_remove (q_o x) (id_o d)) dg ng /\
        imidr (cmp:=cmp) True qs qi (id_resources d) (fun _ _ _ => False) rs ri) ->
      winv d' ks' lost').
    { intros d' (rs & ri & dg & ng & -> & M & V).
      assert (Same : forall j, j <> i ->
        i_quad_at rs qs j = i_quad_at (id_resources d) (id_quads d) j).
      { intros j Ej; apply Nat.eqb_neq in Ej; unfold i_quad_at; rewrite Gq, Ej.
        destruct (sget (id_quads d) j) as [y|] eqn:Ey; cbn; [|reflexivity].
        assert (Hy : forall p r, slot p y = Some r -> ir_val rs r = ir_val (id_resources d) r).
        { intros p r Hs; apply (V p r j); left; split; [|auto].
          exists y; rewrite Gq, Ej; auto. }
        unfold i_quad_with_resources.
        rewrite (Hy PosS _ eq_refl), (Hy PosP _ eq_refl), (Hy PosO _ eq_refl).
        destruct (q_g y) as [g|] eqn:Eg; [|reflexivity].
        rewrite (Hy PosG g Eg); reflexivity. }
      split; cbn [id_quads id_resources id_ri id_qi id_s id_p id_o].
      - eapply swf_sremove; eauto.
      - eapply indexes_ext; [|exact I2']; intros j Hj; apply Same.
        intros ->; destruct (proj1 (HB i)); [apply in_or_app; now left|congruence].
      - eapply wiinv_le; [exact M|]; cbn; auto.
      - rewrite (slen_sremove _ _ _ _ Eqs) in I4; lia.
      - intros _; exists gi; split; [exact ND|]; split.
        + intros j; rewrite HB, Gq; destruct (j =? i) eqn:Ej.
          * apply Nat.eqb_eq in Ej; subst; split; [tauto|congruence].
          * apply Nat.eqb_neq in Ej; tauto.
        + rewrite <- HM; apply mapM_ext; intros j Hj; apply Same.
          intros ->; destruct (proj1 (HB i)); [apply in_or_app; now right|congruence].
      - eapply (spo_ok_remove True (id_quads d) qs i x); auto.
      - eapply (spo_ok_remove True (id_quads d) qs i x); auto.
      - eapply (spo_ok_remove True (id_quads d) qs i x); auto. }
    eapply runs_weak; [eapply (runs_tail L True)| |]; cbn [id_quads id_resources id_ri id_qi id_s id_p id_o].
    - rewrite Gq, Nat.eqb_refl; reflexivity.
    - split; [|auto]; eapply wiinv_le; [exact I3|]; intros p r j [[(y & Hy & Hs) _]|(_ & Hs & ->)].
      + split; [exists y; split; [|exact Hs]|auto]; rewrite Gq in Hy; destruct (j =? i); [discriminate|exact Hy].
      + split; [exists x; auto|auto].
    - exact Hq.
    - intros _; exact Fin.
    - exact Fin.
  Qed.

  (** [remove_by_index] of any quad of the slab. *)
  Lemma runs_out d ks lost i q n :
    winv d ks lost -> i_quad_at (id_resources d) (id_quads d) i = Some q ->
    let left d' := exists lost', (In q ks /\ winv d' (del qcmp q ks) lost' /\ Permutation lost lost' \/
                       ~ In q ks /\ winv d' ks lost' /\ Permutation lost (q :: lost')) /\ without i d d' in
    runs (m_id_remove_by_index cmp i true) n d (fun _ => left) (fun d' => d' = d \/ left d').
  Proof.
    intros W Hv left; pose proof (wid_idx _ _ _ _ W) as I2.
    destruct (wid_ghosts _ _ _ _ W Logic.I) as (gi & GA & GB & GC).
    unfold m_id_remove_by_index; apply runs_get_then.
    destruct (bt_remove_spec LQ _ _ _ q I2) as (r & qi & E & I2' & Hr).
    pose proof Hv as Hv0.
    unfold i_quad_at in Hv; destruct (sget (id_quads d) i) as [x|] eqn:Ex; [|discriminate].
    cbn in Hv; destruct (sremove_some _ _ _ Ex) as (qs & Eqs).
    apply runs_andthen.
    eapply runs_quiet_then.
    { eapply quiet_eq; [eapply quiet_m_remove; intros; apply quiet_quad_index_cmp|].
      rewrite (bt_remove_icmp qcmp _ i q _ Hv0); exact E. }
    { auto. }
    intros m; cbn beta iota; apply runs_put; intros m'; apply runs_get_then.
    cbn [id_quads id_resources id_ri id_qi id_s id_p id_o id_dg id_ng].
    eapply runs_need_then; [exact Eqs|]; cbn beta iota; apply runs_put_then.
    assert (G : forall d', fewer qs (id_resources d) d' -> without i d d').
    { intros d' [Hq Hr']; split; [|exact Hr']; intros j; rewrite Hq; apply (sget_sremove _ _ _ _ _ Eqs). }
    assert (Ii : In i (id_qi d ++ gi)) by (apply GB; congruence).
    pose proof (indexes_nodup LQ _ _ _ I2) as NQ.
    assert (NK : NoDup ks) by (apply (ssorted_nodup LQ), I2).
    assert (Goal_ : exists ks' lost' gi',
      (In q ks /\ ks' = del qcmp q ks /\ Permutation lost lost' \/
       ~ In q ks /\ ks' = ks /\ Permutation lost (q :: lost')) /\
      indexes (cmpk:=qcmp) (i_quad_at (id_resources d) (id_quads d)) qi ks' /\
      length ks + length lost = S (length ks' + length lost') /\
      NoDup (qi ++ gi') /\ (forall j, In j (qi ++ gi') <-> sget (id_quads d) j <> None /\ j <> i) /\
      mapM (i_quad_at (id_resources d) (id_quads d)) gi' = Some lost').
    { destruct r as [j|].
      - destruct Hr as (Hj & Hin & HP).
        assert (P1 : Permutation (id_qi d ++ gi) (j :: qi ++ gi)) by now rewrite HP.
        assert (N1 : NoDup (j :: qi ++ gi)) by (apply (Permutation_NoDup P1), GA).
        destruct (Nat.eq_dec j i) as [->|Ne].
        + exists (del qcmp q ks), lost, gi; inversion N1 as [|? ? Ni N2]; subst.
          split; [left; auto|]; split; [exact I2'|]; split.
          { rewrite (length_del L q ks NK Hin); lia. }
          split; [exact N2|]; split; [|exact GC].
          intros k; rewrite <- GB, (perm_in_iff _ _ P1 k); cbn; split; [intros H; split; [auto|intros ->; contradiction]|].
          intros [[->|H] Hk]; [congruence|exact H].
        + assert (Ig : In i gi).
          { apply in_app_or in Ii as [Ii|Ii]; [|exact Ii]; exfalso; apply Ne.
            eapply (indexes_inj LQ _ _ _ _ _ _ I2); eauto.
            eapply Permutation_in; [symmetry; exact HP|now left]. }
          destruct (in_split _ _ Ig) as (g1 & g2 & ->).
          destruct (mapM_perm _ _ (i :: g1 ++ g2) (Permutation_sym (Permutation_middle g1 g2 i)) _ GC) as (l1 & El & Pl).
          cbn [mapM] in El; rewrite Hv0 in El; cbn [bind] in El.
          destruct (mapM (i_quad_at (id_resources d) (id_quads d)) (g1 ++ g2)) as [l2|] eqn:E2; [|discriminate].
          cbn in El; inv El.
          assert (P2 : Permutation (j :: qi ++ g1 ++ i :: g2) (i :: qi ++ j :: g1 ++ g2)).
          { transitivity (j :: i :: qi ++ g1 ++ g2).
            - constructor; rewrite !app_assoc; symmetry; apply Permutation_middle.
            - rewrite perm_swap; constructor; apply Permutation_middle. }
          assert (N2 : NoDup (i :: qi ++ j :: g1 ++ g2)) by (apply (Permutation_NoDup P2), N1).
          inversion N2 as [|? ? Ni N3]; subst.
          exists (del qcmp q ks), (q :: l2), (j :: g1 ++ g2).
          split; [left; auto|]; split; [exact I2'|]; split.
          { rewrite (length_del L q ks NK Hin), (Permutation_length Pl); cbn; lia. }
          split; [exact N3|]; split.
          * intros k; rewrite <- GB, (perm_in_iff _ _ P1 k), (perm_in_iff _ _ P2 k).
            split; [intros H; split; [now right|intros ->; contradiction]|].
            intros [[->|H] Hk]; [congruence|exact H].
          * cbn [mapM]; rewrite Hj; cbn [bind]; rewrite E2; reflexivity.
      - destruct Hr as (Hn & ->).
        assert (Ig : In i gi).
        { apply in_app_or in Ii as [Ii|Ii]; [|exact Ii]; exfalso; apply Hn.
          destruct I2 as [HM _]; destruct (mapM_in_inv _ _ _ _ HM Ii) as (y & Hy & Hy'); congruence. }
        destruct (in_split _ _ Ig) as (g1 & g2 & ->).
        destruct (mapM_perm _ _ (i :: g1 ++ g2) (Permutation_sym (Permutation_middle g1 g2 i)) _ GC) as (l1 & El & Pl).
        cbn [mapM] in El; rewrite Hv0 in El; cbn [bind] in El.
        destruct (mapM (i_quad_at (id_resources d) (id_quads d)) (g1 ++ g2)) as [l2|] eqn:E2; [|discriminate].
        cbn in El; inv El.
        assert (P2 : Permutation (id_qi d ++ g1 ++ i :: g2) (i :: id_qi d ++ g1 ++ g2))
          by (rewrite !app_assoc; symmetry; apply Permutation_middle).
        assert (N2 : NoDup (i :: id_qi d ++ g1 ++ g2)) by (apply (Permutation_NoDup P2), GA).
        inversion N2 as [|? ? Ni N3]; subst.
        exists ks, l2, (g1 ++ g2); split; [right; auto|].
        rewrite (del_notin LQ) in I2' by assumption.
        split; [exact I2'|]; split; [rewrite (Permutation_length Pl); cbn; lia|]; split; [exact N3|]; split; [|exact E2].
        intros k; rewrite <- GB, (perm_in_iff _ _ P2 k); split; [intros H; split; [now right|intros ->; contradiction]|].
        intros [[->|H] Hk]; [congruence|exact H]. }
    destruct Goal_ as (ks' & lost' & gi' & Out & H1 & H2 & H3 & H4 & H5).
    eapply runs_weak;
      [apply runs_leaves;
        [apply (runs_drop d ks lost i x q qs qi ks' lost' gi' m' W Ex Hv Eqs H1 H2 H3 H4 H5)
        |apply (leaves_tail i x q m' _ qs (id_resources d)); split; [reflexivity|auto]]
      | |]; cbn beta.
    - intros _ d' [A B]; exists lost'; split; [|auto].
      destruct Out as [(O1 & -> & O2)|(O1 & -> & O2)]; [left|right]; auto.
    - intros d' [A B]; right; exists lost'; split; [|auto].
      destruct Out as [(O1 & -> & O2)|(O1 & -> & O2)]; [left|right]; auto.
  Qed.

  Notation out1 := (one_out qcmp).
  Notation outs := (taken_out qcmp).

  Lemma runs_out_rep d s lost i q n :
    wrep d s lost -> i_quad_at (id_resources d) (id_quads d) i = Some q ->
    let left d' := exists s' lost', out1 q s lost s' lost' /\ wrep d' s' lost' /\ without i d d' in
    runs (m_id_remove_by_index cmp i true) n d (fun _ => left) (fun d' => d' = d \/ left d').
  Proof.
    intros [ND W] Hq left.
    assert (St : forall d', (exists lost', (In q (sorted_elements qcmp s) /\ winv d' (del qcmp q (sorted_elements qcmp s)) lost' /\ Permutation lost lost' \/
                       ~ In q (sorted_elements qcmp s) /\ winv d' (sorted_elements qcmp s) lost' /\ Permutation lost (q :: lost')) /\ without i d d') ->
                left d').
    { intros d' (lost' & [(A & B & C)|(A & B & C)] & G); rewrite (in_sorted_elements (cmp:=qcmp)) in A.
      - exists (del qcmp q s), lost'; split; [left; auto|]; split; [|exact G].
        rewrite (del_ext L) in B by assumption; split; [now apply (nodup_del (cmp:=qcmp))|exact B].
      - exists s, lost'; split; [right; auto|]; split; [split; assumption|exact G]. }
    eapply runs_weak; [exact (runs_out d _ lost i q n W Hq)| |]; cbn beta.
    - intros _ d' H; now apply St.
    - intros d' [->|H]; [now left|right; now apply St].
  Qed.

  (** ** Extraction *)
  Lemma runs_x_end cap (d : @idataset R) m n :
    comes cap (id_quads d) m [] ->
    runs (m_extract_call cmp cap) n (d, m)
      (fun y s => y = None /\ fst s = d /\ comes cap (id_quads d) (snd s) []) (fun _ => False).
  Proof.
    intros (m' & E); unfold m_extract_call; apply runs_get_then; cbn beta iota.
    eapply runs_need_then; [exact E|]; cbn beta iota; apply runs_put_then, runs_ret.
    split; [reflexivity|]; split; [reflexivity|]; exists m'; exact (pm_seek_over _ _ _ _ _ E cap).
  Qed.

  Lemma runs_x_item cap d s lost m i x r q l n :
    wrep d s lost -> comes cap (id_quads d) m ((i, x) :: r) ->
    vals d ((i, x) :: r) = Some (q :: l) ->
    runs (m_extract_call cmp cap) n (d, m)
      (fun y '(d', m') => y = Some q /\ exists s' lost', out1 q s lost s' lost' /\ wrep d' s' lost' /\
         comes cap (id_quads d') m' r /\ vals d' r = Some l)
      (fun '(d', m') => d' = d /\ comes cap (id_quads d) m' ((i, x) :: r) \/
         exists s' lost', out1 q s lost s' lost' /\ wrep d' s' lost' /\ comes cap (id_quads d') m' []).
  Proof.
    intros W (m' & E & Hx & T) V.
    apply mapM_cons in V as (q' & l' & Hq & Hl & Eql); inversion Eql; subst q' l'; cbn [snd] in Hq; clear Eql.
    destruct (pm_seek_again _ _ _ _ _ _ _ E) as (_ & Again).
    assert (Same : comes cap (id_quads d) m' ((i, x) :: r)).
    { exists m'; split; [apply Again; exact Hx|]; split; [exact Hx|exact T]. }
    unfold m_extract_call; apply runs_get_then; cbn beta iota.
    eapply runs_need_then; [exact E|]; cbn beta iota; apply runs_put_then.
    eapply runs_need_then; [exact Hq|].
    eapply runs_quiet_then; [apply quiet_cloned|left; split; [reflexivity|exact Same]|].
    clear n; intros n; apply runs_andthen, runs_zoom; cbn [fst snd].
    eapply runs_weak; [apply (runs_out_rep d s lost i q n W)| |].
    { unfold i_quad_at; rewrite Hx; exact Hq. }
    - intros u d' (s' & lost' & O & W2 & Gq & Gr) n'; apply runs_get_then; cbn beta iota; apply runs_put_then, runs_ret.
      split; [reflexivity|]; exists s', lost'; split; [exact O|]; split; [exact W2|].
      assert (T2 : comes cap (id_quads d') (bump i m') r).
      { eapply comes_local; [exact T|]; intros j Hj; cbn [bump pm_i] in Hj; rewrite Gq.
        destruct (j =? i) eqn:Ej; [apply Nat.eqb_eq in Ej; lia|reflexivity]. }
      split; [exact T2|].
      rewrite <- Hl; apply mapM_ext; intros [j z] Hj; cbn [snd].
      pose proof (comes_live _ _ _ _ T2 _ _ Hj) as Hz.
      destruct (wid_quads _ _ _ _ _ W2 Hz) as (v & Hv); rewrite Hv; symmetry.
      eapply iqwr_mono; [|exact Hv]; exact Gr.
    - intros d' [->|(s' & lost' & O & W2 & Gq & Gr)]; [now left|right].
      exists s', lost'; split; [exact O|]; split; [exact W2|].
      exists m'; apply Again; rewrite Gq, Nat.eqb_refl; reflexivity.
  Qed.

  Lemma x_calls_over cap (d : @idataset R) : forall ns m,
    comes cap (id_quads d) m [] ->
    exists ys m', x_calls cmp cap ns (d, m) = (ys, false, (d, m')) /\ over ys /\ length ys = length ns.
  Proof.
    induction ns as [|n ns IH]; intros m H; [exists [], m; split; [reflexivity|]; split; [intros y []|reflexivity]|].
    pose proof (runs_x_end cap d m n H) as Hr; unfold runs in Hr; cbn [x_calls].
    destruct (m_extract_call cmp cap n (d, m)) as [y k [d1 m1]|s|s]; [|contradiction|contradiction].
    cbn [fst snd] in Hr; destruct Hr as (-> & -> & H1).
    destruct (IH m1 H1) as (ys & m' & -> & Ho & Hl); exists (Some None :: ys), m'; split; [reflexivity|].
    split; [|cbn; now rewrite Hl]; intros y [<-|Hy]; [reflexivity|auto].
  Qed.

  Lemma x_calls_drained cap : forall ns d s lost m r qs,
    wrep d s lost -> comes cap (id_quads d) m r -> vals d r = Some qs ->
    exists ys d' m' taken s' lost', x_calls cmp cap ns (d, m) = (ys, false, (d', m')) /\
      length ys = length ns /\ drained qs ys taken /\ outs taken s lost s' lost' /\ wrep d' s' lost'.
  Proof.
    induction ns as [|n ns IH]; intros d s lost m r qs W H V.
    { exists [], d, m, [], s, lost; split; [reflexivity|]; split; [reflexivity|].
      split; [constructor|]; split; [constructor|exact W]. }
    destruct r as [|[i x] r].
    - cbn in V; inversion V; subst qs; clear V.
      pose proof (runs_x_end cap d m n H) as Hr; unfold runs in Hr; cbn [x_calls].
      destruct (m_extract_call cmp cap n (d, m)) as [y k [d1 m1]|w|w]; [|contradiction|contradiction].
      cbn [fst snd] in Hr; destruct Hr as (-> & -> & H1).
      destruct (x_calls_over cap d ns m1 H1) as (ys & m' & -> & Ho & Hl).
      exists (Some None :: ys), d, m', [], s, lost; split; [reflexivity|]; split; [cbn; now rewrite Hl|].
      split; [now constructor|]; split; [constructor|exact W].
    - destruct qs as [|q qs].
      { apply mapM_cons in V as (y & ys & _ & _ & F); discriminate. }
      pose proof (runs_x_item cap d s lost m i x r q qs n W H V) as Hr; unfold runs in Hr; cbn [x_calls].
      destruct (m_extract_call cmp cap n (d, m)) as [y k [d1 m1]|[d1 m1]|w]; [| |contradiction].
      + destruct Hr as (-> & s1 & lost1 & O & W1 & H1 & V1).
        destruct (IH d1 s1 lost1 m1 r qs W1 H1 V1) as (ys & d' & m' & taken & s' & lost' & -> & Hl & D & Os & W').
        exists (Some (Some q) :: ys), d', m', (q :: taken), s', lost'; split; [reflexivity|].
        split; [cbn; now rewrite Hl|]; split; [now constructor|]; split; [econstructor; eauto|exact W'].
      + destruct Hr as [[-> H1]|(s1 & lost1 & O & W1 & H1)].
        * destruct (IH d s lost m1 _ _ W H1 V) as (ys & d' & m' & taken & s' & lost' & -> & Hl & D & Os & W').
          exists (None :: ys), d', m', taken, s', lost'; split; [reflexivity|].
          split; [cbn; now rewrite Hl|]; split; [now constructor|]; split; [exact Os|exact W'].
        * destruct (x_calls_over cap d1 ns m1 H1) as (ys & m' & -> & Ho & Hl).
          exists (None :: ys), d1, m', [q], s1, lost1; split; [reflexivity|]; split; [cbn; now rewrite Hl|].
          split; [now constructor|]; split; [econstructor; [exact O|constructor]|exact W1].
  Qed.

  Lemma x_extract d s lost spare c n :
    wrep d s lost ->
    exists qs, id_pattern_matching cmp d spare c = Some qs /\ among qs (s ++ lost) /\
    match m_pm_new cmp c n d with
    | Failed _ => False
    | Interrupted d' => d' = d
    | Done m _ d' => d' = d /\ pm_new cmp d c = Some m /\
        forall ns, exists ys d' m' taken s' lost',
          x_calls cmp (capacity d spare) ns (d, m) = (ys, false, (d', m')) /\ length ys = length ns /\
          drained qs ys taken /\ outs taken s lost s' lost' /\ wrep d' s' lost'
    end.
  Proof.
    intros W; destruct (wid_queries L _ _ _ W spare) as (Q & _).
    destruct (Q c) as (qs & Eq & Am); exists qs; split; [exact Eq|]; split; [exact Am|].
    unfold id_pattern_matching in Eq.
    destruct (steady_pm_new (cmp:=cmp) d c) as (k & Hk); rewrite Hk; destruct (n <? k); [reflexivity|].
    destruct (pm_new cmp d c) as [m|]; [|discriminate]; split; [reflexivity|]; split; [reflexivity|].
    intros ns; cbn [bind] in Eq; destruct (collect_comes _ _ _ _ _ Eq) as (r & T & V).
    exact (x_calls_drained _ ns d s lost m r qs W T V).
  Qed.

  (** ** Removal of a graph *)
  Definition took (d : @idataset R) (idx : list nat) (s lost : list (quad R)) (qs : list (quad R)) (d' : @idataset R) : Prop :=
    exists s' lost', mapM (i_quad_at (id_resources d) (id_quads d)) idx = Some qs /\
      outs qs s lost s' lost' /\ wrep d' s' lost'.

  Lemma x_remove_all idx : forall d s lost (b : @bgraph R) t n,
    wrep d s lost -> bg_rep (cmp:=cmp) b t ->
    match m_id_remove_all cmp keep idx b n d with
    | Done b' _ d' => exists qs, took d idx s lost qs d' /\
        bg_rep (cmp:=cmp) b' (fold_left (fun t x => add tcmp x t) (map (fun q => fst (into_triple q)) qs) t)
    | Interrupted d' | Failed d' => exists part rest qs, idx = part ++ rest /\ took d part s lost qs d'
    end.
  Proof.
    assert (None_ : forall d s lost idx, wrep d s lost ->
              exists part rest qs, idx = part ++ rest /\ took d part s lost qs d).
    { clear; intros d s lost l W; exists [], l, []; split; [reflexivity|].
      exists s, lost; split; [reflexivity|]; split; [constructor|exact W]. }
    induction idx as [|i idx IH]; intros d s lost b t n W Hb; cbn [m_id_remove_all].
    { exists []; split; [|exact Hb]; exists s, lost; split; [reflexivity|]; split; [constructor|exact W]. }
    unfold andthen at 1, get, need.
    destruct (i_quad_at (id_resources d) (id_quads d) i) as [q|] eqn:Hq; [|now apply None_].
    unfold andthen at 1, andthen at 1.
    destruct (quiet_cloned (St:=@idataset R) q) as (kc & Hc); rewrite Hc.
    destruct (n <? kc); [now apply None_|]; cbv iota.
    unfold andthen at 1; pose proof (runs_out_rep d s lost i q (n - kc) W Hq) as Hr; unfold runs in Hr.
    assert (One : forall d1 s1 lost1, out1 q s lost s1 lost1 -> wrep d1 s1 lost1 ->
              exists part rest qs, i :: idx = part ++ rest /\ took d part s lost qs d1).
    { intros d1 s1 lost1 O W1; exists [i], idx, [q]; split; [reflexivity|].
      exists s1, lost1; split; [cbn; now rewrite Hq|]; split; [econstructor; [exact O|constructor]|exact W1]. }
    destruct (m_id_remove_by_index cmp i true (n - kc) d) as [u n1 d1|d1|]; [| |contradiction].
    2: { destruct Hr as [->|(s1 & lost1 & O & W1 & _)]; [now apply None_|eapply One; eauto]. }
    destruct Hr as (s1 & lost1 & O & W1 & Gq & Gr).
    assert (Up : forall part qs d2, took d1 part s1 lost1 qs d2 -> took d (i :: part) s lost (q :: qs) d2).
    { intros part qs d2 (s2 & lost2 & Em & Os & W2); exists s2, lost2; split; [|split; [econstructor; eauto|exact W2]].
      cbn [mapM]; rewrite Hq; cbn [bind].
      assert (mapM (i_quad_at (id_resources d) (id_quads d)) part = Some qs) as ->; [|reflexivity].
      rewrite <- Em; apply mapM_ext; intros j Hj.
      destruct (mapM_in_inv _ _ _ _ Em Hj) as (z & Hz & _); rewrite Hz.
      unfold i_quad_at in *; rewrite Gq in Hz; destruct (j =? i); [discriminate|].
      destruct (sget (id_quads d) j); [|discriminate]; cbn in *; eapply iqwr_mono; eauto. }
    unfold local, andthen.
    destruct (bg_insert_rep L keep b t (fst (into_triple q)) Hb) as (b1 & Eb & Hb1).
    pose proof (agrees_bg_step (cmp:=cmp) keep b (Insert (fst (into_triple q)))) as (k2 & Hk2).
    cbn [bg_step m_bg_step] in Hk2; rewrite Eb in Hk2; cbn [bind] in Hk2; destruct (Hk2 n1) as [Hlt2 Hle2].
    unfold andthen in Hlt2, Hle2.
    destruct (m_bg_insert cmp keep (fst (into_triple q)) n1 b) as [x2 m2 b2|b2|b2].
    - assert (b2 = b1) as ->.
      { destruct (le_lt_dec k2 n1) as [Ho|Ho]; [specialize (Hle2 Ho); unfold ret in Hle2; congruence|].
        destruct (Hlt2 Ho); discriminate. }
      specialize (IH d1 s1 lost1 b1 _ m2 W1 Hb1); cbn [snd] in *.
      destruct (m_id_remove_all cmp keep idx b1 m2 d1) as [b' n' d'|d'|d'].
      + destruct IH as (qs & T & B); exists (q :: qs); split; [now apply Up|exact B].
      + destruct IH as (part & rest & qs & -> & T); exists (i :: part), rest, (q :: qs); split; [reflexivity|now apply Up].
      + destruct IH as (part & rest & qs & -> & T); exists (i :: part), rest, (q :: qs); split; [reflexivity|now apply Up].
    - eapply One; eauto.
    - eapply One; eauto.
  Qed.

  (** What [remove_graph] does to a dataset, whatever its indexes hold. *)
  Lemma x_remove_graph d s lost g n :
    wrep d s lost ->
    match m_id_remove_graph cmp keep g n d with
    | Done None _ d' => d' = d /\ g <> None
    | Done (Some b) _ d' => exists qs s' lost' ts, outs qs s lost s' lost' /\ wrep d' s' lost' /\
        bg_iter b = Some ts /\ increasing tcmp ts /\
        forall t, In t ts <-> exists q, In q qs /\ Triple (q_s q) (q_p q) (q_o q) = t
    | Interrupted d' | Failed d' => exists qs s' lost', outs qs s lost s' lost' /\ wrep d' s' lost'
    end.
  Proof.
    intros W.
    assert (Stay : exists qs s' lost', outs qs s lost s' lost' /\ wrep d s' lost')
      by (exists [], s, lost; split; [constructor|exact W]).
    assert (Go : forall idx n, match andthen (m_id_remove_all cmp keep idx bg_new) (fun g => ret (Some g)) n d with
      | Done None _ d' => d' = d /\ g <> None
      | Done (Some b) _ d' => exists qs s' lost' ts, outs qs s lost s' lost' /\ wrep d' s' lost' /\
          bg_iter b = Some ts /\ increasing tcmp ts /\
          forall t, In t ts <-> exists q, In q qs /\ Triple (q_s q) (q_p q) (q_o q) = t
      | Interrupted d' | Failed d' => exists qs s' lost', outs qs s lost s' lost' /\ wrep d' s' lost'
      end).
    { intros idx n0; pose proof (x_remove_all idx d s lost bg_new [] n0 W bg_rep_new) as H.
      unfold andthen; destruct (m_id_remove_all cmp keep idx bg_new n0 d) as [b n' d'|d'|d'].
      - destruct H as (qs & (s' & lost' & _ & O & W') & B); unfold ret.
        exists qs, s', lost', (sorted_elements tcmp (fold_left (fun t x => add tcmp x t) (map (fun q => fst (into_triple q)) qs) [])).
        split; [exact O|]; split; [exact W'|]; split; [exact (bg_iter_rep _ _ B)|].
        split; [apply (sorted_elements_sorted LT), B|].
        assert (Fold : forall l s t, In t (fold_left (fun s x => add tcmp x s) l s) <-> In t s \/ In t l).
        { induction l as [|x l IH]; intros s0 t; cbn; [tauto|].
          rewrite IH, (in_add LT); intuition congruence. }
        intros t; rewrite (in_sorted_elements (cmp:=tcmp)), Fold, in_map_iff; cbn; split.
        + intros [[]|(q & E & Hq)]; exists q; split; [exact Hq|]; destruct q; exact E.
        + intros (q & Hq & E); right; exists q; split; [destruct q; exact E|exact Hq].
      - destruct H as (part & rest & qs & _ & s' & lost' & _ & O & W'); eauto.
      - destruct H as (part & rest & qs & _ & s' & lost' & _ & O & W'); eauto. }
    unfold m_id_remove_graph; destruct g as [g|].
    2: { unfold andthen at 1, andthen at 1, get, ret at 1; apply Go. }
    pose proof (quiet_m_get (St:=@itable R) _ _ g (id_ri d)
      (fun i => quiet_resource_cmp cmp (ir_val (id_resources d)) i g)) as (k & Hk).
    unfold andthen at 1; unfold andthen at 1; unfold m_id_table, zoom, m_i_index_of_resource.
    unfold andthen at 1; unfold get at 1; cbn [fst snd]; rewrite Hk.
    assert (Ed : IDataset (id_resources d) (id_quads d) (id_ri d) (id_qi d) (id_s d) (id_p d) (id_o d) (id_dg d) (id_ng d) = d)
      by (destruct d; reflexivity).
    destruct (n <? k); [rewrite Ed; exact Stay|].
    match goal with |- match match match match match ?x with _ => _ end with _ => _ end with _ => _ end with _ => _ end with _ => _ end =>
      destruct x as [f|] end; rewrite Ed; [|exact Stay].
    unfold andthen at 1, get; destruct f as [j|]; [|split; [reflexivity|discriminate]].
    destruct (ns_mem j (id_ng d)); [|split; [reflexivity|discriminate]].
    unfold andthen at 1, need; destruct (sget (id_resources d) j) as [r|]; [|exact Stay].
    unfold ret at 1; apply Go.
  Qed.

  (** ** Without losses *)
  Lemma taken_clean qs : forall s lost s1 lost1, taken_out qcmp qs s lost s1 lost1 -> lost = [] ->
    lost1 = [] /\ NoDup qs /\ (forall q, In q qs -> In q s) /\ (forall q, In q s1 <-> In q s /\ ~ In q qs).
  Proof.
    induction qs as [|x qs IH]; intros s lost s1 lost1 H E; inv H.
    - split; [reflexivity|]; split; [constructor|]; split; [intros q []|]; intros q; cbn; tauto.
    - match goal with HH : one_out _ _ _ _ _ _ |- _ => rename HH into HO end.
      match goal with HH : taken_out _ _ _ _ _ _ |- _ => rename HH into HT end.
      destruct HO as [(A & -> & P)|(_ & _ & P)]; [|apply Permutation_nil in P; discriminate].
      apply Permutation_nil in P; subst.
      destruct (IH _ _ _ _ HT eq_refl) as (B1 & B2 & B3 & B4).
      assert (Dl : forall q, In q (del qcmp x s) <-> In q s /\ q <> x)
        by (intros q; rewrite (in_del LQ); tauto).
      split; [exact B1|]; split; [|split].
      + constructor; [intros Hx; apply B3, Dl in Hx as [_ Hx]; congruence|exact B2].
      + intros q [<-|Hq]; [exact A|]; now apply B3, Dl in Hq.
      + intros q; rewrite B4, Dl; cbn; split; [intros [[C1 C2] C3]; split; [exact C1|]; intros [C|C]; [congruence|contradiction]|].
        intros [C1 C2]; split; [split; [exact C1|intros ->; apply C2; now left]|intros C; apply C2; now right].
  Qed.

  (** ** Histories *)
  Lemma reached_more ops0 ops xs d o y d' :
    id_reached cmp keep ops0 ops xs d -> id_step cmp keep d o = Some (y, d') ->
    id_reached cmp keep ops0 (ops ++ [o]) (xs ++ [y]) d'.
  Proof.
    intros (xs0 & b & d0 & E0 & E1 & E2) E; exists xs0, b, d0; split; [exact E0|]; split; [exact E1|].
    clear E0 E1; revert d0 xs E2; induction ops as [|p ops IH]; intros d0 xs E2.
    - cbn [run] in E2; inv E2; cbn [app run]; rewrite E; reflexivity.
    - cbn [run app] in *; destruct (id_step cmp keep d0 p) as [[z d1]|]; [|discriminate].
      destruct (run (id_step cmp keep) d1 ops) as [[zs d2]|] eqn:E3; [|discriminate]; inv E2.
      rewrite (IH d1 zs E3); reflexivity.
  Qed.

  Notation reached d := (exists ops0 ops xs, id_reached cmp keep ops0 ops xs d).

  (** The set, the losses, and the history when nothing was interrupted. *)
  Definition kept_up (clean : bool) (d : @idataset R) (s lost : list (quad R)) : Prop :=
    wrep d s lost /\ (clean = true -> lost = [] /\ reached d).

  Lemma same_iter d s s' : wrep d s [] -> wrep d s' [] -> forall q, In q s <-> In q s'.
  Proof.
    intros W W' q; destruct (wid_reads L _ _ _ _ W) as (_ & A & _), (wid_reads L _ _ _ _ W') as (_ & B & _).
    rewrite <- (in_sorted_elements (cmp:=qcmp) q s), <- (in_sorted_elements (cmp:=qcmp) q s'); now rewrite A in B; inv B.
  Qed.

  Lemma x_calls_run cap : forall ns st ys st',
    x_calls cmp cap ns st = (ys, false, st') ->
    m_run (fun _ : unit => m_extract_call cmp cap) st (map (pair tt) ns) = Some (ys, st').
  Proof.
    induction ns as [|n ns IH]; intros st ys st' E; [now inv E|]; cbn [x_calls map m_run] in *.
    destruct (m_extract_call cmp cap n st) as [y k st1|st1|st1]; [| |discriminate];
      destruct (x_calls cmp cap ns st1) as [[ys1 f1] st2] eqn:E1; inv E; rewrite (IH _ _ _ E1); reflexivity.
  Qed.

  Lemma no_none {X} (ys : list (option X)) : ~ In None ys -> exists zs, ys = map Some zs.
  Proof.
    induction ys as [|[y|] ys IH]; intros H; [exists []; reflexivity| |exfalso; apply H; now left].
    destruct IH as (zs & ->); [intros A; apply H; now right|]; exists (y :: zs); reflexivity.
  Qed.

  Lemma not_none_dec {X} (ys : list (option X)) : In None ys \/ ~ In None ys.
  Proof.
    induction ys as [|[y|] ys IH]; [right; intros []| |left; now left].
    destruct IH as [A|A]; [left; now right|right; intros [B|B]; [discriminate|contradiction]].
  Qed.

  Lemma option_eq_dec (a b : option R) : {a = b} + {a <> b}.
  Proof. decide equality; apply (ord_dec L). Qed.

  Lemma x_step_kept clean d s lost o :
    kept_up clean d s lost ->
    exists y d', x_step cmp keep d o = (y, d') /\
      exists clean1 s1 lost1, kept_up clean1 d' s1 lost1 /\
      forall l ys s' lost', survives cmp (left_over qcmp) clean1 s1 lost1 l ys s' lost' ->
        survives cmp (left_over qcmp) clean s lost (o :: l) (y :: ys) s' lost'.
  Proof.
    intros [W C]; destruct o as [o n|g n|c spare n ns]; cbn [x_step].
    - pose proof (runs_id_step L keep True false d s lost o n W) as Hr; unfold runs in Hr.
      rewrite m_step_as_false in Hr.
      destruct (m_id_step cmp keep o n d) as [y k d'|d'|] eqn:Ed; [| |contradiction].
      + destruct Hr as (-> & W'); eexists _, d'; split; [reflexivity|].
        exists clean, (snd (spec_step qcmp s o)), lost; split; [split; [exact W'|]|intros; now constructor].
        intros Ec; destruct (C Ec) as (-> & ops0 & ops & xs & Hd); split; [reflexivity|].
        pose proof (id_all_done (cmp:=cmp) keep d [(o, n)] [answer qcmp s [] o] d') as A; cbn [m_run map fst] in A; rewrite Ed in A.
        specialize (A eq_refl); exists ops0, (ops ++ [IOp o]), (xs ++ [IOut (answer qcmp s [] o)]).
        eapply reached_more; [exact Hd|].
        cbn [run] in A; destruct (id_step cmp keep d (IOp o)) as [[z d1]|]; [|discriminate]; inv A; reflexivity.
      + destruct Hr as (s1 & lost1 & W' & Lo); eexists _, d'; split; [reflexivity|].
        exists false, s1, lost1; split; [split; [exact W'|discriminate]|].
        intros; eapply sv_interrupted; eauto.
    - pose proof (x_remove_graph d s lost g n W) as Hr.
      destruct (m_id_remove_graph cmp keep g n d) as [[b|] k d'|d'|d'] eqn:Ed.
      + destruct Hr as (qs & s1 & lost1 & ts & O & W' & Eb & Inc & Ht); rewrite Eb.
        eexists _, d'; split; [reflexivity|]; exists clean, s1, lost1.
        assert (Cl : clean = true -> (lost1 = [] /\ reached d') /\
          NoDup qs /\ (forall q, In q qs -> In q s /\ q_g q = g) /\
          (g = None -> forall q, In q s -> q_g q = None -> In q qs)).
        { intros Ec; destruct (C Ec) as (-> & ops0 & ops & xs & Hd).
          destruct (taken_clean _ _ _ _ _ O eq_refl) as (-> & A1 & A2 & A3).
          destruct (id_remove_graph_any L keep _ _ _ d g Hd) as (r & d2 & l' & Er & El & Hr & Hk).
          destruct (id_remove_graph_same L keep _ _ _ d g Hd) as (r' & d2' & Er' & k' & Hs).
          rewrite Er in Er'; inv Er'.
          destruct (Hs n) as [S1 S2]; destruct (le_lt_dec k' n) as [Ho|Ho];
            [|destruct (S2 Ho) as (d3 & E3); rewrite Ed in E3; discriminate].
          specialize (S1 Ho); rewrite Ed in S1; inv S1.
          destruct (wid_reads L _ _ _ _ W') as (_ & Ei & _); rewrite El in Ei; inv Ei.
          destruct Hr as (ts' & Et & _ & Hin & Hl).
          assert (Es : forall q, In q s <-> In q (final_set cmp ops0 ops xs)).
          { apply (same_iter d); [exact W|]; apply (id_rep_weak L), (reached_rep L keep), Hd. }
          split; [|split; [exact A1|split]].
          - split; [reflexivity|]; exists ops0, (ops ++ [IRemoveGraph g]), (xs ++ [IGraph (Some ts)]).
            eapply reached_more; [exact Hd|]; cbn [id_step]; rewrite Er; cbn [bind]; rewrite Eb; reflexivity.
          - intros q Hq; split; [now apply A2|].
            destruct (option_eq_dec (q_g q) g) as [|N]; [assumption|exfalso].
            assert (Hq' : In q (sorted_elements qcmp s1)) by (apply Hl; split; [now apply Es, A2|tauto]).
            apply (in_sorted_elements (cmp:=qcmp)), A3 in Hq' as [_ F]; contradiction.
          - intros -> q Hq Hg; destruct Hk as [Hk _]; [apply known_nothing; discriminate|].
            destruct (mem qcmp q qs) eqn:Em; [now apply (mem_true LQ) in Em|exfalso].
            apply (mem_false LQ) in Em.
            assert (Hq' : In q (sorted_elements qcmp s1)) by (apply (in_sorted_elements (cmp:=qcmp)), A3; auto).
            apply Hk in Hq' as [_ F]; contradiction. }
        split; [split; [exact W'|intros Ec; apply (Cl Ec)]|].
        intros l ys s' lost' Hs; eapply sv_graph; [exact O|exact Inc|exact Ht|intros Ec; apply (Cl Ec)|exact Hs].
      + destruct Hr as (-> & Hg); eexists _, d; split; [reflexivity|]; exists clean, s, lost.
        split; [split; assumption|]; intros; now constructor.
      + destruct Hr as (qs & s1 & lost1 & O & W').
        eexists _, d'; split; [reflexivity|]; exists false, s1, lost1.
        split; [split; [exact W'|discriminate]|].
        intros l ys s' lost' Hs; eapply sv_graph_interrupted; [exact O| |exact Hs].
        intros Ec; destruct (C Ec) as (-> & ops0 & ops & xs & Hd).
        destruct (taken_clean _ _ _ _ _ O eq_refl) as (-> & A1 & A2 & A3); split; [exact A1|].
        intros q Hq; split; [now apply A2|].
        pose proof (reached_rep L keep _ _ _ _ Hd) as Hrep.
        pose proof (runs_remove_graph L keep d _ g n Hrep) as Hr; unfold runs in Hr; rewrite Ed in Hr.
        destruct Hr as (s2 & W2 & _ & Keep).
        destruct (Keep q) as [F|F]; [|  |exact F].
        * apply (same_iter d s _ W (id_rep_weak L True _ _ Hrep)), A2, Hq.
        * apply (same_iter d' s1 s2 W' W2), A3 in F as [_ F]; contradiction.
      + destruct clean.
        * exfalso; destruct (C eq_refl) as (_ & ops0 & ops & xs & Hd).
          destruct (id_remove_graph_same L keep _ _ _ d g Hd) as (r' & d2' & _ & k' & Hs).
          destruct (Hs n) as [S1 S2]; destruct (le_lt_dec k' n) as [Ho|Ho];
            [specialize (S1 Ho); congruence|destruct (S2 Ho); congruence].
        * destruct Hr as (qs & s1 & lost1 & O & W').
          eexists _, d'; split; [reflexivity|]; exists false, s1, lost1.
          split; [split; [exact W'|discriminate]|].
          intros l ys s' lost' Hs; eapply sv_graph_failed; [exact O|exact Hs].
    - destruct (x_extract d s lost spare c n W) as (qs & Eq & Am & Hx).
      destruct (m_pm_new cmp c n d) as [m k d1|d1|] eqn:Ed; [| |contradiction].
      + destruct Hx as (-> & Em & Hx); destruct (Hx ns) as (ys1 & d' & m' & taken & s1 & lost1 & Ex & Hl & D & O & W').
        rewrite Ex; eexists _, d'; split; [reflexivity|].
        assert (Cl : clean = true -> ~ In None ys1 -> lost1 = [] /\ reached d').
        { intros Ec Hn; destruct (C Ec) as (-> & ops0 & ops & xs & Hd).
          destruct (taken_clean _ _ _ _ _ O eq_refl) as (-> & _); split; [reflexivity|].
          destruct (no_none _ Hn) as (zs & ->).
          apply x_calls_run in Ex.
          destruct (id_extract_all_done _ _ _ _ _ _ _ _ _ _ Ed Ex) as (_ & _ & Ec2).
          destruct (id_extract_next cmp L keep _ _ _ d spare c Hd) as (m0 & l & d_end & Em0 & El & Hc).
          rewrite Em in Em0; inv Em0; rewrite map_length in Ec2.
          destruct (Hc (length ns)) as (d2 & m2 & E2 & E3 & _); rewrite Ec2 in E2; inv E2.
          exists ops0, (ops ++ [IExtract c (length ns) spare]), (xs ++ [IQuads (firstn (length ns) l)]).
          eapply reached_more; [exact Hd|]; cbn [id_step]; rewrite E3; reflexivity. }
        assert (Mt : clean = true -> forall q, In q qs -> cq_matches c q).
        { intros Ec; destruct (C Ec) as (-> & ops0 & ops & xs & Hd).
          destruct (id_pattern_sound L keep _ _ _ _ spare c Hd) as (l & El & _ & Hm).
          rewrite Eq in El; inv El; intros q Hq; now apply Hm. }
        destruct (not_none_dec ys1) as [Hn|Hn].
        * exists false, s1, lost1; split; [split; [exact W'|discriminate]|].
          intros l ys s' lost' Hs; eapply sv_extract; try eassumption; [discriminate|contradiction].
        * exists clean, s1, lost1; split; [split; [exact W'|auto]|].
          intros l ys s' lost' Hs; eapply sv_extract; try eassumption; auto.
      + subst d1; eexists _, d; split; [reflexivity|]; exists clean, s, lost; split; [split; assumption|].
        intros; now apply sv_extract_interrupted.
  Qed.

  Lemma x_run_kept l : forall clean d s lost,
    kept_up clean d s lost ->
    exists ys d' s' lost', x_run cmp keep d l = (ys, d') /\
      survives cmp (left_over qcmp) clean s lost l ys s' lost' /\ wrep d' s' lost'.
  Proof.
    induction l as [|o l IH]; intros clean d s lost K; cbn [x_run].
    - exists [], d, s, lost; split; [reflexivity|]; split; [constructor|exact (proj1 K)].
    - destruct (x_step_kept clean d s lost o K) as (y & d1 & E & clean1 & s1 & lost1 & K1 & Next).
      rewrite E; destruct (IH _ _ _ _ K1) as (ys & d' & s' & lost' & E' & Sv & W); rewrite E'.
      exists (y :: ys), d', s', lost'; split; [reflexivity|]; split; [now apply Next|exact W].
  Qed.

  Lemma x_history ops0 ops xs d0 l :
    id_reached cmp keep ops0 ops xs d0 ->
    exists ys d s lost, x_run cmp keep d0 l = (ys, d) /\
      survives cmp (left_over qcmp) true (final_set cmp ops0 ops xs) [] l ys s lost /\ wrep d s lost.
  Proof.
    intros H; apply x_run_kept; split; [apply (id_rep_weak L), (reached_rep L keep), H|].
    intros _; split; [reflexivity|eauto].
  Qed.

  Lemma x_reads ops0 ops xs d0 l :
    id_reached cmp keep ops0 ops xs d0 ->
    exists ys d s lost, x_run cmp keep d0 l = (ys, d) /\
      survives cmp (left_over qcmp) true (final_set cmp ops0 ops xs) [] l ys s lost /\ NoDup s /\
      id_len d = length s + length lost /\ id_iter d = Some (sorted_elements qcmp s) /\
      (exists vs, id_resources_iter d = Some vs /\ increasing cmp vs /\
         forall v, id_contains_resource cmp d v = Some (mem cmp v vs)) /\
      id_queries_within cmp d (s ++ lost).
  Proof.
    intros H; destruct (x_history _ _ _ _ l H) as (ys & d & s & lost & E & Sv & W).
    exists ys, d, s, lost; split; [exact E|]; split; [exact Sv|]; split; [exact (proj1 W)|].
    destruct (wid_reads L _ _ _ _ W) as (A & B & C).
    split; [exact A|]; split; [exact B|]; split; [exact C|exact (wid_queries L _ _ _ W)].
  Qed.

  Lemma taken_length qs s lost s1 lost1 :
    taken_out qcmp qs s lost s1 lost1 -> NoDup s ->
    length s + length lost = length qs + (length s1 + length lost1) /\ NoDup s1.
  Proof.
    induction 1 as [|x qs s lost s1 lost1 s2 lost2 O _ IH]; intros ND; [auto|].
    destruct O as [(A & -> & P)|(A & -> & P)]; apply Permutation_length in P.
    - destruct IH as [IH N]; [now apply (nodup_del (cmp:=qcmp))|]; split; [|exact N].
      rewrite (length_del L x s ND A); cbn; lia.
    - destruct (IH ND) as [IH' N]; split; [|exact N]; cbn in *; lia.
  Qed.

  Lemma x_extract_after ops0 ops xs d0 l ys d spare c n :
    id_reached cmp keep ops0 ops xs d0 -> x_run cmp keep d0 l = (ys, d) ->
    exists qs, id_pattern_matching cmp d spare c = Some qs /\
    match m_pm_new cmp c n d with
    | Failed _ => False
    | Interrupted d' => d' = d
    | Done m _ d' => d' = d /\
        forall ns, exists zs d' m' k lost,
          x_calls cmp (capacity d spare) ns (d, m) = (zs, false, (d', m')) /\ length zs = length ns /\
          drained qs zs (firstn (k + lost) qs) /\ items zs = firstn k qs /\
          k + lost <= length qs /\ lost <= 1 /\ (lost = 1 -> In None zs) /\
          id_len d' + k + lost = id_len d
    end.
  Proof.
    intros H E; destruct (x_history _ _ _ _ l H) as (ys' & d' & s & lost & E' & _ & W).
    rewrite E in E'; inv E'.
    destruct (x_extract d' s lost spare c n W) as (qs & Eq & _ & Hx); exists qs; split; [exact Eq|].
    destruct (m_pm_new cmp c n d') as [m k d1|d1|]; [|exact Hx|exact Hx].
    destruct Hx as (-> & _ & Hx); split; [reflexivity|]; intros ns.
    destruct (Hx ns) as (zs & d2 & m' & taken & s' & lost' & Ex & Hl & D & O & W').
    destruct (drained_items _ _ _ D) as (k0 & lo & A1 & A2 & A3 & A4 & A5 & _).
    exists zs, d2, m', k0, lo; split; [exact Ex|]; split; [exact Hl|]; split; [now rewrite <- A4|].
    split; [exact A3|]; split; [exact A1|]; split; [exact A2|]; split; [exact A5|].
    destruct (wid_reads L _ _ _ _ W) as (B & _), (wid_reads L _ _ _ _ W') as (B' & _).
    rewrite B, B'; destruct (taken_length _ _ _ _ _ O (proj1 W)) as (-> & _).
    rewrite A4, firstn_length_le by exact A1; lia.
  Qed.

  (** ** What the histories say *)
  Lemma existsb_none {X} (ys : list (option X)) :
    In None ys -> existsb (fun y => match y with None => true | Some _ => false end) ys = true.
  Proof. intros H; apply existsb_exists; exists None; auto. Qed.

  Lemma taken_lost qs s lost s1 lost1 : taken_out qcmp qs s lost s1 lost1 -> length lost1 <= length lost.
  Proof.
    induction 1 as [|x qs s lost s1 lost1 s2 lost2 O _ IH]; [auto|].
    destruct O as [(_ & _ & P)|(_ & _ & P)]; apply Permutation_length in P; cbn in P; lia.
  Qed.

  Lemma survives_lost stops clean s lost l ys s' lost' :
    (forall s lost o s1 lost1, (stops s lost o s1 lost1 : Prop) -> length lost1 <= Datatypes.S (length lost)) ->
    survives cmp stops clean s lost l ys s' lost' ->
    length lost' <= length lost + length (filter interrupted ys) /\ length ys = length l.
  Proof.
    intros One; induction 1; cbn [filter interrupted length] in *;
      repeat match goal with T : taken_out _ _ _ _ _ _ |- _ => apply taken_lost in T end;
      try (destruct IHsurvives as [IH1 IH2]; split; [|now rewrite IH2]; try lia).
    - split; [lia|reflexivity].
    - match goal with HH : stops _ _ _ _ _ |- _ => apply One in HH end; cbn [length] in *; lia.
    - destruct (existsb _ ys1); cbn [length]; lia.
  Qed.

  Lemma left_over_lost s lost o s1 lost1 :
    left_over qcmp s lost o s1 lost1 -> length lost1 <= Datatypes.S (length lost).
  Proof.
    intros H; destruct o; cbn in H; try contradiction.
    - destruct H as (_ & [->|(_ & ->)]); cbn; lia.
    - destruct H as (_ & ->); lia.
    - destruct H as (l1 & x & l2 & _ & _ & [->|(_ & ->)]); cbn; lia.
    - destruct H as (_ & ->); lia.
  Qed.

  Lemma survives_failed stops clean s lost l ys s' lost' :
    survives cmp stops clean s lost l ys s' lost' ->
    forall before after, ys = before ++ XFailed :: after ->
    clean = false \/ exists y, In y before /\ interrupted y = true.
  Proof.
    assert (Step : forall (y : xout R) ys before after,
      y <> XFailed -> y :: ys = before ++ XFailed :: after ->
      exists before', before = y :: before' /\ ys = before' ++ XFailed :: after).
    { clear; intros y ys [|z before] after N E; cbn in E; inv E; [congruence|eauto]. }
    induction 1; intros before after E;
      try (apply Step in E as (b' & -> & E); [|discriminate]);
      try (destruct (IHsurvives _ _ E) as [A|(y & Hy & A)]; [|right; exists y; split; [now right|exact A]]).
    - destruct before; discriminate.
    - now left.
    - right; exists XInterrupted; split; [now left|reflexivity].
    - now left.
    - now left.
    - right; exists XInterrupted; split; [now left|reflexivity].
    - now left.
    - subst clean1; destruct clean; [|now left].
      destruct (not_none_dec ys1) as [N|N].
      + right; exists (XQuads ys1); split; [now left|]; cbn [interrupted]; now apply existsb_none.
      + match goal with HH : true = true -> ~ In None ys1 -> false = true |- _ => specialize (HH eq_refl N); discriminate end.
    - now left.
  Qed.

  Lemma x_bounds ops0 ops xs d0 l ys d :
    id_reached cmp keep ops0 ops xs d0 -> x_run cmp keep d0 l = (ys, d) ->
    length ys = length l /\
    (exists n, id_iter d = Some n /\ length n <= id_len d <= length n + length (filter interrupted ys)) /\
    forall before after, ys = before ++ XFailed :: after -> exists y, In y before /\ interrupted y = true.
  Proof.
    intros H E; destruct (x_reads _ _ _ _ l H) as (ys' & d' & s & lost & E' & Sv & ND & A & B & _).
    rewrite E in E'; inv E'; destruct (survives_lost _ _ _ _ _ _ _ _ left_over_lost Sv) as (C1 & C2).
    split; [exact C2|]; split.
    - exists (sorted_elements qcmp s); split; [exact B|]; rewrite (length_sorted L _ ND), A; cbn in C1; lia.
    - intros before after Ey; destruct (survives_failed _ _ _ _ _ _ _ _ Sv _ _ Ey) as [F|F]; [discriminate|exact F].
  Qed.

  (** ** Without interruption *)
  Lemma items_nth (l : list (quad R)) : forall n,
    items (map Some (map (nth_error l) (seq 0 n))) = firstn n l.
  Proof.
    assert (G : forall n k, items (map Some (map (nth_error l) (seq k n))) = firstn n (skipn k l)).
    { induction n as [|n IH]; intros k; [reflexivity|]; cbn [seq map items]; rewrite IH.
      destruct (nth_error l k) as [x|] eqn:E.
      - apply nth_error_split in E as (l1 & l2 & -> & <-).
        rewrite !skipn_app, (skipn_all2 (n:=length l1) l1), (skipn_all2 (n:=Datatypes.S (length l1)) l1) by lia.
        replace (length l1 - length l1) with 0 by lia; replace (Datatypes.S (length l1) - length l1) with 1 by lia.
        reflexivity.
      - apply nth_error_None in E; rewrite !skipn_all2 by lia; now rewrite !firstn_nil. }
    intros n; exact (G n 0).
  Qed.

  Lemma x_step_plain ops0 ops xs d o y d' :
    id_reached cmp keep ops0 ops xs d -> x_step cmp keep d o = (y, d') -> interrupted y = false ->
    exists z, id_step cmp keep d (plain o) = Some (z, d') /\ same_out y z.
  Proof.
    intros Hd E Hi; destruct o as [o n|g n|c spare n ns]; cbn [x_step plain] in *.
    - assert (W : wrep d (final_set cmp ops0 ops xs) []) by (apply (id_rep_weak L), (reached_rep L keep), Hd).
      pose proof (runs_id_step L keep True false d _ [] o n W) as Hr; unfold runs in Hr; rewrite m_step_as_false in Hr.
      destruct (m_id_step cmp keep o n d) as [x k d1|d1|] eqn:Ed; [|inv E; discriminate|contradiction]; inv E.
      pose proof (id_all_done (cmp:=cmp) keep d [(o, n)] [x] d') as A; cbn [m_run map fst] in A; rewrite Ed in A.
      specialize (A eq_refl); exists (IOut x); split; [|reflexivity].
      cbn [run] in A; destruct (id_step cmp keep d (IOp o)) as [[z d1]|]; [|discriminate]; inv A; reflexivity.
    - destruct (id_remove_graph_any L keep _ _ _ d g Hd) as (r & d2 & l' & Er & El & Hr & _).
      destruct (id_remove_graph_same L keep _ _ _ d g Hd) as (r' & d2' & Er' & k' & Hs).
      rewrite Er in Er'; inv Er'; destruct (Hs n) as [S1 S2]; destruct (le_lt_dec k' n) as [Ho|Ho].
      + rewrite (S1 Ho) in E; cbn [id_step]; rewrite Er; cbn [bind]; destruct r' as [b|].
        * destruct Hr as (ts & Et & _); rewrite Et in *; inv E; eexists; split; reflexivity.
        * inv E; eexists; split; reflexivity.
      + destruct (S2 Ho) as (d3 & E3); rewrite E3 in E; inv E; discriminate.
    - assert (W : wrep d (final_set cmp ops0 ops xs) []) by (apply (id_rep_weak L), (reached_rep L keep), Hd).
      destruct (x_extract d _ _ spare c n W) as (qs & Eq & _ & Hx).
      destruct (m_pm_new cmp c n d) as [m k d1|d1|] eqn:Ed; [|inv E; discriminate|contradiction].
      destruct Hx as (-> & Em & Hx); destruct (Hx ns) as (ys1 & d1 & m' & taken & s1 & lost1 & Ex & _).
      rewrite Ex in E; inv E; cbn [interrupted] in Hi.
      assert (Hn : ~ In None ys1) by (intros F; rewrite (existsb_none _ F) in Hi; discriminate).
      destruct (no_none _ Hn) as (zs & ->); apply x_calls_run in Ex.
      destruct (id_extract_all_done _ _ _ _ _ _ _ _ _ _ Ed Ex) as (_ & _ & Ec2).
      destruct (id_extract_next cmp L keep _ _ _ d spare c Hd) as (m0 & l & d_end & Em0 & El & Hc).
      rewrite Em in Em0; inv Em0; rewrite map_length in Ec2.
      destruct (Hc (length ns)) as (d2 & m2 & E2 & E3 & _); rewrite Ec2 in E2; inv E2.
      exists (IQuads (firstn (length ns) l)); cbn [id_step]; rewrite E3; split; [reflexivity|].
      eexists; split; [reflexivity|]; split; [exact Hn|apply items_nth].
  Qed.

  Lemma x_run_plain l : forall ops0 ops xs d ys d',
    id_reached cmp keep ops0 ops xs d -> x_run cmp keep d l = (ys, d') ->
    (forall y, In y ys -> interrupted y = false) ->
    exists zs, run (id_step cmp keep) d (map plain l) = Some (zs, d') /\ Forall2 same_out ys zs.
  Proof.
    induction l as [|o l IH]; intros ops0 ops xs d ys d' Hd E Hi; cbn [x_run map run] in *.
    - inv E; exists []; split; [reflexivity|constructor].
    - destruct (x_step cmp keep d o) as [y d1] eqn:E1; destruct (x_run cmp keep d1 l) as [ys1 d2] eqn:E2; inv E.
      destruct (x_step_plain _ _ _ _ _ _ _ Hd E1 (Hi y (or_introl eq_refl))) as (z & Ez & Sz).
      destruct (IH _ _ _ _ _ _ (reached_more _ _ _ _ _ _ _ Hd Ez) E2 (fun y H => Hi y (or_intror H))) as (zs & Ezs & Szs).
      exists (z :: zs); rewrite Ez, Ezs; split; [reflexivity|now constructor].
  Qed.

  Lemma x_run_calls cap : forall ns st ys st',
    m_run (fun _ : unit => m_extract_call cmp cap) st (map (pair tt) ns) = Some (ys, st') ->
    x_calls cmp cap ns st = (ys, false, st').
  Proof.
    induction ns as [|n ns IH]; intros st ys st' E; [now inv E|]; cbn [x_calls map m_run] in *.
    destruct (m_extract_call cmp cap n st) as [y k st1|st1|st1]; [| |discriminate];
      destruct (m_run _ st1 (map (pair tt) ns)) as [[ys1 st2]|] eqn:E1; try discriminate;
      inv E; rewrite (IH _ _ _ E1); reflexivity.
  Qed.

  Lemma x_step_enough ops0 ops xs d o z d' :
    id_reached cmp keep ops0 ops xs d -> id_step cmp keep d o = Some (z, d') ->
    exists k, forall n, k <= n -> exists y, x_step cmp keep d (within n o) = (y, d') /\ same_out y z.
  Proof.
    intros Hd E; destruct o as [o|g|c j spare].
    - pose proof (agrees_id_step cmp keep d o) as (k & Hk); exists k; intros n Hn; cbn [within x_step].
      destruct (Hk n) as [_ Hle]; specialize (Hle Hn); unfold id_set_step in Hle; rewrite E in Hle.
      assert (Z : exists x, z = IOut x).
      { destruct o; cbn in E; repeat match type of E with
          | context [bind ?m _] => destruct m as [?|]; cbn [bind] in E; try discriminate
          end; repeat match goal with x : _ * _ |- _ => destruct x end; inv E; eauto. }
      destruct Z as (x & ->); rewrite Hle; eexists; split; reflexivity.
    - cbn [id_step] in E.
      destruct (id_remove_graph_same L keep _ _ _ d g Hd) as (r' & d2' & Er' & k' & Hs).
      rewrite Er' in E; cbn [bind] in E; exists k'; intros n Hn; destruct (Hs n) as [S1 _]; cbn [within x_step].
      rewrite (S1 Hn); destruct r' as [b|]; [|inv E; eexists; split; reflexivity].
      destruct (bg_iter b) as [ts|]; [|discriminate]; inv E; eexists; split; reflexivity.
    - cbn [id_step] in E.
      destruct (id_extract_next cmp L keep _ _ _ d spare c Hd) as (m & l & d_end & Em & El & Hc).
      destruct (Hc j) as (d2 & m2 & E2 & E3 & _); rewrite E3 in E; cbn [bind] in E; inv E.
      destruct (id_extract_enough _ _ _ _ _ _ _ Em E2) as (k & Hk); exists k; intros n Hn.
      destruct (Hk n Hn) as ((e & Ee) & Er); cbn [within x_step]; rewrite Ee.
      assert (Ec : x_calls cmp (capacity d spare) (repeat n j) (d, m) = (map Some (map (nth_error l) (seq 0 j)), false, (d', m2))).
      { apply x_run_calls; rewrite <- Er; f_equal; clear; induction j as [|j IH]; cbn; congruence. }
      rewrite Ec; eexists; split; [reflexivity|]; eexists; split; [reflexivity|]; split; [|apply items_nth].
      intros F; apply in_map_iff in F as (? & ? & _); discriminate.
  Qed.

  Lemma x_run_enough iops : forall ops0 ops xs d zs d',
    id_reached cmp keep ops0 ops xs d -> run (id_step cmp keep) d iops = Some (zs, d') ->
    exists k, forall n, k <= n -> exists ys, x_run cmp keep d (map (within n) iops) = (ys, d') /\ Forall2 same_out ys zs.
  Proof.
    induction iops as [|o iops IH]; intros ops0 ops xs d zs d' Hd E; cbn [run map x_run] in *.
    - inv E; exists 0; intros n _; exists []; split; [reflexivity|constructor].
    - destruct (id_step cmp keep d o) as [[z d1]|] eqn:E1; [|discriminate].
      destruct (run (id_step cmp keep) d1 iops) as [[zs1 d2]|] eqn:E2; [|discriminate]; inv E.
      destruct (x_step_enough _ _ _ _ _ _ _ Hd E1) as (k1 & H1).
      destruct (IH _ _ _ _ _ _ (reached_more _ _ _ _ _ _ _ Hd E1) E2) as (k2 & H2).
      exists (k1 + k2); intros n Hn.
      destruct (H1 n) as (y & Ey & Sy); [lia|]; destruct (H2 n) as (ys & Eys & Sys); [lia|].
      exists (y :: ys); rewrite Ey, Eys; split; [reflexivity|now constructor].
  Qed.
End Proofs.
