(** The resources reported by [IndexedBTreeDataset] and [IndexedBTreeGraph] follow
    the account of the changes. *)
From Coq Require Import List Bool Arith Lia Permutation.
Import ListNotations.
From Verif Require Import Base SlabModel TripleModel TriplePatternModel QuadPatternModel SetSpec
  ContainerSpec IndexedSpec Machine BaseProofs BResourceModel BResourceProofs BTreeDatasetModel
  BTreeDatasetProofs BTreeGraphModel BTreeGraphProofs IResourceModel IResourceProofs
  IndexedDatasetModel IndexedDatasetProofs IndexedHistoryProofs IndexedConvertProofs
  IndexedPatternProofs IndexedRunProofs IndexedGraphModel IndexedGraphProofs IndexedGraphRunProofs
  LedgerSpec LedgerProofs BLedgerProofs.
Open Scope panic_scope.

Section Proofs.
  Context {R : Type} {cmp : R -> R -> comparison} (L : ord_laws cmp).
  Context (keep : bool).
  Notation qcmp := (quad_cmp cmp).
  Let LQ : ord_laws qcmp := quad_cmp_laws cmp L.
  Notation inv_ := (id_inv (cmp:=cmp)).

  Definition ient (d : @idataset R) (z : quad R) (ks : list nat) : Prop :=
    exists i x, sget (id_quads d) i = Some x /\
      i_quad_with_resources (id_resources d) x = Some z /\ ks = quad_comps x.
  Definition ivis (d : @idataset R) (k : nat) : Prop := In k (id_ri d).

  Lemma i_align rs x (z : quad R) :
    i_quad_with_resources rs x = Some z ->
    length (quad_comps x) = length (quad_comps z) /\
    forall p k w, nth_error (quad_comps x) p = Some k -> nth_error (quad_comps z) p = Some w ->
      ir_val rs k = Some w.
  Proof.
    intros H; apply iqwr_some in H as (A & B & C & D); unfold quad_comps.
    destruct (q_g x), (q_g z); try contradiction; (split; [reflexivity|]);
      intros [|[|[|[|p]]]] k w E F; cbn in E, F; try (destruct p; discriminate); congruence.
  Qed.

  Lemma i_uses d ks vs k w :
    inv_ d ks vs -> (LedgerProofs.uses quad_comps (ient d) k w <-> ir_val (id_resources d) k = Some w).
  Proof.
    intros I; split.
    - intros (z & kz & p & (i & x & Hx & Hz & ->) & Hk & Hw).
      destruct (i_align _ _ _ Hz) as [_ H]; eauto.
    - intros Hw; pose proof Hw as Hv; unfold ir_val in Hw.
      destruct (sget (id_resources d) k) as [y|] eqn:E; [|discriminate].
      destruct (iri_use _ _ _ _ (ii_res _ _ _ I) _ _ E) as [_ (p & i & x & Hx & Hs)].
      destruct (id_live_value _ _ _ _ _ I Hx) as (z & Hz & _).
      assert (Hp : In k (quad_comps x)).
      { unfold quad_comps; destruct p; cbn in Hs; [inv Hs; cbn; auto|inv Hs; cbn; auto|inv Hs; cbn; auto|].
        rewrite Hs; cbn; auto. }
      apply In_nth_error in Hp as (n & Hp).
      destruct (i_align _ _ _ Hz) as [Hl H].
      assert (n < length (quad_comps z)) by (rewrite <- Hl; apply nth_error_Some; congruence).
      destruct (nth_error (quad_comps z) n) as [w'|] eqn:Ew; [|apply nth_error_None in Ew; lia].
      rewrite (H _ _ _ Hp Ew) in Hv; inv Hv.
      exists z, (quad_comps x), n; split; [exists i, x; auto|auto].
  Qed.

  Lemma i_seen d ks vs w :
    inv_ d ks vs -> (seen quad_comps (ient d) (ivis d) w <-> In w vs).
  Proof.
    intros I; destruct (iri_idx _ _ _ _ (ii_res _ _ _ I)) as [H _]; rewrite (mapM_in _ _ _ _ H).
    split; intros (k & Hk & Hu); exists k; split; auto; eapply (i_uses _ _ _ _ _ I); eauto.
  Qed.

  Lemma i_table d ks vs : inv_ d ks vs -> table quad_comps (ient d) (ivis d).
  Proof.
    intros I; split.
    - intros z ka kb (i & x & Hx & Hz & ->) (j & y & Hy & Hz' & ->).
      assert (i = j) as ->; [|congruence].
      apply (id_index_inj L _ _ _ i j z I); unfold i_quad_at; [now rewrite Hx|now rewrite Hy].
    - intros z kz (i & x & Hx & Hz & ->); now apply i_align in Hz.
    - intros k w w'; rewrite !(i_uses _ _ _ _ _ I); congruence.
    - intros k k' w Hk Hk'; rewrite !(i_uses _ _ _ _ _ I); intros Hw Hw'.
      apply (indexes_inj L _ _ _ k k' w (iri_idx _ _ _ _ (ii_res _ _ _ I))); auto.
  Qed.

  (** ** Insertion *)
  Lemma i_acquire_slot rs ri p i v f k rs' ri' :
    swf rs -> i_acquire cmp keep rs ri p i v f = Some (k, rs', ri') ->
    match f with Some i => ir_val rs i <> None | None => True end ->
    swf rs' /\ (forall j w, ir_val rs j = Some w -> ir_val rs' j = Some w) /\
    ir_val rs' k <> None /\
    ((f = Some k /\ ri' = ri) \/
     (f = None /\ ir_val rs k = None /\ forall j, In j ri' -> j = k \/ In j ri)).
  Proof.
    intros Hs; destruct f as [j|]; cbn.
    - destruct (sget rs j) as [x|] eqn:E; [|discriminate]; cbn; intros H Hi; inv H.
      assert (V : forall j, ir_val (sset rs k (ir_upd p (ns_insert i) x)) j = ir_val rs j)
        by (intros; apply ir_val_sset with x; [assumption|apply ir_value_upd]).
      split; [now apply swf_sset with x|]; split; [intros j w; now rewrite V|].
      split; [now rewrite V|auto].
    - destruct (bt_insert _ _ _ _) as [l|] eqn:E; [|discriminate]; cbn; intros H _; inv H.
      assert (Hk : sget rs (vacant_key rs) = None) by (now apply sget_vacant).
      assert (G : forall j, sget (sinsert rs (ir_single p v i)) j =
                            if j =? vacant_key rs then Some (ir_single p v i) else sget rs j)
        by (intros; now apply sget_sinsert).
      split; [now apply swf_sinsert|]; split; [|split].
      + intros j w; unfold ir_val; rewrite G; destruct (j =? vacant_key rs) eqn:Ej; [|auto].
        apply Nat.eqb_eq in Ej; subst j; rewrite Hk; discriminate.
      + unfold ir_val; rewrite G, Nat.eqb_refl; discriminate.
      + right; split; [reflexivity|]; split; [unfold ir_val; now rewrite Hk|].
        exact (bt_insert_sub _ _ _ _ _ E).
  Qed.

  Fixpoint i_acquire_all (rs : slab (iresource R)) (ri : list nat) (i : nat)
      (l : list (pos * (R * option nat))) : option (list nat * slab (iresource R) * list nat) :=
    match l with
    | [] => Some ([], rs, ri)
    | (p, (v, f)) :: l =>
        '(k, rs, ri) <- i_acquire cmp keep rs ri p i v f ;;
        '(ks, rs, ri) <- i_acquire_all rs ri i l ;;
        Some (k :: ks, rs, ri)
    end.

  Lemma i_acquire_all_slots i l : forall rs ri ks rs' ri',
    swf rs -> i_acquire_all rs ri i l = Some (ks, rs', ri') ->
    (forall p v k, In (p, (v, Some k)) l -> ir_val rs k <> None) ->
    (forall p k, nth_error ks p = Some k -> exists o v f, nth_error l p = Some (o, (v, f)) /\
       (f = Some k \/
        (f = None /\ ir_val rs k = None /\
         forall p', nth_error ks p' = Some k -> p' <> p ->
           exists o' v', nth_error l p' = Some (o', (v', Some k))))) /\
    (forall j, In j ri' -> In j ri \/
       exists p o v, nth_error ks p = Some j /\ nth_error l p = Some (o, (v, None))).
  Proof.
    induction l as [|[o [v f]] l IH]; intros rs ri ks rs' ri' Hs E Hf; cbn in E.
    - inv E; split; [intros [|p] k H; discriminate|auto].
    - destruct (i_acquire cmp keep rs ri o i v f) as [[[k0 rs1] ri1]|] eqn:E0; [|discriminate]; cbn in E.
      destruct (i_acquire_all rs1 ri1 i l) as [[[ks1 rs2] ri2]|] eqn:E1; [|discriminate]; cbn in E; inv E.
      destruct (i_acquire_slot _ _ _ _ _ _ _ _ _ Hs E0) as (Hs1 & M & Vk & D).
      { destruct f; [|trivial]; apply (Hf o v); now left. }
      assert (Hf1 : forall p v k, In (p, (v, Some k)) l -> ir_val rs1 k <> None).
      { intros p v' k Hi; destruct (ir_val rs k) as [w|] eqn:Ew.
        - rewrite (M _ _ Ew); discriminate.
        - exfalso; eapply Hf; [right; exact Hi|exact Ew]. }
      destruct (IH _ _ _ _ _ Hs1 E1 Hf1) as [S1 S2]; split.
      + intros [|p] k Hp; cbn in Hp.
        * injection Hp as <-; exists o, v, f; split; [reflexivity|].
          destruct D as [[-> _]|(-> & N & _)]; [auto|right].
          split; [reflexivity|]; split; [exact N|]; intros [|p'] Hp' Hne; [congruence|]; cbn in Hp'.
          destruct (S1 _ _ Hp') as (o' & v' & f' & A & [->|(-> & N' & _)]); [eauto|contradiction].
        * destruct (S1 _ _ Hp) as (o' & v' & f' & A & B); exists o', v', f'; split; [exact A|].
          destruct B as [->|(-> & N & Dd)]; [auto|right]; split; [reflexivity|]; split.
          -- destruct (ir_val rs k) as [w|] eqn:Ew; [|reflexivity]; rewrite (M _ _ Ew) in N; discriminate.
          -- intros [|p'] Hp' Hne; cbn in Hp'; [|apply Dd; [exact Hp'|congruence]].
             injection Hp' as ->; cbn; destruct D as [[-> _]|(-> & _ & _)]; [eauto|contradiction].
      + intros j Hj; destruct (S2 _ Hj) as [Hj1|(p & o' & v' & A & B)].
        * destruct D as [[_ ->]|(-> & _ & Hsub)]; [auto|].
          destruct (Hsub _ Hj1) as [->|]; [right; exists 0, o, v; auto|auto].
        * right; exists (S p), o', v'; auto.
  Qed.

  Lemma i_acquire_all_grown i l : forall rs ri ks rs' ri',
    swf rs -> i_acquire_all rs ri i l = Some (ks, rs', ri') ->
    (forall p v k, In (p, (v, Some k)) l -> ir_val rs k <> None) ->
    (forall j w, ir_val rs j = Some w -> ir_val rs' j = Some w) /\
    grown keep (ir_val rs') ri
      (map (fun e => (fst (snd (fst e)),
                      (snd e, match snd (snd (fst e)) with None => true | Some _ => false end)))
         (combine l ks)) ri'.
  Proof.
    induction l as [|[o [v f]] l IH]; intros rs ri ks rs' ri' Hs E Hf; cbn in E.
    - inv E; split; [auto|constructor].
    - destruct (i_acquire cmp keep rs ri o i v f) as [[[k0 rs1] ri1]|] eqn:E0; [|discriminate]; cbn in E.
      destruct (i_acquire_all rs1 ri1 i l) as [[[ks1 rs2] ri2]|] eqn:E1; [|discriminate]; cbn in E; inv E.
      destruct (i_acquire_slot _ _ _ _ _ _ _ _ _ Hs E0) as (Hs1 & M & Vk & D).
      { destruct f; [|trivial]; apply (Hf o v); now left. }
      assert (Hf1 : forall p v k, In (p, (v, Some k)) l -> ir_val rs1 k <> None).
      { intros p v' k Hi; destruct (ir_val rs k) as [w|] eqn:Ew.
        - rewrite (M _ _ Ew); discriminate.
        - exfalso; eapply Hf; [right; exact Hi|exact Ew]. }
      destruct (IH _ _ _ _ _ Hs1 E1 Hf1) as (M1 & G).
      split; [auto|]; cbn [combine map fst snd].
      destruct f as [j|]; cbn in E0.
      + destruct (sget rs j); [|discriminate]; cbn in E0; inv E0; now constructor.
      + destruct (bt_insert _ _ _ _) as [ri0|] eqn:Eb; [|discriminate]; cbn in E0; inv E0.
        assert (Ev : ir_val (sinsert rs (ir_single o v i)) (vacant_key rs) = Some v).
        { unfold ir_val; rewrite sget_sinsert, Nat.eqb_refl by exact Hs; destruct o; reflexivity. }
        eapply grown_new; [exact Eb| |exact (M1 _ _ Ev)|exact G].
        intros j Ec; unfold i_resource_index_cmp in Ec; rewrite Ev in Ec.
        destruct (ir_val _ j) as [w|] eqn:Ew; [|discriminate]; cbn in Ec; injection Ec as Ec.
        apply (ord_eq _ L) in Ec; subst w; exact (M1 _ _ Ew).
  Qed.

  Definition i_found (d : @idataset R) (vs : list R) (v : R) (f : option nat) : Prop :=
    match f with
    | Some i => In i (id_ri d) /\ ir_val (id_resources d) i = Some v /\ In v vs
    | None => ~ In v vs
    end.

  Lemma id_insert_acquires d ks vs q d' :
    inv_ d ks vs -> ~ In q ks -> id_insert cmp keep d q = Some (true, d') ->
    exists l rs ri x,
      i_acquire_all (id_resources d) (id_ri d) (vacant_key (id_quads d)) l = Some (quad_comps x, rs, ri) /\
      map (fun e => fst (snd e)) l = quad_comps q /\
      (forall o v f, In (o, (v, f)) l -> i_found d vs v f) /\
      id_quads d' = sinsert (id_quads d) x /\ id_ri d' = ri /\ id_resources d' = rs.
  Proof.
    intros I Hq E; unfold id_insert in E; rewrite (id_contains_spec L _ _ _ _ I) in E.
    cbn [bind] in E; assert (Em : mem qcmp q ks = false) by now apply (mem_false LQ).
    rewrite Em in E; pose proof (ii_res _ _ _ I) as I4; clear I; cbn zeta in E.
    destruct (i_index_of_resource_spec L _ _ _ _ (q_s q) I4) as (fs & Efs & Hfs); rewrite Efs in E.
    destruct (i_index_of_resource_spec L _ _ _ _ (q_p q) I4) as (fp & Efp & Hfp); rewrite Efp in E.
    destruct (i_index_of_resource_spec L _ _ _ _ (q_o q) I4) as (fo & Efo & Hfo); rewrite Efo in E.
    cbn [bind] in E; set (n := vacant_key (id_quads d)) in *.
    destruct (i_acquire cmp keep (id_resources d) (id_ri d) PosS n (q_s q) fs)
      as [[[s_i rs1] ri1]|] eqn:A1; cbn [bind] in E.
    2: { exfalso; destruct (q_g q) as [g|]; cbn in E; [|discriminate].
         destruct (i_index_of_resource cmp (id_resources d) (id_ri d) g); discriminate. }
    unfold quad_comps; destruct (q_g q) as [g|] eqn:Eg.
    - destruct (i_index_of_resource_spec L _ _ _ _ g I4) as (fg & Efg & Hfg); rewrite Efg in E.
      cbn [bind] in E.
      destruct (i_acquire cmp keep rs1 ri1 PosP n (q_p q) fp) as [[[p_i rs2] ri2]|] eqn:A2; [|discriminate].
      cbn [bind] in E.
      destruct (i_acquire cmp keep rs2 ri2 PosO n (q_o q) fo) as [[[o_i rs3] ri3]|] eqn:A3; [|discriminate].
      cbn [bind] in E.
      destruct (i_acquire cmp keep rs3 ri3 PosG n g fg) as [[[g_i rs4] ri4]|] eqn:A4; [|discriminate].
      cbn [bind] in E.
      destruct (bt_insert _ _ _ _) as [qi|]; [|discriminate]; cbn in E; inv E.
      exists [(PosS, (q_s q, fs)); (PosP, (q_p q, fp)); (PosO, (q_o q, fo)); (PosG, (g, fg))],
        rs4, ri4, (Quad s_i p_i o_i (Some g_i)).
      split; [cbn; rewrite A1; cbn; rewrite A2; cbn; rewrite A3; cbn; rewrite A4; reflexivity|].
      split; [reflexivity|]; split; [|repeat split].
      intros o v f [E|[E|[E|[E|[]]]]]; inv E; assumption.
    - cbn [bind] in E.
      destruct (i_acquire cmp keep rs1 ri1 PosP n (q_p q) fp) as [[[p_i rs2] ri2]|] eqn:A2; [|discriminate].
      cbn [bind] in E.
      destruct (i_acquire cmp keep rs2 ri2 PosO n (q_o q) fo) as [[[o_i rs3] ri3]|] eqn:A3; [|discriminate].
      cbn [bind] in E.
      destruct (bt_insert _ _ _ _) as [qi|]; [|discriminate]; cbn in E; inv E.
      exists [(PosS, (q_s q, fs)); (PosP, (q_p q, fp)); (PosO, (q_o q, fo))], rs3, ri3,
        (Quad s_i p_i o_i None).
      split; [cbn; rewrite A1; cbn; rewrite A2; cbn; rewrite A3; reflexivity|].
      split; [reflexivity|]; split; [|repeat split].
      intros o v f [E|[E|[E|[]]]]; inv E; assumption.
  Qed.

  Lemma id_insert_slots d ks vs q d' :
    inv_ d ks vs -> ~ In q ks -> id_insert cmp keep d q = Some (true, d') ->
    exists x, id_quads d' = sinsert (id_quads d) x /\
      (forall p k w, nth_error (quad_comps x) p = Some k -> nth_error (quad_comps q) p = Some w ->
         (In k (id_ri d) /\ ir_val (id_resources d) k = Some w) \/
         (~ In w vs /\ ir_val (id_resources d) k = None /\
          forall p', nth_error (quad_comps x) p' = Some k -> p' = p)) /\
      (forall j, In j (id_ri d') -> In j (id_ri d) \/
         exists p w, nth_error (quad_comps x) p = Some j /\
           nth_error (quad_comps q) p = Some w /\ ~ In w vs) /\
      (forall w p k, ~ In w vs -> pick keep (quad_comps q) w p ->
         nth_error (quad_comps x) p = Some k -> In k (id_ri d')).
  Proof.
    intros I Hq E.
    destruct (id_insert_acquires _ _ _ _ _ I Hq E) as (l & rs & ri & x & El & Hv & Hfd & Eq & Er & _).
    pose proof (ii_res _ _ _ I) as I4; clear I E.
    rewrite Er; exists x; split; [exact Eq|].
    destruct (i_acquire_all_slots _ _ _ _ _ _ _ (iri_wf _ _ _ _ I4) El) as [S1 S2].
    { intros o v i Hi; destruct (Hfd _ _ _ Hi) as (_ & H & _); congruence. }
    assert (At : forall p o v f, nth_error l p = Some (o, (v, f)) -> nth_error (quad_comps q) p = Some v).
    { intros p o v f H; rewrite <- Hv.
      now apply (map_nth_error (fun e : pos * (R * option nat) => fst (snd e))) in H. }
    assert (S3 : forall w p k, ~ In w vs -> pick keep (quad_comps q) w p ->
              nth_error (quad_comps x) p = Some k -> In k ri).
    { intros w p k Hw [Hp Hm] Hk.
      destruct (i_acquire_all_grown _ _ _ _ _ _ _ (iri_wf _ _ _ _ I4) El) as (M & G).
      { intros o v i Hi; destruct (Hfd _ _ _ Hi) as (_ & H & _); congruence. }
      destruct (S1 _ _ Hk) as (o & v & f & A & _); pose proof (At _ _ _ _ A) as Av.
      assert (v = w) as -> by congruence.
      destruct f as [i|]; [now destruct (Hfd _ _ _ (nth_error_In _ _ A))|].
      apply (grown_pick _ _ _ _ _ w G) with (p := p).
      - intros _ j Hj Heq; apply Hw.
        destruct (iri_idx _ _ _ _ I4) as [Hi _].
        destruct (mapM_in_inv _ _ _ _ Hi Hj) as (u & Hu & Hin); rewrite (M _ _ Hu) in Heq; congruence.
      - rewrite nth_error_map.
        assert (nth_error (combine l (quad_comps x)) p = Some ((o, (w, None)), k)) as ->; [|reflexivity].
        now apply nth_combine.
      - intros p' k' Hp'; rewrite nth_error_map in Hp'.
        destruct (nth_error (combine l (quad_comps x)) p') as [[[o' [v f]] j]|] eqn:Ec; [|discriminate].
        cbn in Hp'; injection Hp' as -> _ _; apply nth_combine in Ec as [A' _].
        exact (Hm _ (At _ _ _ _ A')). }
    split; [|split; [|exact S3]].
    - intros p k w Hk Hw; destruct (S1 _ _ Hk) as (o & v & f & A & B).
      pose proof (At _ _ _ _ A) as Av; assert (v = w) as -> by congruence.
      pose proof (Hfd _ _ _ (nth_error_In _ _ A)) as Hfw.
      destruct B as [->|(-> & N & D)]; [left; cbn in Hfw; tauto|right].
      split; [exact Hfw|]; split; [exact N|]; intros p' Hp'.
      destruct (Nat.eq_dec p' p) as [|Hne]; [assumption|exfalso].
      destruct (D _ Hp' Hne) as (o' & v' & A'); pose proof (Hfd _ _ _ (nth_error_In _ _ A')) as (_ & H & _).
      congruence.
    - intros j Hj; destruct (S2 _ Hj) as [|(p & o & v & A & B)]; [auto|right].
      exists p, v; split; [exact A|]; split; [eauto|].
      exact (Hfd _ _ _ (nth_error_In _ _ B)).
  Qed.

  Lemma i_table_ins d ks vs q d' :
    inv_ d ks vs -> ~ In q ks -> id_insert cmp keep d q = Some (true, d') ->
    exists kx vs', inv_ d' (place qcmp q ks) vs' /\
      table_ins (keep:=keep) quad_comps (ient d) (ivis d) q kx (ient d') (ivis d').
  Proof.
    intros I Hq E.
    destruct (id_insert_spec L keep _ _ _ _ I Hq) as (d1 & vs1 & x1 & E1 & I1 & (Q1 & X1 & M1 & _) & W1 & _).
    rewrite E in E1; inv E1.
    destruct (id_insert_slots _ _ _ _ _ I Hq E) as (x & Q & S1 & S2 & S3).
    assert (x1 = x) as ->.
    { rewrite Q in Q1.
      assert (G : forall y, sget (sinsert (id_quads d) y) (vacant_key (id_quads d)) = Some y).
      { intros y; rewrite (sget_sinsert _ _ _ (ii_wf _ _ _ I)), Nat.eqb_refl; reflexivity. }
      pose proof (G x) as Gx; rewrite Q1, G in Gx; now inv Gx. }
    assert (Gq : forall j, sget (id_quads d1) j =
                   if j =? vacant_key (id_quads d) then Some x else sget (id_quads d) j).
    { intros j; rewrite Q; apply sget_sinsert, I. }
    assert (Hv : sget (id_quads d) (vacant_key (id_quads d)) = None) by apply sget_vacant, I.
    exists (quad_comps x), vs1; split; [exact I1|]; split.
    - intros kz (i & y & Hy & Hz & _); apply Hq.
      destruct (id_live_value _ _ _ _ _ I Hy) as (z & Hz' & Hin); congruence.
    - intros z kz; split.
      + intros (i & y & Hy & Hz & ->); rewrite Gq in Hy.
        destruct (i =? vacant_key (id_quads d)) eqn:Ei.
        * inv Hy; left; split; congruence.
        * right; exists i, y; split; [exact Hy|]; split; [|reflexivity].
          destruct (id_live_value _ _ _ _ _ I Hy) as (z' & Hz' & _).
          rewrite (iqwr_mono _ _ _ _ M1 Hz') in Hz; congruence.
      + intros [[-> ->]|(i & y & Hy & Hz & ->)].
        * exists (vacant_key (id_quads d)), x; rewrite Gq, Nat.eqb_refl; auto.
        * exists i, y; rewrite Gq; split; [|split; [exact (iqwr_mono _ _ _ _ M1 Hz)|reflexivity]].
          destruct (i =? vacant_key (id_quads d)) eqn:Ei; [|exact Hy].
          apply Nat.eqb_eq in Ei; subst i; congruence.
    - intros p k w Hk Hw; destruct (S1 _ _ _ Hk Hw) as [[A B]|(A & B & C)].
      + left; split; [exact A|]; now apply (i_uses _ _ _ _ _ I).
      + right; split; [rewrite (i_seen _ _ _ _ I); exact A|]; split; [|exact C].
        intros w'; rewrite (i_uses _ _ _ _ _ I); congruence.
    - intros k Hk; destruct (S2 _ Hk) as [|(p & w & A & B & C)]; [auto|right].
      exists p, w; split; [exact A|]; split; [exact B|]; now rewrite (i_seen _ _ _ _ I).
    - intros w; rewrite (i_seen _ _ _ _ I1), (i_seen _ _ _ _ I); apply W1.
    - intros w p k Hw; rewrite (i_seen _ _ _ _ I) in Hw; exact (S3 w p k Hw).
  Qed.

  (** ** Removal *)
  Lemma i_release_sub {K} (rcmp : slab (iresource R) -> nat -> K -> option comparison)
      rs ri p i k key rs' ri' b :
    i_release rcmp rs ri p i k key = Some (rs', ri', b) -> forall j, In j ri' -> In j ri.
  Proof.
    unfold i_release; destruct (sget rs k) as [x|]; [|discriminate]; cbn.
    destruct (ir_is_empty _).
    - destruct (bt_remove _ _ _) as [[y l]|] eqn:E; [|discriminate]; cbn.
      destruct (sremove _ _) as [[z s]|]; [|discriminate]; cbn; intros H; inv H.
      exact (bt_remove_sub _ _ _ _ _ E).
    - intros H; inv H; auto.
  Qed.

  Lemma id_remove_sub d i d' : id_remove_by_index cmp d i true = Some d' ->
    forall j, In j (id_ri d') -> In j (id_ri d).
  Proof.
    unfold id_remove_by_index; destruct (bt_remove _ _ _) as [[y l]|]; [|discriminate]; cbn.
    destruct (sremove _ _) as [[x qs]|]; [|discriminate]; cbn.
    destruct (i_release _ _ _ _ _ (q_s x) _) as [[[rs1 ri1] b1]|] eqn:E1; [|discriminate]; cbn.
    destruct (i_release _ _ _ _ _ (q_p x) _) as [[[rs2 ri2] b2]|] eqn:E2; [|discriminate]; cbn.
    destruct (i_release _ _ _ _ _ (q_o x) _) as [[[rs3 ri3] b3]|] eqn:E3; [|discriminate]; cbn.
    intros H j Hj.
    apply (i_release_sub _ _ _ _ _ _ _ _ _ _ E1), (i_release_sub _ _ _ _ _ _ _ _ _ _ E2),
      (i_release_sub _ _ _ _ _ _ _ _ _ _ E3).
    destruct (q_g x) as [g|].
    - destruct (i_release _ _ _ _ _ g _) as [[[rs4 ri4] b4]|] eqn:E4; [|discriminate]; cbn in H; inv H.
      exact (i_release_sub _ _ _ _ _ _ _ _ _ _ E4 _ Hj).
    - cbn in H; inv H; exact Hj.
  Qed.

  Lemma i_table_rem d ks vs i q d' :
    inv_ d ks vs -> i_quad_at (id_resources d) (id_quads d) i = Some q ->
    id_remove_by_index cmp d i true = Some d' ->
    exists vs', inv_ d' (del qcmp q ks) vs' /\
      table_rem quad_comps (ient d) (ivis d) q (ient d') (ivis d').
  Proof.
    intros I Hi E.
    destruct (id_remove_by_index_spec L _ _ _ _ _ I Hi) as (d1 & vs1 & x & E1 & I1 & (Er & M & _) & W1 & _).
    rewrite E in E1; inv E1; exists vs1; split; [exact I1|].
    pose proof (sremove_inv _ _ _ _ Er) as Ex; pose proof Hi as Hx; unfold i_quad_at in Hx.
    rewrite Ex in Hx; cbn in Hx.
    assert (Gq : forall j, sget (id_quads d1) j = if j =? i then None else sget (id_quads d) j)
      by (intros j; apply (sget_sremove _ _ _ _ _ Er)).
    assert (Ent : forall z kz, ient d1 z kz <-> ient d z kz /\ z <> q).
    { intros z kz; split.
      - intros (j & y & Hy & Hz & ->); rewrite Gq in Hy.
        destruct (j =? i) eqn:Ej; [discriminate|]; apply Nat.eqb_neq in Ej.
        apply (iqwr_mono _ _ _ _ M) in Hz; split; [exists j, y; auto|].
        intros ->; apply Ej; apply (id_index_inj L _ _ _ j i q I); [|exact Hi].
        unfold i_quad_at; now rewrite Hy.
      - intros [(j & y & Hy & Hz & ->) Hzq].
        assert (Ej : j <> i) by (intros ->; congruence).
        assert (Hy1 : sget (id_quads d1) j = Some y)
          by (rewrite Gq; apply Nat.eqb_neq in Ej; now rewrite Ej).
        exists j, y; split; [exact Hy1|]; split; [|reflexivity].
        destruct (id_live_value _ _ _ _ _ I1 Hy1) as (z' & Hz' & _).
        rewrite Hz'; apply (iqwr_mono _ _ _ _ M) in Hz'; congruence. }
    split.
    - exists (quad_comps x), i, x; auto.
    - exact Ent.
    - exact (id_remove_sub _ _ _ E).
    - intros w; rewrite (i_seen _ _ _ _ I1), (i_seen _ _ _ _ I), W1.
      split; intros [H1 H2]; split; try exact H1.
      + intros k Hu; pose proof Hu as Hw; rewrite (i_uses _ _ _ _ _ I) in Hw.
        specialize (H2 _ Hw); destruct (ir_val (id_resources d1) k) as [w'|] eqn:Ew; [|congruence].
        pose proof (M _ _ Ew) as Ew'; assert (w' = w) as -> by congruence.
        now apply (i_uses _ _ _ _ _ I1).
      + intros k Hw; apply (i_uses _ _ _ _ _ I) in Hw; apply H2 in Hw.
        apply (i_uses _ _ _ _ _ I1) in Hw; congruence.
  Qed.

  (** ** Histories *)
  Context (r : R).
  Notation follow d a := (exists sg, follows (keep:=keep) quad_comps r (ient d) (ivis d) sg a).
  Notation ent1 := (entry qcmp cmp quad_comps r).

  Lemma i_follow_insert d s q d' a :
    id_rep (cmp:=cmp) d s -> ~ In q s -> follow d a -> id_insert cmp keep d q = Some (true, d') ->
    follow d' (ent1 a (true, q)).
  Proof.
    intros [Hn (vs & I)] Hq (sg & F) E.
    assert (Hq' : ~ In q (sorted_elements qcmp s)) by now rewrite in_sorted_elements.
    destruct (i_table_ins _ _ _ _ _ I Hq' E) as (kx & vs' & I' & T).
    exact (follows_ins L quad_comps r _ _ _ _ _ _ _ _ (i_table _ _ _ I) (i_table _ _ _ I') T F).
  Qed.

  Lemma i_follow_remove d s i q d' a :
    id_rep (cmp:=cmp) d s -> i_quad_at (id_resources d) (id_quads d) i = Some q ->
    follow d a -> id_remove_by_index cmp d i true = Some d' -> follow d' (ent1 a (false, q)).
  Proof.
    intros [Hn (vs & I)] Hi (sg & F) E.
    destruct (i_table_rem _ _ _ _ _ _ I Hi E) as (vs' & I' & T); exists sg.
    exact (follows_rem LQ L quad_comps r _ _ _ _ _ _ _ (i_table _ _ _ I) (i_table _ _ _ I') T F).
  Qed.

  (** The order of removals. *)
  Lemma filed_unfile x (a : ledger (quad R)) :
    NoDup (map fst (filed a)) -> NoDup (map fst (filed (unfile qcmp x a))).
  Proof.
    intros H; unfold unfile; destruct (find _ _) as [[y [n m]]|]; [|exact H].
    cbn [filed]; now apply nodup_filter_fst.
  Qed.

  Lemma unfile_perm m1 m2 : Permutation m1 m2 -> forall a : ledger (quad R),
    NoDup (map fst (filed a)) ->
    fold_left ent1 (removals m1) a = fold_left ent1 (removals m2) a.
  Proof.
    induction 1 as [|x l m HP IH|x y l|l m p HP1 IH1 HP2 IH2]; intros a Hn; cbn.
    - reflexivity.
    - apply IH; now apply filed_unfile.
    - f_equal; now apply (unfile_comm LQ quad_comps).
    - now rewrite IH1, IH2.
  Qed.

  Lemma i_follow_extend l : forall d s0 K n m d' a,
    istate (cmp:=cmp) d s0 K n m -> follow d a -> id_extend cmp keep d l = Some d' ->
    follow d' (fold_left ent1 (extend_changes qcmp (apply qcmp m s0) l) a).
  Proof.
    induction l as [|q l IH]; intros d s0 K n m d' a H F E; cbn in E; [inv E; exact F|].
    cbn [extend_changes]; destruct (mem qcmp q (apply qcmp m s0)) eqn:Em.
    - rewrite (id_insert_dup L keep d _ q (is_rep _ _ _ _ _ H)) in E by now apply (mem_true LQ).
      cbn in E; eapply IH; eauto.
    - destruct (istate_insert L keep _ _ _ _ _ q H) as (d1 & E1 & H1); [now apply (mem_false LQ)|].
      rewrite E1 in E; cbn in E.
      assert (F1 := i_follow_insert _ _ q _ _ (is_rep _ _ _ _ _ H)
                      (proj1 (mem_false LQ _ _) Em) F E1).
      pose proof (IH _ _ _ _ _ _ _ H1 F1 E) as G; rewrite apply_app in G; exact G.
  Qed.

  Lemma i_follow_remove_all idx : forall d s0 K n m b b' d' a,
    istate (cmp:=cmp) d s0 K n m -> NoDup idx ->
    (forall i, In i idx -> sget (id_quads d) i <> None) -> follow d a ->
    id_remove_all cmp keep idx d b = Some (b', d') ->
    exists qs, mapM (i_quad_at (id_resources d) (id_quads d)) idx = Some qs /\
      follow d' (fold_left ent1 (removals qs) a).
  Proof.
    induction idx as [|i idx IH]; intros d s0 K n m b b' d' a H Hn Hl F E; cbn in E.
    - inv E; exists []; auto.
    - inv Hn; destruct (i_quad_at (id_resources d) (id_quads d) i) as [q|] eqn:Hq; [|discriminate].
      cbn in E; destruct (istate_remove_by_index L _ _ _ _ _ _ _ H Hq) as (d1 & E1 & H1 & y & D).
      rewrite E1 in E; cbn in E; destruct (bg_insert _ _ _ _) as [[? b1]|]; [|discriminate]; cbn in E.
      assert (F1 := i_follow_remove _ _ _ _ _ _ (is_rep _ _ _ _ _ H) Hq F E1).
      destruct D as (Er & M & _).
      assert (Hl1 : forall j, In j idx -> sget (id_quads d1) j <> None).
      { intros j Hj; rewrite (sget_sremove _ _ _ _ _ Er).
        destruct (j =? i) eqn:Ej; [apply Nat.eqb_eq in Ej; subst; contradiction|].
        apply Hl; now right. }
      destruct (IH _ _ _ _ _ _ _ _ _ H1 H3 Hl1 F1 E) as (qs & Eqs & F').
      exists (q :: qs); split; [|exact F']; cbn; rewrite Hq; cbn.
      assert (mapM (i_quad_at (id_resources d) (id_quads d)) idx = Some qs) as ->; [|reflexivity].
      rewrite <- Eqs; apply mapM_ext; intros j Hj.
      destruct (mapM_in_inv _ _ _ _ Eqs Hj) as (z & Hz & _); rewrite Hz.
      unfold i_quad_at in *; rewrite (sget_sremove _ _ _ _ _ Er) in Hz.
      destruct (j =? i); [discriminate|].
      destruct (sget (id_quads d) j); [|discriminate]; cbn in *; eapply iqwr_mono; eauto.
  Qed.

  Lemma i_follow_extract n : forall cap d pm s0 K k m qs d' a,
    istate (cmp:=cmp) d s0 K k m -> follow d a ->
    pm_extract cmp n cap d pm = Some (qs, d') ->
    (exists t, trace cap (id_quads d) pm t) ->
    follow d' (fold_left ent1 (removals qs) a).
  Proof.
    induction n as [|n IH]; intros cap d m0 s0 K k m qs d' a H F E T; [cbn in E; inv E; exact F|].
    destruct T as (t & T); cbn [pm_extract] in E; destruct T as [m1 Km En|m1 i x m1' t Km En Hi Hg T].
    - rewrite En in E; cbn in E; inv E; exact F.
    - rewrite En in E; cbn in E; destruct (is_rep _ _ _ _ _ H) as [_ (vs & I)].
      destruct (id_live_value _ _ _ _ _ I Hg) as (q & Hq & _).
      rewrite Hq in E; cbn in E.
      assert (Ha : i_quad_at (id_resources d) (id_quads d) i = Some q)
        by (unfold i_quad_at; now rewrite Hg).
      destruct (istate_remove_by_index L _ _ _ _ _ _ _ H Ha) as (d1 & Ed & H1 & y & D).
      rewrite Ed in E; cbn in E.
      assert (F1 := i_follow_remove _ _ _ _ _ _ (is_rep _ _ _ _ _ H) Ha F Ed).
      destruct (pm_extract cmp n cap d1 m1') as [[qs1 d2]|] eqn:E2; [|discriminate]; cbn in E; inv E.
      apply (IH _ _ _ _ _ _ _ _ _ _ H1 F1 E2); exists t.
      eapply trace_local; [exact T|]; intros j Hj; destruct D as (D & _).
      rewrite (sget_sremove _ _ _ _ _ D); destruct (j =? i) eqn:Ej; [|reflexivity].
      apply Nat.eqb_eq in Ej; lia.
  Qed.
  Lemma i_follow_set_step d s0 K n m o x d' a :
    istate (cmp:=cmp) d s0 K n m -> follow d a -> id_step cmp keep d (IOp o) = Some (x, d') ->
    follow d' (fold_left ent1 (set_changes qcmp (apply qcmp m s0) o) a).
  Proof.
    intros H F E; destruct o as [q|q|l|q| | | |]; cbn [id_step set_changes] in *.
    - destruct (id_insert cmp keep d q) as [[b d1]|] eqn:E1; [|discriminate]; cbn in E; inv E.
      destruct (mem qcmp q (apply qcmp m s0)) eqn:Em.
      + rewrite (id_insert_dup L keep d _ q (is_rep _ _ _ _ _ H)) in E1 by now apply (mem_true LQ).
        inv E1; exact F.
      + assert (Hq : ~ In q (apply qcmp m s0)) by now apply (mem_false LQ).
        destruct (istate_insert L keep _ _ _ _ _ q H Hq) as (d2 & E2 & _).
        rewrite E1 in E2; inv E2; exact (i_follow_insert _ _ _ _ _ (is_rep _ _ _ _ _ H) Hq F E1).
    - destruct (id_remove cmp d q) as [[b d1]|] eqn:E1; [|discriminate]; cbn in E; inv E.
      pose proof (is_rep _ _ _ _ _ H) as Hr; pose proof (id_remove_eq L _ _ q Hr) as E2.
      destruct (mem qcmp q (apply qcmp m s0)) eqn:Em.
      + destruct E2 as (i & Hi & E2); rewrite E1 in E2.
        destruct (id_remove_by_index cmp d i true) as [d2|] eqn:E3; [|discriminate]; cbn in E2; inv E2.
        exact (i_follow_remove _ _ _ _ _ _ Hr Hi F E3).
      + rewrite E1 in E2; inv E2; exact F.
    - destruct (id_extend cmp keep d l) as [d1|] eqn:E1; [|discriminate]; cbn in E; inv E.
      eapply i_follow_extend; eauto.
    - destruct (id_contains cmp d q); [|discriminate]; cbn in E; inv E; exact F.
    - inv E; exact F.
    - inv E; exact F.
    - destruct (id_iter d); [|discriminate]; cbn in E; inv E; exact F.
    - destruct (id_into_iter d); [|discriminate]; cbn in E; inv E; exact F.
  Qed.

  Lemma i_follow_remove_graph d s0 K n m g b ts d' a :
    istate (cmp:=cmp) d s0 K n m -> follow d a -> id_remove_graph cmp keep d g = Some (b, d') ->
    match b with
    | None => True
    | Some b => bg_iter b = Some ts
    end ->
    follow d' (fold_left ent1
      match b with
      | None => []
      | Some _ => removals (map (fun t => Quad (t_s t) (t_p t) (t_o t) g) ts)
      end a).
  Proof.
    intros H F E Hb.
    destruct (istate_remove_graph L keep d s0 K n m g H) as (b1 & d1 & E1 & D).
    rewrite E in E1; inv E1; destruct b1 as [b1|]; [|destruct D as [-> _]; exact F].
    destruct D as (us & Hb' & Ei & Hin & _ & H1); rewrite Hb in Ei; inv Ei.
    pose proof (is_rep _ _ _ _ _ H) as Hr.
    unfold id_remove_graph in E; destruct (id_graph_indexes L d _ g Hr) as (f & Ef & Hf).
    rewrite Ef in E; cbn [bind] in E; destruct f as [idx|]; [|discriminate].
    destruct Hf as (Hnd & Hidx & _).
    assert (Hlive : forall i, In i idx -> sget (id_quads d) i <> None).
    { intros i Hi; destruct (Hidx _ Hi) as (q & Hq & _); unfold i_quad_at in Hq.
      destruct (sget (id_quads d) i); discriminate. }
    destruct (id_remove_all cmp keep idx d bg_new) as [[b2 d2]|] eqn:E2; [|discriminate].
    cbn in E; inv E.
    destruct (i_follow_remove_all _ _ _ _ _ _ _ _ _ _ H Hnd Hlive F E2) as (qs & Eqs & F2).
    destruct (istate_remove_all L keep idx d s0 K n m bg_new [] H Hnd Hlive (bg_rep_new (cmp:=cmp)))
      as (d3 & b3 & qs3 & E3 & Eqs3 & H3 & _).
    rewrite E2 in E3; rewrite Eqs in Eqs3; inv E3; inv Eqs3.
    destruct Hr as [Hs (vs & I)].
    assert (Nqs : NoDup qs3).
    { clear - L LQ Eqs Hnd I; revert qs3 Eqs; induction idx as [|i idx IH]; intros qs Eqs.
      - cbn in Eqs; inv Eqs; constructor.
      - apply mapM_cons in Eqs as (q & qs' & Hq & Hqs & ->); inv Hnd; constructor; [|auto].
        intros Hin; apply (mapM_in _ _ _ _ Hqs) in Hin as (j & Hj & Hjq).
        assert (i = j) as -> by exact (id_index_inj L _ _ _ _ _ _ I Hq Hjq); contradiction. }
    assert (Sqs : forall q, In q qs3 -> In q (apply qcmp m s0)).
    { intros q Hq; apply (mapM_in _ _ _ _ Eqs) in Hq as (i & Hi & Hq).
      destruct (Hidx i Hi) as (q' & Hq' & A & _); congruence. }
    set (tq := fun t : triple R => Quad (t_s t) (t_p t) (t_o t) g).
    assert (Injq : forall t u, tq t = tq u -> t = u)
      by (intros [] [] Heq; unfold tq in Heq; cbn in Heq; injection Heq as -> -> ->; reflexivity).
    assert (Nts : NoDup (map tq (sorted_elements (triple_cmp cmp) us))).
    { apply FinFun.Injective_map_NoDup; [exact Injq|].
      assert (LT : ord_laws (triple_cmp cmp)) by now apply triple_cmp_laws.
      apply (ssorted_nodup LT), (sorted_elements_sorted LT), Hb'. }
    rewrite <- (unfile_perm qs3 (map tq (sorted_elements (triple_cmp cmp) us))); [exact F2| |].
    2: { destruct F as (sg & F); exact (fo_nodup _ _ _ _ _ _ F). }
    apply NoDup_Permutation; [exact Nqs|exact Nts|]; intros q.
    pose proof (id_iter_rep _ _ (is_rep _ _ _ _ _ H1)) as I1.
    pose proof (id_iter_rep _ _ (is_rep _ _ _ _ _ H3)) as I3.
    rewrite I1 in I3; injection I3 as I3; rewrite !apply_app in I3.
    assert (J : In q (apply qcmp (removals qs3) (apply qcmp m s0)) <->
                In q (apply qcmp (removals (map tq (sorted_elements (triple_cmp cmp) us)))
                        (apply qcmp m s0))).
    { rewrite <- (in_sorted_elements (cmp:=qcmp)), <- I3; apply in_sorted_elements. }
    rewrite !(in_apply_removals LQ quad_comps) in J.
    destruct (in_dec (ord_dec LQ) q (apply qcmp m s0)) as [Hq|Hq].
    - destruct (in_dec (ord_dec LQ) q qs3), (in_dec (ord_dec LQ) q (map tq (sorted_elements (triple_cmp cmp) us)));
        tauto.
    - split; [intros X; now apply Sqs in X|]; intros X; apply in_map_iff in X as (t & <- & Ht).
      exfalso; apply Hq, Hin; exact (proj1 (in_sorted_elements _ _) Ht).
  Qed.

  Lemma i_follow_step d s0 K n m o x d' a :
    istate (cmp:=cmp) d s0 K n m -> follow d a -> id_step cmp keep d o = Some (x, d') ->
    follow d' (fold_left ent1 (changes cmp (apply qcmp m s0) o x) a).
  Proof.
    intros H F E; destruct o as [o|g|c k spare].
    - exact (i_follow_set_step _ _ _ _ _ _ _ _ _ H F E).
    - cbn [id_step] in E; destruct (id_remove_graph cmp keep d g) as [[b d1]|] eqn:E1; [|discriminate].
      cbn in E; destruct b as [b|].
      + destruct (bg_iter b) as [ts|] eqn:Eb; [|discriminate]; cbn in E; inv E.
        pose proof (i_follow_remove_graph _ _ _ _ _ _ _ ts _ _ H F E1 Eb) as G.
        cbn; unfold removals in G; rewrite map_map in G; exact G.
      + inv E; exact (i_follow_remove_graph _ _ _ _ _ _ _ [] _ _ H F E1 Logic.I).
    - cbn [id_step] in E; destruct (id_extract cmp d spare c k) as [[qs d1]|] eqn:E1; [|discriminate].
      cbn in E; inv E; unfold id_extract in E1.
      pose proof (is_rep _ _ _ _ _ H) as Hr; pose proof Hr as [_ (vs & I)].
      destruct (pm_new_spec L _ _ _ c I) as (m0 & Em & M); rewrite Em in E1; cbn [bind] in E1.
      destruct (trace_found L _ _ spare _ _ _ _ Hr M) as (t & _ & T & _).
      exact (i_follow_extract _ _ _ _ _ _ _ _ _ _ _ H F E1 (ex_intro _ t T)).
  Qed.

  Lemma i_follow_run ops : forall d s0 K n m xs d' a,
    istate (cmp:=cmp) d s0 K n m -> follow d a -> run (id_step cmp keep) d ops = Some (xs, d') ->
    follow d' (fold_left ent1 (log cmp (apply qcmp m s0) ops xs) a).
  Proof.
    induction ops as [|o ops IH]; intros d s0 K n m xs d' a H F E; cbn [run] in E; [inv E; exact F|].
    destruct (id_step cmp keep d o) as [[x d1]|] eqn:E1; [|discriminate].
    destruct (run (id_step cmp keep) d1 ops) as [[ys d2]|] eqn:E2; [|discriminate]; inv E.
    destruct (istate_step L keep _ _ _ _ _ o H) as (x3 & d3 & E3 & _ & H3); rewrite E1 in E3; inv E3.
    cbn -[apply]; rewrite fold_left_app.
    pose proof (IH _ _ _ _ _ _ _ _ H3 (i_follow_step _ _ _ _ _ _ _ _ _ H F E1) E2) as G.
    rewrite apply_app in G; exact G.
  Qed.

  Lemma id_index_ri idx : forall (d d' : @idataset R), id_index idx d = Some d' -> id_ri d' = id_ri d.
  Proof.
    induction idx as [|i idx IH]; intros d d' E; cbn in E; [now inv E|].
    destruct (sget (id_quads d) i) as [q|]; [|discriminate]; cbn in E.
    destruct (i_use _ PosS _ _); [|discriminate]; cbn in E.
    destruct (i_use _ PosP _ _); [|discriminate]; cbn in E.
    destruct (i_use _ PosO _ _); [|discriminate]; cbn in E.
    destruct (q_g q); [destruct (i_use _ PosG _ _); [|discriminate]; cbn in E|];
      apply IH in E; exact E.
  Qed.

  Lemma i_follow_start ops xs b d :
    run (bd_step cmp keep) bd_new ops = Some (xs, b) -> id_from_non_indexed b = Some d ->
    follow d (account qcmp cmp quad_comps r (set_log qcmp [] ops)).
  Proof.
    intros E E0; pose proof (bd_run_rep_new L keep _ _ _ E) as [Hn (vs & I)].
    destruct (convert_spec _ _ _ I) as (d1 & E1 & _ & Q & _ & _ & _ & Hat).
    rewrite E0 in E1; inv E1.
    destruct (b_follow_run L keep r _ _ _ _ _ _ bd_rep_new (b_follow_new keep r) E) as (sg & F).
    exists sg; apply (follows_ext quad_comps r _ _ _ _ sg _) with (3 := F).
    - intros z kz; split.
      + intros (i & x & Hx & Hz & ->); exists i, x; rewrite Q; split; [exact Hx|]; split; [|reflexivity].
        pose proof (Hat i) as A; unfold i_quad_at, b_quad_at in A; rewrite Q, Hx in A; cbn in A; congruence.
      + intros (i & x & Hx & Hz & ->); rewrite Q in Hx; exists i, x; split; [exact Hx|]; split; [|reflexivity].
        pose proof (Hat i) as A; unfold i_quad_at, b_quad_at in A; rewrite Q, Hx in A; cbn in A; congruence.
    - intros k; unfold ivis, bvis; unfold id_from_non_indexed in E0; apply id_index_ri in E0.
      rewrite E0; reflexivity.
  Qed.

  Lemma i_follow_rep d s a :
    id_rep (cmp:=cmp) d s -> follow d a -> id_contains_resource cmp d r = Some (reported a).
  Proof.
    intros [Hn (vs & I)] (sg & F); unfold id_contains_resource.
    destruct (i_index_of_resource_spec L _ _ _ _ r (ii_res _ _ _ I)) as (f & -> & Hf); cbn; f_equal.
    pose proof (fo_rep _ _ _ _ _ _ F) as Hr; rewrite (i_seen _ _ _ _ I) in Hr.
    destruct f as [i|]; cbn.
    - symmetry; apply Hr; tauto.
    - destruct (reported a); [exfalso; apply Hf; now apply Hr|reflexivity].
  Qed.

  Lemma id_resource_account ops0 ops xs d :
    id_reached cmp keep ops0 ops xs d ->
    id_contains_resource cmp d r =
      Some (reported (account qcmp cmp quad_comps r (full_log cmp ops0 ops xs))).
  Proof.
    intros H; pose proof (reached_rep L keep _ _ _ _ H) as Hr.
    apply (i_follow_rep _ _ _ Hr); destruct H as (xs0 & b & d0 & Eb & E0 & E).
    destruct (start_spec L keep _ _ _ Eb) as (d0' & E0' & H0); rewrite E0 in E0'; inv E0'.
    unfold account, full_log; rewrite fold_left_app.
    exact (i_follow_run _ _ _ _ _ _ _ _ _ H0 (i_follow_start _ _ _ _ Eb E0) E).
  Qed.

  (** ** Graphs *)
  Notation tcmp := (triple_cmp cmp).
  Definition ledger_iq (a : ledger (triple R)) : ledger (quad R) :=
    Ledger (reported a) (number a) (map (fun m => (iq (fst m), snd m)) (filed a)).

  Lemma same_iq (t u : triple R) : same qcmp (iq t) (iq u) = same tcmp t u.
  Proof. unfold same; now rewrite qcmp_iq. Qed.

  Lemma times_iq t : times cmp quad_comps r (iq t) = times cmp triple_comps r t.
  Proof. reflexivity. Qed.

  Lemma entry_iq a c :
    entry qcmp cmp quad_comps r (ledger_iq a) (ic c) = ledger_iq (entry tcmp cmp triple_comps r a c).
  Proof.
    destruct c as [[] t]; unfold entry, ic; cbn [fst snd].
    - unfold file; rewrite times_iq; destruct (times cmp triple_comps r t =? 0); [reflexivity|].
      cbn; destruct (reported a); reflexivity.
    - unfold unfile; cbn [filed ledger_iq number reported].
      assert (E1 : forall l : list (triple R * (nat * bool)),
        find (fun m => same qcmp (iq t) (fst m)) (map (fun m => (iq (fst m), snd m)) l) =
        option_map (fun m => (iq (fst m), snd m)) (find (fun m => same tcmp t (fst m)) l)).
      { induction l as [|m l IH]; [reflexivity|]; cbn; rewrite same_iq.
        destruct (same tcmp t (fst m)); [reflexivity|exact IH]. }
      assert (E2 : forall l : list (triple R * (nat * bool)),
        filter (fun m => negb (same qcmp (iq t) (fst m))) (map (fun m => (iq (fst m), snd m)) l) =
        map (fun m => (iq (fst m), snd m)) (filter (fun m => negb (same tcmp t (fst m))) l)).
      { induction l as [|m l IH]; [reflexivity|]; cbn; rewrite same_iq.
        destruct (same tcmp t (fst m)); cbn; [exact IH|now f_equal]. }
      assert (E3 : forall n (l : list (triple R * (nat * bool))),
        existsb (fun m => fst (snd m) =? n) (map (fun m => (iq (fst m), snd m)) l) =
        existsb (fun m => fst (snd m) =? n) l).
      { intros n l; induction l as [|m l IH]; [reflexivity|]; cbn; now rewrite IH. }
      rewrite E1; destruct (find _ (filed a)) as [[u [n b]]|]; cbn; [|reflexivity].
      rewrite E2, E3; reflexivity.
  Qed.

  Lemma account_iq l : forall a,
    fold_left ent1 (map ic l) (ledger_iq a) =
    ledger_iq (fold_left (entry tcmp cmp triple_comps r) l a).
  Proof. induction l as [|c l IH]; intros a; [reflexivity|]; cbn; now rewrite entry_iq, IH. Qed.

  Lemma bg_resource_account ops xs g :
    run (bg_step cmp keep) bg_new ops = Some (xs, g) ->
    bg_contains_resource cmp g r =
      Some (reported (account tcmp cmp triple_comps r (set_log tcmp [] ops))).
  Proof.
    intros E; destruct (run_iq _ _ _ _ _ E) as (ys & Ey); rewrite emb_new in Ey.
    pose proof (bd_resource_account L keep r _ _ _ Ey) as H.
    pose proof (set_log_iq (cmp:=cmp) ops []) as El; cbn [map] in El; rewrite El in H.
    unfold account in H; change (ledger_new (X:=quad R)) with (ledger_iq ledger_new) in H.
    rewrite account_iq in H; exact H.
  Qed.

  Lemma g_follow_run ops : forall g s0 K n m xs g' a,
    gstate (cmp:=cmp) g s0 K n m -> (forall dg, follow (iemb g dg) (ledger_iq a)) ->
    run (ig_step cmp keep) g ops = Some (xs, g') ->
    forall dg, follow (iemb g' dg)
      (ledger_iq (fold_left (entry tcmp cmp triple_comps r) (set_log tcmp (apply tcmp m s0) ops) a)).
  Proof.
    induction ops as [|o ops IH]; intros g s0 K n m xs g' a H F E dg; cbn [run] in E; [inv E; apply F|].
    destruct (ig_step cmp keep g o) as [[x g1]|] eqn:E1; [|discriminate].
    destruct (run (ig_step cmp keep) g1 ops) as [[ys g2]|] eqn:E2; [|discriminate]; inv E.
    destruct (gstate_step L keep _ _ _ _ _ o H) as (g3 & E3 & H3); rewrite E1 in E3; inv E3.
    cbn [set_log]; rewrite fold_left_app.
    assert (F1 : forall dg, follow (iemb g3 dg) (ledger_iq
      (fold_left (entry tcmp cmp triple_comps r) (set_changes tcmp (apply tcmp m s0) o) a))).
    { intros dg'; destruct H as (dg0 & H).
      destruct (iemb_step L keep g dg0 _ o (is_rep _ _ _ _ _ H)) as (dg1 & Es); rewrite E1 in Es; cbn in Es.
      pose proof (i_follow_set_step _ _ _ _ _ _ _ _ _ H (F dg0) Es) as G.
      rewrite apply_iq, set_changes_iq, account_iq in G; exact G. }
    pose proof (IH _ _ _ _ _ _ _ _ H3 F1 E2 dg) as G.
    rewrite apply_app, (apply_set_changes (triple_cmp_laws cmp L)) in G; exact G.
  Qed.

  Lemma ig_resource_account ops0 ops g :
    ig_reached cmp keep ops0 ops g ->
    ig_contains_resource cmp g r =
      Some (reported (account tcmp cmp triple_comps r (set_log tcmp [] (ops0 ++ ops)))).
  Proof.
    intros H; pose proof (greached L keep _ _ _ H) as (dg & Hs).
    destruct H as (xs0 & b & g0 & xs & Eb & E0 & E).
    destruct (gstart L keep _ _ _ Eb) as (g0' & E0' & H0); rewrite E0 in E0'; inv E0'.
    destruct (run_iq _ _ _ _ _ Eb) as (ys & Ey); rewrite emb_new in Ey.
    destruct (iemb_convert b) as (dg0 & Ec); rewrite E0 in Ec; cbn in Ec.
    pose proof (i_follow_start _ _ _ _ Ey Ec) as F0.
    pose proof (set_log_iq (cmp:=cmp) ops0 []) as El; cbn [map] in El; rewrite El in F0.
    unfold account in F0; change (ledger_new (X:=quad R)) with (ledger_iq ledger_new) in F0.
    rewrite account_iq in F0.
    pose proof (g_follow_run _ _ _ _ _ _ _ _ _ H0 (fun _ => F0) E dg) as F.
    pose proof (i_follow_rep _ _ _ (is_rep _ _ _ _ _ Hs) F) as G.
    rewrite set_log_app; unfold account; rewrite fold_left_app; exact G.
  Qed.
End Proofs.

Section Reports.
  Context {R : Type} {cmp : R -> R -> comparison} (L : ord_laws cmp).
  Notation qcmp := (quad_cmp cmp).
  Notation tcmp := (triple_cmp cmp).

  Lemma report (l : list R) (f : R -> option bool) (rep : R -> bool) :
    (forall r, f r = Some (mem cmp r l)) -> (forall r, f r = Some (rep r)) ->
    (forall r, f r = Some (rep r)) /\ forall r, In r l <-> rep r = true.
  Proof.
    intros H1 H2; split; [exact H2|]; intros r; rewrite <- (mem_true L).
    specialize (H1 r); rewrite H2 in H1; inv H1; reflexivity.
  Qed.

  Lemma bd_resource_report keep ops xs d :
    run (bd_step cmp keep) bd_new ops = Some (xs, d) ->
    let rep r := reported (account qcmp cmp quad_comps r (set_log qcmp [] ops)) in
    exists l, bd_resources_iter d = Some l /\ increasing cmp l /\
      (forall r, bd_contains_resource cmp d r = Some (rep r)) /\
      (forall r, In r l <-> rep r = true).
  Proof.
    intros H rep; destruct (bd_resources_used L keep _ _ _ H) as (l & A & B & C & _).
    exists l; split; [exact A|]; split; [exact B|]; apply report; [exact C|].
    intros r; exact (bd_resource_account L keep r _ _ _ H).
  Qed.

  Lemma bg_resource_report keep ops xs g :
    run (bg_step cmp keep) bg_new ops = Some (xs, g) ->
    let rep r := reported (account tcmp cmp triple_comps r (set_log tcmp [] ops)) in
    exists l, bg_resources_iter g = Some l /\ increasing cmp l /\
      (forall r, bg_contains_resource cmp g r = Some (rep r)) /\
      (forall r, In r l <-> rep r = true).
  Proof.
    intros H rep; destruct (bg_resources_used L keep _ _ _ H) as (l & A & B & C & _).
    exists l; split; [exact A|]; split; [exact B|]; apply report; [exact C|].
    intros r; exact (bg_resource_account L keep r _ _ _ H).
  Qed.

  Lemma id_resource_report keep ops0 ops xs d :
    id_reached cmp keep ops0 ops xs d ->
    let rep r := reported (account qcmp cmp quad_comps r (full_log cmp ops0 ops xs)) in
    exists l, id_resources_iter d = Some l /\ increasing cmp l /\
      (forall r, id_contains_resource cmp d r = Some (rep r)) /\
      (forall r, In r l <-> rep r = true).
  Proof.
    intros H rep; destruct (id_resources_used L keep _ _ _ _ H) as (l & A & B & C & _).
    exists l; split; [exact A|]; split; [exact B|]; apply report; [exact C|].
    intros r; exact (id_resource_account L keep r _ _ _ _ H).
  Qed.

  Lemma ig_resource_report keep ops0 ops g :
    ig_reached cmp keep ops0 ops g ->
    let rep r := reported (account tcmp cmp triple_comps r (set_log tcmp [] (ops0 ++ ops))) in
    exists l, ig_resources_iter g = Some l /\ increasing cmp l /\
      (forall r, ig_contains_resource cmp g r = Some (rep r)) /\
      (forall r, In r l <-> rep r = true).
  Proof.
    intros H rep; destruct (ig_resources_used L keep _ _ _ H) as (l & A & B & C & _).
    exists l; split; [exact A|]; split; [exact B|]; apply report; [exact C|].
    intros r; exact (ig_resource_account L keep r _ _ _ H).
  Qed.

  (** The same changes, the same report. *)
  Lemma same_changes_dataset keep keep' ops1 xs1 b ops0 ops xs d :
    run (bd_step cmp keep) bd_new ops1 = Some (xs1, b) -> id_reached cmp keep' ops0 ops xs d ->
    set_log qcmp [] ops1 = full_log cmp ops0 ops xs ->
    id_resources_iter d = bd_resources_iter b /\
    forall r, id_contains_resource cmp d r = bd_contains_resource cmp b r.
  Proof.
    intros H1 H2 E.
    destruct (bd_resource_report _ _ _ _ H1) as (l1 & -> & S1 & C1 & I1).
    destruct (id_resource_report _ _ _ _ _ H2) as (l2 & -> & S2 & C2 & I2).
    split; [|intros r; now rewrite C1, C2, E]; f_equal.
    apply (ssorted_ext L); [exact S2|exact S1|]; intros r; now rewrite I1, I2, E.
  Qed.

  Lemma same_changes_graph keep keep' ops1 xs1 b ops0 ops g :
    run (bg_step cmp keep) bg_new ops1 = Some (xs1, b) -> ig_reached cmp keep' ops0 ops g ->
    set_log tcmp [] ops1 = set_log tcmp [] (ops0 ++ ops) ->
    ig_resources_iter g = bg_resources_iter b /\
    forall r, ig_contains_resource cmp g r = bg_contains_resource cmp b r.
  Proof.
    intros H1 H2 E.
    destruct (bg_resource_report _ _ _ _ H1) as (l1 & -> & S1 & C1 & I1).
    destruct (ig_resource_report _ _ _ _ H2) as (l2 & -> & S2 & C2 & I2).
    split; [|intros r; now rewrite C1, C2, E]; f_equal.
    apply (ssorted_ext L); [exact S2|exact S1|]; intros r; now rewrite I1, I2, E.
  Qed.
End Reports.
