(** Indexed containers made from BTree containers whose comparisons have panicked. *)
From Coq Require Import List Bool Arith Lia Permutation Sorted.
Import ListNotations.
From Verif Require Import Base SlabModel TripleModel SetSpec BaseProofs BResourceModel BResourceProofs
  BTreeDatasetModel BTreeDatasetProofs BTreeGraphModel BTreeGraphProofs IResourceModel IResourceProofs
  IndexedDatasetModel IndexedDatasetProofs IndexedGraphModel IndexedGraphProofs IndexedConvertProofs
  CrashModel CrashSpec CrashProofs BCrashProofs BGCrashProofs ICrashModel ICrashProofs IGCrashProofs.

Section Proofs.
  Context {R : Type} {cmp : R -> R -> comparison} (L : ord_laws cmp).
  Notation qcmp := (quad_cmp cmp).
  Let LQ : ord_laws qcmp := quad_cmp_laws cmp L.

  (** Without loss all the quads of the slab are in the index. *)
  Lemma no_loss (b : @bdataset R) ks i :
    wd_inv (cmp:=cmp) b ks 0 -> sget (bd_quads b) i <> None -> In i (bd_qi b).
  Proof.
    intros [I1 I2 I3 I4] H.
    destruct (sget (bd_quads b) i) as [x|] eqn:E; [|congruence].
    assert (ND : NoDup (bd_qi b)) by (eapply (indexes_nodup LQ), I2).
    assert (Le : length (map fst (spairs (bd_quads b))) <= length (bd_qi b)).
    { rewrite map_length; fold (slen (bd_quads b)); rewrite I4; destruct I2 as [HM _].
      apply mapM_length in HM; lia. }
    apply (NoDup_length_incl ND Le).
    - intros j Hj; destruct I2 as [HM _]; destruct (mapM_in_inv _ _ _ _ HM Hj) as (q & Hq & _).
      unfold b_quad_at in Hq; destruct (sget (bd_quads b) j) as [y|] eqn:Ey; [|discriminate].
      apply in_map_iff; exists (j, y); split; [reflexivity|now apply spairs_in].
    - apply in_map_iff; exists (i, x); split; [reflexivity|now apply spairs_in].
  Qed.

  Lemma convert_weak (b : @bdataset R) s lost (F : Prop) :
    wd_rep (cmp:=cmp) b s lost -> (F -> lost = []) ->
    exists d, id_from_non_indexed b = Some d /\ wid_rep (cmp:=cmp) F d s lost.
  Proof.
    intros [ND Wb] HF.
    assert (Live : F -> forall i, sget (bd_quads b) i <> None -> In i (bd_qi b)).
    { intros f i; rewrite (HF f) in Wb; exact (no_loss b _ i Wb). }
    destruct Wb as [I1 I2 I3 I4]; unfold id_from_non_indexed.
    set (f := fun r : bresource R => IRes (br_value r) [] [] [] []).
    set (rs := scollect _).
    assert (C : swf rs /\ forall k x, sget rs k = Some x <->
              In (k, x) (map (fun '(i, r) => (i, f r)) (spairs (bd_resources b)))).
    { apply scollect_spec; rewrite map_fst_map; apply spairs_keys_sorted. }
    destruct C as [W C].
    destruct (id_index_spec b (bd_qi b) [] (IDataset rs (bd_quads b) (bd_ri b) (bd_qi b) [] [] [] [] []))
      as (d & E & P).
    { split; cbn; auto.
      - split; [exact W|]; intros r.
        destruct (sget (bd_resources b) r) as [y|] eqn:Ey.
        + assert (sget rs r = Some (f y)) as ->.
          { apply C, in_map_iff; exists (r, y); split; [reflexivity|now apply spairs_in]. }
          split; [reflexivity|]; intros []; cbn; (split; [constructor|intuition]).
        + destruct (sget rs r) as [x|] eqn:Ex; [|exact I].
          apply C, in_map_iff in Ex as ([k y] & Hk & Hin); inv Hk.
          apply spairs_in in Hin; congruence.
      - split; [apply SSorted_nil|]; intros k; split; [intros []|intros (i & [] & _)].
      - split; [apply SSorted_nil|]; intros k; split; [intros []|intros (i & [] & _)].
      - split; [apply SSorted_nil|]; intros k; split; [intros []|intros (i & [] & _)].
      - split; [apply SSorted_nil|]; intros k; cbn; tauto.
      - split; [apply SSorted_nil|]; intros k; split; [intros []|intros (i & [] & _)]. }
    { intros i Hi; destruct I2 as [HM _]; destruct (mapM_in_inv _ _ _ _ HM Hi) as (q & Hq & _); eauto. }
    cbn in P; exists d; split; [exact E|]; split; [exact ND|].
    destruct P as [P1 P2 P3 P4 P5 P6 P7 P8 P9].
    assert (HV : forall r, ir_val (id_resources d) r = br_val (bd_resources b) r)
      by (intros; eapply table_val; eauto).
    assert (HQ : forall i, i_quad_at (id_resources d) (id_quads d) i =
                           b_quad_at (bd_resources b) (bd_quads b) i).
    { intros i; unfold i_quad_at, b_quad_at; rewrite P1.
      destruct (sget (bd_quads b) i); [|reflexivity]; cbn.
      unfold i_quad_with_resources, b_quad_with_resources; rewrite !HV.
      destruct (q_g q); [|reflexivity]; now rewrite HV. }
    assert (HS : forall p l, set_done (bd_quads b) p l (bd_qi b) -> spo_ok F (bd_quads b) p l).
    { intros p l [A B]; split; [exact A|]; intros _ k Hk; apply B in Hk as (i & _ & Hi); eauto. }
    split; rewrite ?P1, ?P2, ?P3; auto.
    - eapply indexes_ext; [|exact I2]; intros; rewrite <- HQ, P1; reflexivity.
    - destruct P4 as [PW PT]; split; [exact PW| | |].
      + intros r x Hx p; specialize (PT r); rewrite Hx in PT.
        destruct (sget (bd_resources b) r); [|contradiction]; apply PT.
      + intros p r i [Hu Hi].
        assert (Hin : In i (bd_qi b)).
        { destruct Hi as [f0|Hi]; [|exact Hi]; apply (Live f0).
          destruct Hu as (x & Hx & _); congruence. }
        assert (Hv : sget (bd_resources b) r <> None).
        { destruct I2 as [HM _]; destruct (mapM_in_inv _ _ _ _ HM Hin) as (q & Hq & _).
          destruct Hu as (x & Hx & Hs); unfold b_quad_at in Hq; rewrite Hx in Hq; cbn in Hq.
          apply qwr_some in Hq as (Vs & Vp & Vo & Vg).
          assert (Lv : forall k v, br_val (bd_resources b) k = Some v -> sget (bd_resources b) k <> None).
          { intros k v; unfold br_val; destruct (sget (bd_resources b) k); discriminate. }
          destruct p; cbn in Hs.
          - inv Hs; eauto.
          - inv Hs; eauto.
          - inv Hs; eauto.
          - rewrite Hs in Vg; destruct (q_g q); [eauto|contradiction]. }
        specialize (PT r); destruct (sget (bd_resources b) r) as [y|]; [|congruence].
        destruct (sget (id_resources d) r) as [x|]; [|contradiction].
        exists x; split; [reflexivity|]; apply PT; auto.
      + destruct (wi_idx _ _ _ I3) as (vs & Hvs); exists vs; eapply indexes_ext; [|exact Hvs].
        intros; apply HV.
    - intros f0; rewrite (HF f0); exists []; rewrite app_nil_r; split; [|split; [|reflexivity]].
      + eapply (indexes_nodup LQ), I2.
      + intros i; split; [|exact (Live f0 i)].
        intros Hi; destruct I2 as [HM _]; destruct (mapM_in_inv _ _ _ _ HM Hi) as (q & Hq & _).
        unfold b_quad_at in Hq; destruct (sget (bd_quads b) i); discriminate.
  Qed.

  Lemma convert_weak_graph (b : @bgraph R) s lost (F : Prop) :
    wg_rep (cmp:=cmp) b s lost -> (F -> lost = []) ->
    exists g, ig_from_non_indexed b = Some g /\ wig_rep (cmp:=cmp) F g s lost.
  Proof.
    intros W HF; destruct (convert_weak (emb b) _ _ F W (fun f => f_equal (map iq) (HF f))) as (d & E & W').
    destruct (iemb_convert b) as (dg & Ed); rewrite E in Ed.
    destruct (ig_from_non_indexed b) as [g|]; [|discriminate]; inv Ed.
    exists g; split; [reflexivity|]; exists dg; exact W'.
  Qed.
End Proofs.
