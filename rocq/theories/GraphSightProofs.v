(** What [remove_graph] removes, for every history. *)
From Coq Require Import List Bool Arith Lia Sorted.
Import ListNotations.
From Verif Require Import Base SlabModel TripleModel SetSpec ContainerSpec
  IndexedSpec ScanSpec Machine BaseProofs PatternProofs BResourceModel BResourceProofs
  BTreeDatasetModel BTreeDatasetProofs BTreeGraphModel BTreeGraphProofs IResourceModel
  IResourceProofs IndexedDatasetModel IndexedDatasetProofs IndexedHistoryProofs
  IndexedConvertProofs IndexedRunProofs ScanProofs LedgerSpec LedgerProofs
  ILedgerProofs SightSpec SightProofs.
Open Scope panic_scope.

Section Graph.
  Context {R : Type} {cmp : R -> R -> comparison} (L : ord_laws cmp).
  Context (keep : bool).
  Notation qcmp := (quad_cmp cmp).
  Notation tcmp := (triple_cmp cmp).
  Let LQ : ord_laws qcmp := quad_cmp_laws cmp L.
  Let LT : ord_laws tcmp := triple_cmp_laws cmp L.

  Lemma id_graph_sight ops0 ops xs d g :
    id_reached cmp keep ops0 ops xs d ->
    let found q := In q (final_set cmp ops0 ops xs) /\ q_g q = Some g /\
      finds cmp g (label qcmp cmp quad_comps keep (full_log cmp ops0 ops xs) q 3 g) = true in
    exists r d', id_remove_graph cmp keep d (Some g) = Some (r, d') /\
      match r with
      | None => forall q, ~ found q
      | Some b => exists ts, bg_iter b = Some ts /\ increasing tcmp ts /\
          forall t, In t ts <-> found (Quad (t_s t) (t_p t) (t_o t) (Some g))
      end.
  Proof.
    intros H found; pose proof (reached_follow L keep _ _ _ _ H) as F.
    destruct (reached_state L keep _ _ _ _ H) as [Hs _].
    pose proof (is_rep _ _ _ _ _ Hs) as Hr; change (id_rep (cmp:=cmp) d (final_set cmp ops0 ops xs)) in Hr.
    pose proof Hr as [Hn (vs & I)].
    set (l := full_log cmp ops0 ops xs) in *.
    pose proof (ii_res _ _ _ I) as Ir; pose proof (iri_idx _ _ _ _ Ir) as Ix.
    (* found quads are those whose slot of the graph is indexed *)
    assert (Fd : forall q, found q <-> exists i x k, sget (id_quads d) i = Some x /\
      i_quad_with_resources (id_resources d) x = Some q /\ q_g x = Some k /\
      ir_val (id_resources d) k = Some g /\ In k (id_ri d)).
    { intros q; unfold found; split.
      - intros (Hq & Hg & Hf); apply (in_sorted_elements (cmp:=qcmp)) in Hq.
        destruct (id_elem_index _ _ _ _ I Hq) as (i & x & Hx & Hxq).
        destruct (iqwr_comp _ _ _ PosG _ Hxq Hg) as (k & Hk1 & Hk2).
        destruct (label_spec L keep d l F i x q PosG k g Hx Hxq Hk1 Hg) as (b & n & El & Hb).
        exists i, x, k; repeat (split; [assumption|]); apply Hb.
        unfold finds in Hf; change 3 with (at_ PosG) in Hf; rewrite El in Hf; cbn in Hf.
        now apply andb_prop in Hf.
      - intros (i & x & k & Hx & Hxq & Hk & Hv & Hin).
        destruct (iqwr_slot _ _ _ PosG k Hxq Hk) as (v & Hv1 & Hv2).
        assert (v = g) as -> by congruence.
        destruct (label_spec L keep d l F i x q PosG k g Hx Hxq Hk Hv1) as (b & n & El & Hb).
        destruct (id_live_value _ _ _ _ _ I Hx) as (q' & Hq' & Hqs).
        assert (q' = q) as -> by congruence.
        split; [now apply (in_sorted_elements (cmp:=qcmp))|]; split; [exact Hv1|].
        unfold finds; change 3 with (at_ PosG); rewrite El; cbn [fst snd].
        rewrite (proj2 Hb Hin), andb_true_r; unfold same; now rewrite (proj2 (ord_eq _ L g g) eq_refl). }
    unfold id_remove_graph.
    destruct (i_index_of_resource_spec L _ _ _ _ g Ir) as (f & -> & Hf); cbn [bind].
    destruct f as [k0|].
    2:{ exists None, d; split; [reflexivity|]; intros q Hq; apply Fd in Hq as (i & x & k & _ & _ & _ & Hv & Hin).
        apply Hf; destruct Ix as [Em _].
        destruct (mapM_in_inv _ _ _ _ Em Hin) as (y & Hy & Hyv); congruence. }
    destruct Hf as (Hk0 & Vk0 & _).
    assert (Fd' : forall q, found q <-> exists i x, sget (id_quads d) i = Some x /\
      i_quad_with_resources (id_resources d) x = Some q /\ q_g x = Some k0).
    { intros q; rewrite Fd; split.
      - intros (i & x & k & Hx & Hxq & Hk & Hv & Hin).
        rewrite (indexes_inj L _ _ _ _ _ _ Ix Hin Hk0 Hv Vk0) in Hk; eauto.
      - intros (i & x & Hx & Hxq & Hk); exists i, x, k0; auto. }
    destruct (ns_mem k0 (id_ng d)) eqn:Em.
    2:{ exists None, d; split; [reflexivity|]; intros q Hq; apply Fd' in Hq as (i & x & Hx & _ & Hk).
        assert (Hkn : In k0 (id_ng d)).
        { destruct (ii_ng _ _ _ I) as [_ Hng]; apply (Hng k0 i); exists x; auto. }
        apply (ns_mem_true k0 (id_ng d)) in Hkn; [congruence|apply (ii_ng _ _ _ I)]. }
    unfold ir_val in Vk0; destruct (sget (id_resources d) k0) as [y|] eqn:Ey; [|discriminate]; cbn [bind].
    destruct (iri_use _ _ _ _ Ir _ _ Ey) as [Hu _]; destruct (Hu PosG) as [Hsd Hin]; cbn [ir_at] in Hsd, Hin.
    destruct (istate_remove_all L keep (ir_g y) d _ _ _ _ bg_new [] Hs) as (d' & b & qs & -> & Eqs & _ & Hb).
    { now apply (ssorted_nodup nat_compare_laws). }
    { intros i Hi; apply Hin in Hi as (x & Hx & _); congruence. }
    { apply bg_rep_new. }
    cbn [bind]; exists (Some b), d'; split; [reflexivity|].
    assert (Gqs : forall q, In q qs <-> found q).
    { intros q; rewrite (mapM_in _ _ _ _ Eqs), Fd'; split.
      - intros (i & Hi & Hq); apply Hin in Hi as (x & Hx & Hk).
        unfold i_quad_at in Hq; rewrite Hx in Hq; exists i, x; auto.
      - intros (i & x & Hx & Hxq & Hk); exists i; split; [apply Hin; exists x; auto|].
        unfold i_quad_at; now rewrite Hx. }
    exists (sorted_elements tcmp (fold_left (fun t x => add tcmp x t) (map (fun q => fst (into_triple q)) qs) [])).
    split; [exact (bg_iter_rep b _ Hb)|].
    split; [apply (sorted_elements_sorted LT); apply Hb|].
    assert (Fold : forall l s t, In t (fold_left (fun s x => add tcmp x s) l s) <-> In t s \/ In t l).
    { induction l0 as [|x l0 IH]; intros s' t; cbn; [tauto|].
      rewrite IH, (in_add LT); intuition congruence. }
    intros t; rewrite (in_sorted_elements (cmp:=tcmp)), Fold, in_map_iff; split.
    - intros [[]|(q & <- & Hq)]; apply Gqs in Hq; destruct Hq as (A & B & C); destruct q as [a b0 c h]; cbn in *; subst h.
      split; auto.
    - intros Hq; right; apply Gqs in Hq; eexists; split; [|exact Hq]; destruct t; reflexivity.
  Qed.
End Graph.
