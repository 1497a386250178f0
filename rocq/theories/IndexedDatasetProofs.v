(** Invariant of [IndexedBTreeDataset] and its elementary transitions. *)
From Coq Require Import List Bool Arith Lia Permutation Sorted.
Import ListNotations.
From Verif Require Import Base SlabModel TripleModel TriplePatternModel QuadPatternModel SetSpec
  ContainerSpec IndexedSpec Machine BaseProofs BResourceModel BResourceProofs BTreeDatasetModel
  BTreeDatasetProofs BTreeGraphModel IResourceModel IResourceProofs IndexedDatasetModel.
Open Scope panic_scope.

Definition slot (p : pos) (x : quad nat) : option nat :=
  match p with
  | PosS => Some (q_s x) | PosP => Some (q_p x) | PosO => Some (q_o x) | PosG => q_g x
  end.
Definition uses (qs : slab (quad nat)) (p : pos) (r i : nat) : Prop :=
  exists x, sget qs i = Some x /\ slot p x = Some r.

(** The component of a quad at a position. *)
Definition comp {R} (p : pos) (x : quad R) : option R :=
  match p with
  | PosS => Some (q_s x) | PosP => Some (q_p x) | PosO => Some (q_o x) | PosG => q_g x
  end.

Section Proofs.
  Context {R : Type} {cmp : R -> R -> comparison} (L : ord_laws cmp).
  Context (keep : bool).
  Notation qcmp := (quad_cmp cmp).
  Let LQ : ord_laws qcmp := quad_cmp_laws cmp L.

  Record id_inv (d : @idataset R) (ks : list (quad R)) (vs : list R) : Prop := {
    ii_wf : swf (id_quads d);
    ii_live : forall i, In i (id_qi d) <-> sget (id_quads d) i <> None;
    ii_idx : indexes (cmpk:=qcmp) (i_quad_at (id_resources d) (id_quads d)) (id_qi d) ks;
    ii_res : irinv (cmp:=cmp) (id_resources d) (id_ri d) vs (uses (id_quads d));
    ii_s : nsorted (id_s d) /\ forall k, In k (id_s d) -> exists i, uses (id_quads d) PosS k i;
    ii_p : nsorted (id_p d) /\ forall k, In k (id_p d) -> exists i, uses (id_quads d) PosP k i;
    ii_o : nsorted (id_o d) /\ forall k, In k (id_o d) -> exists i, uses (id_quads d) PosO k i;
    ii_dg : nsorted (id_dg d) /\
      forall i, In i (id_dg d) <-> exists x, sget (id_quads d) i = Some x /\ q_g x = None;
    ii_ng : nsorted (id_ng d) /\ forall k i, uses (id_quads d) PosG k i -> In k (id_ng d)
  }.

  Definition id_exact (W : R -> Prop) (d : @idataset R) : Prop := irexact W (id_resources d) (id_ri d).

  Lemma sget_new {T} i : sget (@slab_new T) i = None.
  Proof. destruct i; reflexivity. Qed.

  Lemma id_inv_new : id_inv id_new [] [].
  Proof.
    split; cbn.
    - apply swf_new.
    - intros i; rewrite sget_new; intuition.
    - repeat constructor.
    - apply irinv_new; intros p r i (x & Hx & _); now rewrite sget_new in Hx.
    - split; [constructor|tauto].
    - split; [constructor|tauto].
    - split; [constructor|tauto].
    - split; [constructor|]; intros i; cbn; split; [tauto|].
      intros (x & Hx & _); now rewrite sget_new in Hx.
    - split; [constructor|]; intros k i (x & Hx & _); now rewrite sget_new in Hx.
  Qed.

  Lemma iqwr_some rs (q : quad nat) x :
    i_quad_with_resources (R:=R) rs q = Some x <->
    ir_val rs (q_s q) = Some (q_s x) /\ ir_val rs (q_p q) = Some (q_p x) /\
    ir_val rs (q_o q) = Some (q_o x) /\
    match q_g q, q_g x with
    | Some g, Some h => ir_val rs g = Some h
    | None, None => True
    | _, _ => False
    end.
  Proof.
    unfold i_quad_with_resources; destruct x as [s p o g]; cbn.
    destruct (ir_val rs (q_s q)); cbn; [|split; [discriminate|intros [? _]; discriminate]].
    destruct (ir_val rs (q_p q)); cbn; [|split; [discriminate|intros (_ & ? & _); discriminate]].
    destruct (ir_val rs (q_o q)); cbn; [|split; [discriminate|intros (_ & _ & ? & _); discriminate]].
    destruct (q_g q) as [j|]; cbn.
    - destruct (ir_val rs j); cbn; destruct g; split; intros H;
        try discriminate; try (inv H; auto; fail);
        try (destruct H as (H1 & H2 & H3 & H4); cbn in H4; try contradiction; inv H1; inv H2; inv H3; try inv H4; reflexivity).
    - destruct g; split; intros H;
        try discriminate; try (inv H; auto; fail);
        try (destruct H as (H1 & H2 & H3 & H4); cbn in H4; try contradiction; inv H1; inv H2; inv H3; try inv H4; reflexivity).
  Qed.

  Lemma iqwr_slot rs x q p k :
    i_quad_with_resources (R:=R) rs x = Some q -> slot p x = Some k ->
    exists v, comp p q = Some v /\ ir_val rs k = Some v.
  Proof.
    rewrite iqwr_some; intros (A & B & C & D) H.
    destruct p; cbn in *; [inv H; eauto|inv H; eauto|inv H; eauto|].
    rewrite H in D; destruct (q_g q); [eauto|contradiction].
  Qed.

  Lemma iqwr_comp rs x q p v :
    i_quad_with_resources (R:=R) rs x = Some q -> comp p q = Some v ->
    exists k, slot p x = Some k /\ ir_val rs k = Some v.
  Proof.
    rewrite iqwr_some; intros (A & B & C & D) H.
    destruct p; cbn in *; [inv H; eauto|inv H; eauto|inv H; eauto|].
    rewrite H in D; destruct (q_g x); [eauto|contradiction].
  Qed.

  Lemma iqwr_mono rs rs' q x :
    (forall j w, ir_val rs j = Some w -> ir_val rs' j = Some w) ->
    i_quad_with_resources (R:=R) rs q = Some x -> i_quad_with_resources rs' q = Some x.
  Proof.
    intros H; rewrite !iqwr_some; intros (A & B & C & D).
    repeat split; auto; destruct (q_g q), (q_g x); auto.
  Qed.

  Lemma id_contains_spec d ks vs q :
    id_inv d ks vs -> id_contains cmp d q = Some (mem qcmp q ks).
  Proof.
    intros I; pose proof (ii_idx _ _ _ I) as H; unfold id_contains, id_index_of_quad.
    destruct (bt_get_spec LQ _ _ _ q H) as (r & Hr & Hs).
    change (i_quad_cmp cmp (id_resources d) (id_quads d))
      with (kcmp (cmpk:=qcmp) (i_quad_at (id_resources d) (id_quads d))).
    rewrite Hr; cbn; f_equal; destruct r; cbn; symmetry.
    - apply (mem_true LQ); tauto.
    - now apply (mem_false LQ).
  Qed.

  (** What an insertion does to the parts of the state. *)
  Definition ins_desc (d : @idataset R) (q : quad R) (d' : @idataset R) (x : quad nat) : Prop :=
    id_quads d' = sinsert (id_quads d) x /\
    i_quad_with_resources (id_resources d') x = Some q /\
    (forall j w, ir_val (id_resources d) j = Some w -> ir_val (id_resources d') j = Some w) /\
    id_s d' = ns_insert (q_s x) (id_s d) /\
    id_p d' = ns_insert (q_p x) (id_p d) /\
    id_o d' = ns_insert (q_o x) (id_o d) /\
    id_ng d' = match q_g x with Some g => ns_insert g (id_ng d) | None => id_ng d end.

  Lemma id_insert_spec d ks vs q :
    id_inv d ks vs -> ~ In q ks ->
    exists d' vs' x, id_insert cmp keep d q = Some (true, d') /\
      id_inv d' (place qcmp q ks) vs' /\
      ins_desc d q d' x /\
      (forall w, In w vs' <-> In w vs \/ In w (quad_comps q)) /\
      (forall W, id_exact W d -> norepeat W vs q -> id_exact W d').
  Proof.
    intros I Hq; unfold id_insert; rewrite (id_contains_spec _ _ _ _ I); cbn.
    assert (mem qcmp q ks = false) as -> by now apply (mem_false LQ).
    destruct I as [I1 I2 I3 I4 Is Ip Io Id In_].
    set (i := vacant_key (id_quads d)).
    destruct (i_index_of_resource_spec L _ _ _ _ (q_s q) I4) as (fs & Efs & Hfs); rewrite Efs; cbn.
    destruct (i_index_of_resource_spec L _ _ _ _ (q_p q) I4) as (fp & Efp & Hfp); rewrite Efp; cbn.
    destruct (i_index_of_resource_spec L _ _ _ _ (q_o q) I4) as (fo & Efo & Hfo); rewrite Efo; cbn.
    (* subject *)
    destruct (i_acquire_spec L keep _ _ _ _ PosS i (q_s q) fs I4)
      as (s_i & rs1 & ri1 & vs1 & E1 & J1 & V1 & M1 & W1 & X1).
    { destruct fs; tauto. }
    (* predicate *)
    destruct (i_acquire_spec L keep _ _ _ _ PosP i (q_p q) fp J1)
      as (p_i & rs2 & ri2 & vs2 & E2 & J2 & V2 & M2 & W2 & X2).
    { destruct fp; [|trivial]; rewrite W1; intuition. }
    (* object *)
    destruct (i_acquire_spec L keep _ _ _ _ PosO i (q_o q) fo J2)
      as (o_i & rs3 & ri3 & vs3 & E3 & J3 & V3 & M3 & W3 & X3).
    { destruct fo; [|trivial]; rewrite W2, W1; intuition. }
    (* graph *)
    assert (exists fg g_i rs4 ri4 vs4,
      match q_g q with
      | Some g => f <- i_index_of_resource cmp (id_resources d) (id_ri d) g ;; Some (Some (g, f))
      | None => Some None
      end = Some fg /\
      match fg with
      | Some (g, f) =>
          '(g_i, rs, ri) <- i_acquire cmp keep rs3 ri3 PosG i g f ;; Some (Some g_i, rs, ri)
      | None => Some (None, rs3, ri3)
      end = Some (g_i, rs4, ri4) /\
      irinv (cmp:=cmp) rs4 ri4 vs4 (fun p r j => uses (id_quads d) p r j \/
                         (slot p (Quad s_i p_i o_i g_i) = Some r /\ j = i)) /\
      match g_i, q_g q with
      | Some g, Some h => ir_val rs4 g = Some h
      | None, None => True
      | _, _ => False
      end /\
      (forall j w, ir_val rs3 j = Some w -> ir_val rs4 j = Some w) /\
      (forall w, In w vs4 <-> In w vs3 \/ match q_g q with Some g => w = g | None => False end) /\
      (forall W, irexact W rs3 ri3 -> (forall g, q_g q = Some g -> W g -> In g vs \/ ~ In g vs3) ->
         irexact W rs4 ri4))
      as (fg & g_i & rs4 & ri4 & vs4 & -> & E4 & J4 & V4 & M4 & W4 & X4).
    { destruct (q_g q) as [g|].
      - destruct (i_index_of_resource_spec L _ _ _ _ g I4) as (f & -> & Hf); cbn.
        destruct (i_acquire_spec L keep _ _ _ _ PosG i g f J3)
          as (g_i & rs4 & ri4 & vs4 & E & J4 & V4 & M4 & W4 & X4).
        { destruct f; [|trivial]; rewrite W3, W2, W1; intuition. }
        exists (Some (g, f)), (Some g_i), rs4, ri4, vs4; rewrite E; cbn.
        split; [reflexivity|]; split; [reflexivity|]; split.
        { eapply irinv_ext; [|exact J4]; intros [] r j; cbn; intuition congruence. }
        repeat (split; [first [reflexivity|assumption]|]); split; [|].
        + intros w; rewrite W4; tauto.
        + intros W H1 H2; apply X4; [assumption|]; intros Hw ->.
          destruct (H2 g eq_refl Hw); tauto.
      - exists None, None, rs3, ri3, vs3; cbn.
        split; [reflexivity|]; split; [reflexivity|]; split.
        + eapply irinv_ext; [|exact J3]; intros [] r j; cbn; intuition congruence.
        + split; [trivial|]; split; [auto|]; split; [tauto|auto]. }
    cbn; rewrite E1; cbn; rewrite E2; cbn; rewrite E3; cbn; rewrite E4; cbn.
    set (x := Quad s_i p_i o_i g_i) in *.
    set (qs := sinsert (id_quads d) x).
    assert (Gq : forall j, sget qs j = if j =? i then Some x else sget (id_quads d) j)
      by (intros; now apply sget_sinsert).
    assert (Hi : sget (id_quads d) i = None) by now apply sget_vacant.
    assert (Hni : ~ In i (id_qi d)) by (rewrite I2; congruence).
    assert (MM : forall j w, ir_val (id_resources d) j = Some w -> ir_val rs4 j = Some w) by auto.
    assert (Hx : i_quad_with_resources rs4 x = Some q).
    { apply iqwr_some; cbn; repeat split; auto. }
    assert (Vi : i_quad_at rs4 qs i = Some q).
    { unfold i_quad_at; rewrite Gq, Nat.eqb_refl; exact Hx. }
    assert (Hidx : indexes (cmpk:=qcmp) (i_quad_at rs4 qs) (id_qi d) ks).
    { eapply indexes_ext; [|exact I3]; intros j Hj.
      destruct I3 as [HM _]; destruct (mapM_in_inv _ _ _ _ HM Hj) as (y & Hy & _).
      rewrite Hy; unfold i_quad_at in *; rewrite Gq.
      destruct (j =? i) eqn:Ej; [apply Nat.eqb_eq in Ej; subst; contradiction|].
      destruct (sget (id_quads d) j); [|discriminate]; cbn in *; eapply iqwr_mono; eauto. }
    destruct (bt_insert_new LQ _ keep _ _ i q Hidx Vi Hq) as (qi & Eqi & HP & Hidx').
    change (i_quad_index_cmp cmp rs4 qs) with (icmp (cmpk:=qcmp) (i_quad_at rs4 qs)).
    rewrite Eqi; cbn.
    assert (Hu : forall p r j, uses qs p r j <->
              uses (id_quads d) p r j \/ (slot p x = Some r /\ j = i)).
    { intros p r j; unfold uses; rewrite Gq; destruct (j =? i) eqn:Ej.
      - apply Nat.eqb_eq in Ej; subst j; rewrite Hi; split.
        + intros (y & Hy & Hs); inv Hy; auto.
        + intros [(y & Hy & _)|[Hs _]]; [discriminate|eauto].
      - apply Nat.eqb_neq in Ej; split; [auto|intros [?|[_ ?]]; [assumption|congruence]]. }
    assert (HS : forall p l k,
              slot p x = Some k ->
              (nsorted l /\ forall k, In k l -> exists i, uses (id_quads d) p k i) ->
              nsorted (ns_insert k l) /\ forall k', In k' (ns_insert k l) -> exists i, uses qs p k' i).
    { intros p l k Hk [Hl1 Hl2]; split; [now apply ns_insert_sorted|].
      intros k' Hk'; apply in_ns_insert in Hk' as [->|Hk'].
      - exists i; apply Hu; auto.
      - destruct (Hl2 _ Hk') as (j & Hj); exists j; apply Hu; auto. }
    eexists _, vs4, x; split; [reflexivity|]; split; [split; cbn|split; [|split]].
    - now apply swf_sinsert.
    - intros j; fold qs; rewrite Gq; split.
      + intros Hj; apply (Permutation_in _ HP) in Hj; cbn in Hj.
        destruct (j =? i) eqn:Ej; [discriminate|]; apply Nat.eqb_neq in Ej.
        apply I2; destruct Hj; congruence.
      + intros Hj; apply (Permutation_in _ (Permutation_sym HP)); cbn.
        destruct (j =? i) eqn:Ej; [left; symmetry; now apply Nat.eqb_eq|right; now apply I2].
    - exact Hidx'.
    - eapply irinv_ext; [|exact J4]; intros; symmetry; apply Hu.
    - now apply HS.
    - now apply HS.
    - now apply HS.
    - fold qs.
      assert (D : forall j, (exists y, sget qs j = Some y /\ q_g y = None) <->
                (exists y, sget (id_quads d) j = Some y /\ q_g y = None) \/ (g_i = None /\ j = i)).
      { intros j; rewrite Gq; destruct (j =? i) eqn:Ej.
        - apply Nat.eqb_eq in Ej; subst j; rewrite Hi; split.
          + intros (y & Hy & Hg); inv Hy; auto.
          + intros [(y & Hy & _)|[Hs _]]; [discriminate|exists x; auto].
        - apply Nat.eqb_neq in Ej; split; [auto|intros [?|[_ ?]]; [assumption|congruence]]. }
      destruct Id as [Id1 Id2]; destruct g_i as [g|].
      + split; [assumption|]; intros j; rewrite D, Id2; intuition congruence.
      + split; [now apply ns_insert_sorted|]; intros j; rewrite D, in_ns_insert, Id2; intuition.
    - destruct In_ as [In1 In2]; split; [destruct g_i; [now apply ns_insert_sorted|assumption]|].
      intros k j; fold qs; rewrite Hu; cbn; intros [H|[-> ->]].
      + apply In2 in H; destruct g_i; [apply in_ns_insert; auto|assumption].
      + apply in_ns_insert; auto.
    - repeat split; cbn; auto.
    - intros w; rewrite W4, W3, W2, W1; unfold quad_comps; cbn.
      destruct (q_g q); cbn; intuition congruence.
    - intros W Hex Hn; unfold id_exact; cbn.
      assert (HS' : fs = None -> ~ In (q_s q) vs) by (intros ->; exact Hfs).
      assert (Old : forall a b w, W w -> a < b -> nth_error (quad_comps q) a = Some w ->
                nth_error (quad_comps q) b = Some w -> In w vs) by exact Hn.
      assert (P1 : W (q_p q) -> fp = None -> ~ In (q_p q) vs1).
      { intros Hw -> Hin; apply Hfp; apply W1 in Hin as [E|]; [|assumption].
        apply (Old 0 1); auto; cbn; congruence. }
      assert (P2 : W (q_o q) -> fo = None -> ~ In (q_o q) vs2).
      { intros Hw -> Hin; apply Hfo; apply W2 in Hin as [E|Hin].
        - apply (Old 1 2); auto; cbn; congruence.
        - apply W1 in Hin as [E|]; [|assumption]; apply (Old 0 2); auto; cbn; congruence. }
      assert (P3 : forall g, q_g q = Some g -> W g -> In g vs \/ ~ In g vs3).
      { intros g Hg Hw; destruct (in_dec (ord_dec L) g vs) as [|Hp]; [auto|right]; intros Hin; apply Hp.
        assert (N3 : nth_error (quad_comps q) 3 = Some g) by (unfold quad_comps; now rewrite Hg).
        apply W3 in Hin as [E|Hin]; [apply (Old 2 3); auto; cbn; congruence|].
        apply W2 in Hin as [E|Hin]; [apply (Old 1 3); auto; cbn; congruence|].
        apply W1 in Hin as [E|Hin]; [apply (Old 0 3); auto; cbn; congruence|assumption]. }
      apply X4; [|assumption].
      apply X3; [apply X2; [apply X1|]|]; auto.
  Qed.

  (** From [rs] to [rs'], some slots are freed and their values forgotten. *)
  Definition drops (rs rs' : slab (iresource R)) (vs vs' : list R) : Prop :=
    (forall j w, ir_val rs' j = Some w -> ir_val rs j = Some w) /\
    (forall w, In w vs' <-> In w vs /\ forall j, ir_val rs j = Some w -> ir_val rs' j <> None).

  Lemma drops_trans rs rs' rs2 vs vs' vs2 :
    drops rs rs' vs vs' -> drops rs' rs2 vs' vs2 -> drops rs rs2 vs vs2.
  Proof.
    intros [A B] [C D]; split; [auto|]; intros w; rewrite D, B; split.
    - intros [[H1 H2] H3]; split; [exact H1|]; intros j Hj.
      destruct (ir_val rs' j) as [w'|] eqn:E; [|exfalso; exact (H2 _ Hj E)].
      apply H3; rewrite E; apply A in E; congruence.
    - intros [H1 H2]; split; [split; [exact H1|]|].
      + intros j Hj E; destruct (ir_val rs2 j) as [w'|] eqn:E2; [apply C in E2; congruence|].
        exact (H2 _ Hj E2).
      + intros j Hj; apply H2; auto.
  Qed.

  (** What a removal does to the parts of the state. *)
  Definition rem_desc (d : @idataset R) (i : nat) (x : quad nat) (d' : @idataset R) : Prop :=
    sremove (id_quads d) i = Some (x, id_quads d') /\
    (forall j w, ir_val (id_resources d') j = Some w -> ir_val (id_resources d) j = Some w) /\
    id_s d' = ns_remove (q_s x) (id_s d) /\
    id_p d' = ns_remove (q_p x) (id_p d) /\
    id_o d' = ns_remove (q_o x) (id_o d) /\
    match q_g x with
    | Some g => (sget (id_resources d') g = None /\ id_ng d' = ns_remove g (id_ng d)) \/
                (sget (id_resources d') g <> None /\ id_ng d' = id_ng d)
    | None => id_ng d' = id_ng d
    end.

  Lemma id_remove_by_index_spec d ks vs i q :
    id_inv d ks vs -> i_quad_at (id_resources d) (id_quads d) i = Some q ->
    exists d' vs' x, id_remove_by_index cmp d i true = Some d' /\
      id_inv d' (del qcmp q ks) vs' /\
      rem_desc d i x d' /\
      (forall w, In w vs' <-> In w vs /\ forall j, ir_val (id_resources d) j = Some w ->
                                                 ir_val (id_resources d') j <> None) /\
      (forall W, id_exact W d -> id_exact W d').
  Proof.
    intros [I1 I2 I3 I4 Is Ip Io Id In_] Hv; unfold id_remove_by_index.
    change (i_quad_index_cmp cmp (id_resources d) (id_quads d))
      with (icmp (cmpk:=qcmp) (i_quad_at (id_resources d) (id_quads d))).
    rewrite (bt_remove_icmp qcmp _ i q _ Hv).
    destruct (bt_remove_spec LQ _ _ _ q I3) as (r & qi & E & I3' & Hr).
    rewrite E; cbn.
    assert (Hlive : In i (id_qi d)).
    { apply I2; unfold i_quad_at in Hv; destruct (sget (id_quads d) i); discriminate. }
    assert (Hin : In q ks).
    { destruct I3 as [HM _]; destruct (mapM_in_inv _ _ _ _ HM Hlive) as (y & Hy & Hin); congruence. }
    destruct r as [i'|]; [|destruct Hr; contradiction].
    destruct Hr as (Hv' & _ & HP).
    assert (i' = i) as ->.
    { eapply (indexes_inj LQ _ _ _ _ _ _ I3); eauto.
      eapply Permutation_in; [symmetry; exact HP|now left]. }
    clear Hv'; pose proof Hv as Hv0.
    unfold i_quad_at in Hv; destruct (sget (id_quads d) i) as [x|] eqn:Ex; [|discriminate].
    cbn in Hv; destruct (sremove_some _ _ _ Ex) as (qs & Eqs); rewrite Eqs; cbn.
    assert (Gq : forall j, sget qs j = if j =? i then None else sget (id_quads d) j)
      by (intros j; apply (sget_sremove _ _ _ _ _ Eqs)).
    assert (ND : NoDup (i :: qi)).
    { apply (Permutation_NoDup HP), (indexes_nodup LQ _ _ _ I3). }
    assert (Hni : ~ In i qi) by now inv ND.
    assert (Hu : forall p r j, uses qs p r j <-> uses (id_quads d) p r j /\ j <> i).
    { intros p r j; unfold uses; rewrite Gq; destruct (j =? i) eqn:Ej.
      - apply Nat.eqb_eq in Ej; subst; split; [intros (? & ? & _); discriminate|tauto].
      - apply Nat.eqb_neq in Ej; tauto. }
    assert (Hxu : forall p r, uses (id_quads d) p r i <-> slot p x = Some r).
    { intros p r; split; [intros (y & Hy & Hs); congruence|intros Hs; exists x; auto]. }
    apply iqwr_some in Hv as (Vs & Vp & Vo & Vg).
    (* subject *)
    destruct (i_release_spec L (i_resource_index_cmp cmp) (q_s x) _ _ _ _ PosS i (q_s x) (q_s q) I4)
      as (rs1 & ri1 & vs1 & d1 & E1 & J1 & V1 & S1 & X1 & D1); [exact Vs|apply ifinds_index|].
    (* predicate *)
    assert (Vp1 : ir_val rs1 (q_p x) = Some (q_p q)).
    { destruct (irinv_live _ _ _ _ PosP (q_p x) i J1) as (v & Hvv).
      { cbn; split; [now apply Hxu|intros [? _]; discriminate]. }
      rewrite Hvv; apply V1 in Hvv; congruence. }
    destruct (i_release_spec L (i_resource_index_cmp cmp) (q_p x) _ _ _ _ PosP i (q_p x) (q_p q) J1)
      as (rs2 & ri2 & vs2 & d2 & E2 & J2 & V2 & S2 & X2 & D2); [exact Vp1|apply ifinds_index|].
    (* object *)
    assert (Vo2 : ir_val rs2 (q_o x) = Some (q_o q)).
    { destruct (irinv_live _ _ _ _ PosO (q_o x) i J2) as (v & Hvv).
      { cbn; split; [split|]; [now apply Hxu|intros [? _]; discriminate|intros [? _]; discriminate]. }
      rewrite Hvv; apply V2, V1 in Hvv; congruence. }
    destruct (i_release_spec L (i_resource_index_cmp cmp) (q_o x) _ _ _ _ PosO i (q_o x) (q_o q) J2)
      as (rs3 & ri3 & vs3 & d3 & E3 & J3 & V3 & S3 & X3 & D3); [exact Vo2|apply ifinds_index|].
    (* graph *)
    assert (exists rs4 ri4 vs4 ng dg,
      match q_g x with
      | Some g =>
          '(rs, ri, dropped) <- i_release (i_resource_index_cmp cmp) rs3 ri3 PosG i g g ;;
          Some (IDataset rs qs ri qi (ns_remove (q_s x) (id_s d)) (ns_remove (q_p x) (id_p d))
                  (ns_remove (q_o x) (id_o d)) (id_dg d)
                  (if dropped : bool then ns_remove g (id_ng d) else id_ng d))
      | None => Some (IDataset rs3 qs ri3 qi (ns_remove (q_s x) (id_s d)) (ns_remove (q_p x) (id_p d))
                  (ns_remove (q_o x) (id_o d)) (ns_remove i (id_dg d)) (id_ng d))
      end = Some (IDataset rs4 qs ri4 qi (ns_remove (q_s x) (id_s d)) (ns_remove (q_p x) (id_p d))
                  (ns_remove (q_o x) (id_o d)) dg ng) /\
      irinv (cmp:=cmp) rs4 ri4 vs4 (uses qs) /\
      (forall j w, ir_val rs4 j = Some w -> ir_val rs3 j = Some w) /\
      (forall w, In w vs4 <-> In w vs3 /\ forall j, ir_val rs3 j = Some w -> ir_val rs4 j <> None) /\
      (forall W, irexact W rs3 ri3 -> irexact W rs4 ri4) /\
      dg = match q_g x with Some _ => id_dg d | None => ns_remove i (id_dg d) end /\
      match q_g x with
      | Some g => (sget rs4 g = None /\ ng = ns_remove g (id_ng d)) \/
                  (sget rs4 g <> None /\ ng = id_ng d)
      | None => ng = id_ng d
      end)
      as (rs4 & ri4 & vs4 & ng & dg & E4 & J4 & V4 & S4 & X4 & Edg & Eng).
    { destruct (q_g x) as [gi|] eqn:Eg.
      - destruct (q_g q) as [g|] eqn:Egq; [|contradiction].
        assert (Vg3 : ir_val rs3 gi = Some g).
        { destruct (irinv_live _ _ _ _ PosG gi i J3) as (v & Hvv).
          { cbn; split; [split; [split|]|]; try (intros [? _]; discriminate).
            now apply Hxu. }
          rewrite Hvv; apply V3, V2, V1 in Hvv; congruence. }
        destruct (i_release_spec L (i_resource_index_cmp cmp) gi _ _ _ _ PosG i gi g J3)
          as (rs4 & ri4 & vs4 & d4 & E4 & J4 & V4 & S4 & X4 & D4); [exact Vg3|apply ifinds_index|].
        rewrite E4; cbn; eexists rs4, ri4, vs4, _, _; split; [reflexivity|].
        split; [|split; [|split; [|split; [|split]]]]; auto.
        + eapply irinv_ext; [|exact J4]; intros p r j; cbn; rewrite Hu.
          pose proof (Hxu p r) as Hpr; split; [|intuition congruence].
          intros ((((HU & N1) & N2) & N3) & N4); split; [assumption|]; intros ->.
          apply Hpr in HU; destruct p; cbn in HU; [inv HU; tauto|inv HU; tauto|inv HU; tauto|].
          rewrite Eg in HU; inv HU; tauto.
        + destruct d4; [left|right]; split; auto; [now apply D4|].
          intros Hn; apply D4 in Hn; discriminate.
      - exists rs3, ri3, vs3, (id_ng d), (ns_remove i (id_dg d)); split; [reflexivity|].
        split; [|split; [auto|split; [intros w; split; [intros Hw; split; congruence|tauto]|auto]]].
        eapply irinv_ext; [|exact J3]; intros p r j; cbn; rewrite Hu.
        pose proof (Hxu p r) as Hpr; split; [|intuition congruence].
        intros (((HU & N1) & N2) & N3); split; [assumption|]; intros ->.
        apply Hpr in HU; destruct p; cbn in HU; [inv HU; tauto|inv HU; tauto|inv HU; tauto|].
        rewrite Eg in HU; inv HU; tauto. }
    rewrite E1; cbn; rewrite E2; cbn; rewrite E3; cbn; rewrite E4; cbn.
    assert (Hval : forall j w, ir_val rs4 j = Some w -> ir_val (id_resources d) j = Some w) by auto.
    assert (HS : forall p l k,
              slot p x = Some k ->
              (nsorted l /\ forall k, In k l -> exists i, uses (id_quads d) p k i) ->
              nsorted (ns_remove k l) /\ forall k', In k' (ns_remove k l) -> exists i, uses qs p k' i).
    { intros p l k Hk [Hl1 Hl2]; split; [now apply ns_remove_sorted|].
      intros k' Hk'; apply in_ns_remove in Hk' as [Hn Hk']; [|assumption].
      destruct (Hl2 _ Hk') as (j & Hj); exists j; apply Hu; split; [assumption|].
      intros ->; apply Hxu in Hj; congruence. }
    eexists _, vs4, x; split; [reflexivity|]; split; [split; cbn|split; [|split]].
    - eapply swf_sremove; eauto.
    - intros j; rewrite Gq; destruct (j =? i) eqn:Ej.
      + apply Nat.eqb_eq in Ej; subst; split; [contradiction|congruence].
      + apply Nat.eqb_neq in Ej; rewrite <- I2; split; intros Hj.
        * apply (Permutation_in _ (Permutation_sym HP)); now right.
        * apply (Permutation_in _ HP) in Hj; cbn in Hj; destruct Hj; congruence.
    - eapply indexes_ext; [|exact I3']; intros j Hj; unfold i_quad_at; rewrite Gq.
      destruct (j =? i) eqn:Ej; [apply Nat.eqb_eq in Ej; subst; contradiction|].
      destruct (sget (id_quads d) j) as [y|] eqn:Ey; cbn; [|reflexivity].
      assert (Hy : forall p r, slot p y = Some r -> ir_val rs4 r = ir_val (id_resources d) r).
      { intros p r Hp.
        destruct (irinv_live _ _ _ _ p r j J4) as (v & Hvv).
        { apply Hu; split; [exists y; auto|now apply Nat.eqb_neq]. }
        rewrite Hvv; symmetry; auto. }
      unfold i_quad_with_resources.
      rewrite (Hy PosS (q_s y) eq_refl), (Hy PosP (q_p y) eq_refl), (Hy PosO (q_o y) eq_refl).
      destruct (q_g y) as [g|] eqn:Eg; [|reflexivity].
      rewrite (Hy PosG g Eg); reflexivity.
    - exact J4.
    - now apply HS.
    - now apply HS.
    - now apply HS.
    - assert (D : forall j, (exists y, sget qs j = Some y /\ q_g y = None) <->
                j <> i /\ (exists y, sget (id_quads d) j = Some y /\ q_g y = None)).
      { intros j; rewrite Gq; destruct (j =? i) eqn:Ej.
        - apply Nat.eqb_eq in Ej; subst j; split; [intros (? & ? & _); discriminate|tauto].
        - apply Nat.eqb_neq in Ej; tauto. }
      destruct Id as [Id1 Id2]; destruct (q_g x) as [g|] eqn:Eg; subst dg.
      + split; [assumption|]; intros j; rewrite D, Id2; split; [|tauto].
        intros (y & Hy & Hg); split; [intros ->; congruence|eauto].
      + split; [now apply ns_remove_sorted|]; intros j; rewrite D, in_ns_remove, Id2 by assumption.
        reflexivity.
    - destruct In_ as [In1 In2]; destruct (q_g x) as [g|] eqn:Eg.
      + destruct Eng as [[Hdead ->]|[Hl ->]].
        * split; [now apply ns_remove_sorted|]; intros k j Hk.
          apply in_ns_remove; [assumption|]; split.
          -- intros ->; eapply (iri_dead _ _ _ _ J4); eauto.
          -- apply Hu in Hk; eapply In2; apply Hk.
        * split; [assumption|]; intros k j Hk; apply Hu in Hk; eapply In2; apply Hk.
      + subst ng; split; [assumption|]; intros k j Hk; apply Hu in Hk; eapply In2; apply Hk.
    - repeat split; cbn; auto.
    - cbn [id_resources]; apply (proj2 (A:=forall j w, ir_val rs4 j = Some w -> ir_val (id_resources d) j = Some w)).
      exact (drops_trans _ _ _ _ _ _ (drops_trans _ _ _ _ _ _ (drops_trans _ _ _ _ _ _
               (conj V1 S1) (conj V2 S2)) (conj V3 S3)) (conj V4 S4)).
    - unfold id_exact; cbn; auto.
  Qed.
End Proofs.
