(** Invariant of [BTreeDataset], preserved by every operation, and refinement of
    the set specification. *)
From Coq Require Import List Bool Arith Lia Permutation Sorted.
Import ListNotations.
From Verif Require Import Base SlabModel TripleModel SetSpec ContainerSpec Machine BaseProofs
  BResourceModel BResourceProofs BTreeDatasetModel.
Open Scope panic_scope.

Definition qrefs (q : quad nat) (r : nat) : nat :=
  ind (q_s q) r + ind (q_p q) r + ind (q_o q) r +
  match q_g q with Some g => ind g r | None => 0 end.

Definition sumf (f : nat -> nat) (l : list nat) : nat := list_sum (map f l).

Lemma list_sum_perm l m : Permutation l m -> list_sum l = list_sum m.
Proof. unfold list_sum; induction 1; cbn; lia. Qed.

Lemma sumf_perm f l m : Permutation l m -> sumf f l = sumf f m.
Proof. intros H; apply list_sum_perm, Permutation_map, H. Qed.

Lemma sumf_ext f g l : (forall x, In x l -> f x = g x) -> sumf f l = sumf g l.
Proof. intros H; unfold sumf; now rewrite (map_ext_in _ _ _ H). Qed.

Lemma sumf_cons f x l : sumf f (x :: l) = f x + sumf f l.
Proof. reflexivity. Qed.

Lemma sumf_in f l x : In x l -> f x <= sumf f l.
Proof.
  induction l as [|y l IH]; intros H; [destruct H|]; rewrite sumf_cons.
  destruct H as [->|H]; [lia|specialize (IH H); lia].
Qed.

Lemma sumf_pos f l : 0 < sumf f l -> exists x, In x l /\ 0 < f x.
Proof.
  induction l as [|y l IH]; [cbn; lia|]; rewrite sumf_cons; intros H.
  destruct (Nat.eq_dec (f y) 0); [|exists y; cbn; split; [auto|lia]].
  destruct IH as (x & ? & ?); [lia|]; exists x; cbn; auto.
Qed.

Definition refs (qs : slab (quad nat)) (l : list nat) (r : nat) : nat :=
  sumf (fun i => match sget qs i with Some q => qrefs q r | None => 0 end) l.

Section Proofs.
  Context {R : Type} {cmp : R -> R -> comparison} (L : ord_laws cmp).
  Context (keep : bool).
  Notation qcmp := (quad_cmp cmp).
  Let LQ : ord_laws qcmp := quad_cmp_laws cmp L.

  Record bd_inv (d : @bdataset R) (ks : list (quad R)) (vs : list R) : Prop := {
    bi_wf : swf (bd_quads d);
    bi_live : forall i, In i (bd_qi d) <-> sget (bd_quads d) i <> None;
    bi_idx : indexes (cmpk:=qcmp) (b_quad_at (bd_resources d) (bd_quads d)) (bd_qi d) ks;
    bi_res : rinv (cmp:=cmp) (bd_resources d) (bd_ri d) vs (refs (bd_quads d) (bd_qi d))
  }.

  Lemma bd_inv_new : bd_inv bd_new [] [].
  Proof.
    split; cbn.
    - apply swf_new.
    - intros i; unfold sget; cbn; destruct i; cbn; intuition.
    - repeat constructor.
    - now apply rinv_new.
  Qed.

  (** A quad of indexes denotes the same quad in a table that keeps the values
      of the slots it uses. *)
  Lemma qwr_some rs (q : quad nat) x :
    b_quad_with_resources (R:=R) rs q = Some x <->
    br_val rs (q_s q) = Some (q_s x) /\ br_val rs (q_p q) = Some (q_p x) /\
    br_val rs (q_o q) = Some (q_o x) /\
    match q_g q, q_g x with
    | Some g, Some h => br_val rs g = Some h
    | None, None => True
    | _, _ => False
    end.
  Proof.
    unfold b_quad_with_resources; destruct x as [s p o g]; cbn.
    destruct (br_val rs (q_s q)); cbn; [|split; [discriminate|intros [? _]; discriminate]].
    destruct (br_val rs (q_p q)); cbn; [|split; [discriminate|intros (_ & ? & _); discriminate]].
    destruct (br_val rs (q_o q)); cbn; [|split; [discriminate|intros (_ & _ & ? & _); discriminate]].
    destruct (q_g q) as [j|]; cbn.
    - destruct (br_val rs j); cbn; destruct g; split; intros H;
        try discriminate; try (inv H; auto; fail);
        try (destruct H as (H1 & H2 & H3 & H4); cbn in H4; try contradiction; inv H1; inv H2; inv H3; try inv H4; reflexivity).
    - destruct g; split; intros H;
        try discriminate; try (inv H; auto; fail);
        try (destruct H as (H1 & H2 & H3 & H4); cbn in H4; try contradiction; inv H1; inv H2; inv H3; try inv H4; reflexivity).
  Qed.

  Lemma qwr_mono rs rs' q x :
    (forall j w, br_val rs j = Some w -> br_val rs' j = Some w) ->
    b_quad_with_resources (R:=R) rs q = Some x -> b_quad_with_resources rs' q = Some x.
  Proof.
    intros H; rewrite !qwr_some; intros (A & B & C & D).
    repeat split; auto; destruct (q_g q), (q_g x); auto.
  Qed.

  Lemma qrefs_pos q r :
    0 < qrefs q r <-> q_s q = r \/ q_p q = r \/ q_o q = r \/ q_g q = Some r.
  Proof.
    unfold qrefs, ind.
    destruct (q_s q =? r) eqn:E1; [apply Nat.eqb_eq in E1; split; [auto|lia]|].
    destruct (q_p q =? r) eqn:E2; [apply Nat.eqb_eq in E2; split; [auto|lia]|].
    destruct (q_o q =? r) eqn:E3; [apply Nat.eqb_eq in E3; split; [auto|lia]|].
    apply Nat.eqb_neq in E1, E2, E3.
    destruct (q_g q) as [g|]; cbn.
    - destruct (g =? r) eqn:E4; [apply Nat.eqb_eq in E4; subst; split; [auto|lia]|].
      apply Nat.eqb_neq in E4; split; [lia|intuition congruence].
    - split; [lia|intuition congruence].
  Qed.

  Lemma bd_contains_spec d ks vs q :
    bd_inv d ks vs -> bd_contains cmp d q = Some (mem qcmp q ks).
  Proof.
    intros [_ _ H _]; unfold bd_contains, bd_index_of_quad.
    destruct (bt_get_spec LQ _ _ _ q H) as (r & Hr & Hs).
    change (b_quad_cmp cmp (bd_resources d) (bd_quads d))
      with (kcmp (cmpk:=qcmp) (b_quad_at (bd_resources d) (bd_quads d))).
    rewrite Hr; cbn; f_equal; destruct r; cbn; symmetry.
    - apply (mem_true LQ); tauto.
    - now apply (mem_false LQ).
  Qed.

  Definition bd_exact (W : R -> Prop) (d : @bdataset R) : Prop := rexact W (bd_resources d) (bd_ri d).

  (** A quad does not repeat a resource among [W] that is new. *)
  Definition norepeat (W : R -> Prop) (vs : list R) (q : quad R) : Prop :=
    forall i j r, W r -> i < j -> nth_error (quad_comps q) i = Some r ->
      nth_error (quad_comps q) j = Some r -> In r vs.

  (** What an insertion does to the quads. *)
  Definition bins_desc (d : @bdataset R) (q : quad R) (d' : @bdataset R) : Prop :=
    exists x, bd_quads d' = sinsert (bd_quads d) x /\
      b_quad_with_resources (bd_resources d') x = Some q /\
      forall j w, br_val (bd_resources d) j = Some w -> br_val (bd_resources d') j = Some w.

  Lemma bd_insert_desc d ks vs q :
    bd_inv d ks vs -> ~ In q ks ->
    exists d' vs', bd_insert cmp keep d q = Some (true, d') /\
      bd_inv d' (place qcmp q ks) vs' /\
      (forall w, In w vs' <-> In w vs \/ In w (quad_comps q)) /\
      (forall W, bd_exact W d -> norepeat W vs q -> bd_exact W d') /\ bins_desc d q d'.
  Proof.
    intros I Hq; unfold bd_insert; rewrite (bd_contains_spec _ _ _ _ I); cbn.
    assert (mem qcmp q ks = false) as -> by now apply (mem_false LQ).
    destruct I as [I1 I2 I3 I4].
    set (rc := refs (bd_quads d) (bd_qi d)) in *.
    destruct (index_of_resource_spec L _ _ _ _ (q_s q) I4) as (fs & Efs & Hfs); rewrite Efs; cbn.
    destruct (index_of_resource_spec L _ _ _ _ (q_p q) I4) as (fp & Efp & Hfp); rewrite Efp; cbn.
    destruct (index_of_resource_spec L _ _ _ _ (q_o q) I4) as (fo & Efo & Hfo); rewrite Efo; cbn.
    (* subject *)
    destruct (acquire_spec L keep _ _ _ _ (q_s q) fs I4)
      as (s_i & rs1 & ri1 & vs1 & -> & J1 & V1 & M1 & W1 & X1).
    { destruct fs; tauto. }
    cbn.
    (* predicate *)
    destruct (acquire_spec L keep _ _ _ _ (q_p q) fp J1)
      as (p_i & rs2 & ri2 & vs2 & -> & J2 & V2 & M2 & W2 & X2).
    { destruct fp; [|trivial]; rewrite W1; intuition. }
    cbn.
    (* object *)
    destruct (acquire_spec L keep _ _ _ _ (q_o q) fo J2)
      as (o_i & rs3 & ri3 & vs3 & E3 & J3 & V3 & M3 & W3 & X3).
    { destruct fo; [|trivial]; rewrite W2, W1; intuition. }
    (* graph *)
    assert (exists fg g_i rs4 ri4 vs4,
      match q_g q with
      | Some g => f <- b_index_of_resource cmp (bd_resources d) (bd_ri d) g ;; Some (Some (g, f))
      | None => Some None
      end = Some fg /\
      match fg with
      | Some (g, f) =>
          '(g_i, rs, ri) <- b_acquire cmp keep rs3 ri3 g f ;; Some (Some g_i, rs, ri)
      | None => Some (None, rs3, ri3)
      end = Some (g_i, rs4, ri4) /\
      rinv (cmp:=cmp) rs4 ri4 vs4 (fun r => rc r + ind s_i r + ind p_i r + ind o_i r +
                             match g_i with Some g => ind g r | None => 0 end) /\
      match g_i, q_g q with
      | Some g, Some h => br_val rs4 g = Some h
      | None, None => True
      | _, _ => False
      end /\
      (forall j w, br_val rs3 j = Some w -> br_val rs4 j = Some w) /\
      (forall w, In w vs4 <-> In w vs3 \/ match q_g q with Some g => w = g | None => False end) /\
      (forall W, rexact W rs3 ri3 -> (forall g, q_g q = Some g -> W g -> In g vs \/ ~ In g vs3) ->
         rexact W rs4 ri4))
      as (fg & g_i & rs4 & ri4 & vs4 & -> & E4 & J4 & V4 & M4 & W4 & X4).
    { destruct (q_g q) as [g|].
      - destruct (index_of_resource_spec L _ _ _ _ g I4) as (f & -> & Hf); cbn.
        destruct (acquire_spec L keep _ _ _ _ g f J3)
          as (g_i & rs4 & ri4 & vs4 & E & J4 & V4 & M4 & W4 & X4).
        { destruct f; [|trivial]; rewrite W3, W2, W1; intuition. }
        exists (Some (g, f)), (Some g_i), rs4, ri4, vs4; rewrite E; cbn.
        repeat (split; [first [reflexivity|assumption]|]); split; [|].
        + intros w; rewrite W4; tauto.
        + intros W H1 H2; apply X4; [assumption|]; intros Hw ->.
          destruct (H2 g eq_refl Hw); tauto.
      - exists None, None, rs3, ri3, vs3; cbn.
        split; [reflexivity|]; split; [reflexivity|]; split.
        + eapply rinv_ext; [|exact J3]; intros; cbn; lia.
        + split; [trivial|]; split; [auto|]; split; [tauto|auto]. }
    cbn; rewrite E3; cbn; rewrite E4; cbn.
    set (x := Quad s_i p_i o_i g_i).
    set (i := vacant_key (bd_quads d)).
    set (qs := sinsert (bd_quads d) x).
    assert (Gq : forall j, sget qs j = if j =? i then Some x else sget (bd_quads d) j)
      by (intros; now apply sget_sinsert).
    assert (Hi : sget (bd_quads d) i = None) by now apply sget_vacant.
    assert (Hni : ~ In i (bd_qi d)) by (rewrite I2; congruence).
    assert (MM : forall j w, br_val (bd_resources d) j = Some w -> br_val rs4 j = Some w) by auto.
    assert (Hx : b_quad_with_resources rs4 x = Some q).
    { apply qwr_some; cbn; repeat split; auto. }
    assert (Vi : b_quad_at rs4 qs i = Some q).
    { unfold b_quad_at; rewrite Gq, Nat.eqb_refl; exact Hx. }
    assert (Hidx : indexes (cmpk:=qcmp) (b_quad_at rs4 qs) (bd_qi d) ks).
    { eapply indexes_ext; [|exact I3]; intros j Hj.
      destruct I3 as [HM _]; destruct (mapM_in_inv _ _ _ _ HM Hj) as (y & Hy & _).
      rewrite Hy; unfold b_quad_at in *; rewrite Gq.
      destruct (j =? i) eqn:Ej; [apply Nat.eqb_eq in Ej; subst; contradiction|].
      destruct (sget (bd_quads d) j); [|discriminate]; cbn in *; eapply qwr_mono; eauto. }
    destruct (bt_insert_new LQ _ keep _ _ i q Hidx Vi Hq) as (qi & Eqi & HP & Hidx').
    change (b_quad_index_cmp cmp rs4 qs) with (icmp (cmpk:=qcmp) (b_quad_at rs4 qs)).
    rewrite Eqi; cbn.
    eexists _, vs4; split; [reflexivity|]; split; [split; cbn|].
    - now apply swf_sinsert.
    - intros j; rewrite Gq; split.
      + intros Hj; apply (Permutation_in _ HP) in Hj; cbn in Hj.
        destruct (j =? i) eqn:Ej; [discriminate|]; apply Nat.eqb_neq in Ej.
        apply I2; destruct Hj; congruence.
      + intros Hj; apply (Permutation_in _ (Permutation_sym HP)); cbn.
        destruct (j =? i) eqn:Ej; [left; symmetry; now apply Nat.eqb_eq|right; now apply I2].
    - exact Hidx'.
    - eapply rinv_ext; [|exact J4]; intros r; unfold rc, refs.
      rewrite (sumf_perm _ _ _ HP), sumf_cons, Gq, Nat.eqb_refl.
      enough (sumf (fun j => match sget qs j with Some q => qrefs q r | None => 0 end) (bd_qi d) =
              sumf (fun j => match sget (bd_quads d) j with
                             | Some q => qrefs q r | None => 0 end) (bd_qi d)) as ->.
      + unfold qrefs, x; cbn; lia.
      + apply sumf_ext; intros j Hj; rewrite Gq; destruct (j =? i) eqn:Ej; [|reflexivity].
        apply Nat.eqb_eq in Ej; subst; contradiction.
    - split; [|split; [|exists x; auto]].
      + intros w; rewrite W4, W3, W2, W1; unfold quad_comps; cbn.
        destruct (q_g q); cbn; intuition congruence.
      + intros W Hex Hn; unfold bd_exact; cbn.
        assert (HS : fs = None -> ~ In (q_s q) vs) by (intros ->; exact Hfs).
        assert (Old : forall a b w, W w -> a < b -> nth_error (quad_comps q) a = Some w ->
                  nth_error (quad_comps q) b = Some w -> In w vs) by exact Hn.
        assert (P1 : W (q_p q) -> fp = None -> ~ In (q_p q) vs1).
        { intros Hw -> Hin; apply Hfp; apply W1 in Hin as [E|]; [|assumption].
          apply (Old 0 1); auto; cbn; congruence. }
        assert (P2 : W (q_o q) -> fo = None -> ~ In (q_o q) vs2).
        { intros Hw -> Hin; apply Hfo; apply W2 in Hin as [E|Hin].
          - apply (Old 1 2); auto; cbn; congruence.
          - apply W1 in Hin as [E|]; [|assumption]; apply (Old 0 2); auto; cbn; congruence. }
        assert (P3 : forall g, q_g q = Some g -> W g -> In g vs \/ ~ In g vs3).
        { intros g Hg Hw; destruct (in_dec (ord_dec L) g vs) as [|Hp]; [auto|right]; intros Hin; apply Hp.
          assert (N3 : nth_error (quad_comps q) 3 = Some g) by (unfold quad_comps; now rewrite Hg).
          apply W3 in Hin as [E|Hin]; [apply (Old 2 3); auto; cbn; congruence|].
          apply W2 in Hin as [E|Hin]; [apply (Old 1 3); auto; cbn; congruence|].
          apply W1 in Hin as [E|Hin]; [apply (Old 0 3); auto; cbn; congruence|assumption]. }
        apply X4; [|assumption].
        apply X3; [apply X2; [apply X1|]|]; auto.
  Qed.

  Lemma bd_insert_spec d ks vs q :
    bd_inv d ks vs -> ~ In q ks ->
    exists d' vs', bd_insert cmp keep d q = Some (true, d') /\
      bd_inv d' (place qcmp q ks) vs' /\
      (forall w, In w vs' <-> In w vs \/ In w (quad_comps q)) /\
      (forall W, bd_exact W d -> norepeat W vs q -> bd_exact W d').
  Proof.
    intros I Hq; destruct (bd_insert_desc _ _ _ _ I Hq) as (d' & vs' & A & B & C & D & _).
    exists d', vs'; auto.
  Qed.

  (** What a removal does to the quads. *)
  Definition brem_desc (d : @bdataset R) (i : nat) (q : quad R) (d' : @bdataset R) : Prop :=
    exists x, sremove (bd_quads d) i = Some (x, bd_quads d') /\
      b_quad_at (bd_resources d) (bd_quads d) i = Some q.

  Lemma bd_remove_desc d ks vs q :
    bd_inv d ks vs ->
    exists d' vs', bd_remove cmp d q = Some (mem qcmp q ks, d') /\
      bd_inv d' (del qcmp q ks) vs' /\
      (forall w, In w vs' <-> In w vs /\
         forall k, br_val (bd_resources d) k = Some w -> 0 < refs (bd_quads d') (bd_qi d') k) /\
      (forall W, bd_exact W d -> bd_exact W d') /\
      if mem qcmp q ks then
        (exists i, brem_desc d i q d') /\
        forall j z, b_quad_at (bd_resources d) (bd_quads d) j = Some z -> z <> q ->
          b_quad_at (bd_resources d') (bd_quads d') j = Some z
      else d' = d.
  Proof.
    intros [I1 I2 I3 I4]; unfold bd_remove.
    destruct (bt_remove_spec LQ _ _ _ q I3) as (r & qi & E & I3' & Hr).
    change (b_quad_cmp cmp (bd_resources d) (bd_quads d))
      with (kcmp (cmpk:=qcmp) (b_quad_at (bd_resources d) (bd_quads d))).
    rewrite E; cbn; destruct r as [i|].
    2: { destruct Hr as [Hr ->].
         assert (mem qcmp q ks = false) as -> by now apply (mem_false LQ).
         exists d, vs; split; [destruct d; reflexivity|].
         split; [split; auto|]; split; [|auto].
         intros w; split; [|tauto]; intros Hw; split; [exact Hw|]; intros k Hk.
         apply (rinv_live _ _ _ _ _ I4); congruence. }
    destruct Hr as (Hv & Hin & HP).
    assert (mem qcmp q ks = true) as -> by now apply (mem_true LQ).
    pose proof Hv as Hqi.
    unfold b_quad_at in Hv; destruct (sget (bd_quads d) i) as [x|] eqn:Ex; [|discriminate].
    cbn in Hv; destruct (sremove_some _ _ _ Ex) as (qs & Eqs); rewrite Eqs; cbn.
    assert (Gq : forall j, sget qs j = if j =? i then None else sget (bd_quads d) j)
      by (intros j; apply (sget_sremove _ _ _ _ _ Eqs)).
    assert (ND : NoDup (i :: qi)).
    { apply (Permutation_NoDup HP), (indexes_nodup LQ _ _ _ I3). }
    assert (Hni : ~ In i qi) by now inv ND.
    set (rc := refs (bd_quads d) (bd_qi d)) in *.
    assert (RC : forall r, rc r = qrefs x r + refs qs qi r).
    { intros r; unfold rc, refs; rewrite (sumf_perm _ _ _ HP), sumf_cons, Ex; f_equal.
      apply sumf_ext; intros j Hj; rewrite Gq; destruct (j =? i) eqn:Ej; [|reflexivity].
      apply Nat.eqb_eq in Ej; subst; contradiction. }
    apply qwr_some in Hv as (Vs & Vp & Vo & Vg).
    (* subject *)
    destruct (release_spec L (b_resource_cmp cmp) (q_s q) _ _ _ _ (q_s x) (q_s q) I4)
      as (rs1 & ri1 & vs1 & -> & J1 & V1 & S1 & X1).
    { rewrite RC; unfold qrefs; rewrite ind_same; lia. }
    { exact Vs. }
    { apply finds_value. }
    cbn.
    (* predicate *)
    assert (U1 : 0 < rc (q_p x) - ind (q_s x) (q_p x)).
    { rewrite RC; unfold qrefs; rewrite (ind_same (q_p x)); lia. }
    destruct (release_spec L (b_resource_cmp cmp) (q_p q) _ _ _ _ (q_p x) (q_p q) J1)
      as (rs2 & ri2 & vs2 & -> & J2 & V2 & S2 & X2).
    { exact U1. }
    { now rewrite V1. }
    { apply finds_value. }
    cbn.
    (* object *)
    assert (U2 : 0 < rc (q_o x) - ind (q_s x) (q_o x) - ind (q_p x) (q_o x)).
    { rewrite RC; unfold qrefs; rewrite (ind_same (q_o x)); lia. }
    destruct (release_spec L (b_resource_cmp cmp) (q_o q) _ _ _ _ (q_o x) (q_o q) J2)
      as (rs3 & ri3 & vs3 & -> & J3 & V3 & S3 & X3).
    { exact U2. }
    { rewrite V2, V1; [assumption|lia|lia]. }
    { apply finds_value. }
    cbn.
    (* graph *)
    assert (exists rs4 ri4 vs4,
      match q_g x with
      | Some g_i => b_release (b_resource_index_cmp cmp) rs3 ri3 g_i g_i
      | None => Some (rs3, ri3)
      end = Some (rs4, ri4) /\
      rinv (cmp:=cmp) rs4 ri4 vs4 (refs qs qi) /\
      (forall j, 0 < refs qs qi j -> br_val rs4 j = br_val rs3 j) /\
      (forall w, In w vs4 <-> In w vs3 /\
         match q_g x, q_g q with
         | Some gi, Some g =>
             ~ (w = g /\ rc gi - ind (q_s x) gi - ind (q_p x) gi - ind (q_o x) gi = 1)
         | _, _ => True
         end) /\
      (forall W, rexact W rs3 ri3 -> rexact W rs4 ri4))
      as (rs4 & ri4 & vs4 & -> & J4 & V4 & S4 & X4).
    { destruct (q_g x) as [gi|] eqn:Eg.
      - destruct (q_g q) as [g|] eqn:Egq; [|contradiction].
        assert (U3 : 0 < rc gi - ind (q_s x) gi - ind (q_p x) gi - ind (q_o x) gi).
        { rewrite RC; unfold qrefs; rewrite Eg, (ind_same gi); lia. }
        destruct (release_spec L (b_resource_index_cmp cmp) gi _ _ _ _ gi g J3)
          as (rs4 & ri4 & vs4 & E4 & J4 & V4 & S4 & X4).
        { exact U3. }
        { rewrite V3, V2, V1; [assumption|lia|lia|lia]. }
        { apply finds_index. }
        exists rs4, ri4, vs4; split; [exact E4|]; split; [|split; [|split]]; auto.
        + eapply rinv_ext; [|exact J4]; intros r; cbn; rewrite RC; unfold qrefs; rewrite Eg; lia.
        + intros j Hj; apply V4; rewrite RC; unfold qrefs; rewrite Eg; lia.
      - exists rs3, ri3, vs3; split; [reflexivity|]; split; [|split; [|split]]; [|auto|tauto|auto].
        eapply rinv_ext; [|exact J3]; intros r; cbn; rewrite RC; unfold qrefs; rewrite Eg; lia. }
    assert (At : forall j, In j qi -> b_quad_at rs4 qs j = b_quad_at (bd_resources d) (bd_quads d) j).
    { intros j Hj; unfold b_quad_at; rewrite Gq.
      destruct (j =? i) eqn:Ej; [apply Nat.eqb_eq in Ej; subst; contradiction|].
      destruct (sget (bd_quads d) j) as [y|] eqn:Ey; cbn; [|reflexivity].
      assert (Hy : forall r, 0 < qrefs y r -> br_val rs4 r = br_val (bd_resources d) r).
      { intros r Hp.
        assert (0 < refs qs qi r).
        { unfold refs; eapply Nat.lt_le_trans; [|eapply sumf_in, Hj]; cbn.
          rewrite Gq, Ej, Ey; exact Hp. }
        rewrite V4, V3, V2, V1; [reflexivity| | | |assumption]; rewrite RC; unfold qrefs; lia. }
      unfold b_quad_with_resources.
      rewrite !Hy by (apply qrefs_pos; auto).
      destruct (q_g y) as [g|] eqn:Eg; [|reflexivity].
      rewrite (Hy g) by (apply qrefs_pos; auto); reflexivity. }
    cbn; eexists _, vs4; split; [reflexivity|]; split; [split; cbn|].
    - eapply swf_sremove; eauto.
    - intros j; rewrite Gq; destruct (j =? i) eqn:Ej.
      + apply Nat.eqb_eq in Ej; subst; split; [contradiction|congruence].
      + apply Nat.eqb_neq in Ej; rewrite <- I2; split; intros Hj.
        * apply (Permutation_in _ (Permutation_sym HP)); now right.
        * apply (Permutation_in _ HP) in Hj; cbn in Hj; destruct Hj; congruence.
    - eapply indexes_ext; [|exact I3']; exact At.
    - exact J4.
    - split; [|split; [unfold bd_exact; cbn; auto|]; split].
      { intros w; rewrite S4, S3, S2, S1; cbn [bd_quads bd_qi].
        assert (Rk : forall k, br_val (bd_resources d) k = Some w -> rc k = qrefs x k + refs qs qi k /\ 0 < rc k).
        { intros k Hk; split; [apply RC|]; apply (rinv_live _ _ _ _ _ I4); congruence. }
        split.
        - intros ((((Hw & N1) & N2) & N3) & N4); split; [exact Hw|]; intros k Hk.
          destruct (Rk k Hk) as [Rk1 Rk2].
          destruct (refs qs qi k) eqn:Z; [exfalso|lia]; unfold qrefs in Rk1.
          destruct (match q_g x with Some g => ind g k | None => 0 end) eqn:Eg4.
          + destruct (ind (q_o x) k) eqn:Eg3.
            * destruct (ind (q_p x) k) eqn:Eg2.
              -- destruct (ind (q_s x) k) eqn:Eg1; [lia|]; apply ind_S in Eg1 as [<- ->].
                 apply N1; split; [congruence|lia].
              -- apply ind_S in Eg2 as [<- ->]; apply N2; split; [congruence|lia].
            * apply ind_S in Eg3 as [<- ->]; apply N3; split; [congruence|lia].
          + destruct (q_g x) as [gi|] eqn:Eg; [|discriminate].
            destruct (q_g q) as [g|]; [|contradiction].
            apply ind_S in Eg4 as [<- ->]; apply N4; split; [congruence|lia].
        - intros [Hw N]; repeat split; try exact Hw.
          + intros [-> E1]; specialize (N _ Vs); pose proof (RC (q_s x)) as R1; unfold qrefs in R1.
            rewrite ind_same in R1; lia.
          + intros [-> E1]; specialize (N _ Vp); pose proof (RC (q_p x)) as R1; unfold qrefs in R1.
            rewrite (ind_same (q_p x)) in R1; lia.
          + intros [-> E1]; specialize (N _ Vo); pose proof (RC (q_o x)) as R1; unfold qrefs in R1.
            rewrite (ind_same (q_o x)) in R1; lia.
          + destruct (q_g x) as [gi|] eqn:Eg; [|trivial]; destruct (q_g q) as [g|]; [|contradiction].
            intros [-> E1]; specialize (N _ Vg); pose proof (RC gi) as R1; unfold qrefs in R1.
            rewrite Eg, (ind_same gi) in R1; lia. }
      + exists i, x; auto.
      + cbn; intros j z Hj Hz; rewrite At; [assumption|].
        assert (Hd : In j (bd_qi d)).
        { apply I2; unfold b_quad_at in Hj; destruct (sget (bd_quads d) j); discriminate. }
        apply (Permutation_in _ HP) in Hd as [<-|Hd]; [congruence|assumption].
  Qed.

  Lemma bd_remove_spec d ks vs q :
    bd_inv d ks vs ->
    exists d' vs', bd_remove cmp d q = Some (mem qcmp q ks, d') /\
      bd_inv d' (del qcmp q ks) vs' /\
      (forall w, In w vs' -> In w vs) /\
      (forall W, bd_exact W d -> bd_exact W d').
  Proof.
    intros I; destruct (bd_remove_desc _ _ _ q I) as (d' & vs' & A & B & C & D & _).
    exists d', vs'; split; [exact A|]; split; [exact B|]; split; [|exact D].
    intros w Hw; now apply C in Hw.
  Qed.

  Lemma bd_insert_dup d ks vs q :
    bd_inv d ks vs -> In q ks -> bd_insert cmp keep d q = Some (false, d).
  Proof.
    intros I Hq; unfold bd_insert; rewrite (bd_contains_spec _ _ _ _ I); cbn.
    assert (mem qcmp q ks = true) as -> by now apply (mem_true LQ).
    reflexivity.
  Qed.

  Lemma bd_iter_spec d ks vs : bd_inv d ks vs -> bd_iter d = Some ks.
  Proof. intros [_ _ [H _] _]; exact H. Qed.

  Lemma bd_len_spec d ks vs : bd_inv d ks vs -> bd_len d = length ks.
  Proof.
    intros [_ H2 H3 _]; unfold bd_len.
    rewrite (slen_keys _ (bd_qi d)); [|eapply indexes_nodup; eauto|exact H2].
    destruct H3 as [H3 _]; symmetry; eapply mapM_length; eauto.
  Qed.

  Lemma b_into_iter_spec rs qs l ks :
    NoDup l -> mapM (b_quad_at (R:=R) rs qs) l = Some ks -> b_into_iter rs qs l = Some ks.
  Proof.
    revert qs ks; induction l as [|i l IH]; intros qs ks Hn H; [exact H|].
    apply mapM_cons in H as (y & ys & Hy & Hys & ->); inv Hn; cbn.
    unfold b_quad_at in Hy; destruct (sget qs i) as [q|] eqn:E; [|discriminate]; cbn in Hy.
    destruct (sremove_some _ _ _ E) as (qs' & E'); rewrite E'; cbn; rewrite Hy; cbn.
    rewrite (IH qs' ys); [reflexivity|assumption|].
    rewrite <- Hys; apply mapM_ext; intros j Hj; unfold b_quad_at.
    rewrite (sget_sremove _ _ _ _ _ E'); destruct (j =? i) eqn:Ej; [|reflexivity].
    apply Nat.eqb_eq in Ej; subst; contradiction.
  Qed.

  Lemma bd_into_iter_spec d ks vs : bd_inv d ks vs -> bd_into_iter d = Some ks.
  Proof.
    intros [_ _ H3 _]; apply b_into_iter_spec; [eapply indexes_nodup; eauto|apply H3].
  Qed.

  (** The state represents the set [s]. *)
  Definition bd_rep (d : @bdataset R) (s : list (quad R)) : Prop :=
    NoDup s /\ exists vs, bd_inv d (sorted_elements qcmp s) vs.

  Lemma place_ext q ks s :
    NoDup s -> ks = sorted_elements qcmp s -> ~ In q s ->
    place qcmp q ks = sorted_elements qcmp (add qcmp q s).
  Proof.
    intros Hn -> Hq; unfold add; assert (mem qcmp q s = false) as -> by now apply (mem_false LQ).
    reflexivity.
  Qed.

  Lemma del_ext q s :
    NoDup s -> del qcmp q (sorted_elements qcmp s) = sorted_elements qcmp (del qcmp q s).
  Proof.
    intros Hn; apply (sorted_elements_unique LQ).
    - now apply (nodup_del (cmp:=qcmp)).
    - apply (filter_sorted (cmp:=qcmp)), (sorted_elements_sorted LQ), Hn.
    - intros x; rewrite !(in_del LQ), in_sorted_elements; tauto.
  Qed.

  Lemma mem_sorted q s : mem qcmp q (sorted_elements qcmp s) = mem qcmp q s.
  Proof.
    destruct (mem qcmp q s) eqn:E.
    - apply (mem_true LQ); apply in_sorted_elements; now apply (mem_true LQ).
    - apply (mem_false LQ); rewrite in_sorted_elements; now apply (mem_false LQ).
  Qed.

  Lemma length_sorted s : NoDup s -> length (sorted_elements qcmp s) = length s.
  Proof.
    intros H; apply nodup_same_length; auto.
    - apply (ssorted_nodup LQ), (sorted_elements_sorted LQ), H.
    - intros; apply in_sorted_elements.
  Qed.

  Lemma bd_insert_rep d s q :
    bd_rep d s ->
    exists d', bd_insert cmp keep d q = Some (negb (mem qcmp q s), d') /\ bd_rep d' (add qcmp q s).
  Proof.
    intros [Hn (vs & I)]; destruct (mem qcmp q s) eqn:E.
    - exists d; split.
      + eapply bd_insert_dup; [exact I|]; apply in_sorted_elements; now apply (mem_true LQ).
      + unfold add; rewrite E; split; eauto.
    - assert (~ In q s) by now apply (mem_false LQ).
      destruct (bd_insert_spec _ _ _ q I) as (d' & vs' & E' & I' & _).
      { now rewrite in_sorted_elements. }
      exists d'; split; [exact E'|]; split; [now apply (nodup_add LQ)|].
      exists vs'; rewrite <- (place_ext q _ s Hn eq_refl) by assumption; exact I'.
  Qed.

  Lemma bd_remove_rep d s q :
    bd_rep d s ->
    exists d', bd_remove cmp d q = Some (mem qcmp q s, d') /\ bd_rep d' (del qcmp q s).
  Proof.
    intros [Hn (vs & I)].
    destruct (bd_remove_spec _ _ _ q I) as (d' & vs' & E' & I' & _).
    exists d'; rewrite E', mem_sorted; split; [reflexivity|]; split.
    - now apply (nodup_del (cmp:=qcmp)).
    - exists vs'; rewrite <- del_ext by assumption; exact I'.
  Qed.

  Lemma bd_extend_rep l : forall d s,
    bd_rep d s ->
    exists d', bd_extend cmp keep d l = Some d' /\
               bd_rep d' (fold_left (fun s q => add qcmp q s) l s).
  Proof.
    induction l as [|q l IH]; intros d s H; cbn; [eauto|].
    destruct (bd_insert_rep _ _ q H) as (d1 & -> & H1); cbn; auto.
  Qed.

  Lemma bd_step_rep d s o :
    bd_rep d s ->
    exists d', bd_step cmp keep d o = Some (fst (spec_step qcmp s o), d') /\
               bd_rep d' (snd (spec_step qcmp s o)).
  Proof.
    intros H; destruct o as [q|q|l|q| | | |]; cbn.
    - destruct (bd_insert_rep _ _ q H) as (d' & -> & H'); exists d'; auto.
    - destruct (bd_remove_rep _ _ q H) as (d' & -> & H'); exists d'; auto.
    - destruct (bd_extend_rep l _ _ H) as (d' & -> & H'); exists d'; auto.
    - destruct H as [Hn (vs & I)]; rewrite (bd_contains_spec _ _ _ _ I), mem_sorted; cbn.
      exists d; split; [reflexivity|split; eauto].
    - destruct H as [Hn (vs & I)]; rewrite (bd_len_spec _ _ _ I), length_sorted by assumption.
      exists d; split; [reflexivity|split; eauto].
    - destruct H as [Hn (vs & I)]; unfold bd_is_empty.
      rewrite (bd_len_spec _ _ _ I), length_sorted by assumption.
      exists d; split; [reflexivity|split; eauto].
    - destruct H as [Hn (vs & I)]; rewrite (bd_iter_spec _ _ _ I); cbn.
      exists d; split; [reflexivity|split; eauto].
    - destruct H as [Hn (vs & I)]; rewrite (bd_into_iter_spec _ _ _ I); cbn.
      exists d; split; [reflexivity|split; eauto].
  Qed.

  Lemma bd_run_rep ops : forall d s,
    bd_rep d s ->
    exists d', run (bd_step cmp keep) d ops = Some (fst (spec_run qcmp s ops), d') /\
               bd_rep d' (snd (spec_run qcmp s ops)).
  Proof.
    induction ops as [|o ops IH]; intros d s H; cbn; [eauto|].
    destruct (bd_step_rep _ _ o H) as (d1 & -> & H1).
    destruct (spec_step qcmp s o) as [x s1] eqn:E; cbn in *.
    destruct (IH _ _ H1) as (d2 & -> & H2).
    destruct (spec_run qcmp s1 ops); cbn in *; eauto.
  Qed.

  Lemma bd_rep_new : bd_rep bd_new [].
  Proof. split; [constructor|exists []; apply bd_inv_new]. Qed.

  (** ** Comparison of datasets *)
  Lemma sorted_elements_ext s t :
    NoDup s -> NoDup t ->
    (sorted_elements qcmp s = sorted_elements qcmp t <-> forall q, In q s <-> In q t).
  Proof.
    intros Hs Ht; split; intros H.
    - intros q; rewrite <- (in_sorted_elements (cmp:=qcmp) q s), H; apply in_sorted_elements.
    - apply (sorted_elements_unique LQ); auto.
      + now apply (sorted_elements_sorted LQ).
      + intros q; rewrite in_sorted_elements; apply H.
  Qed.

  Lemma quad_eqb_spec (eqb : R -> R -> bool) :
    (forall x y, eqb x y = true <-> x = y) ->
    forall a b, quad_eqb eqb eqb eqb eqb a b = true <-> a = b.
  Proof.
    intros H [s p o g] [s' p' o' g']; unfold quad_eqb; cbn.
    rewrite !andb_true_iff, !H; destruct g, g'; cbn; rewrite ?H;
      split; intros E; try (inv E; tauto);
      try (destruct E as (((-> & ->) & ->) & E); try discriminate; subst; reflexivity).
  Qed.

  Lemma forallb_combine (eqb : quad R -> quad R -> bool) :
    (forall x y, eqb x y = true <-> x = y) ->
    forall l m, length l = length m ->
      (forallb (fun '(u, v) => eqb u v) (combine l m) = true <-> l = m).
  Proof.
    intros H; induction l as [|x l IH]; intros [|y m] E; cbn in *; try discriminate.
    - tauto.
    - inv E; rewrite andb_true_iff, H, IH by assumption; split; [intros [-> ->]|intros E; inv E]; auto.
  Qed.

  Lemma bd_eqb_rep (eqb : R -> R -> bool) a b s t :
    (forall x y, eqb x y = true <-> x = y) -> bd_rep a s -> bd_rep b t ->
    exists r, bd_eqb eqb a b = Some r /\ (r = true <-> forall q, In q s <-> In q t).
  Proof.
    intros H [Ns (vs & Ia)] [Nt (ws & Ib)]; unfold bd_eqb.
    rewrite (bd_len_spec _ _ _ Ia), (bd_len_spec _ _ _ Ib).
    rewrite (bd_iter_spec _ _ _ Ia), (bd_iter_spec _ _ _ Ib); cbn.
    destruct (_ =? _) eqn:E.
    - apply Nat.eqb_eq in E; eexists; split; [reflexivity|].
      rewrite (forallb_combine (quad_eqb eqb eqb eqb eqb)); [|now apply quad_eqb_spec|exact E].
      now apply sorted_elements_ext.
    - apply Nat.eqb_neq in E; exists false; split; [reflexivity|]; split; [discriminate|].
      intros Hq; exfalso; apply E; f_equal; now apply sorted_elements_ext.
  Qed.

  Lemma bd_cmp_rep a b s t :
    bd_rep a s -> bd_rep b t ->
    bd_cmp cmp a b =
      Some (list_cmp qcmp (sorted_elements qcmp s) (sorted_elements qcmp t)).
  Proof.
    intros [Ns (vs & Ia)] [Nt (ws & Ib)]; unfold bd_cmp.
    now rewrite (bd_iter_spec _ _ _ Ia), (bd_iter_spec _ _ _ Ib).
  Qed.

  Lemma bd_hash_rep d s :
    bd_rep d s -> bd_hash_input d = Some (length s, sorted_elements qcmp s).
  Proof.
    intros [Ns (vs & I)]; unfold bd_hash_input.
    rewrite (bd_iter_spec _ _ _ I), (bd_len_spec _ _ _ I), length_sorted by assumption; reflexivity.
  Qed.

  Lemma bd_serialize_rep d s :
    bd_rep d s -> bd_serialize d = Some (length s, sorted_elements qcmp s).
  Proof. exact (bd_hash_rep d s). Qed.

  Lemma bd_iter_rep d s : bd_rep d s -> bd_iter d = Some (sorted_elements qcmp s).
  Proof. intros [_ (vs & I)]; exact (bd_iter_spec _ _ _ I). Qed.

  Lemma in_fold_add l : forall s q,
    In q (fold_left (fun s q => add qcmp q s) l s) <-> In q s \/ In q l.
  Proof.
    induction l as [|x l IH]; intros s q; cbn; [tauto|].
    rewrite IH, (in_add LQ); intuition congruence.
  Qed.

  (** ** Resources *)
  Lemma bd_value_used d ks vs r w :
    bd_inv d ks vs -> br_val (bd_resources d) r = Some w -> occurs quad_comps w ks.
  Proof.
    intros [_ I2 [I3 _] I4] Hw.
    assert (Hp : 0 < refs (bd_quads d) (bd_qi d) r)
      by (apply (rinv_live _ _ _ _ _ I4); congruence).
    apply sumf_pos in Hp as (i & Hi & Hp).
    destruct (mapM_in_inv _ _ _ _ I3 Hi) as (q & Hq & Hin).
    unfold b_quad_at in Hq; destruct (sget (bd_quads d) i) as [x|]; [|lia]; cbn in Hq.
    exists q; split; [exact Hin|].
    apply qwr_some in Hq as (A & B & C & D); apply qrefs_pos in Hp; unfold quad_comps; cbn.
    destruct Hp as [Hg|[Hg|[Hg|Hg]]].
    - left; congruence.
    - right; left; congruence.
    - right; right; left; congruence.
    - rewrite Hg in D; destruct (q_g q); [|contradiction].
      right; right; right; left; congruence.
  Qed.

  Lemma bd_vs_used d ks vs w : bd_inv d ks vs -> In w vs -> occurs quad_comps w ks.
  Proof.
    intros I Hw; pose proof (bi_res _ _ _ I) as [_ _ [H _]].
    apply (mapM_in _ _ _ _ H) in Hw as (i & _ & Hi); eapply bd_value_used; eauto.
  Qed.

  Lemma bd_used_vs (W : R -> Prop) d ks vs w :
    bd_inv d ks vs -> bd_exact W d -> W w -> occurs quad_comps w ks -> In w vs.
  Proof.
    intros I X HW (q & Hq & Hw).
    pose proof (bi_res _ _ _ I) as [_ _ [H _]].
    pose proof (bi_idx _ _ _ I) as [H3 _].
    apply (mapM_in _ _ _ _ H3) in Hq as (i & Hi & Hq).
    unfold b_quad_at in Hq; destruct (sget (bd_quads d) i) as [x|]; [|discriminate]; cbn in Hq.
    apply qwr_some in Hq as (A & B & C & D).
    assert (exists r, br_val (bd_resources d) r = Some w) as (r & Hr).
    { unfold quad_comps in Hw; cbn in Hw; destruct Hw as [<-|[<-|[<-|Hw]]]; eauto.
      destruct (q_g q); [|destruct Hw]; destruct Hw as [<-|[]].
      destruct (q_g x); [|contradiction]; eauto. }
    apply (mapM_in _ _ _ _ H); exists r; split; [|exact Hr].
    eapply X; eauto.
  Qed.

  Lemma occurs_sorted w s : occurs quad_comps w (sorted_elements qcmp s) <-> occurs quad_comps w s.
  Proof.
    split; intros (q & Hq & Hw); exists q; split; auto;
      apply (in_sorted_elements (cmp:=qcmp)); assumption.
  Qed.

  Lemma norepeat_known W d s vs q :
    bd_inv d (sorted_elements qcmp s) vs -> bd_exact W d ->
    repeats_known quad_comps W s q -> norepeat W vs q.
  Proof.
    intros I X Hk i j r Hw Hij Hi Hj.
    eapply bd_used_vs; eauto; apply occurs_sorted; eapply Hk; [exact Hw|exact Hij|exact Hi|exact Hj].
  Qed.

  Definition bd_xrep W d s := bd_rep d s /\ bd_exact W d.

  Lemma bd_insert_xrep W d s q :
    bd_xrep W d s -> repeats_known quad_comps W s q ->
    exists d' b, bd_insert cmp keep d q = Some (b, d') /\ bd_xrep W d' (add qcmp q s).
  Proof.
    intros [[Hn (vs & I)] X] Hk; destruct (mem qcmp q s) eqn:E.
    - exists d, false; split.
      + eapply bd_insert_dup; [exact I|]; apply in_sorted_elements; now apply (mem_true LQ).
      + unfold add; rewrite E; split; [split|]; eauto.
    - assert (~ In q s) by now apply (mem_false LQ).
      destruct (bd_insert_spec _ _ _ q I) as (d' & vs' & E' & I' & _ & X').
      { now rewrite in_sorted_elements. }
      exists d', true; split; [exact E'|]; split; [split; [now apply (nodup_add LQ)|]|].
      + exists vs'; rewrite <- (place_ext q _ s Hn eq_refl) by assumption; exact I'.
      + apply X'; [exact X|]; eapply norepeat_known; eauto.
  Qed.

  Lemma bd_remove_xrep W d s q :
    bd_xrep W d s ->
    exists d' b, bd_remove cmp d q = Some (b, d') /\ bd_xrep W d' (del qcmp q s).
  Proof.
    intros [[Hn (vs & I)] X].
    destruct (bd_remove_spec _ _ _ q I) as (d' & vs' & E' & I' & _ & X').
    exists d', (mem qcmp q (sorted_elements qcmp s)); split; [exact E'|].
    split; [split|auto].
    - now apply (nodup_del (cmp:=qcmp)).
    - exists vs'; rewrite <- del_ext by assumption; exact I'.
  Qed.

  Lemma bd_extend_xrep W l : forall d s,
    bd_xrep W d s -> extend_known qcmp quad_comps W s l ->
    exists d', bd_extend cmp keep d l = Some d' /\
               bd_xrep W d' (fold_left (fun s q => add qcmp q s) l s).
  Proof.
    induction l as [|q l IH]; intros d s H Hk; cbn; [eauto|]; destruct Hk as [Hq Hk].
    destruct (bd_insert_xrep _ _ _ q H Hq) as (d1 & b & -> & H1); cbn; auto.
  Qed.

  Lemma bd_step_xrep W d s o x d' :
    bd_xrep W d s ->
    match o with
    | Insert q => repeats_known quad_comps W s q
    | Extend l => extend_known qcmp quad_comps W s l
    | _ => True
    end ->
    bd_step cmp keep d o = Some (x, d') -> bd_xrep W d' (snd (spec_step qcmp s o)).
  Proof.
    intros H Hk E; destruct o as [q|q|l|q| | | |]; cbn in *.
    - destruct (bd_insert_xrep _ _ _ q H Hk) as (d1 & b & E1 & H1); rewrite E1 in E; inv E; exact H1.
    - destruct (bd_remove_xrep _ _ _ q H) as (d1 & b & E1 & H1); rewrite E1 in E; inv E; exact H1.
    - destruct (bd_extend_xrep _ _ _ _ H Hk) as (d1 & E1 & H1); rewrite E1 in E; inv E; exact H1.
    - destruct (bd_contains cmp d q); inv E; exact H.
    - inv E; exact H.
    - inv E; exact H.
    - destruct (bd_iter d); inv E; exact H.
    - destruct (bd_into_iter d); inv E; exact H.
  Qed.

  Lemma bd_run_xrep W ops : forall d s xs d',
    bd_xrep W d s -> known_history qcmp quad_comps W s ops ->
    run (bd_step cmp keep) d ops = Some (xs, d') -> bd_xrep W d' (snd (spec_run qcmp s ops)).
  Proof.
    induction ops as [|o ops IH]; intros d s xs d' H Hk E; cbn in *; [inv E; exact H|].
    destruct Hk as [Ho Hk].
    destruct (bd_step cmp keep d o) as [[x d1]|] eqn:E1; [|discriminate].
    pose proof (bd_step_xrep _ _ _ _ _ _ H Ho E1) as H1.
    destruct (run (bd_step cmp keep) d1 ops) as [[ys d2]|] eqn:E2; [|discriminate]; inv E.
    destruct (spec_step qcmp s o) as [x' s1] eqn:Es; cbn in *.
    pose proof (IH _ _ _ _ H1 Hk E2) as H2.
    destruct (spec_run qcmp s1 ops); exact H2.
  Qed.

  Lemma bd_xrep_new W : bd_xrep W bd_new [].
  Proof.
    split; [apply bd_rep_new|]; intros r w; unfold br_val, sget; cbn; now destruct r.
  Qed.

  (** What [resources] and [contains_resource] answer. *)
  Lemma bd_resources_sound d s :
    bd_rep d s ->
    exists l, bd_resources_iter d = Some l /\ ssorted (cmp:=cmp) l /\
      (forall r, bd_contains_resource cmp d r = Some (mem cmp r l)) /\
      (forall r, In r l -> occurs quad_comps r s).
  Proof.
    intros [Hn (vs & I)]; pose proof (bi_res _ _ _ I) as Ir.
    exists vs; split; [apply (ri_idx _ _ _ _ Ir)|]; split; [apply (ri_idx _ _ _ _ Ir)|]; split.
    - intros r; unfold bd_contains_resource.
      destruct (index_of_resource_spec L _ _ _ _ r Ir) as (f & -> & Hf); cbn; f_equal; symmetry.
      destruct f; cbn; [apply (mem_true L); tauto|now apply (mem_false L)].
    - intros r Hr; apply occurs_sorted; eapply bd_vs_used; eauto.
  Qed.

  Lemma bd_resources_exact d s :
    bd_rep d s ->
    exists l, bd_resources_iter d = Some l /\ ssorted (cmp:=cmp) l /\
      (forall r, bd_contains_resource cmp d r = Some (mem cmp r l)) /\
      (forall r, bd_exact (eq r) d -> In r l <-> occurs quad_comps r s).
  Proof.
    intros [Hn (vs & I)]; pose proof (bi_res _ _ _ I) as Ir.
    exists vs; split; [apply (ri_idx _ _ _ _ Ir)|]; split; [apply (ri_idx _ _ _ _ Ir)|]; split.
    - intros r; unfold bd_contains_resource.
      destruct (index_of_resource_spec L _ _ _ _ r Ir) as (f & -> & Hf); cbn; f_equal; symmetry.
      destruct f; cbn; [apply (mem_true L); tauto|now apply (mem_false L)].
    - intros r X; rewrite <- occurs_sorted; split; [eapply bd_vs_used; eauto|eapply (bd_used_vs (eq r)); eauto].
  Qed.

  (** ** Statements used by P_BTreeDataset.v *)
  Lemma bd_run_ok ops :
    exists d, run (bd_step cmp keep) bd_new ops = Some (spec_outs qcmp ops, d).
  Proof. destruct (bd_run_rep ops _ _ bd_rep_new) as (d & H & _); eauto. Qed.

  Lemma bd_run_rep_new ops xs d :
    run (bd_step cmp keep) bd_new ops = Some (xs, d) -> bd_rep d (spec_set qcmp ops).
  Proof.
    intros H; destruct (bd_run_rep ops _ _ bd_rep_new) as (d' & H' & R'); rewrite H in H'; inv H'.
    exact R'.
  Qed.

  Lemma bd_iteration ops xs d :
    run (bd_step cmp keep) bd_new ops = Some (xs, d) ->
    exists l, bd_iter d = Some l /\ bd_into_iter d = Some l /\
      increasing qcmp l /\ (forall q, In q l <-> In q (spec_set qcmp ops)).
  Proof.
    intros H; apply bd_run_rep_new in H as [Hn (vs & I)].
    exists (sorted_elements qcmp (spec_set qcmp ops)); split; [|split; [|split]].
    - eapply bd_iter_spec; eauto.
    - eapply bd_into_iter_spec; eauto.
    - now apply (sorted_elements_sorted LQ).
    - intros q; apply in_sorted_elements.
  Qed.

  Lemma bd_equality (eqb : R -> R -> bool) ops1 ops2 xs1 xs2 d1 d2 :
    (forall x y, eqb x y = true <-> x = y) ->
    run (bd_step cmp keep) bd_new ops1 = Some (xs1, d1) ->
    run (bd_step cmp keep) bd_new ops2 = Some (xs2, d2) ->
    exists b h1 h2, bd_eqb eqb d1 d2 = Some b /\
      bd_hash_input d1 = Some h1 /\ bd_hash_input d2 = Some h2 /\
      (b = true <-> forall q, In q (spec_set qcmp ops1) <-> In q (spec_set qcmp ops2)) /\
      (b = true <-> bd_cmp cmp d1 d2 = Some Eq) /\
      (b = true <-> h1 = h2).
  Proof.
    intros He H1 H2; apply bd_run_rep_new in H1, H2.
    destruct (bd_eqb_rep eqb _ _ _ _ He H1 H2) as (b & Eb & Hb).
    eexists b, _, _; split; [exact Eb|]; split; [apply bd_hash_rep; eauto|].
    split; [apply bd_hash_rep; eauto|]; split; [exact Hb|].
    destruct H1 as [N1 I1], H2 as [N2 I2].
    split.
    - rewrite (bd_cmp_rep _ _ _ _ (conj N1 I1) (conj N2 I2)), Hb.
      rewrite <- (sorted_elements_ext _ _ N1 N2), <- (ord_eq _ (list_cmp_laws LQ)).
      split; congruence.
    - rewrite Hb, <- (sorted_elements_ext _ _ N1 N2); split.
      + intros E; f_equal; [|exact E].
        rewrite <- (length_sorted _ N1), E; now apply length_sorted.
      + intros E; inv E; reflexivity.
  Qed.

  Lemma bd_ordering ops1 ops2 xs1 xs2 d1 d2 :
    run (bd_step cmp keep) bd_new ops1 = Some (xs1, d1) ->
    run (bd_step cmp keep) bd_new ops2 = Some (xs2, d2) ->
    exists l1 l2, bd_iter d1 = Some l1 /\ bd_iter d2 = Some l2 /\
      bd_cmp cmp d1 d2 = Some (list_cmp qcmp l1 l2) /\ ord_laws (list_cmp qcmp).
  Proof.
    intros H1 H2; apply bd_run_rep_new in H1, H2.
    eexists _, _; split; [apply bd_iter_rep; eauto|]; split; [apply bd_iter_rep; eauto|].
    split; [now apply bd_cmp_rep|apply (list_cmp_laws LQ)].
  Qed.

  Lemma bd_collect l :
    exists d, bd_from_iter cmp keep l = Some d /\
      exists m, bd_iter d = Some m /\ increasing qcmp m /\ forall q, In q m <-> In q l.
  Proof.
    destruct (bd_extend_rep l _ _ bd_rep_new) as (d & E & H); exists d; split; [exact E|].
    eexists; split; [apply bd_iter_rep; eauto|]; split.
    - destruct H as [Hn _]; now apply (sorted_elements_sorted LQ).
    - intros q; rewrite in_sorted_elements, in_fold_add; cbn; tauto.
  Qed.

  Lemma bd_extending ops xs d l :
    run (bd_step cmp keep) bd_new ops = Some (xs, d) ->
    exists d' m, bd_extend cmp keep d l = Some d' /\ bd_iter d' = Some m /\ increasing qcmp m /\
      forall q, In q m <-> In q (spec_set qcmp ops) \/ In q l.
  Proof.
    intros H; apply bd_run_rep_new in H.
    destruct (bd_extend_rep l _ _ H) as (d' & E & H'); eexists d', _; split; [exact E|].
    split; [apply bd_iter_rep; eauto|]; split.
    - destruct H' as [Hn _]; now apply (sorted_elements_sorted LQ).
    - intros q; rewrite in_sorted_elements, in_fold_add; tauto.
  Qed.

  Lemma bd_rebuild (eqb : R -> R -> bool) ops xs d :
    (forall x y, eqb x y = true <-> x = y) ->
    run (bd_step cmp keep) bd_new ops = Some (xs, d) ->
    exists l d', bd_iter d = Some l /\ bd_serialize d = Some (length l, l) /\
      bd_from_iter cmp keep l = Some d' /\ bd_eqb eqb d d' = Some true.
  Proof.
    intros He H; apply bd_run_rep_new in H.
    set (l := sorted_elements qcmp (spec_set qcmp ops)).
    destruct (bd_extend_rep l _ _ bd_rep_new) as (d' & E & H').
    exists l, d'; split; [now apply bd_iter_rep|]; split.
    - unfold l; rewrite length_sorted by apply H; now apply bd_serialize_rep.
    - split; [exact E|].
      destruct (bd_eqb_rep eqb _ _ _ _ He H H') as (b & Eb & Hb); rewrite Eb; f_equal.
      apply Hb; intros q; rewrite in_fold_add; cbn; unfold l; rewrite in_sorted_elements; tauto.
  Qed.

  Lemma bd_resources_used ops xs d :
    run (bd_step cmp keep) bd_new ops = Some (xs, d) ->
    exists l, bd_resources_iter d = Some l /\ increasing cmp l /\
      (forall r, bd_contains_resource cmp d r = Some (mem cmp r l)) /\
      (forall r, In r l -> occurs quad_comps r (spec_set qcmp ops)).
  Proof. intros H; apply bd_run_rep_new in H; now apply bd_resources_sound. Qed.

  Lemma bd_resources_exactly ops xs d :
    run (bd_step cmp keep) bd_new ops = Some (xs, d) ->
    exists l, bd_resources_iter d = Some l /\ increasing cmp l /\
      (forall r, bd_contains_resource cmp d r = Some (mem cmp r l)) /\
      (forall r, known_history qcmp quad_comps (eq r) [] ops ->
         In r l <-> occurs quad_comps r (spec_set qcmp ops)).
  Proof.
    intros H; pose proof (bd_run_rep_new _ _ _ H) as Hr.
    destruct (bd_resources_exact _ _ Hr) as (l & A & B & C & D).
    exists l; split; [exact A|]; split; [exact B|]; split; [exact C|]; intros r Hk; apply D.
    eapply (bd_run_xrep (eq r)); eauto; apply bd_xrep_new.
  Qed.
End Proofs.

Lemma bd_run_total {R} {cmp : R -> R -> comparison} (L : ord_laws cmp) keep ops :
  run (bd_step cmp keep) bd_new ops <> None.
Proof. destruct (bd_run_ok L keep ops) as (d & ->); discriminate. Qed.

(** insert (1 1 2), insert (3 1 4), remove (1 1 2) *)
Definition bd_bad_ops : list (op (quad nat)) :=
  [Insert (Quad 1 1 2 None); Insert (Quad 3 1 4 None); Remove (Quad 1 1 2 None)].

Lemma bd_resources_counterexample :
  exists (ops : list (op (quad nat))) xs d r,
    forall keep,
      run (bd_step Nat.compare keep) bd_new ops = Some (xs, d keep) /\
      occurs quad_comps r (spec_set (quad_cmp Nat.compare) ops) /\
      bd_contains_resource Nat.compare (d keep) r = Some false.
Proof.
  exists bd_bad_ops, [OBool true; OBool true; OBool true],
    (fun keep => match run (bd_step Nat.compare keep) bd_new bd_bad_ops with
                 | Some (_, d) => d | None => bd_new end), 1.
  intros keep; split; [|split].
  - destruct keep; vm_compute; reflexivity.
  - exists (Quad 3 1 4 None); vm_compute; auto.
  - destruct keep; vm_compute; reflexivity.
Qed.
