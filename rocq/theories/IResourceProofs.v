(** The resource table of the indexed containers: invariant and transitions. *)
From Coq Require Import List Bool Arith Lia Permutation Sorted.
Import ListNotations.
From Verif Require Import Base SlabModel TripleModel TriplePatternModel SetSpec BaseProofs
  IResourceModel.
Open Scope panic_scope.

(** ** Sets of numbers *)
Notation nsorted := (ssorted (cmp:=Nat.compare)).

Lemma nsorted_cons x l : nsorted (x :: l) <-> nsorted l /\ forall y, In y l -> x < y.
Proof.
  split.
  - intros H; apply StronglySorted_inv in H as [H F]; split; [assumption|].
    rewrite Forall_forall in F; intros y Hy; now apply Nat.compare_lt_iff, F.
  - intros [H F]; constructor; [assumption|]; rewrite Forall_forall.
    intros y Hy; unfold lt; apply Nat.compare_lt_iff; auto.
Qed.

Lemma in_ns_insert x l y : In y (ns_insert x l) <-> y = x \/ In y l.
Proof.
  induction l as [|z l IH]; cbn; [intuition|].
  destruct (Nat.compare x z) eqn:E; cbn.
  - apply Nat.compare_eq_iff in E; subst; intuition.
  - intuition.
  - rewrite IH; intuition.
Qed.

Lemma ns_insert_sorted x l : nsorted l -> nsorted (ns_insert x l).
Proof.
  induction l as [|z l IH]; cbn; intros H.
  - repeat constructor.
  - destruct (Nat.compare x z) eqn:E; [assumption| |].
    + apply Nat.compare_lt_iff in E; apply nsorted_cons; split; [assumption|].
      apply nsorted_cons in H as [H F]; intros y [<-|Hy]; [assumption|].
      specialize (F _ Hy); lia.
    + apply nsorted_cons in H as [H F]; apply Nat.compare_gt_iff in E.
      apply nsorted_cons; split; [auto|]; intros y Hy.
      apply in_ns_insert in Hy as [->|Hy]; auto.
Qed.

Lemma in_ns_remove x l y : nsorted l -> (In y (ns_remove x l) <-> y <> x /\ In y l).
Proof.
  induction l as [|z l IH]; intros H; [cbn; tauto|].
  apply nsorted_cons in H as [H F]; cbn.
  destruct (Nat.compare x z) eqn:E; cbn.
  - apply Nat.compare_eq_iff in E; subst; split.
    + intros Hy; specialize (F _ Hy); split; [lia|auto].
    + intros [Hn [->|Hy]]; [congruence|assumption].
  - apply Nat.compare_lt_iff in E; split; [|tauto].
    intros Hy; split; [|assumption]; destruct Hy as [<-|Hy]; [lia|]; specialize (F _ Hy); lia.
  - apply Nat.compare_gt_iff in E; rewrite IH by assumption; split.
    + intros [<-|[? ?]]; [split; [lia|auto]|auto].
    + tauto.
Qed.

Lemma ns_remove_sorted x l : nsorted l -> nsorted (ns_remove x l).
Proof.
  induction l as [|z l IH]; cbn; intros H; [assumption|].
  pose proof H as H0; apply nsorted_cons in H as [H F].
  destruct (Nat.compare x z); [assumption|assumption|].
  apply nsorted_cons; split; [auto|]; intros y Hy; apply in_ns_remove in Hy; [|assumption].
  apply F; tauto.
Qed.

Lemma ns_mem_true x l : nsorted l -> (ns_mem x l = true <-> In x l).
Proof.
  induction l as [|z l IH]; cbn; intros H; [intuition discriminate|].
  apply nsorted_cons in H as [H F].
  destruct (Nat.compare x z) eqn:E.
  - apply Nat.compare_eq_iff in E; subst; intuition.
  - apply Nat.compare_lt_iff in E; split; [discriminate|].
    intros [->|Hx]; [lia|specialize (F _ Hx); lia].
  - apply Nat.compare_gt_iff in E; rewrite IH by assumption; split; [auto|].
    intros [->|]; [lia|assumption].
Qed.

Lemma nsorted_nil : nsorted [].
Proof. constructor. Qed.

Lemma nsorted_one x : nsorted [x].
Proof. repeat constructor. Qed.

(** ** Resources *)
Section Proofs.
  Context {R : Type} {cmp : R -> R -> comparison} (L : ord_laws cmp).
  Context (keep : bool).

  Definition pos_eq_dec (p q : pos) : {p = q} + {p <> q}.
  Proof. decide equality. Defined.

  Lemma ir_at_upd (p q : pos) f (x : iresource R) :
    ir_at q (ir_upd p f x) = if pos_eq_dec q p then f (ir_at q x) else ir_at q x.
  Proof. destruct p, q; reflexivity. Qed.

  Lemma ir_value_upd p f (x : iresource R) : ir_value (ir_upd p f x) = ir_value x.
  Proof. destruct p; reflexivity. Qed.

  Lemma ir_at_single p q (v : R) i :
    ir_at q (ir_single p v i) = if pos_eq_dec q p then [i] else [].
  Proof. destruct p, q; reflexivity. Qed.

  Lemma ir_value_single p (v : R) i : ir_value (ir_single p v i) = v.
  Proof. destruct p; reflexivity. Qed.

  Lemma is_nil_true {A} (l : list A) : is_nil l = true <-> l = [].
  Proof. destruct l; cbn; split; congruence. Qed.

  Lemma ir_is_empty_true (x : iresource R) :
    ir_is_empty x = true <-> forall p, ir_at p x = [].
  Proof.
    unfold ir_is_empty; rewrite !andb_true_iff, !is_nil_true; split.
    - intros (((A & B) & C) & D) []; assumption.
    - intros H; repeat split; [apply (H PosS)|apply (H PosP)|apply (H PosO)|apply (H PosG)].
  Qed.

  Lemma ir_is_empty_false (x : iresource R) :
    ir_is_empty x = false -> exists p i, In i (ir_at p x).
  Proof.
    unfold ir_is_empty; intros H.
    destruct (ir_s x) as [|i l] eqn:E1; [|exists PosS, i; cbn; rewrite E1; now left].
    destruct (ir_p x) as [|i l] eqn:E2; [|exists PosP, i; cbn; rewrite E2; now left].
    destruct (ir_o x) as [|i l] eqn:E3; [|exists PosO, i; cbn; rewrite E3; now left].
    destruct (ir_g x) as [|i l] eqn:E4; [|exists PosG, i; cbn; rewrite E4; now left].
    discriminate.
  Qed.

  (** [U p r i]: the quad [i] uses slot [r] at position [p]. *)
  Record irinv (rs : slab (iresource R)) (ri : list nat) (vs : list R)
      (U : pos -> nat -> nat -> Prop) : Prop := {
    iri_wf : swf rs;
    iri_use : forall r x, sget rs r = Some x ->
      (forall p, nsorted (ir_at p x) /\ forall i, In i (ir_at p x) <-> U p r i) /\
      exists p i, U p r i;
    iri_dead : forall r, sget rs r = None -> forall p i, ~ U p r i;
    iri_idx : indexes (cmpk:=cmp) (ir_val rs) ri vs
  }.

  Lemma irinv_ext rs ri vs U U' :
    (forall p r i, U p r i <-> U' p r i) -> irinv rs ri vs U -> irinv rs ri vs U'.
  Proof.
    intros H [H1 H2 H3 H4]; split; auto.
    - intros r x Hx; destruct (H2 r x Hx) as [A (p & i & B)]; split.
      + intros q; destruct (A q) as [A1 A2]; split; [assumption|].
        intros j; rewrite A2; apply H.
      + exists p, i; now apply H.
    - intros r Hr p i HU; apply (H3 r Hr p i); now apply H.
  Qed.

  Lemma irinv_new U : (forall p r i, ~ U p r i) -> irinv slab_new [] [] U.
  Proof.
    intros H; split; [apply swf_new| | |repeat constructor].
    - intros r x Hx; unfold sget in Hx; cbn in Hx; destruct r; discriminate.
    - auto.
  Qed.

  Lemma irinv_live rs ri vs U p r i : irinv rs ri vs U -> U p r i -> exists v, ir_val rs r = Some v.
  Proof.
    intros [_ _ H _] HU; unfold ir_val; destruct (sget rs r) eqn:E; cbn; [eauto|].
    exfalso; eapply H; eauto.
  Qed.

  Lemma ir_val_sset (rs : slab (iresource R)) k x y j :
    sget rs k = Some x -> ir_value y = ir_value x -> ir_val (sset rs k y) j = ir_val rs j.
  Proof.
    intros H E; unfold ir_val; rewrite (sget_sset _ _ _ _ _ H).
    destruct (j =? k) eqn:Ej; [|reflexivity].
    apply Nat.eqb_eq in Ej; subst; rewrite H; cbn; congruence.
  Qed.

  Lemma i_index_of_resource_spec rs ri vs U v :
    irinv rs ri vs U ->
    exists f, i_index_of_resource cmp rs ri v = Some f /\
      match f with
      | Some i => In i ri /\ ir_val rs i = Some v /\ In v vs
      | None => ~ In v vs
      end.
  Proof.
    intros [_ _ _ H].
    destruct (bt_get_spec L (ir_val rs) ri vs v H) as (r & Hr & Hs); eauto.
  Qed.

  (** The resources among [W] are all found. *)
  Definition irexact (W : R -> Prop) (rs : slab (iresource R)) (ri : list nat) : Prop :=
    forall r w, ir_val rs r = Some w -> W w -> In r ri.

  Lemma i_acquire_spec rs ri vs U p i v f :
    irinv rs ri vs U ->
    match f with Some k => ir_val rs k = Some v /\ In v vs | None => True end ->
    exists k rs' ri' vs',
      i_acquire cmp keep rs ri p i v f = Some (k, rs', ri') /\
      irinv rs' ri' vs' (fun p' r j => U p' r j \/ (p' = p /\ r = k /\ j = i)) /\
      ir_val rs' k = Some v /\
      (forall j w, ir_val rs j = Some w -> ir_val rs' j = Some w) /\
      (forall w, In w vs' <-> w = v \/ In w vs) /\
      (forall W, irexact W rs ri -> (W v -> f = None -> ~ In v vs) -> irexact W rs' ri').
  Proof.
    intros I Hf; destruct f as [k|]; cbn.
    - destruct Hf as [Hv Hin].
      destruct (sget rs k) as [x|] eqn:E; [|unfold ir_val in Hv; rewrite E in Hv; discriminate].
      cbn.
      set (y := ir_upd p (ns_insert i) x).
      assert (V : forall j, ir_val (sset rs k y) j = ir_val rs j)
        by (intros; apply ir_val_sset with x; [assumption|apply ir_value_upd]).
      exists k, (sset rs k y), ri, vs; split; [reflexivity|].
      destruct I as [I1 I2 I3 I4]; split; [split|].
      + now apply swf_sset with x.
      + intros r z; rewrite (sget_sset _ _ _ _ _ E).
        destruct (r =? k) eqn:Er.
        * apply Nat.eqb_eq in Er; subst r; intros Hz; inv Hz.
          destruct (I2 _ _ E) as [A (p0 & i0 & B)]; split; [|exists p0, i0; auto].
          intros q; destruct (A q) as [A1 A2]; unfold y; rewrite ir_at_upd.
          destruct (pos_eq_dec q p) as [->|Hq].
          -- split; [now apply ns_insert_sorted|]; intros j; rewrite in_ns_insert, A2; intuition.
          -- split; [assumption|]; intros j; rewrite A2; intuition.
        * intros Hz; apply Nat.eqb_neq in Er; destruct (I2 _ _ Hz) as [A (p0 & i0 & B)].
          split; [|exists p0, i0; auto]; intros q; destruct (A q) as [A1 A2]; split; [assumption|].
          intros j; rewrite A2; intuition.
      + intros r; rewrite (sget_sset _ _ _ _ _ E); destruct (r =? k) eqn:Er; [discriminate|].
        apply Nat.eqb_neq in Er; intros Hr q j [HU|(_ & -> & _)]; [|congruence].
        eapply I3; eauto.
      + eapply indexes_ext; [|exact I4]; auto.
      + split; [now rewrite V|]; split; [intros j w; now rewrite V|]; split.
        * intros w; split; [auto|intros [->|]; auto].
        * intros W Hex _ r w; rewrite V; apply Hex.
    - clear Hf; destruct I as [I1 I2 I3 I4].
      set (k := vacant_key rs); set (rs' := sinsert rs (ir_single p v i)).
      assert (Hk : sget rs k = None) by (now apply sget_vacant).
      assert (G : forall j, sget rs' j = if j =? k then Some (ir_single p v i) else sget rs j)
        by (intros; now apply sget_sinsert).
      assert (Vk : ir_val rs' k = Some v)
        by (unfold ir_val; rewrite G, Nat.eqb_refl; cbn; now rewrite ir_value_single).
      assert (V : forall j w, ir_val rs j = Some w -> ir_val rs' j = Some w).
      { intros j w; unfold ir_val; rewrite G; destruct (j =? k) eqn:Ej; [|auto].
        apply Nat.eqb_eq in Ej; subst j; rewrite Hk; discriminate. }
      assert (Hidx : indexes (cmpk:=cmp) (ir_val rs') ri vs).
      { eapply indexes_ext; [|exact I4].
        intros j Hj; destruct I4 as [HM _].
        destruct (mapM_in_inv _ _ _ _ HM Hj) as (w & Hw & _); rewrite Hw; auto. }
      assert (Huse : forall r x, sget rs' r = Some x ->
        (forall q, nsorted (ir_at q x) /\
           forall j, In j (ir_at q x) <-> U q r j \/ (q = p /\ r = k /\ j = i)) /\
        exists q j, U q r j \/ (q = p /\ r = k /\ j = i)).
      { intros r x; rewrite G; destruct (r =? k) eqn:Er.
        - apply Nat.eqb_eq in Er; subst r; intros Hz; inv Hz; split; [|exists p, i; auto].
          intros q; rewrite ir_at_single; destruct (pos_eq_dec q p) as [->|Hq].
          + split; [apply nsorted_one|]; intros j; cbn; split; [intuition|].
            intros [HU|(_ & _ & ->)]; [exfalso; eapply I3; eauto|auto].
          + split; [apply nsorted_nil|]; intros j; cbn; split; [tauto|].
            intros [HU|(? & _)]; [eapply I3; eauto|contradiction].
        - apply Nat.eqb_neq in Er; intros Hz; destruct (I2 _ _ Hz) as [A (p0 & i0 & B)].
          split; [|exists p0, i0; auto]; intros q; destruct (A q) as [A1 A2]; split; [assumption|].
          intros j; rewrite A2; intuition. }
      assert (Hdead : forall r, sget rs' r = None ->
        forall q j, ~ (U q r j \/ (q = p /\ r = k /\ j = i))).
      { intros r; rewrite G; destruct (r =? k) eqn:Er; [discriminate|].
        apply Nat.eqb_neq in Er; intros Hr q j [HU|(_ & -> & _)]; [eapply I3; eauto|congruence]. }
      destruct (in_dec (ord_dec L) v vs) as [Hin|Hnin].
      + destruct (bt_insert_dup L (ir_val rs') keep ri vs k v Hidx Vk Hin)
          as (ri' & Hins & Hsub & Hidx').
        exists k, rs', ri', vs; split.
        { change (i_resource_index_cmp cmp rs') with (icmp (cmpk:=cmp) (ir_val rs')).
          now rewrite Hins. }
        split; [split; [now apply swf_sinsert|exact Huse|exact Hdead|assumption]|].
        split; [assumption|]; split; [assumption|].
        split; [intros w; split; [auto|intros [->|]; auto]|].
        intros W Hex Hn r w Hr Hw.
        assert (w <> v) as Hwv by (intros ->; now apply (Hn Hw)).
        assert (ir_val rs r = Some w) as Hr'.
        { destruct (Nat.eq_dec r k) as [->|Hne]; [congruence|].
          apply Nat.eqb_neq in Hne; unfold ir_val in Hr; now rewrite G, Hne in Hr. }
        eapply (insert_dup_others L (ir_val rs') ri ri' vs k v r w); eauto.
      + destruct (bt_insert_new L (ir_val rs') keep ri vs k v Hidx Vk Hnin)
          as (ri' & Hins & HP & Hidx').
        exists k, rs', ri', (place cmp v vs); split.
        { change (i_resource_index_cmp cmp rs') with (icmp (cmpk:=cmp) (ir_val rs')).
          now rewrite Hins. }
        split; [split; [now apply swf_sinsert|exact Huse|exact Hdead|assumption]|].
        split; [assumption|]; split; [assumption|].
        split; [intros w; apply in_place|].
        intros W Hex _ r w Hr Hw; apply (Permutation_in _ (Permutation_sym HP)); cbn.
        unfold ir_val in Hr; rewrite G in Hr.
        destruct (r =? k) eqn:Er; [left; symmetry; now apply Nat.eqb_eq|right; eauto].
  Qed.

  Definition ifinds {K} (rcmp : slab (iresource R) -> nat -> K -> option comparison) (key : K)
      (v : R) (k : nat) : Prop :=
    forall rs ri, ir_val rs k = Some v ->
      bt_remove (rcmp rs) key ri = bt_remove (kcmp (cmpk:=cmp) (ir_val rs)) v ri.

  Lemma ifinds_value v k : ifinds (i_resource_cmp cmp) v v k.
  Proof. intros rs ri _; reflexivity. Qed.

  Lemma ifinds_index v k : ifinds (i_resource_index_cmp cmp) k v k.
  Proof. intros rs ri H; now apply bt_remove_icmp. Qed.

  Lemma i_release_spec {K} rcmp (key : K) rs ri vs U p i k v :
    irinv rs ri vs U -> ir_val rs k = Some v -> ifinds rcmp key v k ->
    exists rs' ri' vs' dropped,
      i_release rcmp rs ri p i k key = Some (rs', ri', dropped) /\
      irinv rs' ri' vs' (fun p' r j => U p' r j /\ ~ (p' = p /\ r = k /\ j = i)) /\
      (forall j w, ir_val rs' j = Some w -> ir_val rs j = Some w) /\
      (forall w, In w vs' <-> In w vs /\ forall j, ir_val rs j = Some w -> ir_val rs' j <> None) /\
      (forall W, irexact W rs ri -> irexact W rs' ri') /\
      (dropped = true <-> sget rs' k = None).
  Proof.
    intros [I1 I2 I3 I4] Hv Hf; unfold i_release.
    destruct (sget rs k) as [x|] eqn:E; [|unfold ir_val in Hv; rewrite E in Hv; discriminate].
    cbn.
    set (y := ir_upd p (ns_remove i) x).
    assert (V : forall j, ir_val (sset rs k y) j = ir_val rs j)
      by (intros; apply ir_val_sset with x; [assumption|apply ir_value_upd]).
    assert (Hidx : indexes (cmpk:=cmp) (ir_val (sset rs k y)) ri vs)
      by (eapply indexes_ext; [|exact I4]; auto).
    pose proof (sget_sset _ _ _ y k E) as Gk; rewrite Nat.eqb_refl in Gk.
    destruct (I2 _ _ E) as [A _].
    assert (Hy : forall q, nsorted (ir_at q y) /\
      forall j, In j (ir_at q y) <-> U q k j /\ ~ (q = p /\ k = k /\ j = i)).
    { intros q; destruct (A q) as [A1 A2]; unfold y; rewrite ir_at_upd.
      destruct (pos_eq_dec q p) as [->|Hq].
      - split; [now apply ns_remove_sorted|]; intros j; rewrite in_ns_remove, A2 by assumption.
        intuition.
      - split; [assumption|]; intros j; rewrite A2; intuition. }
    destruct (ir_is_empty y) eqn:En.
    - rewrite (Hf (sset rs k y) ri) by (now rewrite V).
      destruct (bt_remove_spec L (ir_val (sset rs k y)) ri vs v Hidx)
        as (r & ri' & -> & Hidx' & Hr); cbn.
      destruct (sremove_some _ _ _ Gk) as (rs' & Hrm); rewrite Hrm; cbn.
      assert (G : forall j, sget rs' j = if j =? k then None else sget rs j).
      { intros j; rewrite (sget_sremove _ _ _ _ _ Hrm), (sget_sset _ _ _ _ _ E).
        destruct (j =? k); reflexivity. }
      exists rs', ri', (del cmp v vs), true; split; [reflexivity|].
      assert (Hnk : ~ In k ri').
      { intros Hin; destruct Hidx' as [HM _].
        destruct (mapM_in_inv _ _ _ _ HM Hin) as (w & Hw & Hw').
        rewrite V, Hv in Hw; inv Hw; apply (in_del L) in Hw'; tauto. }
      split; [split|].
      + eapply swf_sremove; [|exact Hrm]; now apply swf_sset with x.
      + intros j z; rewrite G; destruct (j =? k) eqn:Ej; [discriminate|]; apply Nat.eqb_neq in Ej.
        intros Hz; destruct (I2 _ _ Hz) as [B (p0 & i0 & C)]; split.
        * intros q; destruct (B q) as [B1 B2]; split; [assumption|]; intros n; rewrite B2; intuition.
        * exists p0, i0; intuition.
      + intros j; rewrite G; destruct (j =? k) eqn:Ej.
        * apply Nat.eqb_eq in Ej; subst; intros _ q n HU.
          rewrite ir_is_empty_true in En; destruct (Hy q) as [_ B]; specialize (En q).
          rewrite En in B; now apply B in HU.
        * intros Hj q n [HU _]; eapply I3; eauto.
      + eapply indexes_ext; [|exact Hidx']; intros j Hj.
        unfold ir_val; rewrite G, (sget_sset _ _ _ _ _ E).
        destruct (j =? k) eqn:Ej; [|reflexivity].
        apply Nat.eqb_eq in Ej; subst; contradiction.
      + split; [|split; [|split]].
        * intros j w; unfold ir_val; rewrite G; destruct (j =? k) eqn:Ej; [discriminate|auto].
        * intros w; rewrite (in_del L); split.
          -- intros [Hwv Hw]; split; [exact Hw|]; intros j Hj; unfold ir_val; rewrite G.
             destruct (j =? k) eqn:Ej; [apply Nat.eqb_eq in Ej; subst j; congruence|].
             unfold ir_val in Hj; rewrite Hj; discriminate.
          -- intros [Hw H]; split; [|exact Hw]; intros ->; apply (H _ Hv).
             unfold ir_val; rewrite G, Nat.eqb_refl; reflexivity.
        * intros W Hex j w; unfold ir_val at 1; rewrite G; destruct (j =? k) eqn:Ej; [discriminate|].
          intros Hj Hw; pose proof (Hex _ _ Hj Hw) as Hin; apply Nat.eqb_neq in Ej.
          destruct r as [n|].
          -- destruct Hr as (Vi & _ & HP); rewrite V in Vi.
             apply (Permutation_in _ HP) in Hin; destruct Hin as [<-|Hin]; [|exact Hin].
             exfalso; apply Ej; change (ir_val rs n = Some w) in Hj.
             assert (w = v) as -> by congruence.
             apply (indexes_inj L (ir_val rs) ri vs n k v I4); eauto.
          -- destruct Hr as (_ & ->); assumption.
        * rewrite G, Nat.eqb_refl; tauto.
    - exists (sset rs k y), ri, vs, false; split; [reflexivity|]; split; [split|]; auto.
      + now apply swf_sset with x.
      + intros j z; rewrite (sget_sset _ _ _ _ _ E); destruct (j =? k) eqn:Ej.
        * apply Nat.eqb_eq in Ej; subst j; intros Hz; inv Hz; split; [exact Hy|].
          destruct (ir_is_empty_false _ En) as (q & n & Hn); exists q, n; now apply Hy.
        * apply Nat.eqb_neq in Ej; intros Hz; destruct (I2 _ _ Hz) as [B (p0 & i0 & C)]; split.
          -- intros q; destruct (B q) as [B1 B2]; split; [assumption|]; intros n; rewrite B2; intuition.
          -- exists p0, i0; intuition.
      + intros j; rewrite (sget_sset _ _ _ _ _ E); destruct (j =? k) eqn:Ej; [discriminate|].
        intros Hj q n [HU _]; eapply I3; eauto.
      + split; [intros j w; now rewrite V|]; split; [|split].
        * intros w; split; [|tauto]; intros Hw; split; [exact Hw|]; intros j; rewrite V; congruence.
        * intros W Hex r w; rewrite V; apply Hex.
        * rewrite Gk; split; discriminate.
  Qed.
End Proofs.
