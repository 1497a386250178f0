(** The reference counted resource table: invariant and the two transitions. *)
From Coq Require Import List Bool Arith Lia Permutation Sorted.
Import ListNotations.
From Verif Require Import Base SlabModel TripleModel SetSpec BaseProofs BResourceModel.
Open Scope panic_scope.

Definition ind (i j : nat) : nat := if i =? j then 1 else 0.

Lemma ind_same i : ind i i = 1.
Proof. unfold ind; now rewrite Nat.eqb_refl. Qed.

Lemma ind_le i j : ind i j <= 1.
Proof. unfold ind; destruct (i =? j); lia. Qed.

Lemma ind_S i j n : ind i j = S n -> i = j /\ n = 0.
Proof. unfold ind; destruct (i =? j) eqn:E; intros H; inv H; split; [now apply Nat.eqb_eq|reflexivity]. Qed.

Section Proofs.
  Context {R : Type} {cmp : R -> R -> comparison} (L : ord_laws cmp).
  Context (keep : bool).

  (** [rc r] is the number of uses of slot [r]; [vs] the indexed values. *)
  Record rinv (rs : slab (bresource R)) (ri : list nat) (vs : list R) (rc : nat -> nat) : Prop := {
    ri_wf : swf rs;
    ri_occ : forall r, match sget rs r with
                       | Some x => br_occ x = rc r /\ 0 < rc r
                       | None => rc r = 0
                       end;
    ri_idx : indexes (cmpk:=cmp) (br_val rs) ri vs
  }.

  Lemma rinv_ext rs ri vs rc rc' :
    (forall r, rc r = rc' r) -> rinv rs ri vs rc -> rinv rs ri vs rc'.
  Proof.
    intros H [H1 H2 H3]; split; auto; intros r; specialize (H2 r); rewrite <- H; assumption.
  Qed.

  Lemma rinv_new rc : (forall r, rc r = 0) -> rinv slab_new [] [] rc.
  Proof.
    intros H; split; [apply swf_new| |repeat constructor].
    intros r; unfold sget; cbn; destruct r; cbn; auto.
  Qed.

  Lemma rinv_live rs ri vs rc r : rinv rs ri vs rc -> (br_val rs r <> None <-> 0 < rc r).
  Proof.
    intros [_ H _]; specialize (H r); unfold br_val.
    destruct (sget rs r); cbn; split; intros; try lia; try congruence; tauto.
  Qed.

  Lemma br_val_sset (rs : slab (bresource R)) k x y j :
    sget rs k = Some x -> br_value y = br_value x -> br_val (sset rs k y) j = br_val rs j.
  Proof.
    intros H E; unfold br_val; rewrite (sget_sset _ _ _ _ _ H).
    destruct (j =? k) eqn:Ej; [|reflexivity].
    apply Nat.eqb_eq in Ej; subst; rewrite H; cbn; congruence.
  Qed.

  Lemma index_of_resource_spec rs ri vs rc v :
    rinv rs ri vs rc ->
    exists f, b_index_of_resource cmp rs ri v = Some f /\
      match f with
      | Some i => In i ri /\ br_val rs i = Some v /\ In v vs
      | None => ~ In v vs
      end.
  Proof.
    intros [_ _ H].
    destruct (bt_get_spec L (br_val rs) ri vs v H) as (r & Hr & Hs); eauto.
  Qed.

  (** The resources among [W] are all found. *)
  Definition rexact (W : R -> Prop) (rs : slab (bresource R)) (ri : list nat) : Prop :=
    forall r w, br_val rs r = Some w -> W w -> In r ri.

  Lemma acquire_spec rs ri vs rc v f :
    rinv rs ri vs rc ->
    match f with Some i => br_val rs i = Some v /\ In v vs | None => True end ->
    exists k rs' ri' vs',
      b_acquire cmp keep rs ri v f = Some (k, rs', ri') /\
      rinv rs' ri' vs' (fun r => rc r + ind k r) /\
      br_val rs' k = Some v /\
      (forall j w, br_val rs j = Some w -> br_val rs' j = Some w) /\
      (forall w, In w vs' <-> w = v \/ In w vs) /\
      (forall W, rexact W rs ri -> (W v -> f = None -> ~ In v vs) -> rexact W rs' ri').
  Proof.
    intros I Hf; destruct f as [i|]; cbn.
    - destruct Hf as [Hv Hin].
      destruct (sget rs i) as [x|] eqn:E; [|unfold br_val in Hv; rewrite E in Hv; discriminate].
      cbn.
      set (y := BRes (br_value x) (S (br_occ x))).
      assert (V : forall j, br_val (sset rs i y) j = br_val rs j)
        by (intros; now apply br_val_sset with x).
      exists i, (sset rs i y), ri, vs; split; [reflexivity|].
      destruct I as [I1 I2 I3]; split; [split|].
      + now apply swf_sset with x.
      + intros r; rewrite (sget_sset _ _ _ _ _ E); specialize (I2 r).
        unfold ind; rewrite (Nat.eqb_sym i r); destruct (r =? i) eqn:Er.
        * apply Nat.eqb_eq in Er; subst; rewrite E in I2; cbn; lia.
        * destruct (sget rs r); lia.
      + eapply indexes_ext; [|exact I3]; auto.
      + split; [now rewrite V|]; split; [intros j w; now rewrite V|]; split.
        * intros w; split; [auto|intros [->|]; auto].
        * intros W Hex _ r w; rewrite V; apply Hex.
    - clear Hf; destruct I as [I1 I2 I3].
      set (k := vacant_key rs); set (rs' := sinsert rs (BRes v 1)).
      assert (Hk : sget rs k = None) by (now apply sget_vacant).
      assert (G : forall j, sget rs' j = if j =? k then Some (BRes v 1) else sget rs j)
        by (intros; now apply sget_sinsert).
      assert (Vk : br_val rs' k = Some v) by (unfold br_val; now rewrite G, Nat.eqb_refl).
      assert (V : forall j w, br_val rs j = Some w -> br_val rs' j = Some w).
      { intros j w; unfold br_val; rewrite G; destruct (j =? k) eqn:Ej; [|auto].
        apply Nat.eqb_eq in Ej; subst j; rewrite Hk; discriminate. }
      assert (Hidx : indexes (cmpk:=cmp) (br_val rs') ri vs).
      { eapply indexes_ext; [|exact I3].
        intros i Hi; destruct I3 as [HM _].
        destruct (mapM_in_inv _ _ _ _ HM Hi) as (w & Hw & _); rewrite Hw; auto. }
      assert (Hocc : forall r, match sget rs' r with
                  | Some x => br_occ x = rc r + ind k r /\ 0 < rc r + ind k r
                  | None => rc r + ind k r = 0 end).
      { intros r; rewrite G; specialize (I2 r); unfold ind; rewrite (Nat.eqb_sym k r).
        destruct (r =? k) eqn:Er.
        - apply Nat.eqb_eq in Er; subst r; rewrite Hk in I2; cbn; lia.
        - destruct (sget rs r); lia. }
      destruct (in_dec (ord_dec L) v vs) as [Hin|Hnin].
      + destruct (bt_insert_dup L (br_val rs') keep ri vs k v Hidx Vk Hin)
          as (ri' & Hins & Hsub & Hidx').
        exists k, rs', ri', vs; split.
        { change (b_resource_index_cmp cmp rs') with (icmp (cmpk:=cmp) (br_val rs')).
          now rewrite Hins. }
        split; [split; [now apply swf_sinsert|exact Hocc|assumption]|]; split; [assumption|]; split; [assumption|].
        split; [intros w; split; [auto|intros [->|]; auto]|].
        intros W Hex Hn r w Hr Hw.
        assert (w <> v) as Hwv by (intros ->; now apply (Hn Hw)).
        assert (br_val rs r = Some w) as Hr'.
        { unfold br_val in *; rewrite G in Hr; destruct (r =? k); [cbn in Hr; congruence|exact Hr]. }
        eapply (insert_dup_others L (br_val rs') ri ri' vs k v r w); eauto.
      + destruct (bt_insert_new L (br_val rs') keep ri vs k v Hidx Vk Hnin)
          as (ri' & Hins & HP & Hidx').
        exists k, rs', ri', (place cmp v vs); split.
        { change (b_resource_index_cmp cmp rs') with (icmp (cmpk:=cmp) (br_val rs')).
          now rewrite Hins. }
        split; [split; [now apply swf_sinsert|exact Hocc|assumption]|]; split; [assumption|]; split; [assumption|].
        split; [intros w; apply in_place|].
        intros W Hex _ r w Hr Hw; apply (Permutation_in _ (Permutation_sym HP)); cbn.
        unfold br_val in Hr; rewrite G in Hr.
        destruct (r =? k) eqn:Er; [left; symmetry; now apply Nat.eqb_eq|right; eauto].
  Qed.

  (** The two comparisons used on release look for the value of the slot. *)
  Definition finds {K} (rcmp : slab (bresource R) -> nat -> K -> option comparison) (key : K)
      (v : R) (k : nat) : Prop :=
    forall rs ri, br_val rs k = Some v ->
      bt_remove (rcmp rs) key ri = bt_remove (kcmp (cmpk:=cmp) (br_val rs)) v ri.

  Lemma finds_value v k : finds (b_resource_cmp cmp) v v k.
  Proof. intros rs ri _; reflexivity. Qed.

  Lemma finds_index v k : finds (b_resource_index_cmp cmp) k v k.
  Proof. intros rs ri H; now apply bt_remove_icmp. Qed.

  Lemma release_spec {K} rcmp (key : K) rs ri vs rc k v :
    rinv rs ri vs rc -> 0 < rc k -> br_val rs k = Some v -> finds rcmp key v k ->
    exists rs' ri' vs',
      b_release rcmp rs ri k key = Some (rs', ri') /\
      rinv rs' ri' vs' (fun r => rc r - ind k r) /\
      (forall j, 0 < rc j - ind k j -> br_val rs' j = br_val rs j) /\
      (forall w, In w vs' <-> In w vs /\ ~ (w = v /\ rc k = 1)) /\
      (forall W, rexact W rs ri -> rexact W rs' ri').
  Proof.
    intros [I1 I2 I3] Hrc Hv Hf; unfold b_release.
    destruct (sget rs k) as [x|] eqn:E; [|unfold br_val in Hv; rewrite E in Hv; discriminate].
    cbn; pose proof (I2 k) as Hk; rewrite E in Hk; destruct Hk as [Hx _].
    destruct (br_occ x) as [|n] eqn:Eo; [lia|].
    set (y := BRes (br_value x) n).
    assert (V : forall j, br_val (sset rs k y) j = br_val rs j)
      by (intros; now apply br_val_sset with x).
    assert (Hidx : indexes (cmpk:=cmp) (br_val (sset rs k y)) ri vs)
      by (eapply indexes_ext; [|exact I3]; auto).
    pose proof (sget_sset _ _ _ y k E) as Gk; rewrite Nat.eqb_refl in Gk.
    destruct (n =? 0) eqn:En.
    - apply Nat.eqb_eq in En; subst n.
      rewrite (Hf (sset rs k y) ri) by (now rewrite V).
      destruct (bt_remove_spec L (br_val (sset rs k y)) ri vs v Hidx)
        as (r & ri' & -> & Hidx' & Hr); cbn.
      destruct (sremove_some _ _ _ Gk) as (rs' & Hrm); rewrite Hrm; cbn.
      assert (G : forall j, sget rs' j = if j =? k then None else sget rs j).
      { intros j; rewrite (sget_sremove _ _ _ _ _ Hrm), (sget_sset _ _ _ _ _ E).
        destruct (j =? k); reflexivity. }
      exists rs', ri', (del cmp v vs); split; [reflexivity|].
      assert (Hnk : ~ In k ri').
      { intros Hin; destruct Hidx' as [HM _].
        destruct (mapM_in_inv _ _ _ _ HM Hin) as (w & Hw & Hw').
        rewrite V, Hv in Hw; inv Hw; apply (in_del L) in Hw'; tauto. }
      split; [split|].
      + eapply swf_sremove; [|exact Hrm]; now apply swf_sset with x.
      + intros j; rewrite G; unfold ind; rewrite (Nat.eqb_sym k j); destruct (j =? k) eqn:Ej.
        * apply Nat.eqb_eq in Ej; subst; lia.
        * specialize (I2 j); destruct (sget rs j); lia.
      + eapply indexes_ext; [|exact Hidx']; intros j Hj.
        unfold br_val; rewrite G, (sget_sset _ _ _ _ _ E).
        destruct (j =? k) eqn:Ej; [|reflexivity].
        apply Nat.eqb_eq in Ej; subst; contradiction.
      + split; [|split].
        * intros j Hj; unfold br_val; rewrite G; destruct (j =? k) eqn:Ej; [|reflexivity].
          apply Nat.eqb_eq in Ej; subst; rewrite ind_same in Hj; lia.
        * intros w; rewrite (in_del L); assert (rc k = 1) by lia; intuition.
        * intros W Hex j w; unfold br_val at 1; rewrite G; destruct (j =? k) eqn:Ej; [discriminate|].
          intros Hj Hw; pose proof (Hex _ _ Hj Hw) as Hin; apply Nat.eqb_neq in Ej.
          destruct r as [i|].
          -- destruct Hr as (Vi & _ & HP); rewrite V in Vi.
             apply (Permutation_in _ HP) in Hin; destruct Hin as [<-|Hin]; [|exact Hin].
             exfalso; apply Ej; change (br_val rs i = Some w) in Hj.
             assert (w = v) as -> by congruence.
             apply (indexes_inj L (br_val rs) ri vs i k v I3); eauto.
          -- destruct Hr as (_ & ->); assumption.
    - cbn.
      exists (sset rs k y), ri, vs; split; [reflexivity|]; split; [split|]; auto.
      + now apply swf_sset with x.
      + intros r; rewrite (sget_sset _ _ _ _ _ E); specialize (I2 r).
        apply Nat.eqb_neq in En.
        unfold ind; rewrite (Nat.eqb_sym k r); destruct (r =? k) eqn:Er.
        * apply Nat.eqb_eq in Er; subst; rewrite E in I2; cbn; lia.
        * destruct (sget rs r); lia.
      + split; [auto|]; split.
        * intros w; apply Nat.eqb_neq in En; assert (rc k <> 1) by lia; tauto.
        * intros W Hex r w; rewrite V; apply Hex.
  Qed.
End Proofs.
