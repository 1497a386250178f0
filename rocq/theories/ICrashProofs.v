(** [IndexedBTreeDataset] whose comparison may panic. *)
From Coq Require Import List Bool Arith Lia Permutation Sorted.
Import ListNotations.
From Verif Require Import Base SlabModel TripleModel SetSpec BaseProofs BResourceModel BResourceProofs
  BTreeDatasetModel BTreeDatasetProofs BTreeGraphModel IResourceModel IResourceProofs
  IndexedDatasetModel IndexedDatasetProofs IndexedHistoryProofs CrashModel CrashSpec CrashProofs BCrashProofs ICrashModel.

(** ** The table of resources *)
Lemma quiet_cloned {St R : Type} (q : quad R) : quiet (St:=St) (m_cloned q) (Some q).
Proof.
  destruct q as [s p o [g|]]; [exists 4|exists 3]; intros n st;
    destruct n as [|[|[|[|n]]]]; cbn; rewrite ?Nat.sub_0_r; reflexivity.
Qed.

Section Table.
  Context {R : Type} {cmp : R -> R -> comparison} (L : ord_laws cmp).
  Context (keep : bool).

  (** [U p r i]: the quad [i] uses the resource [r] at position [p].  The
      resources know it, and may know more. *)
  Record wiinv (rs : slab (iresource R)) (ri : list nat) (U : pos -> nat -> nat -> Prop) : Prop := {
    wii_wf : swf rs;
    wii_sorted : forall r x, sget rs r = Some x -> forall p, nsorted (ir_at p x);
    wii_use : forall p r i, U p r i -> exists x, sget rs r = Some x /\ In i (ir_at p x);
    wii_idx : exists vs, indexes (cmpk:=cmp) (ir_val rs) ri vs
  }.

  Lemma wiinv_le rs ri (U U' : pos -> nat -> nat -> Prop) :
    wiinv rs ri U -> (forall p r i, U' p r i -> U p r i) -> wiinv rs ri U'.
  Proof. intros [A B C D] H; split; auto. Qed.

  Lemma wiinv_new (U : pos -> nat -> nat -> Prop) : (forall p r i, ~ U p r i) -> wiinv slab_new [] U.
  Proof.
    intros H; split.
    - apply swf_new.
    - intros [|r] x Hx; discriminate.
    - intros p r i Hu; now apply H in Hu.
    - exists []; repeat constructor.
  Qed.

  Definition igrows (rs rs' : slab (iresource R)) : Prop :=
    forall j w, ir_val rs j = Some w -> ir_val rs' j = Some w.

  Definition ifound (rs : slab (iresource R)) (v : R) (f : option nat) : Prop :=
    match f with Some i => ir_val rs i = Some v | None => True end.

  Lemma runs_i_index_of rs ri U v n :
    wiinv rs ri U ->
    runs (m_i_index_of_resource cmp v) n (rs, ri)
      (fun f t => t = (rs, ri) /\ ifound rs v f) (fun t => t = (rs, ri)).
  Proof.
    intros [_ _ _ (vs & H)]; destruct (bt_get_spec L (ir_val rs) ri vs v H) as (f & E & Hf).
    unfold m_i_index_of_resource; apply runs_get_then; cbn.
    eapply runs_quiet; [|split; [reflexivity|]|reflexivity].
    - eapply quiet_eq; [apply (quiet_m_get _ (kcmp (cmpk:=cmp) (ir_val rs)));
        intros; apply quiet_resource_cmp|exact E].
    - destruct f; cbn; tauto.
  Qed.

  Lemma runs_i_acquire rs ri U p i v f n :
    wiinv rs ri U -> ifound rs v f ->
    runs (m_i_acquire cmp keep p i v f) n (rs, ri)
      (fun k '(rs', ri') => wiinv rs' ri' (fun q r j => U q r j \/ (q = p /\ r = k /\ j = i)) /\
         ir_val rs' k = Some v /\ igrows rs rs')
      (fun '(rs', ri') => wiinv rs' ri' U /\ igrows rs rs').
  Proof.
    intros [W1 W2 W3 (vs & W4)] Hf; unfold m_i_acquire; apply runs_get_then; cbn.
    destruct f as [k|].
    - unfold ifound in Hf.
      destruct (sget rs k) as [x|] eqn:E; [|unfold ir_val in Hf; rewrite E in Hf; discriminate].
      eapply runs_need_then; [reflexivity|]; apply runs_put_then, runs_ret.
      set (y := ir_upd p (ns_insert i) x).
      assert (V : forall j, ir_val (sset rs k y) j = ir_val rs j)
        by (intros; apply ir_val_sset with x; [assumption|apply ir_value_upd]).
      split; [split|split].
      + now apply swf_sset with x.
      + intros r z; rewrite (sget_sset _ _ _ _ _ E); destruct (r =? k) eqn:Er; [|apply W2].
        intros Hz q; inv Hz; unfold y; rewrite ir_at_upd.
        destruct (pos_eq_dec q p); [apply ns_insert_sorted|]; eapply W2; eauto.
      + intros q r j H; rewrite (sget_sset _ _ _ _ _ E); destruct (r =? k) eqn:Er.
        * apply Nat.eqb_eq in Er; subst r; exists y; split; [reflexivity|]; unfold y; rewrite ir_at_upd.
          destruct H as [H|(-> & _ & ->)].
          -- destruct (W3 _ _ _ H) as (x' & Ex & Hx); rewrite E in Ex; inv Ex.
             destruct (pos_eq_dec q p); [rewrite in_ns_insert; auto|exact Hx].
          -- destruct (pos_eq_dec p p); [rewrite in_ns_insert; auto|congruence].
        * apply Nat.eqb_neq in Er; destruct H as [H|(_ & -> & _)]; [|congruence].
          apply (W3 _ _ _ H).
      + exists vs; eapply indexes_ext; [|exact W4]; auto.
      + now rewrite V.
      + intros j w; now rewrite V.
    - apply runs_put_then.
      set (k := vacant_key rs); set (rs' := sinsert rs (ir_single p v i)).
      assert (Hk : sget rs k = None) by now apply sget_vacant.
      assert (G : forall j, sget rs' j = if j =? k then Some (ir_single p v i) else sget rs j)
        by (intros; now apply sget_sinsert).
      assert (Vk : ir_val rs' k = Some v)
        by (unfold ir_val; rewrite G, Nat.eqb_refl; cbn; now rewrite ir_value_single).
      assert (V : igrows rs rs').
      { intros j w; unfold ir_val; rewrite G; destruct (j =? k) eqn:Ej; [|auto].
        apply Nat.eqb_eq in Ej; subst j; rewrite Hk; discriminate. }
      assert (Hidx : indexes (cmpk:=cmp) (ir_val rs') ri vs).
      { eapply indexes_ext; [|exact W4].
        intros j Hj; destruct W4 as [HM _].
        destruct (mapM_in_inv _ _ _ _ HM Hj) as (w & Hw & _); rewrite Hw; auto. }
      assert (Hs : forall r x, sget rs' r = Some x -> forall q, nsorted (ir_at q x)).
      { intros r z; rewrite G; destruct (r =? k) eqn:Er; [|apply W2].
        intros Hz q; inv Hz; rewrite ir_at_single.
        destruct (pos_eq_dec q p); [apply nsorted_one|apply nsorted_nil]. }
      assert (Hu : forall q r j, U q r j \/ (q = p /\ r = k /\ j = i) ->
                exists x, sget rs' r = Some x /\ In j (ir_at q x)).
      { intros q r j H; rewrite G; destruct (r =? k) eqn:Er.
        - apply Nat.eqb_eq in Er; subst r; exists (ir_single p v i); split; [reflexivity|].
          destruct H as [H|(-> & _ & ->)].
          + destruct (W3 _ _ _ H) as (x' & Ex & _); congruence.
          + rewrite ir_at_single; destruct (pos_eq_dec p p); [cbn; auto|congruence].
        - apply Nat.eqb_neq in Er; destruct H as [H|(_ & -> & _)]; [|congruence].
          apply (W3 _ _ _ H). }
      assert (exists ri' vs', bt_insert keep (icmp (cmpk:=cmp) (ir_val rs')) k ri = Some ri' /\
                indexes (cmpk:=cmp) (ir_val rs') ri' vs') as (ri' & vs' & Ei & Hi).
      { destruct (in_dec (ord_dec L) v vs) as [Hin|Hnin].
        - destruct (bt_insert_dup L (ir_val rs') keep ri vs k v Hidx Vk Hin) as (ri' & ? & _ & ?); eauto.
        - destruct (bt_insert_new L (ir_val rs') keep ri vs k v Hidx Vk Hnin) as (ri' & ? & _ & ?); eauto. }
      eapply runs_quiet_then.
      + eapply quiet_eq; [apply (quiet_m_insert _ _ (icmp (cmpk:=cmp) (ir_val rs')));
          intros; apply quiet_resource_index_cmp|exact Ei].
      + split; [|exact V]; split; [now apply swf_sinsert|exact Hs|auto|eauto].
      + intros m; apply runs_put_then, runs_ret; split; [|auto].
        split; [now apply swf_sinsert|exact Hs|exact Hu|eauto].
  Qed.

  Definition mi_finds {K} (rcmp : (nat -> option R) -> nat -> K -> act (@itable R) comparison) (key : K)
      (v : R) (k : nat) : Prop :=
    forall rs ri, ir_val rs k = Some v ->
      quiet (m_remove (rcmp (ir_val rs)) key ri) (bt_remove (kcmp (cmpk:=cmp) (ir_val rs)) v ri).

  Lemma mi_finds_value v k : mi_finds (m_resource_cmp cmp) v v k.
  Proof.
    intros rs ri _; apply (quiet_m_remove _ (kcmp (cmpk:=cmp) (ir_val rs))).
    intros; apply quiet_resource_cmp.
  Qed.

  Lemma mi_finds_index v k : mi_finds (m_resource_index_cmp cmp) k v k.
  Proof.
    intros rs ri H; rewrite <- (bt_remove_icmp cmp (ir_val rs) k v ri H).
    apply (quiet_m_remove _ (icmp (cmpk:=cmp) (ir_val rs))); intros; apply quiet_resource_index_cmp.
  Qed.

  Lemma runs_i_release {K} rcmp (key : K) rs ri U p i k v n :
    wiinv rs ri U -> ir_val rs k = Some v -> mi_finds rcmp key v k ->
    let left := fun '(rs', ri') =>
      wiinv rs' ri' (fun q r j => U q r j /\ ~ (q = p /\ r = k /\ j = i)) /\
      forall q r j, U q r j -> ~ (q = p /\ r = k /\ j = i) -> ir_val rs' r = ir_val rs r in
    runs (m_i_release rcmp p i k key) n (rs, ri) (fun _ => left) left.
  Proof.
    intros [W1 W2 W3 (vs & W4)] Hv Hf left; unfold m_i_release; apply runs_get_then; cbn.
    destruct (sget rs k) as [x|] eqn:E; [|unfold ir_val in Hv; rewrite E in Hv; discriminate].
    eapply runs_need_then; [reflexivity|].
    set (y := ir_upd p (ns_remove i) x).
    assert (V : forall j, ir_val (sset rs k y) j = ir_val rs j)
      by (intros; apply ir_val_sset with x; [assumption|apply ir_value_upd]).
    assert (Hidx : indexes (cmpk:=cmp) (ir_val (sset rs k y)) ri vs)
      by (eapply indexes_ext; [|exact W4]; auto).
    pose proof (sget_sset _ _ _ y k E) as Gk; rewrite Nat.eqb_refl in Gk.
    assert (Hy : forall q j, U q k j -> ~ (q = p /\ k = k /\ j = i) -> In j (ir_at q y)).
    { intros q j H Hn; destruct (W3 _ _ _ H) as (x' & Ex & Hx); rewrite E in Ex; inv Ex.
      unfold y; rewrite ir_at_upd; destruct (pos_eq_dec q p) as [->|]; [|exact Hx].
      apply in_ns_remove; [eapply W2; eauto|]; split; [|exact Hx]; intros ->; tauto. }
    assert (Hs : forall r z, sget (sset rs k y) r = Some z -> forall q, nsorted (ir_at q z)).
    { intros r z; rewrite (sget_sset _ _ _ _ _ E); destruct (r =? k) eqn:Er; [|apply W2].
      intros Hz q; inv Hz; unfold y; rewrite ir_at_upd.
      destruct (pos_eq_dec q p); [apply ns_remove_sorted|]; eapply W2; eauto. }
    assert (Wm : left (sset rs k y, ri)).
    { split; [|intros; apply V]; split; [now apply swf_sset with x|exact Hs| |eauto].
      intros q r j [H Hn]; rewrite (sget_sset _ _ _ _ _ E); destruct (r =? k) eqn:Er.
      - apply Nat.eqb_eq in Er; subst r; exists y; split; [reflexivity|now apply Hy].
      - apply (W3 _ _ _ H). }
    apply runs_put_then; destruct (ir_is_empty y) eqn:En; [|apply runs_ret; exact Wm].
    destruct (bt_remove_spec L (ir_val (sset rs k y)) ri vs v Hidx) as (r & ri' & Er & Hidx' & _).
    eapply runs_quiet_then.
    - eapply quiet_eq; [apply (Hf (sset rs k y) ri); now rewrite V|exact Er].
    - exact Wm.
    - intros m; cbn beta iota; apply runs_put_then.
      destruct (sremove_some _ _ _ Gk) as (rs' & Hrm); eapply runs_need_then; [exact Hrm|].
      cbn beta iota; apply runs_put_then, runs_ret.
      assert (G : forall j, sget rs' j = if j =? k then None else sget rs j).
      { intros j; rewrite (sget_sremove _ _ _ _ _ Hrm), (sget_sset _ _ _ _ _ E).
        destruct (j =? k); reflexivity. }
      assert (Hnk : ~ In k ri').
      { intros Hin; destruct Hidx' as [HM _].
        destruct (mapM_in_inv _ _ _ _ HM Hin) as (w & Hw & Hw').
        rewrite V, Hv in Hw; inv Hw; apply (in_del L) in Hw'; tauto. }
      assert (Hk : forall q j, U q k j -> ~ (q = p /\ k = k /\ j = i) -> False).
      { intros q j H Hn; pose proof (Hy q j H Hn) as Hj.
        rewrite ir_is_empty_true in En; now rewrite (En q) in Hj. }
      split; [split|].
      + eapply swf_sremove; [|exact Hrm]; now apply swf_sset with x.
      + intros j z; rewrite G; destruct (j =? k); [discriminate|apply W2].
      + intros q j z [H Hn]; rewrite G; destruct (j =? k) eqn:Ej; [|apply (W3 _ _ _ H)].
        apply Nat.eqb_eq in Ej; subst; now destruct (Hk q z).
      + exists (del cmp v vs); eapply indexes_ext; [|exact Hidx']; intros j Hj.
        unfold ir_val; rewrite G, (sget_sset _ _ _ _ _ E).
        destruct (j =? k) eqn:Ej; [|reflexivity].
        apply Nat.eqb_eq in Ej; subst; contradiction.
      + intros q j z H Hn; unfold ir_val; rewrite G; destruct (j =? k) eqn:Ej; [|reflexivity].
        apply Nat.eqb_eq in Ej; subst; now destruct (Hk q z).
  Qed.
End Table.

(** ** Datasets *)
Section Proofs.
  Context {R : Type} {cmp : R -> R -> comparison} (L : ord_laws cmp).
  Context (keep : bool).
  Notation qcmp := (quad_cmp cmp).
  Let LQ : ord_laws qcmp := quad_cmp_laws cmp L.

  (** The uses by the quads of the index, or ([F]) by all the quads of the slab. *)
  Context (F : Prop).
  Definition tracked (qs : slab (quad nat)) (qi : list nat) (p : pos) (r i : nat) : Prop :=
    uses qs p r i /\ (F \/ In i qi).

  Definition spo_ok (qs : slab (quad nat)) (p : pos) (l : list nat) : Prop :=
    nsorted l /\ (F -> forall k, In k l -> exists i, uses qs p k i).

  (** The other quads of the slab. *)
  Definition ghosts (rs : slab (iresource R)) (qs : slab (quad nat)) (qi : list nat)
      (lost : list (quad R)) : Prop :=
    exists gi, NoDup (qi ++ gi) /\ (forall i, In i (qi ++ gi) <-> sget qs i <> None) /\
      mapM (i_quad_at rs qs) gi = Some lost.

  Record wid_inv (d : @idataset R) (ks lost : list (quad R)) : Prop := {
    wid_wf : swf (id_quads d);
    wid_idx : indexes (cmpk:=qcmp) (i_quad_at (id_resources d) (id_quads d)) (id_qi d) ks;
    wid_res : wiinv (cmp:=cmp) (id_resources d) (id_ri d) (tracked (id_quads d) (id_qi d));
    wid_len : slen (id_quads d) = length ks + length lost;
    wid_ghosts : F -> ghosts (id_resources d) (id_quads d) (id_qi d) lost;
    wid_s : spo_ok (id_quads d) PosS (id_s d);
    wid_p : spo_ok (id_quads d) PosP (id_p d);
    wid_o : spo_ok (id_quads d) PosO (id_o d)
  }.

  Lemma spo_ok_new qs p : spo_ok qs p [].
  Proof. split; [apply nsorted_nil|]; intros _ k []. Qed.

  Lemma ghosts_new rs : ghosts rs slab_new [] [].
  Proof.
    exists []; split; [constructor|]; split; [|reflexivity].
    intros i; rewrite sget_new; cbn; split; [intros []|congruence].
  Qed.

  Lemma wid_inv_new : wid_inv id_new [] [].
  Proof.
    split; cbn; try apply spo_ok_new; [apply swf_new|repeat constructor| |reflexivity|].
    - apply wiinv_new; intros p r i [(x & Hx & _) _]; now rewrite sget_new in Hx.
    - intros _; apply ghosts_new.
  Qed.

  Lemma iqat_grows (rs rs' : slab (iresource R)) qs i q :
    igrows rs rs' -> i_quad_at rs qs i = Some q -> i_quad_at rs' qs i = Some q.
  Proof.
    intros G; unfold i_quad_at; destruct (sget qs i); cbn; [|discriminate].
    intros H; eapply iqwr_mono; [exact G|exact H].
  Qed.

  Lemma mapM_keeps {A B} (f g : A -> option B) l r :
    mapM f l = Some r -> (forall x y, In x l -> f x = Some y -> g x = Some y) -> mapM g l = Some r.
  Proof.
    revert r; induction l as [|x l IH]; intros r E H; [exact E|]; cbn in *.
    destruct (f x) as [y|] eqn:Ef; [|discriminate]; cbn in *; rewrite (H x y (or_introl eq_refl) Ef); cbn.
    destruct (mapM f l) as [r'|]; [|discriminate]; rewrite (IH r'); auto.
  Qed.

  Lemma ghosts_grows rs rs' qs qi lost :
    ghosts rs qs qi lost -> igrows rs rs' -> ghosts rs' qs qi lost.
  Proof.
    intros (gi & A & B & C) G; exists gi; split; [exact A|]; split; [exact B|].
    eapply mapM_keeps; [exact C|]; intros i q _; now apply iqat_grows.
  Qed.

  (** A new slot, of the index or not. *)
  Lemma ghosts_insert rs qs qs' qi qi' i x lost :
    ghosts rs qs qi lost -> (forall j, sget qs' j = if j =? i then Some x else sget qs j) ->
    sget qs i = None -> Permutation qi' (i :: qi) -> ghosts rs qs' qi' lost.
  Proof.
    intros (gi & A & B & C) G Hi P; assert (Ni : ~ In i (qi ++ gi)) by (rewrite B; congruence).
    exists gi; split; [|split].
    - apply (Permutation_NoDup (l:=i :: qi ++ gi)); [now rewrite P|now constructor].
    - intros j; rewrite P; cbn; rewrite B, G; destruct (j =? i) eqn:E.
      + apply Nat.eqb_eq in E; subst; split; [discriminate|auto].
      + apply Nat.eqb_neq in E; split; [intros [H|H]; congruence|auto].
    - eapply mapM_keeps; [exact C|]; intros j q Hj; unfold i_quad_at; rewrite G.
      destruct (j =? i) eqn:E; [|auto]; apply Nat.eqb_eq in E; subst.
      exfalso; apply Ni, in_or_app; auto.
  Qed.

  Lemma ghosts_lose rs qs qs' qi i x q lost :
    ghosts rs qs qi lost -> (forall j, sget qs' j = if j =? i then Some x else sget qs j) ->
    sget qs i = None -> i_quad_at rs qs' i = Some q -> ghosts rs qs' qi (q :: lost).
  Proof.
    intros H G Hi Hq.
    destruct (ghosts_insert _ _ qs' _ (i :: qi) i x _ H G Hi (Permutation_refl _)) as (gi & A & B & C).
    exists (i :: gi); split; [|split].
    - apply (Permutation_NoDup (l:=(i :: qi) ++ gi)); [cbn; apply Permutation_middle|exact A].
    - intros j; rewrite <- B, !in_app_iff; cbn; tauto.
    - cbn; rewrite Hq; cbn; rewrite C; reflexivity.
  Qed.

  Lemma ghosts_remove rs rs' qs qs' qi qi' i lost :
    ghosts rs qs qi lost -> (forall j, sget qs' j = if j =? i then None else sget qs j) ->
    Permutation qi (i :: qi') ->
    (forall j, sget qs' j <> None -> i_quad_at rs' qs' j = i_quad_at rs qs j) -> ghosts rs' qs' qi' lost.
  Proof.
    intros (gi & A & B & C) G P V.
    assert (A' : NoDup (i :: qi' ++ gi)) by (apply (Permutation_NoDup (l:=qi ++ gi)); [now rewrite P|exact A]).
    inversion A' as [|i' l' Ni A'']; subst i' l'.
    assert (B' : forall j, In j (qi' ++ gi) <-> sget qs' j <> None).
    { intros j; rewrite G; destruct (j =? i) eqn:E.
      - apply Nat.eqb_eq in E; subst; split; [contradiction|congruence].
      - apply Nat.eqb_neq in E; rewrite <- B, P; cbn; split; [auto|intros [H|H]; congruence]. }
    exists gi; split; [exact A''|]; split; [exact B'|].
    eapply mapM_keeps; [exact C|]; intros j q Hj Hq; rewrite V; [exact Hq|].
    apply B', in_or_app; auto.
  Qed.

  Definition with_itable (d : @idataset R) (rs : slab (iresource R)) (ri : list nat) : @idataset R :=
    IDataset rs (id_quads d) ri (id_qi d) (id_s d) (id_p d) (id_o d) (id_dg d) (id_ng d).

  Lemma runs_id_table {A} (a : act (@itable R) A) n d P E :
    runs a n (id_resources d, id_ri d)
      (fun x '(rs, ri) => P x (with_itable d rs ri)) (fun '(rs, ri) => E (with_itable d rs ri)) ->
    runs (m_id_table a) n d P E.
  Proof.
    intros H; apply runs_zoom; eapply runs_weak; [exact H| |].
    - intros x [rs ri]; auto.
    - intros [rs ri]; auto.
  Qed.

  Lemma with_itable_twice d rs ri rs' ri' :
    with_itable (with_itable d rs ri) rs' ri' = with_itable d rs' ri'.
  Proof. reflexivity. Qed.
  Lemma with_itable_same d : with_itable d (id_resources d) (id_ri d) = d.
  Proof. destruct d; reflexivity. Qed.

  Lemma wid_inv_grows d ks lost rs ri :
    wid_inv d ks lost -> igrows (id_resources d) rs ->
    wiinv (cmp:=cmp) rs ri (tracked (id_quads d) (id_qi d)) -> wid_inv (with_itable d rs ri) ks lost.
  Proof.
    intros [A B C D Gh E1 E2 E3] G W; split; cbn; auto.
    - eapply indexes_ext; [|exact B]; intros i Hi; destruct B as [HM _].
      destruct (mapM_in_inv _ _ _ _ HM Hi) as (y & Hy & _); rewrite Hy; now apply (iqat_grows (id_resources d)).
    - intros f; eapply ghosts_grows; [exact (Gh f)|exact G].
  Qed.

  Lemma runs_id_contains d ks lost q n :
    wid_inv d ks lost ->
    runs (m_id_contains cmp q) n d (fun b d' => b = mem qcmp q ks /\ d' = d) (fun d' => d' = d).
  Proof.
    intros W; pose proof (wid_idx _ _ _ W) as H; destruct (bt_get_spec LQ _ _ _ q H) as (r & Hr & Hs).
    unfold m_id_contains; apply runs_get_then; eapply runs_quiet_then.
    - eapply quiet_eq; [eapply quiet_m_get; intros; apply quiet_quad_at_cmp|exact Hr].
    - reflexivity.
    - intros m; apply runs_ret; split; [|reflexivity]; destruct r; cbn; symmetry.
      + apply (mem_true LQ); tauto.
      + now apply (mem_false LQ).
  Qed.

  (** In the middle of an insertion: the table has grown. *)
  Definition imid (d : @idataset R) (extra : pos -> nat -> nat -> Prop) (rs : slab (iresource R))
      (ri : list nat) : Prop :=
    igrows (id_resources d) rs /\
    wiinv (cmp:=cmp) rs ri (fun p r j => tracked (id_quads d) (id_qi d) p r j \/ extra p r j).

  Lemma igrows_trans (a b c : slab (iresource R)) : igrows a b -> igrows b c -> igrows a c.
  Proof. unfold igrows; auto. Qed.

  Lemma imid_inv d ks lost extra rs ri :
    wid_inv d ks lost -> imid d extra rs ri -> wid_inv (with_itable d rs ri) ks lost.
  Proof.
    intros W [G H]; apply wid_inv_grows; auto; eapply wiinv_le; [exact H|]; cbn; auto.
  Qed.

  Lemma runs_i_index_then {B} d ks lost v (f : option nat -> act (@idataset R) B) n P (E : @idataset R -> Prop) :
    wid_inv d ks lost -> E d ->
    (forall r m, ifound (id_resources d) v r -> runs (f r) m d P E) ->
    runs (andthen (m_id_table (m_i_index_of_resource cmp v)) f) n d P E.
  Proof.
    intros W HE H; apply runs_andthen, runs_id_table.
    eapply runs_weak; [apply (runs_i_index_of L _ _ _ v n (wid_res _ _ _ W))| |].
    - intros x [rs ri] [Et Hx]; inv Et; rewrite with_itable_same; intros m; now apply H.
    - intros [rs ri] Et; inv Et; now rewrite with_itable_same.
  Qed.

  Lemma runs_i_acquire_then {B} d ks lost extra rs ri p i v fd (f : nat -> act (@idataset R) B) n P
      (E : @idataset R -> Prop) :
    wid_inv d ks lost -> imid d extra rs ri -> ifound (id_resources d) v fd ->
    (forall d', wid_inv d' ks lost -> E d') ->
    (forall k rs' ri' m, imid d (fun q r j => extra q r j \/ (q = p /\ r = k /\ j = i)) rs' ri' ->
       ir_val rs' k = Some v -> igrows rs rs' -> runs (f k) m (with_itable d rs' ri') P E) ->
    runs (andthen (m_id_table (m_i_acquire cmp keep p i v fd)) f) n (with_itable d rs ri) P E.
  Proof.
    intros W [G M] Hf HE H; apply runs_andthen, runs_id_table; cbn.
    eapply runs_weak; [apply (runs_i_acquire L keep _ _ _ p i v fd n M)| |].
    - destruct fd; [apply G; exact Hf|exact Logic.I].
    - intros k [rs' ri'] (M' & Hk & G') m; rewrite with_itable_twice; apply H; auto.
      split; [eapply igrows_trans; eauto|]; eapply wiinv_le; [exact M'|]; cbn; tauto.
    - intros [rs' ri'] (M' & G'); rewrite with_itable_twice; apply HE, (imid_inv _ _ _ extra); auto.
      split; [eapply igrows_trans; eauto|exact M'].
  Qed.

  Lemma spo_ok_insert qs qs' i x p k l :
    (forall j, sget qs' j = if j =? i then Some x else sget qs j) -> sget qs i = None ->
    slot p x = Some k -> spo_ok qs p l -> spo_ok qs' p (ns_insert k l).
  Proof.
    intros G Hi Hk [A B]; split; [now apply ns_insert_sorted|].
    intros HF r; rewrite in_ns_insert; intros [->|Hr].
    - exists i, x; rewrite G, Nat.eqb_refl; auto.
    - destruct (B HF r Hr) as (j & y & Hy & Hs); exists j, y; rewrite G; split; [|exact Hs].
      destruct (j =? i) eqn:Ej; [apply Nat.eqb_eq in Ej; subst; congruence|exact Hy].
  Qed.

  Lemma runs_id_insert d ks lost q n :
    wid_inv d ks lost ->
    runs (m_id_insert cmp keep q) n d
      (fun b d' => b = negb (mem qcmp q ks) /\ wid_inv d' (after_insert (cmp:=cmp) q ks) lost)
      (fun d' => wid_inv d' ks lost \/ mem qcmp q ks = false /\ wid_inv d' ks (q :: lost)).
  Proof.
    intros W; unfold m_id_insert, after_insert; apply runs_andthen.
    eapply runs_weak; [apply (runs_id_contains _ _ _ q n W)| |]; cbn beta; [|intros d' ->; auto].
    intros b d' [-> ->] m; destruct (mem qcmp q ks) eqn:Hq; [apply runs_ret; auto|].
    clear n; apply (mem_false LQ) in Hq.
    eapply runs_i_index_then; [exact W|auto|]; intros fs m1 Hfs.
    eapply runs_i_index_then; [exact W|auto|]; intros fp m2 Hfp.
    eapply runs_i_index_then; [exact W|auto|]; intros fo m3 Hfo.
    apply runs_andthen.
    apply runs_weak with
      (P := fun fg d' => d' = d /\
              match fg, q_g q with
              | Some (g, f), Some h => g = h /\ ifound (id_resources d) g f
              | None, None => True
              | _, _ => False
              end)
      (E := fun d' => d' = d); [| |intros d' ->; auto].
    { destruct (q_g q) as [g|]; [|apply runs_ret; auto].
      eapply runs_i_index_then; [exact W|auto|]; intros f m4 Hf; apply runs_ret; auto. }
    intros fg d' [-> Hg] m4; apply runs_get_then.
    set (i := vacant_key (id_quads d)).
    set (E := fun d' => wid_inv d' ks lost \/ false = false /\ wid_inv d' ks (q :: lost)).
    assert (HE : forall d', wid_inv d' ks lost -> E d') by (intros; left; assumption).
    assert (M0 : imid d (fun _ _ _ => False) (id_resources d) (id_ri d)).
    { split; [intros ? ? ?; assumption|].
      eapply wiinv_le; [exact (wid_res _ _ _ W)|]; cbn; tauto. }
    match goal with |- runs ?a ?n ?x ?P ?E =>
      cut (runs a n (with_itable d (id_resources d) (id_ri d)) P E);
        [rewrite with_itable_same; exact (fun H => H)|]
    end.
    eapply runs_i_acquire_then; [exact W|exact M0|exact Hfs|exact HE|].
    intros s_i rs1 ri1 n1 M1 V1 G1.
    eapply runs_i_acquire_then; [exact W|exact M1|exact Hfp|exact HE|].
    intros p_i rs2 ri2 n2 M2 V2 G2.
    eapply runs_i_acquire_then; [exact W|exact M2|exact Hfo|exact HE|].
    intros o_i rs3 ri3 n3 M3 V3 G3.
    apply runs_andthen.
    apply runs_weak with
      (P := fun g_i d' => exists rs4 ri4, d' = with_itable d rs4 ri4 /\ igrows rs3 rs4 /\
              imid d (fun p r j => slot p (Quad s_i p_i o_i g_i) = Some r /\ j = i) rs4 ri4 /\
              match g_i, q_g q with
              | Some g, Some h => ir_val rs4 g = Some h
              | None, None => True
              | _, _ => False
              end)
      (E := E); [| |auto].
    { destruct fg as [[g f]|], (q_g q) as [h|]; try contradiction.
      - destruct Hg as [-> Hg].
        eapply runs_i_acquire_then; [exact W|exact M3|exact Hg|exact HE|].
        intros g_i rs4 ri4 n4 [G4 M4] V4 G4'; apply runs_ret; exists rs4, ri4.
        split; [reflexivity|]; split; [exact G4'|]; split; [|exact V4].
        split; [exact G4|]; eapply wiinv_le; [exact M4|]; cbn.
        intros p r j [H|[H ->]]; [left; exact H|]; destruct p; cbn in H; inv H; auto 10.
      - apply runs_ret; exists rs3, ri3; split; [reflexivity|]; split; [intros ? ? ?; assumption|].
        split; [|exact Logic.I]; destruct M3 as [G M3]; split; [exact G|].
        eapply wiinv_le; [exact M3|]; cbn.
        intros p r j [H|[H ->]]; [left; exact H|]; destruct p; cbn in H; inv H; auto 10. }
    intros g_i d' (rs4 & ri4 & -> & G4 & [GM M4] & V4) n4; apply runs_get_then.
    cbn [with_itable id_quads id_resources id_ri id_qi id_s id_p id_o id_dg id_ng].
    apply runs_get_then; cbn [id_resources id_qi].
    set (x := Quad s_i p_i o_i g_i) in *.
    set (qs := sinsert (id_quads d) x).
    destruct W as [I1 I2 I3 I4 I8 I5 I6 I7].
    assert (Gq : forall j, sget qs j = if j =? i then Some x else sget (id_quads d) j)
      by (intros; now apply sget_sinsert).
    assert (Hi : sget (id_quads d) i = None) by now apply sget_vacant.
    assert (Old : forall j, In j (id_qi d) -> exists y k, sget (id_quads d) j = Some y /\
                     i_quad_with_resources (id_resources d) y = Some k).
    { intros j Hj; destruct I2 as [HM _]; destruct (mapM_in_inv _ _ _ _ HM Hj) as (k & Hk & _).
      unfold i_quad_at in Hk; destruct (sget (id_quads d) j) as [y|]; [|discriminate]; eauto. }
    assert (Hni : ~ In i (id_qi d)) by (intros Hin; destruct (Old _ Hin) as (y & k & Hy & _); congruence).
    assert (Hx : i_quad_with_resources rs4 x = Some q).
    { apply iqwr_some; cbn; repeat split; auto. }
    assert (Vi : i_quad_at rs4 qs i = Some q).
    { unfold i_quad_at; rewrite Gq, Nat.eqb_refl; exact Hx. }
    assert (Hidx : indexes (cmpk:=qcmp) (i_quad_at rs4 qs) (id_qi d) ks).
    { eapply indexes_ext; [|exact I2]; intros j Hj.
      destruct (Old j Hj) as (y & k & Hy & Hk); unfold i_quad_at; rewrite Gq, Hy; cbn.
      destruct (j =? i) eqn:Ej; [apply Nat.eqb_eq in Ej; subst; contradiction|].
      rewrite Hk; eapply iqwr_mono; [|exact Hk]; exact GM. }
    assert (Us : forall qi, (forall j, In j qi -> j = i \/ In j (id_qi d)) ->
      forall p r j, tracked qs qi p r j ->
        tracked (id_quads d) (id_qi d) p r j \/ (slot p x = Some r /\ j = i)).
    { intros qi Hqi p r j [(y & Hy & Hs) Hj]; rewrite Gq in Hy; destruct (j =? i) eqn:Ej.
      - apply Nat.eqb_eq in Ej; inv Hy; auto.
      - apply Nat.eqb_neq in Ej; left; split; [exists y; auto|].
        destruct Hj as [|Hj]; [auto|]; destruct (Hqi j Hj); [contradiction|auto]. }
    apply runs_put_then.
    destruct (bt_insert_new LQ _ keep _ _ i q Hidx Vi Hq) as (qi & Eqi & HP & Hidx').
    assert (Hqs : swf qs) by now apply swf_sinsert.
    eapply runs_quiet_then.
    - eapply quiet_eq; [eapply quiet_m_insert; intros; apply quiet_quad_index_cmp|exact Eqi].
    - right; split; [reflexivity|]; split; cbn [id_quads id_resources id_ri id_qi id_s id_p id_o].
      + exact Hqs.
      + exact Hidx.
      + eapply wiinv_le; [exact M4|]; apply Us; auto.
      + unfold qs; rewrite slen_sinsert by assumption; cbn; lia.
      + intros f; eapply (ghosts_lose rs4 (id_quads d)); [|exact Gq|exact Hi|exact Vi].
        eapply ghosts_grows; [exact (I8 f)|exact GM].
      + eapply (spo_ok_insert (id_quads d) qs i x); auto.
      + eapply (spo_ok_insert (id_quads d) qs i x); auto.
      + eapply (spo_ok_insert (id_quads d) qs i x); auto.
    - intros m5; apply runs_put_then, runs_ret; split; [reflexivity|]; split;
        cbn [id_quads id_resources id_ri id_qi id_s id_p id_o].
      + exact Hqs.
      + exact Hidx'.
      + eapply wiinv_le; [exact M4|]; apply Us; intros j Hj.
        apply (Permutation_in _ HP) in Hj; cbn in Hj; destruct Hj; auto.
      + unfold qs; rewrite slen_sinsert, I4 by assumption.
        rewrite length_place; reflexivity.
      + intros f; eapply (ghosts_insert rs4 (id_quads d)); [|exact Gq|exact Hi|exact HP].
        eapply ghosts_grows; [exact (I8 f)|exact GM].
      + eapply (spo_ok_insert (id_quads d) qs i x); auto.
      + eapply (spo_ok_insert (id_quads d) qs i x); auto.
      + eapply (spo_ok_insert (id_quads d) qs i x); auto.
  Qed.

  (** The end of a removal.  Graphs look for the resources by value. *)
  Open Scope act_scope.
  Definition m_rel (byval : bool) (p : pos) (i k : nat) (v : R) : act (@itable R) bool :=
    if byval then m_i_release (m_resource_cmp cmp) p i k v
    else m_i_release (m_resource_index_cmp cmp) p i k k.
  Definition m_tail (byval : bool) (i : nat) (x : quad nat) (q : quad R) : act (@idataset R) unit :=
    _ <- m_id_table (m_rel byval PosS i (q_s x) (q_s q)) ;;
    _ <- m_id_table (m_rel byval PosP i (q_p x) (q_p q)) ;;
    _ <- m_id_table (m_rel byval PosO i (q_o x) (q_o q)) ;;
    match q_g x with
    | Some g =>
        dropped <- m_id_table (m_i_release (m_resource_index_cmp cmp) PosG i g g) ;;
        d <- get ;;
        put (IDataset (id_resources d) (id_quads d) (id_ri d) (id_qi d)
               (id_s d) (id_p d) (id_o d) (id_dg d)
               (if dropped then ns_remove g (id_ng d) else id_ng d))
    | None =>
        d <- get ;;
        put (IDataset (id_resources d) (id_quads d) (id_ri d) (id_qi d)
               (id_s d) (id_p d) (id_o d) (ns_remove i (id_dg d)) (id_ng d))
    end.

  (** In the middle of a removal: [pending] are the releases that remain. *)
  Definition imidr (qs : slab (quad nat)) (qi : list nat) (rs0 : slab (iresource R))
      (pending : pos -> nat -> nat -> Prop) (rs : slab (iresource R)) (ri : list nat) : Prop :=
    wiinv (cmp:=cmp) rs ri (fun p r j => tracked qs qi p r j \/ pending p r j) /\
    forall p r j, tracked qs qi p r j \/ pending p r j -> ir_val rs r = ir_val rs0 r.

  Definition pending_at (l : list pos) (i : nat) (x : quad nat) (p : pos) (r j : nat) : Prop :=
    In p l /\ slot p x = Some r /\ j = i.

  Lemma runs_i_release_then {K B} d l rs0 rs ri rcmp (key : K) p i x k v
      (f : bool -> act (@idataset R) B) n P (E : @idataset R -> Prop) :
    sget (id_quads d) i = None ->
    imidr (id_quads d) (id_qi d) rs0 (pending_at (p :: l) i x) rs ri -> ~ In p l ->
    slot p x = Some k -> ir_val rs0 k = Some v -> mi_finds (cmp:=cmp) rcmp key v k ->
    (forall rs' ri', imidr (id_quads d) (id_qi d) rs0 (pending_at l i x) rs' ri' -> E (with_itable d rs' ri')) ->
    (forall b rs' ri' m, imidr (id_quads d) (id_qi d) rs0 (pending_at l i x) rs' ri' ->
       runs (f b) m (with_itable d rs' ri') P E) ->
    runs (andthen (m_id_table (m_i_release rcmp p i k key)) f) n (with_itable d rs ri) P E.
  Proof.
    intros Hi [M V] Hl Hk Hv Hf HE H; apply runs_andthen, runs_id_table; cbn [id_resources id_ri with_itable].
    assert (Next : forall q r j,
      tracked (id_quads d) (id_qi d) q r j \/ pending_at l i x q r j ->
      (tracked (id_quads d) (id_qi d) q r j \/ pending_at (p :: l) i x q r j) /\
      ~ (q = p /\ r = k /\ j = i)).
    { intros q r j [T|(A & B' & C)].
      - split; [auto|]; intros (_ & _ & ->); destruct T as [(y & Hy & _) _]; congruence.
      - split; [right; split; [now right|auto]|]; intros (-> & _ & _); contradiction. }
    assert (Nx : forall rs' ri',
      wiinv (cmp:=cmp) rs' ri' (fun q r j =>
        (tracked (id_quads d) (id_qi d) q r j \/ pending_at (p :: l) i x q r j) /\
        ~ (q = p /\ r = k /\ j = i)) /\
      (forall q r j, tracked (id_quads d) (id_qi d) q r j \/ pending_at (p :: l) i x q r j ->
         ~ (q = p /\ r = k /\ j = i) -> ir_val rs' r = ir_val rs r) ->
      imidr (id_quads d) (id_qi d) rs0 (pending_at l i x) rs' ri').
    { intros rs' ri' [A B']; split.
      - eapply wiinv_le; [exact A|]; apply Next.
      - intros q r j Hq; destruct (Next q r j Hq) as [N1 N2].
        rewrite (B' q r j N1 N2); apply (V q r j N1). }
    assert (Hp : pending_at (p :: l) i x p k i) by (repeat split; [now left|exact Hk]).
    eapply runs_weak; [apply (runs_i_release L rcmp key _ _ _ p i k v n M)| |].
    - rewrite (V p k i (or_intror Hp)); exact Hv.
    - exact Hf.
    - intros b [rs' ri'] A m; rewrite with_itable_twice; apply H, Nx, A.
    - intros [rs' ri'] A; rewrite with_itable_twice; apply HE, Nx, A.
  Qed.

  (** The quad is no longer in the slab, nor in the index; [d] is otherwise as before. *)
  Lemma runs_tail byval d i x q n :
    sget (id_quads d) i = None ->
    imidr (id_quads d) (id_qi d) (id_resources d) (pending_at [PosS; PosP; PosO; PosG] i x)
      (id_resources d) (id_ri d) ->
    i_quad_with_resources (id_resources d) x = Some q ->
    let left := fun d' : @idataset R => exists rs ri dg ng,
      d' = IDataset rs (id_quads d) ri (id_qi d) (id_s d) (id_p d) (id_o d) dg ng /\
      imidr (id_quads d) (id_qi d) (id_resources d) (fun _ _ _ => False) rs ri in
    runs (m_tail byval i x q) n d (fun _ => left) left.
  Proof.
    intros Hi M Hq left; apply iqwr_some in Hq as (Vs & Vp & Vo & Vg).
    assert (Fin : forall l rs ri dg ng,
      imidr (id_quads d) (id_qi d) (id_resources d) (pending_at l i x) rs ri ->
      left (IDataset rs (id_quads d) ri (id_qi d) (id_s d) (id_p d) (id_o d) dg ng)).
    { intros l rs ri dg ng [A B]; exists rs, ri, dg, ng; split; [reflexivity|].
      split; [eapply wiinv_le; [exact A|]; cbn; tauto|].
      intros p r j [T|[]]; apply (B p r j); auto. }
    unfold m_tail.
    match goal with |- runs ?a ?n ?x ?P ?E =>
      cut (runs a n (with_itable d (id_resources d) (id_ri d)) P E);
        [rewrite with_itable_same; exact (fun H => H)|]
    end.
    assert (Step : forall {B} l rs ri p k v (f : bool -> act (@idataset R) B) n P,
      imidr (id_quads d) (id_qi d) (id_resources d) (pending_at (p :: l) i x) rs ri -> ~ In p l ->
      slot p x = Some k -> ir_val (id_resources d) k = Some v ->
      (forall b rs' ri' m, imidr (id_quads d) (id_qi d) (id_resources d) (pending_at l i x) rs' ri' ->
         runs (f b) m (with_itable d rs' ri') P left) ->
      runs (andthen (m_id_table (m_rel byval p i k v)) f) n (with_itable d rs ri) P left).
    { intros B l rs ri p k v f n0 P A1 A2 A3 A4 A5; unfold m_rel; destruct byval.
      - eapply runs_i_release_then; [exact Hi|exact A1|exact A2|exact A3|exact A4|apply mi_finds_value
          |intros; eapply Fin; eauto|exact A5].
      - eapply runs_i_release_then; [exact Hi|exact A1|exact A2|exact A3|exact A4|apply mi_finds_index
          |intros; eapply Fin; eauto|exact A5]. }
    eapply Step; [exact M|cbn; intuition discriminate|reflexivity|exact Vs|].
    intros _ rs1 ri1 n1 M1.
    eapply Step; [exact M1|cbn; intuition discriminate|reflexivity|exact Vp|].
    intros _ rs2 ri2 n2 M2.
    eapply Step; [exact M2|cbn; intuition discriminate|reflexivity|exact Vo|].
    intros _ rs3 ri3 n3 M3; destruct (q_g x) as [g|] eqn:Eg.
    - destruct (q_g q) as [h|]; [|contradiction].
      eapply runs_i_release_then; [exact Hi|exact M3|auto|exact Eg|exact Vg|apply mi_finds_index
        |intros; eapply Fin; eauto|].
      intros b rs4 ri4 n4 M4; apply runs_get_then, runs_put; eapply Fin, M4.
    - apply runs_get_then, runs_put; eapply Fin, M3.
  Qed.

  Lemma spo_ok_remove qs qs' i x p k l :
    (forall j, sget qs' j = if j =? i then None else sget qs j) -> sget qs i = Some x ->
    slot p x = Some k -> spo_ok qs p l -> spo_ok qs' p (ns_remove k l).
  Proof.
    intros G Hi Hk [A B]; split; [now apply ns_remove_sorted|].
    intros HF r; rewrite in_ns_remove by assumption; intros [Hr1 Hr].
    destruct (B HF r Hr) as (j & y & Hy & Hs); exists j, y; rewrite G; split; [|exact Hs].
    destruct (j =? i) eqn:Ej; [apply Nat.eqb_eq in Ej; subst; congruence|exact Hy].
  Qed.

  (** What is left once the quad [i] is removed from the index and from the slab. *)
  Lemma runs_removal byval d ks lost i x q qs qi n :
    wid_inv d ks lost -> In q ks -> sget (id_quads d) i = Some x ->
    i_quad_with_resources (id_resources d) x = Some q ->
    sremove (id_quads d) i = Some (x, qs) -> Permutation (id_qi d) (i :: qi) ->
    indexes (cmpk:=qcmp) (i_quad_at (id_resources d) (id_quads d)) qi (del qcmp q ks) ->
    runs (m_tail byval i x q) n
      (IDataset (id_resources d) qs (id_ri d) qi (ns_remove (q_s x) (id_s d))
         (ns_remove (q_p x) (id_p d)) (ns_remove (q_o x) (id_o d)) (id_dg d) (id_ng d))
      (fun _ d' => wid_inv d' (del qcmp q ks) lost) (fun d' => wid_inv d' (del qcmp q ks) lost).
  Proof.
    intros [I1 I2 I3 I4 I8 I5 I6 I7] Hin Ex Hq Eqs HP I2'.
    assert (Gq : forall j, sget qs j = if j =? i then None else sget (id_quads d) j)
      by (intros j; apply (sget_sremove _ _ _ _ _ Eqs)).
    assert (ND : NoDup (i :: qi)).
    { apply (Permutation_NoDup HP), (indexes_nodup LQ _ _ _ I2). }
    assert (Hni : ~ In i qi) by now inv ND.
    assert (Sub : forall p r j, tracked qs qi p r j -> tracked (id_quads d) (id_qi d) p r j).
    { intros p r j [(y & Hy & Hs) Hj]; split.
      - exists y; split; [|exact Hs]; rewrite Gq in Hy; destruct (j =? i); [discriminate|exact Hy].
      - destruct Hj as [|Hj]; [auto|right]; apply (Permutation_in _ (Permutation_sym HP)); now right. }
    assert (Fin : forall d', (exists rs ri dg ng,
        d' = IDataset rs qs ri qi (ns_remove (q_s x) (id_s d))
               (ns_remove (q_p x) (id_p d)) (ns_remove (q_o x) (id_o d)) dg ng /\
        imidr qs qi (id_resources d) (fun _ _ _ => False) rs ri) ->
      wid_inv d' (del qcmp q ks) lost).
    { intros d' (rs & ri & dg & ng & -> & M & V).
      assert (Same : forall j, F \/ In j qi -> j <> i ->
        i_quad_at rs qs j = i_quad_at (id_resources d) (id_quads d) j).
      { intros j Hj Ej; apply Nat.eqb_neq in Ej; unfold i_quad_at; rewrite Gq, Ej.
        destruct (sget (id_quads d) j) as [y|] eqn:Ey; cbn; [|reflexivity].
        assert (Hy : forall p r, slot p y = Some r -> ir_val rs r = ir_val (id_resources d) r).
        { intros p r Hs; apply (V p r j); left; split; [|auto].
          exists y; rewrite Gq, Ej; auto. }
        unfold i_quad_with_resources.
        rewrite (Hy PosS _ eq_refl), (Hy PosP _ eq_refl), (Hy PosO _ eq_refl).
        destruct (q_g y) as [g|] eqn:Eg; [|reflexivity].
        rewrite (Hy PosG g Eg); reflexivity. }
      split; cbn [id_quads id_resources id_ri id_qi id_s id_p id_o].
      - eapply swf_sremove; eauto.
      - eapply indexes_ext; [|exact I2']; intros j Hj; apply Same; [auto|].
        intros ->; contradiction.
      - eapply wiinv_le; [exact M|]; cbn; auto.
      - rewrite (slen_sremove _ _ _ _ Eqs) in I4.
        rewrite (length_del L q ks) in I4; [lia| |assumption].
        apply (ssorted_nodup LQ), I2.
      - intros f; eapply (ghosts_remove (id_resources d)); [exact (I8 f)|exact Gq|exact HP|].
        intros j Hj; apply Same; [auto|]; intros ->; rewrite Gq, Nat.eqb_refl in Hj; congruence.
      - eapply (spo_ok_remove (id_quads d) qs i x); auto.
      - eapply (spo_ok_remove (id_quads d) qs i x); auto.
      - eapply (spo_ok_remove (id_quads d) qs i x); auto. }
    eapply runs_weak; [eapply runs_tail| |]; cbn [id_quads id_resources id_ri id_qi id_s id_p id_o].
    - rewrite Gq, Nat.eqb_refl; reflexivity.
    - split; [|auto]; eapply wiinv_le; [exact I3|]; intros p r j [T|(_ & Hs & ->)]; [auto|].
      split; [exists x; auto|]; right; apply (Permutation_in _ (Permutation_sym HP)); now left.
    - exact Hq.
    - intros _; exact Fin.
    - exact Fin.
  Qed.

  Definition m_remove_as (byval : bool) (q : quad R) : act (@idataset R) bool :=
    d <- get ;;
    '(found, qi) <- m_remove (m_quad_at_cmp cmp (i_quad_at (id_resources d) (id_quads d))) q (id_qi d) ;;
    _ <- put (IDataset (id_resources d) (id_quads d) (id_ri d) qi
                (id_s d) (id_p d) (id_o d) (id_dg d) (id_ng d)) ;;
    match found with
    | None => ret false
    | Some i =>
        '(x, qs) <- need (sremove (id_quads d) i) ;;
        _ <- put (IDataset (id_resources d) qs (id_ri d) qi
                (ns_remove (q_s x) (id_s d)) (ns_remove (q_p x) (id_p d))
                (ns_remove (q_o x) (id_o d)) (id_dg d) (id_ng d)) ;;
        _ <- m_tail byval i x q ;;
        ret true
    end.

  Lemma runs_id_remove_as byval d ks lost q n :
    wid_inv d ks lost ->
    runs (m_remove_as byval q) n d
      (fun b d' => b = mem qcmp q ks /\ wid_inv d' (del qcmp q ks) lost)
      (fun d' => wid_inv d' ks lost \/ wid_inv d' (del qcmp q ks) lost).
  Proof.
    intros W; pose proof (wid_idx _ _ _ W) as I2; unfold m_remove_as; apply runs_get_then.
    destruct (bt_remove_spec LQ _ _ _ q I2) as (r & qi & E & I2' & Hr).
    eapply runs_quiet_then.
    { eapply quiet_eq; [eapply quiet_m_remove; intros; apply quiet_quad_at_cmp|exact E]. }
    { auto. }
    intros m; cbn beta iota; apply runs_put_then; destruct r as [i|].
    2: { apply runs_ret; destruct Hr as [Hr ->]; split; [symmetry; now apply (mem_false LQ)|].
         rewrite (del_notin LQ) by assumption; destruct d; exact W. }
    destruct Hr as (Hv & Hin & HP).
    unfold i_quad_at in Hv; destruct (sget (id_quads d) i) as [x|] eqn:Ex; [|discriminate].
    cbn in Hv; destruct (sremove_some _ _ _ Ex) as (qs & Eqs).
    eapply runs_need_then; [exact Eqs|]; cbn beta iota; apply runs_put_then.
    apply runs_andthen; eapply runs_weak;
      [apply (runs_removal byval d ks lost i x q qs qi m W Hin Ex Hv Eqs HP I2')| |]; cbn beta.
    - intros _ d' W' m'; apply runs_ret; split; [symmetry; now apply (mem_true LQ)|exact W'].
    - auto.
  Qed.

  Lemma andthen_ext {St A B} (a : act St A) (f g : A -> act St B) n s :
    (forall x m t, f x m t = g x m t) -> andthen a f n s = andthen a g n s.
  Proof. intros H; unfold andthen; destruct (a n s); auto. Qed.

  Lemma m_id_remove_as q n d : m_id_remove cmp q n d = m_remove_as false q n d.
  Proof.
    unfold m_id_remove, m_remove_as.
    match goal with |- andthen get ?f _ _ = andthen get ?g _ _ => change (f d n d = g d n d) end.
    cbv beta; apply andthen_ext; intros [[i|] qi] m t; [|reflexivity].
    match goal with |- andthen (put ?u) ?f _ _ = andthen _ ?g _ _ => change (f tt m u = g tt m u) end.
    cbv beta iota; unfold m_id_remove_by_index; cbn [id_quads id_resources id_ri id_qi id_s id_p id_o id_dg id_ng].
    unfold andthen at 1 2 3 4 5 6, get at 1 2, ret at 1, need at 1; cbn.
    unfold andthen at 5, need at 1.
    destruct (sremove (id_quads d) i) as [[x qs]|]; reflexivity.
  Qed.

  Lemma runs_id_remove d ks lost q n :
    wid_inv d ks lost ->
    runs (m_id_remove cmp q) n d
      (fun b d' => b = mem qcmp q ks /\ wid_inv d' (del qcmp q ks) lost)
      (fun d' => wid_inv d' ks lost \/ wid_inv d' (del qcmp q ks) lost).
  Proof. unfold runs; rewrite m_id_remove_as; apply runs_id_remove_as. Qed.

  (** The state represents the set [s], with [lost] losses. *)
  Definition wid_rep (d : @idataset R) (s lost : list (quad R)) : Prop :=
    NoDup s /\ wid_inv d (sorted_elements qcmp s) lost.

  Lemma runs_id_insert_rep d s lost q n :
    wid_rep d s lost ->
    runs (m_id_insert cmp keep q) n d
      (fun b d' => b = negb (mem qcmp q s) /\ wid_rep d' (add qcmp q s) lost)
      (fun d' => exists lost', wid_rep d' s lost' /\
         (lost' = lost \/ mem qcmp q s = false /\ lost' = q :: lost)).
  Proof.
    intros [Hn W]; eapply runs_weak; [apply (runs_id_insert _ _ _ q n W)| |]; cbn beta.
    - intros b d' [-> W']; unfold after_insert in W'; rewrite (mem_sorted L) in *; split; [reflexivity|].
      split; [now apply (nodup_add LQ)|].
      destruct (mem qcmp q s) eqn:E; unfold add; rewrite E; exact W'.
    - intros d'; rewrite (mem_sorted L); intros [W'|[E W']].
      + exists lost; split; [split; auto|auto].
      + exists (q :: lost); split; [split; auto|auto].
  Qed.

  Lemma runs_id_remove_rep byval d s lost q n :
    wid_rep d s lost ->
    runs (m_remove_as byval q) n d
      (fun b d' => b = mem qcmp q s /\ wid_rep d' (del qcmp q s) lost)
      (fun d' => wid_rep d' s lost \/ wid_rep d' (del qcmp q s) lost).
  Proof.
    intros [Hn W]; eapply runs_weak; [apply (runs_id_remove_as byval _ _ _ q n W)| |]; cbn beta;
      rewrite (del_ext L) by assumption.
    - intros b d' [-> W']; split; [now apply (mem_sorted L)|]; split; [now apply (nodup_del (cmp:=qcmp))|exact W'].
    - intros d' [W'|W']; [left|right]; split; auto; now apply (nodup_del (cmp:=qcmp)).
  Qed.

  Lemma runs_id_extend_rep l : forall d s lost n,
    wid_rep d s lost ->
    runs (m_id_extend cmp keep l) n d
      (fun _ d' => wid_rep d' (fold_left (fun s q => add qcmp q s) l s) lost)
      (fun d' => exists s' lost', wid_rep d' s' lost' /\ left_over qcmp s lost (Extend l) s' lost').
  Proof.
    induction l as [|q l IH]; intros d s lost n W; [apply runs_ret; exact W|].
    cbn [m_id_extend fold_left]; apply runs_andthen.
    eapply runs_weak; [apply (runs_id_insert_rep _ _ _ q n W)| |]; cbn beta.
    - intros b d' [_ W'] m; eapply runs_weak; [apply (IH _ _ _ m W')|auto|].
      intros d2 (s' & lost' & W2 & l1 & x & l2 & -> & -> & H).
      eexists _, lost'; split; [exact W2|]; exists (q :: l1), x, l2; auto.
    - intros d' (lost' & W' & H); exists s, lost'; split; [exact W'|].
      exists [], q, l; auto.
  Qed.

  Lemma id_length_rep d s lost : wid_rep d s lost -> id_len d = length s + length lost.
  Proof. intros [Hn W]; unfold id_len; rewrite (wid_len _ _ _ W), (length_sorted L) by assumption; reflexivity. Qed.

  Definition m_step_as (byval : bool) (o : op (quad R)) : act (@idataset R) (out (quad R)) :=
    match o with
    | Remove q => b <- m_remove_as byval q ;; ret (OBool b)
    | o => m_id_step cmp keep o
    end.

  Lemma runs_id_step byval d s lost o n :
    wid_rep d s lost ->
    runs (m_step_as byval o) n d
      (fun x d' => x = answer qcmp s lost o /\ wid_rep d' (snd (spec_step qcmp s o)) lost)
      (fun d' => exists s' lost', wid_rep d' s' lost' /\ left_over qcmp s lost o s' lost').
  Proof.
    intros W; destruct o as [q|q|l|q| | | |]; cbn [m_step_as m_id_step].
    - apply runs_andthen; eapply runs_weak; [apply (runs_id_insert_rep _ _ _ q n W)| |]; cbn beta.
      + intros b d' [-> W'] m; apply runs_ret; auto.
      + intros d' (lost' & W' & H); exists s, lost'; split; [exact W'|]; cbn; auto.
    - apply runs_andthen; eapply runs_weak; [apply (runs_id_remove_rep byval _ _ _ q n W)| |]; cbn beta.
      + intros b d' [-> W'] m; apply runs_ret; auto.
      + intros d' [W'|W']; eexists _, lost; (split; [exact W'|]); cbn; auto.
    - apply runs_andthen; eapply runs_weak; [apply (runs_id_extend_rep l _ _ _ n W)| |auto]; cbn beta.
      intros [] d' W' m; apply runs_ret; auto.
    - apply runs_andthen; destruct W as [Hn W].
      eapply runs_weak; [apply (runs_id_contains _ _ _ q n W)| |]; cbn beta.
      + intros b d' [-> ->] m; apply runs_ret; cbn; rewrite (mem_sorted L) by assumption; split; [auto|split; auto].
      + intros d' ->; exists s, lost; split; [split; auto|cbn; auto].
    - apply runs_get_then, runs_ret; cbn; rewrite (id_length_rep _ _ _ W); auto.
    - apply runs_get_then, runs_ret; unfold id_is_empty; cbn; rewrite (id_length_rep _ _ _ W); auto.
    - apply runs_get_then; pose proof W as [Hn Wi]; pose proof (wid_idx _ _ _ Wi) as [HM _].
      eapply runs_need_then; [exact HM|]; apply runs_ret; cbn; auto.
    - apply runs_get_then; pose proof W as [Hn Wi]; pose proof (wid_idx _ _ _ Wi) as HM.
      eapply runs_need_then.
      + apply IndexedHistoryProofs.i_into_iter_spec; [eapply (indexes_nodup LQ), HM|apply HM].
      + apply runs_ret; cbn; auto.
  Qed.

  Lemma m_step_as_false o n d : m_step_as false o n d = m_id_step cmp keep o n d.
  Proof.
    destruct o; try reflexivity; cbn [m_step_as m_id_step]; unfold andthen.
    now rewrite m_id_remove_as.
  Qed.

  Lemma run_id_history l : forall d s lost,
    wid_rep d s lost ->
    exists ys d' s' lost', m_run (m_id_step cmp keep) d l = Some (ys, d') /\
      history qcmp s lost (map fst l) ys s' lost' /\ wid_rep d' s' lost'.
  Proof.
    induction l as [|[o n] l IH]; intros d s lost W.
    - exists [], d, s, lost; split; [reflexivity|]; split; [constructor|exact W].
    - cbn; pose proof (runs_id_step false d s lost o n W) as H; unfold runs in H; rewrite m_step_as_false in H.
      destruct (m_id_step cmp keep o n d) as [x m d1|d1|]; [| |contradiction].
      + destruct H as [-> W1]; destruct (IH _ _ _ W1) as (ys & d' & s' & lost' & -> & Hh & W').
        exists (Some (answer qcmp s lost o) :: ys), d', s', lost'; split; [reflexivity|].
        split; [now constructor|exact W'].
      + destruct H as (s1 & lost1 & W1 & Hl); destruct (IH _ _ _ W1) as (ys & d' & s' & lost' & -> & Hh & W').
        exists (None :: ys), d', s', lost'; split; [reflexivity|].
        split; [econstructor; eauto|exact W'].
  Qed.

  Lemma wid_rep_new : wid_rep id_new [] [].
  Proof. split; [constructor|apply wid_inv_new]. Qed.
End Proofs.

Lemma wid_rep_imp {R} {cmp : R -> R -> comparison} (F G : Prop) (d : @idataset R) s lost :
  (G -> F) -> wid_rep (cmp:=cmp) F d s lost -> wid_rep (cmp:=cmp) G d s lost.
Proof.
  intros H [Hn [I1 I2 I3 I4 I8 I5 I6 I7]]; split; [exact Hn|]; split; auto.
  - eapply wiinv_le; [exact I3|]; intros p r i [A B]; split; [exact A|tauto].
  - destruct I5; split; auto.
  - destruct I6; split; auto.
  - destruct I7; split; auto.
Qed.
