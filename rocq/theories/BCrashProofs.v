(** [BTreeDataset] and [BTreeGraph] whose comparison may panic. *)
From Coq Require Import List Bool Arith Lia Permutation Sorted.
Import ListNotations.
From Verif Require Import Base SlabModel TripleModel SetSpec BaseProofs BResourceModel BResourceProofs
  BTreeDatasetModel BTreeDatasetProofs BTreeGraphModel BTreeGraphProofs CrashModel CrashSpec CrashProofs.

Section Proofs.
  Context {R : Type} {cmp : R -> R -> comparison} (L : ord_laws cmp).
  Context (keep : bool).
  Notation qcmp := (quad_cmp cmp).
  Let LQ : ord_laws qcmp := quad_cmp_laws cmp L.

  (** Only the quads of the index count; there are [lost] others in the slab. *)
  Record wd_inv (d : @bdataset R) (ks : list (quad R)) (lost : nat) : Prop := {
    wd_wf : swf (bd_quads d);
    wd_idx : indexes (cmpk:=qcmp) (b_quad_at (bd_resources d) (bd_quads d)) (bd_qi d) ks;
    wd_res : winv (cmp:=cmp) (bd_resources d) (bd_ri d) (refs (bd_quads d) (bd_qi d));
    wd_len : slen (bd_quads d) = length ks + lost
  }.

  Lemma wd_inv_new : wd_inv bd_new [] 0.
  Proof. split; cbn; [apply swf_new|repeat constructor|now apply winv_new|reflexivity]. Qed.

  Definition with_table (d : @bdataset R) (rs : slab (bresource R)) (ri : list nat) : @bdataset R :=
    BDataset rs (bd_quads d) ri (bd_qi d).

  Lemma runs_bd_table {A} (a : act (@btable R) A) n d P E :
    runs a n (bd_resources d, bd_ri d)
      (fun x '(rs, ri) => P x (with_table d rs ri)) (fun '(rs, ri) => E (with_table d rs ri)) ->
    runs (m_bd_table a) n d P E.
  Proof.
    intros H; apply runs_zoom; eapply runs_weak; [exact H| |].
    - intros x [rs ri]; auto.
    - intros [rs ri]; auto.
  Qed.

  Lemma with_table_twice d rs ri rs' ri' :
    with_table (with_table d rs ri) rs' ri' = with_table d rs' ri'.
  Proof. reflexivity. Qed.

  Lemma with_table_same d : with_table d (bd_resources d) (bd_ri d) = d.
  Proof. destruct d; reflexivity. Qed.

  Lemma at_grows rs rs' qs i x :
    grows rs rs' -> b_quad_at (R:=R) rs qs i = Some x -> b_quad_at rs' qs i = Some x.
  Proof.
    unfold b_quad_at; intros H; destruct (sget qs i); cbn; [|discriminate]; now apply qwr_mono.
  Qed.

  Lemma wd_inv_grows d ks lost rs ri :
    wd_inv d ks lost -> grows (bd_resources d) rs ->
    winv (cmp:=cmp) rs ri (refs (bd_quads d) (bd_qi d)) -> wd_inv (with_table d rs ri) ks lost.
  Proof.
    intros [A B C D] G W; split; cbn; auto.
    eapply indexes_ext; [|exact B]; intros i Hi; destruct B as [HM _].
    destruct (mapM_in_inv _ _ _ _ HM Hi) as (y & Hy & _); rewrite Hy; eapply at_grows; eauto.
  Qed.

  Lemma length_place q ks : length (place qcmp q ks) = S (length ks).
  Proof. induction ks as [|y ks IH]; cbn; [reflexivity|]; destruct (qcmp q y); cbn; auto. Qed.

  Lemma bd_contains_get d q :
    bd_contains cmp d q =
    bind (bt_get (kcmp (cmpk:=qcmp) (b_quad_at (bd_resources d) (bd_quads d))) q (bd_qi d))
      (fun i => Some (is_some i)).
  Proof. reflexivity. Qed.

  Lemma runs_contains d ks lost q n :
    wd_inv d ks lost ->
    runs (m_bd_contains cmp q) n d (fun b d' => b = mem qcmp q ks /\ d' = d) (fun d' => d' = d).
  Proof.
    intros [_ H _ _]; destruct (bt_get_spec LQ _ _ _ q H) as (r & Hr & Hs).
    unfold m_bd_contains; apply runs_get_then; eapply runs_quiet_then.
    - eapply quiet_eq; [eapply quiet_m_get; intros; apply quiet_quad_at_cmp|exact Hr].
    - reflexivity.
    - intros m; apply runs_ret; split; [|reflexivity]; destruct r; cbn; symmetry.
      + apply (mem_true LQ); tauto.
      + now apply (mem_false LQ).
  Qed.

  (** In the middle of an insertion: the table has grown. *)
  Definition mid (d : @bdataset R) (extra : nat -> nat) (rs : slab (bresource R)) (ri : list nat) : Prop :=
    grows (bd_resources d) rs /\
    winv (cmp:=cmp) rs ri (fun r => refs (bd_quads d) (bd_qi d) r + extra r).

  Definition found (rs : slab (bresource R)) (v : R) (f : option nat) : Prop :=
    match f with Some i => br_val rs i = Some v | None => True end.

  Lemma found_grows rs rs' v f : grows rs rs' -> found rs v f -> found rs' v f.
  Proof. unfold found; destruct f; auto. Qed.

  Lemma grows_trans (a b c : slab (bresource R)) : grows a b -> grows b c -> grows a c.
  Proof. unfold grows; auto. Qed.

  Lemma mid_inv d ks lost extra rs ri :
    wd_inv d ks lost -> mid d extra rs ri -> wd_inv (with_table d rs ri) ks lost.
  Proof.
    intros W [G H]; apply wd_inv_grows; auto; eapply winv_le; [exact H|]; intros; cbn; lia.
  Qed.

  Lemma runs_index_then {B} d ks lost v (f : option nat -> act (@bdataset R) B) n P (E : @bdataset R -> Prop) :
    wd_inv d ks lost -> E d ->
    (forall r m, found (bd_resources d) v r -> runs (f r) m d P E) ->
    runs (andthen (m_bd_table (m_b_index_of_resource cmp v)) f) n d P E.
  Proof.
    intros W HE H; apply runs_andthen, runs_bd_table.
    eapply runs_weak; [apply (runs_index_of L _ _ _ v n (wd_res _ _ _ W))| |].
    - intros x [rs ri] [Et Hx]; inv Et; rewrite with_table_same; intros m; now apply H.
    - intros [rs ri] Et; inv Et; now rewrite with_table_same.
  Qed.

  Lemma runs_acquire_then {B} d ks lost extra rs ri v fd (f : nat -> act (@bdataset R) B) n P
      (E : @bdataset R -> Prop) :
    wd_inv d ks lost -> mid d extra rs ri -> found (bd_resources d) v fd ->
    (forall d', wd_inv d' ks lost -> E d') ->
    (forall k rs' ri' m, mid d (fun r => extra r + ind k r) rs' ri' -> br_val rs' k = Some v ->
       grows rs rs' -> runs (f k) m (with_table d rs' ri') P E) ->
    runs (andthen (m_bd_table (m_b_acquire cmp keep v fd)) f) n (with_table d rs ri) P E.
  Proof.
    intros W [G M] Hf HE H; apply runs_andthen, runs_bd_table; cbn.
    eapply runs_weak; [apply (runs_acquire L keep _ _ _ v fd n M)| |].
    - destruct fd; [apply G; exact Hf|exact Logic.I].
    - intros k [rs' ri'] (M' & Hk & G') m; rewrite with_table_twice; apply H; auto.
      split; [eapply grows_trans; eauto|]; eapply winv_le; [exact M'|]; intros; cbn; lia.
    - intros [rs' ri'] (M' & G'); rewrite with_table_twice; apply HE, (mid_inv _ _ _ extra); auto.
      split; [eapply grows_trans; eauto|exact M'].
  Qed.

  Definition after_insert (q : quad R) (ks : list (quad R)) : list (quad R) :=
    if mem qcmp q ks then ks else place qcmp q ks.

  Lemma runs_insert d ks lost q n :
    wd_inv d ks lost ->
    runs (m_bd_insert cmp keep q) n d
      (fun b d' => b = negb (mem qcmp q ks) /\ wd_inv d' (after_insert q ks) lost)
      (fun d' => wd_inv d' ks lost \/ mem qcmp q ks = false /\ wd_inv d' ks (S lost)).
  Proof.
    intros W; unfold m_bd_insert, after_insert; apply runs_andthen.
    eapply runs_weak; [apply (runs_contains _ _ _ q n W)| |]; cbn beta; [|intros d' ->; auto].
    intros b d' [-> ->] m; destruct (mem qcmp q ks) eqn:Hq; [apply runs_ret; auto|].
    clear n; apply (mem_false LQ) in Hq.
    eapply runs_index_then; [exact W|auto|]; intros fs m1 Hfs.
    eapply runs_index_then; [exact W|auto|]; intros fp m2 Hfp.
    eapply runs_index_then; [exact W|auto|]; intros fo m3 Hfo.
    apply runs_andthen.
    apply runs_weak with
      (P := fun fg d' => d' = d /\
              match fg, q_g q with
              | Some (g, f), Some h => g = h /\ found (bd_resources d) g f
              | None, None => True
              | _, _ => False
              end)
      (E := fun d' => d' = d); [| |intros d' ->; auto].
    { destruct (q_g q) as [g|]; [|apply runs_ret; auto].
      eapply runs_index_then; [exact W|auto|]; intros f m4 Hf; apply runs_ret; auto. }
    intros fg d' [-> Hg] m4; apply runs_get_then.
    set (E := fun d' => wd_inv d' ks lost \/ false = false /\ wd_inv d' ks (S lost)).
    assert (HE : forall d', wd_inv d' ks lost -> E d') by (intros; left; assumption).
    assert (M0 : mid d (fun _ => 0) (bd_resources d) (bd_ri d)).
    { split; [intros ? ? ?; assumption|].
      eapply winv_le; [exact (wd_res _ _ _ W)|]; intros; cbn; lia. }
    match goal with |- runs ?a ?n ?x ?P ?E =>
      cut (runs a n (with_table d (bd_resources d) (bd_ri d)) P E);
        [rewrite with_table_same; exact (fun H => H)|]
    end.
    eapply runs_acquire_then; [exact W|exact M0|exact Hfs|exact HE|].
    intros s_i rs1 ri1 n1 M1 V1 G1.
    eapply runs_acquire_then; [exact W|exact M1|exact Hfp|exact HE|].
    intros p_i rs2 ri2 n2 M2 V2 G2.
    eapply runs_acquire_then; [exact W|exact M2|exact Hfo|exact HE|].
    intros o_i rs3 ri3 n3 M3 V3 G3.
    apply runs_andthen.
    apply runs_weak with
      (P := fun g_i d' => exists rs4 ri4, d' = with_table d rs4 ri4 /\ grows rs3 rs4 /\
              mid d (qrefs (Quad s_i p_i o_i g_i)) rs4 ri4 /\
              match g_i, q_g q with
              | Some g, Some h => br_val rs4 g = Some h
              | None, None => True
              | _, _ => False
              end)
      (E := E); [| |auto].
    { destruct fg as [[g f]|], (q_g q) as [h|]; try contradiction.
      - destruct Hg as [-> Hg].
        eapply runs_acquire_then; [exact W|exact M3|exact Hg|exact HE|].
        intros g_i rs4 ri4 n4 [G4 M4] V4 G4'; apply runs_ret; exists rs4, ri4.
        split; [reflexivity|]; split; [exact G4'|]; split; [|exact V4].
        split; [exact G4|]; eapply winv_le; [exact M4|]; intros r; unfold qrefs; cbn; lia.
      - apply runs_ret; exists rs3, ri3; split; [reflexivity|]; split; [intros ? ? ?; assumption|].
        split; [|exact Logic.I]; destruct M3 as [G M3]; split; [exact G|].
        eapply winv_le; [exact M3|]; intros r; unfold qrefs; cbn; lia. }
    intros g_i d' (rs4 & ri4 & -> & G4 & [GM M4] & V4) n4; apply runs_get_then; cbn [with_table bd_quads bd_resources bd_ri bd_qi].
    set (x := Quad s_i p_i o_i g_i).
    set (i := vacant_key (bd_quads d)).
    set (qs := sinsert (bd_quads d) x).
    destruct W as [I1 I2 I3 I4].
    assert (Gq : forall j, sget qs j = if j =? i then Some x else sget (bd_quads d) j)
      by (intros; now apply sget_sinsert).
    assert (Hi : sget (bd_quads d) i = None) by now apply sget_vacant.
    assert (Old : forall j, In j (bd_qi d) -> exists y k, sget (bd_quads d) j = Some y /\
                     b_quad_with_resources (bd_resources d) y = Some k).
    { intros j Hj; destruct I2 as [HM _]; destruct (mapM_in_inv _ _ _ _ HM Hj) as (k & Hk & _).
      unfold b_quad_at in Hk; destruct (sget (bd_quads d) j) as [y|]; [|discriminate]; eauto. }
    assert (Hni : ~ In i (bd_qi d)) by (intros Hin; destruct (Old _ Hin) as (y & k & Hy & _); congruence).
    assert (Hx : b_quad_with_resources rs4 x = Some q).
    { apply qwr_some; cbn; repeat split; auto. }
    assert (Vi : b_quad_at rs4 qs i = Some q).
    { unfold b_quad_at; rewrite Gq, Nat.eqb_refl; exact Hx. }
    assert (Hidx : indexes (cmpk:=qcmp) (b_quad_at rs4 qs) (bd_qi d) ks).
    { eapply indexes_ext; [|exact I2]; intros j Hj.
      destruct (Old j Hj) as (y & k & Hy & Hk); unfold b_quad_at; rewrite Gq, Hy; cbn.
      destruct (j =? i) eqn:Ej; [apply Nat.eqb_eq in Ej; subst; contradiction|].
      rewrite Hk; eapply qwr_mono; [|exact Hk]; exact GM. }
    assert (Rf : forall r, refs qs (bd_qi d) r = refs (bd_quads d) (bd_qi d) r).
    { intros r; unfold refs; apply sumf_ext; intros j Hj; rewrite Gq; destruct (j =? i) eqn:Ej; [|reflexivity].
      apply Nat.eqb_eq in Ej; subst; contradiction. }
    apply runs_put_then.
    destruct (bt_insert_new LQ _ keep _ _ i q Hidx Vi Hq) as (qi & Eqi & HP & Hidx').
    eapply runs_quiet_then.
    - eapply quiet_eq; [eapply quiet_m_insert; intros; apply quiet_quad_index_cmp|exact Eqi].
    - right; split; [reflexivity|]; split; cbn.
      + now apply swf_sinsert.
      + exact Hidx.
      + eapply winv_le; [exact M4|]; intros r; cbn; rewrite Rf; lia.
      + unfold qs; rewrite slen_sinsert by assumption; lia.
    - intros m5; apply runs_put_then, runs_ret; split; [reflexivity|]; split; cbn.
      + now apply swf_sinsert.
      + exact Hidx'.
      + eapply winv_le; [exact M4|]; intros r; cbn.
        unfold refs at 1; rewrite (sumf_perm _ _ _ HP), sumf_cons, Gq, Nat.eqb_refl.
        fold (refs qs (bd_qi d) r); rewrite Rf; fold x; lia.
      + unfold qs; rewrite slen_sinsert, I4 by assumption.
        rewrite length_place; reflexivity.
  Qed.

  Lemma length_del q ks : NoDup ks -> In q ks -> length ks = S (length (del qcmp q ks)).
  Proof.
    intros Hn Hq; enough (Permutation ks (q :: del qcmp q ks)) as H by (apply (Permutation_length H)).
    apply NoDup_Permutation; [assumption| |].
    - constructor; [rewrite (in_del LQ); tauto|now apply (nodup_del (cmp:=qcmp))].
    - intros x; cbn; rewrite (in_del LQ); destruct (ord_dec LQ x q); [subst; tauto|].
      split; [auto|intros [->|]; tauto].
  Qed.

  (** In the middle of a removal: [pending] counts the releases that remain. *)
  Definition midr (qs : slab (quad nat)) (qi : list nat) (rs0 : slab (bresource R))
      (pending : nat -> nat) (rs : slab (bresource R)) (ri : list nat) : Prop :=
    winv (cmp:=cmp) rs ri (fun r => refs qs qi r + pending r) /\
    forall j, 0 < refs qs qi j + pending j -> br_val rs j = br_val rs0 j.

  Lemma runs_release_then {K B} d pending rest rs0 rs ri rcmp (key : K) k v
      (f : unit -> act (@bdataset R) B) n P (E : @bdataset R -> Prop) :
    midr (bd_quads d) (bd_qi d) rs0 pending rs ri ->
    (forall r, pending r = ind k r + rest r) -> br_val rs0 k = Some v ->
    m_finds (cmp:=cmp) rcmp key v k ->
    (forall rs' ri', midr (bd_quads d) (bd_qi d) rs0 rest rs' ri' -> E (with_table d rs' ri')) ->
    (forall rs' ri' m, midr (bd_quads d) (bd_qi d) rs0 rest rs' ri' ->
       runs (f tt) m (with_table d rs' ri') P E) ->
    runs (andthen (m_bd_table (m_b_release rcmp k key)) f) n (with_table d rs ri) P E.
  Proof.
    intros [M V] Hp Hv Hf HE H; apply runs_andthen, runs_bd_table; cbn.
    assert (Hk : 0 < refs (bd_quads d) (bd_qi d) k + pending k) by (rewrite Hp, ind_same; lia).
    assert (Next : forall rs' ri',
      winv (cmp:=cmp) rs' ri' (fun r => refs (bd_quads d) (bd_qi d) r + pending r - ind k r) /\
      (forall j, 0 < refs (bd_quads d) (bd_qi d) j + pending j - ind k j -> br_val rs' j = br_val rs j) ->
      midr (bd_quads d) (bd_qi d) rs0 rest rs' ri').
    { intros rs' ri' [A B']; split.
      - eapply winv_le; [exact A|]; intros r; cbn; rewrite Hp; lia.
      - intros j Hj; rewrite B', V by (rewrite Hp; lia); reflexivity. }
    eapply runs_weak; [apply (runs_release L rcmp key _ _ _ k v n M)| |].
    - exact Hk.
    - rewrite V; assumption.
    - exact Hf.
    - intros [] [rs' ri'] A m; rewrite with_table_twice; apply H, Next, A.
    - intros [rs' ri'] A; rewrite with_table_twice; apply HE, Next, A.
  Qed.

  Lemma runs_remove d ks lost q n :
    wd_inv d ks lost ->
    runs (m_bd_remove cmp q) n d
      (fun b d' => b = mem qcmp q ks /\ wd_inv d' (del qcmp q ks) lost)
      (fun d' => wd_inv d' ks lost \/ wd_inv d' (del qcmp q ks) lost).
  Proof.
    intros W; pose proof W as [I1 I2 I3 I4]; unfold m_bd_remove; apply runs_get_then.
    destruct (bt_remove_spec LQ _ _ _ q I2) as (r & qi & E & I2' & Hr).
    eapply runs_quiet_then.
    { eapply quiet_eq; [eapply quiet_m_remove; intros; apply quiet_quad_at_cmp|exact E]. }
    { auto. }
    intros m; cbn beta iota; apply runs_put_then; destruct r as [i|].
    2: { apply runs_ret; destruct Hr as [Hr ->]; split; [symmetry; now apply (mem_false LQ)|].
         rewrite (del_notin LQ) by assumption; destruct d; exact W. }
    destruct Hr as (Hv & Hin & HP).
    unfold b_quad_at in Hv; destruct (sget (bd_quads d) i) as [x|] eqn:Ex; [|discriminate].
    cbn in Hv; destruct (sremove_some _ _ _ Ex) as (qs & Eqs).
    eapply runs_need_then; [exact Eqs|]; cbn beta iota; apply runs_put_then.
    assert (Gq : forall j, sget qs j = if j =? i then None else sget (bd_quads d) j)
      by (intros j; apply (sget_sremove _ _ _ _ _ Eqs)).
    assert (ND : NoDup (i :: qi)).
    { apply (Permutation_NoDup HP), (indexes_nodup LQ _ _ _ I2). }
    assert (Hni : ~ In i qi) by now inv ND.
    assert (RC : forall r, refs (bd_quads d) (bd_qi d) r = qrefs x r + refs qs qi r).
    { intros r; unfold refs; rewrite (sumf_perm _ _ _ HP), sumf_cons, Ex; f_equal.
      apply sumf_ext; intros j Hj; rewrite Gq; destruct (j =? i) eqn:Ej; [|reflexivity].
      apply Nat.eqb_eq in Ej; subst; contradiction. }
    apply qwr_some in Hv as (Vs & Vp & Vo & Vg).
    set (d1 := BDataset (bd_resources d) qs (bd_ri d) qi).
    (* what remains is the set without the quad *)
    assert (Fin : forall pending rs ri, midr qs qi (bd_resources d) pending rs ri ->
              wd_inv (with_table d1 rs ri) (del qcmp q ks) lost).
    { intros pending rs ri [M V]; split; cbn.
      - eapply swf_sremove; eauto.
      - eapply indexes_ext; [|exact I2']; intros j Hj; unfold b_quad_at; rewrite Gq.
        destruct (j =? i) eqn:Ej; [apply Nat.eqb_eq in Ej; subst; contradiction|].
        destruct (sget (bd_quads d) j) as [y|] eqn:Ey; cbn; [|reflexivity].
        assert (Hy : forall r, 0 < qrefs y r -> br_val rs r = br_val (bd_resources d) r).
        { intros r Hp; apply V.
          assert (qrefs y r <= refs qs qi r); [|lia].
          unfold refs; etransitivity; [|eapply sumf_in, Hj]; cbn; rewrite Gq, Ej, Ey; reflexivity. }
        unfold b_quad_with_resources.
        rewrite !Hy by (apply qrefs_pos; auto).
        destruct (q_g y) as [g|] eqn:Eg; [|reflexivity].
        rewrite (Hy g) by (apply qrefs_pos; auto); reflexivity.
      - eapply winv_le; [exact M|]; intros; cbn; lia.
      - rewrite (slen_sremove _ _ _ _ Eqs) in I4.
        rewrite (length_del q ks) in I4; [lia| |assumption].
        apply (ssorted_nodup LQ), I2. }
    assert (M0 : midr qs qi (bd_resources d) (qrefs x) (bd_resources d) (bd_ri d)).
    { split; [|auto]; eapply winv_le; [exact I3|]; intros r; cbn; rewrite RC; lia. }
    assert (Hmem : true = mem qcmp q ks) by (symmetry; now apply (mem_true LQ)).
    change (BDataset (bd_resources d) qs (bd_ri d) qi) with (with_table d1 (bd_resources d) (bd_ri d)).
    change qs with (bd_quads d1) in M0; change qi with (bd_qi d1) in M0.
    eapply (runs_release_then d1 (qrefs x)
      (fun r => ind (q_p x) r + ind (q_o x) r + match q_g x with Some g => ind g r | None => 0 end));
      [exact M0|intros; unfold qrefs; lia|exact Vs|apply m_finds_value
      |intros rs' ri' M; right; eapply Fin, M|].
    intros rs1 ri1 n1 M1.
    eapply (runs_release_then d1 _
      (fun r => ind (q_o x) r + match q_g x with Some g => ind g r | None => 0 end));
      [exact M1|intros; cbn; lia|exact Vp|apply m_finds_value|intros rs' ri' M; right; eapply Fin, M|].
    intros rs2 ri2 n2 M2.
    eapply (runs_release_then d1 _ (fun r => match q_g x with Some g => ind g r | None => 0 end));
      [exact M2|intros; cbn; lia|exact Vo|apply m_finds_value|intros rs' ri' M; right; eapply Fin, M|].
    intros rs3 ri3 n3 M3; destruct (q_g x) as [g_i|].
    - destruct (q_g q) as [g|]; [|contradiction].
      eapply (runs_release_then d1 _ (fun _ => 0));
        [exact M3|intros; cbn; lia|exact Vg|apply m_finds_index|intros rs' ri' M; right; eapply Fin, M|].
      intros rs4 ri4 n4 M4; apply runs_ret; split; [exact Hmem|eapply Fin, M4].
    - unfold andthen at 1; apply runs_ret; split; [exact Hmem|eapply Fin, M3].
  Qed.

  (** The state represents the set [s], with [lost] losses. *)
  Definition wd_rep (d : @bdataset R) (s lost : list (quad R)) : Prop :=
    NoDup s /\ wd_inv d (sorted_elements qcmp s) (length lost).

  Lemma runs_insert_rep d s lost q n :
    wd_rep d s lost ->
    runs (m_bd_insert cmp keep q) n d
      (fun b d' => b = negb (mem qcmp q s) /\ wd_rep d' (add qcmp q s) lost)
      (fun d' => exists lost', wd_rep d' s lost' /\
         (lost' = lost \/ mem qcmp q s = false /\ lost' = q :: lost)).
  Proof.
    intros [Hn W]; eapply runs_weak; [apply (runs_insert _ _ _ q n W)| |]; cbn beta.
    - intros b d' [-> W']; unfold after_insert in W'; rewrite (mem_sorted L) in *; split; [reflexivity|].
      split; [now apply (nodup_add LQ)|].
      destruct (mem qcmp q s) eqn:E; unfold add; rewrite E; exact W'.
    - intros d'; rewrite (mem_sorted L); intros [W'|[E W']].
      + exists lost; split; [split; auto|auto].
      + exists (q :: lost); split; [split; auto|auto].
  Qed.

  Lemma runs_remove_rep d s lost q n :
    wd_rep d s lost ->
    runs (m_bd_remove cmp q) n d
      (fun b d' => b = mem qcmp q s /\ wd_rep d' (del qcmp q s) lost)
      (fun d' => wd_rep d' s lost \/ wd_rep d' (del qcmp q s) lost).
  Proof.
    intros [Hn W]; eapply runs_weak; [apply (runs_remove _ _ _ q n W)| |]; cbn beta;
      rewrite (del_ext L) by assumption.
    - intros b d' [-> W']; split; [now apply mem_sorted|]; split; [now apply (nodup_del (cmp:=qcmp))|exact W'].
    - intros d' [W'|W']; [left|right]; split; auto; now apply (nodup_del (cmp:=qcmp)).
  Qed.

  Lemma runs_extend_rep l : forall d s lost n,
    wd_rep d s lost ->
    runs (m_bd_extend cmp keep l) n d
      (fun _ d' => wd_rep d' (fold_left (fun s q => add qcmp q s) l s) lost)
      (fun d' => exists s' lost', wd_rep d' s' lost' /\ left_over qcmp s lost (Extend l) s' lost').
  Proof.
    induction l as [|q l IH]; intros d s lost n W; [apply runs_ret; exact W|].
    cbn [m_bd_extend fold_left]; apply runs_andthen.
    eapply runs_weak; [apply (runs_insert_rep _ _ _ q n W)| |]; cbn beta.
    - intros b d' [_ W'] m; eapply runs_weak; [apply (IH _ _ _ m W')|auto|].
      intros d2 (s' & lost' & W2 & l1 & x & l2 & -> & -> & H).
      eexists _, lost'; split; [exact W2|]; exists (q :: l1), x, l2; auto.
    - intros d' (lost' & W' & H); exists s, lost'; split; [exact W'|].
      exists [], q, l; auto.
  Qed.

  Lemma length_rep d s lost : wd_rep d s lost -> bd_len d = length s + length lost.
  Proof. intros [Hn [_ _ _ H]]; unfold bd_len; rewrite H, (length_sorted L) by assumption; reflexivity. Qed.

  Lemma runs_step d s lost o n :
    wd_rep d s lost ->
    runs (m_bd_step cmp keep o) n d
      (fun x d' => x = answer qcmp s lost o /\ wd_rep d' (snd (spec_step qcmp s o)) lost)
      (fun d' => exists s' lost', wd_rep d' s' lost' /\ left_over qcmp s lost o s' lost').
  Proof.
    intros W; destruct o as [q|q|l|q| | | |]; cbn [m_bd_step].
    - apply runs_andthen; eapply runs_weak; [apply (runs_insert_rep _ _ _ q n W)| |]; cbn beta.
      + intros b d' [-> W'] m; apply runs_ret; auto.
      + intros d' (lost' & W' & H); exists s, lost'; split; [exact W'|]; cbn; auto.
    - apply runs_andthen; eapply runs_weak; [apply (runs_remove_rep _ _ _ q n W)| |]; cbn beta.
      + intros b d' [-> W'] m; apply runs_ret; auto.
      + intros d' [W'|W']; eexists _, lost; (split; [exact W'|]); cbn; auto.
    - apply runs_andthen; eapply runs_weak; [apply (runs_extend_rep l _ _ _ n W)| |auto]; cbn beta.
      intros [] d' W' m; apply runs_ret; auto.
    - apply runs_andthen; destruct W as [Hn W].
      eapply runs_weak; [apply (runs_contains _ _ _ q n W)| |]; cbn beta.
      + intros b d' [-> ->] m; apply runs_ret; cbn; rewrite mem_sorted by assumption; split; [auto|split; auto].
      + intros d' ->; exists s, lost; split; [split; auto|cbn; auto].
    - apply runs_get_then, runs_ret; cbn; rewrite (length_rep _ _ _ W); auto.
    - apply runs_get_then, runs_ret; unfold bd_is_empty; cbn; rewrite (length_rep _ _ _ W); auto.
    - apply runs_get_then; pose proof W as [Hn [_ [HM _] _ _]].
      eapply runs_need_then; [exact HM|]; apply runs_ret; cbn; auto.
    - apply runs_get_then; pose proof W as [Hn [_ HM _ _]].
      eapply runs_need_then.
      + apply b_into_iter_spec; [eapply (indexes_nodup LQ), HM|apply HM].
      + apply runs_ret; cbn; auto.
  Qed.

  Lemma run_history l : forall d s lost,
    wd_rep d s lost ->
    exists ys d' s' lost', m_run (m_bd_step cmp keep) d l = Some (ys, d') /\
      history qcmp s lost (map fst l) ys s' lost' /\ wd_rep d' s' lost'.
  Proof.
    induction l as [|[o n] l IH]; intros d s lost W.
    - exists [], d, s, lost; split; [reflexivity|]; split; [constructor|exact W].
    - cbn; pose proof (runs_step d s lost o n W) as H; unfold runs in H.
      destruct (m_bd_step cmp keep o n d) as [x m d1|d1|]; [| |contradiction].
      + destruct H as [-> W1]; destruct (IH _ _ _ W1) as (ys & d' & s' & lost' & -> & Hh & W').
        exists (Some (answer qcmp s lost o) :: ys), d', s', lost'; split; [reflexivity|].
        split; [now constructor|exact W'].
      + destruct H as (s1 & lost1 & W1 & Hl); destruct (IH _ _ _ W1) as (ys & d' & s' & lost' & -> & Hh & W').
        exists (None :: ys), d', s', lost'; split; [reflexivity|].
        split; [econstructor; eauto|exact W'].
  Qed.

  Lemma wd_rep_new : wd_rep bd_new [] [].
  Proof. split; [constructor|apply wd_inv_new]. Qed.
End Proofs.
