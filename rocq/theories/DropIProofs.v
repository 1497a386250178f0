(** Indexed containers whose resources may panic when they are compared or dropped. *)
From Coq Require Import List Bool Arith Lia Permutation.
Import ListNotations.
From Verif Require Import Base SlabModel TripleModel SetSpec ContainerSpec IndexedSpec Machine BaseProofs BResourceModel
  BResourceProofs BTreeDatasetModel BTreeDatasetProofs BTreeGraphModel BTreeGraphProofs IResourceModel IResourceProofs
  IndexedDatasetModel IndexedDatasetProofs IndexedHistoryProofs IndexedRunProofs IndexedGraphModel IndexedGraphProofs
  CrashModel CrashSpec ICrashSpec CrashProofs BCrashProofs CrashAgree BGCrashProofs CrashHistoryProofs
  ICrashModel ICrashProofs ICrashReads ICrashAgree IGCrashProofs ICrashConvert ICrashHistory DropSpec DropModel DropProofs.
Open Scope act_scope.

Section Proofs.
  Context {R : Type} {cmp : R -> R -> comparison} (L : ord_laws cmp).
  Context (keep : bool) (F : Prop).
  Notation qcmp := (quad_cmp cmp).
  Notation tcmp := (triple_cmp cmp).
  Let LQ : ord_laws qcmp := quad_cmp_laws cmp L.
  Notation wid_inv := (wid_inv (cmp:=cmp) F).
  Notation wid_rep := (wid_rep (cmp:=cmp) F).

  (** Releases, by index as the dataset does and by value as the graph does. *)
  Definition d_rel (byval : bool) (p : pos) (i k : nat) (v : R) : act (@idataset R) bool :=
    gone <- m_id_table (m_rel (cmp:=cmp) byval p i k v) ;;
    _ <- (if gone then called tt else ret tt) ;;
    ret gone.
  Definition d_tail (byval : bool) (i : nat) (x : quad nat) (q : quad R) : act (@idataset R) unit :=
    _ <- d_rel byval PosS i (q_s x) (q_s q) ;;
    _ <- d_rel byval PosP i (q_p x) (q_p q) ;;
    _ <- d_rel byval PosO i (q_o x) (q_o q) ;;
    match q_g x with
    | Some g =>
        gone <- d_id_release cmp PosG i g ;;
        d <- get ;;
        put (IDataset (id_resources d) (id_quads d) (id_ri d) (id_qi d)
               (id_s d) (id_p d) (id_o d) (id_dg d)
               (if gone then ns_remove g (id_ng d) else id_ng d))
    | None =>
        d <- get ;;
        put (IDataset (id_resources d) (id_quads d) (id_ri d) (id_qi d)
               (id_s d) (id_p d) (id_o d) (ns_remove i (id_dg d)) (id_ng d))
    end.

  Lemma runs_d_rel_then {B} byval d l rs0 rs ri p i x k v (f : bool -> act (@idataset R) B) n P
      (E : @idataset R -> Prop) :
    sget (id_quads d) i = None ->
    imidr (cmp:=cmp) F (id_quads d) (id_qi d) rs0 (pending_at (p :: l) i x) rs ri -> ~ In p l ->
    slot p x = Some k -> ir_val rs0 k = Some v ->
    (forall rs' ri', imidr (cmp:=cmp) F (id_quads d) (id_qi d) rs0 (pending_at l i x) rs' ri' ->
       E (with_itable d rs' ri')) ->
    (forall b rs' ri' m, imidr (cmp:=cmp) F (id_quads d) (id_qi d) rs0 (pending_at l i x) rs' ri' ->
       runs (f b) m (with_itable d rs' ri') P E) ->
    runs (andthen (d_rel byval p i k v) f) n (with_itable d rs ri) P E.
  Proof.
    intros Hi M Hl Hk Hv HE H; unfold d_rel; apply runs_assoc.
    assert (Next : forall b rs' ri' m,
      imidr (cmp:=cmp) F (id_quads d) (id_qi d) rs0 (pending_at l i x) rs' ri' ->
      runs (andthen (andthen (if b : bool then called tt else ret tt) (fun _ => ret b)) f) m
        (with_itable d rs' ri') P E).
    { intros b rs' ri' m M'; apply runs_assoc; destruct b.
      - apply runs_called_then; [now apply HE|]; intros m'; now apply H.
      - now apply H. }
    unfold m_rel; destruct byval.
    - eapply (runs_i_release_then L); [exact Hi|exact M|exact Hl|exact Hk|exact Hv|apply mi_finds_value|exact HE|exact Next].
    - eapply (runs_i_release_then L); [exact Hi|exact M|exact Hl|exact Hk|exact Hv|apply mi_finds_index|exact HE|exact Next].
  Qed.

  Lemma runs_d_tail byval d i x q n :
    sget (id_quads d) i = None ->
    imidr (cmp:=cmp) F (id_quads d) (id_qi d) (id_resources d) (pending_at [PosS; PosP; PosO; PosG] i x)
      (id_resources d) (id_ri d) ->
    i_quad_with_resources (id_resources d) x = Some q ->
    let left := fun d' : @idataset R => exists rs ri dg ng,
      d' = IDataset rs (id_quads d) ri (id_qi d) (id_s d) (id_p d) (id_o d) dg ng /\
      imidr (cmp:=cmp) F (id_quads d) (id_qi d) (id_resources d) (fun _ _ _ => False) rs ri in
    runs (d_tail byval i x q) n d (fun _ => left) left.
  Proof.
    intros Hi M Hq left; apply iqwr_some in Hq as (Vs & Vp & Vo & Vg).
    assert (Fin : forall l rs ri dg ng,
      imidr (cmp:=cmp) F (id_quads d) (id_qi d) (id_resources d) (pending_at l i x) rs ri ->
      left (IDataset rs (id_quads d) ri (id_qi d) (id_s d) (id_p d) (id_o d) dg ng)).
    { intros l rs ri dg ng [A B]; exists rs, ri, dg, ng; split; [reflexivity|].
      split; [eapply wiinv_le; [exact A|]; cbn; tauto|].
      intros p r j [T|[]]; apply (B p r j); auto. }
    unfold d_tail.
    match goal with |- runs ?a ?n ?x ?P ?E =>
      cut (runs a n (with_itable d (id_resources d) (id_ri d)) P E);
        [rewrite with_itable_same; exact (fun H => H)|]
    end.
    eapply runs_d_rel_then; [exact Hi|exact M|cbn; intuition discriminate|reflexivity|exact Vs
      |intros; eapply Fin; eauto|].
    intros _ rs1 ri1 n1 M1.
    eapply runs_d_rel_then; [exact Hi|exact M1|cbn; intuition discriminate|reflexivity|exact Vp
      |intros; eapply Fin; eauto|].
    intros _ rs2 ri2 n2 M2.
    eapply runs_d_rel_then; [exact Hi|exact M2|cbn; intuition discriminate|reflexivity|exact Vo
      |intros; eapply Fin; eauto|].
    intros _ rs3 ri3 n3 M3; destruct (q_g x) as [g|] eqn:Eg.
    - destruct (q_g q) as [h|]; [|contradiction].
      change (d_id_release cmp PosG i g) with (d_rel false PosG i g h).
      eapply runs_d_rel_then; [exact Hi|exact M3|auto|exact Eg|exact Vg|intros; eapply Fin; eauto|].
      intros b rs4 ri4 n4 M4; apply runs_get_then, runs_put; eapply Fin, M4.
    - apply runs_get_then, runs_put; eapply Fin, M3.
  Qed.

  Lemma runs_d_removal byval d ks lost i x q qs qi n :
    wid_inv d ks lost -> In q ks -> sget (id_quads d) i = Some x ->
    i_quad_with_resources (id_resources d) x = Some q ->
    sremove (id_quads d) i = Some (x, qs) -> Permutation (id_qi d) (i :: qi) ->
    indexes (cmpk:=qcmp) (i_quad_at (id_resources d) (id_quads d)) qi (del qcmp q ks) ->
    runs (d_tail byval i x q) n
      (IDataset (id_resources d) qs (id_ri d) qi (ns_remove (q_s x) (id_s d))
         (ns_remove (q_p x) (id_p d)) (ns_remove (q_o x) (id_o d)) (id_dg d) (id_ng d))
      (fun _ d' => wid_inv d' (del qcmp q ks) lost) (fun d' => wid_inv d' (del qcmp q ks) lost).
  Proof.
    intros [I1 I2 I3 I4 I8 I5 I6 I7] Hin Ex Hq Eqs HP I2'.
    assert (Gq : forall j, sget qs j = if j =? i then None else sget (id_quads d) j)
      by (intros j; apply (sget_sremove _ _ _ _ _ Eqs)).
    assert (ND : NoDup (i :: qi)).
    { apply (Permutation_NoDup HP), (indexes_nodup LQ _ _ _ I2). }
    assert (Hni : ~ In i qi) by now inv ND.
    assert (Sub : forall p r j, tracked F qs qi p r j -> tracked F (id_quads d) (id_qi d) p r j).
    { intros p r j [(y & Hy & Hs) Hj]; split.
      - exists y; split; [|exact Hs]; rewrite Gq in Hy; destruct (j =? i); [discriminate|exact Hy].
      - destruct Hj as [|Hj]; [auto|right]; apply (Permutation_in _ (Permutation_sym HP)); now right. }
    assert (Fin : forall d', (exists rs ri dg ng,
        d' = IDataset rs qs ri qi (ns_remove (q_s x) (id_s d))
               (ns_remove (q_p x) (id_p d)) (ns_remove (q_o x) (id_o d)) dg ng /\
        imidr (cmp:=cmp) F qs qi (id_resources d) (fun _ _ _ => False) rs ri) ->
      wid_inv d' (del qcmp q ks) lost).
    { intros d' (rs & ri & dg & ng & -> & M & V).
      assert (Same : forall j, F \/ In j qi -> j <> i ->
        i_quad_at rs qs j = i_quad_at (id_resources d) (id_quads d) j).
      { intros j Hj Ej; apply Nat.eqb_neq in Ej; unfold i_quad_at; rewrite Gq, Ej.
        destruct (sget (id_quads d) j) as [y|] eqn:Ey; cbn; [|reflexivity].
        assert (Hy : forall p r, slot p y = Some r -> ir_val rs r = ir_val (id_resources d) r).
        { intros p r Hs; apply (V p r j); left; split; [|auto].
          exists y; rewrite Gq, Ej; auto. }
        unfold i_quad_with_resources.
        rewrite (Hy PosS _ eq_refl), (Hy PosP _ eq_refl), (Hy PosO _ eq_refl).
        destruct (q_g y) as [g|] eqn:Eg; [|reflexivity].
        rewrite (Hy PosG g Eg); reflexivity. }
      split; cbn [id_quads id_resources id_ri id_qi id_s id_p id_o].
      - eapply swf_sremove; eauto.
      - eapply indexes_ext; [|exact I2']; intros j Hj; apply Same; [auto|].
        intros ->; contradiction.
      - eapply wiinv_le; [exact M|]; cbn; auto.
      - rewrite (slen_sremove _ _ _ _ Eqs) in I4.
        rewrite (length_del L q ks) in I4; [lia| |assumption].
        apply (ssorted_nodup LQ), I2.
      - intros f; eapply (ghosts_remove (id_resources d)); [exact (I8 f)|exact Gq|exact HP|].
        intros j Hj; apply Same; [auto|]; intros ->; rewrite Gq, Nat.eqb_refl in Hj; congruence.
      - eapply (spo_ok_remove F (id_quads d) qs i x); auto.
      - eapply (spo_ok_remove F (id_quads d) qs i x); auto.
      - eapply (spo_ok_remove F (id_quads d) qs i x); auto. }
    eapply runs_weak; [eapply runs_d_tail| |]; cbn [id_quads id_resources id_ri id_qi id_s id_p id_o].
    - rewrite Gq, Nat.eqb_refl; reflexivity.
    - split; [|auto]; eapply wiinv_le; [exact I3|]; intros p r j [T|(_ & Hs & ->)]; [auto|].
      split; [exists x; auto|]; right; apply (Permutation_in _ (Permutation_sym HP)); now left.
    - exact Hq.
    - intros _; exact Fin.
    - exact Fin.
  Qed.

  Definition d_remove_as (byval : bool) (q : quad R) : act (@idataset R) bool :=
    d <- get ;;
    '(found, qi) <- m_remove (m_quad_at_cmp cmp (i_quad_at (id_resources d) (id_quads d))) q (id_qi d) ;;
    _ <- put (IDataset (id_resources d) (id_quads d) (id_ri d) qi
                (id_s d) (id_p d) (id_o d) (id_dg d) (id_ng d)) ;;
    match found with
    | None => ret false
    | Some i =>
        '(x, qs) <- need (sremove (id_quads d) i) ;;
        _ <- put (IDataset (id_resources d) qs (id_ri d) qi
                (ns_remove (q_s x) (id_s d)) (ns_remove (q_p x) (id_p d))
                (ns_remove (q_o x) (id_o d)) (id_dg d) (id_ng d)) ;;
        _ <- d_tail byval i x q ;;
        ret true
    end.

  Lemma point_d_remove_as byval d ks lost q :
    wid_inv d ks lost ->
    point (d_remove_as byval q) d
      (fun b d' => b = mem qcmp q ks /\ wid_inv d' (del qcmp q ks) lost)
      (fun d' => wid_inv d' (del qcmp q ks) lost).
  Proof.
    intros W; pose proof (wid_idx _ _ _ _ W) as I2; unfold d_remove_as; apply point_get.
    destruct (bt_remove_spec LQ _ _ _ q I2) as (r & qi & E & I2' & Hr).
    eapply point_quiet.
    { eapply quiet_eq; [eapply quiet_m_remove; intros; apply quiet_quad_at_cmp|exact E]. }
    intros m; cbn beta iota; apply runs_put_then; destruct r as [i|].
    2: { apply runs_ret; destruct Hr as [Hr ->]; split; [symmetry; now apply (mem_false LQ)|].
         rewrite (del_notin LQ) by assumption; destruct d; exact W. }
    destruct Hr as (Hv & Hin & HP).
    unfold i_quad_at in Hv; destruct (sget (id_quads d) i) as [x|] eqn:Ex; [|discriminate].
    cbn in Hv; destruct (sremove_some _ _ _ Ex) as (qs & Eqs).
    eapply runs_need_then; [exact Eqs|]; cbn beta iota; apply runs_put_then.
    apply runs_andthen; eapply runs_weak;
      [apply (runs_d_removal byval d ks lost i x q qs qi m W Hin Ex Hv Eqs HP I2')| |]; cbn beta.
    - intros _ d' W' m'; apply runs_ret; split; [symmetry; now apply (mem_true LQ)|exact W'].
    - auto.
  Qed.

  Lemma d_id_remove_as q n d : d_id_remove cmp q n d = d_remove_as false q n d.
  Proof.
    unfold d_id_remove, d_remove_as.
    match goal with |- andthen get ?f _ _ = andthen get ?g _ _ => change (f d n d = g d n d) end.
    cbv beta; apply andthen_ext; intros [[i|] qi] m t; [|reflexivity].
    match goal with |- andthen (put ?u) ?f _ _ = andthen _ ?g _ _ => change (f tt m u = g tt m u) end.
    cbv beta iota; unfold d_id_remove_by_index; cbn [id_quads id_resources id_ri id_qi id_s id_p id_o id_dg id_ng].
    unfold andthen at 1 2 3 4 5 6, get at 1 2, ret at 1, need at 1; cbn.
    unfold andthen at 5, need at 1.
    destruct (sremove (id_quads d) i) as [[x qs]|]; reflexivity.
  Qed.

  Lemma runs_d_id_insert_rep d s lost q n :
    wid_rep d s lost ->
    runs (d_id_insert cmp keep q) n d
      (fun b d' => b = negb (mem qcmp q s) /\ wid_rep d' (add qcmp q s) lost)
      (fun d' => exists s' lost', wid_rep d' s' lost' /\ insertion_cut qcmp s lost q s' lost').
  Proof.
    intros W; unfold d_id_insert, insertion_cut; apply runs_get_then, runs_andthen.
    eapply runs_weak; [apply (runs_id_insert_rep L keep F _ _ _ q n W)| |]; cbn beta.
    - intros b d' [-> W'] m; apply runs_drops_then; [eexists _, lost; split; [exact W'|]; auto|].
      intros m'; apply runs_ret; auto.
    - intros d' (lost' & W' & H); exists s, lost'; split; [exact W'|]; tauto.
  Qed.

  Lemma runs_d_id_extend_rep l : forall d s lost n,
    wid_rep d s lost ->
    runs (d_id_extend cmp keep l) n d
      (fun _ d' => wid_rep d' (fold_left (fun s q => add qcmp q s) l s) lost)
      (fun d' => exists s' lost', wid_rep d' s' lost' /\ cut qcmp s lost (Extend l) s' lost').
  Proof.
    induction l as [|q l IH]; intros d s lost n W; [apply runs_ret; exact W|].
    cbn [d_id_extend fold_left]; apply runs_andthen.
    eapply runs_weak; [apply (runs_d_id_insert_rep _ _ _ q n W)| |]; cbn beta.
    - intros b d' [_ W'] m; eapply runs_weak; [apply (IH _ _ _ m W')|auto|].
      intros d2 (s' & lost' & W2 & l1 & x & l2 & -> & H).
      exists s', lost'; split; [exact W2|]; exists (q :: l1), x, l2; auto.
    - intros d' (s' & lost' & W' & H); exists s', lost'; split; [exact W'|].
      exists [], q, l; auto.
  Qed.

  Lemma point_d_remove_as_rep byval d s lost q :
    wid_rep d s lost ->
    point (d_remove_as byval q) d
      (fun b d' => b = mem qcmp q s /\ wid_rep d' (del qcmp q s) lost)
      (fun d' => wid_rep d' (del qcmp q s) lost).
  Proof.
    intros [Hn W]; destruct (point_d_remove_as byval _ _ _ q W) as [k H]; exists k; intros n.
    destruct (H n) as [A1 A2]; split; [exact A1|]; intros Hk.
    eapply runs_weak; [exact (A2 Hk)| |]; cbn beta; rewrite (del_ext L) by assumption.
    - intros b d' [-> W']; split; [now apply (mem_sorted L)|]; split; [now apply (nodup_del (cmp:=qcmp))|exact W'].
    - intros d' W'; split; [now apply (nodup_del (cmp:=qcmp))|exact W'].
  Qed.

  Lemma runs_d_remove_as_rep byval d s lost q n :
    wid_rep d s lost ->
    runs (d_remove_as byval q) n d
      (fun b d' => b = mem qcmp q s /\ wid_rep d' (del qcmp q s) lost)
      (fun d' => wid_rep d' s lost \/ wid_rep d' (del qcmp q s) lost).
  Proof.
    intros W; eapply runs_weak; [apply point_runs, (point_d_remove_as_rep byval _ _ _ q W)|auto|].
    intros d' [-> |W']; auto.
  Qed.

  Lemma point_d_id_remove d s lost q :
    wid_rep d s lost ->
    point (d_id_remove cmp q) d
      (fun b d' => b = mem qcmp q s /\ wid_rep d' (del qcmp q s) lost)
      (fun d' => wid_rep d' (del qcmp q s) lost).
  Proof.
    intros W; destruct (point_d_remove_as_rep false _ _ _ q W) as [k H]; exists k; intros n.
    unfold runs; rewrite d_id_remove_as; apply H.
  Qed.

  Definition d_step_as (byval : bool) (o : op (quad R)) : act (@idataset R) (out (quad R)) :=
    match o with
    | Remove q => b <- d_remove_as byval q ;; ret (OBool b)
    | o => d_id_step cmp keep o
    end.

  Lemma runs_d_step_as byval d s lost o n :
    wid_rep d s lost ->
    runs (d_step_as byval o) n d
      (fun x d' => x = answer qcmp s lost o /\ wid_rep d' (snd (spec_step qcmp s o)) lost)
      (fun d' => exists s' lost', wid_rep d' s' lost' /\ cut qcmp s lost o s' lost').
  Proof.
    intros W.
    assert (Old : runs (m_step_as (cmp:=cmp) keep byval o) n d
      (fun x d' => x = answer qcmp s lost o /\ wid_rep d' (snd (spec_step qcmp s o)) lost)
      (fun d' => exists s' lost', wid_rep d' s' lost' /\ cut qcmp s lost o s' lost')).
    { eapply runs_weak; [apply (runs_id_step L keep F byval _ _ _ o n W)|auto|].
      intros d' (s' & lost' & W' & H); exists s', lost'; split; [exact W'|now apply cut_weak]. }
    destruct o as [q|q|l|q| | | |]; cbn [d_step_as d_id_step]; try exact Old; clear Old.
    - apply runs_andthen; eapply runs_weak; [apply (runs_d_id_insert_rep _ _ _ q n W)| |auto]; cbn beta.
      intros b d' [-> W'] m; apply runs_ret; auto.
    - apply runs_andthen; eapply runs_weak; [apply (runs_d_remove_as_rep byval _ _ _ q n W)| |]; cbn beta.
      + intros b d' [-> W'] m; apply runs_ret; auto.
      + intros d' [W'|W']; eexists _, lost; (split; [exact W'|]); cbn; auto.
    - apply runs_andthen; eapply runs_weak; [apply (runs_d_id_extend_rep l _ _ _ n W)| |auto]; cbn beta.
      intros [] d' W' m; apply runs_ret; auto.
  Qed.

  Lemma d_step_as_false o n d : d_step_as false o n d = d_id_step cmp keep o n d.
  Proof.
    destruct o; try reflexivity; cbn [d_step_as d_id_step]; unfold andthen.
    now rewrite d_id_remove_as.
  Qed.

  Lemma runs_d_id_step d s lost o n :
    wid_rep d s lost ->
    runs (d_id_step cmp keep o) n d
      (fun x d' => x = answer qcmp s lost o /\ wid_rep d' (snd (spec_step qcmp s o)) lost)
      (fun d' => exists s' lost', wid_rep d' s' lost' /\ cut qcmp s lost o s' lost').
  Proof.
    intros W; pose proof (runs_d_step_as false d s lost o n W) as H.
    unfold runs in *; rewrite d_step_as_false in H; exact H.
  Qed.

  (** ** The graph *)
  Lemma sim_d_ig_insert t : sim (gi (R:=R)) eq (d_ig_insert cmp keep t) (d_id_insert cmp keep (iq t)).
  Proof.
    unfold d_ig_insert, d_id_insert.
    apply sim_then with gi; [apply sim_get|]; intros g d [dg ->].
    apply sim_then with eq; [apply sim_ig_insert|]; intros b b' <-.
    apply sim_then with eq; [apply sim_drops|]; intros u u' _; now apply sim_ret.
  Qed.

  Lemma sim_d_ig_release p i k v : sim gi eq (d_ig_release cmp p i k v) (d_rel true p i k v).
  Proof.
    unfold d_ig_release, d_rel, m_rel.
    apply sim_then with eq; [apply sim_ig_table|]; intros b b' <-.
    apply sim_then with eq; [destruct b; [now apply sim_called|now apply sim_ret]|]; intros u u' _.
    now apply sim_ret.
  Qed.

  Lemma sim_d_ig_remove t : sim gi eq (d_ig_remove cmp t) (d_remove_as true (iq t)).
  Proof.
    unfold d_ig_remove, d_remove_as.
    apply sim_then with gi; [apply sim_get|]; intros g d [dg ->].
    cbn [iemb id_quads id_resources id_ri id_qi id_s id_p id_o id_dg id_ng].
    apply sim_then with eq.
    { apply sim_m_remove; intros i; apply sim_at_cmp_iq; intros; apply iat_iq. }
    intros [f ti] y <-.
    apply sim_then with eq; [apply sim_put; eexists; reflexivity|]; intros u y <-.
    destruct f as [i|]; [|now apply sim_ret].
    apply sim_then with (fun x y => y = (iq (fst x), smap iq (snd x))).
    { apply sim_need; rewrite sremove_smap; destruct (sremove (ig_triples g) i) as [[x ts]|]; cbn; auto. }
    intros [x ts] y ->; cbn [fst snd].
    apply sim_then with eq; [apply sim_put; eexists; reflexivity|]; intros u' y <-.
    unfold d_tail; cbn [iq into_quad q_s q_p q_o q_g].
    apply sim_assoc_r; apply sim_then with eq; [apply sim_d_ig_release|]; intros ? y <-.
    apply sim_assoc_r; apply sim_then with eq; [apply sim_d_ig_release|]; intros ? y <-.
    apply sim_assoc_r; apply sim_then with eq; [apply sim_d_ig_release|]; intros ? y <-.
    intros n h d [dg' ->]; cbn; split; [reflexivity|]; split; [reflexivity|]; eexists; reflexivity.
  Qed.

  Lemma sim_d_ig_extend l : sim gi eq (d_ig_extend cmp keep l) (d_id_extend cmp keep (map iq l)).
  Proof.
    induction l as [|t l IH]; cbn [d_ig_extend d_id_extend map]; [now apply sim_ret|].
    apply sim_then with eq; [apply sim_d_ig_insert|]; intros; exact IH.
  Qed.

  Lemma sim_d_ig_step o : sim gi oq (d_ig_step cmp keep o) (d_step_as true (op_iq o)).
  Proof.
    pose proof (sim_ig_step (cmp:=cmp) keep o) as Old.
    destruct o as [t|t|l|t| | | |]; cbn [d_ig_step d_step_as d_id_step op_iq] in *; try exact Old; clear Old.
    - apply sim_then with eq; [apply sim_d_ig_insert|]; intros x y <-; now apply sim_ret.
    - apply sim_then with eq; [apply sim_d_ig_remove|]; intros x y <-; now apply sim_ret.
    - apply sim_then with eq; [apply sim_d_ig_extend|]; intros x y <-; now apply sim_ret.
  Qed.

  Lemma runs_d_ig_step g s lost o n :
    wig_rep (cmp:=cmp) F g s lost ->
    runs (d_ig_step cmp keep o) n g
      (fun x g' => x = answer tcmp s lost o /\ wig_rep (cmp:=cmp) F g' (snd (spec_step tcmp s o)) lost)
      (fun g' => exists s' lost', wig_rep (cmp:=cmp) F g' s' lost' /\ cut tcmp s lost o s' lost').
  Proof.
    intros [dg W]; pose proof (runs_d_step_as true _ _ _ (op_iq o) n W) as H.
    pose proof (sim_d_ig_step o n g (iemb g dg) (ex_intro _ dg eq_refl)) as S; unfold runs in *.
    destruct (d_ig_step cmp keep o n g) as [x m g'|g'|g'],
      (d_step_as true (op_iq o) n (iemb g dg)) as [y m' d'|d'|d']; try contradiction.
    - destruct S as (-> & _ & dg' & ->), H as [H1 H2]; rewrite spec_step_iq in H2.
      split; [|exists dg'; exact H2]; rewrite answer_iq in H1; now apply out_iq_inj.
    - destruct S as [dg' ->]; destruct H as (s1 & lost1 & H1 & H2).
      apply cut_iq in H2 as (s2 & lost2 & -> & -> & H2); exists s2, lost2; split; [exists dg'; exact H1|exact H2].
  Qed.

  Lemma point_d_ig_remove g s lost t :
    wig_rep (cmp:=cmp) F g s lost ->
    point (d_ig_remove cmp t) g (fun b g' => b = mem tcmp t s /\ wig_rep (cmp:=cmp) F g' (del tcmp t s) lost)
      (fun g' => wig_rep (cmp:=cmp) F g' (del tcmp t s) lost).
  Proof.
    intros [dg W]; destruct (point_d_remove_as_rep true _ _ _ (iq t) W) as [k H]; exists k; intros n.
    pose proof (sim_d_ig_remove t n g (iemb g dg) (ex_intro _ dg eq_refl)) as S; destruct (H n) as [A1 A2]; split; intros Hn.
    - rewrite (A1 Hn) in S; destruct (d_ig_remove cmp t n g) as [x m g'|g'|g']; try contradiction.
      destruct S as [dg' S]; f_equal.
      pose proof (f_equal id_quads S) as E1; pose proof (f_equal id_resources S) as E2;
        pose proof (f_equal id_ri S) as E3; pose proof (f_equal id_qi S) as E4; pose proof (f_equal id_s S) as E5;
        pose proof (f_equal id_p S) as E6; pose proof (f_equal id_o S) as E7.
      destruct g as [a1 a2 a3 a4 a5 a6 a7], g' as [b1 b2 b3 b4 b5 b6 b7].
      cbn [iemb id_quads id_resources id_ri id_qi id_s id_p id_o ig_triples ig_resources ig_ri ig_ti ig_s ig_p ig_o] in *.
      apply smap_iq_inj in E1; congruence.
    - specialize (A2 Hn); unfold runs in *; rewrite mem_iq, del_iq in A2.
      destruct (d_ig_remove cmp t n g) as [x m g'|g'|g'],
        (d_remove_as true (iq t) n (iemb g dg)) as [y m' d'|d'|d']; try contradiction.
      + destruct S as (-> & _ & dg' & ->), A2 as [A2 A3]; split; [exact A2|exists dg'; exact A3].
      + destruct S as [dg' ->]; exists dg'; exact A2.
  Qed.
End Proofs.

Section Histories.
  Context {R : Type} {cmp : R -> R -> comparison} (L : ord_laws cmp).
  Context (keep : bool).
  Notation qcmp := (quad_cmp cmp).
  Notation tcmp := (triple_cmp cmp).

  Lemma id_dropped (l0 l : list (op (quad R) * nat)) :
    exists ys0 b s0 lost0 d0,
      m_run (d_bd_step cmp keep) bd_new l0 = Some (ys0, b) /\
      cut_history qcmp [] [] (map fst l0) ys0 s0 lost0 /\
      id_from_non_indexed b = Some d0 /\
      exists ys d s lost vs,
        m_run (d_id_step cmp keep) d0 l = Some (ys, d) /\
        cut_history qcmp s0 lost0 (map fst l) ys s lost /\
        id_len d = length s + length lost /\ id_iter d = Some (sorted_elements qcmp s) /\
        id_resources_iter d = Some vs /\ increasing cmp vs /\
        (forall v, id_contains_resource cmp d v = Some (mem cmp v vs)) /\
        (lost0 = [] -> id_queries_within cmp d (s ++ lost)) /\
        forall q, turns (d_id_remove cmp q) d (fun d' =>
          id_len d' = length (del qcmp q s) + length lost /\
          id_iter d' = Some (sorted_elements qcmp (del qcmp q s))).
  Proof.
    destruct (cut_history_of (cmp:=qcmp) _ _ (runs_d_bd_step L keep) l0 _ _ _ (wd_rep_new (cmp:=cmp)))
      as (ys0 & b & s0 & lost0 & E0 & H0 & W0).
    destruct (convert_weak L b s0 lost0 (lost0 = []) W0 (fun x => x)) as (d0 & Ec & W1).
    destruct (cut_history_of (cmp:=qcmp) _ _ (runs_d_id_step L keep (lost0 = [])) l _ _ _ W1)
      as (ys & d & s & lost & E & Hh & W).
    exists ys0, b, s0, lost0, d0; split; [exact E0|]; split; [exact H0|]; split; [exact Ec|].
    destruct (wid_reads L _ _ _ _ W) as (A & B & vs & C & D & G).
    exists ys, d, s, lost, vs.
    split; [exact E|]; split; [exact Hh|]; split; [exact A|]; split; [exact B|].
    split; [exact C|]; split; [exact D|]; split; [exact G|].
    split; [intros Hz; apply (wid_queries L); exact (wid_rep_imp _ True _ _ _ (fun _ => Hz) W)|].
    intros q; assert (K : forall d', wid_rep (cmp:=cmp) (lost0 = []) d' (del qcmp q s) lost ->
        id_len d' = length (del qcmp q s) + length lost /\
        id_iter d' = Some (sorted_elements qcmp (del qcmp q s))).
    { intros d' W'; destruct (wid_reads L _ _ _ _ W') as (A' & B' & _); auto. }
    eapply point_turns; [apply (point_d_id_remove L _ _ _ _ q W)| |exact K].
    intros x d' [_ W']; auto.
  Qed.

  Lemma ig_dropped (l0 l : list (op (triple R) * nat)) :
    exists ys0 b s0 lost0 g0,
      m_run (d_bg_step cmp keep) bg_new l0 = Some (ys0, b) /\
      cut_history tcmp [] [] (map fst l0) ys0 s0 lost0 /\
      ig_from_non_indexed b = Some g0 /\
      exists ys g s lost vs,
        m_run (d_ig_step cmp keep) g0 l = Some (ys, g) /\
        cut_history tcmp s0 lost0 (map fst l) ys s lost /\
        ig_len g = length s + length lost /\ ig_iter g = Some (sorted_elements tcmp s) /\
        ig_resources_iter g = Some vs /\ increasing cmp vs /\
        (forall v, ig_contains_resource cmp g v = Some (mem cmp v vs)) /\
        (lost0 = [] -> ig_queries_within cmp g (s ++ lost)) /\
        forall t, turns (d_ig_remove cmp t) g (fun g' =>
          ig_len g' = length (del tcmp t s) + length lost /\
          ig_iter g' = Some (sorted_elements tcmp (del tcmp t s))).
  Proof.
    destruct (cut_history_of (cmp:=tcmp) _ _ (runs_d_bg_step L keep) l0 _ _ _ (wg_rep_new (cmp:=cmp)))
      as (ys0 & b & s0 & lost0 & E0 & H0 & W0).
    destruct (convert_weak_graph L b s0 lost0 (lost0 = []) W0 (fun x => x)) as (g0 & Ec & W1).
    destruct (cut_history_of (cmp:=tcmp) _ _ (runs_d_ig_step L keep (lost0 = [])) l _ _ _ W1)
      as (ys & g & s & lost & E & Hh & W).
    exists ys0, b, s0, lost0, g0; split; [exact E0|]; split; [exact H0|]; split; [exact Ec|].
    destruct (wig_reads L _ _ _ _ W) as (A & B & vs & C & D & G).
    exists ys, g, s, lost, vs.
    split; [exact E|]; split; [exact Hh|]; split; [exact A|]; split; [exact B|].
    split; [exact C|]; split; [exact D|]; split; [exact G|].
    split.
    { intros Hz; apply (wig_queries L).
      destruct W as [dg W]; exists dg; exact (wid_rep_imp _ True _ _ _ (fun _ => Hz) W). }
    intros t; assert (K : forall g', wig_rep (cmp:=cmp) (lost0 = []) g' (del tcmp t s) lost ->
        ig_len g' = length (del tcmp t s) + length lost /\
        ig_iter g' = Some (sorted_elements tcmp (del tcmp t s))).
    { intros g' W'; destruct (wig_reads L _ _ _ _ W') as (A' & B' & _); auto. }
    eapply point_turns; [apply (point_d_ig_remove L _ _ _ _ t W)| |exact K].
    intros x g' [_ W']; auto.
  Qed.
End Histories.

(** ** No panic: the operations are those of the other models. *)
Definition pad {St A} (a b : act St A) : Prop := forall s, exists r, agrees a s r /\ agrees b s r.

Lemma agrees_unique {St A} (a : act St A) s r r' : agrees a s r -> agrees a s r' -> r = r'.
Proof.
  intros [k H] [j J]; destruct (H (k + j)) as [_ H1], (J (k + j)) as [_ J1].
  specialize (H1 ltac:(lia)); specialize (J1 ltac:(lia)).
  destruct r as [[x t]|], r' as [[x' t']|]; try reflexivity.
  - rewrite H1 in J1; now inv J1.
  - rewrite H1 in J1; destruct J1; discriminate.
  - rewrite J1 in H1; destruct H1; discriminate.
Qed.

Lemma pad_agrees {St A} (a b : act St A) s r : pad a b -> agrees b s r -> agrees a s r.
Proof. intros H B; destruct (H s) as (r' & A1 & B1); now rewrite (agrees_unique _ _ _ _ B B1). Qed.

Lemma pad_same {St A} (a : act St A) : (forall s, exists r, agrees a s r) -> pad a a.
Proof. intros H s; destruct (H s) as [r Hr]; exists r; auto. Qed.

Lemma pad_ret {St A} (x : A) : pad (St:=St) (ret x) (ret x).
Proof. apply pad_same; intros s; eexists; apply agrees_ret. Qed.

Lemma pad_put {St} (t : St) : pad (put t) (put t).
Proof. apply pad_same; intros s; eexists; apply agrees_put. Qed.

Lemma pad_quiet {St A} (a : act St A) r : quiet a r -> pad a a.
Proof. intros H; apply pad_same; intros s; eexists; apply agrees_quiet, H. Qed.

Lemma pad_then {St A B} (a b : act St A) (f g : A -> act St B) :
  pad a b -> (forall x, pad (f x) (g x)) -> pad (andthen a f) (andthen b g).
Proof.
  intros H K s; destruct (H s) as ([[x t]|] & A1 & B1).
  - destruct (K x t) as (r & A2 & B2); exists r; split; eapply agrees_then; eauto.
  - exists None; split; apply agrees_then_none; assumption.
Qed.

Lemma pad_get {St B} (f g : St -> act St B) : (forall s, pad (f s) (g s)) -> pad (andthen get f) (andthen get g).
Proof. intros H s; exact (H s s). Qed.

Lemma pad_need {St A} (x : option A) : pad (St:=St) (need x) (need x).
Proof.
  apply pad_same; intros s; destruct x as [x|]; [exists (Some (x, s))|exists None]; exists 0; intros n;
    (split; [lia|]); intros _; cbn; eauto; now rewrite Nat.sub_0_r.
Qed.

(** Calls added at the end. *)
Lemma pad_after {St A} (a : act St A) (f : A -> act St A) :
  pad a a -> (forall x s, agrees (f x) s (Some (x, s))) -> pad (andthen a f) a.
Proof.
  intros H K s; destruct (H s) as ([[x t]|] & A1 & _); eexists; (split; [|exact A1]).
  - eapply agrees_then; [exact A1|apply K].
  - now apply agrees_then_none.
Qed.

Section Agree.
  Context {R : Type} (cmp : R -> R -> comparison) (keep : bool).

  Lemma pad_b_release {K} rcmp' (rcmp : slab (bresource R) -> nat -> K -> option comparison) i (k : K) :
    (forall rs j, quiet (rcmp' (br_val rs) j k) (rcmp rs j k)) ->
    pad (m_b_release rcmp' i k) (m_b_release rcmp' i k).
  Proof. intros H; apply pad_same; intros [rs ri]; eexists; apply agrees_release, H. Qed.

  Lemma pad_i_release {K} rcmp' (rcmp : slab (iresource R) -> nat -> K -> option comparison) p i k (key : K) :
    (forall rs j, quiet (rcmp' (ir_val rs) j key) (rcmp rs j key)) ->
    pad (m_i_release rcmp' p i k key) (m_i_release rcmp' p i k key).
  Proof. intros H; apply pad_same; intros [rs ri]; eexists; apply agrees_i_release, H. Qed.

  Lemma pad_zoom {St T A} (view : St -> T) update (a : act T A) : pad a a -> pad (zoom view update a) (zoom view update a).
  Proof. intros H; apply pad_same; intros s; destruct (H (view s)) as (r & Hr & _); eexists; apply agrees_zoom, Hr. Qed.

  Lemma agrees_calls {St A} (b : bool) (x : A) (s : St) :
    agrees (_ <- (if b then called tt else ret tt) ;; ret x) s (Some (x, s)).
  Proof.
    eapply agrees_then; [|apply agrees_ret]; destruct b; [apply agrees_quiet_some, quiet_called|apply agrees_ret].
  Qed.

  (** *** [BTreeDataset], [BTreeGraph] *)
  Lemma pad_bd_release {K} rcmp' (rcmp : slab (bresource R) -> nat -> K -> option comparison) i (k : K) :
    (forall rs j, quiet (rcmp' (br_val rs) j k) (rcmp rs j k)) ->
    pad (d_bd_release rcmp' i k) (m_bd_table (m_b_release rcmp' i k)).
  Proof.
    intros H; apply pad_after; [eapply pad_zoom, pad_b_release, H|]; intros [] s; apply agrees_get.
    destruct (sget _ i); [apply agrees_ret|apply agrees_quiet_some, quiet_called].
  Qed.

  Lemma pad_bd_insert q : pad (d_bd_insert cmp keep q) (m_bd_insert cmp keep q).
  Proof.
    intros d; exists (bd_insert cmp keep d q); split; [|apply agrees_bd_insert]; apply agrees_get.
    pose proof (agrees_bd_insert cmp keep d q) as H.
    destruct (bd_insert cmp keep d q) as [[b d']|]; [|now apply agrees_then_none].
    eapply agrees_then; [exact H|].
    eapply agrees_then; [apply agrees_quiet_some, quiet_drops|apply agrees_ret].
  Qed.

  Lemma pad_bd_remove q : pad (d_bd_remove cmp q) (m_bd_remove cmp q).
  Proof.
    unfold d_bd_remove, m_bd_remove; apply pad_get; intros d.
    apply pad_then; [eapply pad_quiet, quiet_m_remove; intros; apply quiet_quad_at_cmp|].
    intros [[i|] qi]; (apply pad_then; [apply pad_put|]; intros _); [|apply pad_ret].
    apply pad_then; [apply pad_need|]; intros [x qs].
    apply pad_then; [apply pad_put|]; intros _.
    assert (V : forall i v, pad (d_bd_release (m_resource_cmp cmp) i v) (m_bd_table (m_b_release (m_resource_cmp cmp) i v))).
    { intros j v; apply (pad_bd_release _ (b_resource_cmp cmp)); intros; apply (quiet_resource_cmp cmp (br_val _)). }
    apply pad_then; [apply V|]; intros _.
    apply pad_then; [apply V|]; intros _.
    apply pad_then; [apply V|]; intros _.
    apply pad_then; [|intros _; apply pad_ret].
    destruct (q_g x); [|apply pad_ret].
    apply (pad_bd_release _ (b_resource_index_cmp cmp)); intros; apply (quiet_resource_index_cmp cmp (br_val _)).
  Qed.

  Lemma pad_bd_extend l : pad (d_bd_extend cmp keep l) (m_bd_extend cmp keep l).
  Proof.
    induction l as [|q l IH]; cbn [d_bd_extend m_bd_extend]; [apply pad_ret|].
    apply pad_then; [apply pad_bd_insert|]; intros _; exact IH.
  Qed.

  Lemma agrees_d_bd_step d o : agrees (d_bd_step cmp keep o) d (bd_step cmp keep d o).
  Proof.
    eapply pad_agrees; [|apply agrees_bd_step].
    destruct o as [q|q|l|q| | | |]; cbn [d_bd_step]; try (apply pad_same; intros s; eexists; apply agrees_bd_step);
      cbn [m_bd_step]; (apply pad_then; [|intros; apply pad_ret]).
    - apply pad_bd_insert.
    - apply pad_bd_remove.
    - apply pad_bd_extend.
  Qed.

  Lemma agrees_d_bg_step g o : agrees (d_bg_step cmp keep o) g (bg_step cmp keep g o).
  Proof.
    destruct (agrees_d_bd_step (emb g) (op_iq o)) as [k H]; exists k; intros n.
    pose proof (sim_d_bg_step (cmp:=cmp) keep o n g (emb g) eq_refl) as S.
    destruct (H n) as [H1 H2]; split; intros Hn.
    - destruct (H1 Hn) as (d & Ed); rewrite Ed in S.
      destruct (d_bg_step cmp keep o n g); try contradiction; eauto.
    - specialize (H2 Hn); rewrite emb_step in H2.
      destruct (bg_step cmp keep g o) as [[x g']|]; cbn in H2.
      + rewrite H2 in S; destruct (d_bg_step cmp keep o n g) as [y m h| |]; try contradiction.
        destruct S as (E1 & -> & E2); apply out_iq_inj in E1; apply emb_inj in E2; now subst.
      + destruct H2 as (d & Ed); rewrite Ed in S.
        destruct (d_bg_step cmp keep o n g); try contradiction; eauto.
  Qed.

  (** *** The indexed containers *)
  Lemma pad_id_release p i k : pad (d_id_release cmp p i k) (m_id_table (m_i_release (m_resource_index_cmp cmp) p i k k)).
  Proof.
    apply pad_after; [|intros; apply agrees_calls].
    apply pad_zoom, (pad_i_release _ (i_resource_index_cmp cmp)); intros; apply quiet_idx.
  Qed.

  Lemma pad_id_insert q : pad (d_id_insert cmp keep q) (m_id_insert cmp keep q).
  Proof.
    intros d; exists (id_insert cmp keep d q); split; [|apply agrees_id_insert]; apply agrees_get.
    pose proof (agrees_id_insert cmp keep d q) as H.
    destruct (id_insert cmp keep d q) as [[b d']|]; [|now apply agrees_then_none].
    eapply agrees_then; [exact H|].
    eapply agrees_then; [apply agrees_quiet_some, quiet_drops|apply agrees_ret].
  Qed.

  Lemma pad_id_remove_by_index i b : pad (d_id_remove_by_index cmp i b) (m_id_remove_by_index cmp i b).
  Proof.
    unfold d_id_remove_by_index, m_id_remove_by_index; apply pad_get; intros d.
    apply pad_then.
    { destruct b; [|apply pad_ret].
      apply pad_then; [eapply pad_quiet, quiet_m_remove; intros; apply quiet_quad_index_cmp|].
      intros [r qi]; apply pad_put. }
    intros _; apply pad_get; intros d1.
    apply pad_then; [apply pad_need|]; intros [x qs].
    apply pad_then; [apply pad_put|]; intros _.
    apply pad_then; [apply pad_id_release|]; intros _.
    apply pad_then; [apply pad_id_release|]; intros _.
    apply pad_then; [apply pad_id_release|]; intros _.
    destruct (q_g x).
    - apply pad_then; [apply pad_id_release|]; intros gone; apply pad_get; intros; apply pad_put.
    - apply pad_get; intros; apply pad_put.
  Qed.

  Lemma pad_id_remove q : pad (d_id_remove cmp q) (m_id_remove cmp q).
  Proof.
    unfold d_id_remove, m_id_remove; apply pad_get; intros d.
    apply pad_then; [eapply pad_quiet, quiet_m_remove; intros; apply quiet_quad_at_cmp|].
    intros [[i|] qi]; (apply pad_then; [apply pad_put|]; intros _); [|apply pad_ret].
    apply pad_then; [apply pad_id_remove_by_index|]; intros; apply pad_ret.
  Qed.

  Lemma agrees_d_id_step d o : agrees (d_id_step cmp keep o) d (id_set_step cmp keep d o).
  Proof.
    eapply pad_agrees; [|apply agrees_id_step].
    destruct o as [q|q|l|q| | | |]; cbn [d_id_step]; try (apply pad_same; intros s; eexists; apply agrees_id_step);
      cbn [m_id_step]; (apply pad_then; [|intros; apply pad_ret]).
    - apply pad_id_insert.
    - apply pad_id_remove.
    - induction l as [|q l IH]; cbn [d_id_extend m_id_extend]; [apply pad_ret|].
      apply pad_then; [apply pad_id_insert|]; intros _; exact IH.
  Qed.

  Lemma pad_ig_release p i k v : pad (d_ig_release cmp p i k v) (m_ig_table (m_i_release (m_resource_cmp cmp) p i k v)).
  Proof.
    apply pad_after; [|intros; apply agrees_calls].
    apply pad_zoom, (pad_i_release _ (i_resource_cmp cmp)); intros; apply quiet_val.
  Qed.

  Lemma pad_ig_insert t : pad (d_ig_insert cmp keep t) (m_ig_insert cmp keep t).
  Proof.
    intros g; exists (ig_insert cmp keep g t); split; [|apply agrees_ig_insert]; apply agrees_get.
    pose proof (agrees_ig_insert cmp keep g t) as H.
    destruct (ig_insert cmp keep g t) as [[b g']|]; [|now apply agrees_then_none].
    eapply agrees_then; [exact H|].
    eapply agrees_then; [apply agrees_quiet_some, quiet_drops|apply agrees_ret].
  Qed.

  Lemma pad_ig_remove t : pad (d_ig_remove cmp t) (m_ig_remove cmp t).
  Proof.
    unfold d_ig_remove, m_ig_remove; apply pad_get; intros g.
    apply pad_then; [eapply pad_quiet, quiet_m_remove; intros; apply quiet_triple_at_cmp|].
    intros [[i|] ti]; (apply pad_then; [apply pad_put|]; intros _); [|apply pad_ret].
    apply pad_then; [apply pad_need|]; intros [x ts].
    apply pad_then; [apply pad_put|]; intros _.
    apply pad_then; [apply pad_ig_release|]; intros _.
    apply pad_then; [apply pad_ig_release|]; intros _.
    apply pad_then; [apply pad_ig_release|]; intros _; apply pad_ret.
  Qed.

  Lemma agrees_d_ig_step g o : agrees (d_ig_step cmp keep o) g (ig_step cmp keep g o).
  Proof.
    eapply pad_agrees; [|apply agrees_ig_step].
    destruct o as [t|t|l|t| | | |]; cbn [d_ig_step]; try (apply pad_same; intros s; eexists; apply agrees_ig_step);
      cbn [m_ig_step]; (apply pad_then; [|intros; apply pad_ret]).
    - apply pad_ig_insert.
    - apply pad_ig_remove.
    - induction l as [|t l IH]; cbn [d_ig_extend m_ig_extend]; [apply pad_ret|].
      apply pad_then; [apply pad_ig_insert|]; intros _; exact IH.
  Qed.

  Lemma bd_drop_enough ops ys d :
    run (bd_step cmp keep) bd_new ops = Some (ys, d) ->
    exists k, forall n, k <= n ->
      m_run (d_bd_step cmp keep) bd_new (map (fun o => (o, n)) ops) = Some (map Some ys, d).
  Proof. apply run_enough; intros s o; apply agrees_d_bd_step. Qed.
  Lemma bg_drop_enough ops ys g :
    run (bg_step cmp keep) bg_new ops = Some (ys, g) ->
    exists k, forall n, k <= n ->
      m_run (d_bg_step cmp keep) bg_new (map (fun o => (o, n)) ops) = Some (map Some ys, g).
  Proof. apply run_enough; intros s o; apply agrees_d_bg_step. Qed.
  Lemma id_drop_enough d0 l ys d :
    run (id_step cmp keep) d0 (map IOp l) = Some (map IOut ys, d) ->
    exists k, forall n, k <= n ->
      m_run (d_id_step cmp keep) d0 (map (fun o => (o, n)) l) = Some (map Some ys, d).
  Proof. intros E; apply id_set_step_run in E; revert E; apply run_enough; intros s o; apply agrees_d_id_step. Qed.
  Lemma ig_drop_enough g0 l ys g :
    run (ig_step cmp keep) g0 l = Some (ys, g) ->
    exists k, forall n, k <= n ->
      m_run (d_ig_step cmp keep) g0 (map (fun o => (o, n)) l) = Some (map Some ys, g).
  Proof. apply run_enough; intros s o; apply agrees_d_ig_step. Qed.
  Lemma bd_drop_done l ys d :
    m_run (d_bd_step cmp keep) bd_new l = Some (map Some ys, d) ->
    run (bd_step cmp keep) bd_new (map fst l) = Some (ys, d).
  Proof. apply run_all_done; intros s o; apply agrees_d_bd_step. Qed.
  Lemma bg_drop_done l ys g :
    m_run (d_bg_step cmp keep) bg_new l = Some (map Some ys, g) ->
    run (bg_step cmp keep) bg_new (map fst l) = Some (ys, g).
  Proof. apply run_all_done; intros s o; apply agrees_d_bg_step. Qed.
  Lemma id_drop_done d0 l ys d :
    m_run (d_id_step cmp keep) d0 l = Some (map Some ys, d) ->
    run (id_step cmp keep) d0 (map IOp (map fst l)) = Some (map IOut ys, d).
  Proof. intros E; apply id_set_step_run; revert E; apply run_all_done; intros s o; apply agrees_d_id_step. Qed.
  Lemma ig_drop_done g0 l ys g :
    m_run (d_ig_step cmp keep) g0 l = Some (map Some ys, g) ->
    run (ig_step cmp keep) g0 (map fst l) = Some (ys, g).
  Proof. apply run_all_done; intros s o; apply agrees_d_ig_step. Qed.
End Agree.

Lemma inserts_last {R} (cmp : R -> R -> comparison) (keep : bool) :
  (forall q, then_calls (m_bd_insert cmp keep q) (d_bd_insert cmp keep q)) /\
  (forall t, then_calls (m_bg_insert cmp keep t) (d_bg_insert cmp keep t)) /\
  (forall q, then_calls (m_id_insert cmp keep q) (d_id_insert cmp keep q)) /\
  (forall t, then_calls (m_ig_insert cmp keep t) (d_ig_insert cmp keep t)).
Proof. repeat split; intros; apply (then_calls_drops (fun _ _ => _)) || apply then_calls_drops. Qed.
