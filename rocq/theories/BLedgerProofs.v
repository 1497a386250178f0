(** The resources reported by [BTreeDataset] and [BTreeGraph] follow the
    account of the changes. *)
From Coq Require Import List Bool Arith Lia Permutation.
Import ListNotations.
From Verif Require Import Base SlabModel TripleModel SetSpec ContainerSpec IndexedSpec Machine BaseProofs
  BResourceModel BResourceProofs BTreeDatasetModel BTreeDatasetProofs BTreeGraphModel BTreeGraphProofs
  LedgerSpec LedgerProofs.
Open Scope panic_scope.

Lemma bt_insert_sub keep cmp x : forall l l', bt_insert keep cmp x l = Some l' ->
  forall j, In j l' -> j = x \/ In j l.
Proof.
  induction l as [|i l IH]; cbn; intros l' E j Hj; [inv E; destruct Hj as [->|[]]; auto|].
  destruct (cmp i x) as [[| |]|]; cbn in E; try discriminate.
  - inv E; destruct Hj as [<-|Hj]; [destruct keep; auto|auto].
  - destruct (bt_insert keep cmp x l) as [m|] eqn:Em; [|discriminate]; cbn in E; inv E.
    destruct Hj as [<-|Hj]; [auto|]; destruct (IH _ eq_refl _ Hj); auto.
  - inv E; cbn in Hj; intuition.
Qed.

Lemma nth_combine {A B} (a : A) (b : B) l : forall m p,
  nth_error (combine l m) p = Some (a, b) <-> nth_error l p = Some a /\ nth_error m p = Some b.
Proof.
  induction l as [|x l IH]; intros [|y m] [|p]; cbn; try apply IH; intuition congruence.
Qed.

Lemma bt_insert_new keep cmp x : forall l l', bt_insert keep cmp x l = Some l' ->
  (keep = true -> forall i, In i l -> cmp i x <> Some Eq) -> In x l'.
Proof.
  induction l as [|i l IH]; cbn; intros l' E H; [inv E; now left|].
  destruct (cmp i x) as [[| |]|] eqn:Ec; cbn in E; try discriminate.
  - inv E; destruct keep; [|now left]; exfalso; exact (H eq_refl i (or_introl eq_refl) Ec).
  - destruct (bt_insert keep cmp x l) as [m|] eqn:Em; [|discriminate]; cbn in E; inv E.
    right; apply (IH _ eq_refl); intros Hk j Hj; apply H; auto.
  - inv E; now left.
Qed.

Lemma bt_insert_stays keep cmp x : forall l l', bt_insert keep cmp x l = Some l' ->
  forall j, In j l -> keep = true \/ cmp j x <> Some Eq -> In j l'.
Proof.
  induction l as [|i l IH]; cbn; intros l' E j Hj Hk; [destruct Hj|].
  destruct (cmp i x) as [[| |]|] eqn:Ec; cbn in E; try discriminate.
  - inv E; destruct Hj as [->|Hj]; [|now right].
    destruct keep; [now left|]; destruct Hk; [discriminate|contradiction].
  - destruct (bt_insert keep cmp x l) as [m|] eqn:Em; [|discriminate]; cbn in E; inv E.
    destruct Hj as [->|Hj]; [now left|right; now apply (IH _ eq_refl)].
  - inv E; now right.
Qed.

(** A tree to which slots are added, with the values they have in the end; a
    component that has a slot adds none. *)
Inductive grown {R} (keep : bool) (val : nat -> option R)
  : list nat -> list (R * (nat * bool)) -> list nat -> Prop :=
| grown_nil ri : grown keep val ri [] ri
| grown_old ri v k l ri' : grown keep val ri l ri' -> grown keep val ri ((v, (k, false)) :: l) ri'
| grown_new ri v k l c ri1 ri' :
    bt_insert keep c k ri = Some ri1 -> (forall i, c i k = Some Eq -> val i = Some v) ->
    val k = Some v -> grown keep val ri1 l ri' -> grown keep val ri ((v, (k, true)) :: l) ri'.

Lemma grown_stays {R} keep (val : nat -> option R) ri l ri' j v :
  grown keep val ri l ri' -> In j ri -> val j = Some v ->
  keep = true \/ (forall k, ~ In (v, (k, true)) l) -> In j ri'.
Proof.
  induction 1 as [ri|ri w k l ri' G IH|ri w k l c ri1 ri' E Hc Hk G IH]; intros Hj Hv Hn; [exact Hj| |].
  - apply IH; auto; destruct Hn as [|Hn]; [auto|right; intros k' H; exact (Hn k' (or_intror H))].
  - apply IH; auto.
    + apply (bt_insert_stays _ _ _ _ _ E _ Hj); destruct Hn as [|Hn]; [auto|right].
      intros Eq; apply Hc in Eq; rewrite Hv in Eq; inv Eq; apply (Hn k); now left.
    + destruct Hn as [|Hn]; [auto|right; intros k' H; exact (Hn k' (or_intror H))].
Qed.

Lemma grown_pick {R} keep (val : nat -> option R) ri l ri' v : grown keep val ri l ri' ->
  (keep = true -> forall j, In j ri -> val j <> Some v) ->
  forall p k, nth_error l p = Some (v, (k, true)) ->
  (forall p' k', nth_error l p' = Some (v, (k', true)) -> if keep then p <= p' else p' <= p) ->
  In k ri'.
Proof.
  induction 1 as [ri|ri w k0 l ri' G IH|ri w k0 l c ri1 ri' E Hc Hk G IH]; intros Hr p k Hp Hm.
  - destruct p; discriminate.
  - destruct p as [|p]; [discriminate|]; apply (IH Hr p k Hp); intros p' k' Hp'.
    specialize (Hm (S p') k' Hp'); destruct keep; lia.
  - destruct p as [|p].
    + injection Hp as -> ->; apply (grown_stays _ _ _ _ _ _ v G); [|exact Hk|].
      * apply (bt_insert_new _ _ _ _ _ E); intros Ek i Hi Eq; apply Hc in Eq; exact (Hr Ek i Hi Eq).
      * destruct keep; [auto|right]; intros k' Hi; apply In_nth_error in Hi as (p' & Hp').
        specialize (Hm (S p') k' Hp'); lia.
    + apply (IH) with (p := p); [|exact Hp|].
      * intros Ek j Hj Eq; destruct (bt_insert_sub _ _ _ _ _ E _ Hj) as [->|Hj'].
        -- rewrite Hk in Eq; inv Eq; specialize (Hm 0 k0 eq_refl); cbn in Hm; lia.
        -- exact (Hr Ek j Hj' Eq).
      * intros p' k' Hp'; specialize (Hm (S p') k' Hp'); destruct keep; lia.
Qed.

Lemma bt_remove_sub {K} cmp (x : K) : forall l r l', bt_remove cmp x l = Some (r, l') ->
  forall j, In j l' -> In j l.
Proof.
  induction l as [|i l IH]; cbn; intros r l' E j Hj; [inv E; auto|].
  destruct (cmp i x) as [[| |]|]; cbn in E; try discriminate.
  - inv E; auto.
  - destruct (bt_remove cmp x l) as [[y m]|] eqn:Em; [|discriminate]; cbn in E; inv E.
    destruct Hj as [<-|Hj]; [auto|]; right; eapply IH; eauto.
  - inv E; auto.
Qed.

Section Proofs.
  Context {R : Type} {cmp : R -> R -> comparison} (L : ord_laws cmp).
  Context (keep : bool).
  Notation qcmp := (quad_cmp cmp).
  Let LQ : ord_laws qcmp := quad_cmp_laws cmp L.

  Definition bent (d : @bdataset R) (z : quad R) (ks : list nat) : Prop :=
    exists i x, sget (bd_quads d) i = Some x /\
      b_quad_with_resources (bd_resources d) x = Some z /\ ks = quad_comps x.
  Definition bvis (d : @bdataset R) (k : nat) : Prop := In k (bd_ri d).

  Lemma b_align rs x (z : quad R) :
    b_quad_with_resources rs x = Some z ->
    length (quad_comps x) = length (quad_comps z) /\
    forall p k w, nth_error (quad_comps x) p = Some k -> nth_error (quad_comps z) p = Some w ->
      br_val rs k = Some w.
  Proof.
    intros H; apply qwr_some in H as (A & B & C & D); unfold quad_comps.
    destruct (q_g x), (q_g z); try contradiction; (split; [reflexivity|]);
      intros [|[|[|[|p]]]] k w E F; cbn in E, F; try (destruct p; discriminate); congruence.
  Qed.

  Lemma in_qrefs (x : quad nat) k : 0 < qrefs x k <-> In k (quad_comps x).
  Proof.
    rewrite qrefs_pos; unfold quad_comps; cbn; destruct (q_g x); cbn; intuition congruence.
  Qed.

  Lemma b_uses d ks vs k w :
    bd_inv (cmp:=cmp) d ks vs ->
    (uses quad_comps (bent d) k w <-> br_val (bd_resources d) k = Some w).
  Proof.
    intros [I1 I2 [I3 _] I4]; split.
    - intros (z & kz & p & (i & x & Hx & Hz & ->) & Hk & Hw).
      destruct (b_align _ _ _ Hz) as [_ H]; eauto.
    - intros Hw.
      assert (Hp : 0 < refs (bd_quads d) (bd_qi d) k)
        by (apply (rinv_live _ _ _ _ _ I4); congruence).
      apply sumf_pos in Hp as (i & Hi & Hp).
      destruct (mapM_in_inv _ _ _ _ I3 Hi) as (z & Hz & _).
      unfold b_quad_at in Hz; destruct (sget (bd_quads d) i) as [x|] eqn:Ex; [|lia]; cbn in Hz.
      apply in_qrefs, In_nth_error in Hp as (p & Hp).
      destruct (b_align _ _ _ Hz) as [Hl H].
      assert (p < length (quad_comps z)) by (rewrite <- Hl; apply nth_error_Some; congruence).
      destruct (nth_error (quad_comps z) p) as [w'|] eqn:Ew; [|apply nth_error_None in Ew; lia].
      rewrite (H _ _ _ Hp Ew) in Hw; inv Hw.
      exists z, (quad_comps x), p; split; [exists i, x; auto|auto].
  Qed.

  Lemma b_seen d ks vs w :
    bd_inv (cmp:=cmp) d ks vs -> (seen quad_comps (bent d) (bvis d) w <-> In w vs).
  Proof.
    intros I; pose proof (bi_res _ _ _ I) as [_ _ [H _]]; rewrite (mapM_in _ _ _ _ H).
    split; intros (k & Hk & Hu); exists k; split; auto; eapply (b_uses _ _ _ _ _ I); eauto.
  Qed.

  Lemma b_ent_elem d ks vs z kz : bd_inv (cmp:=cmp) d ks vs -> bent d z kz -> In z ks.
  Proof.
    intros [_ I2 [I3 _] _] (i & x & Hx & Hz & _).
    apply (mapM_in _ _ _ _ I3); exists i; split; [apply I2; congruence|].
    unfold b_quad_at; rewrite Hx; exact Hz.
  Qed.

  Lemma b_elem_ent d ks vs z : bd_inv (cmp:=cmp) d ks vs -> In z ks -> exists kz, bent d z kz.
  Proof.
    intros [_ I2 [I3 _] _] H; apply (mapM_in _ _ _ _ I3) in H as (i & _ & Hz).
    unfold b_quad_at in Hz; destruct (sget (bd_quads d) i) as [x|] eqn:Ex; [|discriminate].
    exists (quad_comps x), i, x; auto.
  Qed.

  Lemma b_ent_index d ks vs z i j x y :
    bd_inv (cmp:=cmp) d ks vs ->
    sget (bd_quads d) i = Some x -> b_quad_with_resources (bd_resources d) x = Some z ->
    sget (bd_quads d) j = Some y -> b_quad_with_resources (bd_resources d) y = Some z -> i = j.
  Proof.
    intros [_ I2 I3 _] Hx Hz Hy Hz'.
    apply (indexes_inj LQ _ _ _ i j z I3).
    - apply I2; congruence.
    - apply I2; congruence.
    - unfold b_quad_at; rewrite Hx; exact Hz.
    - unfold b_quad_at; rewrite Hy; exact Hz'.
  Qed.

  Lemma b_table d ks vs : bd_inv (cmp:=cmp) d ks vs -> table quad_comps (bent d) (bvis d).
  Proof.
    intros I; split.
    - intros z ka kb (i & x & Hx & Hz & ->) (j & y & Hy & Hz' & ->).
      assert (i = j) as -> by (eapply b_ent_index; eauto); congruence.
    - intros z kz (i & x & Hx & Hz & ->); now apply b_align in Hz.
    - intros k w w'; rewrite !(b_uses _ _ _ _ _ I); congruence.
    - intros k k' w Hk Hk'; rewrite !(b_uses _ _ _ _ _ I); intros Hw Hw'.
      pose proof (bi_res _ _ _ I) as [_ _ H]; apply (indexes_inj L _ _ _ k k' w H); auto.
  Qed.

  (** ** Insertion *)
  Lemma acquire_slot rs ri v f k rs' ri' :
    swf rs -> b_acquire cmp keep rs ri v f = Some (k, rs', ri') ->
    match f with Some i => br_val rs i <> None | None => True end ->
    swf rs' /\ (forall j w, br_val rs j = Some w -> br_val rs' j = Some w) /\
    br_val rs' k <> None /\
    ((f = Some k /\ ri' = ri) \/
     (f = None /\ br_val rs k = None /\ forall j, In j ri' -> j = k \/ In j ri)).
  Proof.
    intros Hs; destruct f as [i|]; cbn.
    - destruct (sget rs i) as [x|] eqn:E; [|discriminate]; cbn; intros H Hi; inv H.
      assert (V : forall j, br_val (sset rs k (BRes (br_value x) (S (br_occ x)))) j = br_val rs j)
        by (intros; now apply br_val_sset with x).
      split; [now apply swf_sset with x|]; split; [intros j w; now rewrite V|].
      split; [now rewrite V|auto].
    - destruct (bt_insert _ _ _ _) as [l|] eqn:E; [|discriminate]; cbn; intros H _; inv H.
      assert (Hk : sget rs (vacant_key rs) = None) by (now apply sget_vacant).
      assert (G : forall j, sget (sinsert rs (BRes v 1)) j =
                            if j =? vacant_key rs then Some (BRes v 1) else sget rs j)
        by (intros; now apply sget_sinsert).
      split; [now apply swf_sinsert|]; split; [|split].
      + intros j w; unfold br_val; rewrite G; destruct (j =? vacant_key rs) eqn:Ej; [|auto].
        apply Nat.eqb_eq in Ej; subst j; rewrite Hk; discriminate.
      + unfold br_val; rewrite G, Nat.eqb_refl; discriminate.
      + right; split; [reflexivity|]; split; [unfold br_val; now rewrite Hk|].
        exact (bt_insert_sub _ _ _ _ _ E).
  Qed.

  (** Several acquisitions in a row. *)
  Fixpoint acquire_all (rs : slab (bresource R)) (ri : list nat) (l : list (R * option nat))
    : option (list nat * slab (bresource R) * list nat) :=
    match l with
    | [] => Some ([], rs, ri)
    | (v, f) :: l =>
        '(k, rs, ri) <- b_acquire cmp keep rs ri v f ;;
        '(ks, rs, ri) <- acquire_all rs ri l ;;
        Some (k :: ks, rs, ri)
    end.

  Lemma acquire_all_slots l : forall rs ri ks rs' ri',
    swf rs -> acquire_all rs ri l = Some (ks, rs', ri') ->
    (forall v i, In (v, Some i) l -> br_val rs i <> None) ->
    (forall p k, nth_error ks p = Some k -> exists v f, nth_error l p = Some (v, f) /\
       (f = Some k \/
        (f = None /\ br_val rs k = None /\
         forall p', nth_error ks p' = Some k -> p' <> p ->
           exists v', nth_error l p' = Some (v', Some k)))) /\
    (forall j, In j ri' -> In j ri \/
       exists p v, nth_error ks p = Some j /\ nth_error l p = Some (v, None)).
  Proof.
    induction l as [|[v f] l IH]; intros rs ri ks rs' ri' Hs E Hf; cbn in E.
    - inv E; split; [intros [|p] k H; discriminate|auto].
    - destruct (b_acquire cmp keep rs ri v f) as [[[k0 rs1] ri1]|] eqn:E0; [|discriminate]; cbn in E.
      destruct (acquire_all rs1 ri1 l) as [[[ks1 rs2] ri2]|] eqn:E1; [|discriminate]; cbn in E; inv E.
      destruct (acquire_slot _ _ _ _ _ _ _ Hs E0) as (Hs1 & M & Vk & D).
      { destruct f; [|trivial]; apply (Hf v); now left. }
      assert (Hf1 : forall v i, In (v, Some i) l -> br_val rs1 i <> None).
      { intros v' i Hi; destruct (br_val rs i) as [w|] eqn:Ew.
        - rewrite (M _ _ Ew); discriminate.
        - exfalso; eapply Hf; [right; exact Hi|exact Ew]. }
      destruct (IH _ _ _ _ _ Hs1 E1 Hf1) as [S1 S2]; split.
      + intros [|p] k Hp; cbn in Hp.
        * injection Hp as <-; exists v, f; split; [reflexivity|].
          destruct D as [[-> _]|(-> & N & _)]; [auto|right].
          split; [reflexivity|]; split; [exact N|]; intros [|p'] Hp' Hne; [congruence|]; cbn in Hp'.
          destruct (S1 _ _ Hp') as (v' & f' & A & [->|(-> & N' & _)]); [eauto|contradiction].
        * destruct (S1 _ _ Hp) as (v' & f' & A & B); exists v', f'; split; [exact A|].
          destruct B as [->|(-> & N & Dd)]; [auto|right]; split; [reflexivity|]; split.
          -- destruct (br_val rs k) as [w|] eqn:Ew; [|reflexivity]; rewrite (M _ _ Ew) in N; discriminate.
          -- intros [|p'] Hp' Hne; cbn in Hp'; [|apply Dd; [exact Hp'|congruence]].
             injection Hp' as ->; cbn; destruct D as [[-> _]|(-> & _ & _)]; [eauto|contradiction].
      + intros j Hj; destruct (S2 _ Hj) as [Hj1|(p & v' & A & B)].
        * destruct D as [[_ ->]|(-> & _ & Hsub)]; [auto|].
          destruct (Hsub _ Hj1) as [->|]; [right; exists 0, v; auto|auto].
        * right; exists (S p), v'; auto.
  Qed.

  Lemma acquire_all_grown l : forall rs ri ks rs' ri',
    swf rs -> acquire_all rs ri l = Some (ks, rs', ri') ->
    (forall v i, In (v, Some i) l -> br_val rs i <> None) ->
    (forall j w, br_val rs j = Some w -> br_val rs' j = Some w) /\
    length ks = length l /\
    grown keep (br_val rs') ri
      (map (fun e => (fst (fst e), (snd e, match snd (fst e) with None => true | Some _ => false end)))
         (combine l ks)) ri'.
  Proof.
    induction l as [|[v f] l IH]; intros rs ri ks rs' ri' Hs E Hf; cbn in E.
    - inv E; split; [auto|]; split; [reflexivity|constructor].
    - destruct (b_acquire cmp keep rs ri v f) as [[[k0 rs1] ri1]|] eqn:E0; [|discriminate]; cbn in E.
      destruct (acquire_all rs1 ri1 l) as [[[ks1 rs2] ri2]|] eqn:E1; [|discriminate]; cbn in E; inv E.
      destruct (acquire_slot _ _ _ _ _ _ _ Hs E0) as (Hs1 & M & Vk & D).
      { destruct f; [|trivial]; apply (Hf v); now left. }
      assert (Hf1 : forall v i, In (v, Some i) l -> br_val rs1 i <> None).
      { intros v' i Hi; destruct (br_val rs i) as [w|] eqn:Ew.
        - rewrite (M _ _ Ew); discriminate.
        - exfalso; eapply Hf; [right; exact Hi|exact Ew]. }
      destruct (IH _ _ _ _ _ Hs1 E1 Hf1) as (M1 & Hl & G).
      split; [auto|]; split; [cbn; now rewrite Hl|]; cbn [combine map fst snd].
      destruct f as [i|]; cbn in E0.
      + destruct (sget rs i); [|discriminate]; cbn in E0; inv E0; now constructor.
      + destruct (bt_insert _ _ _ _) as [ri0|] eqn:Eb; [|discriminate]; cbn in E0; inv E0.
        assert (Ev : br_val (sinsert rs (BRes v 1)) (vacant_key rs) = Some v).
        { unfold br_val; rewrite sget_sinsert, Nat.eqb_refl by exact Hs; reflexivity. }
        eapply grown_new; [exact Eb| |exact (M1 _ _ Ev)|exact G].
        intros i Ec; unfold b_resource_index_cmp in Ec; rewrite Ev in Ec.
        destruct (br_val _ i) as [w|] eqn:Ew; [|discriminate]; cbn in Ec; injection Ec as Ec.
        apply (ord_eq _ L) in Ec; subst w; exact (M1 _ _ Ew).
  Qed.

  Definition b_found (d : @bdataset R) (vs : list R) (v : R) (f : option nat) : Prop :=
    match f with
    | Some i => In i (bd_ri d) /\ br_val (bd_resources d) i = Some v /\ In v vs
    | None => ~ In v vs
    end.

  Lemma bd_insert_acquires d ks vs q d' :
    bd_inv (cmp:=cmp) d ks vs -> ~ In q ks -> bd_insert cmp keep d q = Some (true, d') ->
    exists l rs ri x qi,
      acquire_all (bd_resources d) (bd_ri d) l = Some (quad_comps x, rs, ri) /\
      map fst l = quad_comps q /\
      (forall v f, In (v, f) l -> b_found d vs v f) /\
      d' = BDataset rs (sinsert (bd_quads d) x) ri qi.
  Proof.
    intros I Hq E; unfold bd_insert in E; rewrite (bd_contains_spec L _ _ _ _ I) in E.
    cbn [bind] in E; assert (Em : mem qcmp q ks = false) by now apply (mem_false LQ).
    rewrite Em in E; destruct I as [I1 I2 I3 I4]; cbn zeta in E.
    destruct (index_of_resource_spec L _ _ _ _ (q_s q) I4) as (fs & Efs & Hfs); rewrite Efs in E.
    destruct (index_of_resource_spec L _ _ _ _ (q_p q) I4) as (fp & Efp & Hfp); rewrite Efp in E.
    destruct (index_of_resource_spec L _ _ _ _ (q_o q) I4) as (fo & Efo & Hfo); rewrite Efo in E.
    cbn [bind] in E.
    destruct (b_acquire cmp keep (bd_resources d) (bd_ri d) (q_s q) fs)
      as [[[s_i rs1] ri1]|] eqn:A1; cbn [bind] in E.
    2: { exfalso; destruct (q_g q) as [g|]; cbn in E; [|discriminate].
         destruct (b_index_of_resource cmp (bd_resources d) (bd_ri d) g); discriminate. }
    unfold quad_comps; destruct (q_g q) as [g|] eqn:Eg.
    - destruct (index_of_resource_spec L _ _ _ _ g I4) as (fg & Efg & Hfg); rewrite Efg in E.
      cbn [bind] in E.
      destruct (b_acquire cmp keep rs1 ri1 (q_p q) fp) as [[[p_i rs2] ri2]|] eqn:A2; [|discriminate].
      cbn [bind] in E.
      destruct (b_acquire cmp keep rs2 ri2 (q_o q) fo) as [[[o_i rs3] ri3]|] eqn:A3; [|discriminate].
      cbn [bind] in E.
      destruct (b_acquire cmp keep rs3 ri3 g fg) as [[[g_i rs4] ri4]|] eqn:A4; [|discriminate].
      cbn [bind] in E.
      destruct (bt_insert _ _ _ _) as [qi|]; [|discriminate]; cbn in E; inv E.
      exists [(q_s q, fs); (q_p q, fp); (q_o q, fo); (g, fg)], rs4, ri4,
        (Quad s_i p_i o_i (Some g_i)), qi.
      split; [cbn; rewrite A1; cbn; rewrite A2; cbn; rewrite A3; cbn; rewrite A4; reflexivity|].
      split; [reflexivity|]; split; [|reflexivity].
      intros v f [E|[E|[E|[E|[]]]]]; inv E; assumption.
    - cbn [bind] in E.
      destruct (b_acquire cmp keep rs1 ri1 (q_p q) fp) as [[[p_i rs2] ri2]|] eqn:A2; [|discriminate].
      cbn [bind] in E.
      destruct (b_acquire cmp keep rs2 ri2 (q_o q) fo) as [[[o_i rs3] ri3]|] eqn:A3; [|discriminate].
      cbn [bind] in E.
      destruct (bt_insert _ _ _ _) as [qi|]; [|discriminate]; cbn in E; inv E.
      exists [(q_s q, fs); (q_p q, fp); (q_o q, fo)], rs3, ri3,
        (Quad s_i p_i o_i None), qi.
      split; [cbn; rewrite A1; cbn; rewrite A2; cbn; rewrite A3; reflexivity|].
      split; [reflexivity|]; split; [|reflexivity].
      intros v f [E|[E|[E|[]]]]; inv E; assumption.
  Qed.

  Lemma bd_insert_slots d ks vs q d' :
    bd_inv (cmp:=cmp) d ks vs -> ~ In q ks -> bd_insert cmp keep d q = Some (true, d') ->
    exists x, bd_quads d' = sinsert (bd_quads d) x /\
      (forall p k w, nth_error (quad_comps x) p = Some k -> nth_error (quad_comps q) p = Some w ->
         (In k (bd_ri d) /\ br_val (bd_resources d) k = Some w) \/
         (~ In w vs /\ br_val (bd_resources d) k = None /\
          forall p', nth_error (quad_comps x) p' = Some k -> p' = p)) /\
      (forall j, In j (bd_ri d') -> In j (bd_ri d) \/
         exists p w, nth_error (quad_comps x) p = Some j /\
           nth_error (quad_comps q) p = Some w /\ ~ In w vs) /\
      (forall w p k, ~ In w vs -> pick keep (quad_comps q) w p ->
         nth_error (quad_comps x) p = Some k -> In k (bd_ri d')).
  Proof.
    intros I Hq E.
    destruct (bd_insert_acquires _ _ _ _ _ I Hq E) as (l & rs & ri & x & qi & El & Hv & Hfd & Ed).
    destruct I as [I1 I2 I3 I4]; clear E.
    subst d'; cbn [bd_quads bd_ri]; exists x; split; [reflexivity|].
    destruct (acquire_all_slots _ _ _ _ _ _ (ri_wf _ _ _ _ I4) El) as [S1 S2].
    { intros v i Hi; destruct (Hfd _ _ Hi) as (_ & H & _); congruence. }
    assert (At : forall p v f, nth_error l p = Some (v, f) -> nth_error (quad_comps q) p = Some v).
    { intros p v f H; rewrite <- Hv; now apply (map_nth_error fst) in H. }
    assert (S3 : forall w p k, ~ In w vs -> pick keep (quad_comps q) w p ->
              nth_error (quad_comps x) p = Some k -> In k ri).
    { intros w p k Hw [Hp Hm] Hk.
      destruct (acquire_all_grown _ _ _ _ _ _ (ri_wf _ _ _ _ I4) El) as (M & Hl & G).
      { intros v i Hi; destruct (Hfd _ _ Hi) as (_ & H & _); congruence. }
      destruct (S1 _ _ Hk) as (v & f & A & _); pose proof (At _ _ _ A) as Av.
      assert (v = w) as -> by congruence.
      destruct f as [i|]; [now destruct (Hfd _ _ (nth_error_In _ _ A))|].
      apply (grown_pick _ _ _ _ _ w G) with (p := p).
      - intros _ j Hj Eq; apply Hw.
        destruct (ri_idx _ _ _ _ I4) as [Hi _].
        destruct (mapM_in_inv _ _ _ _ Hi Hj) as (u & Hu & Hin); rewrite (M _ _ Hu) in Eq; congruence.
      - rewrite nth_error_map.
        assert (nth_error (combine l (quad_comps x)) p = Some ((w, None), k)) as ->; [|reflexivity].
        now apply nth_combine.
      - intros p' k' Hp'; rewrite nth_error_map in Hp'.
        destruct (nth_error (combine l (quad_comps x)) p') as [[[v f] j]|] eqn:Ec; [|discriminate].
        cbn in Hp'; injection Hp' as -> _ _; apply nth_combine in Ec as [A' _].
        exact (Hm _ (At _ _ _ A')). }
    split; [|split; [|exact S3]].
    - intros p k w Hk Hw; destruct (S1 _ _ Hk) as (v & f & A & B).
      pose proof (At _ _ _ A) as Av; assert (v = w) as -> by congruence.
      pose proof (Hfd _ _ (nth_error_In _ _ A)) as Hfw.
      destruct B as [->|(-> & N & D)]; [left; cbn in Hfw; tauto|right].
      split; [exact Hfw|]; split; [exact N|]; intros p' Hp'.
      destruct (Nat.eq_dec p' p) as [|Hne]; [assumption|exfalso].
      destruct (D _ Hp' Hne) as (v' & A'); pose proof (Hfd _ _ (nth_error_In _ _ A')) as (_ & H & _).
      congruence.
    - intros j Hj; destruct (S2 _ Hj) as [|(p & v & A & B)]; [auto|right].
      exists p, v; split; [exact A|]; split; [eauto|].
      exact (Hfd _ _ (nth_error_In _ _ B)).
  Qed.

  Lemma b_table_ins d ks vs q d' vs' :
    bd_inv (cmp:=cmp) d ks vs -> ~ In q ks -> bd_insert cmp keep d q = Some (true, d') ->
    bd_inv (cmp:=cmp) d' (place qcmp q ks) vs' ->
    exists kx, table_ins (keep:=keep) quad_comps (bent d) (bvis d) q kx (bent d') (bvis d').
  Proof.
    intros I Hq E I'.
    destruct (bd_insert_desc L keep _ _ _ _ I Hq) as (d1 & vs1 & E1 & I1 & W1 & _ & (x1 & Q1 & X1 & M1)).
    rewrite E in E1; inv E1.
    destruct (bd_insert_slots _ _ _ _ _ I Hq E) as (x & Q & S1 & S2 & S3).
    assert (x1 = x) as ->.
    { rewrite Q in Q1.
      assert (G : forall y, sget (sinsert (bd_quads d) y) (vacant_key (bd_quads d)) = Some y).
      { intros y; rewrite (sget_sinsert _ _ _ (bi_wf _ _ _ I)), Nat.eqb_refl; reflexivity. }
      pose proof (G x) as Gx; rewrite Q1, G in Gx; now inv Gx. }
    assert (Gq : forall j, sget (bd_quads d1) j =
                   if j =? vacant_key (bd_quads d) then Some x else sget (bd_quads d) j).
    { intros j; rewrite Q; apply sget_sinsert, I. }
    assert (Hv : sget (bd_quads d) (vacant_key (bd_quads d)) = None) by apply sget_vacant, I.
    exists (quad_comps x); split.
    - intros kz Hz; apply Hq; eapply b_ent_elem; eauto.
    - intros z kz; split.
      + intros (i & y & Hy & Hz & ->); rewrite Gq in Hy.
        destruct (i =? vacant_key (bd_quads d)) eqn:Ei.
        * inv Hy; left; split; congruence.
        * right; exists i, y; split; [exact Hy|]; split; [|reflexivity].
          destruct (mapM_in_inv _ _ _ i (proj1 (bi_idx _ _ _ I))) as (z' & Hz' & _).
          { apply (bi_live _ _ _ I); congruence. }
          unfold b_quad_at in Hz'; rewrite Hy in Hz'; cbn in Hz'.
          rewrite (qwr_mono _ _ _ _ M1 Hz') in Hz; congruence.
      + intros [[-> ->]|(i & y & Hy & Hz & ->)].
        * exists (vacant_key (bd_quads d)), x; rewrite Gq, Nat.eqb_refl; auto.
        * exists i, y; rewrite Gq; split; [|split; [exact (qwr_mono _ _ _ _ M1 Hz)|reflexivity]].
          destruct (i =? vacant_key (bd_quads d)) eqn:Ei; [|exact Hy].
          apply Nat.eqb_eq in Ei; subst i; congruence.
    - intros p k w Hk Hw; destruct (S1 _ _ _ Hk Hw) as [[A B]|(A & B & C)].
      + left; split; [exact A|]; now apply (b_uses _ _ _ _ _ I).
      + right; split; [rewrite (b_seen _ _ _ _ I); exact A|]; split; [|exact C].
        intros w'; rewrite (b_uses _ _ _ _ _ I); congruence.
    - intros k Hk; destruct (S2 _ Hk) as [|(p & w & A & B & C)]; [auto|right].
      exists p, w; split; [exact A|]; split; [exact B|]; now rewrite (b_seen _ _ _ _ I).
    - intros w; rewrite (b_seen _ _ _ _ I1), (b_seen _ _ _ _ I); apply W1.
    - intros w p k Hw; rewrite (b_seen _ _ _ _ I) in Hw; exact (S3 w p k Hw).
  Qed.

  (** ** Removal *)
  Lemma release_sub {K} (rcmp : slab (bresource R) -> nat -> K -> option comparison) rs ri k key rs' ri' :
    b_release rcmp rs ri k key = Some (rs', ri') -> forall j, In j ri' -> In j ri.
  Proof.
    unfold b_release; destruct (sget rs k) as [x|]; [|discriminate]; cbn.
    destruct (br_occ x) as [|n]; [discriminate|]; destruct (n =? 0).
    - destruct (bt_remove _ _ _) as [[y l]|] eqn:E; [|discriminate]; cbn.
      destruct (sremove _ _) as [[z s]|]; [|discriminate]; cbn; intros H; inv H.
      exact (bt_remove_sub _ _ _ _ _ E).
    - intros H; inv H; auto.
  Qed.

  Lemma bd_remove_sub d q b d' : bd_remove cmp d q = Some (b, d') -> forall j, In j (bd_ri d') -> In j (bd_ri d).
  Proof.
    unfold bd_remove; destruct (bt_remove _ _ _) as [[[i|] qi]|]; cbn; [| |discriminate].
    2: { intros H; inv H; auto. }
    destruct (sremove _ _) as [[x qs]|]; [|discriminate]; cbn.
    destruct (b_release _ _ _ (q_s x) _) as [[rs1 ri1]|] eqn:E1; [|discriminate]; cbn.
    destruct (b_release _ _ _ (q_p x) _) as [[rs2 ri2]|] eqn:E2; [|discriminate]; cbn.
    destruct (b_release _ _ _ (q_o x) _) as [[rs3 ri3]|] eqn:E3; [|discriminate]; cbn.
    intros H j Hj.
    apply (release_sub _ _ _ _ _ _ _ E1), (release_sub _ _ _ _ _ _ _ E2), (release_sub _ _ _ _ _ _ _ E3).
    destruct (q_g x) as [g|].
    - destruct (b_release _ _ _ g _) as [[rs4 ri4]|] eqn:E4; [|discriminate]; cbn in H; inv H.
      exact (release_sub _ _ _ _ _ _ _ E4 _ Hj).
    - cbn in H; inv H; exact Hj.
  Qed.

  Lemma b_table_rem d ks vs q d' :
    bd_inv (cmp:=cmp) d ks vs -> In q ks -> bd_remove cmp d q = Some (true, d') ->
    table_rem quad_comps (bent d) (bvis d) q (bent d') (bvis d').
  Proof.
    intros I Hq E.
    destruct (bd_remove_desc L _ _ _ q I) as (d1 & vs1 & E1 & I1 & W1 & _ & D).
    rewrite E in E1; assert (Em : mem qcmp q ks = true) by now apply (mem_true LQ).
    rewrite Em in E1, D; inv E1; destruct D as [(i & x & Er & Ei) Old].
    unfold b_quad_at in Ei; destruct (sget (bd_quads d) i) as [x'|] eqn:Ex; [|discriminate]; cbn in Ei.
    assert (Gq : forall j, sget (bd_quads d1) j = if j =? i then None else sget (bd_quads d) j)
      by (intros j; apply (sget_sremove _ _ _ _ _ Er)).
    assert (Ent : forall z kz, bent d1 z kz <-> bent d z kz /\ z <> q).
    { assert (Keep : forall j y z, sget (bd_quads d) j = Some y ->
                b_quad_with_resources (bd_resources d) y = Some z -> z <> q ->
                sget (bd_quads d1) j = Some y /\ b_quad_with_resources (bd_resources d1) y = Some z).
      { intros j y z Hy Hz Hzq.
        pose proof (Old j z) as H; unfold b_quad_at in H; rewrite Hy in H; cbn in H; specialize (H Hz Hzq).
        rewrite Gq in *; destruct (j =? i) eqn:Ej.
        - apply Nat.eqb_eq in Ej; subst j; congruence.
        - split; [exact Hy|]; rewrite Hy in H; exact H. }
      intros z kz; split.
      - intros (j & y & Hy & Hz & ->); rewrite Gq in Hy.
        destruct (j =? i) eqn:Ej; [discriminate|]; apply Nat.eqb_neq in Ej.
        destruct (mapM_in_inv _ _ _ j (proj1 (bi_idx _ _ _ I))) as (z' & Hz' & _).
        { apply (bi_live _ _ _ I); congruence. }
        unfold b_quad_at in Hz'; rewrite Hy in Hz'; cbn in Hz'.
        assert (z' <> q).
        { intros ->; apply Ej; exact (b_ent_index _ _ _ _ _ _ _ _ I Hy Hz' Ex Ei). }
        destruct (Keep _ _ _ Hy Hz' H) as [_ K]; assert (z' = z) as -> by congruence.
        split; [exists j, y; auto|assumption].
      - intros [(j & y & Hy & Hz & ->) Hzq]; destruct (Keep _ _ _ Hy Hz Hzq) as [A B].
        exists j, y; auto. }
    split.
    - exists (quad_comps x'), i, x'; auto.
    - exact Ent.
    - exact (bd_remove_sub _ _ _ _ E).
    - intros w; rewrite (b_seen _ _ _ _ I1), (b_seen _ _ _ _ I), W1.
      split; intros [H1 H2]; split; try exact H1.
      + intros k Hu; pose proof Hu as Hw; rewrite (b_uses _ _ _ _ _ I) in Hw.
        specialize (H2 _ Hw).
        apply (rinv_live _ _ _ _ _ (bi_res _ _ _ I1)) in H2.
        destruct (br_val (bd_resources d1) k) as [w'|] eqn:Ew; [|congruence].
        apply (b_uses _ _ _ _ _ I1) in Ew.
        assert (uses quad_comps (bent d) k w') as Hu'.
        { destruct Ew as (z & kz & p & Hz & A & B); apply Ent in Hz as [Hz _].
          exists z, kz, p; auto. }
        assert (w' = w) as -> by exact (tb_val _ _ _ (b_table _ _ _ I) _ _ _ Hu' Hu).
        exact Ew.
      + intros k Hw; apply (b_uses _ _ _ _ _ I) in Hw; apply H2 in Hw.
        apply (b_uses _ _ _ _ _ I1) in Hw.
        apply (rinv_live _ _ _ _ _ (bi_res _ _ _ I1)); congruence.
  Qed.

  (** ** Histories *)
  Context (r : R).
  Notation follow d a := (exists sg, follows (keep:=keep) quad_comps r (bent d) (bvis d) sg a).
  Notation ent1 := (entry qcmp cmp quad_comps r).

  Lemma b_follow_insert d s q b d' a :
    bd_rep (cmp:=cmp) d s -> follow d a -> bd_insert cmp keep d q = Some (b, d') ->
    follow d' (fold_left ent1 (if mem qcmp q s then [] else [(true, q)]) a).
  Proof.
    intros [Hn (vs & I)] F E; destruct (mem qcmp q s) eqn:Em.
    - assert (Hin : In q (sorted_elements qcmp s)).
      { apply in_sorted_elements; now apply (mem_true LQ). }
      rewrite (bd_insert_dup L keep _ _ _ _ I Hin) in E; inv E; exact F.
    - assert (Hin : ~ In q (sorted_elements qcmp s)).
      { rewrite in_sorted_elements; now apply (mem_false LQ). }
      destruct (bd_insert_spec L keep _ _ _ _ I Hin) as (d1 & vs1 & E1 & I1 & _).
      rewrite E in E1; inv E1.
      destruct (b_table_ins _ _ _ _ _ _ I Hin E I1) as (kx & T).
      destruct F as (sg & F); cbn.
      exact (follows_ins L quad_comps r _ _ _ _ _ _ _ _ (b_table _ _ _ I) (b_table _ _ _ I1) T F).
  Qed.

  Lemma b_follow_remove d s q b d' a :
    bd_rep (cmp:=cmp) d s -> follow d a -> bd_remove cmp d q = Some (b, d') ->
    follow d' (fold_left ent1 (if mem qcmp q s then [(false, q)] else []) a).
  Proof.
    intros [Hn (vs & I)] F E; pose proof (mem_sorted L q s) as Ms.
    destruct (bd_remove_desc L _ _ _ q I) as (d1 & vs1 & E1 & I1 & _ & _ & D).
    rewrite E, Ms in E1; rewrite Ms in D; inv E1; destruct (mem qcmp q s) eqn:Em.
    - assert (Hin : In q (sorted_elements qcmp s)).
      { apply in_sorted_elements; now apply (mem_true LQ). }
      destruct F as (sg & F); exists sg; cbn.
      exact (follows_rem LQ L quad_comps r _ _ _ _ _ _ _ (b_table _ _ _ I) (b_table _ _ _ I1)
               (b_table_rem _ _ _ _ _ I Hin E) F).
    - subst d1; exact F.
  Qed.

  Lemma b_follow_extend l : forall d s d' a,
    bd_rep (cmp:=cmp) d s -> follow d a -> bd_extend cmp keep d l = Some d' ->
    follow d' (fold_left ent1 (extend_changes qcmp s l) a).
  Proof.
    induction l as [|q l IH]; intros d s d' a H F E; cbn in E; [inv E; exact F|].
    destruct (bd_insert_rep L keep _ _ q H) as (d1 & E1 & H1); rewrite E1 in E; cbn in E.
    pose proof (b_follow_insert _ _ _ _ _ _ H F E1) as F1.
    specialize (IH _ _ _ _ H1 F1 E); cbn [extend_changes].
    destruct (mem qcmp q s) eqn:Em; cbn in IH |- *; [|exact IH].
    unfold add in IH; rewrite Em in IH; exact IH.
  Qed.

  Lemma b_follow_step d s o x d' a :
    bd_rep (cmp:=cmp) d s -> follow d a -> bd_step cmp keep d o = Some (x, d') ->
    follow d' (fold_left ent1 (set_changes qcmp s o) a).
  Proof.
    intros H F E; destruct o as [q|q|l|q| | | |]; cbn [bd_step set_changes] in *.
    - destruct (bd_insert cmp keep d q) as [[b d1]|] eqn:E1; [|discriminate]; cbn in E; inv E.
      eapply b_follow_insert; eauto.
    - destruct (bd_remove cmp d q) as [[b d1]|] eqn:E1; [|discriminate]; cbn in E; inv E.
      eapply b_follow_remove; eauto.
    - destruct (bd_extend cmp keep d l) as [d1|] eqn:E1; [|discriminate]; cbn in E; inv E.
      eapply b_follow_extend; eauto.
    - destruct (bd_contains cmp d q); [|discriminate]; cbn in E; inv E; exact F.
    - inv E; exact F.
    - inv E; exact F.
    - destruct (bd_iter d); [|discriminate]; cbn in E; inv E; exact F.
    - destruct (bd_into_iter d); [|discriminate]; cbn in E; inv E; exact F.
  Qed.

  Lemma b_follow_run ops : forall d s xs d' a,
    bd_rep (cmp:=cmp) d s -> follow d a -> run (bd_step cmp keep) d ops = Some (xs, d') ->
    follow d' (fold_left ent1 (set_log qcmp s ops) a).
  Proof.
    induction ops as [|o ops IH]; intros d s xs d' a H F E; cbn [run set_log] in *; [inv E; exact F|].
    destruct (bd_step cmp keep d o) as [[x d1]|] eqn:E1; [|discriminate].
    destruct (run (bd_step cmp keep) d1 ops) as [[ys d2]|] eqn:E2; [|discriminate]; inv E.
    destruct (bd_step_rep L keep _ _ o H) as (d3 & E3 & H3); rewrite E1 in E3; inv E3.
    rewrite fold_left_app; eapply IH; eauto; eapply b_follow_step; eauto.
  Qed.

  Lemma b_follow_new : follow bd_new ledger_new.
  Proof.
    exists (fun n => n); apply follows_new; intros x ks (i & y & H & _).
    unfold sget in H; cbn in H; destruct i; discriminate.
  Qed.

  Lemma b_follow_rep d s a :
    bd_rep (cmp:=cmp) d s -> follow d a -> bd_contains_resource cmp d r = Some (reported a).
  Proof.
    intros [Hn (vs & I)] (sg & F); unfold bd_contains_resource.
    destruct (index_of_resource_spec L _ _ _ _ r (bi_res _ _ _ I)) as (f & -> & Hf); cbn; f_equal.
    pose proof (fo_rep _ _ _ _ _ _ F) as Hr; rewrite (b_seen _ _ _ _ I) in Hr.
    destruct f as [i|]; cbn.
    - symmetry; apply Hr; tauto.
    - destruct (reported a); [exfalso; apply Hf; now apply Hr|reflexivity].
  Qed.

  Lemma bd_resource_account ops xs d :
    run (bd_step cmp keep) bd_new ops = Some (xs, d) ->
    bd_contains_resource cmp d r =
      Some (reported (account qcmp cmp quad_comps r (set_log qcmp [] ops))).
  Proof.
    intros E; pose proof (bd_run_rep_new L keep _ _ _ E) as H.
    apply (b_follow_rep _ _ _ H), (b_follow_run _ _ _ _ _ _ bd_rep_new b_follow_new E).
  Qed.
End Proofs.
