(** Histories of interrupted operations: what follows from [agrees] and from
    [history]. *)
From Coq Require Import List Bool Arith Lia Sorted.
Import ListNotations.
From Verif Require Import Base SlabModel TripleModel SetSpec ContainerSpec Machine BaseProofs BResourceModel
  BResourceProofs BTreeDatasetModel BTreeDatasetProofs BTreeGraphModel BTreeGraphProofs
  CrashModel CrashSpec CrashProofs BCrashProofs CrashAgree BGCrashProofs.

Section Agree.
  Context {St O X : Type} (mstep : O -> act St X) (step : St -> O -> option (X * St)).
  Hypothesis H : forall s o, agrees (mstep o) s (step s o).

  Lemma run_enough l : forall s ys s',
    run step s l = Some (ys, s') ->
    exists k, forall n, k <= n ->
      m_run mstep s (map (fun o => (o, n)) l) = Some (map Some ys, s').
  Proof.
    induction l as [|o l IH]; intros s ys s' E; cbn in E.
    - inv E; exists 0; intros; reflexivity.
    - destruct (step s o) as [[x s1]|] eqn:Es; [|discriminate].
      destruct (run step s1 l) as [[xs s2]|] eqn:Er; [|discriminate]; inv E.
      destruct (IH _ _ _ Er) as (k2 & H2).
      pose proof (H s o) as (k1 & H1); rewrite Es in H1.
      exists (k1 + k2); intros n Hn; cbn.
      rewrite (proj2 (H1 n)) by lia; rewrite H2 by lia; reflexivity.
  Qed.

  Lemma run_all_done l : forall s ys s',
    m_run mstep s l = Some (map Some ys, s') -> run step s (map fst l) = Some (ys, s').
  Proof.
    induction l as [|[o n] l IH]; intros s ys s' E; cbn in E |- *.
    - inv E; destruct ys; [reflexivity|discriminate].
    - pose proof (H s o) as (k & Hk).
      destruct (mstep o n s) as [x m s1|s1|s1] eqn:Em; [| |discriminate].
      + destruct (m_run mstep s1 l) as [[xs s2]|] eqn:Er; [|discriminate]; inv E.
        destruct ys as [|y ys]; [discriminate|]; cbn in *; match goal with HH : _ :: _ = _ :: _ |- _ => inv HH end.
        destruct (le_lt_dec k n) as [Hle|Hlt].
        * pose proof (proj2 (Hk n) Hle) as Hd.
          destruct (step s o) as [[x' s1']|].
          -- rewrite Em in Hd; inv Hd; now rewrite (IH _ _ _ Er).
          -- destruct Hd as (z & Hd); congruence.
        * destruct (proj1 (Hk n) Hlt) as (z & Hd); congruence.
      + destruct (m_run mstep s1 l) as [[xs s2]|]; [|discriminate]; inv E.
        destruct ys; discriminate.
  Qed.
End Agree.

Section History.
  Context {X : Type} {cmp : X -> X -> comparison} (L : ord_laws cmp).

  Lemma history_lost s lost ops ys s' lost' :
    history cmp s lost ops ys s' lost' ->
    exists new, lost' = new ++ lost /\ length new <= interruptions ys /\
      forall x, In x new -> In x (not_inserted ops ys).
  Proof.
    unfold interruptions; induction 1 as [s lost|s lost o l ys s' lost' Hh IH
      |s lost o l ys s1 lost1 s' lost' Hl Hh IH].
    - exists []; repeat split; [cbn; lia|intros x []].
    - destruct IH as (new & -> & A & B); exists new; repeat split; [exact A|].
      intros x Hx; destruct o; apply B, Hx.
    - destruct IH as (new & -> & A & B).
      assert (N : lost1 = lost \/ exists x, lost1 = x :: lost /\
                    match o with Insert y => x = y | Extend l => In x l | _ => False end).
      { destruct o; cbn in Hl; try tauto.
        - destruct Hl as [_ [-> | [_ ->]]]; eauto.
        - destruct Hl as (l1 & x & l2 & -> & _ & [-> | [_ ->]]); [auto|].
          right; exists x; split; [reflexivity|]; apply in_elt. }
      destruct N as [-> | (x & -> & Hx)].
      + exists new; repeat split; [cbn; lia|]; intros x Hx.
        destruct o; cbn; rewrite ?in_app_iff; auto.
      + exists (new ++ [x]); rewrite <- app_assoc; split; [reflexivity|].
        rewrite app_length; cbn; split; [lia|]; intros y; rewrite in_app_iff; intros [Hy|[<-|[]]].
        * destruct o; cbn; rewrite ?in_app_iff; auto; right; auto.
        * destruct o; cbn; rewrite ?in_app_iff; try contradiction; auto.
  Qed.

  Lemma history_done s ops ys s' lost' :
    history cmp s [] ops ys s' lost' -> interruptions ys = 0 ->
    lost' = [] /\ ys = map Some (fst (spec_run cmp s ops)) /\ s' = snd (spec_run cmp s ops).
  Proof.
    remember [] as z eqn:Ez; induction 1 as [| |]; cbn; intros Hi; subst.
    - auto.
    - destruct (IHhistory eq_refl Hi) as (-> & -> & ->).
      assert (A : answer cmp s [] o = fst (spec_step cmp s o))
        by (destruct o; cbn; rewrite ?Nat.add_0_r; reflexivity).
      rewrite A; destruct (spec_step cmp s o) as [x s1]; cbn.
      destruct (spec_run cmp s1 l) as [xs s2]; auto.
    - unfold interruptions in Hi; discriminate.
  Qed.
End History.

Section Containers.
  Context {R : Type} {cmp : R -> R -> comparison} (L : ord_laws cmp).
  Context (keep : bool).
  Notation qcmp := (quad_cmp cmp).
  Notation tcmp := (triple_cmp cmp).

  Lemma wd_reads (d : @bdataset R) s lost :
    wd_rep (cmp:=cmp) d s lost ->
    bd_len d = length s + length lost /\ bd_iter d = Some (sorted_elements qcmp s) /\
    exists vs, bd_resources_iter d = Some vs /\ increasing cmp vs /\
      forall v, bd_contains_resource cmp d v = Some (mem cmp v vs).
  Proof.
    intros W; split; [exact (length_rep L _ _ _ W)|]; destruct W as [ND [_ [HM _] [_ _ (vs & HV)] _]].
    split; [exact HM|]; exists vs; split; [apply HV|]; split.
    - apply HV.
    - intros v; unfold bd_contains_resource, b_index_of_resource.
      change (b_resource_cmp cmp (bd_resources d)) with (kcmp (cmpk:=cmp) (br_val (bd_resources d))).
      destruct (bt_get_spec L _ _ _ v HV) as (r & -> & Hr); cbn; f_equal.
      destruct r; cbn; symmetry; [apply (mem_true L); tauto|now apply (mem_false L)].
  Qed.

  Lemma bd_interrupted l :
    exists ys d s lost vs,
      m_run (m_bd_step cmp keep) bd_new l = Some (ys, d) /\
      history qcmp [] [] (map fst l) ys s lost /\
      bd_len d = length s + length lost /\ bd_iter d = Some (sorted_elements qcmp s) /\
      bd_resources_iter d = Some vs /\ increasing cmp vs /\
      forall v, bd_contains_resource cmp d v = Some (mem cmp v vs).
  Proof.
    destruct (run_history L keep l _ _ _ (wd_rep_new (cmp:=cmp))) as (ys & d & s & lost & E & Hh & W).
    destruct (wd_reads _ _ _ W) as (A & B & vs & C & D & F).
    exists ys, d, s, lost, vs; tauto.
  Qed.

  Lemma bg_interrupted l :
    exists ys g s lost vs,
      m_run (m_bg_step cmp keep) bg_new l = Some (ys, g) /\
      history tcmp [] [] (map fst l) ys s lost /\
      bg_len g = length s + length lost /\ bg_iter g = Some (sorted_elements tcmp s) /\
      bg_resources_iter g = Some vs /\ increasing cmp vs /\
      forall v, bg_contains_resource cmp g v = Some (mem cmp v vs).
  Proof.
    destruct (run_bg_history L keep l _ _ _ (wg_rep_new (cmp:=cmp))) as (ys & g & s & lost & E & Hh & W).
    destruct (wd_reads _ _ _ W) as (A & B & vs & C & D & F).
    exists ys, g, s, lost, vs; split; [exact E|]; split; [exact Hh|].
    rewrite emb_len, !map_length in A; split; [exact A|].
    rewrite emb_iter, sorted_iq in B; split.
    - destruct (bg_iter g) as [x|]; cbn in B; [|discriminate]; f_equal.
      injection B as B; revert B; generalize (sorted_elements tcmp s); clear.
      induction x as [|t x IH]; intros [|u y] B; try discriminate; [reflexivity|].
      cbn in B; injection B as ? ? ? B; f_equal; [|now apply IH].
      destruct t, u; cbn in *; congruence.
    - split; [exact C|]; split; [exact D|]; intros v; rewrite <- emb_contains_resource; apply F.
  Qed.

  Lemma bd_enough ops ys d :
    run (bd_step cmp keep) bd_new ops = Some (ys, d) ->
    exists k, forall n, k <= n ->
      m_run (m_bd_step cmp keep) bd_new (map (fun o => (o, n)) ops) = Some (map Some ys, d).
  Proof. apply run_enough; intros s o; apply agrees_bd_step. Qed.
  Lemma bg_enough ops ys g :
    run (bg_step cmp keep) bg_new ops = Some (ys, g) ->
    exists k, forall n, k <= n ->
      m_run (m_bg_step cmp keep) bg_new (map (fun o => (o, n)) ops) = Some (map Some ys, g).
  Proof. apply run_enough; intros s o; apply agrees_bg_step. Qed.
  Lemma bd_all_done l ys d :
    m_run (m_bd_step cmp keep) bd_new l = Some (map Some ys, d) ->
    run (bd_step cmp keep) bd_new (map fst l) = Some (ys, d).
  Proof. apply run_all_done; intros s o; apply agrees_bd_step. Qed.
  Lemma bg_all_done l ys g :
    m_run (m_bg_step cmp keep) bg_new l = Some (map Some ys, g) ->
    run (bg_step cmp keep) bg_new (map fst l) = Some (ys, g).
  Proof. apply run_all_done; intros s o; apply agrees_bg_step. Qed.
End Containers.
