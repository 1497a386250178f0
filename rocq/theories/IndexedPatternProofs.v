(** Pattern matching on [IndexedBTreeDataset]. *)
From Coq Require Import List Bool Arith Lia Permutation Sorted.
Import ListNotations.
From Verif Require Import Base SlabModel TripleModel TriplePatternModel QuadPatternModel SetSpec
  ContainerSpec PatternSpec IndexedSpec Machine BaseProofs PatternProofs BResourceModel
  BResourceProofs BTreeDatasetModel BTreeDatasetProofs BTreeGraphModel IResourceModel
  IResourceProofs IndexedDatasetModel IndexedDatasetProofs IndexedHistoryProofs.
Open Scope panic_scope.

(** ** Constraints *)
Notation lesorted := (StronglySorted le).

Lemma nsorted_lesorted l : nsorted l -> lesorted l.
Proof.
  induction l as [|x l IH]; intros H; [constructor|].
  apply nsorted_cons in H as [H F]; constructor; [auto|].
  rewrite Forall_forall; intros y Hy; specialize (F _ Hy); lia.
Qed.

Lemma in_drop_lt i l j : lesorted l -> (In j (drop_lt i l) <-> In j l /\ i <= j).
Proof.
  induction l as [|x l IH]; intros H; cbn [drop_lt In]; [tauto|].
  apply StronglySorted_inv in H as [H F]; rewrite Forall_forall in F.
  destruct (x <? i) eqn:E.
  - apply Nat.ltb_lt in E; rewrite IH by assumption; split; [tauto|].
    intros [[->|?] ?]; [lia|auto].
  - apply Nat.ltb_ge in E; cbn [In]; split; [|tauto].
    intros [->|Hj]; [auto|]; specialize (F _ Hj); split; [auto|lia].
Qed.

Lemma drop_lt_sorted i l : lesorted l -> lesorted (drop_lt i l).
Proof.
  induction l as [|x l IH]; intros H; cbn [drop_lt]; [assumption|].
  destruct (x <? i); [|assumption]; apply StronglySorted_inv in H as [H _]; auto.
Qed.

Lemma lesorted_head x l y : lesorted (x :: l) -> In y (x :: l) -> x <= y.
Proof.
  intros H Hy; apply StronglySorted_inv in H as [_ F]; rewrite Forall_forall in F.
  destruct Hy as [->|Hy]; [lia|auto].
Qed.

Lemma in_nplace x l y : In y (nplace x l) <-> y = x \/ In y l.
Proof. induction l as [|z l IH]; cbn [nplace]; [cbn; intuition|]; destruct (x <=? z); cbn [In]; [|rewrite IH]; intuition. Qed.

Lemma nplace_sorted x l : lesorted l -> lesorted (nplace x l).
Proof.
  induction l as [|z l IH]; intros H; cbn [nplace]; [repeat constructor|].
  destruct (x <=? z) eqn:E.
  - apply Nat.leb_le in E; constructor; [assumption|]; rewrite Forall_forall; intros y Hy.
    apply (lesorted_head _ _ _ H) in Hy; lia.
  - apply Nat.leb_gt in E; pose proof H as H0; apply StronglySorted_inv in H as [H _].
    constructor; [auto|]; rewrite Forall_forall; intros y Hy; apply in_nplace in Hy as [->|Hy]; [lia|].
    apply (lesorted_head _ _ _ H0); now right.
Qed.

Lemma in_nsort l y : In y (nsort l) <-> In y l.
Proof. unfold nsort; induction l as [|x l IH]; cbn; [tauto|]; rewrite in_nplace, IH; intuition. Qed.

Lemma nsort_sorted l : lesorted (nsort l).
Proof. unfold nsort; induction l; cbn; [constructor|now apply nplace_sorted]. Qed.

Definition csat (c : constraint (quad nat)) (i : nat) (x : quad nat) : Prop :=
  match c with CNone => False | CAny => True | CSame t => t x = true | CFixed l => In i l end.
Definition csorted (c : constraint (quad nat)) : Prop :=
  match c with CFixed l => lesorted l | _ => True end.

(** [c'] is [c] once the indexes below [n] are gone. *)
Definition cafter (n : nat) (c c' : constraint (quad nat)) : Prop :=
  csorted c' /\ (forall i x, n <= i -> (csat c i x <-> csat c' i x)) /\ (c = CAny <-> c' = CAny).

Lemma cafter_refl n c : csorted c -> cafter n c c.
Proof. intros H; split; [assumption|]; split; intros; tauto. Qed.

Lemma cafter_le n m c c' : n <= m -> cafter n c c' -> cafter m c c'.
Proof. intros H (A & B & C); split; [assumption|]; split; [|assumption]; intros; apply B; lia. Qed.

Lemma cafter_trans n m c c' c'' : n <= m -> cafter n c c' -> cafter m c' c'' -> cafter m c c''.
Proof.
  intros H (A & B & C) (D & E & F); split; [assumption|]; split; [|tauto].
  intros i x Hi; rewrite B by lia; now apply E.
Qed.

Lemma cafter_drop i l : lesorted l -> cafter i (CFixed l) (CFixed (drop_lt i l)).
Proof.
  intros H; split; [now apply drop_lt_sorted|]; split; [|split; discriminate].
  intros j x Hj; cbn; rewrite in_drop_lt by assumption; tauto.
Qed.

Lemma s_next_spec (c : constraint (quad nat)) i :
  csorted c -> (forall t, c <> CSame t) ->
  cafter i c (snd (s_next c i)) /\
  match fst (s_next c i) with
  | None => forall j x, i <= j -> ~ csat c j x
  | Some k => i <= k /\ (forall x, csat c k x) /\ (forall j x, i <= j < k -> ~ csat c j x) /\
              (c = CAny -> k = i)
  end.
Proof.
  intros Hs Hn; destruct c as [| |t|l]; cbn; [| |now destruct (Hn t)|].
  - split; [now apply cafter_refl|auto].
  - split; [now apply cafter_refl|]; repeat split; auto; lia.
  - split; [now apply cafter_drop|].
    pose proof (fun j => in_drop_lt i l j Hs) as Hd; pose proof (drop_lt_sorted i l Hs) as Hds.
    destruct (drop_lt i l) as [|k r].
    + intros j x Hj Hin; now apply (Hd j).
    + destruct (proj1 (Hd k) (or_introl eq_refl)) as [Hk Hik]; repeat split; auto; [|discriminate].
      intros j x Hj Hin; pose proof (lesorted_head _ _ j Hds) as Hh.
      specialize (Hh (proj2 (Hd j) (conj Hin (proj1 Hj)))); lia.
Qed.

Lemma c_next_spec c i x :
  csorted c ->
  cafter i c (snd (c_next c i x)) /\
  match fst (c_next c i x) with
  | NOk => csat c i x
  | NErr None => forall j y, i <= j -> ~ csat c j y
  | NErr (Some k) => i < k /\ ~ csat c i x /\ forall j y, i < j < k -> ~ csat c j y
  end.
Proof.
  intros Hs; destruct c as [| |t|l]; cbn.
  - split; [now apply cafter_refl|auto].
  - split; [now apply cafter_refl|exact I].
  - split; [now apply cafter_refl|]; destruct (t x) eqn:E; [reflexivity|].
    split; [lia|split; [congruence|lia]].
  - split; [now apply cafter_drop|].
    pose proof (fun j => in_drop_lt i l j Hs) as Hd; pose proof (drop_lt_sorted i l Hs) as Hds.
    destruct (drop_lt i l) as [|k r].
    + intros j y Hj Hin; now apply (Hd j).
    + destruct (proj1 (Hd k) (or_introl eq_refl)) as [Hk Hik].
      destruct (k =? i) eqn:E; cbn; [apply Nat.eqb_eq in E; now subst|].
      apply Nat.eqb_neq in E; split; [lia|].
      assert (G : forall j, i <= j < k -> ~ In j l).
      { intros j Hj Hin; pose proof (lesorted_head _ _ j Hds) as Hh.
        specialize (Hh (proj2 (Hd j) (conj Hin (proj1 Hj)))); lia. }
      split; [apply G; lia|]; intros j y Hj; apply G; lia.
Qed.

(** ** The iterator *)
Definition msat (m : pm) (i : nat) (x : quad nat) : Prop :=
  csat (pm_s m) i x /\ csat (pm_p m) i x /\ csat (pm_o m) i x /\ csat (pm_g m) i x.

Record mwf (qs : slab (quad nat)) (m : pm) : Prop := {
  mw_s : csorted (pm_s m); mw_p : csorted (pm_p m);
  mw_o : csorted (pm_o m); mw_g : csorted (pm_g m);
  mw_same : forall t, pm_s m <> CSame t;
  mw_live : forall l i, pm_s m = CFixed l -> In i l -> pm_i m <= i -> sget qs i <> None
}.

Definition mafter (m m' : pm) : Prop :=
  cafter (pm_i m') (pm_s m) (pm_s m') /\ cafter (pm_i m') (pm_p m) (pm_p m') /\
  cafter (pm_i m') (pm_o m) (pm_o m') /\ cafter (pm_i m') (pm_g m) (pm_g m') /\
  pm_i m <= pm_i m'.

Lemma mafter_sat m m' j x : mafter m m' -> pm_i m' <= j -> (msat m j x <-> msat m' j x).
Proof.
  intros ((_ & A & _) & (_ & B & _) & (_ & C & _) & (_ & D & _) & _) H; unfold msat.
  rewrite (A j x H), (B j x H), (C j x H), (D j x H); tauto.
Qed.

Lemma mafter_trans m m' m'' : mafter m m' -> mafter m' m'' -> mafter m m''.
Proof.
  intros (A & B & C & D & E) (A' & B' & C' & D' & E').
  split; [|split; [|split; [|split]]]; try lia; eapply cafter_trans; eauto.
Qed.

Lemma s_next_keeps (c : constraint (quad nat)) i :
  (forall t, c <> CSame t) ->
  (forall t, snd (s_next c i) <> CSame t) /\
  forall l j, snd (s_next c i) = CFixed l -> In j l -> exists l', c = CFixed l' /\ In j l'.
Proof.
  intros H; destruct c as [| |t|l]; cbn; [| |now destruct (H t)|].
  - split; [discriminate|]; discriminate.
  - split; [discriminate|]; discriminate.
  - split; [discriminate|]; intros l' j E Hj; inv E; exists l; split; [reflexivity|].
    clear H; induction l as [|x l IH]; cbn [drop_lt] in Hj; [destruct Hj|].
    destruct (x <? i); [right; auto|assumption].
Qed.

(** Either nothing is left, or the iterator stops at a hole. *)
Definition stops (qs : slab (quad nat)) (m : pm) : Prop :=
  (forall j y, pm_i m <= j -> sget qs j = Some y -> ~ msat m j y) \/
  (pm_s m = CAny /\ free qs <> []).

Definition yields (qs : slab (quad nat)) (m : pm) (i : nat) (x : quad nat) (m' : pm) : Prop :=
  pm_i m <= i /\ sget qs i = Some x /\ msat m i x /\
  (forall j y, pm_i m <= j < i -> sget qs j = Some y -> ~ msat m j y) /\
  pm_i m' = S i /\ mwf qs m' /\ mafter m m'.

Lemma hole_free {T} (s : slab T) i : swf s -> i < length (ents s) -> sget s i = None -> free s <> [].
Proof.
  intros [_ H] Hi Hg; assert (In i (free s)); [|intros E; rewrite E in *; contradiction].
  apply H; unfold sget in Hg; destruct (nth_error (ents s) i) as [[|]|] eqn:E; auto; [discriminate|].
  apply nth_error_None in E; lia.
Qed.

Lemma mwf_next qs m cs cp co cg i :
  mwf qs m -> cs = snd (s_next (pm_s m) (pm_i m)) -> pm_i m <= i ->
  csorted cs -> csorted cp -> csorted co -> csorted cg ->
  mwf qs (PM cs cp co cg i).
Proof.
  intros [W1 W2 W3 W4 W5 W6] -> Hi A B C D.
  destruct (s_next_keeps (pm_s m) (pm_i m) W5) as [K1 K2].
  split; cbn; auto; intros l j E Hj Hij; destruct (K2 _ _ E Hj) as (l' & E' & Hl').
  eapply W6; eauto; lia.
Qed.

(** Skipping to [k]: no quad from [pm_i m] to [k] is wanted. *)
Lemma step_skip qs m m' r :
  mafter m m' ->
  (forall j y, pm_i m <= j < pm_i m' -> sget qs j = Some y -> ~ msat m j y) ->
  match r with None => stops qs m' | Some (i, x, m'') => yields qs m' i x m'' end ->
  match r with None => stops qs m | Some (i, x, m'') => yields qs m i x m'' end.
Proof.
  intros A H; destruct r as [[[i x] m'']|].
  - intros (Y1 & Y2 & Y3 & Y4 & Y5 & Y6 & Y7).
    assert (pm_i m <= pm_i m') by apply A.
    split; [lia|]; split; [assumption|]; split; [now apply (mafter_sat _ _ i x A Y1)|].
    split; [|split; [assumption|split; [assumption|apply (mafter_trans _ _ _ A Y7)]]].
    intros j y Hj Hy; destruct (Nat.lt_ge_cases j (pm_i m')); [apply H; auto; lia|].
    rewrite (mafter_sat _ _ j y A) by assumption; apply Y4; auto; lia.
  - intros [S|[S1 S2]].
    + left; intros j y Hj Hy; destruct (Nat.lt_ge_cases j (pm_i m')); [apply H; auto; lia|].
      rewrite (mafter_sat _ _ j y A) by assumption; now apply S.
    + right; split; [|assumption]; apply A; exact S1.
Qed.

Lemma pm_next_spec qs cap (W : swf qs) (Hcap : length (ents qs) <= cap) fuel : forall m,
  mwf qs m -> cap < fuel + pm_i m -> 0 < fuel ->
  exists r, pm_next fuel cap qs m = Some r /\
    match r with None => stops qs m | Some (i, x, m') => yields qs m i x m' end.
Proof.
  induction fuel as [|fuel IH]; intros m M Hf H0; [lia|]; cbn [pm_next].
  destruct (pm_i m <? cap) eqn:Ec.
  2: { apply Nat.ltb_ge in Ec; exists None; split; [reflexivity|]; left; intros j y Hj Hy.
       apply sget_lt in Hy; lia. }
  apply Nat.ltb_lt in Ec.
  destruct (s_next_spec (pm_s m) (pm_i m) (mw_s _ _ M) (mw_same _ _ M)) as [As Hs].
  destruct (s_next (pm_s m) (pm_i m)) as [r cs] eqn:Es; cbn [fst snd] in *.
  destruct r as [i|].
  2: { exists None; split; [reflexivity|]; left; intros j y Hj Hy (H & _); eapply Hs; eauto. }
  destruct Hs as (Hi & Hsi & Hsj & Hany).
  destruct (sget qs i) as [x|] eqn:Ex.
  2: { exists None; split; [reflexivity|].
       destruct (pm_s m) as [| |t|l] eqn:Em.
       - destruct (Hsi (Quad 0 0 0 None)).
       - rewrite (Hany eq_refl) in *.
         destruct (Nat.lt_ge_cases (pm_i m) (length (ents qs))) as [Hl|Hl].
         + right; split; [assumption|]; eapply hole_free; eauto.
         + left; intros j y Hj Hy; apply sget_lt in Hy; lia.
       - destruct (mw_same _ _ M _ Em).
       - destruct (mw_live _ _ M _ _ Em (Hsi (Quad 0 0 0 None)) Hi Ex). }
  assert (Hlt : i < length (ents qs)) by (eapply sget_lt; eauto).
  assert (Hcs : cs = snd (s_next (pm_s m) (pm_i m))) by now rewrite Es.
  assert (Before : forall j y, pm_i m <= j < i -> ~ msat m j y).
  { intros j y Hj (H & _); eapply Hsj; eauto. }
  destruct (c_next_spec (pm_p m) i x (mw_p _ _ M)) as [Ap Hp].
  destruct (c_next (pm_p m) i x) as [np cp]; cbn [fst snd] in *.
  destruct np as [|[k|]].
  3: { exists None; split; [reflexivity|]; left; intros j y Hj Hy Hm.
       destruct (Nat.lt_ge_cases j i); [eapply Before; eauto; lia|].
       apply (Hp j y); [assumption|apply Hm]. }
  2: { destruct Hp as (Hk & Hni & Hnj).
       set (m' := PM cs cp (pm_o m) (pm_g m) k).
       assert (A : mafter m m').
       { split; [|split; [|split; [|split]]]; cbn; try lia;
           try (eapply cafter_le; [|eassumption]; lia); apply cafter_refl; apply M. }
       destruct (IH m') as (r & -> & Hr).
       { eapply mwf_next; eauto; try lia; apply As || apply Ap || apply M. }
       { cbn; lia. } { cbn in *; lia. }
       exists r; split; [reflexivity|]; eapply step_skip; [exact A| |exact Hr].
       cbn; intros j y Hj Hy Hm; destruct (Nat.lt_ge_cases j i); [eapply Before; eauto; lia|].
       destruct (Nat.eq_dec j i) as [->|Hn].
       - rewrite Ex in Hy; inv Hy; apply Hni, Hm.
       - apply (Hnj j y); [lia|apply Hm]. }
  destruct (c_next_spec (pm_o m) i x (mw_o _ _ M)) as [Ao Ho].
  destruct (c_next (pm_o m) i x) as [no co]; cbn [fst snd] in *.
  destruct no as [|[k|]].
  3: { exists None; split; [reflexivity|]; left; intros j y Hj Hy Hm.
       destruct (Nat.lt_ge_cases j i); [eapply Before; eauto; lia|].
       apply (Ho j y); [assumption|apply Hm]. }
  2: { destruct Ho as (Hk & Hni & Hnj).
       set (m' := PM cs cp co (pm_g m) k).
       assert (A : mafter m m').
       { split; [|split; [|split; [|split]]]; cbn; try lia;
           try (eapply cafter_le; [|eassumption]; lia); apply cafter_refl; apply M. }
       destruct (IH m') as (r & -> & Hr).
       { eapply mwf_next; eauto; try lia; apply As || apply Ap || apply Ao || apply M. }
       { cbn; lia. } { cbn in *; lia. }
       exists r; split; [reflexivity|]; eapply step_skip; [exact A| |exact Hr].
       cbn; intros j y Hj Hy Hm; destruct (Nat.lt_ge_cases j i); [eapply Before; eauto; lia|].
       destruct (Nat.eq_dec j i) as [->|Hn].
       - rewrite Ex in Hy; inv Hy; apply Hni, Hm.
       - apply (Hnj j y); [lia|apply Hm]. }
  destruct (c_next_spec (pm_g m) i x (mw_g _ _ M)) as [Ag Hg].
  destruct (c_next (pm_g m) i x) as [ng cg]; cbn [fst snd] in *.
  destruct ng as [|[k|]].
  3: { exists None; split; [reflexivity|]; left; intros j y Hj Hy Hm.
       destruct (Nat.lt_ge_cases j i); [eapply Before; eauto; lia|].
       apply (Hg j y); [assumption|apply Hm]. }
  2: { destruct Hg as (Hk & Hni & Hnj).
       set (m' := PM cs cp co cg k).
       assert (A : mafter m m').
       { split; [|split; [|split; [|split]]]; cbn; try lia;
           try (eapply cafter_le; [|eassumption]; lia); apply cafter_refl; apply M. }
       destruct (IH m') as (r & -> & Hr).
       { eapply mwf_next; eauto; try lia; apply As || apply Ap || apply Ao || apply Ag. }
       { cbn; lia. } { cbn in *; lia. }
       exists r; split; [reflexivity|]; eapply step_skip; [exact A| |exact Hr].
       cbn; intros j y Hj Hy Hm; destruct (Nat.lt_ge_cases j i); [eapply Before; eauto; lia|].
       destruct (Nat.eq_dec j i) as [->|Hn].
       - rewrite Ex in Hy; inv Hy; apply Hni, Hm.
       - apply (Hnj j y); [lia|apply Hm]. }
  eexists; split; [reflexivity|]; cbn.
  split; [assumption|]; split; [assumption|]; split; [split; [apply Hsi|tauto]|].
  split; [intros; now apply Before|]; split; [reflexivity|]; split.
  - eapply mwf_next; eauto; try lia; apply As || apply Ap || apply Ao || apply Ag.
  - split; [|split; [|split; [|split]]]; cbn; try lia; eapply cafter_le; try eassumption; lia.
Qed.

(** The next item depends only on the entries still ahead. *)
Lemma pm_next_local qs qs' cap fuel : forall m,
  (forall t, pm_s m <> CSame t) -> csorted (pm_s m) -> csorted (pm_p m) -> csorted (pm_o m) ->
  csorted (pm_g m) ->
  (forall j, pm_i m <= j -> sget qs j = sget qs' j) ->
  pm_next fuel cap qs m = pm_next fuel cap qs' m.
Proof.
  induction fuel as [|fuel IH]; intros m H1 H2 H3 H4 H5 H; [reflexivity|]; cbn [pm_next].
  destruct (pm_i m <? cap); [|reflexivity].
  destruct (s_next_spec (pm_s m) (pm_i m) H2 H1) as [As Hs].
  destruct (s_next_keeps (pm_s m) (pm_i m) H1) as [K _].
  destruct (s_next (pm_s m) (pm_i m)) as [r cs]; cbn [fst snd] in *.
  destruct r as [i|]; [|reflexivity]; rewrite <- H by apply Hs.
  destruct (sget qs i) as [x|]; [|reflexivity].
  destruct (c_next_spec (pm_p m) i x H3) as [Ap Hp].
  destruct (c_next (pm_p m) i x) as [np cp]; cbn [fst snd] in *.
  assert (Hi : pm_i m <= i) by apply Hs.
  destruct np as [|[k|]]; [| |reflexivity].
  2: { apply IH; cbn; auto; try (apply As || apply Ap); intros; apply H; destruct Hp; lia. }
  destruct (c_next_spec (pm_o m) i x H4) as [Ao Ho].
  destruct (c_next (pm_o m) i x) as [no co]; cbn [fst snd] in *.
  destruct no as [|[k|]]; [| |reflexivity].
  2: { apply IH; cbn; auto; try (apply As || apply Ap || apply Ao); intros; apply H; destruct Ho; lia. }
  destruct (c_next_spec (pm_g m) i x H5) as [Ag Hg].
  destruct (c_next (pm_g m) i x) as [ng cg]; cbn [fst snd] in *.
  destruct ng as [|[k|]]; [reflexivity| |reflexivity].
  apply IH; cbn; auto; try (apply As || apply Ap || apply Ao || apply Ag); intros; apply H; destruct Hg; lia.
Qed.

(** ** All the items *)
Definition mok (m : pm) : Prop :=
  (forall t, pm_s m <> CSame t) /\ csorted (pm_s m) /\ csorted (pm_p m) /\
  csorted (pm_o m) /\ csorted (pm_g m).

Inductive trace (cap : nat) (qs : slab (quad nat)) : pm -> list (nat * quad nat) -> Prop :=
| trace_end m : mok m -> pm_next (S cap) cap qs m = Some None -> trace cap qs m []
| trace_step m i x m' r :
    mok m -> pm_next (S cap) cap qs m = Some (Some (i, x, m')) -> pm_i m <= i < pm_i m' ->
    sget qs i = Some x -> trace cap qs m' r -> trace cap qs m ((i, x) :: r).

Lemma trace_local cap qs qs' m r :
  trace cap qs m r -> (forall j, pm_i m <= j -> sget qs j = sget qs' j) -> trace cap qs' m r.
Proof.
  induction 1 as [m K E|m i x m' r K E Hi Hg T IH]; intros H.
  - constructor; [assumption|]; rewrite <- E; symmetry; apply pm_next_local; try apply K; assumption.
  - econstructor; eauto.
    + rewrite <- E; symmetry; apply pm_next_local; try apply K; assumption.
    + rewrite <- H; [assumption|]; lia.
    + apply IH; intros; apply H; lia.
Qed.

Lemma trace_live cap qs m r :
  trace cap qs m r ->
  StronglySorted Peano.lt (map fst r) /\
  forall i x, In (i, x) r -> pm_i m <= i /\ sget qs i = Some x.
Proof.
  induction 1 as [m K E|m i x m' r K E Hi Hg T [IH1 IH2]].
  - split; [constructor|intros ? ? []].
  - split.
    + cbn; constructor; [assumption|]; rewrite Forall_forall; intros j Hj.
      apply in_map_iff in Hj as ([j' y] & <- & Hj); apply IH2 in Hj; cbn; lia.
    + intros j y [Hj|Hj]; [inv Hj; split; [lia|assumption]|].
      apply IH2 in Hj; split; [lia|tauto].
Qed.

Lemma trace_exists cap qs (W : swf qs) (Hcap : length (ents qs) <= cap) : forall n m,
  mwf qs m -> cap <= n + pm_i m ->
  exists r, trace cap qs m r /\ length r <= n /\
    (forall i x, In (i, x) r -> msat m i x) /\
    ((pm_s m = CAny -> free qs = []) ->
     forall i x, pm_i m <= i -> sget qs i = Some x -> msat m i x -> In (i, x) r).
Proof.
  induction n as [|n IH]; intros m M Hn.
  - assert (mok m) by (repeat split; apply M).
    exists []; split; [|split; [auto|split; [intros ? ? []|]]].
    + constructor; [assumption|]; cbn [pm_next].
      destruct (pm_i m <? cap) eqn:E; [apply Nat.ltb_lt in E; lia|reflexivity].
    + intros _ i x Hi Hx _; apply sget_lt in Hx; lia.
  - assert (K : mok m) by (repeat split; apply M).
    destruct (pm_next_spec qs cap W Hcap (S cap) m M) as (r & E & H); [lia|lia|].
    destruct r as [[[i x] m']|].
    + destruct H as (Y1 & Y2 & Y3 & Y4 & Y5 & Y6 & Y7).
      destruct (IH m' Y6) as (r & T & Hl & S1 & C); [lia|].
      exists ((i, x) :: r); split; [econstructor; eauto; lia|]; split; [cbn; lia|]; split.
      * intros j y [Hj|Hj]; [inv Hj; assumption|].
        destruct (trace_live _ _ _ _ T) as [_ Hb]; destruct (Hb _ _ Hj) as [Hb1 _].
        apply (mafter_sat _ _ j y Y7 Hb1), S1, Hj.
      * intros Ha j y Hj Hy Hm; destruct (Nat.lt_trichotomy j i) as [Hlt|[->|Hgt]].
        -- destruct (Y4 j y); [lia|assumption|assumption].
        -- left; congruence.
        -- right; apply C; auto; [|lia|apply (mafter_sat _ _ j y Y7); [lia|assumption]].
           intros Hc; apply Ha; destruct Y7 as ((_ & _ & Q) & _); now apply Q.
    + exists []; split; [now constructor|]; split; [cbn; lia|]; split; [intros ? ? []|].
      intros Ha i x Hi Hx Hm; destruct H as [H|[H1 H2]]; [now apply (H i x)|].
      destruct H2; auto.
Qed.

Section Proofs.
  Context {R : Type} {cmp : R -> R -> comparison} (L : ord_laws cmp).
  Context (keep : bool).
  Notation qcmp := (quad_cmp cmp).
  Let LQ : ord_laws qcmp := quad_cmp_laws cmp L.
  Notation inv_ := (id_inv (cmp:=cmp)).
  Notation wr d := (i_quad_with_resources (R:=R) (id_resources d)).

  Lemma pm_collect_trace cap (d : @idataset R) m r :
    trace cap (id_quads d) m r -> forall fuel, length r < fuel ->
    pm_collect fuel cap d m = mapM (fun e => wr d (snd e)) r.
  Proof.
    induction 1 as [m K E|m i x m' r K E Hi Hg T IH]; intros [|fuel] Hf; cbn in Hf; try lia;
      cbn [pm_collect mapM]; rewrite E; [reflexivity|]; cbn.
    destruct (wr d x); [|reflexivity]; cbn; rewrite IH by lia; reflexivity.
  Qed.

  Lemma pm_extract_trace cap m r n : forall (d : @idataset R) s0 K k l,
    trace cap (id_quads d) m r -> istate (cmp:=cmp) d s0 K k l ->
    exists qs d', mapM (fun e => wr d (snd e)) r = Some qs /\
      pm_extract cmp n cap d m = Some (firstn n qs, d') /\
      istate (cmp:=cmp) d' s0 K k (l ++ removals (firstn n qs)).
  Proof.
    revert m r; induction n as [|n IH]; intros m r d s0 K k l T H.
    - destruct (mapM_total (fun e => wr d (snd e)) r) as (qs & Eq).
      { intros [i x] He; apply (trace_live _ _ _ _ T) in He as [_ Hx].
        destruct (is_rep _ _ _ _ _ H) as [_ (vs & I)].
        destruct (id_live_value _ _ _ _ _ I Hx) as (q & Hq & _); cbn; congruence. }
      exists qs, d; cbn; rewrite app_nil_r; auto.
    - destruct T as [m Km E|m i x m' r Km E Hi Hg T].
      + exists [], d; cbn [pm_extract mapM firstn]; rewrite E; cbn; rewrite app_nil_r; auto.
      + destruct (is_rep _ _ _ _ _ H) as [_ (vs & I)].
        destruct (id_live_value _ _ _ _ _ I Hg) as (q & Hq & _).
        destruct (istate_remove_by_index L d s0 K k l i q H) as (d1 & Ed & H1 & y & D).
        { unfold i_quad_at; rewrite Hg; exact Hq. }
        assert (T1 : trace cap (id_quads d1) m' r).
        { eapply trace_local; [exact T|]; intros j Hj; destruct D as (D & _).
          rewrite (sget_sremove _ _ _ _ _ D); destruct (j =? i) eqn:Ej; [|reflexivity].
          apply Nat.eqb_eq in Ej; lia. }
        destruct (IH _ _ _ _ _ _ _ T1 H1) as (qs & d' & Eq & Ee & H').
        exists (q :: qs), d'; cbn [pm_extract mapM firstn snd]; rewrite E; cbn.
        rewrite Hq; cbn; rewrite Ed; cbn; rewrite Ee; cbn.
        split; [|split; [reflexivity|]].
        * assert (mapM (fun e => wr d (snd e)) r = Some qs) as ->; [|reflexivity].
          rewrite <- Eq; symmetry; apply mapM_ext; intros [j z] Hj; cbn.
          apply (trace_live _ _ _ _ T1) in Hj as [_ Hz].
          destruct (is_rep _ _ _ _ _ H1) as [_ (vs1 & I1)].
          destruct (id_live_value _ _ _ _ _ I1 Hz) as (u & Hu & _).
          rewrite Hu; symmetry; eapply iqwr_mono; [|exact Hu]; apply D.
        * rewrite <- app_assoc in H'; exact H'.
  Qed.

  (** ** Constraints and patterns *)
  (** [N q]: the resources that must be found for [q] to be. *)
  Definition cspec (d : @idataset R) (c : constraint (quad nat)) (N : quad R -> list R)
      (P : quad R -> Prop) : Prop :=
    csorted c /\ forall i x q, sget (id_quads d) i = Some x -> wr d x = Some q ->
      (csat c i x -> P q) /\
      (forall W, id_exact W d -> (forall r, In r (N q) -> W r) -> P q -> csat c i x).
  Definition fixed (d : @idataset R) (c : constraint (quad nat)) : Prop :=
    c <> CAny /\ (forall t, c <> CSame t) /\
    forall l i, c = CFixed l -> In i l -> sget (id_quads d) i <> None.

  Lemma cspec_any d N (P : quad R -> Prop) : (forall q, P q) -> cspec d CAny N P.
  Proof. intros H; split; [exact I|]; intros; split; intros; [apply H|exact I]. Qed.

  Lemma get_resource_spec d ks vs r :
    inv_ d ks vs ->
    exists f, i_get_resource cmp (id_resources d) (id_ri d) r = Some f /\
      match f with
      | Some x => exists k, sget (id_resources d) k = Some x /\
                            ir_val (id_resources d) k = Some r
      | None => ~ In r vs
      end.
  Proof.
    intros I; unfold i_get_resource.
    destruct (i_index_of_resource_spec L _ _ _ _ r (ii_res _ _ _ I)) as (f & -> & Hf); cbn.
    destruct f as [k|]; [|eauto]; destruct Hf as (_ & Hv & _); eexists; split; [reflexivity|].
    unfold ir_val in Hv; destruct (sget (id_resources d) k) as [x|] eqn:E; [|discriminate].
    exists k; split; [assumption|]; unfold ir_val; now rewrite E.
  Qed.

  Lemma resource_uses d ks vs k y p i x q r :
    inv_ d ks vs -> sget (id_resources d) k = Some y -> ir_val (id_resources d) k = Some r ->
    sget (id_quads d) i = Some x -> wr d x = Some q ->
    (In i (ir_at p y) -> comp p q = Some r) /\
    (forall W, id_exact W d -> W r -> comp p q = Some r -> In i (ir_at p y)).
  Proof.
    intros I Hk Hv Hx Hq.
    destruct (iri_use _ _ _ _ (ii_res _ _ _ I) _ _ Hk) as [Hu _]; destruct (Hu p) as [_ Hin].
    split; [|intros W]; rewrite Hin.
    - intros (x' & Hx' & Hs); rewrite Hx in Hx'; inv Hx'.
      destruct (iqwr_slot _ _ _ _ _ Hq Hs) as (v & Hc & Hv'); congruence.
    - intros X HW Hc; destruct (iqwr_comp _ _ _ _ _ Hq Hc) as (k' & Hs & Hv').
      exists x; split; [assumption|]; rewrite Hs; f_equal.
      eapply (id_value_inj L W); eauto.
  Qed.

  Lemma resource_live d ks vs k y p i :
    inv_ d ks vs -> sget (id_resources d) k = Some y -> In i (ir_at p y) ->
    sget (id_quads d) i <> None.
  Proof.
    intros I Hk Hi; destruct (iri_use _ _ _ _ (ii_res _ _ _ I) _ _ Hk) as [Hu _].
    apply Hu in Hi as (x & Hx & _); congruence.
  Qed.

  Lemma not_in_vs W d ks vs i x q p r :
    inv_ d ks vs -> id_exact W d -> W r -> ~ In r vs -> sget (id_quads d) i = Some x ->
    wr d x = Some q -> comp p q <> Some r.
  Proof.
    intros I X HW Hr Hx Hq Hc; apply Hr; eapply (id_used_vs W); eauto.
    destruct (id_live_value _ _ _ _ _ I Hx) as (q' & Hq' & Hin).
    rewrite Hq in Hq'; inv Hq'; exists q'; split; [assumption|]; eapply comp_in_comps; eauto.
  Qed.

  Definition comp_list (p : pos) (q : quad R) : list R :=
    match comp p q with Some r => [r] | None => [] end.
  Lemma in_comp_list p q r : comp p q = Some r -> In r (comp_list p q).
  Proof. unfold comp_list; intros ->; now left. Qed.

  Lemma given_spec d ks vs p r :
    inv_ d ks vs ->
    exists c, given_constraint cmp (id_resources d) (id_ri d) p r = Some c /\
      cspec d c (comp_list p) (fun q => comp p q = Some r) /\ fixed d c.
  Proof.
    intros I; unfold given_constraint.
    destruct (get_resource_spec _ _ _ r I) as (f & -> & Hf); cbn; eexists; split; [reflexivity|].
    destruct f as [y|].
    - destruct Hf as (k & Hk & Hv); split; [split|].
      + cbn; apply nsorted_lesorted.
        destruct (iri_use _ _ _ _ (ii_res _ _ _ I) _ _ Hk) as [Hu _]; apply Hu.
      + intros i x q Hx Hq; cbn.
        destruct (resource_uses _ _ _ _ _ p _ _ _ _ I Hk Hv Hx Hq) as [U1 U2].
        split; [exact U1|]; intros W X HW Hc; eapply U2; eauto using in_comp_list.
      + split; [discriminate|]; split; [discriminate|]; intros l i E; inv E.
        eapply resource_live; eauto.
    - split; [split; [exact Logic.I|]|].
      + intros i x q Hx Hq; cbn; split; [tauto|]; intros W X HW Hc.
        eapply (not_in_vs W); eauto using in_comp_list.
      + split; [discriminate|]; split; discriminate.
  Qed.

  Lemma multi_indexes_spec d ks vs p l :
    inv_ d ks vs ->
    exists m, multi_indexes cmp (id_resources d) (id_ri d) p l = Some m /\
      (forall i, In i m -> sget (id_quads d) i <> None) /\
      forall i x q, sget (id_quads d) i = Some x -> wr d x = Some q ->
        (In i m -> exists r, In r l /\ comp p q = Some r) /\
        (forall W, id_exact W d -> forall r, W r -> In r l -> comp p q = Some r -> In i m).
  Proof.
    intros I; induction l as [|r l (m & IH & Hl & Hm)]; cbn.
    - exists []; split; [reflexivity|]; split; [intros ? []|].
      intros i x q Hx Hq; split; [intros []|intros _ _ r _ []].
    - destruct (get_resource_spec _ _ _ r I) as (f & -> & Hf); cbn; rewrite IH; cbn.
      eexists; split; [reflexivity|]; split.
      + intros i Hi; apply in_app_or in Hi as [Hi|Hi]; [|auto].
        destruct f as [y|]; [|destruct Hi]; destruct Hf as (k & Hk & _); eapply resource_live; eauto.
      + intros i x q Hx Hq; destruct (Hm i x q Hx Hq) as [M1 M2]; split.
        * intros Hi; apply in_app_or in Hi as [Hi|Hi].
          -- destruct f as [y|]; [|destruct Hi]; destruct Hf as (k & Hk & Hv).
             exists r; split; [auto|]; eapply resource_uses; eauto.
          -- destruct (M1 Hi) as (r' & ? & ?); eauto.
        * intros W X r' HW [<-|Hr] Hc; apply in_or_app; [left|right; eauto].
          destruct f as [y|]; [destruct Hf as (k & Hk & Hv); eapply resource_uses; eauto|].
          exfalso; eapply (not_in_vs W); eauto.
  Qed.

  Lemma multi_spec d ks vs p l :
    inv_ d ks vs ->
    exists c, multi_constraint cmp (id_resources d) (id_ri d) p l = Some c /\
      cspec d c (comp_list p) (fun q => exists r, In r l /\ comp p q = Some r) /\ fixed d c.
  Proof.
    intros I; unfold multi_constraint.
    destruct (multi_indexes_spec _ _ _ p l I) as (m & -> & Hl & Hm); cbn; eexists; split; [reflexivity|].
    destruct m as [|j m].
    - split; [split; [exact Logic.I|]|].
      + intros i x q Hx Hq; cbn; split; [tauto|]; intros W X HW (r & Hr & Hc).
        destruct (Hm i x q Hx Hq) as [_ M2].
        apply (M2 W X r); auto using in_comp_list.
      + split; [discriminate|]; split; discriminate.
    - split; [split; [apply nsort_sorted|]|].
      + intros i x q Hx Hq; cbn [csat]; rewrite in_nsort; destruct (Hm i x q Hx Hq) as [M1 M2].
        split; [assumption|]; intros W X HW (r & Hr & Hc).
        apply in_nsort, (M2 W X r); auto using in_comp_list.
      + split; [discriminate|]; split; [discriminate|]; intros l' i E Hi.
        assert (l' = nsort (j :: m)) as -> by congruence; apply Hl, in_nsort, Hi.
  Qed.

  Lemma slots_eq d ks vs x q p1 p2 k1 k2 v1 v2 :
    inv_ d ks vs -> wr d x = Some q ->
    slot p1 x = Some k1 -> slot p2 x = Some k2 -> comp p1 q = Some v1 -> comp p2 q = Some v2 ->
    (k1 = k2 -> v1 = v2) /\ (forall W, id_exact W d -> W v2 -> v1 = v2 -> k1 = k2).
  Proof.
    intros I Hq H1 H2 C1 C2.
    destruct (iqwr_slot _ _ _ _ _ Hq H1) as (w1 & D1 & V1).
    destruct (iqwr_slot _ _ _ _ _ Hq H2) as (w2 & D2 & V2).
    rewrite C1 in D1; rewrite C2 in D2; inv D1; inv D2; split; [congruence|].
    intros W X HW ->; eapply (id_value_inj L W); eauto.
  Qed.

  Lemma same_spec d ks vs p1 p2 (f1 f2 : forall T, quad T -> T) :
    inv_ d ks vs ->
    (forall x : quad nat, slot p1 x = Some (f1 _ x)) -> (forall x : quad nat, slot p2 x = Some (f2 _ x)) ->
    (forall q : quad R, comp p1 q = Some (f1 _ q)) -> (forall q : quad R, comp p2 q = Some (f2 _ q)) ->
    cspec d (CSame (fun x => f1 _ x =? f2 _ x)) (fun q => [f2 _ q]) (fun q => f2 _ q = f1 _ q).
  Proof.
    intros I S1 S2 C1 C2; split; [exact Logic.I|]; intros i x q Hx Hq; cbn; rewrite Nat.eqb_eq.
    destruct (slots_eq _ _ _ _ _ p1 p2 _ _ _ _ I Hq (S1 x) (S2 x) (C1 q) (C2 q)) as [A B].
    split; [intros E; symmetry; auto|].
    intros W X HW E; apply Nat.eqb_eq, (B W X); [apply HW; now left|now symmetry].
  Qed.

  Lemma graph_same_spec d ks vs p1 (f1 : forall T, quad T -> T) :
    inv_ d ks vs ->
    (forall x : quad nat, slot p1 x = Some (f1 _ x)) -> (forall q : quad R, comp p1 q = Some (f1 _ q)) ->
    cspec d (CSame (fun x => is_graph (f1 _ x) (q_g x))) (comp_list PosG) (fun q => q_g q = Some (f1 _ q)).
  Proof.
    intros I S1 C1; split; [exact Logic.I|]; intros i x q Hx Hq; cbn; unfold is_graph.
    destruct (q_g x) as [g|] eqn:Eg.
    - rewrite Nat.eqb_eq.
      destruct (iqwr_slot _ _ _ PosG _ Hq Eg) as (v & Hc & Hv); cbn in Hc.
      destruct (slots_eq _ _ _ _ _ p1 PosG _ _ _ _ I Hq (S1 x) Eg (C1 q) Hc) as [A B].
      split; [intros E; rewrite Hc; f_equal; symmetry; auto|].
      intros W X HW E; apply Nat.eqb_eq, (B W X); [apply HW; now apply in_comp_list|congruence].
    - split; [discriminate|]; intros _ _ _ E.
      apply iqwr_some in Hq as (_ & _ & _ & Hg); rewrite Eg, E in Hg; contradiction.
  Qed.

  Lemma default_spec d ks vs :
    inv_ d ks vs -> cspec d (CFixed (id_dg d)) (comp_list PosG) (fun q => q_g q = None) /\
    fixed d (CFixed (id_dg d)).
  Proof.
    intros I; destruct (ii_dg _ _ _ I) as [S H]; split; [split; [now apply nsorted_lesorted|]|].
    - intros i x q Hx Hq; cbn.
      apply iqwr_some in Hq as (_ & _ & _ & Hg); split; [|intros W]; rewrite H.
      + intros (x' & Hx' & E); rewrite Hx in Hx'; inv Hx'; rewrite E in Hg.
        destruct (q_g q); [contradiction|reflexivity].
      + intros _ _ E; exists x; split; [assumption|]; rewrite E in Hg; destruct (q_g x); [contradiction|reflexivity].
    - split; [discriminate|]; split; [discriminate|]; intros l i E; inv E; rewrite H.
      intros (x & Hx & _); congruence.
  Qed.

  (** An iterator over the quads that satisfy [P]. *)
  Definition mspec (d : @idataset R) (m : pm) (anys : bool) (N : quad R -> list R)
      (P : quad R -> Prop) : Prop :=
    mwf (id_quads d) m /\ pm_i m = 0 /\ (pm_s m = CAny <-> anys = true) /\
    forall i x q, sget (id_quads d) i = Some x -> wr d x = Some q ->
      (msat m i x -> P q) /\
      (forall W, id_exact W d -> (forall r, In r (N q) -> W r) -> P q -> msat m i x).

  Lemma mspec_build d s p o g anys Ns Np No Ng Ps Pp Po Pg N (P : quad R -> Prop) :
    cspec d s Ns Ps -> cspec d p Np Pp -> cspec d o No Po -> cspec d g Ng Pg ->
    (if anys : bool then s = CAny else fixed d s) ->
    (forall q, P q <-> Ps q /\ Pp q /\ Po q /\ Pg q) ->
    (forall q, N q = Ns q ++ Np q ++ No q ++ Ng q) ->
    mspec d (PM s p o g 0) anys N P.
  Proof.
    intros [S1 S2] [P1 P2] [O1 O2] [G1 G2] Ha HP HN; split; [|split; [reflexivity|split]].
    - split; cbn; auto; destruct anys; subst; try discriminate; try apply Ha.
      intros l i E Hi _; eapply Ha; eauto.
    - cbn; destruct anys; [tauto|]; destruct Ha as [Ha _]; intuition discriminate.
    - intros i x q Hx Hq; rewrite HP; unfold msat; cbn.
      destruct (S2 i x q Hx Hq) as [S3 S4]; destruct (P2 i x q Hx Hq) as [P3 P4].
      destruct (O2 i x q Hx Hq) as [O3 O4]; destruct (G2 i x q Hx Hq) as [G3 G4].
      split; [tauto|]; intros W X HW Hp; apply HP in Hp as (A & B & C & D).
      assert (HW' : forall r, In r (Ns q ++ Np q ++ No q ++ Ng q) -> W r)
        by (intros r; rewrite <- HN; apply HW).
      split; [apply (S4 W X); auto|split; [apply (P4 W X); auto|split; [apply (O4 W X); auto|apply (G4 W X); auto]]];
        intros r Hr; apply HW', in_or_app; auto; right; apply in_or_app; auto; right;
        apply in_or_app; auto.
  Qed.

  Definition any_subject {T} (c : cqp T) : bool :=
    match cq_subject c with PS_Any => true | PS_Given _ => false end.

  Lemma cspec_ext d c N M (P Q : quad R -> Prop) :
    (forall q, P q <-> Q q) -> (forall q, N q = M q) -> cspec d c N P -> cspec d c M Q.
  Proof.
    intros H HN [A B]; split; [assumption|]; intros i x q Hx Hq; destruct (B i x q Hx Hq) as [B1 B2].
    split; [intros Hc; apply H; auto|].
    intros W X HW HQ; apply (B2 W X); [|now apply H]; intros r; rewrite HN; apply HW.
  Qed.

  (** The components that each part of a pattern constrains. *)
  Definition s_checked {T} (c : pat_s T) (q : quad R) : list R :=
    match c with PS_Any => [] | _ => comp_list PosS q end.
  Definition p_checked {T} (c : pat_p T) (q : quad R) : list R :=
    match c with PP_Any => [] | _ => comp_list PosP q end.
  Definition o_checked {T} (c : pat_o T) (q : quad R) : list R :=
    match c with PO_Any => [] | _ => comp_list PosO q end.
  Definition g_checked {T} (c : pat_g T) (q : quad R) : list R :=
    match c with PG_Any => [] | _ => comp_list PosG q end.

  Lemma checked_parts {T} (c : cqp T) q :
    cq_checked c q = s_checked (cq_subject c) q ++ p_checked (cq_predicate c) q ++
                     o_checked (cq_object c) q ++ g_checked (cq_graph c) q.
  Proof. destruct q as [s p o g]; des_pat; reflexivity. Qed.

  Lemma pm_new_spec d ks vs c :
    inv_ d ks vs ->
    exists m, pm_new cmp d c = Some m /\ mspec d m (any_subject c) (cq_checked c) (cq_matches c).
  Proof.
    intros I; unfold pm_new, any_subject.
    assert (exists s, s_constraint cmp (id_resources d) (id_ri d) (cq_subject c) = Some s /\
              cspec d s (s_checked (cq_subject c)) (fun q => s_ok (cq_subject c) (q_s q)) /\
              if match cq_subject c with PS_Any => true | PS_Given _ => false end
              then s = CAny else fixed d s) as (s & -> & Hs & Ha).
    { destruct (cq_subject c) as [|r]; cbn.
      - eexists; split; [reflexivity|]; split; [apply cspec_any; auto|reflexivity].
      - destruct (given_spec _ _ _ PosS r I) as (s & E & Hs & Hf); unfold given_constraint in E.
        exists s; split; [exact E|]; split; [|assumption]; eapply cspec_ext; [|reflexivity|exact Hs].
        intros q; cbn; split; congruence. }
    assert (exists p, p_constraint cmp d (cq_predicate c) = Some p /\
              cspec d p (p_checked (cq_predicate c)) (fun q => p_ok (cq_predicate c) (q_s q) (q_p q))) as (p & -> & Hp).
    { destruct (cq_predicate c) as [| |r]; cbn.
      - eexists; split; [reflexivity|]; apply cspec_any; auto.
      - eexists; split; [reflexivity|].
        apply (same_spec _ _ _ PosS PosP (fun T => q_s) (fun T => q_p) I); reflexivity.
      - destruct (given_spec _ _ _ PosP r I) as (p & E & Hp & Hf).
        exists p; split; [exact E|]; eapply cspec_ext; [|reflexivity|exact Hp].
        intros q; cbn; split; congruence. }
    assert (exists o, o_constraint cmp d (cq_object c) = Some o /\
              cspec d o (o_checked (cq_object c)) (fun q => o_ok (cq_object c) (q_s q) (q_p q) (q_o q))) as (o & -> & Ho).
    { destruct (cq_object c) as [| | |r]; cbn.
      - eexists; split; [reflexivity|]; apply cspec_any; auto.
      - eexists; split; [reflexivity|].
        apply (same_spec _ _ _ PosS PosO (fun T => q_s) (fun T => q_o) I); reflexivity.
      - eexists; split; [reflexivity|].
        apply (same_spec _ _ _ PosP PosO (fun T => q_p) (fun T => q_o) I); reflexivity.
      - destruct (given_spec _ _ _ PosO r I) as (o & E & Ho & Hf).
        exists o; split; [exact E|]; eapply cspec_ext; [|reflexivity|exact Ho].
        intros q; cbn; split; congruence. }
    assert (exists g, g_constraint cmp d (cq_graph c) = Some g /\
              cspec d g (g_checked (cq_graph c)) (fun q => g_ok (cq_graph c) (q_s q) (q_p q) (q_o q) (q_g q))) as (g & -> & Hg).
    { destruct (cq_graph c) as [| | | |[r|]]; cbn.
      - eexists; split; [reflexivity|]; apply cspec_any; auto.
      - eexists; split; [reflexivity|].
        apply (graph_same_spec _ _ _ PosS (fun T => q_s) I); reflexivity.
      - eexists; split; [reflexivity|].
        apply (graph_same_spec _ _ _ PosP (fun T => q_p) I); reflexivity.
      - eexists; split; [reflexivity|].
        apply (graph_same_spec _ _ _ PosO (fun T => q_o) I); reflexivity.
      - destruct (given_spec _ _ _ PosG r I) as (g & E & Hg & Hf).
        exists g; split; [exact E|]; eapply cspec_ext; [|reflexivity|exact Hg].
        intros q; cbn; split; congruence.
      - eexists; split; [reflexivity|]; apply (default_spec _ _ _ I). }
    cbn; eexists; split; [reflexivity|]; eapply mspec_build; eauto.
    - intros q; apply quad_accessors_match.
    - intros q; apply checked_parts.
  Qed.

  (** Several resources at once. *)
  Definition ms_ok (c : pat_s (list R)) (s : R) : Prop :=
    match c with PS_Any => True | PS_Given l => In s l end.
  Definition mp_ok (c : pat_p (list R)) (s p : R) : Prop :=
    match c with PP_Any => True | PP_SameS => p = s | PP_Given l => In p l end.
  Definition mo_ok (c : pat_o (list R)) (s p o : R) : Prop :=
    match c with PO_Any => True | PO_SameS => o = s | PO_SameP => o = p | PO_Given l => In o l end.
  Definition mg_ok (c : pat_g (list R)) (s p o : R) (g : option R) : Prop :=
    match c with
    | PG_Any => True | PG_SameS => g = Some s | PG_SameP => g = Some p | PG_SameO => g = Some o
    | PG_Given None => g = None
    | PG_Given (Some l) => match g with Some r => In r l | None => False end
    end.

  Definition opt_choose (x : option (list R)) (g : option R) : option R :=
    match x with Some _ => g | None => None end.
  Definition aaa_choose (c : q_aaa (list R)) (g : option R) : q_aaa R :=
    match c with QAAA_Any => QAAA_Any | QAAA_SameS => QAAA_SameS | QAAA_SameP => QAAA_SameP | QAAA_SameO => QAAA_SameO 
    | QAAA_Given x => QAAA_Given (opt_choose x g) end.
  Definition gaa_choose (c : q_gaa (list R)) (g : option R) : q_gaa R :=
    match c with QGAA_Any => QGAA_Any | QGAA_SameP => QGAA_SameP | QGAA_SameO => QGAA_SameO 
    | QGAA_Given x => QGAA_Given (opt_choose x g) end.
  Definition aga_choose (c : q_aga (list R)) (g : option R) : q_aga R :=
    match c with QAGA_Any => QAGA_Any | QAGA_SameS => QAGA_SameS | QAGA_SameO => QAGA_SameO 
    | QAGA_Given x => QAGA_Given (opt_choose x g) end.
  Definition aag_choose (c : q_aag (list R)) (g : option R) : q_aag R :=
    match c with QAAG_Any => QAAG_Any | QAAG_SameS => QAAG_SameS | QAAG_SameP => QAAG_SameP 
    | QAAG_Given x => QAAG_Given (opt_choose x g) end.
  Definition agg_choose (c : q_agg (list R)) (g : option R) : q_agg R :=
    match c with QAGG_Any => QAGG_Any | QAGG_SameS => QAGG_SameS 
    | QAGG_Given x => QAGG_Given (opt_choose x g) end.
  Definition gag_choose (c : q_gag (list R)) (g : option R) : q_gag R :=
    match c with QGAG_Any => QGAG_Any | QGAG_SameP => QGAG_SameP 
    | QGAG_Given x => QGAG_Given (opt_choose x g) end.
  Definition gga_choose (c : q_gga (list R)) (g : option R) : q_gga R :=
    match c with QGGA_Any => QGGA_Any | QGGA_SameO => QGGA_SameO 
    | QGGA_Given x => QGGA_Given (opt_choose x g) end.
  Definition ggg_choose (c : q_ggg (list R)) (g : option R) : q_ggg R :=
    match c with QGGG_Any => QGGG_Any 
    | QGGG_Given x => QGGG_Given (opt_choose x g) end.
  Definition aa_choose (c : q_aa (list R)) (o : R) (g : option R) : q_aa R :=
    match c with QAA_Any c => QAA_Any (aaa_choose c g) | QAA_SameS c => QAA_SameS (aag_choose c g) | QAA_SameP c => QAA_SameP (aag_choose c g) 
    | QAA_Given _ c => QAA_Given o (aag_choose c g) end.
  Definition ag_choose (c : q_ag (list R)) (o : R) (g : option R) : q_ag R :=
    match c with QAG_Any c => QAG_Any (aga_choose c g) | QAG_SameS c => QAG_SameS (agg_choose c g) 
    | QAG_Given _ c => QAG_Given o (agg_choose c g) end.
  Definition ga_choose (c : q_ga (list R)) (o : R) (g : option R) : q_ga R :=
    match c with QGA_Any c => QGA_Any (gaa_choose c g) | QGA_SameP c => QGA_SameP (gag_choose c g) 
    | QGA_Given _ c => QGA_Given o (gag_choose c g) end.
  Definition gg_choose (c : q_gg (list R)) (o : R) (g : option R) : q_gg R :=
    match c with QGG_Any c => QGG_Any (gga_choose c g) 
    | QGG_Given _ c => QGG_Given o (ggg_choose c g) end.
  Definition as_choose (c : q_as (list R)) (p o : R) (g : option R) : q_as R :=
    match c with
    | QA_AnyP c => QA_AnyP (aa_choose c o g) | QA_SameS c => QA_SameS (ag_choose c o g)
    | QA_GivenP _ c => QA_GivenP p (ag_choose c o g)
    end.
  Definition gs_choose (c : q_gs (list R)) (p o : R) (g : option R) : q_gs R :=
    match c with
    | QG_AnyP c => QG_AnyP (ga_choose c o g) | QG_GivenP _ c => QG_GivenP p (gg_choose c o g)
    end.
  Definition cq_choose (c : cqp (list R)) (q : quad R) : cqp R :=
    match c with
    | CQ_AnyS c => CQ_AnyS (as_choose c (q_p q) (q_o q) (q_g q))
    | CQ_GivenS _ c => CQ_GivenS (q_s q) (gs_choose c (q_p q) (q_o q) (q_g q))
    end.

  Lemma choice_matches (c : cqp (list R)) q :
    (exists d, choice c d /\ cq_matches d q) <->
    ms_ok (cq_subject c) (q_s q) /\ mp_ok (cq_predicate c) (q_s q) (q_p q) /\
    mo_ok (cq_object c) (q_s q) (q_p q) (q_o q) /\
    mg_ok (cq_graph c) (q_s q) (q_p q) (q_o q) (q_g q).
  Proof.
    split.
    - intros (e & Hc & Hm); unfold choice in Hc; destruct q as [s p o g].
      destruct c, e; cbn in Hc, Hm; try contradiction;
        repeat (match goal with
        | H : _ /\ _ |- _ => destruct H
        | H : opt_rel _ ?a ?b |- _ => destruct a, b; cbn in *; try contradiction
        | H : qas_rel _ ?a ?b |- _ => destruct a, b; cbn in *; try contradiction
        | H : qgs_rel _ ?a ?b |- _ => destruct a, b; cbn in *; try contradiction
        | H : qaa_rel _ ?a ?b |- _ => destruct a, b; cbn in *; try contradiction
        | H : qag_rel _ ?a ?b |- _ => destruct a, b; cbn in *; try contradiction
        | H : qga_rel _ ?a ?b |- _ => destruct a, b; cbn in *; try contradiction
        | H : qgg_rel _ ?a ?b |- _ => destruct a, b; cbn in *; try contradiction
        | H : qaaa_rel _ ?a ?b |- _ => destruct a, b; cbn in *; try contradiction
        | H : qgaa_rel _ ?a ?b |- _ => destruct a, b; cbn in *; try contradiction
        | H : qaga_rel _ ?a ?b |- _ => destruct a, b; cbn in *; try contradiction
        | H : qaag_rel _ ?a ?b |- _ => destruct a, b; cbn in *; try contradiction
        | H : qagg_rel _ ?a ?b |- _ => destruct a, b; cbn in *; try contradiction
        | H : qgag_rel _ ?a ?b |- _ => destruct a, b; cbn in *; try contradiction
        | H : qgga_rel _ ?a ?b |- _ => destruct a, b; cbn in *; try contradiction
        | H : qggg_rel _ ?a ?b |- _ => destruct a, b; cbn in *; try contradiction
        end); subst; cbn; auto 10.
    - intros H; exists (cq_choose c q); unfold choice; destruct q as [s p o g].
      des_pat; cbn in *;
        repeat match goal with
        | x : option (list R) |- _ => destruct x
        | x : option R |- _ => destruct x
        end; cbn in *; intuition (subst; auto; try discriminate).
  Qed.

  Lemma pm_new_multi_spec d ks vs (c : cqp (list R)) :
    inv_ d ks vs ->
    exists m, pm_new_multi cmp d c = Some m /\
      mspec d m (any_subject c) (cq_checked c) (fun q => exists e, choice c e /\ cq_matches e q).
  Proof.
    intros I; unfold pm_new_multi, any_subject; rewrite into_parts_accessors.
    cbv beta iota zeta.
    cbn [bind].
    match goal with |- context [bind ?t _] =>
      assert (exists s, t = Some s /\
              cspec d s (s_checked (cq_subject c)) (fun q => ms_ok (cq_subject c) (q_s q)) /\
              if match cq_subject c with PS_Any => true | PS_Given _ => false end
              then s = CAny else fixed d s) as (s & -> & Hs & Ha)
    end.
    { destruct (cq_subject c) as [|r]; cbn.
      - eexists; split; [reflexivity|]; split; [apply cspec_any; auto|reflexivity].
      - destruct (multi_spec _ _ _ PosS r I) as (s & E & Hs & Hf).
        exists s; split; [exact E|]; split; [|assumption]; eapply cspec_ext; [|reflexivity|exact Hs].
        intros q; cbn; split; [intros (x & Hx & E'); inv E'; auto|eauto]. }
    cbn [bind].
    match goal with |- context [bind ?t _] =>
      assert (exists p, t = Some p /\
              cspec d p (p_checked (cq_predicate c)) (fun q => mp_ok (cq_predicate c) (q_s q) (q_p q))) as (p & -> & Hp)
    end.
    { destruct (cq_predicate c) as [| |r]; cbn.
      - eexists; split; [reflexivity|]; apply cspec_any; auto.
      - eexists; split; [reflexivity|].
        apply (same_spec _ _ _ PosS PosP (fun T => q_s) (fun T => q_p) I); reflexivity.
      - destruct (multi_spec _ _ _ PosP r I) as (p & E & Hp & Hf).
        exists p; split; [exact E|]; eapply cspec_ext; [|reflexivity|exact Hp].
        intros q; cbn; split; [intros (x & Hx & E'); inv E'; auto|eauto]. }
    cbn [bind].
    match goal with |- context [bind ?t _] =>
      assert (exists o, t = Some o /\
              cspec d o (o_checked (cq_object c)) (fun q => mo_ok (cq_object c) (q_s q) (q_p q) (q_o q))) as (o & -> & Ho)
    end.
    { destruct (cq_object c) as [| | |r]; cbn.
      - eexists; split; [reflexivity|]; apply cspec_any; auto.
      - eexists; split; [reflexivity|].
        apply (same_spec _ _ _ PosS PosO (fun T => q_s) (fun T => q_o) I); reflexivity.
      - eexists; split; [reflexivity|].
        apply (same_spec _ _ _ PosP PosO (fun T => q_p) (fun T => q_o) I); reflexivity.
      - destruct (multi_spec _ _ _ PosO r I) as (o & E & Ho & Hf).
        exists o; split; [exact E|]; eapply cspec_ext; [|reflexivity|exact Ho].
        intros q; cbn; split; [intros (x & Hx & E'); inv E'; auto|eauto]. }
    cbn [bind].
    match goal with |- context [bind ?t _] =>
      assert (exists g, t = Some g /\
              cspec d g (g_checked (cq_graph c)) (fun q => mg_ok (cq_graph c) (q_s q) (q_p q) (q_o q) (q_g q))) as (g & -> & Hg)
    end.
    { destruct (cq_graph c) as [| | | |[r|]]; cbn.
      - eexists; split; [reflexivity|]; apply cspec_any; auto.
      - eexists; split; [reflexivity|].
        apply (graph_same_spec _ _ _ PosS (fun T => q_s) I); reflexivity.
      - eexists; split; [reflexivity|].
        apply (graph_same_spec _ _ _ PosP (fun T => q_p) I); reflexivity.
      - eexists; split; [reflexivity|].
        apply (graph_same_spec _ _ _ PosO (fun T => q_o) I); reflexivity.
      - destruct (multi_spec _ _ _ PosG r I) as (g & E & Hg & Hf).
        exists g; split; [exact E|]; eapply cspec_ext; [|reflexivity|exact Hg].
        intros q; cbn; split; [intros (x & Hx & E'); rewrite E'; auto|].
        destruct (q_g q); [eauto|intros []].
      - eexists; split; [reflexivity|]; apply (default_spec _ _ _ I). }
    cbn; eexists; split; [reflexivity|]; eapply mspec_build; eauto.
    - intros q; apply choice_matches.
    - intros q; apply checked_parts.
  Qed.

  (** ** Results *)
  Definition found (d : @idataset R) (s : list (quad R)) (anys : bool) (N : quad R -> list R)
      (P : quad R -> Prop) (l : list (quad R)) : Prop :=
    NoDup l /\ (forall q, In q l -> In q s /\ P q) /\
    (anys = false \/ free (id_quads d) = [] -> forall W q, id_exact W d ->
     In q s -> P q -> (forall r, In r (N q) -> W r) -> In q l).

  Lemma sorted_nodup_fst {A} (l : list (nat * A)) :
    StronglySorted Peano.lt (map fst l) -> NoDup l.
  Proof.
    induction l as [|[i x] l IH]; intros H; [constructor|]; cbn in H.
    apply StronglySorted_inv in H as [H F]; rewrite Forall_forall in F; constructor; [|auto].
    intros Hin; apply (in_map fst) in Hin; specialize (F _ Hin); cbn in F; lia.
  Qed.

  Lemma mapM_nodup_inj {A B} (f : A -> option B) l ks :
    (forall x y z, In x l -> In y l -> f x = Some z -> f y = Some z -> x = y) ->
    NoDup l -> mapM f l = Some ks -> NoDup ks.
  Proof.
    revert ks; induction l as [|x l IH]; intros ks Hf Hn H.
    - inv H; constructor.
    - inv Hn; apply mapM_cons in H as (y & ys & Hy & Hys & ->); constructor.
      + intros Hin; apply (mapM_in _ _ _ _ Hys) in Hin as (x' & Hx' & Hy').
        assert (x = x') as -> by (eapply Hf; eauto; [now left|now right]); contradiction.
      + apply IH; auto; intros; eapply Hf; eauto; now right.
  Qed.

  Lemma trace_found d s spare m anys N P :
    id_rep (cmp:=cmp) d s -> mspec d m anys N P ->
    exists r l, trace (capacity d spare) (id_quads d) m r /\ length r <= capacity d spare /\
      mapM (fun e => wr d (snd e)) r = Some l /\ found d s anys N P l.
  Proof.
    intros [Hn (vs & I)] (M & Z & A & HP).
    destruct (trace_exists (capacity d spare) (id_quads d) (ii_wf _ _ _ I)) with (n := capacity d spare) (m := m)
      as (r & T & Hl & S & C); [unfold capacity; lia|assumption|lia|].
    destruct (trace_live _ _ _ _ T) as [Ts Tl].
    assert (V : forall i x, In (i, x) r -> exists q, wr d x = Some q /\ In q s).
    { intros i x Hi; apply Tl in Hi as [_ Hi].
      destruct (id_live_value _ _ _ _ _ I Hi) as (q & Hq & Hin); exists q; split; [assumption|].
      now apply (in_sorted_elements (cmp:=qcmp)). }
    destruct (mapM_total (fun e => wr d (snd e)) r) as (l & El).
    { intros [i x] Hi; destruct (V i x Hi) as (q & Hq & _); cbn; congruence. }
    exists r, l; split; [assumption|]; split; [assumption|]; split; [assumption|]; split; [|split].
    - eapply mapM_nodup_inj; [|eapply sorted_nodup_fst; exact Ts|exact El].
      intros [i x] [j y] q Hi Hj; cbn; intros Hx Hy.
      apply Tl in Hi as [_ Hi]; apply Tl in Hj as [_ Hj].
      assert (i = j) as <-.
      { eapply (id_index_inj L _ _ _ i j q I); unfold i_quad_at; rewrite ?Hi, ?Hj; assumption. }
      congruence.
    - intros q Hq; apply (mapM_in _ _ _ _ El) in Hq as ([i x] & Hi & Hq); cbn in Hq.
      destruct (V _ _ Hi) as (q' & Hq' & Hin); rewrite Hq in Hq'; inv Hq'; split; [assumption|].
      pose proof (Tl _ _ Hi) as [_ Hx]; apply (HP _ _ _ Hx Hq), S, Hi.
    - intros Ha W q X Hq Pq HW; apply (mapM_in _ _ _ _ El).
      apply (in_sorted_elements (cmp:=qcmp)) in Hq.
      destruct (id_elem_index _ _ _ _ I Hq) as (i & x & Hx & Hw).
      exists (i, x); split; [|exact Hw]; apply C; auto; [|lia|apply (HP _ _ _ Hx Hw) with W; assumption].
      intros Hc; apply A in Hc; destruct Ha; [congruence|assumption].
  Qed.

  Lemma id_pattern_found d s spare c :
    id_rep (cmp:=cmp) d s ->
    exists l, id_pattern_matching cmp d spare c = Some l /\
      found d s (any_subject c) (cq_checked c) (cq_matches c) l.
  Proof.
    intros H; unfold id_pattern_matching; pose proof H as [_ (vs & I)].
    destruct (pm_new_spec _ _ _ c I) as (m & -> & M); cbn [bind].
    destruct (trace_found _ _ spare _ _ _ _ H M) as (r & l & T & Hr & El & F).
    exists l; split; [|assumption].
    rewrite (pm_collect_trace _ _ _ _ T) by lia; exact El.
  Qed.

  Lemma id_multi_found d s spare c :
    id_rep (cmp:=cmp) d s ->
    exists l, id_multi_pattern_matching cmp d spare c = Some l /\
      found d s (any_subject c) (cq_checked c) (fun q => exists e, choice c e /\ cq_matches e q) l.
  Proof.
    intros H; unfold id_multi_pattern_matching; pose proof H as [_ (vs & I)].
    destruct (pm_new_multi_spec _ _ _ c I) as (m & -> & M); cbn [bind].
    destruct (trace_found _ _ spare _ _ _ _ H M) as (r & l & T & Hr & El & F).
    exists l; split; [|assumption].
    rewrite (pm_collect_trace _ _ _ _ T) by lia; exact El.
  Qed.

  (** An extraction yields the first items of the query, and removes them. *)
  Lemma id_extract_found d s0 K k l spare c n :
    istate (cmp:=cmp) d s0 K k l ->
    exists qs d', id_pattern_matching cmp d spare c = Some qs /\
      found d (apply qcmp l s0) (any_subject c) (cq_checked c) (cq_matches c) qs /\
      id_extract cmp d spare c n = Some (firstn n qs, d') /\
      istate (cmp:=cmp) d' s0 K k (l ++ removals (firstn n qs)).
  Proof.
    intros H; pose proof (is_rep _ _ _ _ _ H) as Hr; pose proof Hr as [_ (vs & I)].
    destruct (pm_new_spec _ _ _ c I) as (m & Em & M).
    destruct (trace_found _ _ spare _ _ _ _ Hr M) as (r & qs & T & Hl & El & F).
    destruct (pm_extract_trace _ _ _ n _ _ _ _ _ T H) as (qs' & d' & El' & Ee & H').
    rewrite El in El'; inv El'.
    exists qs', d'; unfold id_pattern_matching, id_extract; rewrite Em; cbn [bind].
    split; [|split; [assumption|split; assumption]].
    rewrite (pm_collect_trace _ _ _ _ T) by lia; exact El.
  Qed.
End Proofs.
