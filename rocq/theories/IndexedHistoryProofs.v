(** What the state of [IndexedBTreeDataset] says about the changes made so far:
    preservation by every operation but extraction (see IndexedPatternProofs.v). *)
From Coq Require Import List Bool Arith Lia Permutation Sorted.
Import ListNotations.
From Verif Require Import Base SlabModel TripleModel TriplePatternModel QuadPatternModel SetSpec
  ContainerSpec IndexedSpec Machine BaseProofs BResourceModel BResourceProofs BTreeDatasetModel
  BTreeDatasetProofs BTreeGraphModel BTreeGraphProofs IResourceModel IResourceProofs
  IndexedDatasetModel IndexedDatasetProofs.
Open Scope panic_scope.

(** ** Logs *)
Section Logs.
  Context {X : Type} {cmp : X -> X -> comparison} (L : ord_laws cmp).
  Context {R : Type} {rcmp : R -> R -> comparison} (LR : ord_laws rcmp) (comps : X -> list R).

  Lemma apply_app l m s : apply cmp (l ++ m) s = apply cmp m (apply cmp l s).
  Proof. apply fold_left_app. Qed.

  Lemma apply_cons c l s : apply cmp (c :: l) s = apply cmp l (apply_change cmp s c).
  Proof. reflexivity. Qed.

  Lemma known_log_app W l m s :
    known_log cmp comps W s (l ++ m) <->
    known_log cmp comps W s l /\ known_log cmp comps W (apply cmp l s) m.
  Proof.
    revert s; induction l as [|[b x] l IH]; intros s; [cbn; tauto|].
    cbn -[apply apply_change]; rewrite IH, apply_cons; tauto.
  Qed.

  Lemma lonely_app f l m s :
    lonely cmp f s (l ++ m) <->
    lonely cmp (R:=R) f s l /\ lonely cmp f (apply cmp l s) m.
  Proof.
    revert s; induction l as [|[b x] l IH]; intros s; [cbn; tauto|].
    cbn -[apply apply_change]; rewrite IH, apply_cons; tauto.
  Qed.

  Lemma lonely_at_app f r l m s :
    lonely_at cmp f r s (l ++ m) <->
    lonely_at cmp (R:=R) f r s l /\ lonely_at cmp f r (apply cmp l s) m.
  Proof.
    revert s; induction l as [|[b x] l IH]; intros s; [cbn; tauto|].
    cbn -[apply apply_change]; rewrite IH, apply_cons; tauto.
  Qed.

  Lemma vacancies_app n (l m : list (change X)) :
    vacancies n (l ++ m) = vacancies (vacancies n l) m.
  Proof. revert n; induction l as [|[[] x] l IH]; intros n; cbn; auto. Qed.

  Lemma last_change_snoc f r l c :
    last_change rcmp f r (l ++ [c]) =
    if same rcmp (f (snd c)) r then Some (fst c) else last_change (X:=X) rcmp f r l.
  Proof. unfold last_change; rewrite fold_left_app; reflexivity. Qed.

  Definition removals (l : list X) : list (change X) := map (fun x => (false, x)) l.

  Lemma in_apply_removals l s x :
    In x (apply cmp (removals l) s) <-> In x s /\ ~ In x l.
  Proof.
    revert s; induction l as [|y l IH]; intros s; cbn; [tauto|].
    change (In x (apply cmp (removals l) (del cmp y s)) <-> In x s /\ ~ (y = x \/ In x l)).
    rewrite IH, (in_del L); intuition congruence.
  Qed.

  Lemma apply_removals_filter l s :
    apply cmp (removals l) s = filter (fun x => negb (mem cmp x l)) s.
  Proof.
    revert s; induction l as [|y l IH]; intros s; cbn.
    - induction s as [|z s IHs]; cbn; [reflexivity|]; f_equal; exact IHs.
    - change (apply cmp (removals l) (del cmp y s) =
              filter (fun x => negb (mem cmp x (y :: l))) s).
      rewrite IH; clear IH; induction s as [|z s IHs]; [reflexivity|].
      assert (same cmp z y = same cmp y z) as E.
      { destruct (same cmp y z) eqn:E.
        - apply (same_true L) in E; subst; now apply (same_true L).
        - apply (same_false L) in E; apply (same_false L); congruence. }
      cbn; rewrite E; destruct (same cmp y z); cbn; [exact IHs|].
      unfold mem at 1; destruct (existsb (same cmp z) l); cbn; [|f_equal]; exact IHs.
  Qed.

  Lemma apply_removals_perm l m s :
    Permutation l m -> apply cmp (removals l) s = apply cmp (removals m) s.
  Proof.
    intros H; rewrite !apply_removals_filter; apply filter_ext; intros x; f_equal.
    destruct (mem cmp x m) eqn:E.
    - apply (mem_true L) in E; apply (mem_true L); eapply Permutation_in; [symmetry|]; eauto.
    - apply (mem_false L) in E; apply (mem_false L); intros Hx; apply E.
      eapply Permutation_in; eauto.
  Qed.

  Lemma known_removals W l s : known_log cmp comps W s (removals l).
  Proof. revert s; induction l as [|x l IH]; intros s; cbn; auto. Qed.

  Lemma vacancies_removals n (l : list X) : vacancies n (removals l) = n + length l.
  Proof. revert n; induction l as [|x l IH]; intros n; cbn; [lia|rewrite IH; lia]. Qed.

  Lemma last_change_removals f r l m :
    (In r (map f l) -> last_change rcmp f r (m ++ removals l) = Some false) /\
    (~ In r (map f l) -> last_change rcmp f r (m ++ removals l) = last_change rcmp f r m).
  Proof.
    induction l as [|x l IH] using rev_ind; unfold removals in *; cbn.
    - rewrite app_nil_r; split; [tauto|auto].
    - rewrite !map_app, app_assoc; cbn; rewrite last_change_snoc; cbn.
      destruct (same rcmp (f x) r) eqn:E.
      + apply (same_true LR) in E; split; [reflexivity|]; intros H; exfalso; apply H.
        apply in_or_app; right; now left.
      + apply (same_false LR) in E; destruct IH as [I1 I2]; split; intros H.
        * apply in_app_or in H as [H|[H|[]]]; [auto|congruence].
        * apply I2; intros H'; apply H, in_or_app; auto.
  Qed.

  (** Lonely histories hide nothing. *)
  Lemma lonely_last_change f s l :
    lonely cmp f s l ->
    forall x, In x (apply cmp l s) -> last_change rcmp f (f x) l <> Some false.
  Proof.
    induction l as [|[b y] l IH] using rev_ind; intros Hl x Hx.
    - cbn; discriminate.
    - apply lonely_app in Hl as [Hl [Hy _]].
      rewrite last_change_snoc; cbn; rewrite apply_app in Hx; cbn in Hx.
      destruct (same rcmp (f y) (f x)) eqn:E.
      + apply (same_true LR) in E; destruct b; [discriminate|].
        exfalso; apply (Hy x Hx); congruence.
      + apply IH; [assumption|]; unfold apply_change in Hx; cbn in Hx; destruct b; cbn in Hx.
        * apply (in_add L) in Hx as [->|Hx]; [|assumption].
          apply (same_false LR) in E; congruence.
        * apply (in_del L) in Hx; tauto.
  Qed.

  (** The fewer resources concerned, the weaker the condition. *)
  Lemma known_log_weaken (W W' : R -> Prop) l : (forall r, W' r -> W r) -> forall s,
    known_log cmp comps W s l -> known_log cmp comps W' s l.
  Proof.
    intros HW; induction l as [|[b x] l IH]; intros s; cbn -[apply_change]; [auto|].
    intros [H1 H2]; split; [|auto]; destruct b; [|exact I].
    intros i j r Hr; apply H1; auto.
  Qed.

  Lemma repeats_known_in W s x : In x s -> repeats_known comps W s x.
  Proof. intros H i j r _ _ Hi _; exists x; split; [assumption|eapply nth_error_In; eauto]. Qed.

  (** The log of a set history. *)
  Lemma apply_extend l : forall s,
    apply cmp (extend_changes cmp s l) s = fold_left (fun s x => add cmp x s) l s.
  Proof.
    induction l as [|x l IH]; intros s; cbn; [reflexivity|].
    destruct (mem cmp x s) eqn:E.
    - assert (add cmp x s = s) as -> by (unfold add; now rewrite E); apply IH.
    - rewrite <- IH; reflexivity.
  Qed.

  Lemma apply_set_changes s o : apply cmp (set_changes cmp s o) s = snd (spec_step cmp s o).
  Proof.
    destruct o as [x|x|l|x| | | |]; cbn; try reflexivity.
    - unfold add; destruct (mem cmp x s) eqn:E; cbn; [reflexivity|].
      unfold apply_change; cbn; unfold add; now rewrite E.
    - destruct (mem cmp x s) eqn:E; cbn; [reflexivity|]; symmetry; apply (del_notin L).
      now apply (mem_false L).
    - apply apply_extend.
  Qed.

  Lemma apply_set_log ops : forall s,
    apply cmp (set_log cmp s ops) s = snd (spec_run cmp s ops).
  Proof.
    induction ops as [|o ops IH]; intros s; cbn -[apply]; [reflexivity|].
    rewrite apply_app, apply_set_changes.
    destruct (spec_step cmp s o) as [x s1] eqn:E; cbn; rewrite IH.
    destruct (spec_run cmp s1 ops); reflexivity.
  Qed.

  Lemma known_extend W l : forall s,
    known_log cmp comps W s (extend_changes cmp s l) -> extend_known cmp comps W s l.
  Proof.
    induction l as [|x l IH]; intros s; cbn; [auto|].
    destruct (mem cmp x s) eqn:E; intros H.
    - assert (Hx : add cmp x s = s) by (unfold add; now rewrite E).
      rewrite Hx; split; [|auto].
      apply repeats_known_in; now apply (mem_true L).
    - destruct H as [H1 H2]; split; [exact H1|]; apply IH; exact H2.
  Qed.

  Lemma known_set_log W ops : forall s,
    known_log cmp comps W s (set_log cmp s ops) -> known_history cmp comps W s ops.
  Proof.
    induction ops as [|o ops IH]; intros s; cbn; [auto|].
    rewrite known_log_app, apply_set_changes; intros [H1 H2]; split; [|auto].
    destruct o as [x|x|l|x| | | |]; cbn in *; auto.
    - destruct (mem cmp x s) eqn:E; cbn in *; [|tauto].
      apply repeats_known_in; now apply (mem_true L).
    - now apply known_extend.
  Qed.
End Logs.

Section Tidy.
  Context {R : Type} {cmp : R -> R -> comparison} (L : ord_laws cmp).
  Notation qcmp := (quad_cmp cmp).
  Let LQ : ord_laws qcmp := quad_cmp_laws cmp L.

  Lemma tidy_app l m s :
    tidy cmp s (l ++ m) <-> tidy cmp s l /\ tidy cmp (apply qcmp l s) m.
  Proof.
    revert s; induction l as [|[b x] l IH]; intros s.
    - cbn; tauto.
    - cbn -[apply apply_change]; rewrite IH, apply_cons; tauto.
  Qed.

  (** Removing quads of one graph: only the final set matters. *)
  Lemma tidy_one_graph g (l s : list (quad R)) :
    NoDup l -> (forall q, In q l -> In q s /\ q_g q = Some g) ->
    (tidy cmp s (removals l) <->
     l = [] \/ (exists q, In q (apply qcmp (removals l) s) /\ q_g q = Some g) \/
     ~ occurs quad_comps g (apply qcmp (removals l) s)).
  Proof.
    revert s; induction l as [|x l IH]; intros s Hn Hl; [cbn; tauto|].
    inv Hn; pose proof (Hl x (or_introl eq_refl)) as [Hx Hg].
    change (removals (x :: l)) with ((false, x) :: removals l).
    rewrite apply_cons; cbn -[apply_change apply]; rewrite Hg.
    set (s' := apply_change qcmp s (false, x)).
    assert (Hl' : forall q, In q l -> In q s' /\ q_g q = Some g).
    { intros q Hq; destruct (Hl q (or_intror Hq)); split; [|assumption].
      unfold s', apply_change; cbn; apply (in_del LQ); split; [congruence|assumption]. }
    rewrite IH by assumption; split.
    - intros [H [->|H']]; [|auto]; cbn; auto.
    - intros [?|H]; [discriminate|]; split; [|auto].
      destruct l as [|y l]; [exact H|]; left; exists y; apply Hl'; now left.
  Qed.

  Lemma tidy_default l s :
    (forall q, In q l -> q_g q = None) -> tidy cmp s (removals l).
  Proof.
    revert s; induction l as [|x l IH]; intros s Hl; cbn -[apply_change]; [exact I|].
    rewrite (Hl x) by (now left); split; [exact I|]; apply IH; intros; apply Hl; now right.
  Qed.

  Lemma tidy_perm g (l m s : list (quad R)) :
    NoDup l -> (forall q, In q l -> In q s /\ q_g q = g) -> Permutation l m ->
    tidy cmp s (removals l) -> tidy cmp s (removals m).
  Proof.
    intros Hn Hl HP; destruct g as [g|].
    - rewrite (tidy_one_graph g l s Hn Hl), (tidy_one_graph g m s).
      + rewrite (apply_removals_perm LQ _ _ s HP).
        intros [->|H]; [left; now apply Permutation_nil|auto].
      + now apply (Permutation_NoDup HP).
      + intros q Hq; apply Hl; eapply Permutation_in; [symmetry|]; eauto.
    - intros _; apply tidy_default; intros q Hq; apply Hl.
      eapply Permutation_in; [symmetry|]; eauto.
  Qed.
End Tidy.

(** ** The state *)
Section Proofs.
  Context {R : Type} {cmp : R -> R -> comparison} (L : ord_laws cmp).
  Context (keep : bool).
  Notation qcmp := (quad_cmp cmp).
  Let LQ : ord_laws qcmp := quad_cmp_laws cmp L.
  Notation inv_ := (id_inv (cmp:=cmp)).

  Definition id_rep (d : @idataset R) (s : list (quad R)) : Prop :=
    NoDup s /\ exists vs, inv_ d (sorted_elements qcmp s) vs.

  Lemma id_rep_new : id_rep id_new [].
  Proof. split; [constructor|exists []; apply id_inv_new]. Qed.

  (** Indexes and elements. *)
  Lemma id_live_value d ks vs i x :
    inv_ d ks vs -> sget (id_quads d) i = Some x ->
    exists q, i_quad_with_resources (id_resources d) x = Some q /\ In q ks.
  Proof.
    intros I Hx; assert (Hi : In i (id_qi d)) by (apply (ii_live _ _ _ I); congruence).
    destruct (ii_idx _ _ _ I) as [HM _].
    destruct (mapM_in_inv _ _ _ _ HM Hi) as (q & Hq & Hin).
    unfold i_quad_at in Hq; rewrite Hx in Hq; cbn in Hq; eauto.
  Qed.

  Lemma id_elem_index d ks vs q :
    inv_ d ks vs -> In q ks ->
    exists i x, sget (id_quads d) i = Some x /\ i_quad_with_resources (id_resources d) x = Some q.
  Proof.
    intros I Hq; destruct (ii_idx _ _ _ I) as [HM _].
    apply (mapM_in _ _ _ _ HM) in Hq as (i & Hi & Hq); unfold i_quad_at in Hq.
    destruct (sget (id_quads d) i) as [x|] eqn:E; [|discriminate]; eauto.
  Qed.

  Lemma id_index_inj d ks vs i j q :
    inv_ d ks vs -> i_quad_at (id_resources d) (id_quads d) i = Some q ->
    i_quad_at (id_resources d) (id_quads d) j = Some q -> i = j.
  Proof.
    intros I Hi Hj; eapply (indexes_inj LQ _ _ _ _ _ _ (ii_idx _ _ _ I)); eauto;
      apply (ii_live _ _ _ I); unfold i_quad_at in *.
    - destruct (sget (id_quads d) i); discriminate.
    - destruct (sget (id_quads d) j); discriminate.
  Qed.

  (** In exact states a value has one slot. *)
  Lemma id_value_inj (W : R -> Prop) d ks vs i j v :
    inv_ d ks vs -> id_exact W d -> W v -> ir_val (id_resources d) i = Some v ->
    ir_val (id_resources d) j = Some v -> i = j.
  Proof.
    intros I X Hw Hi Hj;
      eapply (indexes_inj L _ _ _ _ _ _ (iri_idx _ _ _ _ (ii_res _ _ _ I))); eauto; eapply X; eauto.
  Qed.

  Lemma comp_in_comps p (q : quad R) v : comp p q = Some v -> In v (quad_comps q).
  Proof. destruct p; cbn; intros H; [inv H; auto|inv H; auto|inv H; auto|]; rewrite H; cbn; auto. Qed.

  Lemma in_comps_comp (q : quad R) v : In v (quad_comps q) -> exists p, comp p q = Some v.
  Proof.
    unfold quad_comps; cbn; intros [<-|[<-|[<-|H]]];
      [exists PosS|exists PosP|exists PosO|]; auto.
    destruct (q_g q) eqn:E; [|destruct H]; destruct H as [<-|[]]; exists PosG; exact E.
  Qed.

  Lemma id_value_used d ks vs r w :
    inv_ d ks vs -> ir_val (id_resources d) r = Some w -> occurs quad_comps w ks.
  Proof.
    intros I Hw; unfold ir_val in Hw.
    destruct (sget (id_resources d) r) as [y|] eqn:E; [|discriminate]; cbn in Hw; inv Hw.
    destruct (iri_use _ _ _ _ (ii_res _ _ _ I) _ _ E) as [_ (p & i & x & Hx & Hs)].
    destruct (id_live_value _ _ _ _ _ I Hx) as (q & Hq & Hin).
    exists q; split; [assumption|].
    destruct (iqwr_slot _ _ _ _ _ Hq Hs) as (v & Hc & Hv).
    unfold ir_val in Hv; rewrite E in Hv; cbn in Hv; inv Hv; eapply comp_in_comps; eauto.
  Qed.

  Lemma id_vs_used d ks vs w : inv_ d ks vs -> In w vs -> occurs quad_comps w ks.
  Proof.
    intros I Hw; destruct (iri_idx _ _ _ _ (ii_res _ _ _ I)) as [H _].
    apply (mapM_in _ _ _ _ H) in Hw as (i & _ & Hi); eapply id_value_used; eauto.
  Qed.

  Lemma id_used_vs (W : R -> Prop) d ks vs w :
    inv_ d ks vs -> id_exact W d -> W w -> occurs quad_comps w ks -> In w vs.
  Proof.
    intros I X HW (q & Hq & Hw).
    destruct (id_elem_index _ _ _ _ I Hq) as (i & x & Hx & Hqw).
    apply in_comps_comp in Hw as (p & Hp).
    destruct (iqwr_comp _ _ _ _ _ Hqw Hp) as (k & _ & Hk).
    destruct (iri_idx _ _ _ _ (ii_res _ _ _ I)) as [H _].
    apply (mapM_in _ _ _ _ H); exists k; split; [|exact Hk]; eapply X; eauto.
  Qed.

  (** [In (fs x) set] answers whether the last change to that component was a
      removal. *)
  Definition reported (W : R -> Prop) (fs : quad nat -> nat) (fR : quad R -> R) (set : list nat)
      (d : @idataset R) (l : list (change (quad R))) : Prop :=
    forall i x q, sget (id_quads d) i = Some x ->
      i_quad_with_resources (id_resources d) x = Some q ->
      W (fR q) -> (In (fs x) set <-> last_change cmp fR (fR q) l <> Some false).

  Definition ng_exact (d : @idataset R) : Prop :=
    forall k, In k (id_ng d) -> exists i, uses (id_quads d) PosG k i.

  (** The dataset [d] was reached from the set [s0] by the changes [l]; [K W]
      says that the start was exact for the resources among [W] and [n] is the
      number of vacant slots there. *)
  Record istate (d : @idataset R) (s0 : list (quad R)) (K : (R -> Prop) -> Prop) (n : nat)
      (l : list (change (quad R))) : Prop := {
    is_rep : id_rep d (apply qcmp l s0);
    is_exact : forall W, K W -> known_log qcmp quad_comps W s0 l -> id_exact W d;
    is_s : forall W, K W -> known_log qcmp quad_comps W s0 l -> reported W q_s q_s (id_s d) d l;
    is_p : forall W, K W -> known_log qcmp quad_comps W s0 l -> reported W q_p q_p (id_p d) d l;
    is_o : forall W, K W -> known_log qcmp quad_comps W s0 l -> reported W q_o q_o (id_o d) d l;
    is_ng : K any_resource -> known_log qcmp quad_comps any_resource s0 l -> tidy cmp s0 l ->
            ng_exact d;
    is_free : length (free (id_quads d)) = vacancies n l
  }.

  Lemma reported_ins W fs fR set set' d d' ks' vs' q x l :
    (forall rs x q, i_quad_with_resources (R:=R) rs x = Some q ->
                    ir_val rs (fs x) = Some (fR q)) ->
    swf (id_quads d) -> inv_ d' ks' vs' -> id_exact W d' -> ins_desc d q d' x ->
    (exists ks vs, inv_ d ks vs) ->
    set' = ns_insert (fs x) set ->
    reported W fs fR set d l -> reported W fs fR set' d' (l ++ [(true, q)]).
  Proof.
    intros Hf Wf I' X (Eq & Hq & M & _) (ks & vs & I) -> Hr i y z Hy Hz HW.
    rewrite in_ns_insert, last_change_snoc; cbn.
    rewrite Eq, (sget_sinsert _ _ _ Wf) in Hy.
    destruct (i =? vacant_key (id_quads d)).
    - inv Hy; rewrite Hq in Hz; inv Hz.
      replace (same cmp (fR z) (fR z)) with true by (symmetry; now apply (same_true L)).
      split; [discriminate|auto].
    - pose proof (Hf _ _ _ Hz) as Vz; pose proof (Hf _ _ _ Hq) as Vq.
      destruct (id_live_value _ _ _ _ _ I Hy) as (z' & Hz' & _).
      assert (z' = z) as ->.
      { apply (iqwr_mono _ _ _ _ M) in Hz'; congruence. }
      specialize (Hr _ _ _ Hy Hz' HW).
      destruct (same cmp (fR q) (fR z)) eqn:E.
      + apply (same_true L) in E; split; [discriminate|]; intros _; left.
        eapply (id_value_inj _ _ _ _ _ _ _ I' X HW); [exact Vz|]; rewrite <- E; exact Vq.
      + rewrite Hr; split; [|auto]; intros [Ef|H]; [|assumption].
        apply (same_false L) in E; congruence.
  Qed.

  Lemma reported_rem W fs fR set set' d d' ks vs q x i l :
    (forall rs x q, i_quad_with_resources (R:=R) rs x = Some q ->
                    ir_val rs (fs x) = Some (fR q)) ->
    nsorted set -> inv_ d ks vs -> id_exact W d -> rem_desc d i x d' ->
    i_quad_with_resources (id_resources d) x = Some q ->
    set' = ns_remove (fs x) set ->
    reported W fs fR set d l -> reported W fs fR set' d' (l ++ [(false, q)]).
  Proof.
    intros Hf Hset I X (Eq & M & _) Hq -> Hr j y z Hy Hz HW.
    rewrite in_ns_remove, last_change_snoc by assumption; cbn.
    rewrite (sget_sremove _ _ _ _ _ Eq) in Hy; destruct (j =? i); [discriminate|].
    apply (iqwr_mono _ _ _ _ M) in Hz.
    pose proof (Hf _ _ _ Hz) as Vz; pose proof (Hf _ _ _ Hq) as Vq.
    specialize (Hr _ _ _ Hy Hz HW).
    destruct (same cmp (fR q) (fR z)) eqn:E.
    - apply (same_true L) in E; split; [|congruence]; intros [Hn _]; exfalso; apply Hn.
      eapply (id_value_inj _ _ _ _ _ _ _ I X HW); [exact Vz|]; rewrite <- E; exact Vq.
    - rewrite Hr; apply (same_false L) in E; split; [tauto|]; intros H; split; [|assumption].
      intros Ef; apply E; congruence.
  Qed.

  Lemma free_sinsert {T} (s : slab T) x : length (free (sinsert s x)) = pred (length (free s)).
  Proof. unfold sinsert; destruct (free s); reflexivity. Qed.

  Lemma free_sremove {T} (s s' : slab T) i x :
    sremove s i = Some (x, s') -> length (free s') = S (length (free s)).
  Proof. unfold sremove; destruct (sget s i); intros H; inv H; reflexivity. Qed.

  Lemma qs_val (rs : slab (iresource R)) x q :
    i_quad_with_resources rs x = Some q -> ir_val rs (q_s x) = Some (q_s q).
  Proof. rewrite iqwr_some; tauto. Qed.
  Lemma qp_val (rs : slab (iresource R)) x q :
    i_quad_with_resources rs x = Some q -> ir_val rs (q_p x) = Some (q_p q).
  Proof. rewrite iqwr_some; tauto. Qed.
  Lemma qo_val (rs : slab (iresource R)) x q :
    i_quad_with_resources rs x = Some q -> ir_val rs (q_o x) = Some (q_o q).
  Proof. rewrite iqwr_some; tauto. Qed.

  Lemma istate_insert d s0 K n l q :
    istate d s0 K n l -> ~ In q (apply qcmp l s0) ->
    exists d', id_insert cmp keep d q = Some (true, d') /\ istate d' s0 K n (l ++ [(true, q)]).
  Proof.
    intros [[Hn (vs & I)] X Hs Hp Ho Hg Hf] Hq; set (s := apply qcmp l s0) in *.
    destruct (id_insert_spec L keep _ _ _ q I) as (d' & vs' & x & E & I' & D & _ & X').
    { now rewrite in_sorted_elements. }
    exists d'; split; [exact E|].
    assert (As : apply qcmp (l ++ [(true, q)]) s0 = add qcmp q s) by (rewrite apply_app; reflexivity).
    assert (Kn : forall W (P : Prop), known_log qcmp quad_comps W s0 (l ++ [(true, q)]) ->
                 (known_log qcmp quad_comps W s0 l -> repeats_known quad_comps W s q -> P) -> P).
    { intros W P; rewrite known_log_app; cbn; fold s; tauto. }
    assert (Ex : forall W, K W -> known_log qcmp quad_comps W s0 (l ++ [(true, q)]) ->
                 id_exact W d').
    { intros W HK Hk; apply (Kn _ _ Hk); intros H1 H2; apply X'; [auto|].
      intros i j r HW Hij Hi Hj; apply (id_used_vs W _ _ _ r I); auto.
      apply (occurs_sorted (cmp:=cmp)); exact (H2 i j r HW Hij Hi Hj). }
    pose proof (ii_wf _ _ _ I) as Wf.
    split.
    - rewrite As; split; [now apply (nodup_add LQ)|].
      exists vs'; rewrite <- (place_ext L q _ s Hn eq_refl) by assumption; exact I'.
    - exact Ex.
    - intros W HK Hk; apply (Kn _ _ Hk); intros H1 H2.
      eapply (reported_ins W q_s q_s (id_s d)); eauto using qs_val; apply D.
    - intros W HK Hk; apply (Kn _ _ Hk); intros H1 H2.
      eapply (reported_ins W q_p q_p (id_p d)); eauto using qp_val; apply D.
    - intros W HK Hk; apply (Kn _ _ Hk); intros H1 H2.
      eapply (reported_ins W q_o q_o (id_o d)); eauto using qo_val; apply D.
    - intros HK Hk Ht; apply (Kn _ _ Hk); intros H1 H2; apply tidy_app in Ht as [Ht _].
      specialize (Hg HK H1 Ht).
      destruct D as (Eq & Hq' & _ & _ & _ & _ & Eng).
      assert (G : forall j, sget (id_quads d') j =
                if j =? vacant_key (id_quads d) then Some x else sget (id_quads d) j)
        by (intros; rewrite Eq; now apply sget_sinsert).
      assert (Old : forall k, (exists i, uses (id_quads d) PosG k i) ->
                              exists i, uses (id_quads d') PosG k i).
      { intros k (i & y & Hy & Hsl); exists i, y; rewrite G; split; [|assumption].
        destruct (i =? vacant_key (id_quads d)) eqn:Ei; [|assumption].
        apply Nat.eqb_eq in Ei; subst; rewrite sget_vacant in Hy by assumption; discriminate. }
      intros k; rewrite Eng; destruct (q_g x) as [g|] eqn:Egx; [|auto].
      rewrite in_ns_insert; intros [->|Hk']; [|auto].
      exists (vacant_key (id_quads d)), x; rewrite G, Nat.eqb_refl; auto.
    - destruct D as (-> & _); rewrite free_sinsert, Hf, vacancies_app; reflexivity.
  Qed.

  Lemma istate_remove_by_index d s0 K n l i q :
    istate d s0 K n l -> i_quad_at (id_resources d) (id_quads d) i = Some q ->
    exists d', id_remove_by_index cmp d i true = Some d' /\ istate d' s0 K n (l ++ [(false, q)]) /\
      exists x, rem_desc d i x d'.
  Proof.
    intros [[Hn (vs & I)] X Hs Hp Ho Hg Hf] Hq; set (s := apply qcmp l s0) in *.
    destruct (id_remove_by_index_spec L _ _ _ _ _ I Hq) as (d' & vs' & x & E & I' & D & _ & X').
    exists d'; split; [exact E|]; split; [|eauto].
    assert (As : apply qcmp (l ++ [(false, q)]) s0 = del qcmp q s) by (rewrite apply_app; reflexivity).
    assert (Kn : forall W, known_log qcmp quad_comps W s0 (l ++ [(false, q)]) ->
                           known_log qcmp quad_comps W s0 l)
      by (intros W; rewrite known_log_app; tauto).
    assert (Hxq : sget (id_quads d) i = Some x /\
                  i_quad_with_resources (id_resources d) x = Some q).
    { destruct D as (Er & _); pose proof (sremove_inv _ _ _ _ Er) as Hx; split; [assumption|].
      unfold i_quad_at in Hq; now rewrite Hx in Hq. }
    destruct Hxq as [Hx Hxq].
    split.
    - rewrite As; split; [now apply (nodup_del (cmp:=qcmp))|].
      exists vs'; rewrite <- (del_ext L) by assumption; exact I'.
    - auto.
    - intros W HK Hk; apply Kn in Hk.
      eapply (reported_rem W q_s q_s (id_s d) _ d d' _ _ q x i l); eauto using qs_val; [apply (ii_s _ _ _ I)|apply D].
    - intros W HK Hk; apply Kn in Hk.
      eapply (reported_rem W q_p q_p (id_p d) _ d d' _ _ q x i l); eauto using qp_val; [apply (ii_p _ _ _ I)|apply D].
    - intros W HK Hk; apply Kn in Hk.
      eapply (reported_rem W q_o q_o (id_o d) _ d d' _ _ q x i l); eauto using qo_val; [apply (ii_o _ _ _ I)|apply D].
    - intros HK Hk Ht; apply Kn in Hk; apply tidy_app in Ht as [Ht Ht'].
      specialize (Hg HK Hk Ht); specialize (X _ HK Hk); fold s in Ht'.
      destruct D as (Er & M & _ & _ & _ & Eng).
      assert (G : forall j, sget (id_quads d') j = if j =? i then None else sget (id_quads d) j)
        by (intros; now apply (sget_sremove _ _ _ _ _ Er)).
      intros k Hk'.
      assert (Hkd : In k (id_ng d)).
      { destruct (q_g x); [|now rewrite <- Eng].
        destruct Eng as [[_ Eng]|[_ Eng]]; rewrite Eng in Hk'; [|assumption].
        apply in_ns_remove in Hk'; [tauto|apply (ii_ng _ _ _ I)]. }
      destruct (Hg _ Hkd) as (j & y & Hy & Hsl).
      destruct (Nat.eq_dec j i) as [->|Hj].
      + rewrite Hx in Hy; inv Hy; cbn in Hsl; rewrite Hsl in Eng.
        destruct Eng as [[_ Eng]|[Hlive Eng]].
        { rewrite Eng in Hk'; apply in_ns_remove in Hk'; [tauto|apply (ii_ng _ _ _ I)]. }
        destruct (iqwr_slot _ _ _ PosG k Hxq Hsl) as (g & Hgq & Hgv); cbn in Hgq.
        destruct Ht' as [Ht' _]; cbn in Ht'; rewrite Hgq in Ht'.
        change (apply_change qcmp s (false, q)) with (del qcmp q s) in Ht'.
        destruct Ht' as [(q' & Hq' & Hgq')|Hno].
        * apply (in_sorted_elements (cmp:=qcmp)) in Hq'; rewrite <- (del_ext L) in Hq' by assumption.
          destruct (id_elem_index _ _ _ _ I' Hq') as (j & z & Hz & Hzq).
          destruct (iqwr_comp _ _ _ PosG g Hzq Hgq') as (k' & Hk1 & Hk2).
          apply M in Hk2.
          assert (k' = k) as -> by (eapply (id_value_inj _ _ _ _ _ _ _ I X); eauto; exact Logic.I).
          exists j, z; auto.
        * exfalso; apply Hno; apply (occurs_sorted (cmp:=cmp)); rewrite <- (del_ext L) by assumption.
          unfold ir_val in Hgv; destruct (sget (id_resources d') k) as [rk|] eqn:Ek; [|congruence].
          apply (id_value_used _ _ _ k g I').
          unfold ir_val; rewrite Ek; cbn.
          assert (Hr : ir_val (id_resources d') k = Some (ir_value rk))
            by (unfold ir_val; now rewrite Ek).
          apply M in Hr; unfold ir_val in Hr; congruence.
      + exists j, y; rewrite G; split; [|assumption].
        apply Nat.eqb_neq in Hj; now rewrite Hj.
    - destruct D as (Er & _); rewrite (free_sremove _ _ _ _ Er), Hf, vacancies_app; reflexivity.
  Qed.

  Lemma id_insert_dup d s q :
    id_rep d s -> In q s -> id_insert cmp keep d q = Some (false, d).
  Proof.
    intros [Hn (vs & I)] Hq; unfold id_insert; rewrite (id_contains_spec L _ _ _ _ I); cbn.
    rewrite (mem_sorted L); assert (mem qcmp q s = true) as -> by now apply (mem_true LQ).
    reflexivity.
  Qed.

  (** [remove] is [remove_by_index] on the index of the quad. *)
  Lemma id_remove_eq d s q :
    id_rep d s ->
    if mem qcmp q s then
      exists i, i_quad_at (id_resources d) (id_quads d) i = Some q /\
        id_remove cmp d q = (d' <- id_remove_by_index cmp d i true ;; Some (true, d'))
    else id_remove cmp d q = Some (false, d).
  Proof.
    intros [Hn (vs & I)]; rewrite <- (mem_sorted L).
    pose proof (ii_idx _ _ _ I) as I3; unfold id_remove.
    destruct (bt_remove_spec LQ _ _ _ q I3) as (r & qi & E & I3' & Hr).
    change (i_quad_cmp cmp (id_resources d) (id_quads d))
      with (kcmp (cmpk:=qcmp) (i_quad_at (id_resources d) (id_quads d))).
    rewrite E; cbn; destruct r as [i|].
    - destruct Hr as (Hv & Hin & HP).
      assert (mem qcmp q (sorted_elements qcmp s) = true) as -> by now apply (mem_true LQ).
      exists i; split; [exact Hv|].
      unfold id_remove_by_index.
      change (i_quad_index_cmp cmp (id_resources d) (id_quads d))
        with (icmp (cmpk:=qcmp) (i_quad_at (id_resources d) (id_quads d))).
      rewrite (bt_remove_icmp qcmp _ i q _ Hv), E; reflexivity.
    - destruct Hr as [Hr ->].
      assert (mem qcmp q (sorted_elements qcmp s) = false) as -> by now apply (mem_false LQ).
      destruct d; reflexivity.
  Qed.

  (** ** The operations of a set *)
  Lemma istate_extend l' : forall d s0 K n l,
    istate d s0 K n l ->
    exists d', id_extend cmp keep d l' = Some d' /\
      istate d' s0 K n (l ++ extend_changes qcmp (apply qcmp l s0) l').
  Proof.
    induction l' as [|q l' IH]; intros d s0 K n l H; cbn.
    - exists d; rewrite app_nil_r; auto.
    - destruct (mem qcmp q (apply qcmp l s0)) eqn:E.
      + rewrite (id_insert_dup d (apply qcmp l s0) q); [cbn|apply H|now apply (mem_true LQ)].
        now apply IH.
      + destruct (istate_insert _ _ _ _ _ q H) as (d1 & -> & H1); [now apply (mem_false LQ)|]; cbn.
        destruct (IH _ _ _ _ _ H1) as (d' & Ed & Hd); exists d'; split; [assumption|].
        rewrite <- app_assoc, apply_app in Hd; exact Hd.
  Qed.

  Lemma id_iter_rep d s : id_rep d s -> id_iter d = Some (sorted_elements qcmp s).
  Proof. intros [_ (vs & I)]; apply (ii_idx _ _ _ I). Qed.

  Lemma id_len_rep d s : id_rep d s -> id_len d = length s.
  Proof.
    intros [Hn (vs & I)]; unfold id_len; rewrite <- (length_sorted L s Hn).
    rewrite (slen_keys _ (id_qi d)); [|eapply (indexes_nodup LQ), (ii_idx _ _ _ I)|apply (ii_live _ _ _ I)].
    destruct (ii_idx _ _ _ I) as [H3 _]; symmetry; eapply mapM_length; eauto.
  Qed.

  Lemma i_into_iter_spec rs qs l ks :
    NoDup l -> mapM (i_quad_at (R:=R) rs qs) l = Some ks -> i_into_iter rs qs l = Some ks.
  Proof.
    revert qs ks; induction l as [|i l IH]; intros qs ks Hn H; [exact H|].
    apply mapM_cons in H as (y & ys & Hy & Hys & ->); inv Hn; cbn.
    unfold i_quad_at in Hy; destruct (sget qs i) as [q|] eqn:E; [|discriminate]; cbn in Hy.
    destruct (sremove_some _ _ _ E) as (qs' & E'); rewrite E'; cbn; rewrite Hy; cbn.
    rewrite (IH qs' ys); [reflexivity|assumption|].
    rewrite <- Hys; apply mapM_ext; intros j Hj; unfold i_quad_at.
    rewrite (sget_sremove _ _ _ _ _ E'); destruct (j =? i) eqn:Ej; [|reflexivity].
    apply Nat.eqb_eq in Ej; subst; contradiction.
  Qed.

  Lemma id_into_iter_rep d s : id_rep d s -> id_into_iter d = Some (sorted_elements qcmp s).
  Proof.
    intros [_ (vs & I)]; apply i_into_iter_spec; [eapply (indexes_nodup LQ)|]; apply (ii_idx _ _ _ I).
  Qed.

  Lemma id_contains_rep d s q : id_rep d s -> id_contains cmp d q = Some (mem qcmp q s).
  Proof. intros [_ (vs & I)]; now rewrite (id_contains_spec L _ _ _ _ I), (mem_sorted L). Qed.

  Lemma istate_set_step d s0 K n l o :
    istate d s0 K n l ->
    exists d', id_step cmp keep d (IOp o) =
                 Some (IOut (fst (spec_step qcmp (apply qcmp l s0) o)), d') /\
      istate d' s0 K n (l ++ set_changes qcmp (apply qcmp l s0) o).
  Proof.
    intros H; pose proof (is_rep _ _ _ _ _ H) as Hr; set (s := apply qcmp l s0) in *.
    destruct o as [q|q|l'|q| | | |]; cbn.
    - destruct (mem qcmp q s) eqn:E; cbn.
      + rewrite (id_insert_dup d s q Hr) by now apply (mem_true LQ).
        exists d; rewrite app_nil_r; auto.
      + destruct (istate_insert _ _ _ _ _ q H) as (d1 & -> & H1); [now apply (mem_false LQ)|]; cbn; eauto.
    - pose proof (id_remove_eq d s q Hr) as He; destruct (mem qcmp q s) eqn:E.
      + destruct He as (i & Hi & ->).
        destruct (istate_remove_by_index _ _ _ _ _ _ _ H Hi) as (d1 & -> & H1 & _); cbn; eauto.
      + rewrite He; exists d; rewrite app_nil_r; auto.
    - destruct (istate_extend l' _ _ _ _ _ H) as (d1 & -> & H1); cbn; eauto.
    - rewrite (id_contains_rep d s q Hr); exists d; rewrite app_nil_r; auto.
    - rewrite (id_len_rep d s Hr); exists d; rewrite app_nil_r; auto.
    - unfold id_is_empty; rewrite (id_len_rep d s Hr); exists d; rewrite app_nil_r; auto.
    - rewrite (id_iter_rep d s Hr); exists d; rewrite app_nil_r; auto.
    - rewrite (id_into_iter_rep d s Hr); exists d; rewrite app_nil_r; auto.
  Qed.

  (** ** Removing a graph *)
  Lemma istate_perm d s0 K n l m1 m2 g :
    Permutation m1 m2 -> NoDup m1 ->
    (forall q, In q m2 -> In q (apply qcmp l s0) /\ q_g q = g) ->
    istate d s0 K n (l ++ removals m1) -> istate d s0 K n (l ++ removals m2).
  Proof.
    intros HP Hn Hm [H1 H2 H3 H4 H5 H6 H7].
    assert (Ka : forall W, known_log qcmp quad_comps W s0 (l ++ removals m2) ->
                 known_log qcmp quad_comps W s0 (l ++ removals m1)).
    { intros W; rewrite !known_log_app; intros [A _]; split; [assumption|apply known_removals]. }
    assert (Ra : forall W fs fR set, reported W fs fR set d (l ++ removals m1) ->
                                     reported W fs fR set d (l ++ removals m2)).
    { intros W fs fR set Hr i x q Hx Hq HW; rewrite (Hr i x q Hx Hq HW).
      destruct (last_change_removals (rcmp:=cmp) L fR (fR q) m1 l) as [A1 A2].
      destruct (last_change_removals (rcmp:=cmp) L fR (fR q) m2 l) as [B1 B2].
      destruct (in_dec (ord_dec L) (fR q) (map fR m1)) as [Hin|Hin].
      - rewrite A1, B1 by (assumption || (eapply Permutation_in; [|exact Hin]; now apply Permutation_map)).
        tauto.
      - rewrite A2, B2; [tauto| |assumption].
        intros H; apply Hin; eapply Permutation_in; [|exact H].
        apply Permutation_map; now symmetry. }
    split; auto.
    - rewrite apply_app in *; now rewrite <- (apply_removals_perm LQ _ _ _ HP).
    - intros HK Hk Ht; apply H6; auto.
      apply tidy_app in Ht as [Ht1 Ht2]; apply tidy_app; split; [assumption|].
      apply (tidy_perm L g m2 m1); [now apply (Permutation_NoDup HP)|exact Hm|now symmetry|].
      exact Ht2.
    - rewrite H7, !vacancies_app, !vacancies_removals, (Permutation_length HP); reflexivity.
  Qed.

  (** The loop of [remove_graph] on live indexes. *)
  Lemma istate_remove_all idx : forall d s0 K n l (b : @bgraph R) t,
    istate d s0 K n l -> NoDup idx -> (forall i, In i idx -> sget (id_quads d) i <> None) ->
    bg_rep (cmp:=cmp) b t ->
    exists d' b' qs, id_remove_all cmp keep idx d b = Some (b', d') /\
      mapM (i_quad_at (id_resources d) (id_quads d)) idx = Some qs /\
      istate d' s0 K n (l ++ removals qs) /\
      bg_rep (cmp:=cmp) b' (fold_left (fun t x => add (triple_cmp cmp) x t)
                              (map (fun q => fst (into_triple q)) qs) t).
  Proof.
    induction idx as [|i idx IH]; intros d s0 K n l b t H Hn Hl Hb; cbn.
    - exists d, b, []; rewrite app_nil_r; auto.
    - inv Hn; destruct (sget (id_quads d) i) as [x|] eqn:E; [|exfalso; apply (Hl i); cbn; auto].
      destruct (is_rep _ _ _ _ _ H) as [Hnd (vs & I)].
      destruct (id_live_value _ _ _ _ _ I E) as (q & Hq & Hin).
      assert (Hqa : i_quad_at (id_resources d) (id_quads d) i = Some q)
        by (unfold i_quad_at; now rewrite E).
      rewrite Hqa; cbn.
      destruct (istate_remove_by_index _ _ _ _ _ _ _ H Hqa) as (d1 & -> & H1 & y & D); cbn.
      destruct (bg_insert_rep L keep b t (fst (into_triple q)) Hb) as (b1 & Eb & Hb1);
        cbn in Eb; rewrite Eb; cbn.
      destruct D as (Er & M & _).
      destruct (IH d1 s0 K n _ b1 (add (triple_cmp cmp) (fst (into_triple q)) t) H1) as (d' & b' & qs & E' & Eqs & H' & Hb'); auto.
      { intros j Hj; rewrite (sget_sremove _ _ _ _ _ Er).
        destruct (j =? i) eqn:Ej; [apply Nat.eqb_eq in Ej; subst; contradiction|].
        apply Hl; now right. }
      exists d', b', (q :: qs); split; [exact E'|]; split; [|split].
      + assert (mapM (i_quad_at (id_resources d) (id_quads d)) idx = Some qs) as ->; [|reflexivity].
        rewrite <- Eqs; apply mapM_ext; intros j Hj.
        destruct (mapM_in_inv _ _ _ _ Eqs Hj) as (z & Hz & _); rewrite Hz.
        unfold i_quad_at in *; rewrite (sget_sremove _ _ _ _ _ Er) in Hz.
        destruct (j =? i); [discriminate|].
        destruct (sget (id_quads d) j); [|discriminate]; cbn in *; eapply iqwr_mono; eauto.
      + rewrite <- app_assoc in H'; exact H'.
      + exact Hb'.
  Qed.

  (** The indexes that [remove_graph g] removes. *)
  Lemma id_graph_indexes d s g :
    id_rep d s ->
    exists r,
      match g with
      | Some g =>
          f <- i_index_of_resource cmp (id_resources d) (id_ri d) g ;;
          match f with
          | None => Some None
          | Some k =>
              if ns_mem k (id_ng d) then
                r <- sget (id_resources d) k ;; Some (Some (ir_g r))
              else Some None
          end
      | None => Some (Some (id_dg d))
      end = Some r /\
      match r with
      | None => g <> None /\ (id_exact (fun r => g = Some r) d -> forall q, In q s -> q_g q <> g)
      | Some idx =>
          NoDup idx /\
          (forall i, In i idx -> exists q,
             i_quad_at (id_resources d) (id_quads d) i = Some q /\ In q s /\ q_g q = g) /\
          (id_exact (fun r => g = Some r) d -> forall i q,
             i_quad_at (id_resources d) (id_quads d) i = Some q -> q_g q = g -> In i idx)
      end.
  Proof.
    intros [Hn (vs & I)]; destruct g as [g|].
    - destruct (i_index_of_resource_spec L _ _ _ _ g (ii_res _ _ _ I)) as (f & -> & Hf); cbn.
      destruct f as [k|].
      + destruct Hf as (Hk & Vk & _).
        unfold ir_val in Vk; destruct (sget (id_resources d) k) as [x|] eqn:Ex; [|discriminate].
        cbn in Vk; inv Vk.
        destruct (ns_mem k (id_ng d)) eqn:Em; cbn; eexists; (split; [reflexivity|]).
        * destruct (iri_use _ _ _ _ (ii_res _ _ _ I) _ _ Ex) as [Hu _].
          destruct (Hu PosG) as [Hs Hin]; cbn in Hs, Hin; split; [|split].
          -- now apply (ssorted_nodup nat_compare_laws).
          -- intros i Hi; apply Hin in Hi as (y & Hy & Hsl).
             destruct (id_live_value _ _ _ _ _ I Hy) as (q & Hq & Hqs).
             exists q; split; [unfold i_quad_at; now rewrite Hy|].
             split; [now apply (in_sorted_elements (cmp:=qcmp))|].
             destruct (iqwr_slot _ _ _ PosG k Hq Hsl) as (v & Hv & Hv').
             unfold ir_val in Hv'; rewrite Ex in Hv'; cbn in Hv'; inv Hv'; exact Hv.
          -- intros X i q Hi Hg; apply Hin.
             unfold i_quad_at in Hi; destruct (sget (id_quads d) i) as [y|] eqn:Ey; [|discriminate].
             cbn in Hi; destruct (iqwr_comp _ _ _ PosG _ Hi Hg) as (k' & Hk1 & Hk2).
             exists y; split; [assumption|]; rewrite Hk1; f_equal.
             eapply (id_value_inj _ _ _ _ _ _ _ I X); [reflexivity|exact Hk2|].
             unfold ir_val; now rewrite Ex.
        * split; [discriminate|]; intros X q Hq Hg.
          apply (in_sorted_elements (cmp:=qcmp)) in Hq.
          destruct (id_elem_index _ _ _ _ I Hq) as (i & y & Hy & Hyq).
          destruct (iqwr_comp _ _ _ PosG _ Hyq Hg) as (k' & Hk1 & Hk2).
          assert (k' = k) as ->.
          { eapply (id_value_inj _ _ _ _ _ _ _ I X); [reflexivity|exact Hk2|].
            unfold ir_val; now rewrite Ex. }
          assert (In k (id_ng d)) as Hkn.
          { destruct (ii_ng _ _ _ I) as [_ Hng]; eapply Hng; exists y; eauto. }
          apply (ns_mem_true k (id_ng d)) in Hkn; [congruence|apply (ii_ng _ _ _ I)].
      + eexists; split; [reflexivity|]; split; [discriminate|]; intros X q Hq Hg; apply Hf.
        eapply (id_used_vs _ _ _ _ _ I X); [reflexivity|]; exists q; split; [now apply (in_sorted_elements (cmp:=qcmp))|].
        apply comp_in_comps with PosG; exact Hg.
    - eexists; split; [reflexivity|]; destruct (ii_dg _ _ _ I) as [Hs Hin]; split; [|split].
      + now apply (ssorted_nodup nat_compare_laws).
      + intros i Hi; apply Hin in Hi as (y & Hy & Hg).
        destruct (id_live_value _ _ _ _ _ I Hy) as (q & Hq & Hqs).
        exists q; split; [unfold i_quad_at; now rewrite Hy|].
        split; [now apply (in_sorted_elements (cmp:=qcmp))|].
        apply iqwr_some in Hq as (_ & _ & _ & H4); rewrite Hg in H4; destruct (q_g q); tauto.
      + intros _ i q Hi Hg; apply Hin.
        unfold i_quad_at in Hi; destruct (sget (id_quads d) i) as [y|] eqn:Ey; [|discriminate].
        cbn in Hi; exists y; split; [reflexivity|].
        apply iqwr_some in Hi as (_ & _ & _ & H4); rewrite Hg in H4; destruct (q_g y); tauto.
  Qed.

  Notation tcmp := (triple_cmp cmp).
  Notation tq g := (fun t : triple R => Quad (t_s t) (t_p t) (t_o t) g).

  (** What [remove_graph] returns and leaves. *)
  Lemma istate_remove_graph d s0 K n l g :
    istate d s0 K n l ->
    let s := apply qcmp l s0 in
    exists r d', id_remove_graph cmp keep d g = Some (r, d') /\
      match r with
      | None => d' = d /\ g <> None /\
          (id_exact (fun r => g = Some r) d -> forall q, In q s -> q_g q <> g)
      | Some b => exists ts,
          bg_rep (cmp:=cmp) b ts /\ bg_iter b = Some (sorted_elements tcmp ts) /\
          (forall t, In t ts -> In (tq g t) s) /\
          (id_exact (fun r => g = Some r) d -> forall q, In q s -> q_g q = g ->
             In (Triple (q_s q) (q_p q) (q_o q)) ts) /\
          istate d' s0 K n (l ++ removals (map (tq g) (sorted_elements tcmp ts)))
      end.
  Proof.
    intros H s; pose proof (is_rep _ _ _ _ _ H) as Hr; fold s in Hr.
    unfold id_remove_graph.
    destruct (id_graph_indexes d s g Hr) as (r & -> & Hidx); cbn.
    destruct r as [idx|].
    2: { exists None, d; split; [reflexivity|]; tauto. }
    destruct Hidx as (Hnd & Hin & Hall).
    destruct (istate_remove_all idx d s0 K n l bg_new [] H Hnd)
      as (d' & b & qs & -> & Eqs & H' & Hb).
    { intros i Hi; destruct (Hin i Hi) as (q & Hq & _); unfold i_quad_at in Hq.
      destruct (sget (id_quads d) i); discriminate. }
    { apply bg_rep_new. }
    cbn; exists (Some b), d'; split; [reflexivity|].
    set (ts := fold_left (fun t x => add tcmp x t) (map (fun q => fst (into_triple q)) qs) []) in *.
    assert (LT : ord_laws tcmp) by now apply triple_cmp_laws.
    assert (Gqs : forall q, In q qs <-> exists i, In i idx /\ i_quad_at (id_resources d) (id_quads d) i = Some q)
      by (intros q; apply (mapM_in _ _ _ _ Eqs)).
    assert (Qg : forall q, In q qs -> In q s /\ q_g q = g).
    { intros q Hq; apply Gqs in Hq as (i & Hi & Hq).
      destruct (Hin i Hi) as (q' & Hq' & A & B); rewrite Hq in Hq'; inv Hq'; auto. }
    assert (Its : forall t, In t ts <-> In t (map (fun q => fst (into_triple q)) qs)).
    { assert (Fold : forall l s t, In t (fold_left (fun s x => add tcmp x s) l s) <-> In t s \/ In t l).
      { induction l0 as [|x l0 IH]; intros s' t; cbn; [tauto|].
        rewrite IH, (in_add LT); intuition congruence. }
      intros t; unfold ts; rewrite Fold; cbn; tauto. }
    assert (Tq : forall q, q_g q = g -> tq g (fst (into_triple q)) = q).
    { intros [a b0 c h] <-; reflexivity. }
    assert (Itq : forall t, In t ts <-> In (tq g t) qs).
    { intros t; rewrite Its, in_map_iff; split.
      - intros (q & <- & Hq); rewrite Tq by (now apply Qg); exact Hq.
      - intros Hq; exists (tq g t); split; [destruct t; reflexivity|exact Hq]. }
    pose proof (bg_iter_rep b ts Hb) as Hbi.
    exists ts; split; [exact Hb|]; split; [exact Hbi|]; split; [|split].
    - intros t Ht; apply Itq in Ht; now apply Qg.
    - intros Hx q Hq Hg; apply Itq; cbn.
      destruct (is_rep _ _ _ _ _ H) as [_ (vs & I)].
      pose proof Hq as Hq0; apply (in_sorted_elements (cmp:=qcmp)) in Hq.
      destruct (id_elem_index _ _ _ _ I Hq) as (i & y & Hy & Hyq).
      assert (Hi : i_quad_at (id_resources d) (id_quads d) i = Some q)
        by (unfold i_quad_at; now rewrite Hy).
      replace (Quad (q_s q) (q_p q) (q_o q) g) with q by (destruct q; cbn in *; congruence).
      apply Gqs; eauto.
    - assert (Nts : NoDup ts) by (apply Hb).
      assert (Nqs : NoDup qs).
      { destruct (is_rep _ _ _ _ _ H) as [_ (vs & I)].
        clear - L LQ Eqs Hnd I; revert qs Eqs; induction idx as [|i idx IH]; intros qs Eqs.
        - cbn in Eqs; inv Eqs; constructor.
        - apply mapM_cons in Eqs as (q & qs' & Hq & Hqs & ->); inv Hnd; constructor; [|auto].
          intros Hin; apply (mapM_in _ _ _ _ Hqs) in Hin as (j & Hj & Hjq).
          assert (i = j) as -> by (eapply id_index_inj; eauto); contradiction. }
      eapply (istate_perm d' s0 K n l qs); [|assumption| |exact H'].
      + apply NoDup_Permutation; [assumption| |].
        * apply FinFun.Injective_map_NoDup.
          -- intros [] [] Heq; cbn in Heq; inv Heq; reflexivity.
          -- apply (ssorted_nodup LT), (sorted_elements_sorted LT), Nts.
        * intros q; rewrite in_map_iff; split.
          -- intros Hq; exists (fst (into_triple q)); split; [apply Tq; now apply Qg|].
             apply in_sorted_elements, Its, (in_map (fun q => fst (into_triple q))); exact Hq.
          -- intros (t & <- & Ht); rewrite in_sorted_elements in Ht; exact (proj1 (Itq t) Ht).
      + intros q Hq; apply in_map_iff in Hq as (t & <- & Ht); rewrite in_sorted_elements in Ht.
        apply Qg; exact (proj1 (Itq t) Ht).
  Qed.
End Proofs.
