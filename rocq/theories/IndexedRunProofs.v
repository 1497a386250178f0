(** Histories of [IndexedBTreeDataset]: what every property theorem needs. *)
From Coq Require Import List Bool Arith Lia Permutation Sorted.
Import ListNotations.
From Verif Require Import Base SlabModel TripleModel TriplePatternModel QuadPatternModel SetSpec
  ContainerSpec PatternSpec IndexedSpec Machine BaseProofs PatternProofs BResourceModel
  BResourceProofs BTreeDatasetModel BTreeDatasetProofs BTreeGraphModel BTreeGraphProofs
  IResourceModel IResourceProofs IndexedDatasetModel IndexedDatasetProofs IndexedHistoryProofs
  IndexedConvertProofs IndexedPatternProofs.
Open Scope panic_scope.

Lemma firstn_in {A} (l : list A) x : forall n, In x (firstn n l) -> In x l.
Proof.
  induction l as [|y l IH]; intros [|n]; cbn; try tauto; intros [H|H]; eauto.
Qed.

Lemma firstn_nodup {A} (l : list A) n : NoDup l -> NoDup (firstn n l).
Proof.
  intros H; revert n; induction H as [|x l Hx H IH]; intros [|n]; cbn; constructor; auto.
  intros C; apply Hx; eapply firstn_in; exact C.
Qed.

Section Proofs.
  Context {R : Type} {cmp : R -> R -> comparison} (L : ord_laws cmp).
  Context (keep : bool).
  Notation qcmp := (quad_cmp cmp).
  Notation tcmp := (triple_cmp cmp).
  Let LQ : ord_laws qcmp := quad_cmp_laws cmp L.
  Let LT : ord_laws tcmp := triple_cmp_laws cmp L.
  Notation tq g := (fun t : triple R => Quad (t_s t) (t_p t) (t_o t) g).

  Lemma in_sorted s q : In q (sorted_elements qcmp s) <-> In q s.
  Proof. apply in_sorted_elements. Qed.

  Lemma istate_step d s0 K n l o :
    istate (cmp:=cmp) d s0 K n l ->
    let s := apply qcmp l s0 in
    exists x d', id_step cmp keep d o = Some (x, d') /\ allowed cmp s o x /\
      istate (cmp:=cmp) d' s0 K n (l ++ changes cmp s o x).
  Proof.
    intros H s; destruct o as [o|g|c k spare].
    - destruct (istate_set_step L keep d s0 K n l o H) as (d' & E & H').
      eexists _, d'; split; [exact E|]; split; [reflexivity|exact H'].
    - cbn [id_step].
      destruct (istate_remove_graph L keep d s0 K n l g H) as (r & d' & -> & Hr); cbn.
      destruct r as [b|].
      + destruct Hr as (ts & Hb & Ei & Hin & Hc & H'); rewrite Ei; cbn.
        eexists _, d'; split; [reflexivity|]; split.
        * cbn; split; [apply (sorted_elements_sorted LT), Hb|]; split.
          -- intros t Ht; apply Hin; now apply (in_sorted_elements (cmp:=tcmp)).
          -- intros -> q Hq Hg; apply (in_sorted_elements (cmp:=tcmp)); apply Hc; auto.
             intros r w _; discriminate.
        * cbn; unfold removals in H'; rewrite map_map in H'; exact H'.
      + destruct Hr as (-> & Hg & _); eexists _, d; split; [reflexivity|]; split; [exact Hg|].
        cbn; now rewrite app_nil_r.
    - cbn [id_step].
      destruct (id_extract_found L d s0 K n l spare c k H) as (qs & d' & _ & (F1 & F2 & _) & -> & H').
      cbn; eexists _, d'; split; [reflexivity|]; split; [|exact H'].
      cbn; split; [|split].
      + now apply firstn_nodup.
      + rewrite firstn_length; lia.
      + intros q Hq; apply F2; eapply firstn_in; exact Hq.
  Qed.

  Lemma istate_run ops : forall d s0 K n l,
    istate (cmp:=cmp) d s0 K n l ->
    exists xs d', run (id_step cmp keep) d ops = Some (xs, d') /\
      allowed_run cmp (apply qcmp l s0) ops xs /\
      istate (cmp:=cmp) d' s0 K n (l ++ log cmp (apply qcmp l s0) ops xs).
  Proof.
    induction ops as [|o ops IH]; intros d s0 K n l H.
    - exists [], d; cbn; rewrite app_nil_r; auto.
    - destruct (istate_step d s0 K n l o H) as (x & d1 & E & A & H1).
      destruct (IH _ _ _ _ _ H1) as (xs & d' & E' & A' & H').
      exists (x :: xs), d'; cbn [run]; rewrite E, E'; split; [reflexivity|].
      rewrite apply_app in A', H'; split; [split; assumption|].
      cbn -[apply]; rewrite app_assoc; exact H'.
  Qed.

  (** ** Reached datasets *)
  Notation K0 ops0 := (fun W => known_log qcmp quad_comps W [] (set_log qcmp [] ops0)).
  Notation n0 ops0 := (vacancies 0 (set_log qcmp [] ops0)).

  Lemma id_total ops0 ops :
    exists xs d, id_reached cmp keep ops0 ops xs d /\
      allowed_run cmp (spec_set qcmp ops0) ops xs.
  Proof.
    destruct (bd_run_ok L keep ops0) as (b & Eb).
    destruct (start_spec L keep _ _ _ Eb) as (d0 & E0 & H0).
    destruct (istate_run ops _ _ _ _ _ H0) as (xs & d & E & A & H).
    exists xs, d; split; [|exact A]; exists (spec_outs qcmp ops0), b, d0; auto.
  Qed.

  Lemma reached_state ops0 ops xs d :
    id_reached cmp keep ops0 ops xs d ->
    istate (cmp:=cmp) d (spec_set qcmp ops0) (K0 ops0) (n0 ops0) (late_log cmp ops0 ops xs) /\
    allowed_run cmp (spec_set qcmp ops0) ops xs.
  Proof.
    intros (xs0 & b & d0 & Eb & E0 & E).
    destruct (start_spec L keep _ _ _ Eb) as (d0' & E0' & H0); rewrite E0 in E0'; inv E0'.
    destruct (istate_run ops _ _ _ _ _ H0) as (xs' & d' & E' & A & H); rewrite E in E'; inv E'.
    split; [exact H|exact A].
  Qed.

  Lemma reached_rep ops0 ops xs d :
    id_reached cmp keep ops0 ops xs d -> id_rep (cmp:=cmp) d (final_set cmp ops0 ops xs).
  Proof. intros H; apply reached_state in H as [H _]; apply (is_rep _ _ _ _ _ H). Qed.

  Lemma full_known W ops0 ops xs :
    known_log qcmp quad_comps W [] (full_log cmp ops0 ops xs) ->
    K0 ops0 W /\ known_log qcmp quad_comps W (spec_set qcmp ops0) (late_log cmp ops0 ops xs).
  Proof.
    unfold full_log; rewrite known_log_app, (apply_set_log LQ); auto.
  Qed.

  Lemma reached_exact W ops0 ops xs d :
    id_reached cmp keep ops0 ops xs d ->
    known_log qcmp quad_comps W [] (full_log cmp ops0 ops xs) -> id_exact W d.
  Proof.
    intros H Hk; apply reached_state in H as [H _]; apply full_known in Hk as [K1 K2].
    apply (is_exact _ _ _ _ _ H); auto.
  Qed.

  Lemma reached_full ops0 ops xs d :
    id_reached cmp keep ops0 ops xs d -> vacancies 0 (full_log cmp ops0 ops xs) = 0 ->
    free (id_quads d) = [].
  Proof.
    intros H Hv; apply reached_state in H as [H _]; apply length_zero_iff_nil.
    rewrite (is_free _ _ _ _ _ H); unfold full_log in Hv; now rewrite vacancies_app in Hv.
  Qed.

  (** ** C26, C27 *)
  Lemma id_new_converted : id_from_non_indexed (@bd_new R) = Some id_new.
  Proof. reflexivity. Qed.

  Lemma id_contents ops0 ops xs d :
    id_reached cmp keep ops0 ops xs d ->
    let s := final_set cmp ops0 ops xs in
    exists l, id_iter d = Some l /\ id_into_iter d = Some l /\
      increasing qcmp l /\ (forall q, In q l <-> In q s) /\
      id_len d = length l /\ (id_is_empty d = true <-> l = []) /\
      (forall q, id_contains cmp d q = Some (mem qcmp q l)).
  Proof.
    intros H s; apply reached_rep in H; fold s in H; pose proof H as [Hn _].
    exists (sorted_elements qcmp s); split; [now apply (id_iter_rep)|].
    split; [now apply (id_into_iter_rep L)|]; split; [now apply (sorted_elements_sorted LQ)|].
    split; [intros; apply in_sorted|]; rewrite (length_sorted L _ Hn).
    split; [now apply (id_len_rep L)|]; split.
    - unfold id_is_empty; rewrite (id_len_rep L _ _ H), Nat.eqb_eq, <- (length_sorted L _ Hn).
      apply length_zero_iff_nil.
    - intros q; rewrite (id_contains_rep L _ _ _ H); f_equal; symmetry; apply (mem_sorted L).
  Qed.

  Lemma id_converted ops xs b :
    run (bd_step cmp keep) bd_new ops = Some (xs, b) ->
    exists d l, id_from_non_indexed b = Some d /\ bd_iter b = Some l /\ id_iter d = Some l /\
      id_len d = bd_len b /\ (forall q, id_contains cmp d q = bd_contains cmp b q).
  Proof.
    intros H; pose proof (bd_run_rep_new L keep _ _ _ H) as Hb.
    destruct (start_spec L keep _ _ _ H) as (d & E & Hs).
    pose proof (is_rep _ _ _ _ _ Hs) as Hd; cbn in Hd.
    exists d, (sorted_elements qcmp (spec_set qcmp ops)); split; [exact E|].
    split; [now apply bd_iter_rep|]; split; [now apply id_iter_rep|]; split.
    - destruct Hb as [Hn (vs & I)].
      rewrite (id_len_rep L _ _ Hd), (bd_len_spec L _ _ _ I), (length_sorted L _ Hn); reflexivity.
    - intros q; destruct Hb as [Hn (vs & I)].
      rewrite (id_contains_rep L _ _ _ Hd), (bd_contains_spec L _ _ _ _ I), (mem_sorted L).
      reflexivity.
  Qed.

  (** ** C28, C49 *)
  Lemma subject_given_any {T} (c : cqp T) : subject_given c -> any_subject c = false.
  Proof. destruct c; [intros []|reflexivity]. Qed.

  Lemma id_pattern_sound ops0 ops xs d spare c :
    id_reached cmp keep ops0 ops xs d ->
    exists l, id_pattern_matching cmp d spare c = Some l /\ NoDup l /\
      forall q, In q l -> In q (final_set cmp ops0 ops xs) /\ cq_matches c q.
  Proof.
    intros H; apply reached_rep in H.
    destruct (id_pattern_found L _ _ spare c H) as (l & E & A & B & _); eauto.
  Qed.

  (** Histories without new resources among those that the quad has where the
      pattern is not a wildcard. *)
  Lemma id_pattern_complete ops0 ops xs d spare c :
    id_reached cmp keep ops0 ops xs d ->
    subject_given c \/ vacancies 0 (full_log cmp ops0 ops xs) = 0 ->
    exists l, id_pattern_matching cmp d spare c = Some l /\ NoDup l /\
      (forall q, In q l -> In q (final_set cmp ops0 ops xs) /\ cq_matches c q) /\
      (forall q, In q (final_set cmp ops0 ops xs) -> cq_matches c q ->
         known_log qcmp quad_comps (fun r => In r (cq_checked c q)) [] (full_log cmp ops0 ops xs) ->
         In q l).
  Proof.
    intros H Hv; pose proof (reached_rep _ _ _ _ H) as Hr.
    destruct (id_pattern_found L _ _ spare c Hr) as (l & E & A & B & C).
    exists l; split; [exact E|]; split; [exact A|]; split; [exact B|].
    intros q Hq Hm Hk; apply C with (W := fun r => In r (cq_checked c q)); auto;
      [|eapply reached_exact; eauto].
    destruct Hv as [Hv|Hv]; [left; now apply subject_given_any|right; eapply reached_full; eauto].
  Qed.

  Lemma id_pattern_exact ops0 ops xs d spare c :
    id_reached cmp keep ops0 ops xs d ->
    known_log qcmp quad_comps any_resource [] (full_log cmp ops0 ops xs) ->
    subject_given c \/ vacancies 0 (full_log cmp ops0 ops xs) = 0 ->
    exists l, id_pattern_matching cmp d spare c = Some l /\ NoDup l /\
      forall q, In q l <-> In q (final_set cmp ops0 ops xs) /\ cq_matches c q.
  Proof.
    intros H Hk Hv; destruct (id_pattern_complete _ _ _ _ spare c H Hv) as (l & E & A & B & C).
    exists l; split; [exact E|]; split; [exact A|]; intros q; split; [apply B|].
    intros [Hq Hm]; apply C; auto; eapply known_log_weaken; [|exact Hk]; intros; exact I.
  Qed.

  (** Asking for everything. *)
  Lemma known_nothing W l : (forall r : R, ~ W r) -> forall s, known_log qcmp quad_comps W s l.
  Proof.
    intros HW; induction l as [|[b x] l IH]; intros s; cbn -[apply_change]; [exact I|].
    split; [|apply IH]; destruct b; [|exact I]; intros i j r Hr; destruct (HW r Hr).
  Qed.

  Lemma id_pattern_all ops0 ops xs d spare c :
    id_reached cmp keep ops0 ops xs d ->
    vacancies 0 (full_log cmp ops0 ops xs) = 0 ->
    (forall q : quad R, cq_matches c q) -> (forall q : quad R, cq_checked c q = []) ->
    exists l, id_pattern_matching cmp d spare c = Some l /\ NoDup l /\
      forall q, In q l <-> In q (final_set cmp ops0 ops xs).
  Proof.
    intros H Hv Hc Hn.
    destruct (id_pattern_complete _ _ _ _ spare c H (or_intror Hv)) as (l & E & A & B & C).
    exists l; split; [exact E|]; split; [exact A|]; intros q; split; [apply B|].
    intros Hq; apply C; auto; apply known_nothing; intros r; rewrite Hn; intros [].
  Qed.

  Lemma id_multi_sound ops0 ops xs d spare c :
    id_reached cmp keep ops0 ops xs d ->
    exists l, id_multi_pattern_matching cmp d spare c = Some l /\ NoDup l /\
      forall q, In q l ->
        In q (final_set cmp ops0 ops xs) /\ exists e, choice c e /\ cq_matches e q.
  Proof.
    intros H; apply reached_rep in H.
    destruct (id_multi_found L _ _ spare c H) as (l & E & A & B & _); eauto.
  Qed.

  Lemma id_multi_complete ops0 ops xs d spare c :
    id_reached cmp keep ops0 ops xs d ->
    subject_given c \/ vacancies 0 (full_log cmp ops0 ops xs) = 0 ->
    exists l, id_multi_pattern_matching cmp d spare c = Some l /\ NoDup l /\
      (forall q, In q l ->
         In q (final_set cmp ops0 ops xs) /\ exists e, choice c e /\ cq_matches e q) /\
      (forall q e, In q (final_set cmp ops0 ops xs) -> choice c e -> cq_matches e q ->
         known_log qcmp quad_comps (fun r => In r (cq_checked c q)) [] (full_log cmp ops0 ops xs) ->
         In q l).
  Proof.
    intros H Hv; pose proof (reached_rep _ _ _ _ H) as Hr.
    destruct (id_multi_found L _ _ spare c Hr) as (l & E & A & B & C).
    exists l; split; [exact E|]; split; [exact A|]; split; [exact B|].
    intros q e Hq He Hm Hk; apply C with (W := fun r => In r (cq_checked c q)); eauto;
      [|eapply reached_exact; eauto].
    destruct Hv as [Hv|Hv]; [left; now apply subject_given_any|right; eapply reached_full; eauto].
  Qed.

  Lemma id_multi_exact ops0 ops xs d spare c :
    id_reached cmp keep ops0 ops xs d ->
    known_log qcmp quad_comps any_resource [] (full_log cmp ops0 ops xs) ->
    subject_given c \/ vacancies 0 (full_log cmp ops0 ops xs) = 0 ->
    exists l, id_multi_pattern_matching cmp d spare c = Some l /\ NoDup l /\
      forall q, In q l <->
        In q (final_set cmp ops0 ops xs) /\ exists e, choice c e /\ cq_matches e q.
  Proof.
    intros H Hk Hv; destruct (id_multi_complete _ _ _ _ spare c H Hv) as (l & E & A & B & C).
    exists l; split; [exact E|]; split; [exact A|]; intros q; split; [apply B|].
    intros [Hq (e & He & Hm)]; apply (C q e); auto.
    eapply known_log_weaken; [|exact Hk]; intros; exact I.
  Qed.

  (** ** C29, C30 *)
  Lemma values_total d ks vs l p :
    id_inv (cmp:=cmp) d ks vs ->
    (forall k, In k l -> exists i, uses (id_quads d) p k i) ->
    exists v, id_values d l = Some v /\
      (forall r, In r v -> exists q, In q ks /\ comp p q = Some r) /\
      (forall r, In r v <-> exists k, In k l /\ ir_val (id_resources d) k = Some r).
  Proof.
    intros I Hl; destruct (mapM_total (ir_val (id_resources d)) l) as (v & Ev).
    { intros k Hk; destruct (Hl k Hk) as (i & x & Hx & Hs).
      destruct (id_live_value _ _ _ _ _ I Hx) as (q & Hq & _).
      destruct (iqwr_slot _ _ _ _ _ Hq Hs) as (w & _ & Hw); congruence. }
    exists v; split; [exact Ev|]; split.
    - intros r Hr; apply (mapM_in _ _ _ _ Ev) in Hr as (k & Hk & Hv).
      destruct (Hl k Hk) as (i & x & Hx & Hs).
      destruct (id_live_value _ _ _ _ _ I Hx) as (q & Hq & Hin).
      destruct (iqwr_slot _ _ _ _ _ Hq Hs) as (w & Hc & Hw); exists q; split; [assumption|congruence].
    - intros r; apply (mapM_in _ _ _ _ Ev).
  Qed.

  Lemma mapM_nth {A B} (f : A -> option B) l : forall v i x,
    mapM f l = Some v -> nth_error v i = Some x ->
    exists k, nth_error l i = Some k /\ f k = Some x.
  Proof.
    induction l as [|a l IH]; intros v i x H Hx.
    - inv H; now destruct i.
    - apply mapM_cons in H as (y & ys & Hy & Hys & ->); destruct i as [|i]; cbn in *.
      + inv Hx; eauto.
      + eapply IH; eauto.
  Qed.

  Lemma values_once (W : R -> Prop) d ks vs l v r :
    id_inv (cmp:=cmp) d ks vs -> id_exact W d -> W r -> nsorted l -> id_values d l = Some v ->
    once r v.
  Proof.
    intros I X HW Hs Hv i j Hi Hj.
    destruct (mapM_nth _ _ _ _ _ Hv Hi) as (k & Ki & Vi).
    destruct (mapM_nth _ _ _ _ _ Hv Hj) as (k' & Kj & Vj).
    assert (k = k') as <- by (eapply (id_value_inj L W _ _ _ _ _ _ I X HW); eauto).
    assert (NoDup l) as Hn by (apply (ssorted_nodup nat_compare_laws); exact Hs).
    apply (proj1 (NoDup_nth_error l) Hn); [apply nth_error_Some; congruence|congruence].
  Qed.

  Lemma once_nodup {A} (v : list A) : (forall r, once r v) -> NoDup v.
  Proof.
    intros H; apply NoDup_nth_error; intros i j Hi E.
    destruct (nth_error v i) as [r|] eqn:Er; [|apply nth_error_None in Er; lia].
    eapply (H r); eauto.
  Qed.

  (** The three sets of positions, and what they report. *)
  Definition rset (p : pos) (d : @idataset R) : list nat :=
    match p with PosS => id_s d | PosP => id_p d | PosO => id_o d | PosG => id_ng d end.
  Definition rcomp (p : pos) (q : quad R) : R :=
    match p with PosS => q_s q | PosP => q_p q | PosO => q_o q | PosG => q_s q end.

  Lemma positions_sound p d s :
    p <> PosG -> id_rep (cmp:=cmp) d s ->
    exists v, id_values d (rset p d) = Some v /\ length (rset p d) = length v /\
      forall r, In r v -> exists q, In q s /\ rcomp p q = r.
  Proof.
    intros Hp [Hn (vs & I)].
    assert (Hl : forall k, In k (rset p d) -> exists i, uses (id_quads d) p k i).
    { destruct p; [apply (ii_s _ _ _ I)|apply (ii_p _ _ _ I)|apply (ii_o _ _ _ I)|congruence]. }
    destruct (values_total _ _ _ _ p I Hl) as (v & Ev & Hv & _).
    exists v; split; [exact Ev|]; split; [symmetry; eapply mapM_length; exact Ev|].
    intros r Hr; destruct (Hv r Hr) as (q & Hq & Hc); exists q; split; [now apply in_sorted|].
    destruct p; cbn in *; congruence.
  Qed.

  Lemma positions_stable p d s0 K n l :
    p <> PosG -> istate (cmp:=cmp) d s0 K n l ->
    exists v, id_values d (rset p d) = Some v /\
      forall r, K (eq r) -> known_log qcmp quad_comps (eq r) s0 l ->
        once r v /\ (In r v <-> stable cmp (rcomp p) (apply qcmp l s0) l r).
  Proof.
    intros Hp H; pose proof (is_rep _ _ _ _ _ H) as [Hn (vs & I)].
    assert (Hl : forall k, In k (rset p d) -> exists i, uses (id_quads d) p k i).
    { destruct p; [apply (ii_s _ _ _ I)|apply (ii_p _ _ _ I)|apply (ii_o _ _ _ I)|congruence]. }
    destruct (values_total _ _ _ _ p I Hl) as (v & Ev & Hv & Hi).
    exists v; split; [exact Ev|]; intros r HK Hk.
    pose proof (is_exact _ _ _ _ _ H _ HK Hk) as X; split.
    { eapply (values_once (eq r)); eauto.
      destruct p; [apply (ii_s _ _ _ I)|apply (ii_p _ _ _ I)|apply (ii_o _ _ _ I)|congruence]. }
    assert (Rep : exists fs : quad nat -> nat,
              (forall x, slot p x = Some (fs x)) /\
              reported (cmp:=cmp) (eq r) fs (rcomp p) (rset p d) d l).
    { destruct p; [exists q_s|exists q_p|exists q_o|congruence]; (split; [reflexivity|]);
        [apply (is_s _ _ _ _ _ H)|apply (is_p _ _ _ _ _ H)|apply (is_o _ _ _ _ _ H)]; assumption. }
    destruct Rep as (fs & Hfs & Rep).
    unfold stable; split.
    - intros Hr; destruct (Hv r Hr) as (q & Hq & Hc).
      assert (Hrq : rcomp p q = r) by (destruct p; cbn in *; congruence).
      split; [exists q; split; [now apply in_sorted|assumption]|].
      apply Hi in Hr as (k & Hk' & Hkv); destruct (Hl k Hk') as (i & x & Hx & Hs).
      destruct (id_live_value _ _ _ _ _ I Hx) as (q' & Hq' & _).
      destruct (iqwr_slot _ _ _ _ _ Hq' Hs) as (w & Hw & Hwv).
      assert (Hr' : rcomp p q' = r) by (destruct p; cbn in *; congruence).
      pose proof (proj1 (Rep i x q' Hx Hq' (eq_sym Hr'))) as Rq.
      rewrite Hr' in Rq; apply Rq; rewrite Hfs in Hs; inv Hs; assumption.
    - intros [(q & Hq & Hr) Hlast]; apply in_sorted in Hq.
      destruct (id_elem_index _ _ _ _ I Hq) as (i & x & Hx & Hqx).
      apply Hi; exists (fs x); split.
      + apply (Rep i x q Hx Hqx (eq_sym Hr)); now rewrite Hr.
      + destruct (iqwr_slot _ _ _ _ _ Hqx (Hfs x)) as (w & Hw & Hwv).
        rewrite Hwv; destruct p; cbn in *; congruence.
  Qed.

  Lemma known_one W r s l :
    (W r : Prop) -> known_log qcmp quad_comps W s l -> known_log qcmp quad_comps (eq r) s l.
  Proof. intros HW; apply known_log_weaken; intros x <-; exact HW. Qed.

  Lemma stable_lonely {X} {xcmp : X -> X -> comparison} (f : X -> R) s l :
    ord_laws xcmp -> lonely xcmp f s l -> forall r,
    stable cmp f (apply xcmp l s) l r <-> exists x, In x (apply xcmp l s) /\ f x = r.
  Proof.
    intros LX Hl r; unfold stable; split; [tauto|]; intros (x & Hx & <-); split; [eauto|].
    now apply (lonely_last_change LX L (fun _ => []) f s).
  Qed.

  Lemma named_complete d s :
    id_rep (cmp:=cmp) d s -> forall v, id_named_graphs d = Some v ->
    length (id_ng d) = length v /\ forall g q, In q s -> q_g q = Some g -> In g v.
  Proof.
    intros [Hn (vs & I)] v Ev; split; [symmetry; eapply mapM_length; exact Ev|].
    intros g q Hq Hg; apply in_sorted in Hq.
    destruct (id_elem_index _ _ _ _ I Hq) as (i & x & Hx & Hqx).
    destruct (iqwr_comp _ _ _ PosG _ Hqx Hg) as (k & Hs & Hv).
    apply (mapM_in _ _ _ _ Ev); exists k; split; [|assumption].
    apply (ii_ng _ _ _ I) with i; exists x; auto.
  Qed.

  Lemma named_exact d s0 K n l :
    istate (cmp:=cmp) d s0 K n l -> K any_resource -> known_log qcmp quad_comps any_resource s0 l ->
    tidy cmp s0 l ->
    exists v, id_named_graphs d = Some v /\ length (id_ng d) = length v /\ NoDup v /\
      forall g, In g v <-> exists q, In q (apply qcmp l s0) /\ q_g q = Some g.
  Proof.
    intros H HK Hk Ht; pose proof (is_rep _ _ _ _ _ H) as Hr; pose proof Hr as [Hn (vs & I)].
    destruct (values_total _ _ _ _ PosG I (is_ng _ _ _ _ _ H HK Hk Ht)) as (v & Ev & Hv & _).
    destruct (named_complete _ _ Hr v Ev) as [Hl Hc].
    exists v; split; [exact Ev|]; split; [exact Hl|]; split.
    - apply once_nodup; intros r; eapply (values_once any_resource); eauto;
        [apply (is_exact _ _ _ _ _ H _ HK Hk)|exact Logic.I|apply (ii_ng _ _ _ I)].
    - intros g; split; [|intros (q & Hq & Hg); eauto].
      intros Hg; destruct (Hv g Hg) as (q & Hq & Hc'); exists q; split; [now apply in_sorted|exact Hc'].
  Qed.

  Lemma id_positions_sound ops0 ops xs d :
    id_reached cmp keep ops0 ops xs d ->
    let s := final_set cmp ops0 ops xs in
    (exists v, id_subjects d = Some v /\ id_subject_count d = length v /\
       forall r, In r v -> exists q, In q s /\ q_s q = r) /\
    (exists v, id_predicates d = Some v /\ id_predicate_count d = length v /\
       forall r, In r v -> exists q, In q s /\ q_p q = r) /\
    (exists v, id_objects d = Some v /\ id_object_count d = length v /\
       forall r, In r v -> exists q, In q s /\ q_o q = r).
  Proof.
    intros H s; apply reached_rep in H; fold s in H; split; [|split].
    - apply (positions_sound PosS); [discriminate|assumption].
    - apply (positions_sound PosP); [discriminate|assumption].
    - apply (positions_sound PosO); [discriminate|assumption].
  Qed.

  (** Resource by resource. *)
  Lemma id_positions_each ops0 ops xs d :
    id_reached cmp keep ops0 ops xs d ->
    let s := final_set cmp ops0 ops xs in
    let l := late_log cmp ops0 ops xs in
    exists vs vp vo, id_subjects d = Some vs /\ id_predicates d = Some vp /\ id_objects d = Some vo /\
      forall r, known_log qcmp quad_comps (eq r) [] (full_log cmp ops0 ops xs) ->
        once r vs /\ (In r vs <-> stable cmp q_s s l r) /\
        once r vp /\ (In r vp <-> stable cmp q_p s l r) /\
        once r vo /\ (In r vo <-> stable cmp q_o s l r).
  Proof.
    intros H s l; apply reached_state in H as [H _].
    destruct (positions_stable PosS _ _ _ _ _ ltac:(discriminate) H) as (vs & Es & Hs).
    destruct (positions_stable PosP _ _ _ _ _ ltac:(discriminate) H) as (vp & Ep & Hp).
    destruct (positions_stable PosO _ _ _ _ _ ltac:(discriminate) H) as (vo & Eo & Ho).
    exists vs, vp, vo; split; [exact Es|]; split; [exact Ep|]; split; [exact Eo|].
    intros r Hk; apply full_known in Hk as [K1 K2].
    destruct (Hs r K1 K2), (Hp r K1 K2), (Ho r K1 K2); auto 10.
  Qed.

  (** If no quad with the resource in that position was removed while another
      one had it. *)
  Lemma stable_lonely_at {X} {xcmp : X -> X -> comparison} (f : X -> R) s l r :
    ord_laws xcmp -> lonely_at xcmp f r s l ->
    (stable cmp f (apply xcmp l s) l r <-> exists x, In x (apply xcmp l s) /\ f x = r).
  Proof.
    intros LX Hl; unfold stable; split; [tauto|]; intros Hx; split; [exact Hx|].
    assert (G : forall l, lonely_at xcmp f r s l -> (exists x, In x (apply xcmp l s) /\ f x = r) ->
              last_change cmp f r l <> Some false).
    { clear - L LX; induction l as [|[b y] l IH] using rev_ind; intros Hl (x & Hx & Hr); [discriminate|].
      rewrite last_change_snoc; cbn [fst snd].
      apply (lonely_at_app (fun _ => [])) in Hl as [Hl [Hy _]].
      rewrite apply_app in Hx; cbn in Hx.
      destruct (same cmp (f y) r) eqn:E.
      - apply (same_true L) in E; destruct b; [discriminate|].
        exfalso; apply (Hy E x Hx); exact Hr.
      - apply IH; [assumption|]; exists x; split; [|assumption].
        unfold apply_change in Hx; cbn in Hx; destruct b.
        + apply (in_add LX) in Hx as [->|Hx]; [|assumption]; apply (same_false L) in E; congruence.
        + apply (in_del LX) in Hx; tauto. }
    apply G; assumption.
  Qed.

  Lemma id_positions_at ops0 ops xs d :
    id_reached cmp keep ops0 ops xs d ->
    let s := final_set cmp ops0 ops xs in
    let s0 := spec_set qcmp ops0 in
    let l := late_log cmp ops0 ops xs in
    exists vs vp vo, id_subjects d = Some vs /\ id_predicates d = Some vp /\ id_objects d = Some vo /\
      forall r, known_log qcmp quad_comps (eq r) [] (full_log cmp ops0 ops xs) ->
        (lonely_at qcmp q_s r s0 l -> (In r vs <-> exists q, In q s /\ q_s q = r)) /\
        (lonely_at qcmp q_p r s0 l -> (In r vp <-> exists q, In q s /\ q_p q = r)) /\
        (lonely_at qcmp q_o r s0 l -> (In r vo <-> exists q, In q s /\ q_o q = r)).
  Proof.
    intros H s s0 l; destruct (id_positions_each _ _ _ _ H) as (vs & vp & vo & Es & Ep & Eo & G).
    exists vs, vp, vo; split; [exact Es|]; split; [exact Ep|]; split; [exact Eo|].
    intros r Hk; destruct (G r Hk) as (_ & A & _ & B & _ & C); rewrite A, B, C.
    split; [|split]; apply (stable_lonely_at _ _ _ _ LQ).
  Qed.

  Lemma id_positions_stable ops0 ops xs d :
    id_reached cmp keep ops0 ops xs d ->
    known_log qcmp quad_comps any_resource [] (full_log cmp ops0 ops xs) ->
    let s := final_set cmp ops0 ops xs in
    let l := late_log cmp ops0 ops xs in
    (exists v, id_subjects d = Some v /\ NoDup v /\ forall r, In r v <-> stable cmp q_s s l r) /\
    (exists v, id_predicates d = Some v /\ NoDup v /\ forall r, In r v <-> stable cmp q_p s l r) /\
    (exists v, id_objects d = Some v /\ NoDup v /\ forall r, In r v <-> stable cmp q_o s l r).
  Proof.
    intros H Hk s l; destruct (id_positions_each _ _ _ _ H) as (vs & vp & vo & Es & Ep & Eo & G).
    assert (G' : forall r, known_log qcmp quad_comps (eq r) [] (full_log cmp ops0 ops xs))
      by (intros r; apply (known_one any_resource); [exact Logic.I|exact Hk]).
    split; [exists vs|split; [exists vp|exists vo]]; (split; [assumption|]);
      (split; [apply once_nodup; intros r|intros r]); destruct (G r (G' r)); tauto.
  Qed.

  Lemma id_positions_exact ops0 ops xs d :
    id_reached cmp keep ops0 ops xs d ->
    known_log qcmp quad_comps any_resource [] (full_log cmp ops0 ops xs) ->
    let s := final_set cmp ops0 ops xs in
    let l := late_log cmp ops0 ops xs in
    (lonely qcmp q_s (spec_set qcmp ops0) l ->
     exists v, id_subjects d = Some v /\ NoDup v /\ forall r, In r v <-> exists q, In q s /\ q_s q = r) /\
    (lonely qcmp q_p (spec_set qcmp ops0) l ->
     exists v, id_predicates d = Some v /\ NoDup v /\ forall r, In r v <-> exists q, In q s /\ q_p q = r) /\
    (lonely qcmp q_o (spec_set qcmp ops0) l ->
     exists v, id_objects d = Some v /\ NoDup v /\ forall r, In r v <-> exists q, In q s /\ q_o q = r).
  Proof.
    intros H Hk s l.
    destruct (id_positions_stable _ _ _ _ H Hk) as ((v1 & A1 & B1 & C1) & (v2 & A2 & B2 & C2) & (v3 & A3 & B3 & C3)).
    split; [|split]; intros Hl.
    - exists v1; split; [exact A1|]; split; [exact B1|]; intros r; rewrite C1; now apply stable_lonely.
    - exists v2; split; [exact A2|]; split; [exact B2|]; intros r; rewrite C2; now apply stable_lonely.
    - exists v3; split; [exact A3|]; split; [exact B3|]; intros r; rewrite C3; now apply stable_lonely.
  Qed.

  Lemma id_named_complete ops0 ops xs d :
    id_reached cmp keep ops0 ops xs d ->
    forall v, id_named_graphs d = Some v ->
      id_named_graph_count d = length v /\
      forall g q, In q (final_set cmp ops0 ops xs) -> q_g q = Some g -> In g v.
  Proof. intros H; apply named_complete, reached_rep, H. Qed.

  Lemma id_named_exact ops0 ops xs d :
    id_reached cmp keep ops0 ops xs d ->
    known_log qcmp quad_comps any_resource [] (full_log cmp ops0 ops xs) ->
    tidy cmp (spec_set qcmp ops0) (late_log cmp ops0 ops xs) ->
    exists v, id_named_graphs d = Some v /\ id_named_graph_count d = length v /\ NoDup v /\
      forall g, In g v <-> exists q, In q (final_set cmp ops0 ops xs) /\ q_g q = Some g.
  Proof.
    intros H Hk Ht; apply reached_state in H as [H _]; apply full_known in Hk as [K1 K2].
    eapply named_exact; eauto.
  Qed.

  Lemma id_resources_used ops0 ops xs d :
    id_reached cmp keep ops0 ops xs d ->
    exists l, id_resources_iter d = Some l /\ increasing cmp l /\
      (forall r, id_contains_resource cmp d r = Some (mem cmp r l)) /\
      (forall r, In r l -> occurs quad_comps r (final_set cmp ops0 ops xs)) /\
      (forall r, known_log qcmp quad_comps (eq r) [] (full_log cmp ops0 ops xs) ->
       (In r l <-> occurs quad_comps r (final_set cmp ops0 ops xs))) /\
      (known_log qcmp quad_comps any_resource [] (full_log cmp ops0 ops xs) ->
       id_resource_count d = length l).
  Proof.
    intros H; pose proof (reached_rep _ _ _ _ H) as [Hn (vs & I)].
    pose proof (iri_idx _ _ _ _ (ii_res _ _ _ I)) as J.
    exists vs; split; [apply J|]; split; [apply J|]; split; [|split; [|split]].
    - intros r; unfold id_contains_resource.
      destruct (i_index_of_resource_spec L _ _ _ _ r (ii_res _ _ _ I)) as (f & -> & Hf); cbn.
      f_equal; symmetry; destruct f; [now apply (mem_true L)|now apply (mem_false L)].
    - intros r Hr; apply (occurs_sorted (cmp:=cmp)); eapply id_vs_used; eauto.
    - intros r Hk; pose proof (reached_exact _ _ _ _ _ H Hk) as X; split.
      + intros Hr; apply (occurs_sorted (cmp:=cmp)); eapply id_vs_used; eauto.
      + intros Hr; eapply (id_used_vs (eq r)); eauto; now apply (occurs_sorted (cmp:=cmp)).
    - intros Hk; pose proof (reached_exact _ _ _ _ _ H Hk) as X.
      unfold id_resource_count; rewrite (slen_keys _ (id_ri d)).
      + destruct J as [J _]; symmetry; eapply mapM_length; eauto.
      + eapply (indexes_nodup L); eauto.
      + intros i; split.
        * intros Hi; destruct J as [J _].
          destruct (mapM_in_inv _ _ _ _ J Hi) as (v & Hv & _); unfold ir_val in Hv.
          destruct (sget (id_resources d) i); discriminate.
        * intros Hi; destruct (sget (id_resources d) i) as [y|] eqn:Ey; [|congruence].
          apply (X i (ir_value y)); [unfold ir_val; now rewrite Ey|exact Logic.I].
  Qed.

  Lemma id_no_panic ops0 ops xs d :
    id_reached cmp keep ops0 ops xs d ->
    id_iter d <> None /\ id_into_iter d <> None /\ id_resources_iter d <> None /\
    id_subjects d <> None /\ id_predicates d <> None /\ id_objects d <> None /\
    (forall spare c, id_pattern_matching cmp d spare c <> None) /\
    (forall spare c, id_multi_pattern_matching cmp d spare c <> None) /\
    (forall spare c n, id_extract cmp d spare c n <> None) /\
    (forall g, id_remove_graph cmp keep d g <> None).
  Proof.
    intros H; destruct (id_contents _ _ _ _ H) as (l & -> & -> & _).
    destruct (id_resources_used _ _ _ _ H) as (l2 & -> & _).
    destruct (id_positions_sound _ _ _ _ H) as ((v1 & -> & _) & (v2 & -> & _) & (v3 & -> & _)).
    repeat (split; [discriminate|]); split; [|split; [|split]].
    - intros spare c; destruct (id_pattern_sound _ _ _ _ spare c H) as (m & -> & _); discriminate.
    - intros spare c; destruct (id_multi_sound _ _ _ _ spare c H) as (m & -> & _); discriminate.
    - intros spare c n; apply reached_state in H as [H _].
      destruct (id_extract_found L _ _ _ _ _ spare c n H) as (qs & d' & _ & _ & -> & _); discriminate.
    - intros g; apply reached_state in H as [H _].
      destruct (istate_remove_graph L keep _ _ _ _ _ g H) as (r & d' & -> & _); discriminate.
  Qed.

  (** ** C31, C32 *)
  Lemma id_remove_graph_any ops0 ops xs d g :
    id_reached cmp keep ops0 ops xs d ->
    let s := final_set cmp ops0 ops xs in
    exists r d' l', id_remove_graph cmp keep d g = Some (r, d') /\ id_iter d' = Some l' /\
      match r with
      | None => forall q, In q l' <-> In q s
      | Some b => exists ts, bg_iter b = Some ts /\ increasing tcmp ts /\
          (forall t, In t ts -> In (tq g t) s) /\
          (forall q, In q l' <-> In q s /\ ~ (q_g q = g /\ In (Triple (q_s q) (q_p q) (q_o q)) ts))
      end /\
      (known_log qcmp quad_comps (fun r => g = Some r) [] (full_log cmp ops0 ops xs) ->
       (forall q, In q l' <-> In q s /\ q_g q <> g) /\
       match r with
       | None => forall q, In q s -> q_g q <> g
       | Some b => exists ts, bg_iter b = Some ts /\ forall t, In t ts <-> In (tq g t) s
       end).
  Proof.
    intros H s; pose proof (reached_exact (fun r => g = Some r) _ _ _ _ H) as X.
    apply reached_state in H as [H _].
    destruct (istate_remove_graph L keep _ _ _ _ _ g H) as (r & d' & E & Hr); cbn zeta in Hr.
    fold (final_set cmp ops0 ops xs) in Hr; fold s in Hr.
    exists r, d'; destruct r as [b|].
    - destruct Hr as (ts & Hb & Ei & Hin & Hc & H').
      pose proof (is_rep _ _ _ _ _ H') as Hr; rewrite apply_app in Hr.
      fold (final_set cmp ops0 ops xs) in Hr; fold s in Hr.
      eexists; split; [exact E|]; split; [apply (id_iter_rep _ _ Hr)|].
      assert (Inq : forall q, In q (sorted_elements qcmp
                 (apply qcmp (removals (map (tq g) (sorted_elements tcmp ts))) s)) <->
                 In q s /\ ~ (q_g q = g /\ In (Triple (q_s q) (q_p q) (q_o q)) ts)).
      { intros q; rewrite in_sorted, (in_apply_removals LQ quad_comps), in_map_iff; split; intros [A B]; split; auto; intros C; apply B.
        - destruct C as [Cg Ct]; exists (Triple (q_s q) (q_p q) (q_o q)); cbn; split.
          + rewrite <- Cg; now destruct q.
          + now apply (in_sorted_elements (cmp:=tcmp)).
        - destruct C as (t & <- & Ht); cbn; split; [reflexivity|].
          rewrite (in_sorted_elements (cmp:=tcmp)) in Ht; now destruct t. }
      split.
      + exists (sorted_elements tcmp ts); split; [exact Ei|].
        split; [apply (sorted_elements_sorted LT), Hb|]; split.
        * intros t Ht; apply Hin; now apply (in_sorted_elements (cmp:=tcmp)).
        * intros q; rewrite Inq, (in_sorted_elements (cmp:=tcmp)); tauto.
      + intros Hx; assert (Hc' : forall q, In q s -> q_g q = g -> In (Triple (q_s q) (q_p q) (q_o q)) ts).
        { apply Hc, X, Hx. }
        split.
        * intros q; rewrite Inq; split; intros [A B]; (split; [exact A|]); [auto|tauto].
        * exists (sorted_elements tcmp ts); split; [exact Ei|]; intros t.
          rewrite (in_sorted_elements (cmp:=tcmp)); split; [apply Hin|].
          intros Ht; specialize (Hc' _ Ht eq_refl); now destruct t.
    - destruct Hr as (-> & Hg & Hn).
      pose proof (id_iter_rep _ _ (is_rep _ _ _ _ _ H)) as Ed.
      fold (final_set cmp ops0 ops xs) in Ed; fold s in Ed.
      eexists; split; [exact E|]; split; [exact Ed|]; split; [apply in_sorted|].
      intros Hx; specialize (Hn (X Hx)); split; [|exact Hn].
      intros q; rewrite in_sorted; split; [|tauto]; auto.
  Qed.

  Lemma id_remove_graph_each ops0 ops xs d g :
    id_reached cmp keep ops0 ops xs d ->
    let s := final_set cmp ops0 ops xs in
    exists r d' l', id_remove_graph cmp keep d g = Some (r, d') /\ id_iter d' = Some l' /\
      match r with
      | None => forall q, In q l' <-> In q s
      | Some b => exists ts, bg_iter b = Some ts /\ increasing tcmp ts /\
          (forall t, In t ts -> In (tq g t) s) /\
          (forall q, In q l' <-> In q s /\ ~ (q_g q = g /\ In (Triple (q_s q) (q_p q) (q_o q)) ts))
      end /\
      ((forall r, g = Some r -> known_log qcmp quad_comps (eq r) [] (full_log cmp ops0 ops xs)) ->
       (forall q, In q l' <-> In q s /\ q_g q <> g) /\
       match r with
       | None => forall q, In q s -> q_g q <> g
       | Some b => exists ts, bg_iter b = Some ts /\ forall t, In t ts <-> In (tq g t) s
       end).
  Proof.
    intros H s; destruct (id_remove_graph_any _ _ _ _ g H) as (r & d' & l' & E & Ei & A & B).
    exists r, d', l'; split; [exact E|]; split; [exact Ei|]; split; [exact A|].
    intros Hk; apply B; destruct g as [g|].
    - eapply known_log_weaken; [|exact (Hk g eq_refl)]; intros x Hx; now inv Hx.
    - apply known_nothing; discriminate.
  Qed.

  (** The graph returned is a set from then on. *)
  Lemma id_removed_graph_usable ops0 ops xs d g b d' :
    id_reached cmp keep ops0 ops xs d -> id_remove_graph cmp keep d g = Some (Some b, d') ->
    exists ts, bg_iter b = Some ts /\
      forall ops', exists b' l, run (bg_step cmp keep) b ops' = Some (fst (spec_run tcmp ts ops'), b') /\
        bg_iter b' = Some l /\ increasing tcmp l /\
        forall t, In t l <-> In t (snd (spec_run tcmp ts ops')).
  Proof.
    intros H E; apply reached_state in H as [H _].
    destruct (istate_remove_graph L keep _ _ _ _ _ g H) as (r & d1 & E1 & Hr).
    rewrite E in E1; inv E1; destruct Hr as (ts & Hb & Ei & _).
    exists (sorted_elements tcmp ts); split; [exact Ei|].
    assert (Hb' : bg_rep (cmp:=cmp) b (sorted_elements tcmp ts)).
    { destruct Hb as [Hn [Hn2 (vs & I)]].
      assert (Hs : NoDup (sorted_elements tcmp ts))
        by (apply (ssorted_nodup LT), (sorted_elements_sorted LT), Hn).
      split; [exact Hs|]; split.
      - apply FinFun.Injective_map_NoDup; [intros x y; apply iq_inj|exact Hs].
      - exists vs; replace (sorted_elements qcmp (map iq (sorted_elements tcmp ts)))
          with (sorted_elements qcmp (map iq ts)); [exact I|].
        rewrite !sorted_iq; f_equal; apply (tsorted_ext L); auto.
        intros x; symmetry; apply (in_sorted_elements (cmp:=tcmp)). }
    intros ops'; destruct (bg_run_rep L keep ops' _ _ Hb') as (b' & Eb & Hb2).
    eexists b', _; split; [exact Eb|]; split; [exact (bg_iter_rep _ _ Hb2)|]; split.
    - apply (sorted_elements_sorted LT), Hb2.
    - intros t; apply in_sorted_elements.
  Qed.

  Lemma id_extract_any ops0 ops xs d spare c n :
    id_reached cmp keep ops0 ops xs d ->
    let s := final_set cmp ops0 ops xs in
    exists all d' l', id_pattern_matching cmp d spare c = Some all /\
      id_extract cmp d spare c n = Some (firstn n all, d') /\ id_iter d' = Some l' /\
      (forall q, In q (firstn n all) -> In q s /\ cq_matches c q) /\
      (forall q, In q l' <-> In q s /\ ~ In q (firstn n all)).
  Proof.
    intros H s; apply reached_state in H as [H _].
    destruct (id_extract_found L _ _ _ _ _ spare c n H) as (qs & d' & E & (_ & F & _) & E' & H').
    pose proof (is_rep _ _ _ _ _ H') as Hr; rewrite apply_app in Hr.
    fold (final_set cmp ops0 ops xs) in Hr; fold s in Hr.
    exists qs, d'; eexists; split; [exact E|]; split; [exact E'|].
    split; [apply (id_iter_rep _ _ Hr)|]; split.
    - intros q Hq; apply F; eapply firstn_in; eauto.
    - intros q; rewrite in_sorted; apply (in_apply_removals LQ quad_comps).
  Qed.

  Lemma id_extract_complete ops0 ops xs d spare c n :
    id_reached cmp keep ops0 ops xs d ->
    subject_given c \/ vacancies 0 (full_log cmp ops0 ops xs) = 0 ->
    let s := final_set cmp ops0 ops xs in
    length s <= n ->
    exists l d' l', id_extract cmp d spare c n = Some (l, d') /\ id_iter d' = Some l' /\ NoDup l /\
      (forall q, In q l -> In q s /\ cq_matches c q) /\
      (forall q, In q l' <-> In q s /\ ~ In q l) /\
      (forall q, In q s -> cq_matches c q ->
         known_log qcmp quad_comps (fun r => In r (cq_checked c q)) [] (full_log cmp ops0 ops xs) ->
         In q l).
  Proof.
    intros H Hv s Hn.
    destruct (id_pattern_complete _ _ _ _ spare c H Hv) as (all & E & Hnd & Hall & Hc).
    destruct (id_extract_any _ _ _ _ spare c n H) as (all' & d' & l' & E' & Ee & Ei & _ & Hl').
    rewrite E in E'; inv E'; fold s in Hl', Hall, Hc.
    assert (Hf : firstn n all' = all').
    { apply firstn_all2; etransitivity; [|exact Hn].
      apply NoDup_incl_length; [assumption|]; intros q Hq; now apply Hall. }
    rewrite Hf in *; exists all', d', l'; auto 10.
  Qed.

  Lemma id_extract_exact ops0 ops xs d spare c n :
    id_reached cmp keep ops0 ops xs d ->
    known_log qcmp quad_comps any_resource [] (full_log cmp ops0 ops xs) ->
    subject_given c \/ vacancies 0 (full_log cmp ops0 ops xs) = 0 ->
    let s := final_set cmp ops0 ops xs in
    length s <= n ->
    exists l d' l', id_extract cmp d spare c n = Some (l, d') /\ id_iter d' = Some l' /\ NoDup l /\
      (forall q, In q l <-> In q s /\ cq_matches c q) /\
      (forall q, In q l' <-> In q s /\ ~ cq_matches c q).
  Proof.
    intros H Hk Hv s Hn.
    destruct (id_pattern_exact _ _ _ _ spare c H Hk Hv) as (all & E & Hnd & Hall).
    destruct (id_extract_any _ _ _ _ spare c n H) as (all' & d' & l' & E' & Ee & Ei & _ & Hl').
    rewrite E in E'; inv E'; fold s in Hl', Hall.
    assert (Hf : firstn n all' = all').
    { apply firstn_all2; etransitivity; [|exact Hn].
      apply NoDup_incl_length; [assumption|]; intros q Hq; now apply Hall. }
    rewrite Hf in *; exists all', d', l'; split; [exact Ee|]; split; [exact Ei|].
    split; [exact Hnd|]; split; [exact Hall|].
    intros q; rewrite Hl', Hall; tauto.
  Qed.

  (** ** C50 *)
  Lemma id_eqb_rep (eqb : R -> R -> bool) a b s t :
    (forall x y, eqb x y = true <-> x = y) ->
    id_rep (cmp:=cmp) a s -> id_rep (cmp:=cmp) b t ->
    exists r, id_eqb eqb a b = Some r /\ (r = true <-> forall q, In q s <-> In q t).
  Proof.
    intros H Ha Hb; unfold id_eqb.
    rewrite (id_len_rep L _ _ Ha), (id_len_rep L _ _ Hb).
    rewrite (id_iter_rep _ _ Ha), (id_iter_rep _ _ Hb); cbn.
    destruct Ha as [Ns _], Hb as [Nt _].
    destruct (_ =? _) eqn:E.
    - apply Nat.eqb_eq in E; eexists; split; [reflexivity|].
      rewrite (forallb_combine (quad_eqb eqb eqb eqb eqb)); [|now apply quad_eqb_spec|].
      + now apply (sorted_elements_ext L).
      + now rewrite !(length_sorted L).
    - apply Nat.eqb_neq in E; exists false; split; [reflexivity|]; split; [discriminate|].
      intros Hq; exfalso; apply E; apply (sorted_elements_ext L) in Hq; auto.
      now rewrite <- (length_sorted L s), <- (length_sorted L t), Hq.
  Qed.

  Lemma id_hash_rep d s :
    id_rep (cmp:=cmp) d s -> id_hash_input d = Some (length s, sorted_elements qcmp s).
  Proof.
    intros H; unfold id_hash_input; rewrite (id_iter_rep _ _ H); cbn.
    now rewrite (id_len_rep L _ _ H).
  Qed.

  Lemma id_cmp_rep a b s t :
    id_rep (cmp:=cmp) a s -> id_rep (cmp:=cmp) b t ->
    id_cmp cmp a b = Some (list_cmp qcmp (sorted_elements qcmp s) (sorted_elements qcmp t)).
  Proof. intros Ha Hb; unfold id_cmp; now rewrite (id_iter_rep _ _ Ha), (id_iter_rep _ _ Hb). Qed.

  Lemma id_equality (eqb : R -> R -> bool) ops01 ops1 xs1 d1 ops02 ops2 xs2 d2 :
    (forall x y, eqb x y = true <-> x = y) ->
    id_reached cmp keep ops01 ops1 xs1 d1 -> id_reached cmp keep ops02 ops2 xs2 d2 ->
    exists b h1 h2, id_eqb eqb d1 d2 = Some b /\
      id_hash_input d1 = Some h1 /\ id_hash_input d2 = Some h2 /\
      (b = true <->
         forall q, In q (final_set cmp ops01 ops1 xs1) <-> In q (final_set cmp ops02 ops2 xs2)) /\
      (b = true <-> id_cmp cmp d1 d2 = Some Eq) /\
      (b = true <-> h1 = h2).
  Proof.
    intros He H1 H2; apply reached_rep in H1, H2.
    destruct (id_eqb_rep eqb _ _ _ _ He H1 H2) as (b & Eb & Hb).
    eexists b, _, _; split; [exact Eb|]; split; [apply id_hash_rep; eauto|].
    split; [apply id_hash_rep; eauto|]; split; [exact Hb|].
    pose proof (proj1 H1) as N1; pose proof (proj1 H2) as N2.
    split.
    - rewrite (id_cmp_rep _ _ _ _ H1 H2), Hb.
      rewrite <- (sorted_elements_ext L _ _ N1 N2), <- (ord_eq _ (list_cmp_laws LQ)).
      split; congruence.
    - rewrite Hb, <- (sorted_elements_ext L _ _ N1 N2); split.
      + intros E; f_equal; [|exact E].
        rewrite <- (length_sorted L _ N1), E; now apply length_sorted.
      + intros E; inv E; reflexivity.
  Qed.

  Lemma id_ordering ops01 ops1 xs1 d1 ops02 ops2 xs2 d2 :
    id_reached cmp keep ops01 ops1 xs1 d1 -> id_reached cmp keep ops02 ops2 xs2 d2 ->
    exists l1 l2, id_iter d1 = Some l1 /\ id_iter d2 = Some l2 /\
      id_cmp cmp d1 d2 = Some (list_cmp qcmp l1 l2) /\ ord_laws (list_cmp qcmp).
  Proof.
    intros H1 H2; apply reached_rep in H1, H2.
    eexists _, _; split; [apply (id_iter_rep _ _ H1)|]; split; [apply (id_iter_rep _ _ H2)|].
    split; [now apply id_cmp_rep|apply (list_cmp_laws LQ)].
  Qed.

  Lemma id_from_iter_rep l :
    exists d, id_from_iter cmp keep l = Some d /\
      id_rep (cmp:=cmp) d (fold_left (fun s q => add qcmp q s) l []).
  Proof.
    destruct (start_spec L keep [] _ _ eq_refl) as (d0 & E0 & H0); inv E0.
    destruct (istate_extend L keep l _ _ _ _ _ H0) as (d & E & H).
    exists d; split; [exact E|]; apply is_rep in H; cbn -[apply extend_changes] in H.
    change (apply qcmp [] (spec_set qcmp [])) with (@nil (quad R)) in H.
    rewrite <- (apply_extend (cmp:=qcmp)); exact H.
  Qed.

  Lemma id_collect l :
    exists d, id_from_iter cmp keep l = Some d /\
      exists m, id_iter d = Some m /\ increasing qcmp m /\ forall q, In q m <-> In q l.
  Proof.
    destruct (id_from_iter_rep l) as (d & E & H); exists d; split; [exact E|].
    eexists; split; [apply (id_iter_rep _ _ H)|]; split.
    - destruct H as [Hn _]; now apply (sorted_elements_sorted LQ).
    - intros q; rewrite in_sorted, (in_fold_add L); cbn; tauto.
  Qed.

  Lemma id_rebuild (eqb : R -> R -> bool) ops0 ops xs d :
    (forall x y, eqb x y = true <-> x = y) ->
    id_reached cmp keep ops0 ops xs d ->
    exists l d', id_iter d = Some l /\ id_serialize d = Some (length l, l) /\
      id_from_iter cmp keep l = Some d' /\ id_eqb eqb d d' = Some true.
  Proof.
    intros He H; apply reached_rep in H.
    set (l := sorted_elements qcmp (final_set cmp ops0 ops xs)).
    destruct (id_from_iter_rep l) as (d' & E & H').
    exists l, d'; split; [now apply id_iter_rep|]; split.
    - unfold l; rewrite (length_sorted L) by apply H; now apply id_hash_rep.
    - split; [exact E|].
      destruct (id_eqb_rep eqb _ _ _ _ He H H') as (b & Eb & Hb); rewrite Eb; f_equal.
      apply Hb; intros q; rewrite (in_fold_add L); cbn; unfold l; rewrite in_sorted; tauto.
  Qed.
End Proofs.

(** ** Counterexamples *)
Notation nq := (quad_cmp Nat.compare).

(** The dataset after the operations [ops] on a new one. *)
Definition after (ops : list (iop nat)) (keep : bool) : @idataset nat :=
  match run (id_step Nat.compare keep) id_new ops with Some (_, d) => d | None => id_new end.

Lemma after_reached keep ops xs :
  option_map fst (run (id_step Nat.compare keep) id_new ops) = Some xs ->
  id_reached Nat.compare keep [] ops xs (after ops keep).
Proof.
  intros H; exists [], bd_new, id_new; split; [reflexivity|]; split; [reflexivity|].
  unfold after; destruct (run _ _ ops) as [[ys d]|]; inv H; reflexivity.
Qed.

(** Decision procedures for the examples. *)
Section Decide.
  Context {X : Type} (cmp : X -> X -> comparison) (comps : X -> list nat).
  Context (W : nat -> Prop) (w : nat -> bool) (HW : forall r, W r -> w r = true).

  Fixpoint repeats_knownb (ks l : list nat) : bool :=
    match l with
    | [] => true
    | x :: l => (negb (w x) || negb (mem Nat.compare x l) || mem Nat.compare x ks) && repeats_knownb ks l
    end.

  Lemma repeats_knownb_sound ks l :
    repeats_knownb ks l = true ->
    forall i j r, W r -> i < j -> nth_error l i = Some r -> nth_error l j = Some r -> In r ks.
  Proof.
    induction l as [|x l IH]; cbn; intros H i j r Hr Hij Hi Hj; [now destruct i|].
    apply andb_prop in H as [H1 H2].
    destruct j as [|j]; [lia|]; cbn in Hj; destruct i as [|i]; cbn in Hi.
    - inv Hi; apply HW in Hr; rewrite Hr in H1; cbn in H1; apply orb_prop in H1 as [H1|H1].
      + apply negb_true_iff, (mem_false nat_compare_laws) in H1; exfalso; apply H1.
        eapply nth_error_In; eauto.
      + now apply (mem_true nat_compare_laws) in H1.
    - apply (IH H2 i j); auto; lia.
  Qed.

  Fixpoint known_logb (s : list X) (l : list (change X)) : bool :=
    match l with
    | [] => true
    | (b, x) :: r =>
        (if b then repeats_knownb (flat_map comps s) (comps x) else true) &&
        known_logb (apply_change cmp s (b, x)) r
    end.

  Lemma known_logb_sound l : forall s, known_logb s l = true -> known_log cmp comps W s l.
  Proof.
    induction l as [|[b x] l IH]; intros s; cbn -[apply_change]; [auto|].
    intros H; apply andb_prop in H as [H1 H2]; split; [|now apply IH].
    destruct b; [|exact I]; intros i j r Hw Hij Hi Hj.
    apply (repeats_knownb_sound _ _ H1 i j r Hw Hij Hi), in_flat_map in Hj as (y & Hy & Hr).
    exists y; auto.
  Qed.
End Decide.

Ltac known :=
  apply (known_logb_sound _ _ _ (fun _ => true)); [intros; reflexivity|vm_compute; reflexivity].
(** Among the resources in the list [l]. *)
Ltac known_in l :=
  apply (known_logb_sound _ _ _ (fun r => mem Nat.compare r l));
    [intros ?r Hr; apply (mem_true nat_compare_laws); cbn in Hr |- *; intuition congruence
    |vm_compute; reflexivity].
Ltac reach := apply after_reached; match goal with k : bool |- _ => destruct k end;
  vm_compute; reflexivity.

Lemma id_pattern_counterexample_repeat :
  exists ops xs d c q, forall keep,
    id_reached Nat.compare keep [] ops xs (d keep) /\
    In q (final_set Nat.compare [] ops xs) /\ cq_matches c q /\
    forall spare, exists l, id_pattern_matching Nat.compare (d keep) spare c = Some l /\ ~ In q l.
Proof.
  set (ops := [IOp (Insert (Quad 1 1 2 None))]).
  exists ops, [IOut (OBool true)], (after ops),
    (CQ_AnyS (QA_SameS (QAG_Any (QAGA_Given None)))), (Quad 1 1 2 None).
  intros keep; split; [reach|]; split; [now left|]; split; [repeat split|].
  intros spare; exists []; split; [|intros []]; destruct keep, spare; vm_compute; reflexivity.
Qed.

Lemma id_pattern_counterexample_hole :
  exists ops xs d c q, forall keep,
    id_reached Nat.compare keep [] ops xs (d keep) /\
    known_log nq quad_comps any_resource [] (full_log Nat.compare [] ops xs) /\
    In q (final_set Nat.compare [] ops xs) /\ cq_matches c q /\
    forall spare, exists l, id_pattern_matching Nat.compare (d keep) spare c = Some l /\ ~ In q l.
Proof.
  set (ops := [IOp (Insert (Quad 1 2 3 None)); IOp (Insert (Quad 4 5 6 None));
               IOp (Remove (Quad 1 2 3 None))]).
  exists ops, [IOut (OBool true); IOut (OBool true); IOut (OBool true)], (after ops),
    (CQ_AnyS (QA_AnyP (QAA_Any QAAA_Any))), (Quad 4 5 6 None).
  intros keep; split; [reach|]; split.
  { known. }
  split; [vm_compute; auto|]; split; [repeat split|].
  intros spare; exists []; split; [|intros []]; destruct keep, spare; vm_compute; reflexivity.
Qed.

(** Removing a quad hides the resources of the others. *)
Lemma id_positions_counterexample :
  exists ops xs d q, forall keep,
    id_reached Nat.compare keep [] ops xs (d keep) /\
    known_log nq quad_comps any_resource [] (full_log Nat.compare [] ops xs) /\
    In q (final_set Nat.compare [] ops xs) /\
    id_subjects (d keep) = Some [] /\ id_predicates (d keep) = Some [].
Proof.
  set (ops := [IOp (Insert (Quad 1 2 3 None)); IOp (Insert (Quad 1 2 4 None));
               IOp (Remove (Quad 1 2 3 None))]).
  exists ops, [IOut (OBool true); IOut (OBool true); IOut (OBool true)], (after ops),
    (Quad 1 2 4 None).
  intros keep; split; [reach|]; split; [known|]; split; [vm_compute; auto|].
  destruct keep; vm_compute; auto.
Qed.

Lemma id_objects_counterexample :
  exists ops xs d q, forall keep,
    id_reached Nat.compare keep [] ops xs (d keep) /\
    known_log nq quad_comps any_resource [] (full_log Nat.compare [] ops xs) /\
    In q (final_set Nat.compare [] ops xs) /\ id_objects (d keep) = Some [].
Proof.
  set (ops := [IOp (Insert (Quad 1 2 3 None)); IOp (Insert (Quad 4 5 3 None));
               IOp (Remove (Quad 1 2 3 None))]).
  exists ops, [IOut (OBool true); IOut (OBool true); IOut (OBool true)], (after ops),
    (Quad 4 5 3 None).
  intros keep; split; [reach|]; split; [known|]; split; [vm_compute; auto|].
  destruct keep; vm_compute; auto.
Qed.

(** A graph name survives its last quad. *)
Lemma id_named_counterexample :
  exists ops xs d g, forall keep,
    id_reached Nat.compare keep [] ops xs (d keep) /\
    known_log nq quad_comps any_resource [] (full_log Nat.compare [] ops xs) /\
    (forall q, In q (final_set Nat.compare [] ops xs) -> q_g q <> Some g) /\
    id_named_graphs (d keep) = Some [g].
Proof.
  set (ops := [IOp (Insert (Quad 1 2 3 (Some 4))); IOp (Insert (Quad 4 2 3 None));
               IOp (Remove (Quad 1 2 3 (Some 4)))]).
  exists ops, [IOut (OBool true); IOut (OBool true); IOut (OBool true)], (after ops), 4.
  intros keep; split; [reach|]; split; [known|]; split.
  - vm_compute; intros q [<-|[]]; discriminate.
  - destruct keep; vm_compute; auto.
Qed.

(** Later the slot of the name is that of a resource that never named a graph. *)
Lemma id_phantom_counterexample :
  exists ops xs d r, forall keep,
    id_reached Nat.compare keep [] ops xs (d keep) /\
    known_log nq quad_comps any_resource [] (full_log Nat.compare [] ops xs) /\
    (forall q, In q (map snd (full_log Nat.compare [] ops xs)) -> q_g q <> Some r) /\
    id_named_graphs (d keep) = Some [r].
Proof.
  set (ops := [IOp (Insert (Quad 1 2 3 (Some 4))); IOp (Insert (Quad 4 2 3 None));
               IOp (Remove (Quad 1 2 3 (Some 4))); IOp (Remove (Quad 4 2 3 None));
               IOp (Insert (Quad 7 8 9 None))]).
  exists ops, [IOut (OBool true); IOut (OBool true); IOut (OBool true); IOut (OBool true); IOut (OBool true)],
    (after ops), 9.
  intros keep; split; [reach|]; split; [known|]; split.
  - vm_compute; intros q H; repeat (destruct H as [<-|H]; [discriminate|]); contradiction.
  - destruct keep; vm_compute; auto.
Qed.

(** ... and later names nothing: iterating over the named graphs panics. *)
Lemma id_panic_counterexample :
  exists ops xs d, forall keep,
    id_reached Nat.compare keep [] ops xs (d keep) /\
    known_log nq quad_comps any_resource [] (full_log Nat.compare [] ops xs) /\
    id_named_graphs (d keep) = None.
Proof.
  set (ops := [IOp (Insert (Quad 1 2 3 (Some 4))); IOp (Insert (Quad 4 2 3 None));
               IOp (Remove (Quad 1 2 3 (Some 4))); IOp (Remove (Quad 4 2 3 None))]).
  exists ops, [IOut (OBool true); IOut (OBool true); IOut (OBool true); IOut (OBool true)],
    (after ops).
  intros keep; split; [reach|]; split; [known|].
  destruct keep; vm_compute; auto.
Qed.

(** Subjects or predicates reported twice. *)
Lemma id_duplicate_counterexample :
  exists ops xs d v w, forall keep,
    id_reached Nat.compare keep [] ops xs (d keep) /\
    id_subjects (d keep) = Some (v keep) /\ id_predicates (d keep) = Some (w keep) /\
    ~ (NoDup (v keep) /\ NoDup (w keep)).
Proof.
  set (ops := [IOp (Insert (Quad 1 1 2 None)); IOp (Insert (Quad 1 3 4 None));
               IOp (Insert (Quad 5 1 6 None))]).
  exists ops, [IOut (OBool true); IOut (OBool true); IOut (OBool true)], (after ops),
    (fun k => match id_subjects (after ops k) with Some v => v | None => [] end),
    (fun k => match id_predicates (after ops k) with Some v => v | None => [] end).
  intros keep; split; [reach|]; destruct keep; vm_compute; (split; [reflexivity|]);
    (split; [reflexivity|]); intros [A B]; inversion A as [|a la Ha Ha']; inversion B as [|b lb Hb Hb'];
    subst; inversion Ha' as [|c lc Hc Hc']; inversion Hb' as [|e le Hh Hh']; subst; cbn in *; tauto.
Qed.

(** A graph that is not found. *)
Lemma id_remove_graph_counterexample :
  exists ops xs d g q, forall keep,
    id_reached Nat.compare keep [] ops xs (d keep) /\
    In q (final_set Nat.compare [] ops xs) /\ q_g q = g /\
    id_remove_graph Nat.compare keep (d keep) g = Some (None, d keep).
Proof.
  set (ops := [IOp (Insert (Quad 1 2 3 (Some 3))); IOp (Insert (Quad 4 5 6 (Some 3)));
               IOp (Remove (Quad 1 2 3 (Some 3)))]).
  exists ops, [IOut (OBool true); IOut (OBool true); IOut (OBool true)], (after ops),
    (Some 3), (Quad 4 5 6 (Some 3)).
  intros keep; split; [reach|]; split; [vm_compute; auto|]; split; [reflexivity|].
  destruct keep; vm_compute; reflexivity.
Qed.

Lemma id_extract_counterexample :
  exists ops xs d c q, forall keep,
    id_reached Nat.compare keep [] ops xs (d keep) /\
    known_log nq quad_comps any_resource [] (full_log Nat.compare [] ops xs) /\
    In q (final_set Nat.compare [] ops xs) /\ cq_matches c q /\
    forall spare n, id_extract Nat.compare (d keep) spare c n = Some ([], d keep).
Proof.
  set (ops := [IOp (Insert (Quad 1 2 3 None)); IOp (Insert (Quad 4 5 6 None));
               IOp (Remove (Quad 1 2 3 None))]).
  exists ops, [IOut (OBool true); IOut (OBool true); IOut (OBool true)], (after ops),
    (CQ_AnyS (QA_AnyP (QAA_Any QAAA_Any))), (Quad 4 5 6 None).
  intros keep; split; [reach|]; split; [known|].
  split; [vm_compute; auto|]; split; [repeat split|].
  intros spare n; destruct keep, spare, n; vm_compute; reflexivity.
Qed.

Lemma id_multi_counterexample :
  exists ops xs d c e q, forall keep,
    id_reached Nat.compare keep [] ops xs (d keep) /\
    known_log nq quad_comps any_resource [] (full_log Nat.compare [] ops xs) /\
    In q (final_set Nat.compare [] ops xs) /\ choice c e /\ cq_matches e q /\
    forall spare, id_multi_pattern_matching Nat.compare (d keep) spare c = Some [].
Proof.
  set (ops := [IOp (Insert (Quad 1 2 3 None)); IOp (Insert (Quad 4 5 6 None));
               IOp (Remove (Quad 1 2 3 None))]).
  exists ops, [IOut (OBool true); IOut (OBool true); IOut (OBool true)], (after ops),
    (CQ_AnyS (QA_GivenP [5] (QAG_Any QAGA_Any))), (CQ_AnyS (QA_GivenP 5 (QAG_Any QAGA_Any))),
    (Quad 4 5 6 None).
  intros keep; split; [reach|]; split; [known|].
  split; [vm_compute; auto|]; split; [cbn; auto|]; split; [repeat split|].
  intros spare; destruct keep, spare; vm_compute; reflexivity.
Qed.
