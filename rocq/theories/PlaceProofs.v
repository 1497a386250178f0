(** The slab of quads follows the places of ScanSpec.v. *)
From Coq Require Import List Bool Arith Lia Permutation Sorted.
Import ListNotations.
From Verif Require Import Base SlabModel TripleModel TriplePatternModel QuadPatternModel SetSpec
  ContainerSpec PatternSpec IndexedSpec ScanSpec Machine BaseProofs PatternProofs BResourceModel
  BResourceProofs BTreeDatasetModel BTreeDatasetProofs BTreeGraphModel BTreeGraphProofs
  IResourceModel IResourceProofs IndexedDatasetModel IndexedDatasetProofs IndexedHistoryProofs
  IndexedConvertProofs IndexedPatternProofs IndexedRunProofs.
Open Scope panic_scope.

Lemma nth_error_ext_list {A} (l m : list A) : (forall j, nth_error l j = nth_error m j) -> l = m.
Proof.
  revert m; induction l as [|x l IH]; intros [|y m] H; [reflexivity| | |].
  - specialize (H 0); discriminate.
  - specialize (H 0); discriminate.
  - pose proof (H 0) as H0; cbn in H0; inv H0; f_equal; apply IH; intros j; apply (H (S j)).
Qed.

Lemma nsorted_lt l : nsorted l -> StronglySorted Peano.lt l.
Proof.
  induction l as [|x l IH]; intros H; [constructor|].
  apply nsorted_cons in H as [H F]; constructor; [auto|]; now rewrite Forall_forall.
Qed.

(** ** Places *)
Section Places.
  Context {X : Type}.

  Definition pget (s : list (option X)) (i : nat) : option X :=
    match nth_error s i with Some (Some x) => Some x | _ => None end.

  Lemma in_present (s : list (option X)) x : In x (present s) <-> exists i, pget s i = Some x.
  Proof.
    induction s as [|e s IH]; unfold present; cbn.
    - split; [intros []|intros ([|i] & H); discriminate].
    - fold (present s); rewrite in_app_iff, IH; split.
      + intros [H|(i & H)]; [|exists (S i); exact H].
        destruct e; [|destruct H]; destruct H as [<-|[]]; exists 0; reflexivity.
      + intros ([|i] & H); [|right; exists i; exact H].
        left; cbn in H; destruct e; [|discriminate]; inv H; now left.
  Qed.

  Lemma pget_lt (s : list (option X)) i x : pget s i = Some x -> i < length s.
  Proof.
    unfold pget; intros H; apply nth_error_Some; destruct (nth_error s i); congruence.
  Qed.

  Lemma list_set_split {A} (l : list A) i x :
    i < length l -> list_set l i x = firstn i l ++ x :: skipn (S i) l.
  Proof.
    revert i; induction l as [|y l IH]; intros [|i] H; cbn in *; try lia; auto.
    rewrite IH by lia; reflexivity.
  Qed.

  Lemma list_set_length {A} (l : list A) i x : length (list_set l i x) = length l.
  Proof. revert i; induction l as [|y l IH]; intros [|i]; cbn; auto. Qed.

  Definition vac1 (st : places) (i : nat) : @places X :=
    (list_set (fst st) i None, i :: snd st).

  Lemma vacs_snd idx : forall st : @places X,
    snd (fold_left vac1 idx st) = rev idx ++ snd st.
  Proof.
    induction idx as [|i idx IH]; intros st; cbn; [reflexivity|].
    rewrite IH; cbn; now rewrite <- app_assoc.
  Qed.

  Lemma vacs_length idx : forall st : @places X,
    length (fst (fold_left vac1 idx st)) = length (fst st).
  Proof.
    induction idx as [|i idx IH]; intros st; cbn; [reflexivity|].
    rewrite IH; apply list_set_length.
  Qed.

  Lemma vacs_nth idx : forall (st : @places X) j,
    (forall i, In i idx -> i < length (fst st)) ->
    nth_error (fst (fold_left vac1 idx st)) j =
    if existsb (Nat.eqb j) idx then Some None else nth_error (fst st) j.
  Proof.
    induction idx as [|i idx IH]; intros st j H; cbn; [reflexivity|].
    rewrite IH by (intros; cbn; rewrite list_set_length; apply H; now right).
    cbn; rewrite list_set_nth by (apply H; now left).
    destruct (existsb (Nat.eqb j) idx), (j =? i); reflexivity.
  Qed.

  Lemma in_positions (P : X -> bool) s : forall n i,
    In i (positions P n s) <-> n <= i /\ exists x, pget s (i - n) = Some x /\ P x = true.
  Proof.
    induction s as [|e s IH]; intros n i; cbn.
    - split; [intros []|]; intros (_ & x & H & _); destruct (i - n); discriminate.
    - assert (E : forall x, S n <= i /\ pget s (i - S n) = Some x <-> n < i /\ pget (e :: s) (i - n) = Some x).
      { intros x; split; intros [H1 H2]; (split; [lia|]).
        - replace (i - n) with (S (i - S n)) by lia; exact H2.
        - replace (i - n) with (S (i - S n)) in H2 by lia; exact H2. }
      assert (IH' : In i (positions P (S n) s) <->
                    n < i /\ exists x, pget (e :: s) (i - n) = Some x /\ P x = true).
      { rewrite IH; split.
        - intros (H & x & Hx & HP); destruct (proj1 (E x) (conj H Hx)); eauto.
        - intros (H & x & Hx & HP); destruct (proj2 (E x) (conj H Hx)); eauto. }
      clear E IH; destruct e as [y|]; [destruct (P y) eqn:Ey|]; cbn [In]; rewrite ?IH'; split.
      + intros [<-|(H & x & Hx & HP)]; [|split; [lia|eauto]].
        rewrite Nat.sub_diag; split; [lia|]; exists y; auto.
      + intros (H & x & Hx & HP); destruct (Nat.eq_dec n i) as [->|Hn]; [auto|right].
        split; [lia|eauto].
      + intros (H & x & Hx & HP); split; [lia|eauto].
      + intros (H & x & Hx & HP); split; [|eauto].
        destruct (Nat.eq_dec n i) as [->|Hn]; [|lia].
        rewrite Nat.sub_diag in Hx; cbn in Hx; inv Hx; congruence.
      + intros (H & x & Hx & HP); split; [lia|eauto].
      + intros (H & x & Hx & HP); split; [|eauto].
        destruct (Nat.eq_dec n i) as [->|Hn]; [|lia].
        rewrite Nat.sub_diag in Hx; discriminate.
  Qed.

  Lemma positions_sorted (P : X -> bool) s : forall n, StronglySorted Peano.lt (positions P n s).
  Proof.
    induction s as [|[x|] s IH]; intros n; cbn; [constructor| |auto].
    destruct (P x); [|auto]; constructor; [auto|]; rewrite Forall_forall; intros i Hi.
    apply in_positions in Hi as [Hi _]; lia.
  Qed.

  Lemma lt_sorted_ext l m :
    StronglySorted Peano.lt l -> StronglySorted Peano.lt m -> (forall x, In x l <-> In x m) -> l = m.
  Proof.
    revert m; induction l as [|x l IH]; intros [|y m] Hl Hm H.
    - reflexivity.
    - destruct (proj2 (H y) (or_introl eq_refl)).
    - destruct (proj1 (H x) (or_introl eq_refl)).
    - apply StronglySorted_inv in Hl as [Hl Fl], Hm as [Hm Fm]; rewrite Forall_forall in Fl, Fm.
      assert (x = y) as ->.
      { destruct (proj1 (H x) (or_introl eq_refl)) as [|Hx]; [auto|].
        destruct (proj2 (H y) (or_introl eq_refl)) as [|Hy]; [auto|].
        specialize (Fl _ Hy); specialize (Fm _ Hx); lia. }
      f_equal; apply IH; auto; intros z; split; intros Hz.
      + destruct (proj1 (H z) (or_intror Hz)) as [<-|]; [|assumption].
        specialize (Fl _ Hz); lia.
      + destruct (proj2 (H z) (or_intror Hz)) as [<-|]; [|assumption].
        specialize (Fm _ Hz); lia.
  Qed.

  Lemma vacs_vacate (P : X -> bool) idx (st : @places X) :
    StronglySorted Peano.lt idx ->
    (forall i, In i idx <-> exists x, pget (fst st) i = Some x /\ P x = true) ->
    fold_left vac1 idx st = vacate P st.
  Proof.
    intros Hs Hi; destruct st as [s f]; unfold vacate; cbn [fst] in Hi.
    assert (E : idx = positions P 0 s).
    { apply lt_sorted_ext; [assumption|apply positions_sorted|].
      intros i; rewrite Hi, in_positions, Nat.sub_0_r; split; [intros H; split; [lia|exact H]|tauto]. }
    rewrite (surjective_pairing (fold_left vac1 idx (s, f))), vacs_snd; f_equal; [|now rewrite <- E].
    apply nth_error_ext_list; intros j.
    rewrite vacs_nth by (intros i Hin; apply Hi in Hin as (x & Hx & _); eapply pget_lt; eauto); cbn [fst].
    rewrite nth_error_map.
    destruct (existsb (Nat.eqb j) idx) eqn:Ej.
    - apply existsb_exists in Ej as (i & Hin & Ei); apply Nat.eqb_eq in Ei; subst i.
      apply Hi in Hin as (x & Hx & HP); unfold pget in Hx.
      destruct (nth_error s j) as [[y|]|]; [|discriminate|discriminate]; inv Hx; cbn; now rewrite HP.
    - destruct (nth_error s j) as [[y|]|] eqn:Ey; cbn; [|reflexivity|reflexivity].
      destruct (P y) eqn:HP; [|reflexivity]; exfalso.
      assert (Hin : In j idx) by (apply Hi; exists y; unfold pget; rewrite Ey; auto).
      assert (existsb (Nat.eqb j) idx = true); [|congruence].
      apply existsb_exists; exists j; split; [assumption|apply Nat.eqb_refl].
  Qed.

  (** ** Slabs and places *)
  Context {Y : Type}.

  Definition kept (at_ : nat -> option X) (qs : slab Y) (st : places) : Prop :=
    length (ents qs) = length (fst st) /\ free qs = snd st /\
    forall i, at_ i = pget (fst st) i.

  Lemma put_eq (st : places) (x : X) :
    (forall i, In i (snd st) -> i < length (fst st)) ->
    put x st = match snd st with
               | i :: f => (list_set (fst st) i (Some x), f)
               | [] => (fst st ++ [Some x], [])
               end.
  Proof.
    destruct st as [s [|i f]]; cbn; [reflexivity|]; intros H.
    rewrite list_set_split by auto; reflexivity.
  Qed.

  Lemma kept_put at_ at' (qs : slab Y) y st x :
    swf qs -> kept at_ qs st -> at' (vacant_key qs) = Some x ->
    (forall i, i <> vacant_key qs -> at' i = at_ i) -> kept at' (sinsert qs y) (put x st).
  Proof.
    intros [_ W] (K1 & K2 & K3) H1 H2.
    assert (Hf : forall i, In i (snd st) -> i < length (fst st)).
    { intros i Hi; rewrite <- K2 in Hi; apply W in Hi; rewrite <- K1; apply nth_error_Some; congruence. }
    rewrite put_eq by assumption; unfold kept, sinsert, vacant_key in *; rewrite K2 in *.
    destruct (snd st) as [|k f]; cbn.
    - rewrite !app_length, K1; split; [reflexivity|]; split; [reflexivity|].
      intros i; unfold pget; rewrite nth_error_app_last, <- K1.
      destruct (i =? length (ents qs)) eqn:E; [apply Nat.eqb_eq in E; now subst|].
      apply Nat.eqb_neq in E; rewrite H2 by assumption; apply K3.
    - rewrite !list_set_length; split; [assumption|]; split; [reflexivity|].
      intros i; unfold pget; rewrite list_set_nth by (apply Hf; now left).
      destruct (i =? k) eqn:E; [apply Nat.eqb_eq in E; now subst|].
      apply Nat.eqb_neq in E; rewrite H2 by assumption; apply K3.
  Qed.

  Lemma kept_vac at_ at' (qs qs' : slab Y) y st i :
    sremove qs i = Some (y, qs') -> kept at_ qs st -> at' i = None ->
    (forall j, j <> i -> at' j = at_ j) -> kept at' qs' (vac1 st i).
  Proof.
    intros Hr (K1 & K2 & K3) H1 H2; pose proof (sremove_inv _ _ _ _ Hr) as Hy.
    pose proof (sget_lt _ _ _ Hy) as Hl.
    unfold sremove in Hr; rewrite Hy in Hr; inv Hr; unfold kept, vac1; cbn.
    rewrite !list_set_length; split; [assumption|]; split; [now rewrite K2|].
    intros j; unfold pget; rewrite list_set_nth by lia.
    destruct (j =? i) eqn:E; [apply Nat.eqb_eq in E; now subst|].
    apply Nat.eqb_neq in E; rewrite H2 by assumption; apply K3.
  Qed.
End Places.

Section Proofs.
  Context {R : Type} {cmp : R -> R -> comparison} (L : ord_laws cmp).
  Context (keep : bool).
  Notation qcmp := (quad_cmp cmp).
  Notation tcmp := (triple_cmp cmp).
  Let LQ : ord_laws qcmp := quad_cmp_laws cmp L.
  Let LT : ord_laws tcmp := triple_cmp_laws cmp L.
  Notation tq g := (fun t : triple R => Quad (t_s t) (t_p t) (t_o t) g).

  (** ** [BTreeDataset] *)
  Definition bd_kept (d : @bdataset R) (st : places) : Prop :=
    kept (b_quad_at (bd_resources d) (bd_quads d)) (bd_quads d) st.

  Lemma bd_at_live d ks vs i :
    bd_inv (cmp:=cmp) d ks vs -> b_quad_at (bd_resources d) (bd_quads d) i = None ->
    sget (bd_quads d) i = None.
  Proof.
    intros I H; destruct (sget (bd_quads d) i) as [x|] eqn:E; [|reflexivity].
    assert (Hi : In i (bd_qi d)) by (apply (bi_live _ _ _ I); congruence).
    destruct (bi_idx _ _ _ I) as [HM _]; destruct (mapM_in_inv _ _ _ _ HM Hi) as (q & Hq & _).
    congruence.
  Qed.

  Lemma bd_kept_in d ks vs st q :
    bd_inv (cmp:=cmp) d ks vs -> bd_kept d st -> In q (present (fst st)) <-> In q ks.
  Proof.
    intros I (_ & _ & K); rewrite in_present; destruct (bi_idx _ _ _ I) as [HM _]; split.
    - intros (i & Hi); rewrite <- K in Hi.
      assert (Hin : In i (bd_qi d)).
      { apply (bi_live _ _ _ I); unfold b_quad_at in Hi; destruct (sget (bd_quads d) i); discriminate. }
      destruct (mapM_in_inv _ _ _ _ HM Hin) as (q' & Hq & Hin'); congruence.
    - intros Hq; apply (mapM_in _ _ _ _ HM) in Hq as (i & _ & Hi); exists i; now rewrite <- K.
  Qed.

  Lemma mem_iff q (l m : list (quad R)) : (In q l <-> In q m) -> mem qcmp q l = mem qcmp q m.
  Proof.
    intros H; destruct (mem qcmp q m) eqn:E.
    - apply (mem_true LQ), H, (mem_true LQ), E.
    - apply (mem_false LQ); rewrite H; now apply (mem_false LQ).
  Qed.

  Lemma bd_kept_insert d s st q r d' :
    bd_rep (cmp:=cmp) d s -> bd_kept d st -> bd_insert cmp keep d q = Some (r, d') ->
    bd_kept d' (put_new qcmp q st).
  Proof.
    intros [Hn (vs & I)] K E; unfold put_new.
    rewrite (mem_iff q _ (sorted_elements qcmp s)) by now apply (bd_kept_in _ _ _ _ _ I).
    destruct (mem qcmp q (sorted_elements qcmp s)) eqn:Em.
    - apply (mem_true LQ) in Em; rewrite (bd_insert_dup L keep _ _ _ _ I Em) in E; inv E; exact K.
    - apply (mem_false LQ) in Em.
      destruct (bd_insert_desc L keep _ _ _ _ I Em) as (d1 & vs1 & E1 & I1 & _ & _ & x & D1 & D2 & D3).
      rewrite E in E1; inv E1; unfold bd_kept.
      pose proof (fun i => sget_sinsert (bd_quads d) x i (bi_wf _ _ _ I)) as G; rewrite <- D1 in G.
      rewrite D1 at 2; eapply kept_put; [apply I|exact K| |].
      + unfold b_quad_at; rewrite G, Nat.eqb_refl; exact D2.
      + intros i Hi; apply Nat.eqb_neq in Hi.
        destruct (b_quad_at (bd_resources d) (bd_quads d) i) as [z|] eqn:Ez.
        * unfold b_quad_at in *; rewrite G, Hi.
          destruct (sget (bd_quads d) i); [|discriminate]; cbn in *; eapply qwr_mono; eauto.
        * apply (bd_at_live _ _ _ _ I) in Ez; unfold b_quad_at; now rewrite G, Hi, Ez.
  Qed.

  Lemma bd_kept_remove d s st q r d' :
    bd_rep (cmp:=cmp) d s -> bd_kept d st -> bd_remove cmp d q = Some (r, d') ->
    bd_kept d' (vacate (same qcmp q) st).
  Proof.
    intros [Hn (vs & I)] K E.
    destruct (bd_remove_desc L _ _ _ q I) as (d1 & vs1 & E1 & I1 & _ & _ & D).
    rewrite E in E1; inv E1.
    assert (Hi : forall i x, pget (fst st) i = Some x -> In x (sorted_elements qcmp s)).
    { intros i x Hx; apply (bd_kept_in _ _ _ _ _ I K), in_present; eauto. }
    destruct (mem qcmp q (sorted_elements qcmp s)) eqn:Em.
    - destruct D as [(i & x & D1 & D2) D3].
      assert (Hu : forall j, b_quad_at (bd_resources d) (bd_quads d) j = Some q -> j = i).
      { intros j Hj; eapply (indexes_inj LQ _ _ _ _ _ _ (bi_idx _ _ _ I)); eauto;
          apply (bi_live _ _ _ I); unfold b_quad_at in *;
          [destruct (sget (bd_quads d) j)|destruct (sget (bd_quads d) i)]; discriminate. }
      rewrite <- (vacs_vacate (same qcmp q) [i] st); cbn [fold_left].
      + unfold bd_kept; eapply kept_vac; [exact D1|exact K| |].
        * unfold b_quad_at; now rewrite (sget_sremove _ _ _ _ _ D1), Nat.eqb_refl.
        * intros j Hj; destruct (b_quad_at (bd_resources d) (bd_quads d) j) as [z|] eqn:Ez.
          -- apply D3; [exact Ez|]; intros ->; apply Hj, Hu, Ez.
          -- apply (bd_at_live _ _ _ _ I) in Ez; unfold b_quad_at.
             rewrite (sget_sremove _ _ _ _ _ D1), Ez; destruct (j =? i); reflexivity.
      + repeat constructor.
      + intros j; destruct K as (_ & _ & K); cbn; split.
        * intros [<-|[]]; exists q; rewrite <- K; split; [exact D2|now apply (same_true LQ)].
        * intros (z & Hz & Hs); apply (same_true LQ) in Hs; subst z; left; symmetry; apply Hu.
          now rewrite K.
    - subst d1; rewrite <- (vacs_vacate (same qcmp q) [] st); [exact K|constructor|].
      intros j; split; [intros []|intros (z & Hz & Hs)]; apply (same_true LQ) in Hs; subst z.
      apply (mem_false LQ) in Em; apply Em; eauto.
  Qed.

  Lemma bd_kept_extend l : forall d s st d',
    bd_rep (cmp:=cmp) d s -> bd_kept d st -> bd_extend cmp keep d l = Some d' ->
    bd_kept d' (fold_left (fun st x => put_new qcmp x st) l st).
  Proof.
    induction l as [|q l IH]; intros d s st d' Hr K E; cbn in *; [now inv E|].
    destruct (bd_insert_rep L keep _ _ q Hr) as (d1 & E1 & Hr1).
    pose proof (bd_kept_insert _ _ _ _ _ _ Hr K E1) as K1.
    rewrite E1 in E; cbn in E; eapply IH; eauto.
  Qed.

  Lemma bd_kept_step d s st o x d' :
    bd_rep (cmp:=cmp) d s -> bd_kept d st -> bd_step cmp keep d o = Some (x, d') ->
    bd_kept d' (place_op qcmp st o).
  Proof.
    intros Hr K E; destruct o as [q|q|l|q| | | |]; cbn in *.
    - destruct (bd_insert cmp keep d q) as [[r d1]|] eqn:E1; [|discriminate]; inv E.
      eapply bd_kept_insert; eauto.
    - destruct (bd_remove cmp d q) as [[r d1]|] eqn:E1; [|discriminate]; inv E.
      eapply bd_kept_remove; eauto.
    - destruct (bd_extend cmp keep d l) as [d1|] eqn:E1; [|discriminate]; inv E.
      eapply bd_kept_extend; eauto.
    - destruct (bd_contains cmp d q); inv E; exact K.
    - inv E; exact K.
    - inv E; exact K.
    - destruct (bd_iter d); inv E; exact K.
    - destruct (bd_into_iter d); inv E; exact K.
  Qed.

  Lemma bd_kept_run ops : forall d s st xs d',
    bd_rep (cmp:=cmp) d s -> bd_kept d st -> run (bd_step cmp keep) d ops = Some (xs, d') ->
    bd_kept d' (fold_left (place_op qcmp) ops st).
  Proof.
    induction ops as [|o ops IH]; intros d s st xs d' Hr K E; cbn -[bd_step] in *; [now inv E|].
    destruct (bd_step_rep L keep d s o Hr) as (d1 & E1 & Hr1); rewrite E1 in E.
    destruct (run (bd_step cmp keep) d1 ops) as [[ys d2]|] eqn:E2; [|discriminate]; inv E.
    exact (IH _ _ _ _ _ Hr1 (bd_kept_step _ _ _ _ _ _ Hr K E1) E2).
  Qed.

  Lemma bd_kept_new : bd_kept (@bd_new R) ([], []).
  Proof.
    split; [reflexivity|]; split; [reflexivity|]; intros i; unfold b_quad_at, pget; cbn.
    destruct i; reflexivity.
  Qed.

  (** ** [IndexedBTreeDataset] *)
  Definition id_kept (d : @idataset R) (st : places) : Prop :=
    kept (i_quad_at (id_resources d) (id_quads d)) (id_quads d) st.

  Lemma id_at_live d ks vs i :
    id_inv (cmp:=cmp) d ks vs -> i_quad_at (id_resources d) (id_quads d) i = None ->
    sget (id_quads d) i = None.
  Proof.
    intros I H; destruct (sget (id_quads d) i) as [x|] eqn:E; [|reflexivity].
    destruct (id_live_value _ _ _ _ _ I E) as (q & Hq & _).
    unfold i_quad_at in H; rewrite E in H; cbn in H; congruence.
  Qed.

  Lemma id_kept_in d s st q :
    id_rep (cmp:=cmp) d s -> id_kept d st -> In q (present (fst st)) <-> In q s.
  Proof.
    intros [_ (vs & I)] (_ & _ & K); rewrite in_present, <- (in_sorted_elements (cmp:=qcmp)); split.
    - intros (i & Hi); rewrite <- K in Hi; unfold i_quad_at in Hi.
      destruct (sget (id_quads d) i) as [x|] eqn:E; [|discriminate]; cbn in Hi.
      destruct (id_live_value _ _ _ _ _ I E) as (q' & Hq & Hin); congruence.
    - intros Hq; destruct (id_elem_index _ _ _ _ I Hq) as (i & x & Hx & Hw); exists i.
      rewrite <- K; unfold i_quad_at; now rewrite Hx.
  Qed.

  Lemma id_kept_insert d s st q r d' :
    id_rep (cmp:=cmp) d s -> id_kept d st -> id_insert cmp keep d q = Some (r, d') ->
    id_kept d' (put_new qcmp q st).
  Proof.
    intros Hr K E; pose proof Hr as [Hn (vs & I)]; unfold put_new.
    rewrite (mem_iff q _ s) by now apply (id_kept_in d).
    destruct (mem qcmp q s) eqn:Em.
    - apply (mem_true LQ) in Em; rewrite (id_insert_dup L keep _ _ _ Hr Em) in E; inv E; exact K.
    - assert (Hq : ~ In q (sorted_elements qcmp s))
        by (rewrite in_sorted_elements; now apply (mem_false LQ)).
      destruct (id_insert_spec L keep _ _ _ _ I Hq) as (d1 & vs1 & x & E1 & I1 & (D1 & D2 & D3 & _) & _).
      rewrite E in E1; inv E1; unfold id_kept.
      pose proof (fun i => sget_sinsert (id_quads d) x i (ii_wf _ _ _ I)) as G; rewrite <- D1 in G.
      rewrite D1 at 2; eapply kept_put; [apply I|exact K| |].
      + unfold i_quad_at; rewrite G, Nat.eqb_refl; exact D2.
      + intros i Hi; apply Nat.eqb_neq in Hi.
        destruct (i_quad_at (id_resources d) (id_quads d) i) as [z|] eqn:Ez.
        * unfold i_quad_at in *; rewrite G, Hi.
          destruct (sget (id_quads d) i); [|discriminate]; cbn in *; eapply iqwr_mono; eauto.
        * apply (id_at_live _ _ _ _ I) in Ez; unfold i_quad_at; now rewrite G, Hi, Ez.
  Qed.

  Lemma id_kept_rem d d' ks vs ks' vs' st i x :
    id_inv (cmp:=cmp) d ks vs -> id_inv (cmp:=cmp) d' ks' vs' -> id_kept d st ->
    rem_desc d i x d' -> id_kept d' (vac1 st i).
  Proof.
    intros I I' K (D1 & D2 & _); unfold id_kept; eapply kept_vac; [exact D1|exact K| |].
    - unfold i_quad_at; now rewrite (sget_sremove _ _ _ _ _ D1), Nat.eqb_refl.
    - intros j Hj; apply Nat.eqb_neq in Hj.
      unfold i_quad_at; pose proof (sget_sremove _ _ _ _ j D1) as G; rewrite Hj in G; rewrite G.
      destruct (sget (id_quads d) j) as [y|] eqn:Ey; cbn; [|reflexivity].
      destruct (id_live_value _ _ _ _ _ I' G) as (z & Hz & _); rewrite Hz; symmetry.
      eapply iqwr_mono; eauto.
  Qed.

  Lemma id_kept_by_index d s0 K n l st i q d' :
    istate (cmp:=cmp) d s0 K n l -> id_kept d st ->
    i_quad_at (id_resources d) (id_quads d) i = Some q ->
    id_remove_by_index cmp d i true = Some d' ->
    istate (cmp:=cmp) d' s0 K n (l ++ [(false, q)]) /\ id_kept d' (vac1 st i) /\
    exists x, rem_desc d i x d'.
  Proof.
    intros H Hk Hi E.
    destruct (istate_remove_by_index L _ _ _ _ _ _ _ H Hi) as (d1 & E1 & H1 & x & D).
    rewrite E in E1; inv E1; split; [exact H1|]; split; [|eauto].
    destruct (is_rep _ _ _ _ _ H) as [_ (vs & I)], (is_rep _ _ _ _ _ H1) as [_ (vs' & I')].
    exact (id_kept_rem _ _ _ _ _ _ _ _ _ I I' Hk D).
  Qed.

  Lemma id_kept_all idx : forall d s0 K n l st b b' d',
    istate (cmp:=cmp) d s0 K n l -> id_kept d st ->
    id_remove_all cmp keep idx d b = Some (b', d') -> id_kept d' (fold_left vac1 idx st).
  Proof.
    induction idx as [|i idx IH]; intros d s0 K n l st b b' d' H Hk E; cbn [id_remove_all fold_left] in *.
    - inv E; exact Hk.
    - destruct (i_quad_at (id_resources d) (id_quads d) i) as [q|] eqn:Eq; [|discriminate]; cbn in E.
      destruct (id_remove_by_index cmp d i true) as [d1|] eqn:E1; [|discriminate]; cbn in E.
      destruct (id_kept_by_index _ _ _ _ _ _ _ _ _ H Hk Eq E1) as (H1 & K1 & _).
      destruct (bg_insert cmp keep b _) as [[r b1]|]; [|discriminate]; cbn in E.
      eapply IH; eauto.
  Qed.

  Lemma id_kept_extract cap m r n : forall d s0 K k l st qs d',
    trace cap (id_quads d) m r -> istate (cmp:=cmp) d s0 K k l -> id_kept d st ->
    pm_extract cmp n cap d m = Some (qs, d') ->
    id_kept d' (fold_left vac1 (map fst (firstn n r)) st).
  Proof.
    revert m r; induction n as [|n IH]; intros m r d s0 K k l st qs d' T H Hk E; cbn [pm_extract firstn map fold_left] in *.
    - inv E; exact Hk.
    - destruct T as [m Km Em|m i x m' r Km Em Hi Hg T]; rewrite Em in E; cbn in E.
      + inv E; exact Hk.
      + destruct (i_quad_with_resources (id_resources d) x) as [q|] eqn:Eq; [|discriminate]; cbn in E.
        destruct (id_remove_by_index cmp d i true) as [d1|] eqn:E1; [|discriminate]; cbn in E.
        assert (Hq : i_quad_at (id_resources d) (id_quads d) i = Some q)
          by (unfold i_quad_at; rewrite Hg; exact Eq).
        destruct (id_kept_by_index _ _ _ _ _ _ _ _ _ H Hk Hq E1) as (H1 & K1 & y & D & _).
        assert (T1 : trace cap (id_quads d1) m' r).
        { eapply trace_local; [exact T|]; intros j Hj.
          rewrite (sget_sremove _ _ _ _ _ D); destruct (j =? i) eqn:Ej; [|reflexivity].
          apply Nat.eqb_eq in Ej; lia. }
        destruct (pm_extract cmp n cap d1 m') as [[l' d2]|] eqn:E2; [|discriminate]; cbn in E; inv E.
        cbn [map fst fold_left]; eapply IH; eauto.
  Qed.

  Lemma mapM_nth {A B} (f : A -> option B) l ks j :
    mapM f l = Some ks -> nth_error ks j = match nth_error l j with Some x => f x | None => None end.
  Proof.
    revert ks j; induction l as [|x l IH]; intros ks j H.
    - inv H; destruct j; reflexivity.
    - apply mapM_cons in H as (y & ys & Hy & Hys & ->); destruct j as [|j]; cbn; [auto|apply IH, Hys].
  Qed.

  Lemma mapM_firstn {A B} (f : A -> option B) n : forall l ks,
    mapM f l = Some ks -> mapM f (firstn n l) = Some (firstn n ks).
  Proof.
    induction n as [|n IH]; intros [|x l] ks H; cbn; auto; try (inv H; reflexivity).
    apply mapM_cons in H as (y & ys & Hy & Hys & ->); rewrite Hy; cbn; now rewrite (IH _ _ Hys).
  Qed.

  Lemma id_kept_step d s0 K n l st o x d' :
    istate (cmp:=cmp) d s0 K n l -> id_kept d st -> id_step cmp keep d o = Some (x, d') ->
    id_kept d' (place_iop cmp st o x).
  Proof.
    intros H Hk E; pose proof (is_rep _ _ _ _ _ H) as Hr; set (s := apply qcmp l s0) in *.
    assert (Hpos : forall P idx,
              (forall i, In i idx <-> exists q, i_quad_at (id_resources d) (id_quads d) i = Some q /\ P q = true) ->
              StronglySorted Peano.lt idx -> fold_left vac1 idx st = vacate P st).
    { intros P idx Hi Hs; apply vacs_vacate; [assumption|]; intros i; rewrite Hi.
      destruct Hk as (_ & _ & Hk); setoid_rewrite Hk; reflexivity. }
    destruct o as [o|g|c k spare].
    - destruct o as [q|q|l'|q| | | |]; cbn in *.
      + destruct (id_insert cmp keep d q) as [[r d1]|] eqn:E1; [|discriminate]; inv E.
        eapply id_kept_insert; eauto.
      + destruct (id_remove cmp d q) as [[r d1]|] eqn:E1; [|discriminate]; inv E.
        pose proof (id_remove_eq L d s q Hr) as He; destruct (mem qcmp q s) eqn:Em.
        * destruct He as (i & Hi & He); rewrite E1 in He.
          destruct (id_remove_by_index cmp d i true) as [d2|] eqn:E2; [|discriminate]; cbn in He; inv He.
          rewrite <- (Hpos (same qcmp q) [i]); cbn [fold_left].
          -- eapply id_kept_by_index; eauto.
          -- pose proof Hr as [_ (vs & I)].
             intros j; cbn; split.
             ++ intros [<-|[]]; exists q; split; [exact Hi|now apply (same_true LQ)].
             ++ intros (z & Hz & Hs); apply (same_true LQ) in Hs; subst z; left.
                eapply (id_index_inj L _ _ _ i j q I); eauto.
          -- repeat constructor.
        * rewrite E1 in He; inv He; rewrite <- (Hpos (same qcmp q) []); [exact Hk| |constructor].
          intros j; split; [intros []|intros (z & Hz & Hs)]; apply (same_true LQ) in Hs; subst z.
          apply (mem_false LQ) in Em; apply Em, (id_kept_in d s st q Hr Hk), in_present.
          exists j; destruct Hk as (_ & _ & Hk); now rewrite <- Hk.
      + destruct (id_extend cmp keep d l') as [d1|] eqn:E1; [|discriminate]; inv E.
        clear Hpos Hr; revert d l st H Hk E1 s; induction l' as [|q l' IH]; intros d l st H Hk E s; cbn in *.
        * inv E; exact Hk.
        * pose proof (is_rep _ _ _ _ _ H) as Hr.
          destruct (id_insert cmp keep d q) as [[r d1]|] eqn:E1; [|discriminate]; cbn in E.
          pose proof (id_kept_insert _ _ _ _ _ _ Hr Hk E1) as K1.
          destruct (mem qcmp q s) eqn:Em.
          -- apply (mem_true LQ) in Em; rewrite (id_insert_dup L keep _ _ _ Hr Em) in E1; inv E1.
             eapply IH; eauto.
          -- apply (mem_false LQ) in Em.
             destruct (istate_insert L keep _ _ _ _ _ q H Em) as (d2 & E2 & H2).
             rewrite E1 in E2; inv E2; eapply IH; eauto.
      + destruct (id_contains cmp d q); inv E; exact Hk.
      + inv E; exact Hk.
      + inv E; exact Hk.
      + destruct (id_iter d); inv E; exact Hk.
      + destruct (id_into_iter d); inv E; exact Hk.
    - cbn [id_step] in E; unfold id_remove_graph in E.
      destruct (id_graph_indexes L d s g Hr) as (r & Eg & Hg).
      assert (Sg : forall idx, r = Some idx -> StronglySorted Peano.lt idx).
      { pose proof Hr as [_ (vs & I)]; intros idx ->; destruct g as [g|].
        - destruct (i_index_of_resource cmp (id_resources d) (id_ri d) g) as [[j|]|]; cbn in Eg; [|discriminate|discriminate].
          destruct (ns_mem j (id_ng d)); [|discriminate].
          destruct (sget (id_resources d) j) as [y|] eqn:Ey; [|discriminate]; cbn in Eg; inv Eg.
          destruct (iri_use _ _ _ _ (ii_res _ _ _ I) _ _ Ey) as [Hu _]; destruct (Hu PosG) as [Hs _].
          apply nsorted_lt, Hs.
        - cbn in Eg; inv Eg; apply nsorted_lt, (ii_dg _ _ _ I). }
      rewrite Eg in E; cbn [bind] in E; destruct r as [idx|]; [|cbn in E; inv E; exact Hk].
      destruct (id_remove_all cmp keep idx d bg_new) as [[b d1]|] eqn:E1; [|discriminate]; cbn [bind] in E.
      destruct (bg_iter b) as [ts|] eqn:Eb; [|discriminate]; cbn [bind] in E; inv E; cbn [place_iop].
      destruct Hg as (Hn & Hl & Hc).
      destruct (istate_remove_all L keep idx d s0 K n l bg_new [] H Hn)
        as (d2 & b2 & qs & E2 & Eqs & H2 & Hb); [|apply bg_rep_new|].
      { intros i Hi; destruct (Hl i Hi) as (q & Hq & _); unfold i_quad_at in Hq.
        destruct (sget (id_quads d) i); discriminate. }
      rewrite E1 in E2; inv E2.
      assert (Hts : forall t, In t ts <-> In t (map (fun q => fst (into_triple q)) qs)).
      { assert (Fold : forall l s t, In t (fold_left (fun s x => add tcmp x s) l s) <-> In t s \/ In t l).
        { induction l0 as [|z l0 IH]; intros s' t; cbn; [tauto|].
          rewrite IH, (in_add LT); intuition congruence. }
        intros t; rewrite (bg_iter_rep _ _ Hb) in Eb; inv Eb.
        rewrite in_sorted_elements, Fold; cbn; tauto. }
      rewrite <- (Hpos _ idx); [exact (id_kept_all idx _ _ _ _ _ _ _ _ _ H Hk E1)| |now apply Sg].
      intros i; split.
      + intros Hi; destruct (Hl i Hi) as (q & Hq & _ & Hqg); exists q; split; [exact Hq|].
        apply (mem_true LQ), in_map_iff; exists (Triple (q_s q) (q_p q) (q_o q)); split.
        * destruct q; cbn in *; now rewrite Hqg.
        * apply Hts, in_map_iff; exists q; split; [reflexivity|].
          apply (mapM_in _ _ _ _ Eqs); eauto.
      + intros (q & Hq & Hm); apply (mem_true LQ), in_map_iff in Hm as (t & Et & Ht).
        apply Hts, in_map_iff in Ht as (q' & Eq' & Hq').
        apply (mapM_in _ _ _ _ Eqs) in Hq' as (j & Hj & Hq').
        destruct (Hl j Hj) as (q2 & Hq2 & _ & Hqg); rewrite Hq' in Hq2; injection Hq2 as Hq2; subst q2.
        assert (Eqq : q' = q) by (destruct q', q; cbn in *; subst; inv Et; reflexivity).
        subst q'; pose proof Hr as [_ (vs & I)].
        assert (i = j) as -> by (eapply (id_index_inj L _ _ _ i j q I); eauto); exact Hj.
    - cbn [id_step] in E; unfold id_extract in E.
      pose proof Hr as [_ (vs & I)].
      destruct (pm_new_spec L _ _ _ c I) as (m & Em & M); rewrite Em in E; cbn [bind] in E.
      destruct (trace_found L _ _ spare _ _ _ _ Hr M) as (r & ql & T & Hl & El & F).
      destruct (pm_extract_trace L _ _ _ k _ _ _ _ _ T H) as (qs' & d2 & El' & Ee & H').
      rewrite El in El'; inv El'.
      destruct (pm_extract cmp k (capacity d spare) d m) as [[l2 d3]|] eqn:E2; [|discriminate].
      cbn in E; inv E; inv Ee; cbn [place_iop].
      rewrite <- (Hpos _ (map fst (firstn k r))); [exact (id_kept_extract _ _ _ _ _ _ _ _ _ _ _ _ T H Hk E2)| |].
      + destruct (trace_live _ _ _ _ T) as [Ts Tl].
        intros i; split.
        * intros Hi; apply in_map_iff in Hi as ([j z] & Ej & Hj); cbn in Ej; subst j.
          pose proof (mapM_firstn _ k _ _ El) as Ef.
          destruct (mapM_in_inv _ _ _ _ Ef Hj) as (q & Hq & Hin); cbn in Hq.
          exists q; split; [|now apply (mem_true LQ)].
          apply firstn_in, Tl in Hj as [_ Hj]; unfold i_quad_at; now rewrite Hj.
        * intros (q & Hq & Hm); apply (mem_true LQ) in Hm.
          pose proof (mapM_firstn _ k _ _ El) as Ef.
          apply (mapM_in _ _ _ _ Ef) in Hm as ([j z] & Hj & Hz); cbn in Hz.
          pose proof (firstn_in _ _ _ Hj) as Hj'; apply Tl in Hj' as [_ Hj'].
          assert (i = j) as ->.
          { eapply (id_index_inj L _ _ _ i j q I); eauto; unfold i_quad_at; now rewrite Hj'. }
          apply in_map_iff; exists (j, z); auto.
      + destruct (trace_live _ _ _ _ T) as [Ts _].
        rewrite <- firstn_map; clear - Ts; revert k; induction Ts as [|x t Ts IH F]; intros [|k]; cbn; constructor; auto.
        rewrite Forall_forall in *; intros y Hy; apply F; eapply firstn_in; exact Hy.
  Qed.

  Lemma id_kept_run ops : forall d s0 K n l st xs d',
    istate (cmp:=cmp) d s0 K n l -> id_kept d st -> run (id_step cmp keep) d ops = Some (xs, d') ->
    id_kept d' (place_run cmp st ops xs).
  Proof.
    induction ops as [|o ops IH]; intros d s0 K n l st xs d' H Hk E; cbn -[id_step] in E.
    - inv E; exact Hk.
    - destruct (istate_step L keep d s0 K n l o H) as (x & d1 & E1 & _ & H1); rewrite E1 in E.
      destruct (run (id_step cmp keep) d1 ops) as [[ys d2]|] eqn:E2; [|discriminate]; inv E.
      cbn [place_run]; exact (IH _ _ _ _ _ _ _ _ H1 (id_kept_step _ _ _ _ _ _ _ _ _ H Hk E1) E2).
  Qed.

  (** The conversion keeps the quads where they are. *)
  Lemma reached_kept ops0 ops xs d :
    id_reached cmp keep ops0 ops xs d ->
    id_kept d (place_run cmp (place_ops qcmp ops0) ops xs).
  Proof.
    intros (xs0 & b & d0 & Eb & E0 & E).
    destruct (start_spec L keep _ _ _ Eb) as (d0' & E0' & H0); rewrite E0 in E0'; inv E0'.
    eapply id_kept_run; [exact H0| |exact E].
    pose proof (bd_kept_run ops0 _ _ _ _ _ (bd_rep_new (cmp:=cmp)) bd_kept_new Eb) as Kb.
    pose proof (bd_run_rep_new L keep _ _ _ Eb) as [_ (vs & I)].
    destruct (convert_spec _ _ _ I) as (d1 & E1 & I1 & Q & _ & _ & _ & V); rewrite E0 in E1; inv E1.
    destruct Kb as (K1 & K2 & K3); unfold id_kept, kept; rewrite Q.
    split; [exact K1|]; split; [exact K2|]; intros i; unfold place_ops; rewrite <- K3, <- V, Q; reflexivity.
  Qed.
End Proofs.
