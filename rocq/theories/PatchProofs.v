(** The difference of two containers and its application. *)
From Coq Require Import List Bool Arith Lia.
Import ListNotations.
From Verif Require Import Base TripleModel QuadPatternModel SetSpec ContainerSpec IndexedSpec Machine BaseProofs
  BTreeDatasetModel BTreeDatasetProofs BTreeGraphModel BTreeGraphProofs
  IndexedDatasetModel IndexedHistoryProofs IndexedRunProofs IndexedGraphModel IndexedGraphProofs IndexedGraphRunProofs
  PatchModel.

Section Generic.
  Context {D X : Type} {cmp : X -> X -> comparison} (L : ord_laws cmp).
  Context {iter : D -> option (list X)} {contains : D -> X -> option bool}
    {insert remove : D -> X -> option (bool * D)}.
  (** [d] has the elements [s]. *)
  Context {rep : D -> list X -> Prop}.
  Context (Hn : forall d s, rep d s -> NoDup s).
  Context (Hi : forall d s, rep d s -> iter d = Some (sorted_elements cmp s)).
  Context (Hc : forall d s x, rep d s -> contains d x = Some (mem cmp x s)).
  Context (Ha : forall d s x, rep d s ->
    exists d', insert d x = Some (negb (mem cmp x s), d') /\ rep d' (add cmp x s)).
  Context (Hd : forall d s x, rep d s ->
    exists d', remove d x = Some (mem cmp x s, d') /\ rep d' (del cmp x s)).

  Lemma missing_rep d s l : rep d s -> missing contains d l = Some (filter (fun x => negb (mem cmp x s)) l).
  Proof.
    intros R. induction l as [|x l IH]; cbn [missing filter]; [reflexivity|].
    rewrite (Hc _ _ x R), IH. now destruct (mem cmp x s).
  Qed.

  Lemma each_insert l : forall n d s, rep d s ->
    exists m d', each insert l n d = Some (m, d') /\ rep d' (fold_left (fun s x => add cmp x s) l s) /\
      (NoDup l -> (forall x, In x l -> ~ In x s) -> m = n + length l) /\
      ((forall x, In x l -> In x s) -> m = n).
  Proof.
    induction l as [|x l IH]; intros n d s R; cbn [each fold_left length].
    - exists n, d. split; [reflexivity|]. split; [exact R|]. split; [lia|reflexivity].
    - destruct (Ha _ _ x R) as (d1 & -> & R1). destruct (IH (if negb (mem cmp x s) then S n else n) _ _ R1) as (m & d2 & E & R2 & C & C').
      exists m, d2. split; [exact E|]. split; [exact R2|]. split; [intros N H; inversion N as [|? ? I N']; subst|intros H].
      + rewrite (proj2 (mem_false L x s) (H x (or_introl eq_refl))) in C. cbn [negb] in C.
        rewrite C; [lia|exact N'|]. intros y Hy Hs. apply (in_add L) in Hs as [->|Hs]; [tauto|].
        exact (H y (or_intror Hy) Hs).
      + rewrite (proj2 (mem_true L x s) (H x (or_introl eq_refl))) in C'. cbn [negb] in C'.
        apply C'. intros y Hy. apply (in_add L). right. apply H. now right.
  Qed.
  Lemma each_remove l : forall n d s, rep d s ->
    exists m d', each remove l n d = Some (m, d') /\ rep d' (fold_left (fun s x => del cmp x s) l s) /\
      (NoDup l -> (forall x, In x l -> In x s) -> m = n + length l) /\
      ((forall x, In x l -> ~ In x s) -> m = n).
  Proof.
    induction l as [|x l IH]; intros n d s R; cbn [each fold_left length].
    - exists n, d. split; [reflexivity|]. split; [exact R|]. split; [lia|reflexivity].
    - destruct (Hd _ _ x R) as (d1 & -> & R1). destruct (IH (if mem cmp x s then S n else n) _ _ R1) as (m & d2 & E & R2 & C & C').
      exists m, d2. split; [exact E|]. split; [exact R2|]. split; [intros N H; inversion N as [|? ? I N']; subst|intros H].
      + rewrite (proj2 (mem_true L x s) (H x (or_introl eq_refl))) in C.
        rewrite C; [lia|exact N'|]. intros y Hy. apply (in_del L). split; [congruence|]. apply H. now right.
      + rewrite (proj2 (mem_false L x s) (H x (or_introl eq_refl))) in C'.
        apply C'. intros y Hy Hs. apply (in_del L) in Hs as [_ Hs]. exact (H y (or_intror Hy) Hs).
  Qed.
  Lemma in_adds l : forall s y, In y (fold_left (fun s x => add cmp x s) l s) <-> In y s \/ In y l.
  Proof.
    induction l as [|x l IH]; intros s y; cbn [fold_left In]; [tauto|]. rewrite IH, (in_add L). intuition congruence.
  Qed.
  Lemma in_dels l : forall s y, In y (fold_left (fun s x => del cmp x s) l s) <-> In y s /\ ~ In y l.
  Proof.
    induction l as [|x l IH]; intros s y; cbn [fold_left In]; [tauto|]. rewrite IH, (in_del L). intuition congruence.
  Qed.

  (** What a patch does to the elements. *)
  Lemma patch_rep d s r a : rep d s ->
    exists n d' s', patch insert remove d r a = Some (n, d') /\ rep d' s' /\
      (forall y, In y s' <-> In y s /\ ~ In y r \/ In y a) /\
      (NoDup r -> NoDup a -> (forall x, In x r -> In x s) -> (forall x, In x a -> ~ In x s) ->
       n = length r + length a) /\
      ((forall x, In x r -> ~ In x s) -> (forall x, In x a -> In x s) -> n = 0).
  Proof.
    intros R. unfold patch. destruct (each_remove r 0 d s R) as (n & d1 & -> & R1 & C1 & Z1).
    destruct (each_insert a n d1 _ R1) as (m & d2 & E & R2 & C2 & Z2).
    exists m, d2, (fold_left (fun s x => add cmp x s) a (fold_left (fun s x => del cmp x s) r s)).
    split; [exact E|]. split; [exact R2|]. split; [|split].
    - intros y. rewrite in_adds, in_dels. tauto.
    - intros Nr Na Hr Hs. rewrite C2, C1; [lia|exact Nr|exact Hr|exact Na|].
      intros x Hx. rewrite in_dels. intros [A _]. exact (Hs x Hx A).
    - intros Hr Hs. rewrite Z2, Z1; [reflexivity|exact Hr|]. intros x Hx. rewrite in_dels.
      split; [exact (Hs x Hx)|]. intros I. exact (Hr x I (Hs x Hx)).
  Qed.

  Lemma same_iter d s e t : rep d s -> rep e t -> (forall y, In y s <-> In y t) -> iter d = iter e.
  Proof.
    intros R S E. rewrite (Hi _ _ R), (Hi _ _ S). f_equal. apply (ssorted_ext L).
    - apply (sorted_elements_sorted L). exact (Hn _ _ R).
    - apply (sorted_elements_sorted L). exact (Hn _ _ S).
    - intros y. rewrite !in_sorted_elements. apply E.
  Qed.
  Lemma iter_in d s l y : rep d s -> iter d = Some l -> (In y l <-> In y s).
  Proof. intros R. rewrite (Hi _ _ R). intros E; inv E. apply in_sorted_elements. Qed.

  Lemma patched a s b t la lb : rep a s -> rep b t -> iter a = Some la -> iter b = Some lb ->
    exists removed added,
      diff iter contains a b = Some (removed, added) /\
      (exists f, removed = filter f la) /\ (exists f, added = filter f lb) /\
      (forall x, In x removed <-> In x la /\ ~ In x lb) /\ (forall x, In x added <-> In x lb /\ ~ In x la) /\
      (exists d d' d'', patch insert remove a removed added = Some (length removed + length added, d) /\
         iter d = Some lb /\
         patch insert remove d added removed = Some (length removed + length added, d') /\ iter d' = Some la /\
         patch insert remove d removed added = Some (0, d'') /\ iter d'' = Some lb) /\
      (forall r u n d, patch insert remove a r u = Some (n, d) -> iter d = Some lb ->
         incl removed r /\ incl added u).
  Proof.
    intros R S Ea Eb. unfold diff. rewrite Ea, (missing_rep b t la S), Eb, (missing_rep a s lb R).
    set (removed := filter _ la). set (added := filter _ lb). exists removed, added.
    assert (A : forall y, In y la <-> In y s) by (intros y; now apply iter_in with (d := a)).
    assert (B : forall y, In y lb <-> In y t) by (intros y; now apply iter_in with (d := b)).
    assert (Pr : forall x, In x removed <-> In x la /\ ~ In x lb).
    { intros x. unfold removed. rewrite filter_In, negb_true_iff, (mem_false L), (B x). tauto. }
    assert (Pa : forall x, In x added <-> In x lb /\ ~ In x la).
    { intros x. unfold added. rewrite filter_In, negb_true_iff, (mem_false L), (A x). tauto. }
    assert (Na : NoDup la).
    { rewrite (Hi _ _ R) in Ea. inv Ea. apply (ssorted_nodup L), (sorted_elements_sorted L). exact (Hn _ _ R). }
    assert (Nb : NoDup lb).
    { rewrite (Hi _ _ S) in Eb. inv Eb. apply (ssorted_nodup L), (sorted_elements_sorted L). exact (Hn _ _ S). }
    assert (Nr : NoDup removed) by now apply NoDup_filter.
    assert (Nd : NoDup added) by now apply NoDup_filter.
    split; [reflexivity|]. split; [unfold removed; eauto|]. split; [unfold added; eauto|].
    split; [exact Pr|]. split; [exact Pa|]. split.
    - destruct (patch_rep a s removed added R) as (n & d & s1 & E1 & R1 & M1 & C1 & _).
      assert (M : forall y, In y s1 <-> In y t).
      { intros y. rewrite M1, Pr, Pa, <- A, <- B.
        destruct (mem cmp y lb) eqn:E; [apply (mem_true L) in E|apply (mem_false L) in E];
          (destruct (mem cmp y la) eqn:F; [apply (mem_true L) in F|apply (mem_false L) in F]); tauto. }
      destruct (patch_rep d s1 added removed R1) as (m & d' & s2 & E2 & R2 & M2 & C2 & _).
      destruct (patch_rep d s1 removed added R1) as (k & d'' & s3 & E3 & R3 & M3 & _ & C3).
      assert (M' : forall y, In y s2 <-> In y s).
      { intros y. rewrite M2, M, Pr, Pa, <- A, <- B.
        destruct (mem cmp y lb) eqn:E; [apply (mem_true L) in E|apply (mem_false L) in E];
          (destruct (mem cmp y la) eqn:F; [apply (mem_true L) in F|apply (mem_false L) in F]); tauto. }
      assert (M'' : forall y, In y s3 <-> In y t).
      { intros y. rewrite M3, M, Pr, Pa, <- B.
        destruct (mem cmp y lb) eqn:E; [apply (mem_true L) in E|apply (mem_false L) in E];
          (destruct (mem cmp y la) eqn:F; [apply (mem_true L) in F|apply (mem_false L) in F]); tauto. }
      assert (Z : k = 0).
      { apply C3; intros x Hx; [apply Pr in Hx|apply Pa in Hx]; rewrite M, <- B; apply Hx. }
      exists d, d', d''. rewrite E1, E2, E3, Z, C1, C2; [|assumption|assumption| | |assumption|assumption| |].
      + split; [reflexivity|]. split; [rewrite <- Eb; exact (same_iter _ _ _ _ R1 S M)|].
        split; [now rewrite Nat.add_comm|]. split; [rewrite <- Ea; exact (same_iter _ _ _ _ R2 R M')|].
        split; [reflexivity|]. rewrite <- Eb. exact (same_iter _ _ _ _ R3 S M'').
      + intros x Hx. apply Pa in Hx. apply M, B, Hx.
      + intros x Hx. apply Pr in Hx. rewrite M, <- B. apply Hx.
      + intros x Hx. apply Pr in Hx. apply A, Hx.
      + intros x Hx. apply Pa in Hx. rewrite <- A. apply Hx.
    - intros r u n d E Ed. destruct (patch_rep a s r u R) as (m & d1 & s1 & E1 & R1 & M1 & _).
      rewrite E in E1. inv E1.
      assert (M : forall y, In y lb <-> In y s1) by (intros y; now apply iter_in with (d := d1)).
      split; intros x Hx.
      + apply Pr in Hx as [H1 H2]. rewrite M, M1, <- A in H2.
        destruct (mem cmp x r) eqn:F; [now apply (mem_true L)|apply (mem_false L) in F; tauto].
      + apply Pa in Hx as [H1 H2]. rewrite M, M1, <- A in H1. tauto.
  Qed.
End Generic.

(** ** The four containers *)
Section Containers.
  Context {R : Type} {cmp : R -> R -> comparison} (L : ord_laws cmp) {keep : bool}.
  Notation qcmp := (quad_cmp cmp).
  Notation tcmp := (triple_cmp cmp).
  Let LQ : ord_laws qcmp := quad_cmp_laws cmp L.
  Let LT : ord_laws tcmp := triple_cmp_laws cmp L.

  Lemma bd_patched ops1 xs a la ops2 ys b lb :
    run (bd_step cmp keep) bd_new ops1 = Some (xs, a) -> bd_iter a = Some la ->
    run (bd_step cmp keep) bd_new ops2 = Some (ys, b) -> bd_iter b = Some lb ->
    exists removed added,
      diff bd_iter (bd_contains cmp) a b = Some (removed, added) /\
      (exists f, removed = filter f la) /\ (exists f, added = filter f lb) /\
      (forall x, In x removed <-> In x la /\ ~ In x lb) /\ (forall x, In x added <-> In x lb /\ ~ In x la) /\
      (exists d d' d'', patch (bd_insert cmp keep) (bd_remove cmp) a removed added = Some (length removed + length added, d) /\
         bd_iter d = Some lb /\
         patch (bd_insert cmp keep) (bd_remove cmp) d added removed = Some (length removed + length added, d') /\
         bd_iter d' = Some la /\
         patch (bd_insert cmp keep) (bd_remove cmp) d removed added = Some (0, d'') /\ bd_iter d'' = Some lb) /\
      (forall r u n d, patch (bd_insert cmp keep) (bd_remove cmp) a r u = Some (n, d) -> bd_iter d = Some lb ->
         incl removed r /\ incl added u).
  Proof.
    intros H1 Ea H2 Eb. apply (bd_run_rep_new L) in H1, H2.
    eapply (patched LQ (rep := bd_rep (cmp:=cmp))); eauto.
    - intros d s [N _]; exact N.
    - exact (bd_iter_rep).
    - intros d s x [_ (vs & I)]. now rewrite (bd_contains_spec L _ _ _ _ I), (mem_sorted L).
    - intros d s x. exact (bd_insert_rep L keep d s x).
    - intros d s x. exact (bd_remove_rep L d s x).
  Qed.

  Lemma bg_patched ops1 xs a la ops2 ys b lb :
    run (bg_step cmp keep) bg_new ops1 = Some (xs, a) -> bg_iter a = Some la ->
    run (bg_step cmp keep) bg_new ops2 = Some (ys, b) -> bg_iter b = Some lb ->
    exists removed added,
      diff bg_iter (bg_contains cmp) a b = Some (removed, added) /\
      (exists f, removed = filter f la) /\ (exists f, added = filter f lb) /\
      (forall x, In x removed <-> In x la /\ ~ In x lb) /\ (forall x, In x added <-> In x lb /\ ~ In x la) /\
      (exists d d' d'', patch (bg_insert cmp keep) (bg_remove cmp) a removed added = Some (length removed + length added, d) /\
         bg_iter d = Some lb /\
         patch (bg_insert cmp keep) (bg_remove cmp) d added removed = Some (length removed + length added, d') /\
         bg_iter d' = Some la /\
         patch (bg_insert cmp keep) (bg_remove cmp) d removed added = Some (0, d'') /\ bg_iter d'' = Some lb) /\
      (forall r u n d, patch (bg_insert cmp keep) (bg_remove cmp) a r u = Some (n, d) -> bg_iter d = Some lb ->
         incl removed r /\ incl added u).
  Proof.
    intros H1 Ea H2 Eb. apply (bg_run_rep_new L) in H1, H2.
    eapply (patched LT (rep := bg_rep (cmp:=cmp))); eauto.
    - intros d s [N _]; exact N.
    - intros d s. exact (bg_iter_rep d s).
    - intros d s x. exact (bg_contains_rep L d s x).
    - intros d s x. exact (bg_insert_rep L keep d s x).
    - intros d s x. exact (bg_remove_rep L d s x).
  Qed.

  (** The indexed containers: the elements of a state of a history. *)
  Definition id_holds (d : @idataset R) (s : list (quad R)) : Prop :=
    exists s0 K n l, istate (cmp:=cmp) d s0 K n l /\ s = apply qcmp l s0.
  Lemma id_holds_step d s o : id_holds d s ->
    exists d', id_step cmp keep d (IOp o) = Some (IOut (fst (spec_step qcmp s o)), d') /\
      id_holds d' (snd (spec_step qcmp s o)).
  Proof.
    intros (s0 & K & n & l & H & ->). destruct (istate_set_step L keep _ _ _ _ _ o H) as (d' & E & H').
    exists d'. split; [exact E|]. exists s0, K, n, (l ++ set_changes qcmp (apply qcmp l s0) o).
    split; [exact H'|]. now rewrite apply_app, (apply_set_changes LQ).
  Qed.
  Definition ig_holds (g : @igraph R) (s : list (triple R)) : Prop :=
    exists s0 K n l, gstate (cmp:=cmp) g s0 K n l /\ s = apply tcmp l s0.
  Lemma ig_holds_step g s o : ig_holds g s ->
    exists g', ig_step cmp keep g o = Some (fst (spec_step tcmp s o), g') /\ ig_holds g' (snd (spec_step tcmp s o)).
  Proof.
    intros (s0 & K & n & l & H & ->). destruct (gstate_step L keep _ _ _ _ _ o H) as (g' & E & H').
    exists g'. split; [exact E|]. exists s0, K, n, (l ++ set_changes tcmp (apply tcmp l s0) o).
    split; [exact H'|]. now rewrite apply_app, (apply_set_changes LT).
  Qed.

  Lemma id_patched ops01 ops1 xs a la ops02 ops2 ys b lb :
    id_reached cmp keep ops01 ops1 xs a -> id_iter a = Some la ->
    id_reached cmp keep ops02 ops2 ys b -> id_iter b = Some lb ->
    exists removed added,
      diff id_iter (id_contains cmp) a b = Some (removed, added) /\
      (exists f, removed = filter f la) /\ (exists f, added = filter f lb) /\
      (forall x, In x removed <-> In x la /\ ~ In x lb) /\ (forall x, In x added <-> In x lb /\ ~ In x la) /\
      (exists d d' d'', patch (id_insert cmp keep) (id_remove cmp) a removed added = Some (length removed + length added, d) /\
         id_iter d = Some lb /\
         patch (id_insert cmp keep) (id_remove cmp) d added removed = Some (length removed + length added, d') /\
         id_iter d' = Some la /\
         patch (id_insert cmp keep) (id_remove cmp) d removed added = Some (0, d'') /\ id_iter d'' = Some lb) /\
      (forall r u n d, patch (id_insert cmp keep) (id_remove cmp) a r u = Some (n, d) -> id_iter d = Some lb ->
         incl removed r /\ incl added u).
  Proof.
    intros H1 Ea H2 Eb. apply (reached_state L) in H1 as [H1 _], H2 as [H2 _].
    eapply (patched LQ (rep := id_holds)); [..|exact Ea|exact Eb].
    - intros d s (s0 & K & n & l & H & ->). apply (is_rep _ _ _ _ _ H).
    - intros d s (s0 & K & n & l & H & ->). exact (id_iter_rep _ _ (is_rep _ _ _ _ _ H)).
    - intros d s x (s0 & K & n & l & H & ->). exact (id_contains_rep L _ _ x (is_rep _ _ _ _ _ H)).
    - intros d s x H. destruct (id_holds_step d s (Insert x) H) as (d' & E & H'). cbn in E, H'.
      destruct (id_insert cmp keep d x) as [[y d1]|]; [|discriminate]. cbn in E. inv E. eauto.
    - intros d s x H. destruct (id_holds_step d s (Remove x) H) as (d' & E & H'). cbn in E, H'.
      destruct (id_remove cmp d x) as [[y d1]|]; [|discriminate]. cbn in E. inv E. eauto.
    - do 4 eexists. split; [exact H1|reflexivity].
    - do 4 eexists. split; [exact H2|reflexivity].
  Qed.

  Lemma ig_patched ops01 ops1 a la ops02 ops2 b lb :
    ig_reached cmp keep ops01 ops1 a -> ig_iter a = Some la ->
    ig_reached cmp keep ops02 ops2 b -> ig_iter b = Some lb ->
    exists removed added,
      diff ig_iter (ig_contains cmp) a b = Some (removed, added) /\
      (exists f, removed = filter f la) /\ (exists f, added = filter f lb) /\
      (forall x, In x removed <-> In x la /\ ~ In x lb) /\ (forall x, In x added <-> In x lb /\ ~ In x la) /\
      (exists d d' d'', patch (ig_insert cmp keep) (ig_remove cmp) a removed added = Some (length removed + length added, d) /\
         ig_iter d = Some lb /\
         patch (ig_insert cmp keep) (ig_remove cmp) d added removed = Some (length removed + length added, d') /\
         ig_iter d' = Some la /\
         patch (ig_insert cmp keep) (ig_remove cmp) d removed added = Some (0, d'') /\ ig_iter d'' = Some lb) /\
      (forall r u n d, patch (ig_insert cmp keep) (ig_remove cmp) a r u = Some (n, d) -> ig_iter d = Some lb ->
         incl removed r /\ incl added u).
  Proof.
    intros H1 Ea H2 Eb. apply (greached L keep) in H1, H2.
    eapply (patched LT (rep := ig_holds)); [..|exact Ea|exact Eb].
    - intros d s (s0 & K & n & l & H & ->). exact (grep_nodup _ _ (gstate_rep _ _ _ _ _ H)).
    - intros d s (s0 & K & n & l & H & ->). exact (grep_iter _ _ (gstate_rep _ _ _ _ _ H)).
    - intros d s x H. destruct (ig_holds_step d s (Contains x) H) as (d' & E & H'). cbn in E, H'.
      destruct (ig_contains cmp d x) as [y|]; [|discriminate]. cbn in E. inv E. eauto.
    - intros d s x H. destruct (ig_holds_step d s (Insert x) H) as (d' & E & H'). cbn in E, H'.
      destruct (ig_insert cmp keep d x) as [[y d1]|]; [|discriminate]. cbn in E. inv E. eauto.
    - intros d s x H. destruct (ig_holds_step d s (Remove x) H) as (d' & E & H'). cbn in E, H'.
      destruct (ig_remove cmp d x) as [[y d1]|]; [|discriminate]. cbn in E. inv E. eauto.
    - do 4 eexists. split; [exact H1|reflexivity].
    - do 4 eexists. split; [exact H2|reflexivity].
  Qed.
End Containers.

(** Equal elements, other answers. *)
Lemma patch_queries : forall keep, exists ops xs b added d c q,
  id_reached Nat.compare keep [] ops xs b /\
  diff id_iter (id_contains Nat.compare) id_new b = Some ([], added) /\
  patch (id_insert Nat.compare keep) (id_remove Nat.compare) id_new [] added = Some (length added, d) /\
  id_iter d = id_iter b /\
  forall spare, id_pattern_matching Nat.compare b spare c = Some [q] /\
    id_pattern_matching Nat.compare d spare c = Some [].
Proof.
  intros keep. exists [IOp (Insert (Quad 1 0 2 None)); IOp (Insert (Quad 0 0 9 None))].
  destruct keep; (do 4 eexists; exists (CQ_AnyS (QA_SameS (QAG_Any (QAGA_Given None)))), (Quad 0 0 9 None);
    split; [exists []; do 2 eexists; vm_compute; repeat split|]; split; [vm_compute; reflexivity|];
    split; [vm_compute; reflexivity|]; split; [vm_compute; reflexivity|];
    intros []; split; vm_compute; reflexivity).
Qed.
