(** Undoing a batch of insertions on the indexed containers. *)
From Coq Require Import List Bool Arith Lia Sorted.
Import ListNotations.
From Verif Require Import Base TripleModel TriplePatternModel QuadPatternModel SetSpec ContainerSpec
  IndexedSpec ScanSpec Machine BaseProofs BTreeDatasetModel BTreeGraphModel IResourceModel
  IndexedDatasetModel IndexedHistoryProofs IndexedConvertProofs IndexedRunProofs IndexedGraphModel
  IndexedGraphProofs IndexedGraphRunProofs ScanProofs LedgerSpec ILedgerProofs SightSpec SightProofs GraphSightProofs RollbackSpec.

(** ** Ledgers that differ by their numbers *)
Section Like.
  Context {X : Type} {xcmp : X -> X -> comparison} (LX : ord_laws xcmp).
  Notation led := (ledger X).

  Lemma same_refl x : same xcmp x x = true.
  Proof. unfold same; now rewrite (ord_refl LX). Qed.
  Lemma same_true x y : same xcmp x y = true <-> x = y.
  Proof.
    unfold same; split; [|intros ->; now rewrite (ord_refl LX)].
    destruct (xcmp x y) eqn:E; try discriminate; intros _; now apply LX in E.
  Qed.

  Definition ren (f : nat -> nat) (m : X * (nat * bool)) : X * (nat * bool) :=
    (fst m, (f (fst (snd m)), snd (snd m))).
  Definition used (a : led) (n : nat) : Prop :=
    (exists m, In m (filed a) /\ fst (snd m) = n) \/ (reported a = true /\ n = number a).
  Definition like (a a' : led) : Prop :=
    reported a = reported a' /\ exists f,
      filed a' = map (ren f) (filed a) /\
      (forall n, used a n -> n <= number a /\ f n <= number a') /\
      (forall n m, used a n -> used a m -> f n = f m -> n = m) /\
      (reported a = true -> f (number a) = number a').

  Lemma find_ren f x (l : list (X * (nat * bool))) :
    find (fun m => same xcmp x (fst m)) (map (ren f) l) =
    option_map (ren f) (find (fun m => same xcmp x (fst m)) l).
  Proof.
    induction l as [|m l IH]; [reflexivity|]; cbn [map find]; cbn [ren fst].
    destruct (same xcmp x (fst m)); [reflexivity|exact IH].
  Qed.
  Lemma filter_ren f x (l : list (X * (nat * bool))) :
    filter (fun m => negb (same xcmp x (fst m))) (map (ren f) l) =
    map (ren f) (filter (fun m => negb (same xcmp x (fst m))) l).
  Proof.
    induction l as [|m l IH]; [reflexivity|]; cbn [map filter]; cbn [ren fst].
    destruct (same xcmp x (fst m)); cbn [negb map]; [exact IH|now rewrite IH].
  Qed.
  Lemma existsb_ren f n (l : list (X * (nat * bool))) :
    (forall m, In m l -> f (fst (snd m)) = f n -> fst (snd m) = n) ->
    existsb (fun m => fst (snd m) =? f n) (map (ren f) l) = existsb (fun m => fst (snd m) =? n) l.
  Proof.
    induction l as [|m l IH]; intros H; [reflexivity|]; cbn [map existsb]; cbn [ren fst snd].
    rewrite IH by (intros; apply H; [now right|assumption]); f_equal.
    destruct (fst (snd m) =? n) eqn:E.
    - apply Nat.eqb_eq in E; rewrite E; apply Nat.eqb_refl.
    - apply Nat.eqb_neq in E; apply Nat.eqb_neq; intros E'; apply E, H; [now left|exact E'].
  Qed.
  Lemma map_ren_ext f g (l : list (X * (nat * bool))) :
    (forall m, In m l -> f (fst (snd m)) = g (fst (snd m))) -> map (ren f) l = map (ren g) l.
  Proof. intros H; apply map_ext_in; intros m Hm; unfold ren; now rewrite (H m Hm). Qed.

  Lemma like_refl a : (forall n, used a n -> n <= number a) -> like a a.
  Proof.
    intros B; split; [reflexivity|]; exists (fun n => n); repeat split; auto.
    rewrite <- (map_id (filed a)) at 1; apply map_ext; intros [x [n m]]; reflexivity.
  Qed.

  Lemma used_like a a' f n :
    reported a = reported a' -> filed a' = map (ren f) (filed a) ->
    (reported a = true -> f (number a) = number a') -> used a n -> used a' (f n).
  Proof.
    intros E1 E2 E3 [(m & Hm & <-)|[Hr ->]].
    - left; exists (ren f m); split; [rewrite E2; now apply in_map|reflexivity].
    - right; split; [now rewrite <- E1|now apply E3].
  Qed.
  Lemma like_trans a b c : like a b -> like b c -> like a c.
  Proof.
    intros (E1 & f & F1 & B1 & I1 & N1) (E2 & g & F2 & B2 & I2 & N2).
    split; [congruence|]; exists (fun n => g (f n)).
    pose proof (fun n => used_like a b f n E1 F1 N1) as U.
    split; [|split; [|split]].
    - rewrite F2, F1, map_map; reflexivity.
    - intros n Hn; split; [now apply B1|]; apply B2, U, Hn.
    - intros n m Hn Hm E; apply I1; auto.
    - intros Hr; rewrite N1 by exact Hr; apply N2; now rewrite <- E1.
  Qed.

  Section At.
    Context {R : Type} (cmp : R -> R -> comparison) (comps : X -> list R) (r : R).
    Notation file := (file cmp comps r).
    Notation unfile := (unfile xcmp).
    Notation entry := (entry xcmp cmp comps r).

    Lemma like_file x a a' : like a a' -> like (file x a) (file x a').
    Proof.
      intros (E & f & F & B & I & N); unfold LedgerSpec.file.
      destruct (times cmp comps r x =? 0); [split; [exact E|]; exists f; auto|].
      rewrite <- E; destruct (reported a) eqn:Er.
      - split; [reflexivity|]; exists f; cbn [reported number filed].
        assert (U : forall n, used (Ledger true (number a) ((x, (number a, false)) :: filed a)) n ->
                              used a n).
        { intros n [(m & [<-|Hm] & <-)|[_ ->]]; cbn [fst snd number].
          - right; auto.
          - left; eauto.
          - right; auto. }
        split; [|split; [|split]].
        + cbn [map]; rewrite F; f_equal; unfold ren; cbn [fst snd]; now rewrite N.
        + intros n Hn; apply B, U, Hn.
        + intros n m Hn Hm; apply I; apply U; assumption.
        + intros _; now apply N.
      - split; [reflexivity|]; set (k := 1 <? times cmp comps r x).
        exists (fun n => if n =? S (number a) then S (number a') else f n); cbn [reported number filed].
        assert (U : forall n, used (Ledger true (S (number a)) ((x, (S (number a), k)) :: filed a)) n ->
                              n = S (number a) \/ used a n /\ n <= number a /\ f n <= number a').
        { intros n [(m & [<-|Hm] & <-)|[_ ->]]; cbn [fst snd number]; auto.
          right; assert (used a (fst (snd m))) by (left; eauto); auto. }
        split; [|split; [|split]].
        + cbn [map]; rewrite F; f_equal; [unfold ren; cbn [fst snd]; now rewrite Nat.eqb_refl|].
          apply map_ren_ext; intros m Hm.
          assert (used a (fst (snd m))) as Hu by (left; eauto); apply B in Hu.
          destruct (fst (snd m) =? S (number a)) eqn:En; [apply Nat.eqb_eq in En; lia|reflexivity].
        + intros n Hn; destruct (U n Hn) as [->|(Hu & H1 & H2)]; [rewrite Nat.eqb_refl; lia|].
          destruct (n =? S (number a)); lia.
        + intros n m Hn Hm; destruct (U n Hn) as [->|(Hu & H1 & H2)], (U m Hm) as [->|(Hu' & H1' & H2')].
          * reflexivity.
          * rewrite Nat.eqb_refl; destruct (m =? S (number a)) eqn:En; [apply Nat.eqb_eq in En; lia|lia].
          * rewrite Nat.eqb_refl; destruct (n =? S (number a)) eqn:En; [apply Nat.eqb_eq in En; lia|lia].
          * destruct (n =? S (number a)) eqn:En; [apply Nat.eqb_eq in En; lia|].
            destruct (m =? S (number a)) eqn:Em; [apply Nat.eqb_eq in Em; lia|auto].
        + intros _; now rewrite Nat.eqb_refl.
    Qed.

    Lemma like_unfile x a a' : like a a' -> like (unfile x a) (unfile x a').
    Proof.
      intros (E & f & F & B & I & N); unfold LedgerSpec.unfile; rewrite F, find_ren.
      destruct (find (fun m => same xcmp x (fst m)) (filed a)) as [[y [n k]]|] eqn:Ef; cbn [option_map].
      2:{ split; [exact E|]; exists f; auto. }
      unfold ren at 1; cbn [fst snd].
      apply find_some in Ef as [Hin _].
      rewrite filter_ren, <- E.
      set (rest := filter (fun m => negb (same xcmp x (fst m))) (filed a)).
      assert (Hrest : forall m, In m rest -> In m (filed a)) by (intros m Hm; now apply filter_In in Hm).
      rewrite existsb_ren.
      2:{ intros m Hm Em; apply I; [left; exists m; auto|left; exists (y, (n, k)); auto|exact Em]. }
      set (b := reported a && negb (k || negb (existsb (fun m => fst (snd m) =? n) rest))).
      split; [reflexivity|]; exists f; cbn [reported number filed].
      assert (U : forall n, used (Ledger b (number a) rest) n -> used a n).
      { intros n' [(m & Hm & <-)|[Hb ->]]; [left; exists m; cbn in Hm; auto|right].
        cbn [reported number] in *; unfold b in Hb; apply andb_prop in Hb as [Hb _]; auto. }
      split; [reflexivity|split; [|split]].
      - intros n' Hn; apply B, U, Hn.
      - intros n' m Hn Hm; apply I; apply U; assumption.
      - intros Hb; unfold b in Hb; apply andb_prop in Hb as [Hb _]; auto.
    Qed.

    Lemma like_entry c a a' : like a a' -> like (entry a c) (entry a' c).
    Proof.
      intros H; unfold LedgerSpec.entry; destruct (fst c); [now apply like_file|now apply like_unfile].
    Qed.
    Lemma like_entries l : forall a a', like a a' -> like (fold_left entry l a) (fold_left entry l a').
    Proof.
      induction l as [|c l IH]; intros a a' H; [exact H|]; cbn [fold_left]; now apply IH, like_entry.
    Qed.

    (** The invariant of the ledgers of histories, [s] being the set. *)
    Record sane (a : led) (s : list X) : Prop := {
      sa_in : forall m, In m (filed a) -> In (fst m) s;
      sa_once : NoDup (map fst (filed a));
      sa_bound : forall m, In m (filed a) -> fst (snd m) <= number a;
      sa_last : reported a = true -> exists m, In m (filed a) /\ fst (snd m) = number a
    }.

    Lemma sane_new : sane ledger_new [].
    Proof. constructor; cbn; [tauto|constructor|tauto|discriminate]. Qed.
    Lemma sane_used a s n : sane a s -> used a n -> n <= number a.
    Proof.
      intros H [(m & Hm & <-)|[_ ->]]; [|reflexivity]; exact (sa_bound _ _ H m Hm).
    Qed.
    Lemma sane_like a s : sane a s -> like a a.
    Proof. intros H; apply like_refl; intros n; now apply (sane_used a s). Qed.

    Lemma sane_file x a s : sane a s -> ~ In x s -> sane (file x a) (x :: s).
    Proof.
      intros H Hx; unfold LedgerSpec.file.
      assert (Hn : ~ In x (map fst (filed a))).
      { intros Hin; apply in_map_iff in Hin as (m & <- & Hm); now apply Hx, (sa_in _ _ H). }
      destruct (times cmp comps r x =? 0); [|destruct (reported a) eqn:Er].
      - constructor; [intros m Hm; right; now apply (sa_in _ _ H)| | |]; apply H.
      - constructor; cbn [filed number reported map fst].
        + intros m [<-|Hm]; [now left|right; now apply (sa_in _ _ H)].
        + constructor; [exact Hn|apply H].
        + intros m [<-|Hm]; [reflexivity|now apply (sa_bound _ _ H)].
        + intros _; eexists; split; [now left|reflexivity].
      - constructor; cbn [filed number reported map fst].
        + intros m [<-|Hm]; [now left|right; now apply (sa_in _ _ H)].
        + constructor; [exact Hn|apply H].
        + intros m [<-|Hm]; [reflexivity|]; pose proof (sa_bound _ _ H m Hm); lia.
        + intros _; eexists; split; [now left|reflexivity].
    Qed.

    Lemma sane_unfile x a s : sane a s -> sane (unfile x a) (del xcmp x s).
    Proof.
      intros H; unfold LedgerSpec.unfile.
      destruct (find (fun m => same xcmp x (fst m)) (filed a)) as [[y [n k]]|] eqn:Ef.
      - apply find_some in Ef as [Hin Ey]; apply same_true in Ey; cbn [fst] in Ey; subst y.
        set (rest := filter (fun m => negb (same xcmp x (fst m))) (filed a)).
        assert (Hrest : forall m, In m rest -> In m (filed a) /\ negb (same xcmp x (fst m)) = true)
          by (intros m Hm; now apply filter_In in Hm).
        constructor; cbn [filed number reported].
        + intros m Hm; apply Hrest in Hm as [Hm Hs]; apply filter_In; split; [now apply (sa_in _ _ H)|exact Hs].
        + unfold rest; pose proof (sa_once _ _ H) as Hn; clear - Hn.
          induction (filed a) as [|m l IH]; [constructor|]; cbn in *; inv Hn.
          destruct (negb (same xcmp x (fst m))); [|auto]; cbn; constructor; [|auto].
          intros Hin; apply H1; apply in_map_iff in Hin as (z & E & Hz); apply filter_In in Hz as [Hz _].
          rewrite <- E; now apply in_map.
        + intros m Hm; apply Hrest in Hm as [Hm _]; now apply (sa_bound _ _ H).
        + intros Hb; apply andb_prop in Hb as [Hr Hb]; apply negb_true_iff, orb_false_iff in Hb as [_ Hb].
          apply negb_false_iff, existsb_exists in Hb as (m & Hm & Em); apply Nat.eqb_eq in Em.
          destruct (sa_last _ _ H Hr) as (m' & Hm' & Em').
          destruct (same xcmp x (fst m')) eqn:Es.
          * exists m; split; [exact Hm|]; rewrite Em; rewrite <- Em'; apply same_true in Es.
            pose proof (sa_once _ _ H) as Hn; destruct m' as [x' [n' k']]; cbn [fst snd] in *; subst x'.
            clear - Hn Hin Hm'.
            induction (filed a) as [|z l IH]; [destruct Hin|]; cbn in *; inv Hn.
            destruct Hin as [->|Hin], Hm' as [E|Hm']; try (injection E as -> ->); auto.
            -- exfalso; apply H1; now apply (in_map fst) in Hm'.
            -- exfalso; apply H1; subst; now apply (in_map fst) in Hin.
          * exists m'; split; [|exact Em']; apply filter_In; split; [exact Hm'|now rewrite Es].
      - constructor; try apply H.
        intros m Hm; apply filter_In; split; [now apply (sa_in _ _ H)|].
        pose proof (find_none _ _ Ef m Hm) as Es; cbn in Es; now rewrite Es.
    Qed.

    (** A new element comes and leaves. *)
    Lemma file_unfile x a s : sane a s -> ~ In x s -> like a (unfile x (file x a)).
    Proof.
      intros H Hx; unfold LedgerSpec.file.
      assert (Hn : forall m, In m (filed a) -> same xcmp x (fst m) = false).
      { intros m Hm; destruct (same xcmp x (fst m)) eqn:E; [|reflexivity].
        apply same_true in E; subst; exfalso; now apply Hx, (sa_in _ _ H). }
      assert (Hf : filter (fun m => negb (same xcmp x (fst m))) (filed a) = filed a).
      { clear - Hn; induction (filed a) as [|m l IH]; [reflexivity|]; cbn.
        rewrite (Hn m (or_introl eq_refl)); cbn; f_equal; apply IH; intros; apply Hn; now right. }
      destruct (times cmp comps r x =? 0).
      { unfold LedgerSpec.unfile.
        destruct (find (fun m => same xcmp x (fst m)) (filed a)) as [m|] eqn:Ef.
        - apply find_some in Ef as [Hin E]; rewrite (Hn _ Hin) in E; discriminate.
        - apply (sane_like a s H). }
      destruct (reported a) eqn:Er; unfold LedgerSpec.unfile; cbn [filed find fst snd];
        rewrite same_refl; cbn [filter fst]; rewrite same_refl; cbn [negb]; rewrite Hf; cbn [reported number].
      - destruct (sa_last _ _ H Er) as (m & Hm & Em).
        assert (E : existsb (fun m => fst (snd m) =? number a) (filed a) = true).
        { apply existsb_exists; exists m; split; [exact Hm|now apply Nat.eqb_eq]. }
        rewrite E; cbn [negb orb andb]; destruct a as [b n l]; cbn [reported number filed] in *; subst b.
        exact (sane_like _ _ H).
      - assert (E : existsb (fun m => fst (snd m) =? S (number a)) (filed a) = false).
        { apply Bool.not_true_iff_false; intros E; apply existsb_exists in E as (m & Hm & Em).
          apply Nat.eqb_eq in Em; pose proof (sa_bound _ _ H m Hm); lia. }
        rewrite E; cbn [negb]; rewrite orb_true_r; cbn [negb andb].
        split; [exact Er|]; exists (fun n => n); cbn [reported number filed]; repeat split.
        + rewrite <- (map_id (filed a)) at 1; apply map_ext; intros [y [n m]]; reflexivity.
        + now apply (sane_used a s).
        + pose proof (sane_used a s n H H0); lia.
        + auto.
        + rewrite Er; discriminate.
    Qed.

    Lemma label_like keep l l' x i : like (account xcmp cmp comps r l) (account xcmp cmp comps r l') ->
      label xcmp cmp comps keep l x i r = label xcmp cmp comps keep l' x i r.
    Proof.
      intros (E & f & F & B & I & N); unfold label; rewrite F, find_ren, <- E.
      destruct (find _ (filed (account xcmp cmp comps r l))) as [[y [n k]]|] eqn:Ef; cbn [option_map]; [|reflexivity].
      unfold ren; cbn [fst snd]; apply find_some in Ef as [Hin _].
      destruct (reported (account xcmp cmp comps r l)) eqn:Er; [|reflexivity].
      rewrite <- (N eq_refl); cbn [andb].
      do 3 f_equal.
      destruct (n =? number (account xcmp cmp comps r l)) eqn:En.
      - apply Nat.eqb_eq in En; rewrite En; symmetry; apply Nat.eqb_refl.
      - symmetry; apply Nat.eqb_neq in En; apply Nat.eqb_neq; intros Ec; apply En, I; [left; eauto|right; auto|exact Ec].
    Qed.
  End At.
End Like.

(** ** Places that differ by vacant ones at the end *)
Section PLike.
  Context {X : Type} {xcmp : X -> X -> comparison} (LX : ord_laws xcmp).

  Definition valid (st : @places X) : Prop :=
    NoDup (snd st) /\ forall i, In i (snd st) -> nth_error (fst st) i = Some None.
  Definition plike (st st' : @places X) : Prop :=
    exists k, st' = (fst st ++ repeat None k, snd st ++ seq (length (fst st)) k).

  Lemma plike_refl st : plike st st.
  Proof. exists 0; cbn; rewrite !app_nil_r; now destruct st. Qed.
  Lemma plike_trans a b c : plike a b -> plike b c -> plike a c.
  Proof.
    intros (k & ->) (k' & ->); exists (k + k'); cbn [fst snd].
    rewrite <- !app_assoc, <- repeat_app, app_length, repeat_length, <- seq_app; reflexivity.
  Qed.
  Lemma present_app (s t : list (option X)) : present (s ++ t) = present s ++ present t.
  Proof. apply flat_map_app. Qed.
  Lemma present_none k : present (repeat (@None X) k) = [].
  Proof. induction k; auto. Qed.
  Lemma plike_present st st' : plike st st' -> present (fst st') = present (fst st).
  Proof. intros (k & ->); cbn [fst]; now rewrite present_app, present_none, app_nil_r. Qed.

  Lemma split_at {A} (s : list A) i e : nth_error s i = Some e ->
    s = firstn i s ++ e :: skipn (S i) s /\ length (firstn i s) = i.
  Proof.
    revert i; induction s as [|a s IH]; intros [|i] E; try discriminate; cbn in *.
    - injection E as ->; auto.
    - destruct (IH i E) as [E1 E2]; split; [f_equal; exact E1|now f_equal].
  Qed.

  Lemma plike_put x st st' : valid st -> plike st st' -> plike (put x st) (put x st').
  Proof.
    intros [_ V] (k & ->); destruct st as [s [|i v]]; cbn [fst snd app] in *.
    - destruct k as [|k]; cbn [repeat seq app put].
      + exists 0; cbn; rewrite !app_nil_r; reflexivity.
      + exists k; cbn [fst snd app]; f_equal.
        * rewrite firstn_app, Nat.sub_diag, firstn_all; cbn [firstn]; rewrite app_nil_r.
          rewrite skipn_app, skipn_all2 by lia; cbn [app].
          replace (S (length s) - length s) with 1 by lia; cbn [skipn].
          rewrite <- app_assoc; reflexivity.
        * rewrite app_length; cbn; now replace (length s + 1) with (S (length s)) by lia.
    - cbn [put]; exists k; cbn [fst snd].
      assert (Hi : i < length s).
      { apply nth_error_Some; rewrite (V i (or_introl eq_refl)); discriminate. }
      f_equal.
      + rewrite firstn_app, skipn_app.
        replace (i - length s) with 0 by lia; replace (S i - length s) with 0 by lia; cbn [firstn skipn].
        rewrite app_nil_r, <- app_assoc; reflexivity.
      + do 2 f_equal; rewrite app_length; cbn [length]; rewrite firstn_length, skipn_length; lia.
  Qed.
  Lemma plike_put_new x st st' : valid st -> plike st st' -> plike (put_new xcmp x st) (put_new xcmp x st').
  Proof.
    intros V H; unfold put_new; rewrite (plike_present _ _ H).
    destruct (mem xcmp x (present (fst st))); [exact H|now apply plike_put].
  Qed.
  Lemma positions_app (P : X -> bool) s t : forall n,
    positions P n (s ++ t) = positions P n s ++ positions P (n + length s) t.
  Proof.
    induction s as [|[x|] s IH]; intros n; cbn [app positions length].
    - now rewrite Nat.add_0_r.
    - rewrite IH, <- Nat.add_succ_comm; destruct (P x); reflexivity.
    - now rewrite IH, <- Nat.add_succ_comm.
  Qed.
  Lemma positions_none (P : X -> bool) k : forall n, positions P n (repeat None k) = [].
  Proof. induction k; intros n; cbn; auto. Qed.
  Lemma plike_vacate P st st' : plike st st' -> plike (vacate P st) (vacate P st').
  Proof.
    intros (k & ->); exists k; destruct st as [s v]; cbn [fst snd vacate].
    rewrite map_app, positions_app, positions_none, app_nil_r, map_length, app_assoc; do 2 f_equal.
    clear; induction k; cbn; [reflexivity|now f_equal].
  Qed.

  Lemma valid_new : valid ([], []).
  Proof. split; [constructor|intros i []]. Qed.
  Lemma valid_put x st : valid st -> valid (put x st).
  Proof.
    intros [N V]; destruct st as [s [|i v]]; cbn [put fst snd] in *.
    - split; [constructor|intros i []].
    - inv N; split; [assumption|]; cbn [fst snd].
      intros j Hj; destruct (split_at _ _ _ (V i (or_introl eq_refl))) as [E Hl].
      pose proof (V j (or_intror Hj)) as Vj; rewrite E in Vj.
      destruct (lt_eq_lt_dec j i) as [[Hlt| ->]|Hgt]; [|contradiction|].
      + rewrite nth_error_app1 in * by lia; exact Vj.
      + rewrite nth_error_app2 in * by lia; rewrite Hl in *.
        destruct (j - i) as [|m] eqn:Em; [lia|exact Vj].
  Qed.
  Lemma valid_put_new x st : valid st -> valid (put_new xcmp x st).
  Proof. intros V; unfold put_new; destruct (mem _ _ _); [exact V|now apply valid_put]. Qed.
  Lemma in_positions (P : X -> bool) i s : forall n,
    In i (positions P n s) -> exists x, n <= i /\ nth_error s (i - n) = Some (Some x) /\ P x = true.
  Proof.
    induction s as [|[y|] s IH]; intros n Hin; cbn [positions] in Hin; [destruct Hin| |].
    - assert (D : n = i /\ P y = true \/ In i (positions P (S n) s)).
      { destruct (P y); [destruct Hin; auto|auto]. }
      destruct D as [[<- Hy]|D]; [exists y; rewrite Nat.sub_diag; auto|].
      destruct (IH _ D) as (x & H1 & H2 & H3); exists x; split; [lia|split; [|exact H3]].
      now replace (i - n) with (S (i - S n)) by lia.
    - destruct (IH _ Hin) as (x & H1 & H2 & H3); exists x; split; [lia|split; [|exact H3]].
      now replace (i - n) with (S (i - S n)) by lia.
  Qed.
  Lemma nodup_positions (P : X -> bool) s : forall n, NoDup (positions P n s).
  Proof.
    induction s as [|[y|] s IH]; intros n; cbn [positions]; [constructor| |auto].
    destruct (P y); [|auto]; constructor; [|auto].
    intros Hin; apply in_positions in Hin as (x & H & _); lia.
  Qed.
  Lemma valid_vacate P st : valid st -> valid (vacate P st).
  Proof.
    intros [N V]; destruct st as [s v]; cbn [vacate fst snd] in *; split; cbn [fst snd].
    - assert (D : forall i, In i (positions P 0 s) -> ~ In i v).
      { intros i Hi Hv; apply in_positions in Hi as (x & _ & E & _); rewrite Nat.sub_0_r in E.
        rewrite (V i Hv) in E; discriminate. }
      pose proof (nodup_positions P s 0) as Np; clear V.
      induction (positions P 0 s) as [|i l IH]; [exact N|]; cbn [rev].
      inv Np; rewrite <- app_assoc; cbn [app].
      apply NoDup_Add with (a := i) (l := rev l ++ v); [apply Add_app|].
      split; [apply IH; [intros j Hj; apply D; now right|assumption]|].
      intros Hin; apply in_app_iff in Hin as [Hin|Hin]; [now apply in_rev in Hin|].
      exact (D i (or_introl eq_refl) Hin).
    - intros i Hi; apply in_app_iff in Hi as [Hi|Hi]; rewrite nth_error_map.
      + apply in_rev, in_positions in Hi as (x & _ & E & Hx); rewrite Nat.sub_0_r in E.
        rewrite E; cbn; now rewrite Hx.
      + now rewrite (V i Hi).
  Qed.
  Lemma valid_op st o : valid st -> valid (place_op xcmp st o).
  Proof.
    intros V; destruct o as [x|x|l|x| | | |]; cbn [place_op]; try exact V.
    - now apply valid_put_new.
    - now apply valid_vacate.
    - revert st V; induction l as [|x l IH]; intros st V; [exact V|]; cbn; now apply IH, valid_put_new.
  Qed.
  Lemma plike_op st st' o : valid st -> plike st st' -> plike (place_op xcmp st o) (place_op xcmp st' o).
  Proof.
    intros V H; destruct o as [x|x|l|x| | | |]; cbn [place_op]; try exact H.
    - now apply plike_put_new.
    - now apply plike_vacate.
    - revert st st' V H; induction l as [|x l IH]; intros st st' V H; [exact H|]; cbn.
      apply IH; [now apply valid_put_new|now apply plike_put_new].
  Qed.

  (** A new element comes and leaves. *)
  Lemma leave_absent (P : X -> bool) s : (forall x, In x (present s) -> P x = false) ->
    map (leave P) s = s /\ forall n, positions P n s = [].
  Proof.
    induction s as [|[x|] s IH]; intros H; cbn in *; [auto| |].
    - rewrite (H x (or_introl eq_refl)); destruct IH as [E1 E2]; [intros; apply H; now right|].
      split; [now f_equal|auto].
    - destruct (IH H) as [E1 E2]; split; [now f_equal|auto].
  Qed.
  Lemma put_vacate x st : valid st -> ~ In x (present (fst st)) ->
    plike st (vacate (same xcmp x) (put_new xcmp x st)).
  Proof.
    intros [_ V] Hx; unfold put_new.
    destruct (mem xcmp x (present (fst st))) eqn:Em.
    { exfalso; apply Hx; apply existsb_exists in Em as (y & Hy & Es).
      apply (same_true LX) in Es; now subst. }
    assert (A : forall y, In y (present (fst st)) -> same xcmp x y = false).
    { intros y Hy; destruct (same xcmp x y) eqn:E; [|reflexivity]; apply (same_true LX) in E; now subst. }
    clear Em Hx; destruct st as [s [|i v]]; cbn [put fst snd] in *; cbn [vacate].
    - exists 1; cbn [fst snd app repeat seq]; rewrite map_app, positions_app.
      destruct (leave_absent _ _ A) as [E1 E2]; rewrite E1, E2; cbn; rewrite (same_refl LX); reflexivity.
    - destruct (split_at _ _ _ (V i (or_introl eq_refl))) as [E Hl].
      exists 0; cbn [fst snd seq repeat]; rewrite !app_nil_r.
      rewrite E in A; rewrite present_app in A; cbn [present flat_map app] in A.
      destruct (leave_absent (same xcmp x) (firstn i s)) as [E1 E2].
      { intros y Hy; apply A, in_app_iff; auto. }
      destruct (leave_absent (same xcmp x) (skipn (S i) s)) as [E3 E4].
      { intros y Hy; apply A, in_app_iff; auto. }
      rewrite map_app, positions_app; cbn [map positions leave]; rewrite (same_refl LX), E1, E2, E3, E4, Hl.
      rewrite <- E; reflexivity.
  Qed.

  Lemma present_put x st : valid st -> forall y, In y (present (fst (put x st))) <-> y = x \/ In y (present (fst st)).
  Proof.
    intros [_ V] y; destruct st as [s [|i v]]; cbn [put fst snd] in *.
    - rewrite present_app, in_app_iff; cbn; intuition.
    - destruct (split_at _ _ _ (V i (or_introl eq_refl))) as [E _]; rewrite E at 3.
      rewrite !present_app, !in_app_iff; cbn; intuition.
  Qed.

  Lemma scan_trailing ks k s : forall sk : option (X -> bool),
    scan sk ks (s ++ repeat None k) = scan sk ks s.
  Proof.
    induction s as [|[x|] s IH]; intros sk; cbn [app scan].
    - induction k as [|k IH]; [reflexivity|]; cbn; destruct sk; auto.
    - destruct (match sk with Some t => t x | None => true end); [|apply IH].
      destruct (fails_at ks x) as [[| |]|]; try apply IH; f_equal; apply IH.
    - destruct sk; [apply IH|reflexivity].
  Qed.
End PLike.

(** ** Changes and places together *)
Section Twins.
  Context {X R : Type} {xcmp : X -> X -> comparison} (LX : ord_laws xcmp).
  Context (cmp : R -> R -> comparison) (comps : X -> list R).

  Fixpoint fresh (s : list X) (l : list (change X)) : Prop :=
    match l with
    | [] => True
    | c :: r => (fst c = true -> ~ In (snd c) s) /\ fresh (apply_change xcmp s c) r
    end.

  Lemma mem_in x s : mem xcmp x s = true <-> In x s.
  Proof.
    unfold mem; rewrite existsb_exists; split.
    - intros (y & Hy & E); apply (same_true LX) in E; now subst.
    - intros H; exists x; split; [exact H|apply (same_refl LX)].
  Qed.
  Lemma mem_out x s : ~ In x s -> mem xcmp x s = false.
  Proof. intros H; destruct (mem xcmp x s) eqn:E; [|reflexivity]; now apply mem_in in E. Qed.
  Lemma add_new x s : ~ In x s -> add xcmp x s = x :: s.
  Proof. intros H; unfold add; now rewrite mem_out. Qed.
  Lemma del_new x s : ~ In x s -> del xcmp x (x :: s) = s.
  Proof.
    intros H; unfold del; cbn; rewrite (same_refl LX); cbn.
    induction s as [|y s IH]; [reflexivity|]; cbn.
    destruct (same xcmp x y) eqn:E; [apply (same_true LX) in E; subst; exfalso; apply H; now left|].
    cbn; f_equal; apply IH; intros Hx; apply H; now right.
  Qed.

  Lemma fresh_app a b : forall s, fresh s (a ++ b) <-> fresh s a /\ fresh (apply xcmp a s) b.
  Proof.
    induction a as [|c a IH]; intros s; cbn -[apply]; [tauto|]; rewrite IH; unfold apply; cbn; tauto.
  Qed.
  Lemma fresh_removals s l : (forall c, In c l -> fst c = false) -> fresh s l.
  Proof.
    revert s; induction l as [|c l IH]; intros s H; cbn; [exact Logic.I|]; split.
    - rewrite (H c (or_introl eq_refl)); discriminate.
    - apply IH; intros; apply H; now right.
  Qed.
  Lemma fresh_set_changes s o : fresh s (set_changes xcmp s o).
  Proof.
    assert (G : forall x s, mem xcmp x s = false -> ~ In x s).
    { intros x s' E Hin; apply mem_in in Hin; congruence. }
    destruct o as [x|x|l|x| | | |]; cbn [set_changes]; try exact Logic.I.
    - destruct (mem xcmp x s) eqn:E; cbn; auto.
    - destruct (mem xcmp x s) eqn:E; cbn; [|exact Logic.I]; split; [discriminate|exact Logic.I].
    - revert s; induction l as [|x l IH]; intros s; cbn; [exact Logic.I|].
      destruct (mem xcmp x s) eqn:E; [apply IH|]; split; [intros _; cbn; now apply G|apply IH].
  Qed.
  Lemma fresh_set_log ops : forall s, fresh s (set_log xcmp s ops).
  Proof.
    induction ops as [|o ops IH]; intros s; cbn [set_log]; [exact Logic.I|].
    apply fresh_app; split; [apply fresh_set_changes|].
    rewrite (apply_set_changes LX); apply IH.
  Qed.

  Lemma sane_entries r l : forall a s, fresh s l -> sane a s ->
    sane (fold_left (entry xcmp cmp comps r) l a) (apply xcmp l s).
  Proof.
    induction l as [|[b x] l IH]; intros a s Hf H; [exact H|]; cbn [fold_left fresh] in *.
    destruct Hf as [Hx Hf]; unfold apply; cbn [fold_left]; apply IH; [exact Hf|].
    unfold entry, apply_change; cbn [fst snd] in *; destruct b.
    - rewrite add_new by auto; apply sane_file; auto.
    - apply (sane_unfile LX); exact H.
  Qed.
  Lemma sane_account r l : fresh [] l -> sane (account xcmp cmp comps r l) (apply xcmp l []).
  Proof. intros H; apply sane_entries; [exact H|apply (sane_new (R:=R) cmp comps r)]. Qed.

  Definition twins (l : list (change X)) (st : @places X) (l' : list (change X)) (st' : @places X) : Prop :=
    (forall r, like (account xcmp cmp comps r l) (account xcmp cmp comps r l')) /\
    plike st st' /\ apply xcmp l [] = apply xcmp l' [].

  Lemma twins_refl l st : fresh [] l -> twins l st l st.
  Proof.
    intros H; split; [|split; [apply plike_refl|reflexivity]].
    intros r; eapply sane_like, sane_account, H.
  Qed.
  Lemma twins_trans l1 s1 l2 s2 l3 s3 : twins l1 s1 l2 s2 -> twins l2 s2 l3 s3 -> twins l1 s1 l3 s3.
  Proof.
    intros (A & B & C) (A' & B' & C'); split; [|split].
    - intros r; eapply like_trans; eauto.
    - eapply plike_trans; eauto.
    - congruence.
  Qed.
  Lemma twins_changes l st l' st' cs st1 st1' : twins l st l' st' -> plike st1 st1' ->
    twins (l ++ cs) st1 (l' ++ cs) st1'.
  Proof.
    intros (A & B & C) B'; split; [|split; [exact B'|]].
    - intros r; unfold account; rewrite !fold_left_app; now apply like_entries, A.
    - unfold apply in *; rewrite !fold_left_app; congruence.
  Qed.

  (** ** Batches *)
  Context {S O Y : Type} (step : S -> O -> option (Y * S)) (wop : op X -> O) (wout : out X -> Y).
  Context (stands : S -> list (change X) -> @places X -> Prop).
  Context (facts : forall d l st, stands d l st -> fresh [] l /\ valid st /\
    forall x, In x (present (fst st)) <-> In x (apply xcmp l [])).
  Context (steps : forall d l st o, stands d l st -> exists d',
    step d (wop o) = Some (wout (fst (spec_step xcmp (apply xcmp l []) o)), d') /\
    stands d' (l ++ set_changes xcmp (apply xcmp l []) o) (place_op xcmp st o)).

  Lemma run_app a b : forall s xs s1 ys s2, run step s a = Some (xs, s1) -> run step s1 b = Some (ys, s2) ->
    run step s (a ++ b) = Some (xs ++ ys, s2).
  Proof.
    induction a as [|o a IH]; intros s xs s1 ys s2 Ea Eb; cbn in *; [injection Ea as <- <-; exact Eb|].
    destruct (step s o) as [[x s']|]; [|discriminate].
    destruct (run step s' a) as [[zs s'']|] eqn:E; [|discriminate]; injection Ea as <- <-.
    now rewrite (IH _ _ _ _ _ E Eb).
  Qed.

  Lemma batch b : forall d l st, stands d l st -> NoDup b -> (forall x, In x b -> ~ In x (apply xcmp l [])) ->
    exists d1 l1 st1,
      run step d (map wop (tried b)) = Some (map (fun _ => wout (OBool true)) (tried b), d1) /\
      stands d1 l1 st1 /\ twins l st l1 st1.
  Proof.
    induction b as [|x b IH]; intros d l st H Hn Hb.
    - exists d, l, st; split; [reflexivity|]; split; [exact H|]; apply twins_refl, (facts _ _ _ H).
    - inversion Hn as [|x0 b0 Hxb Hnb]; subst x0 b0; pose proof (Hb x (or_introl eq_refl)) as Hx.
      destruct (facts _ _ _ H) as (Hf & Hv & Hp).
      destruct (steps _ _ _ (Insert x) H) as (d1 & E1 & H1).
      cbn [spec_step fst set_changes place_op] in E1, H1; rewrite (mem_out _ _ Hx) in E1, H1; cbn [negb] in E1.
      destruct (facts _ _ _ H1) as (Hf1 & Hv1 & Hp1).
      assert (S1 : apply xcmp (l ++ [(true, x)]) [] = x :: apply xcmp l []).
      { unfold apply at 1; rewrite fold_left_app; cbn; apply add_new, Hx. }
      destruct (IH _ _ _ H1) as (d2 & l2 & st2 & E2 & H2 & T2).
      { assumption. }
      { intros y Hy; rewrite S1; intros [<-|Hin]; [contradiction|]; exact (Hb y (or_intror Hy) Hin). }
      pose proof T2 as (_ & P2 & A2).
      destruct (steps _ _ _ (Remove x) H2) as (d3 & E3 & H3).
      cbn [spec_step fst set_changes place_op] in E3, H3; rewrite <- A2, S1 in E3, H3.
      assert (M : mem xcmp x (x :: apply xcmp l []) = true) by (apply mem_in; now left).
      rewrite M in E3, H3.
      eexists d3, _, _; split; [|split; [exact H3|]].
      + unfold tried; cbn [map rev app]; rewrite !map_app; cbn [map].
        change (wop (Insert x) :: map wop (map Insert b) ++ map wop (map Remove (rev b)) ++ [wop (Remove x)])
          with ([wop (Insert x)] ++ map wop (map Insert b) ++ map wop (map Remove (rev b)) ++ [wop (Remove x)]).
        assert (E : run step d1 ((map wop (map Insert b) ++ map wop (map Remove (rev b))) ++ [wop (Remove x)]) =
                    Some (map (fun _ => wout (OBool true)) (tried b) ++ [wout (OBool true)], d3)).
        { eapply run_app; [rewrite <- map_app; exact E2|]; cbn; now rewrite E3. }
        rewrite <- app_assoc in E; cbn [app run]; rewrite E1, E; unfold tried; rewrite map_app, <- app_assoc.
        reflexivity.
      + apply twins_trans with ((l ++ [(true, x)]) ++ [(false, x)]) (vacate (same xcmp x) (put_new xcmp x st)).
        * split; [|split].
          -- intros r; unfold account; rewrite !fold_left_app; cbn [fold_left]; unfold entry; cbn [fst snd].
             eapply (file_unfile LX); [apply sane_account, Hf|exact Hx].
          -- apply (put_vacate LX); [exact Hv|]; now rewrite Hp.
          -- unfold apply at 2; rewrite fold_left_app; fold (apply xcmp (l ++ [(true, x)]) []); rewrite S1; cbn.
             symmetry; now apply del_new.
        * apply twins_changes with (put_new xcmp x st) st2; [exact T2|now apply plike_vacate].
  Qed.
End Twins.

(** ** Datasets *)
Section Datasets.
  Context {R : Type} {cmp : R -> R -> comparison} (L : ord_laws cmp).
  Context (keep : bool).
  Notation qcmp := (quad_cmp cmp).
  Notation tcmp := (triple_cmp cmp).
  Let LQ : ord_laws qcmp := quad_cmp_laws cmp L.
  Let LT : ord_laws tcmp := triple_cmp_laws cmp L.
  Notation twins := (twins (xcmp:=qcmp) cmp quad_comps).

  Definition stands (d : idataset) (l : list (change (quad R))) (st : @places (quad R)) : Prop :=
    exists ops0 ops xs, id_reached cmp keep ops0 ops xs d /\ l = full_log cmp ops0 ops xs /\
      st = place_run cmp (place_ops qcmp ops0) ops xs.

  Lemma stands_set ops0 ops xs : apply qcmp (full_log cmp ops0 ops xs) [] = final_set cmp ops0 ops xs.
  Proof.
    unfold full_log, final_set; rewrite apply_app, (apply_set_log LQ); reflexivity.
  Qed.

  Lemma log_fresh ops : forall s xs, fresh (xcmp:=qcmp) s (log cmp s ops xs).
  Proof.
    induction ops as [|o ops IH]; intros s [|x xs]; cbn [log]; try exact Logic.I.
    apply fresh_app; split; [|apply IH].
    destruct o as [o|g|c n sp]; cbn [changes].
    - apply (fresh_set_changes LQ).
    - destruct x as [x|[ts|]|q]; try exact Logic.I; apply fresh_removals.
      intros c Hc; apply in_map_iff in Hc as (t & <- & _); reflexivity.
    - destruct x as [x|ts|q]; try exact Logic.I; apply fresh_removals.
      intros c' Hc; apply in_map_iff in Hc as (t & <- & _); reflexivity.
  Qed.

  Lemma valid_ops (X : Type) (xc : X -> X -> comparison) ops : forall st,
    valid st -> valid (fold_left (place_op xc) ops st).
  Proof. induction ops as [|o ops IH]; intros st V; [exact V|]; cbn; now apply IH, valid_op. Qed.
  Lemma valid_iop st o x : valid st -> valid (place_iop cmp st o x).
  Proof.
    intros V; destruct o as [o|g|c n sp]; cbn [place_iop].
    - now apply valid_op.
    - destruct x as [x|[ts|]|q]; try exact V; now apply valid_vacate.
    - destruct x as [x|ts|q]; try exact V; now apply valid_vacate.
  Qed.
  Lemma valid_run ops : forall st xs, valid st -> valid (place_run cmp st ops xs).
  Proof.
    induction ops as [|o ops IH]; intros st [|x xs] V; cbn [place_run]; try exact V.
    now apply IH, valid_iop.
  Qed.

  Lemma stands_facts d l st : stands d l st -> fresh (xcmp:=qcmp) [] l /\ valid st /\
    forall x, In x (present (fst st)) <-> In x (apply qcmp l []).
  Proof.
    intros (ops0 & ops & xs & H & -> & ->); split; [|split].
    - unfold full_log; apply fresh_app; split; [apply (fresh_set_log LQ)|].
      rewrite (apply_set_log LQ); apply log_fresh.
    - apply valid_run, valid_ops, valid_new.
    - intros q; rewrite stands_set; exact (id_places L keep _ _ _ _ H q).
  Qed.

  Lemma log_snoc ops : forall s xs o x, length xs = length ops ->
    log cmp s (ops ++ [o]) (xs ++ [x]) =
    log cmp s ops xs ++ changes cmp (apply qcmp (log cmp s ops xs) s) o x.
  Proof.
    induction ops as [|p ops IH]; intros s [|y xs] o x E; try discriminate; cbn [app log].
    - rewrite app_nil_r; reflexivity.
    - rewrite IH by (now injection E); rewrite apply_app, <- app_assoc; reflexivity.
  Qed.
  Lemma place_snoc ops : forall st xs o x, length xs = length ops ->
    place_run cmp st (ops ++ [o]) (xs ++ [x]) = place_iop cmp (place_run cmp st ops xs) o x.
  Proof.
    induction ops as [|p ops IH]; intros st [|y xs] o x E; try discriminate; cbn [app place_run].
    - reflexivity.
    - apply IH; now injection E.
  Qed.

  Lemma stands_step d l st o : stands d l st -> exists x d',
    id_step cmp keep d o = Some (x, d') /\ allowed cmp (apply qcmp l []) o x /\
    stands d' (l ++ changes cmp (apply qcmp l []) o x) (place_iop cmp st o x).
  Proof.
    intros (ops0 & ops & xs & H & -> & ->); rewrite stands_set.
    destruct (reached_state L keep _ _ _ _ H) as [Hs _].
    destruct (istate_step L keep _ _ _ _ _ o Hs) as (x & d' & E & A & _).
    exists x, d'; split; [exact E|]; split; [exact A|].
    destruct H as (xs0 & b & d0 & Eb & E0 & Er); pose proof (run_length _ _ _ _ _ Er) as Hl.
    exists ops0, (ops ++ [o]), (xs ++ [x]); split; [|split].
    - exists xs0, b, d0; split; [exact Eb|]; split; [exact E0|].
      eapply run_app; [exact Er|]; cbn [run]; now rewrite E.
    - unfold full_log, late_log, final_set; rewrite log_snoc, app_assoc by exact Hl; reflexivity.
    - now rewrite place_snoc.
  Qed.

  Lemma stands_plain d l st o : stands d l st -> exists d',
    id_step cmp keep d (IOp o) = Some (IOut (fst (spec_step qcmp (apply qcmp l []) o)), d') /\
    stands d' (l ++ set_changes qcmp (apply qcmp l []) o) (place_op qcmp st o).
  Proof.
    intros H; destruct (stands_step _ _ _ (IOp o) H) as (x & d' & E & A & H').
    destruct x as [x| |]; [|destruct A|destruct A]; cbn in A; subst x; eauto.
  Qed.

  Lemma label_twins l st l' st' q : twins l st l' st' -> label_quad cmp keep l q = label_quad cmp keep l' q.
  Proof.
    intros (A & _); unfold label_quad.
    rewrite !(label_like cmp quad_comps _ keep l l' q _ (A _)).
    destruct (q_g q) as [g|]; [|reflexivity]; cbn [option_map].
    now rewrite (label_like cmp quad_comps _ keep l l' q _ (A _)).
  Qed.

  Lemma query_twins {A} (E : A -> _ -> bool) c l st l' st' : twins l st l' st' ->
    query (label_cmp cmp) E c (map (option_map (label_quad cmp keep l')) (fst st')) =
    query (label_cmp cmp) E c (map (option_map (label_quad cmp keep l)) (fst st)).
  Proof.
    intros T; pose proof T as (_ & (k & ->) & _); cbn [fst].
    rewrite map_app.
    replace (map (option_map (label_quad cmp keep l')) (repeat None k)) with (repeat (@None (quad (R * (bool * nat)))) k)
      by (clear; induction k; cbn; [reflexivity|now f_equal]).
    replace (map (option_map (label_quad cmp keep l')) (fst st)) with (map (option_map (label_quad cmp keep l)) (fst st)).
    2:{ apply map_ext; intros [q|]; [|reflexivity]; cbn; f_equal; exact (label_twins _ _ _ _ _ T). }
    unfold query; destruct c.
    - apply scan_trailing.
    - now rewrite present_app, present_none, app_nil_r.
  Qed.

  Definition alike (d d' : @idataset R) : Prop :=
    (forall spare spare' c, id_pattern_matching cmp d spare c = id_pattern_matching cmp d' spare' c) /\
    (forall spare spare' c, id_multi_pattern_matching cmp d spare c = id_multi_pattern_matching cmp d' spare' c) /\
    (forall r, id_contains_resource cmp d r = id_contains_resource cmp d' r) /\
    id_resources_iter d = id_resources_iter d'.

  Lemma twins_alike d l st d' l' st' : stands d l st -> stands d' l' st' -> twins l st l' st' -> alike d d'.
  Proof.
    intros (ops0 & ops & xs & H & -> & ->) (ops0' & ops' & xs' & H' & -> & ->) T.
    destruct (id_sights L keep _ _ _ _ H) as (S1 & S2 & _), (id_sights L keep _ _ _ _ H') as (S1' & S2' & _).
    destruct (id_resource_report L keep _ _ _ _ H) as (v & V1 & V2 & V3 & V4).
    destruct (id_resource_report L keep _ _ _ _ H') as (v' & V1' & V2' & V3' & V4').
    split; [|split; [|split]].
    - intros spare spare' c; rewrite S1, S1'; unfold sight; do 2 f_equal.
      symmetry; exact (query_twins _ c _ _ _ _ T).
    - intros spare spare' c; rewrite S2, S2'; unfold multi_sight; do 2 f_equal.
      symmetry; exact (query_twins _ c _ _ _ _ T).
    - intros r; rewrite V3, V3'; f_equal; apply (proj1 T r).
    - rewrite V1, V1'; f_equal; apply (ssorted_ext L v v' V2 V2').
      intros r; rewrite V4, V4', (proj1 (proj1 T r)); reflexivity.
  Qed.

  Lemma vacate_none (X : Type) (st : @places X) : vacate (fun _ => false) st = st.
  Proof.
    destruct st as [s v]; unfold vacate.
    destruct (leave_absent (fun _ => false) s) as [-> ->]; reflexivity.
  Qed.

  (** One more operation. *)
  Lemma twins_step d l st d' l' st' o : stands d l st -> stands d' l' st' -> twins l st l' st' ->
    exists x e m t y e' m' t',
      id_step cmp keep d o = Some (x, e) /\ id_step cmp keep d' o = Some (y, e') /\
      graph_or_empty x = graph_or_empty y /\
      stands e m t /\ stands e' m' t' /\ twins m t m' t'.
  Proof.
    intros H H' T.
    destruct (stands_step _ _ _ o H) as (x & e & E & A & K).
    destruct (stands_step _ _ _ o H') as (y & e' & E' & A' & K').
    destruct (stands_facts _ _ _ H) as (_ & V & _).
    pose proof T as (_ & P & Es).
    do 8 eexists; split; [exact E|]; split; [exact E'|].
    assert (Go : x = y -> graph_or_empty x = graph_or_empty y /\
      stands e (l ++ changes cmp (apply qcmp l []) o x) (place_iop cmp st o x) /\
      stands e' (l' ++ changes cmp (apply qcmp l' []) o y) (place_iop cmp st' o y) /\
      twins (l ++ changes cmp (apply qcmp l []) o x) (place_iop cmp st o x)
            (l' ++ changes cmp (apply qcmp l' []) o y) (place_iop cmp st' o y)).
    { intros <-; split; [reflexivity|]; split; [exact K|]; split; [exact K'|].
      rewrite <- Es; eapply twins_changes; [exact T|].
      destruct o as [o|g|c n sp]; cbn [place_iop].
      - now apply plike_op.
      - destruct x as [x|[ts|]|q]; try exact P; now apply plike_vacate.
      - destruct x as [x|ts|q]; try exact P; now apply plike_vacate. }
    destruct o as [o|g|c n sp].
    - apply Go; destruct x as [x| |], y as [y| |]; try (now destruct A); try (now destruct A').
      cbn in A, A'; rewrite Es in A; congruence.
    - destruct x as [x|gx|q], y as [y|gy|q']; try (now destruct A); try (now destruct A').
      destruct g as [g|].
      + (* a named graph *)
        destruct H as (ops0 & ops & xs & H & -> & ->), H' as (ops0' & ops' & xs' & H' & -> & ->).
        destruct (id_graph_sight L keep _ _ _ _ g H) as (r & d1 & Er & Hr).
        destruct (id_graph_sight L keep _ _ _ _ g H') as (r' & d1' & Er' & Hr').
        set (fnd := fun ops0 ops xs (q : quad R) => In q (final_set cmp ops0 ops xs) /\ q_g q = Some g /\
          finds cmp g (label qcmp cmp quad_comps keep (full_log cmp ops0 ops xs) q 3 g) = true) in *.
        assert (F : forall q, fnd ops0 ops xs q <-> fnd ops0' ops' xs' q).
        { intros q; unfold fnd; rewrite <- !stands_set, Es.
          now rewrite (label_like cmp quad_comps g keep _ _ q 3 (proj1 T g)). }
        set (tsx := match gx with Some ts => ts | None => [] end).
        set (tsy := match gy with Some ts => ts | None => [] end).
        assert (Bx : increasing tcmp tsx /\ forall t, In t tsx <-> fnd ops0 ops xs (Quad (t_s t) (t_p t) (t_o t) (Some g))).
        { cbn [id_step] in E; rewrite Er in E; cbn [bind] in E; destruct r as [b|].
          - destruct Hr as (ts & Eb & Hi & Hin); rewrite Eb in E; cbn in E; injection E as <- <-; auto.
          - injection E as <- <-; split; [constructor|]; intros t; split; [intros []|intros Ht; exact (Hr _ Ht)]. }
        assert (By : increasing tcmp tsy /\ forall t, In t tsy <-> fnd ops0' ops' xs' (Quad (t_s t) (t_p t) (t_o t) (Some g))).
        { cbn [id_step] in E'; rewrite Er' in E'; cbn [bind] in E'; destruct r' as [b|].
          - destruct Hr' as (ts & Eb & Hi & Hin); rewrite Eb in E'; cbn in E'; injection E' as <- <-; auto.
          - injection E' as <- <-; split; [constructor|]; intros t; split; [intros []|intros Ht; exact (Hr' _ Ht)]. }
        assert (Et : tsx = tsy).
        { apply (ssorted_ext LT); [apply Bx|apply By|]; intros t.
          rewrite (proj2 Bx), (proj2 By); apply F. }
        destruct gx as [ts|], gy as [ts'|]; cbn in tsx, tsy; subst tsx tsy.
        * apply Go; congruence.
        * rewrite Et in *; split; [reflexivity|]; split; [exact K|]; split; [exact K'|].
          eapply (twins_changes (xcmp:=qcmp)); [exact T|]; cbn [place_iop map mem existsb]; rewrite vacate_none; exact P.
        * rewrite <- Et in *; split; [reflexivity|]; split; [exact K|]; split; [exact K'|].
          eapply (twins_changes (xcmp:=qcmp)); [exact T|]; cbn [place_iop map mem existsb]; rewrite vacate_none; exact P.
        * apply Go; reflexivity.
      + apply Go; destruct gx as [ts|], gy as [ts'|]; cbn in A, A'; try (now destruct A); try (now destruct A').
        destruct A as (A1 & A2 & A3), A' as (A1' & A2' & A3'); rewrite Es in A2, A3.
        do 2 f_equal; apply (ssorted_ext LT ts ts' A1 A1'); intros t; split; intros Ht.
        * specialize (A2 t Ht); specialize (A3' eq_refl _ A2 eq_refl); destruct t; exact A3'.
        * specialize (A2' t Ht); specialize (A3 eq_refl _ A2' eq_refl); destruct t; exact A3.
    - apply Go; destruct H as (ops0 & ops & xs & H & -> & ->), H' as (ops0' & ops' & xs' & H' & -> & ->).
      destruct (id_sights L keep _ _ _ _ H) as (_ & _ & S3), (id_sights L keep _ _ _ _ H') as (_ & _ & S3').
      destruct (S3 sp c n) as (d1 & E1), (S3' sp c n) as (d1' & E1').
      cbn [id_step] in E, E'; rewrite E1 in E; rewrite E1' in E'; cbn in E, E'.
      injection E as <- <-; injection E' as <- <-; unfold sight; do 3 f_equal.
      symmetry; exact (query_twins _ c _ _ _ _ T).
  Qed.

  Lemma twins_more more : forall d l st d' l' st',
    stands d l st -> stands d' l' st' -> twins l st l' st' ->
    exists ys e zs e', run (id_step cmp keep) d more = Some (ys, e) /\
      run (id_step cmp keep) d' more = Some (zs, e') /\
      map graph_or_empty ys = map graph_or_empty zs /\ alike e e'.
  Proof.
    induction more as [|o more IH]; intros d l st d' l' st' H H' T.
    - exists [], d, [], d'; repeat (split; [reflexivity|]); eapply twins_alike; eauto.
    - destruct (twins_step _ _ _ _ _ _ o H H' T) as (x & e & m & t & y & e' & m' & t' & E & E' & Ex & K & K' & T').
      destruct (IH _ _ _ _ _ _ K K' T') as (ys & f & zs & f' & F & F' & Ey & Hl).
      exists (x :: ys), f, (y :: zs), f'; cbn [run]; rewrite E, E', F, F'; cbn [map].
      split; [reflexivity|]; split; [reflexivity|]; split; [congruence|exact Hl].
  Qed.

  Lemma id_rollback ops0 ops xs d :
    id_reached cmp keep ops0 ops xs d ->
    forall b, NoDup b -> (forall q, In q b -> ~ In q (final_set cmp ops0 ops xs)) ->
    exists d1, run (id_step cmp keep) d (map IOp (tried b)) =
        Some (map (fun _ => IOut (OBool true)) (tried b), d1) /\
      forall more, exists ys e zs e1,
        run (id_step cmp keep) d more = Some (ys, e) /\
        run (id_step cmp keep) d1 more = Some (zs, e1) /\
        map graph_or_empty ys = map graph_or_empty zs /\
        (forall spare spare1 c,
           id_pattern_matching cmp e spare c = id_pattern_matching cmp e1 spare1 c) /\
        (forall spare spare1 c,
           id_multi_pattern_matching cmp e spare c = id_multi_pattern_matching cmp e1 spare1 c) /\
        (forall r, id_contains_resource cmp e r = id_contains_resource cmp e1 r) /\
        id_resources_iter e = id_resources_iter e1.
  Proof.
    intros H b Hn Hb.
    assert (K : stands d (full_log cmp ops0 ops xs) (place_run cmp (place_ops qcmp ops0) ops xs))
      by (exists ops0, ops, xs; auto).
    destruct (batch LQ cmp quad_comps (id_step cmp keep) IOp (@IOut R) stands stands_facts stands_plain
                b _ _ _ K Hn) as (d1 & l1 & st1 & E & K1 & T).
    { intros q Hq; rewrite stands_set; auto. }
    exists d1; split; [exact E|]; intros more.
    destruct (twins_more more _ _ _ _ _ _ K K1 T) as (ys & e & zs & e1 & F & F1 & Ey & Hl).
    exists ys, e, zs, e1; auto.
  Qed.
End Datasets.

(** ** Graphs *)
Section Graphs.
  Context {R : Type} {cmp : R -> R -> comparison} (L : ord_laws cmp).
  Context (keep : bool).
  Notation tcmp := (triple_cmp cmp).
  Let LT : ord_laws tcmp := triple_cmp_laws cmp L.
  Notation twins := (twins (xcmp:=tcmp) cmp triple_comps).

  Lemma present_vacate (P : triple R -> bool) (s : list (option (triple R))) y :
    In y (present (map (leave P) s)) <-> In y (present s) /\ P y = false.
  Proof.
    induction s as [|[x|] s IH]; cbn [map leave present flat_map] in *; [cbn; tauto| |exact IH].
    fold (present s); destruct (P x) eqn:E; cbn [app].
    - change (In y (present (map (leave P) s)) <-> (x = y \/ In y (present s)) /\ P y = false).
      rewrite IH; split; [tauto|]; intros [[->|H] H']; [congruence|auto].
    - change (x = y \/ In y (present (map (leave P) s)) <-> (x = y \/ In y (present s)) /\ P y = false).
      rewrite IH; split; [intros [->|H]; tauto|tauto].
  Qed.
  Lemma present_op st s o : valid st -> (forall x, In x (present (fst st)) <-> In x s) ->
    forall x, In x (present (fst (place_op tcmp st o))) <-> In x (snd (spec_step tcmp s o)).
  Proof.
    assert (Put : forall y st s, valid st -> (forall x, In x (present (fst st)) <-> In x s) ->
      forall x, In x (present (fst (put_new tcmp y st))) <-> In x (add tcmp y s)).
    { intros y st0 s0 V H x; unfold put_new, add.
      assert (E : mem tcmp y (present (fst st0)) = mem tcmp y s0).
      { apply eq_true_iff_eq; rewrite !(mem_in LT); apply H. }
      rewrite E; destruct (mem tcmp y s0); [apply H|].
      rewrite (present_put _ _ V), H; cbn; intuition. }
    intros V H x; destruct o as [y|y|l|y| | | |]; cbn [place_op spec_step snd]; try apply H.
    - now apply Put.
    - destruct st as [u v]; cbn [vacate fst] in *; rewrite present_vacate, H; unfold del.
      rewrite filter_In, negb_true_iff; reflexivity.
    - revert st s V H; induction l as [|y l IH]; intros st s V H; [apply H|]; cbn.
      apply IH; [now apply valid_put_new|now apply Put].
  Qed.
  Lemma present_ops ops : forall st s, valid st -> (forall x, In x (present (fst st)) <-> In x s) ->
    forall x, In x (present (fst (fold_left (place_op tcmp) ops st))) <-> In x (snd (spec_run tcmp s ops)).
  Proof.
    induction ops as [|o ops IH]; intros st s V H x; [apply H|]; cbn [fold_left spec_run].
    pose proof (IH _ _ (valid_op st o V) (present_op st s o V H) x) as E.
    destruct (spec_step tcmp s o) as [y s1]; cbn [snd] in E.
    destruct (spec_run tcmp s1 ops) as [ys s2]; exact E.
  Qed.

  Definition gstands (g : igraph) (l : list (change (triple R))) (st : @places (triple R)) : Prop :=
    exists ops0 ops, ig_reached cmp keep ops0 ops g /\ l = set_log tcmp [] (ops0 ++ ops) /\
      st = place_ops tcmp (ops0 ++ ops).

  Lemma gstands_set ops : apply tcmp (set_log tcmp [] ops) [] = spec_set tcmp ops.
  Proof. apply (apply_set_log LT). Qed.

  Lemma gstands_facts g l st : gstands g l st -> fresh (xcmp:=tcmp) [] l /\ valid st /\
    forall x, In x (present (fst st)) <-> In x (apply tcmp l []).
  Proof.
    intros (ops0 & ops & H & -> & ->); split; [apply (fresh_set_log LT)|]; split.
    - apply valid_ops, valid_new.
    - rewrite gstands_set; apply present_ops; [apply valid_new|cbn; tauto].
  Qed.
  Lemma gstands_step g l st o : gstands g l st -> exists g',
    ig_step cmp keep g o = Some (fst (spec_step tcmp (apply tcmp l []) o), g') /\
    gstands g' (l ++ set_changes tcmp (apply tcmp l []) o) (place_op tcmp st o).
  Proof.
    intros (ops0 & ops & H & -> & ->); rewrite gstands_set.
    destruct (gstate_step L keep _ _ _ _ _ o (greached L keep _ _ _ H)) as (g' & E & _).
    rewrite (proj1 (reached_graph L keep _ _ _ H)) in E.
    exists g'; split; [exact E|].
    exists ops0, (ops ++ [o]); split; [|split].
    - destruct H as (xs0 & b & g0 & xs & Eb & E0 & Er).
      exists xs0, b, g0, (xs ++ [fst (spec_step tcmp (spec_set tcmp (ops0 ++ ops)) o)]).
      split; [exact Eb|]; split; [exact E0|]; eapply run_app; [exact Er|]; cbn [run]; now rewrite E.
    - rewrite app_assoc, (set_log_app _ _ (ops0 ++ ops)); cbn [set_log]; rewrite app_nil_r; reflexivity.
    - unfold place_ops; rewrite app_assoc, (fold_left_app _ (ops0 ++ ops)); reflexivity.
  Qed.

  Lemma label_twins_t l st l' st' q : twins l st l' st' -> label_triple cmp keep l q = label_triple cmp keep l' q.
  Proof.
    intros (A & _); unfold label_triple.
    now rewrite !(label_like cmp triple_comps _ keep l l' q _ (A _)).
  Qed.
  Lemma query_twins_t c l st l' st' : twins l st l' st' ->
    triple_query (label_cmp cmp) (finds cmp) c (map (option_map (label_triple cmp keep l')) (fst st')) =
    triple_query (label_cmp cmp) (finds cmp) c (map (option_map (label_triple cmp keep l)) (fst st)).
  Proof.
    intros T; pose proof T as (_ & (k & ->) & _); cbn [fst].
    rewrite map_app.
    replace (map (option_map (label_triple cmp keep l')) (repeat None k)) with (repeat (@None (triple (R * (bool * nat)))) k)
      by (clear; induction k; cbn; [reflexivity|now f_equal]).
    replace (map (option_map (label_triple cmp keep l')) (fst st)) with (map (option_map (label_triple cmp keep l)) (fst st)).
    2:{ apply map_ext; intros [q|]; [|reflexivity]; cbn; f_equal; exact (label_twins_t _ _ _ _ _ T). }
    unfold triple_query; destruct c.
    - apply scan_trailing.
    - now rewrite present_app, present_none, app_nil_r.
  Qed.

  Lemma twins_more_t more : forall d l st d' l' st',
    gstands d l st -> gstands d' l' st' -> twins l st l' st' ->
    exists ys e e', run (ig_step cmp keep) d more = Some (ys, e) /\
      run (ig_step cmp keep) d' more = Some (ys, e') /\
      (forall spare spare' c, ig_pattern_matching cmp e spare c = ig_pattern_matching cmp e' spare' c) /\
      (forall r, ig_contains_resource cmp e r = ig_contains_resource cmp e' r) /\
      ig_resources_iter e = ig_resources_iter e'.
  Proof.
    induction more as [|o more IH]; intros d l st d' l' st' H H' T.
    - exists [], d, d'; repeat (split; [reflexivity|]).
      destruct H as (ops0 & ops & H & -> & ->), H' as (ops0' & ops' & H' & -> & ->).
      destruct (ig_resource_report L keep _ _ _ H) as (v & V1 & V2 & V3 & V4).
      destruct (ig_resource_report L keep _ _ _ H') as (v' & V1' & V2' & V3' & V4').
      split; [|split].
      + intros spare spare' c; rewrite (ig_sight L keep _ _ _ H), (ig_sight L keep _ _ _ H').
        unfold triple_sight; do 2 f_equal; symmetry; exact (query_twins_t c _ _ _ _ T).
      + intros r; rewrite V3, V3'; f_equal; apply (proj1 T r).
      + rewrite V1, V1'; f_equal; apply (ssorted_ext L v v' V2 V2').
        intros r; rewrite V4, V4', (proj1 (proj1 T r)); reflexivity.
    - destruct (gstands_step _ _ _ o H) as (e & E & K), (gstands_step _ _ _ o H') as (e' & E' & K').
      destruct (gstands_facts _ _ _ H) as (_ & V & _); pose proof T as (_ & P & Es).
      rewrite <- Es in E', K'.
      assert (T' : twins (l ++ set_changes tcmp (apply tcmp l []) o) (place_op tcmp st o)
                         (l' ++ set_changes tcmp (apply tcmp l []) o) (place_op tcmp st' o)).
      { eapply twins_changes; [exact T|now apply plike_op]. }
      destruct (IH _ _ _ _ _ _ K K' T') as (ys & f & f' & F & F' & Hl).
      eexists _, f, f'; cbn [run]; rewrite E, E', F, F'; auto.
  Qed.

  Lemma ig_rollback ops0 ops g :
    ig_reached cmp keep ops0 ops g ->
    forall b, NoDup b -> (forall t, In t b -> ~ In t (spec_set tcmp (ops0 ++ ops))) ->
    exists g1, run (ig_step cmp keep) g (tried b) = Some (map (fun _ => OBool true) (tried b), g1) /\
      forall more, exists ys e e1,
        run (ig_step cmp keep) g more = Some (ys, e) /\
        run (ig_step cmp keep) g1 more = Some (ys, e1) /\
        (forall spare spare1 c, ig_pattern_matching cmp e spare c = ig_pattern_matching cmp e1 spare1 c) /\
        (forall r, ig_contains_resource cmp e r = ig_contains_resource cmp e1 r) /\
        ig_resources_iter e = ig_resources_iter e1.
  Proof.
    intros H b Hn Hb.
    assert (K : gstands g (set_log tcmp [] (ops0 ++ ops)) (place_ops tcmp (ops0 ++ ops)))
      by (exists ops0, ops; auto).
    destruct (batch LT cmp triple_comps (ig_step cmp keep) (fun o => o) (fun x => x) gstands
                gstands_facts gstands_step b _ _ _ K Hn) as (g1 & l1 & st1 & E & K1 & T).
    { intros t Ht; rewrite gstands_set; auto. }
    rewrite map_id in E; exists g1; split; [exact E|]; intros more.
    exact (twins_more_t more _ _ _ _ _ _ K K1 T).
  Qed.
End Graphs.

(** ** Counterexamples *)
Definition dataset_after (keep : bool) (d : @idataset nat) (ops : list (op (quad nat))) : @idataset nat :=
  match run (id_step Nat.compare keep) d (map IOp ops) with Some (_, d) => d | None => id_new end.

Lemma id_rollback_order :
  exists b q d1, NoDup b /\ ~ In q b /\ forall keep,
    run (id_step Nat.compare keep) id_new
        (map IOp (map Insert b ++ map Remove b ++ [Insert q; Contains q])) =
      Some (map (fun _ => IOut (OBool true)) (map Insert b ++ map Remove b ++ [Insert q; Contains q]), d1 keep) /\
    forall spare, id_pattern_matching Nat.compare (d1 keep) spare (CQ_AnyS (QA_AnyP (QAA_Any QAAA_Any))) = Some [].
Proof.
  set (b := [Quad 1 2 3 None; Quad 4 5 6 None] : list (quad nat)); set (q := Quad 7 8 9 None : quad nat).
  exists b, q, (fun keep => dataset_after keep id_new (map Insert b ++ map Remove b ++ [Insert q; Contains q])).
  split; [repeat constructor; cbn; intuition discriminate|].
  split; [intros [H|[H|[]]]; discriminate|].
  intros []; split; try reflexivity.
Qed.

Lemma id_rollback_positions :
  exists d b d1, NoDup b /\ forall keep,
    run (id_step Nat.compare keep) id_new [IOp (Insert (Quad 1 2 3 None))] =
      Some ([IOut (OBool true)], d keep) /\
    run (id_step Nat.compare keep) (d keep) (map IOp (tried b)) =
      Some (map (fun _ => IOut (OBool true)) (tried b), d1 keep) /\
    id_subjects (d keep) = Some [1] /\ id_subjects (d1 keep) = Some [] /\
    id_predicates (d keep) = Some [2] /\ id_predicates (d1 keep) = Some [] /\
    id_objects (d keep) = Some [3] /\ id_objects (d1 keep) = Some [].
Proof.
  set (d := fun keep => dataset_after keep id_new [Insert (Quad 1 2 3 None)]).
  set (b := [Quad 1 2 4 None; Quad 5 6 3 None] : list (quad nat)).
  exists d, b, (fun keep => dataset_after keep (d keep) (tried b)).
  split; [repeat constructor; cbn; intuition discriminate|].
  intros []; vm_compute; repeat split.
Qed.

Lemma id_rollback_removal :
  exists ops q t c d d1 l l1, forall keep,
    run (id_step Nat.compare keep) id_new (map IOp ops) = Some (map (fun _ => IOut (OBool true)) ops, d keep) /\
    run (id_step Nat.compare keep) (d keep) (map IOp [Remove q; Insert q]) =
      Some ([IOut (OBool true); IOut (OBool true)], d1 keep) /\
    q <> t /\ In t (l keep) /\ ~ In t (l1 keep) /\
    (forall spare, id_pattern_matching Nat.compare (d keep) spare c = Some (l keep)) /\
    (forall spare, id_pattern_matching Nat.compare (d1 keep) spare c = Some (l1 keep)).
Proof.
  set (q := Quad 1 1 2 None : quad nat); set (t := Quad 1 3 4 None : quad nat).
  set (ops := [Insert q; Insert t]).
  exists ops, q, t, (CQ_GivenS 1 (QG_AnyP (QGA_Any QGAA_Any))),
    (fun keep => dataset_after keep id_new ops), (fun keep => dataset_after keep id_new (ops ++ [Remove q; Insert q])),
    (fun keep : bool => if keep then [q; t] else [t]), (fun keep : bool => if keep then [q] else []).
  assert (Q : forall keep o xs spare c, map (fun _ : op (quad nat) => IOut (OBool true)) o = xs ->
    run (id_step Nat.compare keep) id_new (map IOp o) = Some (xs, dataset_after keep id_new o) ->
    id_pattern_matching Nat.compare (dataset_after keep id_new o) spare c =
    Some (sight Nat.compare keep (full_log Nat.compare [] (map IOp o) xs) c
            (places_after Nat.compare [] (map IOp o) xs))).
  { intros keep o xs spare c _ E; apply (id_sights nat_compare_laws keep).
    exists [], bd_new, id_new; split; [reflexivity|]; split; [reflexivity|exact E]. }
  intros []; (split; [reflexivity|]; split; [reflexivity|]; split; [discriminate|]).
  - split; [right; now left|]; split; [intros [E|[]]; discriminate|].
    split; intros spare; (erewrite Q; [|reflexivity|reflexivity]); reflexivity.
  - split; [now left|]; split; [intros []|].
    split; intros spare; (erewrite Q; [|reflexivity|reflexivity]); reflexivity.
Qed.
