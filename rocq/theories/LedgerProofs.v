(** The account of a resource follows any table of slots whose transitions are
    those described here. *)
From Coq Require Import List Bool Arith Lia Permutation.
Import ListNotations.
From Verif Require Import Base SetSpec IndexedSpec BaseProofs LedgerSpec.

Lemma times_other {R} {cmp : R -> R -> comparison} (L : ord_laws cmp) (r : R) l : forall p0,
  nth_error l p0 = Some r ->
  (1 < length (filter (same cmp r) l) <-> exists p, p <> p0 /\ nth_error l p = Some r).
Proof.
  assert (Z : forall l, 0 < length (filter (same cmp r) l) <-> exists p, nth_error l p = Some r).
  { intros m; split.
    - intros H; destruct (filter (same cmp r) m) as [|y f] eqn:E; [cbn in H; lia|].
      assert (In y (filter (same cmp r) m)) as Hy by (rewrite E; now left).
      apply filter_In in Hy as [Hy Hs].
      assert (y = r) as -> by (unfold same in Hs; destruct (cmp r y) eqn:Ec; try discriminate;
                               symmetry; now apply (ord_eq _ L)).
      now apply In_nth_error in Hy.
    - intros (p & Hp); apply nth_error_In in Hp.
      assert (In r (filter (same cmp r) m)) as Hi.
      { apply filter_In; split; [exact Hp|]; unfold same.
        now rewrite (proj2 (ord_eq _ L r r) eq_refl). }
      destruct (filter (same cmp r) m); [destruct Hi|cbn; lia]. }
  induction l as [|y l IH]; intros p0 Hp; [destruct p0; discriminate|].
  destruct p0 as [|p0]; cbn in Hp.
  - inv Hp; cbn [filter].
    assert (same cmp r r = true) as -> by (unfold same; now rewrite (proj2 (ord_eq _ L r r) eq_refl)).
    cbn [length]; specialize (Z l); split.
    + intros H; destruct (proj1 Z) as (p & E); [lia|]; exists (S p); split; [lia|exact E].
    + intros (p & Hn & E); destruct p as [|p]; [lia|].
      assert (0 < length (filter (same cmp r) l)) by (apply Z; exists p; exact E); lia.
  - cbn [filter]; destruct (same cmp r y) eqn:Es.
    + assert (y = r) as -> by (unfold same in Es; destruct (cmp r y) eqn:Ec; try discriminate;
                               symmetry; now apply (ord_eq _ L)).
      cbn [length]; split.
      * intros _; exists 0; split; [lia|reflexivity].
      * intros _; assert (0 < length (filter (same cmp r) l)) by (apply Z; exists p0; exact Hp); lia.
    + rewrite (IH _ Hp); split; intros (p & Hn & E).
      * exists (S p); split; [lia|exact E].
      * destruct p as [|p]; [|exists p; split; [lia|exact E]].
        exfalso; cbn in E; inv E; unfold same in Es.
        now rewrite (proj2 (ord_eq _ L r r) eq_refl) in Es.
Qed.

(** Of the positions of [w], the one whose slot becomes visible: the first when
    the tree keeps the key it has, else the last. *)
Definition pick {R} (keep : bool) (l : list R) (w : R) (p : nat) : Prop :=
  nth_error l p = Some w /\
  forall p', nth_error l p' = Some w -> if keep then p <= p' else p' <= p.

Lemma pick_exists {R} {cmp : R -> R -> comparison} (L : ord_laws cmp) keep (l : list R) w :
  In w l -> exists p, pick keep l w p.
Proof.
  intros H; unfold pick; destruct keep.
  - induction l as [|y l IH]; [destruct H|].
    destruct (ord_dec L y w) as [->|Hy].
    + exists 0; split; [reflexivity|]; intros; lia.
    + destruct H as [|H]; [contradiction|]; destruct (IH H) as (p & E & M).
      exists (S p); split; [exact E|]; intros [|p'] Hp'; cbn in Hp'; [congruence|].
      apply M in Hp'; lia.
  - induction l as [|y l IH]; [destruct H|].
    destruct (in_dec (ord_dec L) w l) as [Hw|Hw].
    + destruct (IH Hw) as (p & E & M); exists (S p); split; [exact E|].
      intros [|p'] Hp'; [lia|]; apply M in Hp'; lia.
    + destruct H as [->|H]; [|contradiction]; exists 0; split; [reflexivity|].
      intros [|p'] Hp'; [lia|]; cbn in Hp'; now apply nth_error_In in Hp'.
Qed.

Lemma pick_unique {R} keep (l : list R) w p p' : pick keep l w p -> pick keep l w p' -> p = p'.
Proof. intros [A B] [A' B']; specialize (B _ A'); specialize (B' _ A); destruct keep; lia. Qed.

Section Table.
  Context {X R : Type} {xcmp : X -> X -> comparison} {cmp : R -> R -> comparison}.
  Context (LX : ord_laws xcmp) (L : ord_laws cmp) {keep : bool}.
  Context (comps : X -> list R).

  (** A table: the slots of the components of each element, and the visible
      slots. *)
  Definition uses (ent : X -> list nat -> Prop) (k : nat) (w : R) : Prop :=
    exists x ks p, ent x ks /\ nth_error ks p = Some k /\ nth_error (comps x) p = Some w.
  Definition seen (ent : X -> list nat -> Prop) (vis : nat -> Prop) (w : R) : Prop :=
    exists k, vis k /\ uses ent k w.

  Record table (ent : X -> list nat -> Prop) (vis : nat -> Prop) : Prop := {
    tb_fun : forall x ks ks', ent x ks -> ent x ks' -> ks = ks';
    tb_len : forall x ks, ent x ks -> length ks = length (comps x);
    tb_val : forall k w w', uses ent k w -> uses ent k w' -> w = w';
    tb_vis : forall k k' w, vis k -> vis k' -> uses ent k w -> uses ent k' w -> k = k'
  }.

  (** An element is added: a component that is seen takes the visible slot,
      another one a slot of its own. *)
  Record table_ins ent (vis : nat -> Prop) x ks (ent' : X -> list nat -> Prop) (vis' : nat -> Prop) : Prop := {
    ti_new : forall kz, ~ ent x kz;
    ti_ent : forall z kz, ent' z kz <-> (z = x /\ kz = ks) \/ ent z kz;
    ti_slot : forall p k w, nth_error ks p = Some k -> nth_error (comps x) p = Some w ->
      (vis k /\ uses ent k w) \/
      (~ seen ent vis w /\ (forall w', ~ uses ent k w') /\
       forall p', nth_error ks p' = Some k -> p' = p);
    ti_vis : forall k, vis' k -> vis k \/
      exists p w, nth_error ks p = Some k /\ nth_error (comps x) p = Some w /\ ~ seen ent vis w;
    ti_seen : forall w, seen ent' vis' w <-> seen ent vis w \/ In w (comps x);
    ti_pick : forall w p k, ~ seen ent vis w -> pick keep (comps x) w p ->
      nth_error ks p = Some k -> vis' k
  }.

  (** An element is removed: a value is no longer seen when one of its slots is
      no longer used. *)
  Record table_rem ent (vis : nat -> Prop) x (ent' : X -> list nat -> Prop) (vis' : nat -> Prop) : Prop := {
    tr_old : exists ks, ent x ks;
    tr_ent : forall z kz, ent' z kz <-> ent z kz /\ z <> x;
    tr_vis : forall k, vis' k -> vis k;
    tr_seen : forall w, seen ent' vis' w <->
      seen ent vis w /\ forall k, uses ent k w -> uses ent' k w
  }.

  Context (r : R).
  Notation ledger := (ledger X).

  Definition alone (ent : X -> list nat -> Prop) (vis : nat -> Prop) (z : X) (k : nat) : Prop :=
    ~ vis k /\ forall y ks p, ent y ks -> nth_error ks p = Some k -> y = z.

  Record follows (ent : X -> list nat -> Prop) (vis : nat -> Prop) (sg : nat -> nat) (a : ledger)
    : Prop := {
    fo_nodup : NoDup (map fst (filed a));
    fo_filed : forall z, In z (map fst (filed a)) <-> (exists ks, ent z ks) /\ In r (comps z);
    fo_home : forall z e sp ks, In (z, (e, sp)) (filed a) -> ent z ks ->
      e <= number a /\
      (exists p, nth_error (comps z) p = Some r /\ nth_error ks p = Some (sg e)) /\
      (forall p k, nth_error (comps z) p = Some r -> nth_error ks p = Some k ->
         k = sg e \/ (sp = true /\ alone ent vis z k)) /\
      (sp = true -> exists p k, nth_error (comps z) p = Some r /\ nth_error ks p = Some k /\
                                alone ent vis z k);
    fo_inj : forall e e',
      ((exists z sp, In (z, (e, sp)) (filed a)) \/ (reported a = true /\ e = number a)) ->
      ((exists z sp, In (z, (e', sp)) (filed a)) \/ (reported a = true /\ e' = number a)) ->
      sg e = sg e' -> e = e';
    fo_rep : reported a = true <-> seen ent vis r;
    fo_vis : reported a = true -> forall k, vis k -> uses ent k r -> k = sg (number a);
    fo_pick : forall z e ks, In (z, (e, true)) (filed a) -> ent z ks ->
      (forall p, pick keep (comps z) r p -> nth_error ks p = Some (sg e)) /\
      (forall p p' k, nth_error (comps z) p = Some r -> nth_error (comps z) p' = Some r ->
         nth_error ks p = Some k -> nth_error ks p' = Some k -> p = p')
  }.

  Lemma in_comps_nth (x : X) : In r (comps x) <-> exists p, nth_error (comps x) p = Some r.
  Proof. split; [apply In_nth_error|intros (p & H); eapply nth_error_In; eauto]. Qed.

  Lemma times_zero x : times cmp comps r x = 0 <-> ~ In r (comps x).
  Proof.
    unfold times; split.
    - intros H Hin.
      assert (Hf : In r (filter (same cmp r) (comps x))).
      { apply filter_In; split; [exact Hin|]; unfold same.
        now rewrite (proj2 (ord_eq _ L r r) eq_refl). }
      destruct (filter (same cmp r) (comps x)); [destruct Hf|discriminate].
    - intros H; destruct (filter (same cmp r) (comps x)) as [|y l] eqn:E; [reflexivity|].
      exfalso; apply H.
      assert (Hy : In y (filter (same cmp r) (comps x))) by (rewrite E; now left).
      apply filter_In in Hy as [Hy Hs]; unfold same in Hs.
      destruct (cmp r y) eqn:Ec; try discriminate.
      apply (ord_eq _ L) in Ec; now subst.
  Qed.

  Lemma same_refl x : same xcmp x x = true.
  Proof. unfold same; now rewrite (proj2 (ord_eq _ LX x x) eq_refl). Qed.
  Lemma same_true x y : same xcmp x y = true <-> x = y.
  Proof.
    unfold same; split; [|intros ->; now rewrite (proj2 (ord_eq _ LX y y) eq_refl)].
    destruct (xcmp x y) eqn:E; try discriminate; intros _; now apply (ord_eq _ LX).
  Qed.

  Lemma slot_value ent vis x ks p k :
    table ent vis -> ent x ks -> nth_error ks p = Some k -> exists w, nth_error (comps x) p = Some w.
  Proof.
    intros T H Hp; assert (p < length ks) by (apply nth_error_Some; congruence).
    destruct (nth_error (comps x) p) as [w|] eqn:Ew; [eauto|].
    apply nth_error_None in Ew; rewrite (tb_len _ _ T _ _ H) in *; lia.
  Qed.

  Lemma alone_ins ent vis x ks ent' vis' z k kz p :
    table ent vis -> table ent' vis' -> table_ins ent vis x ks ent' vis' -> ent z kz ->
    nth_error kz p = Some k -> alone ent vis z k -> alone ent' vis' z k.
  Proof.
    intros T0 T1 T Hz Hp [A1 A2].
    destruct (slot_value _ _ _ _ _ _ T0 Hz Hp) as (w & Ew).
    assert (U : uses ent k w) by (exists z, kz, p; auto).
    split.
    - intros Hv; destruct (ti_vis _ _ _ _ _ _ T _ Hv) as [H|(p' & w' & E1 & E2 & H)]; [auto|].
      destruct (ti_slot _ _ _ _ _ _ T _ _ _ E1 E2) as [[? _]|(_ & N & _)]; [auto|].
      now apply (N w).
    - intros y ky p' Hy Hk; pose proof Hy as Hy'.
      apply (ti_ent _ _ _ _ _ _ T) in Hy as [[-> ->]|Hy]; [|eauto].
      exfalso; destruct (slot_value _ _ _ _ _ _ T1 Hy' Hk) as (w' & Ew').
      destruct (ti_slot _ _ _ _ _ _ T _ _ _ Hk Ew') as [[? _]|(_ & N & _)]; [auto|].
      now apply (N w).
  Qed.

  Lemma alone_rem ent vis x ent' vis' z k :
    table_rem ent vis x ent' vis' -> alone ent vis z k -> alone ent' vis' z k.
  Proof.
    intros T [A1 A2]; split.
    - intros Hv; now apply A1, (tr_vis _ _ _ _ _ T).
    - intros y ky p Hy Hk; apply (tr_ent _ _ _ _ _ T) in Hy as [Hy _]; eauto.
  Qed.

  Lemma uses_ins ent vis x ks ent' vis' k w :
    table_ins ent vis x ks ent' vis' ->
    (uses ent' k w <->
     uses ent k w \/ exists p, nth_error ks p = Some k /\ nth_error (comps x) p = Some w).
  Proof.
    intros T; split.
    - intros (z & kz & p & Hz & Hk & Hw).
      apply (ti_ent _ _ _ _ _ _ T) in Hz as [[-> ->]|Hz]; [right; eauto|left; exists z, kz, p; auto].
    - intros [(z & kz & p & Hz & Hk & Hw)|(p & Hk & Hw)].
      + exists z, kz, p; split; [apply (ti_ent _ _ _ _ _ _ T); auto|auto].
      + exists x, ks, p; split; [apply (ti_ent _ _ _ _ _ _ T); auto|auto].
  Qed.

  (** The elements filed before an insertion. *)
  Lemma home_ins ent vis x ks ent' vis' sg a z e sp kz :
    table ent vis -> table ent' vis' -> table_ins ent vis x ks ent' vis' -> follows ent vis sg a ->
    In (z, (e, sp)) (filed a) -> ent' z kz ->
    e <= number a /\
    (exists p, nth_error (comps z) p = Some r /\ nth_error kz p = Some (sg e)) /\
    (forall p k, nth_error (comps z) p = Some r -> nth_error kz p = Some k ->
       k = sg e \/ (sp = true /\ alone ent' vis' z k)) /\
    (sp = true -> exists p k, nth_error (comps z) p = Some r /\ nth_error kz p = Some k /\
                              alone ent' vis' z k).
  Proof.
    intros T0 T1 T F Hin Hz.
    assert (Hz0 : ent z kz).
    { apply (ti_ent _ _ _ _ _ _ T) in Hz as [[-> ->]|Hz]; [|exact Hz].
      exfalso; apply (in_map fst) in Hin; apply (fo_filed _ _ _ _ F) in Hin as [(k & Hk) _].
      now apply (ti_new _ _ _ _ _ _ T) in Hk. }
    destruct (fo_home _ _ _ _ F _ _ _ _ Hin Hz0) as (H1 & H2 & H3 & H4).
    split; [exact H1|]; split; [exact H2|]; split.
    - intros p k E1 E2; destruct (H3 _ _ E1 E2) as [|[? A]]; [auto|right; split; [assumption|]].
      exact (alone_ins _ _ _ _ _ _ _ _ _ _ T0 T1 T Hz0 E2 A).
    - intros Hs; destruct (H4 Hs) as (p & k & E1 & E2 & A); exists p, k; split; [exact E1|].
      split; [exact E2|]; exact (alone_ins _ _ _ _ _ _ _ _ _ _ T0 T1 T Hz0 E2 A).
  Qed.

  Lemma pick_ins ent vis x ks ent' vis' sg a z e kz :
    table_ins ent vis x ks ent' vis' -> follows ent vis sg a ->
    In (z, (e, true)) (filed a) -> ent' z kz -> ent z kz.
  Proof.
    intros T F Hin Hz; apply (ti_ent _ _ _ _ _ _ T) in Hz as [[-> ->]|Hz]; [|exact Hz].
    exfalso; apply (in_map fst) in Hin; apply (fo_filed _ _ _ _ F) in Hin as [(k & Hk) _].
    now apply (ti_new _ _ _ _ _ _ T) in Hk.
  Qed.

  Lemma home_used ent vis sg a z e sp :
    follows ent vis sg a -> In (z, (e, sp)) (filed a) -> uses ent (sg e) r.
  Proof.
    intros F Hin; pose proof (in_map fst _ _ Hin) as Hm.
    apply (fo_filed _ _ _ _ F) in Hm as [(ks & Hk) _]; cbn in Hk.
    destruct (fo_home _ _ _ _ F _ _ _ _ Hin Hk) as (_ & (p & E1 & E2) & _).
    exists z, ks, p; auto.
  Qed.

  Lemma follows_ins ent vis sg a x ks ent' vis' :
    table ent vis -> table ent' vis' -> table_ins ent vis x ks ent' vis' ->
    follows ent vis sg a -> exists sg', follows ent' vis' sg' (file cmp comps r x a).
  Proof.
    intros T0 T1 T F; unfold file.
    assert (Hx : ent' x ks) by (apply (ti_ent _ _ _ _ _ _ T); auto).
    assert (Hxn : ~ In x (map fst (filed a))).
    { intros Hin; apply (fo_filed _ _ _ _ F) in Hin as [(k & Hk) _].
      now apply (ti_new _ _ _ _ _ _ T) in Hk. }
    destruct (times cmp comps r x =? 0) eqn:Et.
    { (* not a component *)
      apply Nat.eqb_eq, times_zero in Et.
      assert (U : forall k, uses ent' k r <-> uses ent k r).
      { intros k; rewrite (uses_ins _ _ _ _ _ _ _ _ T); split; [|auto].
        intros [|(p & _ & Hp)]; [assumption|]; exfalso; apply Et, in_comps_nth; eauto. }
      exists sg; split.
      - apply F.
      - intros z; rewrite (fo_filed _ _ _ _ F); split; intros [(kz & Hz) Hr]; split; try exact Hr.
        + exists kz; apply (ti_ent _ _ _ _ _ _ T); auto.
        + apply (ti_ent _ _ _ _ _ _ T) in Hz as [[-> _]|Hz]; [contradiction|eauto].
      - intros z e sp kz Hin Hz; exact (home_ins _ _ _ _ _ _ _ _ _ _ _ _ T0 T1 T F Hin Hz).
      - apply F.
      - rewrite (fo_rep _ _ _ _ F), (ti_seen _ _ _ _ _ _ T); tauto.
      - intros Hr k Hv Hu; apply U in Hu; apply (fo_vis _ _ _ _ F Hr k); [|exact Hu].
        destruct (ti_vis _ _ _ _ _ _ T _ Hv) as [|(p & w & E1 & E2 & _)]; [assumption|].
        destruct (ti_slot _ _ _ _ _ _ T _ _ _ E1 E2) as [[? _]|(_ & N & _)]; [assumption|].
        exfalso; now apply (N r).
      - intros z e kz Hin Hz.
        exact (fo_pick _ _ _ _ F _ _ _ Hin (pick_ins _ _ _ _ _ _ _ _ _ _ _ T F Hin Hz)). }
    apply Nat.eqb_neq in Et; rewrite times_zero in Et.
    assert (Hr : In r (comps x)).
    { destruct (in_dec (ord_dec L) r (comps x)); [assumption|contradiction]. }
    clear Et.
    assert (Ft : forall a' m, filed a' = (x, m) :: filed a ->
      NoDup (map fst (filed a')) /\
      forall z, In z (map fst (filed a')) <-> (exists kz, ent' z kz) /\ In r (comps z)).
    { intros a' m ->; cbn; split; [constructor; [exact Hxn|apply F]|].
      intros z; rewrite (fo_filed _ _ _ _ F); split.
      - intros [<-|[(kz & Hz) H]]; [eauto|]; split; [|exact H].
        exists kz; apply (ti_ent _ _ _ _ _ _ T); auto.
      - intros [(kz & Hz) H]; apply (ti_ent _ _ _ _ _ _ T) in Hz as [[-> _]|Hz]; eauto. }
    destruct (reported a) eqn:Er.
    - (* the resource is reported *)
      assert (Hseen : seen ent vis r) by now apply (fo_rep _ _ _ _ F).
      assert (Slot : forall p k, nth_error (comps x) p = Some r -> nth_error ks p = Some k ->
                k = sg (number a)).
      { intros p k E1 E2; destruct (ti_slot _ _ _ _ _ _ T _ _ _ E2 E1) as [[Hv Hu]|(N & _)];
          [|contradiction].
        now apply (fo_vis _ _ _ _ F Er). }
      exists sg; destruct (Ft (Ledger true (number a) ((x, (number a, false)) :: filed a)) _ eq_refl)
        as [F1 F2].
      split; auto.
      + cbn [number filed]; intros z e sp kz [E|Hin] Hz; [|exact (home_ins _ _ _ _ _ _ _ _ _ _ _ _ T0 T1 T F Hin Hz)].
        injection E as <- <- <-; rewrite (tb_fun _ _ T1 _ _ _ Hz Hx).
        split; [lia|]; split; [|split; [|discriminate]].
        * apply in_comps_nth in Hr as (p & Hp); exists p; split; [exact Hp|].
          assert (p < length ks).
          { rewrite (tb_len _ _ T1 _ _ Hx); apply nth_error_Some; congruence. }
          destruct (nth_error ks p) as [k|] eqn:Ek; [|apply nth_error_None in Ek; lia].
          f_equal; eauto.
        * intros p k E1 E2; left; eauto.
      + cbn [number filed reported]; intros e e' He He'; apply (fo_inj _ _ _ _ F).
        * destruct He as [(z & sp & [E|H])|[_ H]]; [|left; eauto|right; auto].
          injection E as _ <- _; right; auto.
        * destruct He' as [(z & sp & [E|H])|[_ H]]; [|left; eauto|right; auto].
          injection E as _ <- _; right; auto.
      + cbn [reported]; split; [intros _|reflexivity]; apply (ti_seen _ _ _ _ _ _ T); auto.
      + cbn [reported number]; intros _ k Hv Hu.
        apply (uses_ins _ _ _ _ _ _ _ _ T) in Hu as [Hu|(p & E1 & E2)]; [|eauto].
        apply (fo_vis _ _ _ _ F Er); [|exact Hu].
        destruct (ti_vis _ _ _ _ _ _ T _ Hv) as [|(p & w & E1 & E2 & _)]; [assumption|].
        destruct (ti_slot _ _ _ _ _ _ T _ _ _ E1 E2) as [[? _]|(_ & N & _)]; [assumption|].
        exfalso; now apply (N r).
      + cbn [filed]; intros z e kz [E|Hin] Hz; [discriminate|].
        exact (fo_pick _ _ _ _ F _ _ _ Hin (pick_ins _ _ _ _ _ _ _ _ _ _ _ T F Hin Hz)).
    - (* it is not *)
      assert (Hns : ~ seen ent vis r) by (rewrite <- (fo_rep _ _ _ _ F), Er; discriminate).
      assert (Hs' : seen ent' vis' r) by (apply (ti_seen _ _ _ _ _ _ T); auto).
      assert (Fresh : forall p k, nth_error (comps x) p = Some r -> nth_error ks p = Some k ->
                (forall w, ~ uses ent k w) /\ forall p', nth_error ks p' = Some k -> p' = p).
      { intros p k E1 E2; destruct (ti_slot _ _ _ _ _ _ T _ _ _ E2 E1) as [[Hv Hu]|(_ & H)]; [|exact H].
        exfalso; apply Hns; exists k; auto. }
      destruct Hs' as (v & Hv & Hu).
      assert (exists p0, nth_error (comps x) p0 = Some r /\ nth_error ks p0 = Some v) as (p0 & P1 & P2).
      { apply (uses_ins _ _ _ _ _ _ _ _ T) in Hu as [Hu|(p & E1 & E2)]; [exfalso|eauto].
        destruct (ti_vis _ _ _ _ _ _ T _ Hv) as [H|(p & w & E1 & E2 & Hw)].
        - apply Hns; exists v; auto.
        - destruct (ti_slot _ _ _ _ _ _ T _ _ _ E1 E2) as [[H _]|(_ & N & _)].
          + apply Hns; exists v; auto.
          + now apply (N r). }
      destruct (Fresh _ _ P1 P2) as [Nv _].
      assert (Uv : forall p k, nth_error (comps x) p = Some r -> nth_error ks p = Some k -> uses ent' k r).
      { intros p k E1 E2; apply (uses_ins _ _ _ _ _ _ _ _ T); right; eauto. }
      assert (Al : forall p k, p <> p0 -> nth_error (comps x) p = Some r -> nth_error ks p = Some k ->
                alone ent' vis' x k).
      { intros p k Hp E1 E2; destruct (Fresh _ _ E1 E2) as [N D]; split.
        - intros Hvk; assert (k = v) as -> by (apply (tb_vis _ _ T1 k v r); eauto).
          apply Hp; symmetry; now apply D.
        - intros y ky p' Hy Hk; pose proof Hy as Hy'.
          apply (ti_ent _ _ _ _ _ _ T) in Hy as [[-> _]|Hy]; [reflexivity|exfalso].
          destruct (slot_value _ _ _ _ _ _ T0 Hy Hk) as (w & Hw); apply (N w).
          exists y, ky, p'; auto. }
      pose proof (times_other L r (comps x) p0 P1) as Hm.
      fold (times cmp comps r x) in Hm.
      set (sg' := fun e => if e =? S (number a) then v else sg e).
      assert (Sold : forall e, e <= number a -> sg' e = sg e).
      { intros e He; unfold sg'; assert (e =? S (number a) = false) as ->; [|reflexivity].
        apply Nat.eqb_neq; lia. }
      assert (Snew : sg' (S (number a)) = v) by (unfold sg'; now rewrite Nat.eqb_refl).
      exists sg'.
      destruct (Ft (Ledger true (S (number a))
                     ((x, (S (number a), 1 <? times cmp comps r x)) :: filed a)) _ eq_refl)
        as [F1 F2].
      split; auto.
      + cbn [number filed]; intros z e sp kz [E|Hin] Hz.
        * injection E as <- <- <-; rewrite (tb_fun _ _ T1 _ _ _ Hz Hx).
          split; [lia|]; rewrite Snew; split; [eauto|]; split.
          -- intros p k E1 E2; destruct (Nat.eq_dec p p0) as [->|Hp]; [left; congruence|].
             right; split; [apply Nat.ltb_lt, Hm; eauto|eauto].
          -- intros Hl; apply Nat.ltb_lt, Hm in Hl as (p & Hp & E1).
             assert (p < length ks).
             { rewrite (tb_len _ _ T1 _ _ Hx); apply nth_error_Some; congruence. }
             destruct (nth_error ks p) as [k|] eqn:Ek; [|apply nth_error_None in Ek; lia].
             exists p, k; eauto.
        * destruct (home_ins _ _ _ _ _ _ _ _ _ _ _ _ T0 T1 T F Hin Hz) as (H1 & H2 & H3 & H4).
          rewrite (Sold e H1); split; [lia|auto].
      + cbn [number filed reported].
        assert (Dom : forall e, (exists z sp, (x, (S (number a), 1 <? times cmp comps r x)) = (z, (e, sp)) \/
                                   In (z, (e, sp)) (filed a)) \/ true = true /\ e = S (number a) ->
                  e = S (number a) \/ exists z sp, In (z, (e, sp)) (filed a)).
        { intros e [(z & sp & [E|H])|[_ H]]; [injection E as _ <- _; auto|right; eauto|auto]. }
        assert (Le : forall e z sp, In (z, (e, sp)) (filed a) -> e <= number a /\ uses ent (sg e) r).
        { intros e z sp Hin; split; [|eapply home_used; eauto].
          pose proof (in_map fst _ _ Hin) as Hi; apply (fo_filed _ _ _ _ F) in Hi as [(kz & Hz) _].
          now destruct (fo_home _ _ _ _ F _ _ _ _ Hin Hz). }
        intros e e' He He' Heq.
        destruct (Dom _ He) as [->|(z & sp & H)], (Dom _ He') as [->|(z' & sp' & H')]; [reflexivity| | |].
        * destruct (Le _ _ _ H') as [A B]; rewrite Snew, (Sold _ A) in Heq.
          exfalso; apply (Nv r); now rewrite Heq.
        * destruct (Le _ _ _ H) as [A B]; rewrite Snew, (Sold _ A) in Heq.
          exfalso; apply (Nv r); now rewrite <- Heq.
        * destruct (Le _ _ _ H) as [A _], (Le _ _ _ H') as [A' _].
          rewrite (Sold _ A), (Sold _ A') in Heq.
          apply (fo_inj _ _ _ _ F); eauto.
      + cbn [reported]; split; [intros _|reflexivity]; apply (ti_seen _ _ _ _ _ _ T); auto.
      + cbn [reported number]; intros _ k Hvk Huk; rewrite Snew.
        apply (tb_vis _ _ T1 k v r); auto.
      + cbn [filed]; intros z e kz [E|Hin] Hz.
        * injection E as <- <- _; rewrite (tb_fun _ _ T1 _ _ _ Hz Hx), Snew; split.
          -- intros p Hp; pose proof (proj1 Hp) as E1.
             assert (p < length ks).
             { rewrite (tb_len _ _ T1 _ _ Hx); apply nth_error_Some; congruence. }
             destruct (nth_error ks p) as [k|] eqn:Ek; [|apply nth_error_None in Ek; lia].
             f_equal; apply (tb_vis _ _ T1 k v r); eauto.
             exact (ti_pick _ _ _ _ _ _ T _ _ _ Hns Hp Ek).
          -- intros p p' k E1 E2 K1 K2; symmetry; now apply (Fresh _ _ E1 K1).
        * pose proof (pick_ins _ _ _ _ _ _ _ _ _ _ _ T F Hin Hz) as Hz0.
          destruct (home_ins _ _ _ _ _ _ _ _ _ _ _ _ T0 T1 T F Hin Hz) as (H1 & _).
          rewrite (Sold e H1); exact (fo_pick _ _ _ _ F _ _ _ Hin Hz0).
  Qed.

  Lemma find_filed (a : ledger) x e sp :
    NoDup (map fst (filed a)) -> In (x, (e, sp)) (filed a) ->
    find (fun m => same xcmp x (fst m)) (filed a) = Some (x, (e, sp)).
  Proof.
    induction (filed a) as [|[y m] l IH]; intros Hn Hin; [destruct Hin|]; cbn.
    inv Hn; destruct Hin as [E|Hin].
    - injection E as -> ->; now rewrite same_refl.
    - destruct (same xcmp x y) eqn:Es; [|auto].
      apply same_true in Es; subst y; exfalso; apply H1; apply (in_map fst) in Hin; exact Hin.
  Qed.

  Lemma find_not_filed (a : ledger) x :
    ~ In x (map fst (filed a)) -> find (fun m => same xcmp x (fst m)) (filed a) = None.
  Proof.
    induction (filed a) as [|[y m] l IH]; intros Hn; [reflexivity|]; cbn in *.
    destruct (same xcmp x y) eqn:Es; [|auto].
    apply same_true in Es; subst; tauto.
  Qed.

  Lemma nodup_filter_fst (f : X * (nat * bool) -> bool) l :
    NoDup (map fst l) -> NoDup (map fst (filter f l)).
  Proof.
    induction l as [|m l IH]; intros H; [constructor|]; cbn in *; inv H.
    destruct (f m); [|auto]; cbn; constructor; [|auto].
    intros Hin; apply H2; apply in_map_iff in Hin as (y & E & Hy); apply filter_In in Hy as [Hy _].
    rewrite <- E; now apply in_map.
  Qed.

  Lemma follows_rem ent vis sg a x ent' vis' :
    table ent vis -> table ent' vis' -> table_rem ent vis x ent' vis' ->
    follows ent vis sg a -> follows ent' vis' sg (unfile xcmp x a).
  Proof.
    intros T0 T1 T F; unfold unfile.
    assert (UI : forall k w, uses ent' k w -> uses ent k w).
    { intros k w (z & kz & p & Hz & Hk & Hw); apply (tr_ent _ _ _ _ _ T) in Hz as [Hz _].
      exists z, kz, p; auto. }
    assert (Home : forall z e sp kz, In (z, (e, sp)) (filed a) -> ent' z kz ->
      e <= number a /\
      (exists p, nth_error (comps z) p = Some r /\ nth_error kz p = Some (sg e)) /\
      (forall p k, nth_error (comps z) p = Some r -> nth_error kz p = Some k ->
         k = sg e \/ (sp = true /\ alone ent' vis' z k)) /\
      (sp = true -> exists p k, nth_error (comps z) p = Some r /\ nth_error kz p = Some k /\
                                alone ent' vis' z k)).
    { intros z e sp kz Hin Hz; apply (tr_ent _ _ _ _ _ T) in Hz as [Hz _].
      destruct (fo_home _ _ _ _ F _ _ _ _ Hin Hz) as (H1 & H2 & H3 & H4).
      split; [exact H1|]; split; [exact H2|]; split.
      - intros p k E1 E2; destruct (H3 _ _ E1 E2) as [|[? A]]; [auto|right; split; [assumption|]].
        exact (alone_rem _ _ _ _ _ _ _ T A).
      - intros Hs; destruct (H4 Hs) as (p & k & E1 & E2 & A); exists p, k; split; [exact E1|].
        split; [exact E2|]; exact (alone_rem _ _ _ _ _ _ _ T A). }
    assert (Pick : forall z e kz, In (z, (e, true)) (filed a) -> ent' z kz ->
      (forall p, pick keep (comps z) r p -> nth_error kz p = Some (sg e)) /\
      (forall p p' k, nth_error (comps z) p = Some r -> nth_error (comps z) p' = Some r ->
         nth_error kz p = Some k -> nth_error kz p' = Some k -> p = p')).
    { intros z e kz Hin Hz; apply (tr_ent _ _ _ _ _ T) in Hz as [Hz _].
      exact (fo_pick _ _ _ _ F _ _ _ Hin Hz). }
    destruct (in_dec (ord_dec L) r (comps x)) as [Hr|Hr].
    2: { rewrite find_not_filed.
         2: { intros Hin; apply (fo_filed _ _ _ _ F) in Hin; tauto. }
         split; [apply F| | |apply F| | |].
         - intros z; rewrite (fo_filed _ _ _ _ F); split; intros [(kz & Hz) H]; split; try exact H.
           + exists kz; apply (tr_ent _ _ _ _ _ T); split; [exact Hz|congruence].
           + apply (tr_ent _ _ _ _ _ T) in Hz as [Hz _]; eauto.
         - exact Home.
         - rewrite (fo_rep _ _ _ _ F), (tr_seen _ _ _ _ _ T); split; [|tauto].
           intros H; split; [exact H|]; intros k (z & kz & p & Hz & Hk & Hw).
           exists z, kz, p; split; [|auto]; apply (tr_ent _ _ _ _ _ T); split; [exact Hz|].
           intros ->; apply Hr, in_comps_nth; eauto.
         - intros H k Hv Hu; apply (fo_vis _ _ _ _ F H); [now apply (tr_vis _ _ _ _ _ T)|auto].
         - exact Pick. }
    destruct (tr_old _ _ _ _ _ T) as (ks & Hx).
    assert (Hin : In x (map fst (filed a))) by (apply (fo_filed _ _ _ _ F); eauto).
    apply in_map_iff in Hin as ([y [e sp]] & E & Hin); cbn in E; subst y.
    rewrite (find_filed _ _ _ _ (fo_nodup _ _ _ _ F) Hin).
    set (rest := filter (fun m => negb (same xcmp x (fst m))) (filed a)).
    assert (Hrest : forall z m, In (z, m) rest <-> In (z, m) (filed a) /\ z <> x).
    { intros z m; unfold rest; rewrite filter_In; cbn; rewrite negb_true_iff.
      split; intros [H1 H2]; split; try exact H1.
      - intros ->; now rewrite same_refl in H2.
      - destruct (same xcmp x z) eqn:Es; [apply same_true in Es; congruence|reflexivity]. }
    destruct (fo_home _ _ _ _ F _ _ _ _ Hin Hx) as (Xe & (px & X1 & X2) & X3 & X4).
    (* a slot of [r] dies iff the account closes *)
    assert (Dies : sp || negb (existsb (fun m => fst (snd m) =? e) rest) = true <->
                   ~ forall k, uses ent k r -> uses ent' k r).
    { split.
      - intros H Hall; apply orb_true_iff in H as [->|H].
        + destruct (X4 eq_refl) as (p & k & E1 & E2 & A1 & A2).
          destruct (Hall k) as (z & kz & p' & Hz & Hk & Hw); [exists x, ks, p; auto|].
          apply (tr_ent _ _ _ _ _ T) in Hz as [Hz Hzx]; apply Hzx; eapply A2; eauto.
        + apply negb_true_iff in H.
          destruct (Hall (sg e)) as (z & kz & p' & Hz & Hk & Hw); [exists x, ks, px; auto|].
          apply (tr_ent _ _ _ _ _ T) in Hz as [Hz Hzx].
          assert (Hi : In z (map fst (filed a))).
          { apply (fo_filed _ _ _ _ F); split; [eauto|]; apply in_comps_nth; eauto. }
          apply in_map_iff in Hi as ([z' [e' sp']] & E & Hi); cbn in E; subst z'.
          destruct (fo_home _ _ _ _ F _ _ _ _ Hi Hz) as (_ & _ & Z3 & _).
          assert (e' = e) as ->.
          { destruct (Z3 _ _ Hw Hk) as [Eq|(_ & _ & A2)].
            - apply (fo_inj _ _ _ _ F); eauto.
            - exfalso; apply Hzx; symmetry; eapply A2; eauto. }
          enough (existsb (fun m => fst (snd m) =? e) rest = true) by congruence.
          apply existsb_exists; exists (z, (e, sp')); split; [now apply Hrest|].
          cbn; apply Nat.eqb_refl.
      - intros H; apply orb_true_iff; destruct sp; [auto|right].
        destruct (existsb (fun m => fst (snd m) =? e) rest) eqn:Eb; [exfalso|reflexivity].
        apply existsb_exists in Eb as ([z [e' sp']] & Hz & Ee); cbn in Ee.
        apply Nat.eqb_eq in Ee; subst e'; apply Hrest in Hz as [Hz Hzx].
        apply H; intros k (y & ky & p & Hy & Hk & Hw).
        destruct (same xcmp x y) eqn:Es.
        + apply same_true in Es; subst y; rewrite (tb_fun _ _ T0 _ _ _ Hy Hx) in Hk.
          destruct (X3 _ _ Hw Hk) as [->|[? _]]; [|discriminate].
          pose proof (in_map fst _ _ Hz) as Hm; apply (fo_filed _ _ _ _ F) in Hm as [(kz & Hm) _].
          cbn in Hm; destruct (fo_home _ _ _ _ F _ _ _ _ Hz Hm) as (_ & (p' & E1 & E2) & _).
          exists z, kz, p'; split; [|auto]; apply (tr_ent _ _ _ _ _ T); auto.
        + exists y, ky, p; split; [|auto]; apply (tr_ent _ _ _ _ _ T); split; [exact Hy|].
          intros ->; now rewrite same_refl in Es. }
    assert (Rep : reported a && negb (sp || negb (existsb (fun m => fst (snd m) =? e) rest)) = true <->
                  seen ent' vis' r).
    { rewrite (tr_seen _ _ _ _ _ T), andb_true_iff, (fo_rep _ _ _ _ F), negb_true_iff.
      split; intros [H1 H2]; split; try exact H1.
      - intros k (y & ky & p & Hy & Hk & Hw).
        (* decidable: the account says so *)
        apply orb_false_iff in H2 as [-> H2]; apply negb_false_iff in H2.
        apply existsb_exists in H2 as ([z [e' sp']] & Hz & Ee); cbn in Ee.
        apply Nat.eqb_eq in Ee; subst e'; apply Hrest in Hz as [Hz Hzx].
        destruct (same xcmp x y) eqn:Es.
        + apply same_true in Es; subst y; rewrite (tb_fun _ _ T0 _ _ _ Hy Hx) in Hk.
          destruct (X3 _ _ Hw Hk) as [->|[? _]]; [|discriminate].
          pose proof (in_map fst _ _ Hz) as Hm; apply (fo_filed _ _ _ _ F) in Hm as [(kz & Hm) _].
          cbn in Hm; destruct (fo_home _ _ _ _ F _ _ _ _ Hz Hm) as (_ & (p' & E1 & E2) & _).
          exists z, kz, p'; split; [|auto]; apply (tr_ent _ _ _ _ _ T); auto.
        + exists y, ky, p; split; [|auto]; apply (tr_ent _ _ _ _ _ T); split; [exact Hy|].
          intros ->; now rewrite same_refl in Es.
      - destruct (sp || negb _) eqn:Eb; [|reflexivity].
        exfalso; now apply (proj1 Dies). }
    split.
    - cbn [filed]; apply nodup_filter_fst, F.
    - cbn [filed]; intros z; split.
      + intros Hi; apply in_map_iff in Hi as ([z' m] & E & Hi); cbn in E; subst z'.
        apply Hrest in Hi as [Hi Hzx]; apply (in_map fst) in Hi.
        apply (fo_filed _ _ _ _ F) in Hi as [(kz & Hz) Hc]; split; [|exact Hc].
        exists kz; apply (tr_ent _ _ _ _ _ T); auto.
      + intros [(kz & Hz) Hc]; apply (tr_ent _ _ _ _ _ T) in Hz as [Hz Hzx].
        assert (Hi : In z (map fst (filed a))) by (apply (fo_filed _ _ _ _ F); eauto).
        apply in_map_iff in Hi as ([z' m] & E & Hi); cbn in E; subst z'.
        apply in_map_iff; exists (z, m); split; [reflexivity|]; now apply Hrest.
    - cbn [filed number]; intros z e' sp' kz Hi; apply Hrest in Hi as [Hi _]; now apply Home.
    - cbn [filed number reported]; intros e1 e2 H1 H2; apply (fo_inj _ _ _ _ F).
      + destruct H1 as [(z & s & H)|[H ->]]; [left; apply Hrest in H as [H _]; eauto|right].
        apply andb_true_iff in H as [H _]; auto.
      + destruct H2 as [(z & s & H)|[H ->]]; [left; apply Hrest in H as [H _]; eauto|right].
        apply andb_true_iff in H as [H _]; auto.
    - exact Rep.
    - cbn [reported number]; intros H k Hv Hu; apply andb_true_iff in H as [H _].
      apply (fo_vis _ _ _ _ F H); [now apply (tr_vis _ _ _ _ _ T)|auto].
    - cbn [filed]; intros z e' kz Hi; apply Hrest in Hi as [Hi _]; now apply Pick.
  Qed.

  Lemma follows_new ent vis sg : (forall x ks, ~ ent x ks) -> follows ent vis sg ledger_new.
  Proof.
    intros H; split; cbn.
    - constructor.
    - intros z; split; [tauto|]; intros [(ks & Hz) _]; now apply H in Hz.
    - tauto.
    - intros e e' [(? & ? & [])|[? _]]; discriminate.
    - split; [discriminate|]; intros (k & _ & x & ks & p & Hx & _); now apply H in Hx.
    - discriminate.
    - tauto.
  Qed.

  (** ** The order of removals does not matter *)
  Lemma follows_ext ent vis ent' vis' sg a :
    (forall x ks, ent x ks <-> ent' x ks) -> (forall k, vis k <-> vis' k) ->
    follows ent vis sg a -> follows ent' vis' sg a.
  Proof.
    intros He Hv [F1 F2 F3 F4 F5 F6 F7].
    assert (U : forall k w, uses ent k w <-> uses ent' k w).
    { intros k w; split; intros (z & kz & p & Hz & A); exists z, kz, p; (split; [now apply He|exact A]). }
    assert (A : forall z k, alone ent vis z k <-> alone ent' vis' z k).
    { intros z k; split; intros [A B]; (split; [now rewrite <- (Hv k) || rewrite (Hv k)|]);
        intros y ks p Hy; apply (B y ks p); now apply He. }
    split; auto.
    - intros z; rewrite F2; split; intros [(ks & H) H']; (split; [exists ks; now apply He|exact H']).
    - intros z e sp ks Hz Hk; apply He in Hk; destruct (F3 _ _ _ _ Hz Hk) as (B1 & B2 & B3 & B4).
      split; [exact B1|]; split; [exact B2|]; split.
      + intros p k P1 P2; destruct (B3 _ _ P1 P2) as [|[]]; [auto|right; split; [assumption|now apply A]].
      + intros Hs; destruct (B4 Hs) as (p & k & P1 & P2 & P3); exists p, k; rewrite <- A; auto.
    - rewrite F5; split; intros (k & Hk & Hu); exists k; (split; [now apply Hv|now apply U]).
    - intros Hr k Hk Hu; apply (F6 Hr); [now apply Hv|now apply U].
    - intros z e ks Hz Hk; apply He in Hk; exact (F7 _ _ _ Hz Hk).
  Qed.

  Lemma filter_comm {A} (f g : A -> bool) l : filter f (filter g l) = filter g (filter f l).
  Proof.
    induction l as [|x l IH]; [reflexivity|]; cbn.
    destruct (g x) eqn:Eg, (f x) eqn:Ef; cbn; rewrite ?Eg, ?Ef, IH; reflexivity.
  Qed.

  Lemma find_filter {A} (f g : A -> bool) l :
    (forall x, f x = true -> g x = true) -> find f (filter g l) = find f l.
  Proof.
    intros H; induction l as [|x l IH]; [reflexivity|]; cbn.
    destruct (g x) eqn:Eg; cbn; [now rewrite IH|].
    destruct (f x) eqn:Ef; [rewrite (H _ Ef) in Eg; discriminate|exact IH].
  Qed.

  Lemma existsb_without (l : list (X * (nat * bool))) x m n :
    NoDup (map fst l) -> In (x, m) l ->
    existsb (fun m => fst (snd m) =? n) l =
    existsb (fun m => fst (snd m) =? n) (filter (fun m => negb (same xcmp x (fst m))) l) ||
    (fst m =? n).
  Proof.
    induction l as [|[y k] l IH]; intros Hn Hin; [destruct Hin|]; cbn in *; inv Hn.
    destruct Hin as [E|Hin].
    - injection E as -> ->; rewrite same_refl; cbn.
      assert (filter (fun m => negb (same xcmp x (fst m))) l = l) as ->.
      { clear IH H2; induction l as [|[z k] l IH]; [reflexivity|]; cbn in *.
        destruct (same xcmp x z) eqn:Es; [apply same_true in Es; subst; tauto|].
        cbn; now rewrite IH by tauto. }
      apply orb_comm.
    - destruct (same xcmp x y) eqn:Es.
      + apply same_true in Es; subst y; exfalso; apply H1; apply (in_map fst) in Hin; exact Hin.
      + cbn; rewrite IH by assumption; apply orb_assoc.
  Qed.

  Lemma unfile_comm x y (a : ledger) :
    NoDup (map fst (filed a)) ->
    unfile xcmp x (unfile xcmp y a) = unfile xcmp y (unfile xcmp x a).
  Proof.
    intros Hn; destruct (same xcmp x y) eqn:Exy; [apply same_true in Exy; now subst|].
    assert (Fx : find (fun m => same xcmp x (fst m))
                   (filter (fun m => negb (same xcmp y (fst m))) (filed a)) =
                 find (fun m => same xcmp x (fst m)) (filed a)).
    { apply find_filter; intros m Hm; apply same_true in Hm; rewrite <- Hm, negb_true_iff.
      destruct (same xcmp y x) eqn:E; [|reflexivity].
      apply same_true in E; subst; now rewrite same_refl in Exy. }
    assert (Fy : find (fun m => same xcmp y (fst m))
                   (filter (fun m => negb (same xcmp x (fst m))) (filed a)) =
                 find (fun m => same xcmp y (fst m)) (filed a)).
    { apply find_filter; intros m Hm; apply same_true in Hm; rewrite <- Hm, negb_true_iff.
      exact Exy. }
    unfold unfile at 2 4.
    destruct (find (fun m => same xcmp y (fst m)) (filed a)) as [[y' [ny my]]|] eqn:Ey.
    - destruct (find (fun m => same xcmp x (fst m)) (filed a)) as [[x' [nx mx]]|] eqn:Ex.
      + unfold unfile; cbn [filed number reported]; rewrite Fx, Fy.
        rewrite (filter_comm (fun m => negb (same xcmp y (fst m)))).
        apply find_some in Ex as [Ix Sx], Ey as [Iy Sy].
        cbn in Sx, Sy; apply same_true in Sx, Sy; subst x' y'.
        assert (Ay : existsb (fun m => fst (snd m) =? ny)
                       (filter (fun m => negb (same xcmp y (fst m))) (filed a)) =
                     existsb (fun m => fst (snd m) =? ny)
                       (filter (fun m => negb (same xcmp x (fst m)))
                         (filter (fun m => negb (same xcmp y (fst m))) (filed a))) || (nx =? ny)).
        { apply (existsb_without _ x (nx, mx) ny); [now apply nodup_filter_fst|].
          apply filter_In; split; [exact Ix|]; cbn.
          destruct (same xcmp y x) eqn:E; [|reflexivity].
          apply same_true in E; subst; now rewrite same_refl in Exy. }
        assert (Ax : existsb (fun m => fst (snd m) =? nx)
                       (filter (fun m => negb (same xcmp x (fst m))) (filed a)) =
                     existsb (fun m => fst (snd m) =? nx)
                       (filter (fun m => negb (same xcmp x (fst m)))
                         (filter (fun m => negb (same xcmp y (fst m))) (filed a))) || (ny =? nx)).
        { rewrite (filter_comm (fun m => negb (same xcmp x (fst m)))).
          apply (existsb_without _ y (ny, my) nx); [now apply nodup_filter_fst|].
          apply filter_In; split; [exact Iy|]; cbn; now rewrite Exy. }
        f_equal; rewrite Ax, Ay, (Nat.eqb_sym ny nx); clear Ax Ay.
        destruct (nx =? ny) eqn:En.
        * apply Nat.eqb_eq in En; subst ny.
          rewrite !orb_true_r; cbn; rewrite !orb_false_r.
          destruct (reported a), mx, my; cbn; try reflexivity; destruct (existsb _ _); reflexivity.
        * rewrite !orb_false_r.
          destruct (reported a), mx, my; cbn; rewrite ?andb_false_r; try reflexivity.
          destruct (existsb _ _), (existsb _ _); reflexivity.
      + unfold unfile; cbn [filed]; rewrite Fx, Ey; reflexivity.
    - destruct (find (fun m => same xcmp x (fst m)) (filed a)) as [[x' [nx mx]]|] eqn:Ex.
      + unfold unfile; cbn [filed]; rewrite Fy, Ex; reflexivity.
      + unfold unfile; rewrite Ex, Ey; reflexivity.
  Qed.
End Table.
