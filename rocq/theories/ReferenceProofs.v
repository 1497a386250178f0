(** The indexed dataset follows the reference of ReferenceSpec.v. *)
From Coq Require Import List Bool Arith Lia Permutation Sorted.
Import ListNotations.
From Verif Require Import Base SlabModel TripleModel TriplePatternModel QuadPatternModel SetSpec
  ContainerSpec PatternSpec IndexedSpec ScanSpec Machine BaseProofs PatternProofs BResourceModel
  BResourceProofs BTreeDatasetModel BTreeDatasetProofs BTreeGraphModel BTreeGraphProofs
  IResourceModel IResourceProofs IndexedDatasetModel IndexedDatasetProofs IndexedHistoryProofs
  IndexedConvertProofs IndexedPatternProofs IndexedRunProofs IndexedGraphModel
  IndexedGraphProofs IndexedGraphRunProofs PlaceProofs ScanProofs LedgerSpec LedgerProofs
  BLedgerProofs ILedgerProofs SightSpec SightProofs ShelfSpec ShelfProofs IShelfProofs ReferenceSpec.
Open Scope panic_scope.

(** ** Walks that agree on the elements *)
Section Agree.
  Context {X : Type}.

  Definition agree (s : list (option X)) (k k' : check X) : Prop :=
    match k, k' with
    | Unchecked, Unchecked => True
    | Equal t, Equal t' | Among t, Among t' => forall x, In (Some x) s -> t x = t' x
    | _, _ => False
    end.

  Lemma agree_cons e s k k' : agree (e :: s) k k' -> agree s k k'.
  Proof. destruct k, k'; cbn; auto. Qed.

  Lemma agree_passes s k k' x : agree s k k' -> In (Some x) s -> passes x k = passes x k'.
  Proof. destruct k, k'; cbn; auto; contradiction. Qed.

  Lemma agree_fails s ks ks' x : Forall2 (agree s) ks ks' -> In (Some x) s ->
    match fails_at ks x, fails_at ks' x with
    | Some k, Some k' => agree s k k' | None, None => True | _, _ => False
    end.
  Proof.
    intros H Hx; induction H as [|k k' ks ks' Hk _ IH]; [exact Logic.I|].
    unfold fails_at in *; cbn; rewrite (agree_passes s k k' x Hk Hx).
    destruct (negb (passes x k')); [exact Hk|exact IH].
  Qed.

  Definition agree_skip (s : list (option X)) (sk sk' : option (X -> bool)) : Prop :=
    match sk, sk' with
    | Some t, Some t' => forall x, In (Some x) s -> t x = t' x
    | None, None => True
    | _, _ => False
    end.

  Lemma agree_scan s : forall ks ks' sk sk',
    Forall2 (agree s) ks ks' ->
    agree_skip s sk sk' -> scan sk ks s = scan sk' ks' s.
  Proof.
    induction s as [|e s IH]; intros ks ks' sk sk' H Hs; [reflexivity|].
    assert (H' : Forall2 (agree s) ks ks').
    { clear - H; induction H; constructor; [eapply agree_cons; eauto|assumption]. }
    assert (Hs' : agree_skip s sk sk').
    { destruct sk, sk'; cbn in *; auto; intros x Hx; apply Hs; now right. }
    destruct e as [x|]; cbn [scan].
    - assert (Hx : In (Some x) (Some x :: s)) by now left.
      assert (match sk with Some t => t x | None => true end = match sk' with Some t => t x | None => true end) as ->.
      { destruct sk, sk'; try contradiction; cbn in *; auto. }
      destruct (match sk' with Some t => t x | None => true end); [|apply IH; assumption].
      pose proof (agree_fails _ _ _ x H Hx) as F.
      destruct (fails_at ks x) as [k|], (fails_at ks' x) as [k'|]; try contradiction.
      + destruct k, k'; cbn in F; try contradiction; apply IH; try assumption; try exact Logic.I.
        intros y Hy; apply F; now right.
      + f_equal; apply IH; [assumption|exact Logic.I].
    - destruct sk, sk'; try contradiction; [apply IH; assumption|reflexivity].
  Qed.
End Agree.

Lemma in_present_some {X} (s : list (option X)) x : In x (present s) <-> In (Some x) s.
Proof.
  induction s as [|[y|] s IH]; unfold present in *; cbn; [tauto| |].
  - rewrite IH; split; intros [H|H]; auto; left; congruence.
  - rewrite IH; split; auto; intros [H|H]; [discriminate|assumption].
Qed.

Section AgreeQuery.
  Context {R A S1 S2 : Type} (cmp1 : S1 -> S1 -> comparison) (cmp2 : S2 -> S2 -> comparison).
  Context (E1 : A -> S1 -> bool) (E2 : A -> S2 -> bool).
  Context (f1 : quad R -> quad S1) (g1 : quad S1 -> quad R) (gf1 : forall q, g1 (f1 q) = q).
  Context (f2 : quad R -> quad S2) (g2 : quad S2 -> quad R) (gf2 : forall q, g2 (f2 q) = q).
  Context (s : list (option (quad R))).
  Context (Hg : forall q a, In (Some q) s -> forall p,
    match comp p (f1 q), comp p (f2 q) with
    | Some x, Some y => E1 a x = E2 a y | None, None => True | _, _ => False
    end).
  Context (Hs : forall q, In (Some q) s -> forall p p',
    match comp p (f1 q), comp p' (f1 q), comp p (f2 q), comp p' (f2 q) with
    | Some x, Some x', Some y, Some y' => same cmp1 x x' = same cmp2 y y'
    | _, _, _, _ => True
    end).
  Context (Hn : forall q, In (Some q) s -> is_some (q_g (f1 q)) = is_some (q_g (f2 q))).

  Lemma agree_checks (c : cqp A) :
    Forall2 (agree s) (map (pull f1) (cq_checks cmp1 E1 c)) (map (pull f2) (cq_checks cmp2 E2 c)).
  Proof.
    rewrite !checks_parts; cbn [map].
    assert (Gs : forall p1 (h : forall T, quad T -> T), (forall T (x : quad T), comp p1 x = Some (h _ x)) ->
              forall q, In (Some q) s ->
              match q_g (f1 q) with Some g => same cmp1 g (h _ (f1 q)) | None => false end =
              match q_g (f2 q) with Some g => same cmp2 g (h _ (f2 q)) | None => false end).
    { intros p1 h C q Hq; pose proof (Hs q Hq PosG p1) as H; pose proof (Hn q Hq) as H'; rewrite !C in H; cbn in H.
      destruct (q_g (f1 q)), (q_g (f2 q)); cbn in H'; auto; discriminate. }
    repeat constructor.
    - destruct (cq_predicate c); cbn; [auto| |]; intros q Hq; [exact (Hs q Hq PosP PosS)|exact (Hg q t Hq PosP)].
    - destruct (cq_object c); cbn; [auto| | |]; intros q Hq;
        [exact (Hs q Hq PosO PosS)|exact (Hs q Hq PosO PosP)|exact (Hg q t Hq PosO)].
    - destruct (cq_graph c) as [| | | |[a|]]; cbn; [auto| | | | |]; intros q Hq.
      + now apply (Gs PosS (fun T => q_s)).
      + now apply (Gs PosP (fun T => q_p)).
      + now apply (Gs PosO (fun T => q_o)).
      + pose proof (Hg q a Hq PosG) as H; cbn in H.
        destruct (q_g (f1 q)), (q_g (f2 q)); cbn in H; auto; contradiction.
      + pose proof (Hn q Hq) as H'; destruct (q_g (f1 q)), (q_g (f2 q)); auto; discriminate.
  Qed.

  Lemma agree_query (c : cqp A) :
    map g1 (query cmp1 E1 c (map (option_map f1) s)) = map g2 (query cmp2 E2 c (map (option_map f2) s)).
  Proof.
    pose proof (agree_checks c) as H; unfold query; destruct c as [c|a c].
    - rewrite (pull_scan f1 g1 gf1), (pull_scan f2 g2 gf2); apply agree_scan; [exact H|exact Logic.I].
    - rewrite !pull_present, (pull_filter f1 g1 gf1), (pull_filter f2 g2 gf2).
      apply filter_ext_in; intros q Hq; apply in_present_some in Hq.
      pose proof (Hg q a Hq PosS) as Hsub; cbn in Hsub; rewrite Hsub; f_equal.
      remember (map (pull f1) (cq_checks cmp1 E1 (CQ_GivenS a c))) as l1 eqn:El1.
      remember (map (pull f2) (cq_checks cmp2 E2 (CQ_GivenS a c))) as l2 eqn:El2.
      assert (forallb (passes q) l1 = forallb (passes q) l2).
      { clear - H Hq; induction H as [|k k' ? ? Hk _ IH]; [reflexivity|]; cbn; rewrite (agree_passes s k k' q Hk Hq), IH; reflexivity. }
      rewrite El1, El2 in H0; clear - H0.
      assert (P : forall S (f : quad R -> quad S) l, forallb (passes q) (map (pull f) l) = forallb (passes (f q)) l).
      { intros S f l; induction l as [|k l IH]; [reflexivity|]; cbn [map forallb]; rewrite pull_passes, IH; reflexivity. }
      now rewrite !P in H0.
  Qed.
End AgreeQuery.

Section Reference.
  Context {R : Type} {cmp : R -> R -> comparison} (L : ord_laws cmp).
  Context (keep : bool).
  Notation qcmp := (quad_cmp cmp).
  Let LQ : ord_laws qcmp := quad_cmp_laws cmp L.
  Notation tcmp := (triple_cmp cmp).
  Notation follow d r a := (exists sg, follows (keep:=keep) quad_comps r (ient d) (ivis d) sg a).
  Notation wr d := (i_quad_with_resources (R:=R) (id_resources d)).
  Notation shift := (shift qcmp cmp quad_comps keep).

  Lemma in_order_in {X} (c : X -> X -> comparison) (LC : ord_laws c) l x : In x (in_order c l) <-> In x l.
  Proof.
    unfold in_order; rewrite in_sorted_elements; induction l as [|y l IH]; cbn; [tauto|].
    rewrite (in_add LC), IH; intuition congruence.
  Qed.
  Lemma in_order_sorted {X} (c : X -> X -> comparison) (LC : ord_laws c) l : increasing c (in_order c l).
  Proof.
    apply (sorted_elements_sorted LC); induction l as [|y l IH]; cbn; [constructor|].
    now apply (nodup_add LC).
  Qed.
  Lemma in_order_unique {X} (c : X -> X -> comparison) (LC : ord_laws c) l r :
    increasing c r -> (forall x, In x r <-> In x l) -> r = in_order c l.
  Proof.
    intros Hr H; unfold in_order; apply (sorted_elements_unique LC); [|exact Hr|].
    - clear H; induction l as [|y l IH]; cbn; [constructor|]; now apply (nodup_add LC).
    - intros x; rewrite H, <- (in_order_in c LC l x); apply in_sorted_elements.
  Qed.

  (** ** Queries *)
  Section Walk.
    Context (d : @idataset R) (st : @places (quad R)) (K : id_kept d st).
    Context (ks : list (quad R)) (vs : list R) (I : id_inv (cmp:=cmp) d ks vs).
    Context (log : list (change (quad R))).
    Context (F : forall r, follow d r (account qcmp cmp quad_comps r log)).
    Context (sh : shelf (quad R) R) (B : ishelved d sh).
    Notation tag := (label_quad cmp keep log).
    Notation seated := (seated cmp sh).

    Lemma seated_comp p q : comp p (seated q) = option_map (fun r => (r, seat_of qcmp sh q (at_ p))) (comp p q).
    Proof. destruct p; reflexivity. Qed.
    Lemma unseated_seated q : unseated (seated q) = q.
    Proof. destruct q as [a b c [g|]]; reflexivity. Qed.

    Lemma present_slot q : In (Some q) (fst st) ->
      exists i x, sget (id_quads d) i = Some x /\ wr d x = Some q /\
        forall p k, comp p x = Some k -> seat_of qcmp sh q (at_ p) = k.
    Proof.
      intros Hq; apply in_present_some, in_present in Hq as (i & Hi).
      destruct K as (_ & _ & K3); rewrite <- K3 in Hi; unfold i_quad_at in Hi.
      destruct (sget (id_quads d) i) as [x|] eqn:Ex; [|discriminate]; cbn in Hi.
      exists i, x; split; [exact Ex|]; split; [exact Hi|]; intros p k Hk.
      assert (Hent : ient d q (quad_comps x)) by (exists i, x; auto).
      unfold seat_of; rewrite (i_find_held L _ _ _ _ _ _ I B Hent).
      rewrite <- nth_comp in Hk; now apply nth_error_nth.
    Qed.

    Lemma shown_finds i x q p k r a :
      sget (id_quads d) i = Some x -> wr d x = Some q -> comp p x = Some k -> comp p q = Some r ->
      shown_at sh a (r, k) = finds cmp a (label qcmp cmp quad_comps keep log q (at_ p) r).
    Proof.
      intros Hx Hq Hk Hr.
      destruct (label_spec L keep d log F i x q p k r Hx Hq Hk Hr) as (b & n & -> & Hb).
      destruct (iqwr_comp _ _ _ _ _ Hq Hr) as (k' & Hs & Hw); rewrite slot_comp, Hk in Hs; inv Hs.
      apply eq_true_iff_eq; unfold finds, shown_at; cbn [fst snd].
      rewrite andb_true_iff, (BaseProofs.same_true L), Hb; split.
      - destruct (shown sh a) as [j|] eqn:E; [|discriminate]; intros Ej; apply Nat.eqb_eq in Ej as ->.
        apply (sh_shows _ _ B) in E as [E1 E2]; split; [congruence|exact E1].
      - intros [-> Hi]; assert (shown sh r = Some k') as -> by (apply (sh_shows _ _ B); auto).
        apply Nat.eqb_refl.
    Qed.

    Section Of.
      Context {A : Type} (E1 : A -> R * nat -> bool) (E2 : A -> R * (bool * nat) -> bool).
      Context (HE : forall i x q p k r a,
        sget (id_quads d) i = Some x -> wr d x = Some q -> comp p x = Some k -> comp p q = Some r ->
        E1 a (r, k) = E2 a (label qcmp cmp quad_comps keep log q (at_ p) r)).

      Lemma walk_agree (c : cqp A) :
        map unseated (query seat_cmp E1 c (map (option_map seated) (fst st))) =
        map bare (query (label_cmp cmp) E2 c (map (option_map tag) (fst st))).
      Proof.
        apply (agree_query seat_cmp (label_cmp cmp) E1 E2 seated unseated unseated_seated tag bare (bare_tag keep log)).
        - intros q a Hq p; destruct (present_slot q Hq) as (i & x & Hx & Hw & Hp).
          rewrite seated_comp, tag_comp; destruct (comp p q) as [r|] eqn:Er; cbn [option_map]; [|exact Logic.I].
          destruct (iqwr_comp _ _ _ _ _ Hw Er) as (k & Hs & _); rewrite slot_comp in Hs.
          rewrite (Hp _ _ Hs); exact (HE i x q p k r a Hx Hw Hs Er).
        - intros q Hq p p'; destruct (present_slot q Hq) as (i & x & Hx & Hw & Hp).
          rewrite !seated_comp, !tag_comp; destruct (comp p q) as [r|] eqn:Er; cbn [option_map]; [|exact Logic.I].
          destruct (comp p' q) as [r'|] eqn:Er'; cbn [option_map]; [|exact Logic.I].
          destruct (iqwr_comp _ _ _ _ _ Hw Er) as (k & Hs & _); rewrite slot_comp in Hs.
          destruct (iqwr_comp _ _ _ _ _ Hw Er') as (k' & Hs' & _); rewrite slot_comp in Hs'.
          rewrite (label_same L keep d log F i x q p p' k k' r r' Hx Hw Hs Er Hs' Er').
          unfold same, seat_cmp; cbn [snd]; rewrite (Hp _ _ Hs), (Hp _ _ Hs').
          destruct (Nat.compare_spec k k') as [->|H|H]; symmetry; [apply Nat.eqb_refl| |]; apply Nat.eqb_neq; lia.
        - intros q _; unfold seated, tag; cbn; destruct (q_g q); reflexivity.
      Qed.
    End Of.

    Lemma ref_query_sight c : ref_query cmp (Reference st sh) c = sight cmp keep log c (fst st).
    Proof. apply walk_agree; intros; eapply shown_finds; eassumption. Qed.

    Lemma ref_multi_query_sight c :
      ref_multi_query cmp (Reference st sh) c = multi_sight cmp keep log c (fst st).
    Proof.
      apply walk_agree; intros i x q p k r l Hx Hq Hk Hr; cbn [desk].
      pose proof (fun a => shown_finds i x q p k r a Hx Hq Hk Hr) as H.
      destruct (label_spec L keep d log F i x q p k r Hx Hq Hk Hr) as (b & n & E & _); rewrite E in H |- *.
      unfold finds_one; cbn [fst snd]; induction l as [|a l IH]; [reflexivity|].
      cbn [existsb]; rewrite IH, H; unfold finds, mem; cbn [fst snd existsb].
      assert (same cmp r a = same cmp a r) as -> by (apply eq_true_iff_eq; rewrite !(BaseProofs.same_true L); split; congruence).
      destruct (same cmp a r), b; cbn; try reflexivity; now rewrite ?andb_false_r.
    Qed.
  End Walk.

  (** ** States that follow the reference *)
  Definition ref_after (ops0 : list (op (quad R))) (ops : list (iop R)) (xs : list (iout R)) : @reference R :=
    Reference (place_run cmp (place_ops qcmp ops0) ops xs) (shelf_after cmp keep ops0 ops xs).

  Lemma reached_query ops0 ops xs d c :
    id_reached cmp keep ops0 ops xs d ->
    ref_query cmp (ref_after ops0 ops xs) c =
    sight cmp keep (full_log cmp ops0 ops xs) c (places_after cmp ops0 ops xs).
  Proof.
    intros H; pose proof (reached_rep L keep _ _ _ _ H) as [_ (vs & I)].
    exact (ref_query_sight d _ (reached_kept L keep _ _ _ _ H) _ vs I _ (reached_follow L keep _ _ _ _ H) _
             (i_shelf_reached L keep _ _ _ _ H) c).
  Qed.

  Lemma reached_multi_query ops0 ops xs d c :
    id_reached cmp keep ops0 ops xs d ->
    ref_multi_query cmp (ref_after ops0 ops xs) c =
    multi_sight cmp keep (full_log cmp ops0 ops xs) c (places_after cmp ops0 ops xs).
  Proof.
    intros H; pose proof (reached_rep L keep _ _ _ _ H) as [_ (vs & I)].
    exact (ref_multi_query_sight d _ (reached_kept L keep _ _ _ _ H) _ vs I _ (reached_follow L keep _ _ _ _ H) _
             (i_shelf_reached L keep _ _ _ _ H) c).
  Qed.

  Lemma reached_quads ops0 ops xs d :
    id_reached cmp keep ops0 ops xs d ->
    NoDup (quads_of (ref_after ops0 ops xs)) /\ id_len d = length (quads_of (ref_after ops0 ops xs)) /\
    forall q, In q (quads_of (ref_after ops0 ops xs)) <-> In q (final_set cmp ops0 ops xs).
  Proof.
    intros H; pose proof (reached_rep L keep _ _ _ _ H) as Hr; pose proof Hr as [Hn (vs & I)].
    pose proof (reached_kept L keep _ _ _ _ H) as K; unfold quads_of, ref_after; cbn [row].
    assert (El : id_len d = length (present (fst (place_run cmp (place_ops qcmp ops0) ops xs)))).
    { apply (present_count _ _ _ K); intros i; split; [apply (id_at_live _ _ _ _ I)|].
      unfold i_quad_at; intros ->; reflexivity. }
    assert (Hi : forall q, In q (present (fst (place_run cmp (place_ops qcmp ops0) ops xs))) <->
                           In q (final_set cmp ops0 ops xs)).
    { intros q; exact (id_kept_in _ _ _ q Hr K). }
    split; [|split; [exact El|exact Hi]].
    apply (NoDup_incl_NoDup Hn); [rewrite <- El, (id_len_rep L _ _ Hr); lia|].
    intros q Hq; now apply Hi.
  Qed.

  Lemma spec_step_ext (s t : list (quad R)) o :
    NoDup s -> NoDup t -> (forall q, In q s <-> In q t) -> fst (spec_step qcmp s o) = fst (spec_step qcmp t o).
  Proof.
    intros Hs Ht H.
    assert (El : length s = length t).
    { apply Nat.le_antisymm; apply NoDup_incl_length; auto; intros q Hq; now apply H. }
    destruct o; cbn; try reflexivity; try (rewrite (mem_iff L _ s t) by apply H; reflexivity); try now rewrite El.
    all: f_equal; now apply (sorted_elements_ext L).
  Qed.

  Lemma reached_out ops0 ops xs d o :
    id_reached cmp keep ops0 ops xs d ->
    exists d', id_step cmp keep d o = Some (ref_out cmp (ref_after ops0 ops xs) o, d').
  Proof.
    intros H; destruct (reached_state L keep _ _ _ _ H) as [HS _].
    destruct (reached_quads _ _ _ _ H) as (Hn & _ & Hi).
    destruct (istate_step L keep _ _ _ _ _ o HS) as (x & d' & E & A & _).
    exists d'; rewrite E; do 2 f_equal.
    assert (Hf : apply qcmp (late_log cmp ops0 ops xs) (spec_set qcmp ops0) = final_set cmp ops0 ops xs) by reflexivity.
    rewrite Hf in A; pose proof (reached_rep L keep _ _ _ _ H) as [Hn' _].
    destruct o as [o|g|c n spare]; cbn [ref_out].
    - destruct x; cbn in A; try contradiction; subst; f_equal; now apply spec_step_ext.
    - destruct x as [|r|]; cbn in A; try contradiction; f_equal; destruct g as [g|]; cbn [ref_graph].
      + pose proof (id_graph_shelf L keep _ _ _ _ g H) as G; cbn [id_step] in E; cbn [ref_after desk].
        destruct (graph_of _ g) as [l|] eqn:El; cbn [option_map].
        * destruct G as (b & d2 & ts & Eg & Eb & Hs & Ht); rewrite Eg in E; cbn in E; rewrite Eb in E; cbn in E.
          inv E; f_equal; apply (in_order_unique tcmp (triple_cmp_laws cmp L)); [exact Hs|].
          intros t; rewrite Ht, in_map_iff; split.
          { intros Hq; exists (Quad (t_s t) (t_p t) (t_o t) (Some g)); split; [destruct t; reflexivity|exact Hq]. }
          intros (q & <- & Hq); cbn.
          assert (q_g q = Some g) as <-; [|destruct q; exact Hq].
          clear - El Hq H L; unfold graph_of in El.
          pose proof (i_shelf_reached L keep _ _ _ _ H) as B.
          destruct (shown _ g) as [k|] eqn:Es; [|discriminate]; apply (sh_shows _ _ B) in Es as [_ Hv].
          destruct (marked _ 3 k); inv El; apply in_map_iff in Hq as ([z kz] & <- & Hz); cbn.
          apply filter_In in Hz as [Hz Hk]; apply (sh_held _ _ B) in Hz as (i & y & _ & Hz & ->).
          apply nth_is_true in Hk; cbn [snd] in Hk; change 3 with (at_ PosG) in Hk; rewrite nth_comp in Hk.
          rewrite <- slot_comp in Hk; destruct (iqwr_slot _ _ _ _ _ Hz Hk) as (v & Hc & Hv'); cbn in Hc; congruence.
        * rewrite G in E; cbn in E; now inv E.
      + destruct r as [ts|]; [|congruence]; f_equal; destruct A as (Hs & Hin & Hall).
        apply (in_order_unique tcmp (triple_cmp_laws cmp L)); [exact Hs|].
        intros t; rewrite in_map_iff; split.
        * intros Ht; exists (Quad (t_s t) (t_p t) (t_o t) None); split; [destruct t; reflexivity|].
          apply filter_In; split; [apply Hi, Hin, Ht|reflexivity].
        * intros (q & <- & Hq); apply filter_In in Hq as [Hq Hg]; apply Hall; [reflexivity|now apply Hi|].
          destruct (q_g q); [discriminate|reflexivity].
    - cbn [id_step] in E; destruct (id_sights L keep _ _ _ _ H) as (_ & _ & Hx).
      destruct (Hx spare c n) as (d2 & E2); rewrite E2 in E; cbn in E; inv E.
      f_equal; f_equal; symmetry; now apply (reached_query _ _ _ d).
  Qed.

  (** ** Histories *)
  Lemma run_snoc (ops : list (iop R)) o : forall d xs d',
    run (id_step cmp keep) d (ops ++ [o]) = Some (xs, d') ->
    exists ys y d1, xs = ys ++ [y] /\ run (id_step cmp keep) d ops = Some (ys, d1) /\
      id_step cmp keep d1 o = Some (y, d').
  Proof.
    induction ops as [|a ops IH]; intros d xs d' E; cbn [app run] in E.
    - destruct (id_step cmp keep d o) as [[y d1]|] eqn:E1; [|discriminate]; inv E.
      exists [], y, d; auto.
    - destruct (id_step cmp keep d a) as [[x d1]|] eqn:E1; [|discriminate].
      destruct (run _ d1 (ops ++ [o])) as [[zs d2]|] eqn:E2; [|discriminate]; inv E.
      destruct (IH _ _ _ E2) as (ys & y & d3 & -> & E3 & E4).
      exists (x :: ys), y, d3; cbn [run]; rewrite E1, E3; auto.
  Qed.

  Lemma ref_run_snoc (ops : list (iop R)) o : forall st xs st' x st'',
    ref_run cmp keep st ops = (xs, st') -> ref_step cmp keep st' o = (x, st'') ->
    ref_run cmp keep st (ops ++ [o]) = (xs ++ [x], st'').
  Proof.
    induction ops as [|a ops IH]; intros st xs st' x st'' E E'; cbn [app ref_run] in *.
    - inv E; rewrite E'; reflexivity.
    - destruct (ref_step cmp keep st a) as [y st1]; destruct (ref_run cmp keep st1 ops) as [ys st2] eqn:E2; inv E.
      rewrite (IH _ _ _ _ _ E2 E'); reflexivity.
  Qed.

  Lemma place_run_snoc (ops : list (iop R)) o x : forall st xs, length xs = length ops ->
    place_run cmp st (ops ++ [o]) (xs ++ [x]) = place_iop cmp (place_run cmp st ops xs) o x /\
    placed_log cmp st (ops ++ [o]) (xs ++ [x]) =
    placed_log cmp st ops xs ++ placed_changes cmp (place_run cmp st ops xs) o x.
  Proof.
    induction ops as [|a ops IH]; intros st [|y xs] Hl; try discriminate; cbn [app place_run placed_log].
    - split; [reflexivity|apply app_nil_r].
    - destruct (IH (place_iop cmp st a y) xs) as [-> ->]; [now inv Hl|]; split; [reflexivity|apply app_assoc].
  Qed.

  Lemma ref_after_snoc ops0 ops o x xs : length xs = length ops ->
    ref_step cmp keep (ref_after ops0 ops xs) o = (x, snd (ref_step cmp keep (ref_after ops0 ops xs) o)) ->
    snd (ref_step cmp keep (ref_after ops0 ops xs) o) = ref_after ops0 (ops ++ [o]) (xs ++ [x]).
  Proof.
    intros Hl E; unfold ref_step in *; cbn [snd] in *.
    assert (ref_out cmp (ref_after ops0 ops xs) o = x) as -> by congruence.
    unfold ref_after, shelf_after; cbn [row desk].
    destruct (place_run_snoc ops o x (place_ops qcmp ops0) xs Hl) as [-> ->]; now rewrite fold_left_app.
  Qed.

  Lemma run_length {S O X} (step : S -> O -> option (X * S)) l : forall s xs s',
    run step s l = Some (xs, s') -> length xs = length l.
  Proof.
    induction l as [|o l IH]; intros s xs s' E; cbn in E; [now inv E|].
    destruct (step s o) as [[x s1]|]; [|discriminate].
    destruct (run step s1 l) as [[ys s2]|] eqn:E2; [|discriminate]; inv E; cbn; f_equal; eauto.
  Qed.

  Lemma reached_run ops0 ops : forall xs d,
    id_reached cmp keep ops0 ops xs d ->
    ref_run cmp keep (ref_start cmp keep ops0) ops = (xs, ref_after ops0 ops xs).
  Proof.
    induction ops as [|o ops IH] using rev_ind; intros xs d H.
    - destruct H as (xs0 & b & d0 & _ & _ & E); cbn in E; inv E; reflexivity.
    - destruct H as (xs0 & b & d0 & Eb & E0 & E).
      destruct (run_snoc _ _ _ _ _ E) as (ys & y & d1 & -> & E1 & E2).
      assert (H1 : id_reached cmp keep ops0 ops ys d1) by (exists xs0, b, d0; auto).
      destruct (reached_out _ _ _ _ o H1) as (d2 & E2'); rewrite E2 in E2'.
      injection E2' as Ey _.
      rewrite <- (ref_after_snoc ops0 ops o y ys); [|eapply run_length; eassumption|unfold ref_step; cbn; congruence].
      apply (ref_run_snoc _ _ _ _ _ _ _ (IH _ _ H1)); unfold ref_step; cbn; congruence.
  Qed.

  Lemma id_reference ops0 ops :
    exists d, id_reached cmp keep ops0 ops (fst (ref_run cmp keep (ref_start cmp keep ops0) ops)) d.
  Proof.
    destruct (id_total L keep ops0 ops) as (xs & d & H & _).
    exists d; rewrite (reached_run _ _ _ _ H); exact H.
  Qed.

  Lemma shown_listed d (sh : shelf (quad R) R) ks vs :
    id_inv (cmp:=cmp) d ks vs -> ishelved d sh -> id_resources_iter d = Some (shown_resources cmp sh).
  Proof.
    intros I B; pose proof (iri_idx _ _ _ _ (ii_res _ _ _ I)) as J; destruct J as [J1 J2].
    change (id_resources_iter d) with (mapM (ir_val (id_resources d)) (id_ri d)); rewrite J1; f_equal.
    apply (in_order_unique cmp L); [exact J2|]; intros r; rewrite in_flat_map.
    destruct (sh_kept _ _ B) as (_ & _ & K3).
    rewrite (mapM_in _ _ _ r J1); split.
    - intros (k & Hk & Hv); assert (Hs : shown sh r = Some k) by (apply (sh_shows _ _ B); auto).
      rewrite K3 in Hv; unfold pget in Hv; exists k.
      destruct (nth_error (fst (seats sh)) k) as [[v|]|] eqn:E; inv Hv; split.
      + apply in_seq; split; [lia|]; cbn; apply nth_error_Some; congruence.
      + unfold shown_at; rewrite Hs; cbn; rewrite Nat.eqb_refl; now left.
    - intros (k & _ & Hk); destruct (nth_error (fst (seats sh)) k) as [[v|]|] eqn:E; try contradiction.
      unfold shown_at in Hk; cbn [snd] in Hk; destruct (shown sh v) as [j|] eqn:Es; [|contradiction].
      destruct (Nat.eqb_spec j k) as [->|]; [|contradiction]; destruct Hk as [->|[]].
      apply (sh_shows _ _ B) in Es; exists k; tauto.
  Qed.

  Lemma id_observed ops0 ops xs d :
    id_reached cmp keep ops0 ops xs d ->
    let (ys, st) := ref_run cmp keep (ref_start cmp keep ops0) ops in
    let sh := desk st in
    let s := fst (seats sh) in
    xs = ys /\
    (forall o, option_map fst (id_step cmp keep d o) = Some (ref_out cmp st o)) /\
    (id_iter d = Some (sorted_elements qcmp (quads_of st)) /\
     id_into_iter d = Some (sorted_elements qcmp (quads_of st)) /\
     id_len d = length (quads_of st) /\
     (id_is_empty d = true <-> quads_of st = []) /\
     forall q, id_contains cmp d q = Some (mem qcmp q (quads_of st))) /\
    (id_resources_iter d = Some (shown_resources cmp sh) /\
     (forall r, id_contains_resource cmp d r = Some (if shown sh r then true else false)) /\
     id_resource_count d = length (present s)) /\
    (id_subjects d = listing (marked sh 0) s /\ id_predicates d = listing (marked sh 1) s /\
     id_objects d = listing (marked sh 2) s /\ id_named_graphs d = listing (marked sh 3) s) /\
    (id_subject_count d = tally (marked sh 0) s /\ id_predicate_count d = tally (marked sh 1) s /\
     id_object_count d = tally (marked sh 2) s /\ id_named_graph_count d = tally (marked sh 3) s) /\
    (forall spare c, id_pattern_matching cmp d spare c = Some (ref_query cmp st c)) /\
    (forall spare c, id_multi_pattern_matching cmp d spare c = Some (ref_multi_query cmp st c)).
  Proof.
    intros H; rewrite (reached_run _ _ _ _ H); set (st := ref_after ops0 ops xs); cbn zeta.
    destruct (reached_quads _ _ _ _ H) as (Hn & Hl & Hi); fold st in Hn, Hl, Hi.
    pose proof (reached_rep L keep _ _ _ _ H) as Hr; pose proof Hr as [Hn' (vs & I)].
    assert (Es : sorted_elements qcmp (final_set cmp ops0 ops xs) = sorted_elements qcmp (quads_of st)).
    { apply (sorted_elements_ext L); auto; intros q; symmetry; apply Hi. }
    destruct (id_sights L keep _ _ _ _ H) as (S1 & S2 & _).
    destruct (id_listings_shelf L keep _ _ _ _ H) as (A1 & A2 & A3 & A4 & A5 & A6 & A7 & A8 & A9 & A10).
    split; [reflexivity|]; split.
    { intros o; destruct (reached_out _ _ _ _ o H) as (d' & ->); reflexivity. }
    split; [|split; [|split; [|split; [|split]]]].
    - rewrite <- Es; split; [now apply id_iter_rep|]; split; [now apply (id_into_iter_rep L)|].
      split; [exact Hl|]; split.
      + unfold id_is_empty; rewrite Hl, Nat.eqb_eq; apply length_zero_iff_nil.
      + intros q; rewrite (id_contains_rep L _ _ _ Hr); f_equal; apply (mem_iff L); symmetry; apply Hi.
    - split; [exact (shown_listed _ _ _ _ I (i_shelf_reached L keep _ _ _ _ H))|]; split; assumption.
    - auto.
    - auto.
    - intros spare c; rewrite S1; f_equal; symmetry; now apply (reached_query _ _ _ d).
    - intros spare c; rewrite S2; f_equal; symmetry; now apply (reached_multi_query _ _ _ d).
  Qed.

  (** ** Graphs *)
  Lemma seat_of_iq (sh : shelf (triple R) R) (sh' : shelf (quad R) R) t i :
    sim sh sh' -> seat_of qcmp sh' (iq t) i = seat_of tcmp sh t i.
  Proof.
    intros (_ & Hh & _ & _); unfold seat_of; rewrite Hh; clear Hh.
    induction (held sh) as [|e l IH]; [reflexivity|]; cbn; rewrite same_iq.
    destruct (same tcmp t (fst e)); [destruct e; reflexivity|exact IH].
  Qed.

  Lemma ref_query_iq (sh : shelf (triple R) R) (sh' : shelf (quad R) R) c st :
    sim sh sh' -> ref_query cmp (Reference (qpl st) sh') (anyg c) = map iq (ref_triple_query cmp sh c (fst st)).
  Proof.
    intros Hsim; unfold ref_query, ref_triple_query; cbn [desk row qpl fst].
    assert (E : map (option_map (seated cmp sh')) (map (option_map iq) (fst st)) =
                map (option_map iq) (map (option_map (triple_seated cmp sh)) (fst st))).
    { rewrite !map_map; apply map_ext; intros [t|]; [|reflexivity]; cbn; f_equal.
      unfold seated; cbn [q_s q_p q_o q_g iq option_map].
      rewrite !(seat_of_iq sh sh' t _ Hsim); reflexivity. }
    transitivity (map unseated (query seat_cmp (shown_at sh) (anyg c)
                    (map (option_map (seated cmp sh')) (map (option_map iq) (fst st))))).
    - apply (agree_query seat_cmp seat_cmp _ _ (seated cmp sh') unseated (unseated_seated sh')
               (seated cmp sh') unseated (unseated_seated sh')).
      + intros q a _ p; destruct (comp p (seated cmp sh' q)); [|exact Logic.I].
        destruct Hsim as (_ & _ & Hs & _); unfold shown_at; now rewrite Hs.
      + intros q _ p p'; destruct (comp p (seated cmp sh' q)), (comp p' (seated cmp sh' q)); auto.
      + reflexivity.
    - rewrite E, query_iq, !map_map; reflexivity.
  Qed.

  Lemma ig_reference ops0 ops g :
    ig_reached cmp keep ops0 ops g ->
    let sh := triple_shelf cmp keep ops0 ops in
    let s := fst (place_ops tcmp (ops0 ++ ops)) in
    (forall spare c, ig_pattern_matching cmp g spare c = Some (ref_triple_query cmp sh c s)) /\
    ig_resources_iter g = Some (shown_resources cmp sh).
  Proof.
    intros H sh s; destruct (g_shelf_reached L keep _ _ _ H) as (sh' & Hsim & B); fold sh in Hsim.
    destruct (ig_as_dataset L keep _ _ _ H) as (xs & dg & Hd).
    pose proof (reached_rep L keep _ _ _ _ Hd) as [_ (vs & I)].
    split.
    - intros spare c; rewrite (ig_sight L keep _ _ _ H spare c); f_equal; apply map_iq_inj.
      unfold s; rewrite <- (ref_query_iq sh sh' c _ Hsim), <- sight_iq.
      assert (Hlen : length xs = length ops).
      { destruct Hd as (xs0 & b & d0 & _ & _ & Hrun); apply run_length in Hrun; now rewrite map_length in Hrun. }
      assert (Hp : place_run cmp (place_ops qcmp (map qop ops0)) (map (fun o => IOp (qop o)) ops) xs =
                   qpl (place_ops tcmp (ops0 ++ ops))).
      { unfold place_ops at 1; change (@nil (option (quad R)), @nil nat) with (qpl (R:=R) ([], [])).
        rewrite places_iq, place_run_iq by exact Hlen.
        unfold place_ops; now rewrite fold_left_app. }
      pose proof (reached_kept L keep _ _ _ _ Hd) as K; rewrite Hp in K.
      pose proof (reached_follow L keep _ _ _ _ Hd) as F; rewrite (full_iq L _ _ _ Hlen) in F.
      symmetry; exact (ref_query_sight _ _ K _ vs I _ F sh' (B dg) (anyg c)).
    - pose proof (shown_listed _ _ _ _ I (B dg)) as E.
      change (id_resources_iter (iemb g dg)) with (ig_resources_iter g) in E; rewrite E; f_equal.
      destruct Hsim as (Ea & _ & Hs & _); unfold shown_resources, shown_at; rewrite Ea; f_equal.
      apply flat_map_ext; intros k; destruct (nth_error _ k) as [[r|]|]; [|reflexivity|reflexivity]; now rewrite Hs.
  Qed.
End Reference.
