(** What the queries of the indexed containers find, for every history. *)
From Coq Require Import List Bool Arith Lia Permutation Sorted.
Import ListNotations.
From Verif Require Import Base SlabModel TripleModel TriplePatternModel QuadPatternModel SetSpec
  ContainerSpec PatternSpec IndexedSpec ScanSpec Machine BaseProofs PatternProofs BResourceModel
  BResourceProofs BTreeDatasetModel BTreeDatasetProofs BTreeGraphModel BTreeGraphProofs
  IResourceModel IResourceProofs IndexedDatasetModel IndexedDatasetProofs IndexedHistoryProofs
  IndexedConvertProofs IndexedPatternProofs IndexedRunProofs IndexedGraphModel
  IndexedGraphProofs IndexedGraphRunProofs PlaceProofs ScanProofs LedgerSpec LedgerProofs
  BLedgerProofs ILedgerProofs SightSpec.
Open Scope panic_scope.

(** ** Walking along labelled elements *)
Section Pull.
  Context {X Y : Type} (f : X -> Y) (g : Y -> X) (gf : forall x, g (f x) = x).

  Definition pull (k : check Y) : check X :=
    match k with
    | Unchecked => Unchecked | Equal t => Equal (fun x => t (f x)) | Among t => Among (fun x => t (f x))
    end.

  Lemma pull_passes k x : passes x (pull k) = passes (f x) k.
  Proof. destruct k; reflexivity. Qed.

  Lemma pull_fails ks x : fails_at (map pull ks) x = option_map pull (fails_at ks (f x)).
  Proof.
    induction ks as [|k ks IH]; [reflexivity|]; unfold fails_at in *; cbn; rewrite pull_passes.
    destruct (negb (passes (f x) k)); [reflexivity|exact IH].
  Qed.

  Lemma pull_scan ks s : forall sk : option (Y -> bool),
    map g (scan sk ks (map (option_map f) s)) =
    scan (option_map (fun t x => t (f x)) sk) (map pull ks) s.
  Proof.
    induction s as [|[x|] s IH]; intros sk; cbn [map option_map scan]; [reflexivity| |].
    - assert (match option_map (fun t x => t (f x)) sk with Some t => t x | None => true end =
              match sk with Some t => t (f x) | None => true end) as -> by now destruct sk.
      destruct (match sk with Some t => t (f x) | None => true end); [|apply IH].
      rewrite pull_fails; destruct (fails_at ks (f x)) as [[|t|t]|]; cbn [option_map pull].
      + apply (IH None).
      + apply (IH None).
      + apply (IH (Some t)).
      + cbn [map]; rewrite gf; f_equal; apply (IH None).
    - destruct sk as [t|]; cbn [option_map]; [apply (IH (Some t))|reflexivity].
  Qed.

  Lemma pull_present s : present (map (option_map f) s) = map f (present s).
  Proof.
    induction s as [|[x|] s IH]; [reflexivity| |exact IH].
    change (f x :: present (map (option_map f) s) = f x :: map f (present s)); now rewrite IH.
  Qed.

  Lemma pull_filter (t : Y -> bool) l : map g (filter t (map f l)) = filter (fun x => t (f x)) l.
  Proof.
    induction l as [|x l IH]; [reflexivity|]; cbn; destruct (t (f x)); cbn; [rewrite gf|]; now rewrite IH.
  Qed.
End Pull.

Lemma nth_firstn {T} (l : list T) : forall n i, i < n -> nth_error (firstn n l) i = nth_error l i.
Proof.
  induction l as [|x l IH]; intros [|n] [|i] H; cbn; try lia; try reflexivity; apply IH; lia.
Qed.
Lemma nth_skipn {T} (l : list T) : forall n i, nth_error (skipn n l) i = nth_error l (n + i).
Proof. induction l as [|x l IH]; intros [|n] i; cbn; auto; destruct i; reflexivity. Qed.

Lemma chosen_pick {R} {cmp : R -> R -> comparison} (L : ord_laws cmp) keep l (r : R) i :
  nth_error l i = Some r -> (chosen cmp keep r i l = true <-> pick keep l r i).
Proof.
  intros Hi; unfold chosen, pick; rewrite negb_true_iff; split.
  - intros Hc; split; [exact Hi|]; intros j Hj.
    assert (N : ~ In r (if keep then firstn i l else skipn (S i) l)).
    { intros Hin; assert (existsb (same cmp r) (if keep then firstn i l else skipn (S i) l) = true).
      { apply existsb_exists; exists r; split; [exact Hin|now apply (BaseProofs.same_true L)]. }
      congruence. }
    destruct keep.
    + destruct (Nat.le_gt_cases i j) as [?|Hlt]; [assumption|]; destruct N.
      apply nth_error_In with (n := j); now rewrite nth_firstn.
    + destruct (Nat.le_gt_cases j i) as [?|Hlt]; [assumption|]; destruct N.
      apply nth_error_In with (n := j - S i); rewrite nth_skipn; now replace (S i + (j - S i)) with j by lia.
  - intros [_ H]; apply not_true_is_false; intros Hc; apply existsb_exists in Hc as (r' & Hin & Hs).
    apply (BaseProofs.same_true L) in Hs; subst r'; apply In_nth_error in Hin as (j & Hj); destruct keep.
    + assert (Hl : j < i).
      { assert (j < length (firstn i l)) by (apply nth_error_Some; congruence).
        rewrite firstn_length in *; lia. }
      rewrite nth_firstn in Hj by exact Hl; apply H in Hj; lia.
    + rewrite nth_skipn in Hj; apply H in Hj; lia.
Qed.

Section Proofs.
  Context {R : Type} {cmp : R -> R -> comparison} (L : ord_laws cmp).
  Context (keep : bool).
  Notation qcmp := (quad_cmp cmp).
  Let LQ : ord_laws qcmp := quad_cmp_laws cmp L.
  Notation inv_ := (id_inv (cmp:=cmp)).
  Notation wr d := (i_quad_with_resources (R:=R) (id_resources d)).
  Notation lab := (R * (bool * nat))%type.
  Notation follow d r a := (exists sg, follows (keep:=keep) quad_comps r (ient d) (ivis d) sg a).

  Definition at_ (p : pos) : nat := match p with PosS => 0 | PosP => 1 | PosO => 2 | PosG => 3 end.
  Lemma nth_comp {T} (q : quad T) p : nth_error (quad_comps q) (at_ p) = comp p q.
  Proof. unfold quad_comps; destruct p, q as [s p' o [g|]]; reflexivity. Qed.
  Lemma slot_comp (x : quad nat) p : slot p x = comp p x.
  Proof. destruct p; reflexivity. Qed.
  Lemma at_inj p p' : at_ p = at_ p' -> p = p'.
  Proof. destruct p, p'; cbn; congruence. Qed.

  Section Walk.
    Context (d : @idataset R) (s : list (option (quad R))).
    Context (Hat : forall i, i_quad_at (id_resources d) (id_quads d) i = pget s i).
    Context (ks : list (quad R)) (vs : list R) (I : inv_ d ks vs).
    Context (log : list (change (quad R))).
    Context (F : forall r, follow d r (account qcmp cmp quad_comps r log)).
    Notation tag := (label_quad cmp keep log).

    Lemma tag_comp p q :
      comp p (tag q) = option_map (label qcmp cmp quad_comps keep log q (at_ p)) (comp p q).
    Proof. destruct p; reflexivity. Qed.

    (** The label of a component says whether its slot is visible. *)
    Lemma label_spec i x q p k r :
      sget (id_quads d) i = Some x -> wr d x = Some q -> comp p x = Some k -> comp p q = Some r ->
      exists b n, label qcmp cmp quad_comps keep log q (at_ p) r = (r, (b, n)) /\
        (b = true <-> In k (id_ri d)).
    Proof.
      intros Hx Hq Hk Hr; unfold label; destruct (F r) as (sg & Fr).
      set (a := account qcmp cmp quad_comps r log) in *.
      assert (He : ient d q (quad_comps x)) by (exists i, x; auto).
      assert (Hc : nth_error (quad_comps q) (at_ p) = Some r) by now rewrite nth_comp.
      assert (Hs : nth_error (quad_comps x) (at_ p) = Some k) by now rewrite nth_comp.
      assert (Hin : In q (map fst (filed a))).
      { apply (fo_filed _ _ _ _ _ _ Fr); split; [eauto|]; eapply nth_error_In; eauto. }
      apply in_map_iff in Hin as ([q' [e sp]] & Eq' & Hin); cbn in Eq'; subst q'.
      rewrite (find_filed LQ a q e sp (fo_nodup _ _ _ _ _ _ Fr) Hin); do 2 eexists; split; [reflexivity|].
      destruct (fo_home _ _ _ _ _ _ Fr _ _ _ _ Hin He) as (Hle & _ & Home & _).
      assert (Hu : LedgerProofs.uses quad_comps (ient d) k r) by (exists q, (quad_comps x), (at_ p); auto).
      rewrite !andb_true_iff, orb_true_iff, negb_true_iff, Nat.eqb_eq.
      split.
      - intros ((Hrep & He') & Hm).
        assert (k = sg e) as ->.
        { destruct (Home _ _ Hc Hs) as [?|[-> _]]; [assumption|].
          destruct Hm as [?|Hm]; [discriminate|]; apply (chosen_pick L _ _ _ _ Hc) in Hm.
          pose proof (proj1 (fo_pick _ _ _ _ _ _ Fr _ _ _ Hin He) _ Hm) as E; congruence. }
        destruct (proj1 (fo_rep _ _ _ _ _ _ Fr) Hrep) as (k0 & V0 & U0).
        pose proof (fo_vis _ _ _ _ _ _ Fr Hrep _ V0 U0) as E; rewrite He', <- E; exact V0.
      - intros Hv.
        assert (Hrep : reported a = true) by (apply (fo_rep _ _ _ _ _ _ Fr); exists k; auto).
        pose proof (fo_vis _ _ _ _ _ _ Fr Hrep _ Hv Hu) as E.
        destruct (Home _ _ Hc Hs) as [Ek|[_ [Ha _]]]; [|contradiction].
        split; [split; [exact Hrep|]|].
        + apply (fo_inj _ _ _ _ _ _ Fr); [left; eauto|right; auto|congruence].
        + destruct sp; [right|left; reflexivity]; apply (chosen_pick L _ _ _ _ Hc).
          destruct (pick_exists L keep (quad_comps q) r) as (p1 & P1); [eapply nth_error_In; eauto|].
          destruct (fo_pick _ _ _ _ _ _ Fr _ _ _ Hin He) as [A B].
          pose proof (A _ P1) as E1; rewrite <- Ek in E1.
          now rewrite (B _ _ k Hc (proj1 P1) Hs E1).
    Qed.

    (** The labels of two components are the same when their slots are. *)
    Lemma label_same i x q p p' k k' r r' :
      sget (id_quads d) i = Some x -> wr d x = Some q ->
      comp p x = Some k -> comp p q = Some r -> comp p' x = Some k' -> comp p' q = Some r' ->
      same (label_cmp cmp) (label qcmp cmp quad_comps keep log q (at_ p) r)
                           (label qcmp cmp quad_comps keep log q (at_ p') r') = (k =? k').
    Proof.
      intros Hx Hq Hk Hr Hk' Hr'; apply eq_true_iff_eq; rewrite Nat.eqb_eq.
      assert (V : ir_val (id_resources d) k = Some r).
      { destruct (iqwr_slot _ _ _ p k Hq) as (v & Hv & Hv'); [now rewrite slot_comp|congruence]. }
      assert (V' : ir_val (id_resources d) k' = Some r').
      { destruct (iqwr_slot _ _ _ p' k' Hq) as (v & Hv & Hv'); [now rewrite slot_comp|congruence]. }
      unfold label; destruct (F r) as (sg & Fr).
      set (a := account qcmp cmp quad_comps r log) in *.
      assert (He : ient d q (quad_comps x)) by (exists i, x; auto).
      assert (Hc : nth_error (quad_comps q) (at_ p) = Some r) by now rewrite nth_comp.
      assert (Hs : nth_error (quad_comps x) (at_ p) = Some k) by now rewrite nth_comp.
      assert (Hin : In q (map fst (filed a))).
      { apply (fo_filed _ _ _ _ _ _ Fr); split; [eauto|]; eapply nth_error_In; eauto. }
      apply in_map_iff in Hin as ([q' [e sp]] & Eq' & Hin); cbn in Eq'; subst q'.
      rewrite (find_filed LQ a q e sp (fo_nodup _ _ _ _ _ _ Fr) Hin).
      set (b := reported a && (e =? number a) && (negb sp || chosen cmp keep r (at_ p) (quad_comps q))); clearbody b.
      assert (Hne : r <> r' -> (same (label_cmp cmp) (r, (b, if sp then S (at_ p) else 0))
                (label qcmp cmp quad_comps keep log q (at_ p') r') = true <-> k = k')).
      { intros Hn; split; [|intros ->; congruence].
        intros Hl; exfalso; apply Hn.
        assert (E : fst (label qcmp cmp quad_comps keep log q (at_ p') r') = r').
        { unfold label; destruct (find _ _) as [[? [? ?]]|]; reflexivity. }
        unfold same, label_cmp in Hl; rewrite E in Hl; cbn [fst] in Hl.
        destruct (cmp r r') eqn:Ec; try discriminate; now apply (ord_eq _ L). }
      destruct (cmp r r') eqn:Ec.
      2,3: apply Hne; intros ->; rewrite (proj2 (ord_eq _ L r' r') eq_refl) in Ec; discriminate.
      apply (ord_eq _ L) in Ec; subst r'; clear Hne.
      assert (Hc' : nth_error (quad_comps q) (at_ p') = Some r) by now rewrite nth_comp.
      assert (Hs' : nth_error (quad_comps x) (at_ p') = Some k') by now rewrite nth_comp.
      fold a; rewrite (find_filed LQ a q e sp (fo_nodup _ _ _ _ _ _ Fr) Hin).
      unfold same, label_cmp; cbn [fst snd]; rewrite (proj2 (ord_eq _ L r r) eq_refl).
      destruct (fo_home _ _ _ _ _ _ Fr _ _ _ _ Hin He) as (_ & _ & Home & _).
      destruct sp.
      - destruct (Nat.compare (S (at_ p)) (S (at_ p'))) eqn:En.
        + apply Nat.compare_eq in En; injection En as En; apply at_inj in En; subst p'.
          split; [intros _; congruence|reflexivity].
        + split; [discriminate|]; intros <-.
          destruct (fo_pick _ _ _ _ _ _ Fr _ _ _ Hin He) as [_ B].
          rewrite (B _ _ _ Hc Hc' Hs Hs'), Nat.compare_refl in En; discriminate.
        + split; [discriminate|]; intros <-.
          destruct (fo_pick _ _ _ _ _ _ Fr _ _ _ Hin He) as [_ B].
          rewrite (B _ _ _ Hc Hc' Hs Hs'), Nat.compare_refl in En; discriminate.
      - rewrite Nat.compare_refl; split; [intros _|reflexivity].
        destruct (Home _ _ Hc Hs) as [->|[? _]]; [|discriminate].
        destruct (Home _ _ Hc' Hs') as [->|[? _]]; [reflexivity|discriminate].
    Qed.

    (** ** Constraints *)
    (** The constraint [c] demands [t] of the quads. *)
    Definition cexact (c : constraint (quad nat)) (t : quad R -> bool) : Prop :=
      csorted c /\ forall i x q, sget (id_quads d) i = Some x -> wr d x = Some q ->
        (csat c i x <-> t q = true).

    Lemma cexact_any : cexact CAny (fun _ => true).
    Proof. split; [exact Logic.I|]; intros; cbn; tauto. Qed.

    Lemma cexact_ext c t t' : (forall q, t q = t' q) -> cexact c t -> cexact c t'.
    Proof. intros H [A B]; split; [assumption|]; intros i x q Hx Hq; rewrite (B i x q Hx Hq), H; tauto. Qed.

    Lemma cexact_link c k :
      cexact c (fun q => passes (tag q) k) ->
      match k with
      | Unchecked => c = CAny | Equal _ => exists f, c = CSame f | Among _ => fixed d c
      end -> clink d s 0 c (pull tag k).
    Proof.
      intros [C1 C2] Hsh.
      assert (Hget : forall i q, pget s i = Some q ->
                exists x, sget (id_quads d) i = Some x /\ wr d x = Some q).
      { intros i q; rewrite <- Hat; unfold i_quad_at; destruct (sget (id_quads d) i) as [x|]; [|discriminate].
        cbn; eauto. }
      destruct k as [|t|t]; cbn [pull passes] in *.
      - subst c; exact Logic.I.
      - destruct Hsh as (f & ->); cbn; intros i x q Hx Hq; apply eq_true_iff_eq, (C2 i x q Hx Hq).
      - destruct Hsh as (F1 & F2 & F3).
        destruct c as [| |f|l]; [|now destruct F1|now destruct (F2 f)|]; cbn.
        + intros i q _ Hq; destruct (Hget _ _ Hq) as (x & Hx & Hw).
          apply not_true_is_false; intros Ht; now apply (C2 i x q Hx Hw) in Ht.
        + split; [exact C1|]; intros i _; split.
          * intros Hi; pose proof (F3 _ _ eq_refl Hi) as Hx.
            destruct (sget (id_quads d) i) as [x|] eqn:Ex; [|contradiction].
            destruct (id_live_value _ _ _ _ _ I Ex) as (q & Hq & _); exists q; split.
            -- rewrite <- Hat; unfold i_quad_at; now rewrite Ex.
            -- now apply (C2 i x q Ex Hq).
          * intros (q & Hq & Ht); destruct (Hget _ _ Hq) as (x & Hx & Hw).
            now apply (C2 i x q Hx Hw).
    Qed.

    (** The indexes of the visible slot of [a], at the position [p]. *)
    Lemma found_indexes p a :
      exists f, i_get_resource cmp (id_resources d) (id_ri d) a = Some f /\
        let l := match f with Some y => ir_at p y | None => [] end in
        nsorted l /\ (forall i, In i l -> sget (id_quads d) i <> None) /\
        forall i x q, sget (id_quads d) i = Some x -> wr d x = Some q ->
          (In i l <-> match comp p (tag q) with Some t => finds cmp a t | None => false end = true).
    Proof.
      unfold i_get_resource.
      destruct (i_index_of_resource_spec L _ _ _ _ a (ii_res _ _ _ I)) as (f & Ef & Hf); rewrite Ef; cbn.
      assert (Only : forall k x q i r, sget (id_quads d) i = Some x -> wr d x = Some q ->
                comp p x = Some k -> comp p q = Some r ->
                (finds cmp a (label qcmp cmp quad_comps keep log q (at_ p) r) = true <-> r = a /\ In k (id_ri d))).
      { intros k x q i r Hx Hq Hk Hr.
        destruct (label_spec i x q p k r Hx Hq Hk Hr) as (b & n & -> & Hb).
        unfold finds; cbn [fst snd]; rewrite andb_true_iff, (BaseProofs.same_true L), Hb; split; intros [? ?]; auto. }
      destruct f as [k|].
      - destruct Hf as (Hk & Hv & _).
        assert (Hv' := Hv); unfold ir_val in Hv'.
        destruct (sget (id_resources d) k) as [y|] eqn:Ey; [|discriminate]; cbn in *.
        eexists; split; [reflexivity|]; cbn.
        destruct (iri_use _ _ _ _ (ii_res _ _ _ I) _ _ Ey) as [Hu _]; destruct (Hu p) as [Hso Hin].
        split; [exact Hso|]; split.
        { intros i Hi; apply Hin in Hi as (x & Hx & _); congruence. }
        intros i x q Hx Hq; rewrite Hin, tag_comp.
        destruct (comp p q) as [r|] eqn:Er; cbn [option_map].
        + destruct (iqwr_comp _ _ _ _ _ Hq Er) as (k' & Hs & Hw); rewrite slot_comp in Hs.
          rewrite (Only _ _ _ _ _ Hx Hq Hs Er); split.
          * intros (x' & Hx' & Hs'); rewrite Hx in Hx'; inv Hx'; rewrite slot_comp, Hs in Hs'; inv Hs'.
            split; [congruence|assumption].
          * intros [-> Hv2]; exists x; split; [assumption|]; rewrite slot_comp, Hs; f_equal.
            assert (Ua : LedgerProofs.uses quad_comps (ient d) k' a) by now apply (i_uses _ _ _ _ _ I).
            assert (Ub : LedgerProofs.uses quad_comps (ient d) k a) by now apply (i_uses _ _ _ _ _ I).
            exact (tb_vis _ _ _ (i_table L _ _ _ I) _ _ _ Hv2 Hk Ua Ub).
        + split; [|discriminate]; intros (x' & Hx' & Hs'); rewrite Hx in Hx'; inv Hx'.
          destruct (iqwr_slot _ _ _ _ _ Hq Hs') as (v & Hc & _); congruence.
      - eexists; split; [reflexivity|]; cbn; split; [constructor|]; split; [intros ? []|].
        intros i x q Hx Hq; split; [intros []|]; rewrite tag_comp.
        destruct (comp p q) as [r|] eqn:Er; cbn [option_map]; [|discriminate].
        destruct (iqwr_comp _ _ _ _ _ Hq Er) as (k' & Hs & Hw); rewrite slot_comp in Hs.
        rewrite (Only _ _ _ _ _ Hx Hq Hs Er); intros [-> Hv]; apply Hf.
        apply (i_seen _ _ _ _ I); exists k'; split; [exact Hv|now apply (i_uses _ _ _ _ _ I)].
    Qed.

    Notation at_label E p a := (fun q : quad R => match comp p (tag q) with Some t => E a t | None => false end).

    Lemma given_exact p a :
      exists c, given_constraint cmp (id_resources d) (id_ri d) p a = Some c /\
        cexact c (at_label (finds cmp) p a) /\ fixed d c.
    Proof.
      unfold given_constraint; destruct (found_indexes p a) as (f & -> & Hso & Hl & Hin); cbn [bind].
      eexists; split; [reflexivity|]; destruct f as [y|].
      - split; [split; [now apply nsorted_lesorted|exact Hin]|].
        split; [discriminate|]; split; [discriminate|]; intros l i E Hi; inv E; now apply Hl.
      - split; [split; [exact Logic.I|exact Hin]|]; split; [discriminate|]; split; discriminate.
    Qed.

    Lemma multi_found p l :
      exists m, multi_indexes cmp (id_resources d) (id_ri d) p l = Some m /\
        (forall i, In i m -> sget (id_quads d) i <> None) /\
        forall i x q, sget (id_quads d) i = Some x -> wr d x = Some q ->
          (In i m <-> at_label (finds_one cmp) p l q = true).
    Proof.
      induction l as [|a l (m & IH & Hl & Hm)]; cbn [multi_indexes].
      - exists []; split; [reflexivity|]; split; [intros ? []|]; intros i x q Hx Hq.
        split; [intros []|]; destruct (comp p (tag q)); discriminate.
      - destruct (found_indexes p a) as (f & -> & _ & Hl1 & Hin); cbn [bind]; rewrite IH; cbn [bind].
        eexists; split; [reflexivity|]; split.
        + intros i Hi; apply in_app_or in Hi as [Hi|Hi]; auto.
        + intros i x q Hx Hq; rewrite in_app_iff, (Hin i x q Hx Hq), (Hm i x q Hx Hq).
          destruct (comp p (tag q)) as [[r [b n]]|]; [|intuition discriminate].
          unfold finds, finds_one; cbn [fst snd]; rewrite !andb_true_iff, !(mem_true L), (BaseProofs.same_true L).
          cbn [In]; tauto.
    Qed.

    Lemma multi_exact p l :
      exists c, multi_constraint cmp (id_resources d) (id_ri d) p l = Some c /\
        cexact c (at_label (finds_one cmp) p l) /\ fixed d c.
    Proof.
      unfold multi_constraint; destruct (multi_found p l) as (m & -> & Hl & Hm); cbn [bind].
      eexists; split; [reflexivity|]; destruct m as [|j m].
      - split; [split; [exact Logic.I|exact Hm]|]; split; [discriminate|]; split; discriminate.
      - split; [split; [apply nsort_sorted|]|].
        + intros i x q Hx Hq; cbn [csat]; rewrite in_nsort; now apply (Hm i x q).
        + split; [discriminate|]; split; [discriminate|]; intros l' i E Hi.
          assert (l' = nsort (j :: m)) as -> by congruence; apply Hl, in_nsort, Hi.
    Qed.

    Lemma same_exact p1 p2 (f1 f2 : forall T, quad T -> T) :
      (forall T (x : quad T), comp p1 x = Some (f1 _ x)) -> (forall T (x : quad T), comp p2 x = Some (f2 _ x)) ->
      cexact (CSame (fun x => f1 _ x =? f2 _ x))
             (fun q => same (label_cmp cmp) (f2 _ (tag q)) (f1 _ (tag q))).
    Proof.
      intros C1 C2; split; [exact Logic.I|]; intros i x q Hx Hq; cbn [csat].
      pose proof (tag_comp p1 q) as T1; pose proof (tag_comp p2 q) as T2.
      rewrite !C1 in T1; rewrite !C2 in T2; cbn in T1, T2; injection T1 as T1; injection T2 as T2; rewrite T1, T2.
      rewrite (label_same i x q p2 p1 _ _ _ _ Hx Hq (C2 _ x) (C2 _ q) (C1 _ x) (C1 _ q)), Nat.eqb_sym; tauto.
    Qed.

    Lemma graph_same_exact p1 (f1 : forall T, quad T -> T) :
      (forall T (x : quad T), comp p1 x = Some (f1 _ x)) ->
      cexact (CSame (fun x => is_graph (f1 _ x) (q_g x)))
             (fun q => match q_g (tag q) with Some g => same (label_cmp cmp) g (f1 _ (tag q)) | None => false end).
    Proof.
      intros C1; split; [exact Logic.I|]; intros i x q Hx Hq; cbn [csat].
      pose proof (tag_comp p1 q) as T1; rewrite !C1 in T1; cbn in T1; injection T1 as T1; rewrite T1.
      change (q_g (tag q)) with (option_map (label qcmp cmp quad_comps keep log q 3) (q_g q)).
      pose proof Hq as Hq'; apply iqwr_some in Hq' as (_ & _ & _ & Hg); unfold is_graph.
      destruct (q_g x) as [gx|] eqn:Ex, (q_g q) as [gq|] eqn:Eq; try contradiction; cbn [option_map].
      - pose proof (label_same i x q PosG p1 gx _ gq _ Hx Hq Ex Eq (C1 _ x) (C1 _ q)) as Es; cbn [at_] in Es.
        rewrite Es, Nat.eqb_sym; tauto.
      - split; discriminate.
    Qed.

    Lemma default_exact :
      cexact (CFixed (id_dg d)) (fun q => match q_g (tag q) with Some _ => false | None => true end) /\
      fixed d (CFixed (id_dg d)).
    Proof.
      destruct (default_spec _ _ _ I) as [[C1 C2] Fx]; split; [|exact Fx]; split; [exact C1|].
      intros i x q Hx Hq; destruct (ii_dg _ _ _ I) as [_ Hd]; cbn [csat]; rewrite Hd.
      pose proof Hq as Hq'; apply iqwr_some in Hq' as (_ & _ & _ & Hg).
      change (q_g (tag q)) with (option_map (label qcmp cmp quad_comps keep log q 3) (q_g q)).
      destruct (q_g q); cbn [option_map]; split; try discriminate.
      - intros (x' & Hx' & E); rewrite Hx in Hx'; inv Hx'; rewrite E in Hg; contradiction.
      - reflexivity.
      - intros _; exists x; split; [assumption|]; destruct (q_g x); [contradiction|reflexivity].
    Qed.

    (** ** Iterators *)
    Section Iterator.
      Context {A : Type} (E : A -> lab -> bool) (gc : pos -> A -> option (constraint (quad nat))).
      Context (G : forall p a, exists c, gc p a = Some c /\ cexact c (at_label E p a) /\ fixed d c).

      (** [new], for one resource or several *)
      Definition pm_made (c : cqp A) : option pm :=
        s <- match cq_subject c with PS_Any => Some CAny | PS_Given a => gc PosS a end ;;
        p <- match cq_predicate c with
             | PP_Any => Some CAny
             | PP_SameS => Some (CSame (fun q => q_s q =? q_p q))
             | PP_Given a => gc PosP a
             end ;;
        o <- match cq_object c with
             | PO_Any => Some CAny
             | PO_SameS => Some (CSame (fun q => q_s q =? q_o q))
             | PO_SameP => Some (CSame (fun q => q_p q =? q_o q))
             | PO_Given a => gc PosO a
             end ;;
        g <- match cq_graph c with
             | PG_Any => Some CAny
             | PG_SameS => Some (CSame (fun q => is_graph (q_s q) (q_g q)))
             | PG_SameP => Some (CSame (fun q => is_graph (q_p q) (q_g q)))
             | PG_SameO => Some (CSame (fun q => is_graph (q_o q) (q_g q)))
             | PG_Given (Some a) => gc PosG a
             | PG_Given None => Some (CFixed (id_dg d))
             end ;;
        Some (PM s p o g 0).

      Definition shaped (c : constraint (quad nat)) (k : check (quad lab)) : Prop :=
        cexact c (fun q => passes (tag q) k) /\
        match k with
        | Unchecked => c = CAny | Equal _ => exists f, c = CSame f | Among _ => fixed d c
        end.

      Lemma pm_made_spec c :
        exists cs cp co cg, pm_made c = Some (PM cs cp co cg 0) /\
          (match cq_subject c with
           | PS_Any => cs = CAny
           | PS_Given a => cexact cs (at_label E PosS a) /\ fixed d cs
           end) /\
          shaped cp (pchk (cmp:=label_cmp cmp) E (cq_predicate c)) /\
          shaped co (ochk (cmp:=label_cmp cmp) E (cq_object c)) /\
          shaped cg (gchk (cmp:=label_cmp cmp) E (cq_graph c)).
      Proof.
        unfold pm_made.
        assert (exists cs, match cq_subject c with PS_Any => Some CAny | PS_Given a => gc PosS a end = Some cs /\
                  match cq_subject c with
                  | PS_Any => cs = CAny
                  | PS_Given a => cexact cs (at_label E PosS a) /\ fixed d cs
                  end) as (cs & -> & Hs).
        { destruct (cq_subject c) as [|a]; [eauto|]; destruct (G PosS a) as (cs & Ec & H); eauto. }
        cbn [bind]; exists cs.
        match goal with |- context [bind ?t _] =>
          assert (exists cp, t = Some cp /\ shaped cp (pchk (cmp:=label_cmp cmp) E (cq_predicate c))) as (cp & -> & Hp)
        end.
        { destruct (cq_predicate c) as [| |a]; cbn [pchk].
          - exists CAny; split; [reflexivity|]; split; [apply cexact_any|reflexivity].
          - eexists; split; [reflexivity|]; split; [|cbn; eauto].
            apply (same_exact PosS PosP (fun T => q_s) (fun T => q_p)); reflexivity.
          - destruct (G PosP a) as (cp & Ec & H1 & H2); exists cp; split; [exact Ec|]; split; [exact H1|exact H2]. }
        cbn [bind]; exists cp.
        match goal with |- context [bind ?t _] =>
          assert (exists co, t = Some co /\ shaped co (ochk (cmp:=label_cmp cmp) E (cq_object c))) as (co & -> & Ho)
        end.
        { destruct (cq_object c) as [| | |a]; cbn [ochk].
          - exists CAny; split; [reflexivity|]; split; [apply cexact_any|reflexivity].
          - eexists; split; [reflexivity|]; split; [|cbn; eauto].
            apply (same_exact PosS PosO (fun T => q_s) (fun T => q_o)); reflexivity.
          - eexists; split; [reflexivity|]; split; [|cbn; eauto].
            apply (same_exact PosP PosO (fun T => q_p) (fun T => q_o)); reflexivity.
          - destruct (G PosO a) as (co & Ec & H1 & H2); exists co; split; [exact Ec|]; split; [exact H1|exact H2]. }
        cbn [bind]; exists co.
        match goal with |- context [bind ?t _] =>
          assert (exists cg, t = Some cg /\ shaped cg (gchk (cmp:=label_cmp cmp) E (cq_graph c))) as (cg & -> & Hg)
        end.
        { destruct (cq_graph c) as [| | | |[a|]]; cbn [gchk].
          - exists CAny; split; [reflexivity|]; split; [apply cexact_any|reflexivity].
          - eexists; split; [reflexivity|]; split; [|cbn; eauto].
            apply (graph_same_exact PosS (fun T => q_s)); reflexivity.
          - eexists; split; [reflexivity|]; split; [|cbn; eauto].
            apply (graph_same_exact PosP (fun T => q_p)); reflexivity.
          - eexists; split; [reflexivity|]; split; [|cbn; eauto].
            apply (graph_same_exact PosO (fun T => q_o)); reflexivity.
          - destruct (G PosG a) as (cg & Ec & H1 & H2); exists cg; split; [exact Ec|]; split; [exact H1|exact H2].
          - destruct default_exact as [H1 H2]; eexists; split; [reflexivity|]; split; [exact H1|exact H2]. }
        cbn [bind]; exists cg; auto.
      Qed.

      Lemma shaped_link c k : shaped c k -> clink d s 0 c (pull tag k).
      Proof. intros [H1 H2]; now apply cexact_link. Qed.

      Lemma bare_tag q : bare (tag q) = q.
      Proof.
        destruct q as [a b c [g|]]; unfold label_quad, bare; cbn [q_s q_p q_o q_g option_map];
          unfold label; repeat destruct (find _ _) as [[? [? ?]]|]; reflexivity.
      Qed.

      Lemma made_answer c m cap r :
        pm_made c = Some m -> length s <= cap -> trace cap (id_quads d) m r ->
        (forall i x, In (i, x) r -> msat m i x) ->
        (pm_s m <> CAny -> forall i x, sget (id_quads d) i = Some x -> msat m i x -> In (i, x) r) ->
        mapM (fun e => wr d (snd e)) r =
          Some (map bare (query (label_cmp cmp) E c (map (option_map tag) s))).
      Proof.
        intros Em Hcap T S C.
        destruct (pm_made_spec c) as (cs & cp & co & cg & Em' & Hs & Hp & Ho & Hg).
        rewrite Em in Em'; inv Em'.
        assert (Hv : forall i x, sget (id_quads d) i = Some x -> exists q, wr d x = Some q).
        { intros i x Hx; destruct (id_live_value _ _ _ _ _ I Hx) as (q & Hq & _); eauto. }
        assert (Ek : cq_checks (label_cmp cmp) E c =
                  [pchk (cmp:=label_cmp cmp) E (cq_predicate c); ochk (cmp:=label_cmp cmp) E (cq_object c);
                   gchk (cmp:=label_cmp cmp) E (cq_graph c)]) by apply checks_parts.
        unfold query; rewrite Ek.
        assert (Hsub : match c with CQ_AnyS _ => cq_subject c = PS_Any | CQ_GivenS a _ => cq_subject c = PS_Given a end)
          by (destruct c; reflexivity).
        destruct c as [c|a c].
        - rewrite Hsub in Hs; subst cs.
          rewrite (pull_scan tag bare bare_tag); cbn [option_map map].
          apply shaped_link in Hp; apply shaped_link in Ho; apply shaped_link in Hg.
          exact (trace_scan d s Hat _ _ _ _ _ _ Hcap Hv T (conj eq_refl (conj Hp (conj Ho Hg)))).
        - rewrite Hsub in Hs; destruct Hs as [Hs Fs].
          rewrite pull_present, (pull_filter tag bare bare_tag).
          destruct (mapM_total (fun e => wr d (snd e)) r) as (l & El).
          { intros [i x] Hi; apply (trace_live _ _ _ _ T) in Hi as [_ Hx].
            destruct (Hv _ _ Hx) as (q & Hq); cbn; congruence. }
          rewrite El; f_equal.
          set (t := fun q => E a (q_s (tag q)) && forallb (passes (tag q))
                      [pchk (cmp:=label_cmp cmp) E (cq_predicate (CQ_GivenS a c));
                       ochk (cmp:=label_cmp cmp) E (cq_object (CQ_GivenS a c));
                       gchk (cmp:=label_cmp cmp) E (cq_graph (CQ_GivenS a c))]).
          assert (M : forall i x q, sget (id_quads d) i = Some x -> wr d x = Some q ->
                    (msat (PM cs cp co cg 0) i x <-> t q = true)).
          { intros i x q Hx Hq; unfold msat, t; cbn [pm_s pm_p pm_o pm_g forallb].
            rewrite (proj2 Hs i x q Hx Hq), (proj2 (proj1 Hp) i x q Hx Hq), (proj2 (proj1 Ho) i x q Hx Hq),
              (proj2 (proj1 Hg) i x q Hx Hq), !andb_true_iff; cbn [comp]; tauto. }
          change (l = filter t (present s)).
          apply (trace_filter L d s Hat ks vs cap _ r l (fun q => t q = true) t I T El); [|reflexivity].
          intros q; split.
          + intros Hq; apply (mapM_in _ _ _ _ El) in Hq as ([i x] & Hi & Hq); cbn in Hq.
            pose proof (proj2 (trace_live _ _ _ _ T) _ _ Hi) as [_ Hx]; split.
            * exists i; rewrite <- Hat; unfold i_quad_at; now rewrite Hx.
            * apply (M i x q Hx Hq), S, Hi.
          + intros ((i & Hi) & Ht); apply (mapM_in _ _ _ _ El).
            rewrite <- Hat in Hi; unfold i_quad_at in Hi.
            destruct (sget (id_quads d) i) as [x|] eqn:Ex; [|discriminate].
            exists (i, x); split; [|exact Hi]; apply C; [apply Fs|exact Ex|now apply (M i x q Ex Hi)].
      Qed.
    End Iterator.
  End Walk.

  Lemma pm_new_made (d : @idataset R) c :
    pm_new cmp d c = pm_made d (given_constraint cmp (id_resources d) (id_ri d)) c.
  Proof.
    unfold pm_new, pm_made.
    destruct (cq_subject c), (cq_predicate c), (cq_object c), (cq_graph c) as [| | | |[]]; reflexivity.
  Qed.

  Lemma pm_new_multi_made (d : @idataset R) c :
    pm_new_multi cmp d c = pm_made d (multi_constraint cmp (id_resources d) (id_ri d)) c.
  Proof. unfold pm_new_multi, pm_made; rewrite into_parts_accessors; reflexivity. Qed.

  Lemma kept_trace d S st spare m anys N P :
    id_rep (cmp:=cmp) d S -> id_kept d st -> mspec d m anys N P ->
    exists r, trace (capacity d spare) (id_quads d) m r /\ length r <= capacity d spare /\
      length (fst st) <= capacity d spare /\ (forall i x, In (i, x) r -> msat m i x) /\
      (pm_s m <> CAny -> forall i x, sget (id_quads d) i = Some x -> msat m i x -> In (i, x) r).
  Proof.
    intros [_ (vs & I)] (K1 & _ & _) (M & Z & _ & _).
    destruct (trace_exists (capacity d spare) (id_quads d) (ii_wf _ _ _ I)) with (n := capacity d spare) (m := m)
      as (r & T & Hl & S1 & C); [unfold capacity; lia|assumption|lia|].
    exists r; split; [exact T|]; split; [exact Hl|]; split; [unfold capacity; lia|]; split; [exact S1|].
    intros Hn i x Hx Hm; apply C; [contradiction|lia|exact Hx|exact Hm].
  Qed.

  Lemma id_pattern_sight d S st log spare c :
    id_rep (cmp:=cmp) d S -> id_kept d st ->
    (forall r, follow d r (account qcmp cmp quad_comps r log)) ->
    id_pattern_matching cmp d spare c = Some (sight cmp keep log c (fst st)).
  Proof.
    intros Hr K F; pose proof Hr as [_ (vs & I)]; unfold id_pattern_matching.
    destruct (pm_new_spec L _ _ _ c I) as (m & Em & M); rewrite Em; cbn [bind].
    destruct (kept_trace _ _ _ spare _ _ _ _ Hr K M) as (r & T & Hl & Hc & S1 & C).
    rewrite (pm_collect_trace _ _ _ _ T) by lia; rewrite pm_new_made in Em.
    exact (made_answer d (fst st) (proj2 (proj2 K)) _ vs I log F (finds cmp) _
             (given_exact d _ vs I log F) c m _ r Em Hc T S1 C).
  Qed.

  Lemma id_multi_sight d S st log spare c :
    id_rep (cmp:=cmp) d S -> id_kept d st ->
    (forall r, follow d r (account qcmp cmp quad_comps r log)) ->
    id_multi_pattern_matching cmp d spare c = Some (multi_sight cmp keep log c (fst st)).
  Proof.
    intros Hr K F; pose proof Hr as [_ (vs & I)]; unfold id_multi_pattern_matching.
    destruct (pm_new_multi_spec L _ _ _ c I) as (m & Em & M); rewrite Em; cbn [bind].
    destruct (kept_trace _ _ _ spare _ _ _ _ Hr K M) as (r & T & Hl & Hc & S1 & C).
    rewrite (pm_collect_trace _ _ _ _ T) by lia; rewrite pm_new_multi_made in Em.
    exact (made_answer d (fst st) (proj2 (proj2 K)) _ vs I log F (finds_one cmp) _
             (multi_exact d _ vs I log F) c m _ r Em Hc T S1 C).
  Qed.

  (** ** Histories *)
  Lemma reached_follow ops0 ops xs d :
    id_reached cmp keep ops0 ops xs d ->
    forall r, follow d r (account qcmp cmp quad_comps r (full_log cmp ops0 ops xs)).
  Proof.
    intros (xs0 & b & d0 & Eb & E0 & E) r.
    destruct (start_spec L keep _ _ _ Eb) as (d0' & E0' & H0); rewrite E0 in E0'; inv E0'.
    unfold account, full_log; rewrite fold_left_app.
    exact (i_follow_run L keep r _ _ _ _ _ _ _ _ _ H0 (i_follow_start L keep r _ _ _ _ Eb E0) E).
  Qed.

  Lemma id_sights ops0 ops xs d :
    id_reached cmp keep ops0 ops xs d ->
    let s := places_after cmp ops0 ops xs in
    let l := full_log cmp ops0 ops xs in
    (forall spare c, id_pattern_matching cmp d spare c = Some (sight cmp keep l c s)) /\
    (forall spare c, id_multi_pattern_matching cmp d spare c = Some (multi_sight cmp keep l c s)) /\
    (forall spare c n, exists d', id_extract cmp d spare c n = Some (firstn n (sight cmp keep l c s), d')).
  Proof.
    intros H s l.
    pose proof (reached_rep L keep _ _ _ _ H) as Hr.
    pose proof (reached_follow _ _ _ _ H) as F.
    pose proof (reached_kept L keep _ _ _ _ H) as K.
    split; [|split].
    - intros spare c; exact (id_pattern_sight _ _ _ _ spare c Hr K F).
    - intros spare c; exact (id_multi_sight _ _ _ _ spare c Hr K F).
    - intros spare c n.
      destruct (reached_state L keep _ _ _ _ H) as [Hs _].
      destruct (id_extract_found L _ _ _ _ _ spare c n Hs) as (qs & d' & E & _ & E' & _).
      rewrite (id_pattern_sight _ _ _ _ spare c Hr K F) in E; inv E; eauto.
  Qed.

  Lemma bare_scan log ks s : map bare (scan None ks (map (option_map (label_quad cmp keep log)) s)) =
    scan None (map (pull (label_quad cmp keep log)) ks) s.
  Proof. exact (pull_scan _ bare (bare_tag log) ks s None). Qed.

  Lemma id_all_wildcards ops0 ops xs d :
    id_reached cmp keep ops0 ops xs d ->
    forall spare, id_pattern_matching cmp d spare (CQ_AnyS (QA_AnyP (QAA_Any QAAA_Any))) =
      Some (up_to_vacant (places_after cmp ops0 ops xs)).
  Proof.
    intros H spare; rewrite (proj1 (id_sights _ _ _ _ H)); f_equal.
    unfold sight, query; rewrite bare_scan; apply scan_unchecked.
  Qed.

  Lemma id_subject ops0 ops xs d :
    id_reached cmp keep ops0 ops xs d ->
    let l := full_log cmp ops0 ops xs in
    forall spare a, id_pattern_matching cmp d spare (CQ_GivenS a (QG_AnyP (QGA_Any QGAA_Any))) =
      Some (filter (fun q => finds cmp a (label qcmp cmp quad_comps keep l q 0 (q_s q)))
                   (present (places_after cmp ops0 ops xs))).
  Proof.
    intros H l spare a; rewrite (proj1 (id_sights _ _ _ _ H)); f_equal; fold l.
    unfold sight, query; rewrite pull_present, (pull_filter _ bare (bare_tag l)).
    apply filter_ext; intros q; cbn; apply andb_true_r.
  Qed.

  (** ** Graphs *)
  Notation tcmp := (triple_cmp cmp).

  Lemma query_iq {A S} (scmp : S -> S -> comparison) (E : A -> S -> bool) c s :
    query scmp E (anyg c) (map (option_map iq) s) = map iq (triple_query scmp E c s).
  Proof.
    destruct c as [[[]|[]|p []]|a [[]|p []]]; unfold query, triple_query; cbn [anyg taa_q tag_q tga_q tgg_q ct_checks];
      unfold cq_checks, qaa_checks, qag_checks, qga_checks, qgg_checks;
      cbn [qaaa_check qaag_check qaga_check qagg_check qgaa_check qgag_check qgga_check qggg_check];
      try (apply scan_iq; [exact I || (intros []; reflexivity)|exact I || (intros []; reflexivity)|exact I]).
    all: rewrite present_iq; apply filter_iq; intros []; reflexivity.
  Qed.

  Lemma label_iq log t i r :
    label qcmp cmp quad_comps keep (map ic log) (iq t) i r =
    label tcmp cmp triple_comps keep log t i r.
  Proof.
    unfold label, account; change (ledger_new (X:=quad R)) with (ledger_iq (R:=R) ledger_new).
    rewrite account_iq; set (a := fold_left _ log _); unfold ledger_iq; cbn [filed reported number].
    assert (E : find (fun m => same qcmp (iq t) (fst m)) (map (fun m => (iq (fst m), snd m)) (filed a)) =
                option_map (fun m => (iq (fst m), snd m)) (find (fun m => same tcmp t (fst m)) (filed a))).
    { induction (filed a) as [|m l IH]; [reflexivity|]; cbn; rewrite same_iq.
      destruct (same tcmp t (fst m)); [reflexivity|exact IH]. }
    rewrite E; destruct (find _ (filed a)) as [[u [n b]]|]; reflexivity.
  Qed.

  Lemma sight_iq log c s :
    sight cmp keep (map ic log) (anyg c) (map (option_map iq) s) =
    map iq (triple_sight cmp keep log c s).
  Proof.
    unfold sight, triple_sight.
    assert (E : map (option_map (label_quad cmp keep (map ic log))) (map (option_map iq) s) =
                map (option_map iq) (map (option_map (label_triple cmp keep log)) s)).
    { rewrite !map_map; apply map_ext; intros [t|]; [|reflexivity]; cbn; f_equal.
      unfold label_quad; cbn [q_s q_p q_o q_g iq option_map].
      change (label_triple cmp keep log t) with
        (Triple (label tcmp cmp triple_comps keep log t 0 (t_s t)) (label tcmp cmp triple_comps keep log t 1 (t_p t))
                (label tcmp cmp triple_comps keep log t 2 (t_o t))).
      rewrite <- !label_iq; reflexivity. }
    rewrite E, query_iq, !map_map; reflexivity.
  Qed.

  Lemma late_iq ops : forall s xs, length xs = length ops ->
    log cmp (map iq s) (map (fun o => IOp (qop o)) ops) xs = map ic (set_log tcmp s ops).
  Proof.
    induction ops as [|o ops IH]; intros s [|x xs] H; cbn [map log set_log]; try discriminate; [reflexivity|].
    cbn [changes]; rewrite set_changes_iq, apply_iq, map_app; f_equal.
    rewrite (apply_set_changes (triple_cmp_laws cmp L)); apply IH; now inv H.
  Qed.

  Lemma full_iq ops0 ops xs : length xs = length ops ->
    full_log cmp (map qop ops0) (map (fun o => IOp (qop o)) ops) xs =
    map ic (set_log tcmp [] (ops0 ++ ops)).
  Proof.
    intros H; unfold full_log, late_log.
    pose proof (set_log_iq (cmp:=cmp) ops0 []) as El; cbn [map] in El; rewrite El.
    rewrite set_log_app, map_app; f_equal.
    rewrite <- (late_iq _ _ xs H); f_equal.
    exact (spec_run_iq (cmp:=cmp) ops0 []).
  Qed.

  Lemma ig_sight ops0 ops g :
    ig_reached cmp keep ops0 ops g ->
    forall spare c,
    ig_pattern_matching cmp g spare c =
    Some (triple_sight cmp keep (set_log tcmp [] (ops0 ++ ops)) c (fst (place_ops tcmp (ops0 ++ ops)))).
  Proof.
    intros H spare c; destruct (ig_as_dataset L keep _ _ _ H) as (xs & dg & Hd).
    pose proof (reached_rep L keep _ _ _ _ Hd) as Hr.
    pose proof (reached_follow _ _ _ _ Hd) as F.
    pose proof (reached_kept L keep _ _ _ _ Hd) as K.
    pose proof (id_pattern_sight _ _ _ _ spare (anyg c) Hr K F) as E.
    assert (Hlen : length xs = length ops).
    { destruct Hd as (xs0 & b & d0 & _ & _ & Hrun); apply run_length in Hrun; now rewrite map_length in Hrun. }
    rewrite iemb_pattern in E; apply option_map_some in E as (l & -> & E); f_equal.
    apply map_iq_inj; rewrite E, <- sight_iq, (full_iq _ _ _ Hlen); f_equal.
    unfold place_ops at 1; change (@nil (option (quad R)), @nil nat) with (qpl (R:=R) ([], [])).
    rewrite places_iq, place_run_iq by exact Hlen.
    unfold place_ops; now rewrite fold_left_app.
  Qed.

  Lemma ig_all_wildcards ops0 ops g :
    ig_reached cmp keep ops0 ops g ->
    forall spare, ig_pattern_matching cmp g spare (CT_AnyS (TA_AnyP TAA_Any)) =
      Some (up_to_vacant (fst (place_ops tcmp (ops0 ++ ops)))).
  Proof.
    intros H spare; rewrite (ig_sight _ _ _ H); f_equal; unfold triple_sight, triple_query; cbn [ct_checks].
    generalize (fst (place_ops tcmp (ops0 ++ ops))) (set_log tcmp [] (ops0 ++ ops)); intros s l.
    assert (E : forall t, bare_triple (label_triple cmp keep l t) = t).
    { intros [a b c]; unfold label_triple, bare_triple; cbn [t_s t_p t_o]; unfold label.
      repeat destruct (find _ _) as [[? [? ?]]|]; reflexivity. }
    rewrite (pull_scan _ bare_triple E); apply scan_unchecked2.
  Qed.
End Proofs.
