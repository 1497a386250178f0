(** What can be read from an indexed container after comparisons have panicked. *)
From Coq Require Import List Bool Arith Lia Permutation Sorted.
Import ListNotations.
From Verif Require Import Base SlabModel TripleModel SetSpec ContainerSpec BaseProofs
  TriplePatternModel QuadPatternModel BResourceModel BTreeDatasetModel BTreeDatasetProofs IResourceModel IResourceProofs
  IndexedDatasetModel IndexedDatasetProofs CrashModel CrashSpec ICrashSpec BCrashProofs ICrashModel ICrashProofs.

(** ** The iterators of the queries always end *)
Lemma drop_lt_le i l j r : drop_lt i l = j :: r -> i <= j.
Proof.
  induction l as [|x l IH]; [discriminate|]; cbn [drop_lt]; destruct (x <? i) eqn:E; [exact IH|].
  intros H; inv H; now apply Nat.ltb_ge in E.
Qed.

Lemma s_next_le {Q} (c : constraint Q) i k c' : s_next c i = (Some k, c') -> i <= k.
Proof.
  destruct c as [| |t|l]; cbn; intros H; inv H; [auto|].
  destruct (drop_lt i l) as [|j r] eqn:E; inv H1; now apply drop_lt_le in E.
Qed.

Lemma c_next_lt {Q} (c : constraint Q) i q j c' : c_next c i q = (NErr (Some j), c') -> i < j.
Proof.
  destruct c as [| |t|l]; cbn; intros H; [discriminate|discriminate| |].
  - destruct (t q); inv H; lia.
  - destruct (drop_lt i l) as [|k r] eqn:E; [inv H|]; apply drop_lt_le in E.
    destruct (k =? i) eqn:Ek; inv H; apply Nat.eqb_neq in Ek; lia.
Qed.

Lemma pm_next_ends qs cap fuel : forall m,
  cap - pm_i m < fuel ->
  exists r, pm_next fuel cap qs m = Some r /\
    match r with
    | None => True
    | Some (i, q, m') => sget qs i = Some q /\ pm_i m <= i /\ pm_i m' = S i
    end.
Proof.
  induction fuel as [|fuel IH]; intros m Hf; [lia|]; cbn [pm_next].
  destruct (pm_i m <? cap) eqn:Ec; [|now exists None]; apply Nat.ltb_lt in Ec.
  destruct (s_next (pm_s m) (pm_i m)) as [[i|] cs] eqn:Es; [|now exists None].
  apply s_next_le in Es; destruct (sget qs i) as [q|] eqn:Eq; [|now exists None].
  assert (Next : forall a b c d j, i < j -> exists r, pm_next fuel cap qs (PM a b c d j) = Some r /\
            match r with None => True
            | Some (i, q, m') => sget qs i = Some q /\ pm_i m <= i /\ pm_i m' = S i end).
  { intros a b c d j Hj; destruct (IH (PM a b c d j)) as (r & Hr & Hs); [cbn; lia|].
    exists r; split; [exact Hr|]; destruct r as [[[i' q'] m']|]; [|exact Logic.I]; cbn in Hs.
    destruct Hs as (A & B & C); repeat split; auto; lia. }
  destruct (c_next (pm_p m) i q) as [[|[j|]] cp] eqn:Ep; [|apply c_next_lt in Ep; now apply Next|now exists None].
  destruct (c_next (pm_o m) i q) as [[|[j|]] co] eqn:Eo; [|apply c_next_lt in Eo; now apply Next|now exists None].
  destruct (c_next (pm_g m) i q) as [[|[j|]] cg] eqn:Eg; [|apply c_next_lt in Eg; now apply Next|now exists None].
  eexists; split; [reflexivity|]; cbn; auto.
Qed.

Section Reads.
  Context {R : Type} {cmp : R -> R -> comparison} (L : ord_laws cmp).
  Notation qcmp := (quad_cmp cmp).
  Notation wrep := (wid_rep (cmp:=cmp) True).

  Lemma pm_collect_ends cap d : length (ents (id_quads d)) <= cap ->
    (forall i q, sget (id_quads d) i = Some q ->
       exists x, i_quad_with_resources (R:=R) (id_resources d) q = Some x) ->
    forall fuel m, cap - pm_i m < fuel ->
    exists l idx, pm_collect fuel cap d m = Some l /\
      mapM (i_quad_at (id_resources d) (id_quads d)) idx = Some l /\
      NoDup idx /\ forall i, In i idx -> pm_i m <= i /\ sget (id_quads d) i <> None.
  Proof.
    intros Hc Hq; induction fuel as [|fuel IH]; intros m Hf; [lia|]; cbn [pm_collect].
    destruct (pm_next_ends (id_quads d) cap (S cap) m) as (r & -> & Hr); [lia|]; cbn [bind].
    destruct r as [[[i q] m']|].
    2: { exists [], []; split; [reflexivity|]; split; [reflexivity|]; split; [constructor|intros i []]. }
    destruct Hr as (Hs & Hi & Hm).
    destruct (Hq _ _ Hs) as (x & Hx); rewrite Hx; cbn [bind].
    assert (i < cap).
    { unfold sget in Hs; destruct (nth_error (ents (id_quads d)) i) eqn:E; [|discriminate].
      assert (i < length (ents (id_quads d))) by (apply nth_error_Some; congruence); lia. }
    destruct (IH m') as (l & idx & -> & A & B & C); [lia|].
    exists (x :: l), (i :: idx); split; [reflexivity|]; split; [|split].
    - cbn [mapM]; unfold i_quad_at at 1; rewrite Hs; cbn [bind]; rewrite Hx; cbn [bind]; rewrite A; reflexivity.
    - constructor; [|exact B]; intros Hin; apply C in Hin; lia.
    - intros j [<-|Hj]; [split; [exact Hi|congruence]|].
      destruct (C j Hj) as [D E]; split; [lia|exact E].
  Qed.

  Lemma wid_quads (d : @idataset R) s lost i q :
    wrep d s lost -> sget (id_quads d) i = Some q ->
    exists x, i_quad_with_resources (id_resources d) q = Some x.
  Proof.
    intros [_ W] Hq; pose proof (wid_res _ _ _ _ W) as WR.
    assert (U : forall p r, slot p q = Some r -> exists v, ir_val (id_resources d) r = Some v).
    { intros p r Hr; destruct (wii_use _ _ _ WR p r i) as (x & Hx & _).
      - split; [exists q; auto|auto].
      - exists (ir_value x); unfold ir_val; now rewrite Hx. }
    destruct (U PosS _ eq_refl) as (a & Ha), (U PosP _ eq_refl) as (b & Hb), (U PosO _ eq_refl) as (c & Hc).
    unfold i_quad_with_resources; rewrite Ha, Hb, Hc; cbn.
    destruct (q_g q) as [g|] eqn:Eg; [|now eexists].
    destruct (U PosG g Eg) as (e & He); rewrite He; now eexists.
  Qed.

  Section Rep.
    Context (F : Prop) (d : @idataset R) (s lost : list (quad R))
            (W : wid_rep (cmp:=cmp) F d s lost).

    Lemma wid_get v : exists r, i_index_of_resource cmp (id_resources d) (id_ri d) v = Some r.
    Proof.
      destruct W as [_ Wi]; destruct (wii_idx _ _ _ (wid_res _ _ _ _ Wi)) as (vs & HV).
      destruct (bt_get_spec L _ _ _ v HV) as (r & Hr & _); exists r; exact Hr.
    Qed.

    Lemma wid_get_resource v : exists r, i_get_resource cmp (id_resources d) (id_ri d) v = Some r.
    Proof. unfold i_get_resource; destruct (wid_get v) as ([k|] & ->); cbn; now eexists. Qed.

    Lemma wid_given {Q} p v : exists c : constraint Q,
      given_constraint cmp (id_resources d) (id_ri d) p v = Some c.
    Proof. unfold given_constraint; destruct (wid_get_resource v) as (r & ->); now eexists. Qed.

    Lemma wid_pm_new c : exists m, pm_new cmp d c = Some m /\ pm_i m = 0.
    Proof.
      unfold pm_new.
      assert (S : exists x, s_constraint (Q:=quad nat) cmp (id_resources d) (id_ri d) (cq_subject c) = Some x).
      { destruct (cq_subject c) as [|v]; cbn; [now eexists|]; destruct (wid_get_resource v) as (r & ->); now eexists. }
      destruct S as (x1 & ->); cbn.
      assert (P : exists x, p_constraint cmp d (cq_predicate c) = Some x)
        by (destruct (cq_predicate c); cbn; try (now eexists); apply wid_given).
      destruct P as (x2 & ->); cbn.
      assert (O : exists x, o_constraint cmp d (cq_object c) = Some x)
        by (destruct (cq_object c); cbn; try (now eexists); apply wid_given).
      destruct O as (x3 & ->); cbn.
      assert (G : exists x, g_constraint cmp d (cq_graph c) = Some x)
        by (destruct (cq_graph c) as [| | | |[v|]]; cbn; try (now eexists); apply wid_given).
      destruct G as (x4 & ->); cbn; now eexists.
    Qed.

    Lemma wid_multi {Q} p l : exists c : constraint Q,
      multi_constraint cmp (id_resources d) (id_ri d) p l = Some c.
    Proof.
      unfold multi_constraint.
      assert (M : exists m, multi_indexes cmp (id_resources d) (id_ri d) p l = Some m).
      { induction l as [|v l [m IH]]; cbn; [now eexists|].
        destruct (wid_get_resource v) as (r & ->); cbn; rewrite IH; now eexists. }
      destruct M as (m & ->); now eexists.
    Qed.

    Lemma wid_pm_new_multi c : exists m, pm_new_multi cmp d c = Some m /\ pm_i m = 0.
    Proof.
      unfold pm_new_multi; destruct (cq_into_parts c) as [[[ps pp] po] pg].
      match goal with |- exists m, bind ?x _ = _ /\ _ => assert (S : exists y, x = Some y)
        by (destruct ps; [now eexists|apply wid_multi]) end.
      destruct S as (x1 & ->); cbn [bind].
      match goal with |- exists m, bind ?x _ = _ /\ _ => assert (P : exists y, x = Some y)
        by (destruct pp; try (now eexists); apply wid_multi) end.
      destruct P as (x2 & ->); cbn [bind].
      match goal with |- exists m, bind ?x _ = _ /\ _ => assert (O : exists y, x = Some y)
        by (destruct po; try (now eexists); apply wid_multi) end.
      destruct O as (x3 & ->); cbn [bind].
      match goal with |- exists m, bind ?x _ = _ /\ _ => assert (G : exists y, x = Some y)
        by (destruct pg as [| | | |[v|]]; try (now eexists); apply wid_multi) end.
      destruct G as (x4 & ->); cbn [bind]; now eexists.
    Qed.

    Lemma wid_reads :
      id_len d = length s + length lost /\ id_iter d = Some (sorted_elements qcmp s) /\
      exists vs, id_resources_iter d = Some vs /\ increasing cmp vs /\
        forall v, id_contains_resource cmp d v = Some (mem cmp v vs).
    Proof.
      split; [exact (id_length_rep L F _ _ _ W)|].
      destruct W as [ND Wi]; split; [apply (wid_idx _ _ _ _ Wi)|].
      destruct (wii_idx _ _ _ (wid_res _ _ _ _ Wi)) as (vs & HV); exists vs.
      split; [apply HV|]; split; [apply HV|].
      intros v; unfold id_contains_resource, i_index_of_resource.
      change (i_resource_cmp cmp (id_resources d)) with (kcmp (cmpk:=cmp) (ir_val (id_resources d))).
      destruct (bt_get_spec L _ _ _ v HV) as (r & -> & Hr); cbn; f_equal.
      destruct r; cbn; symmetry; [apply (mem_true L); tauto|now apply (mem_false L)].
    Qed.
  End Rep.

  Lemma nodup_among {X} (a : list X) : forall b, NoDup a -> (forall x, In x a -> In x b) -> among a b.
  Proof.
    induction a as [|x a IH]; intros b Na H; [exists b; reflexivity|].
    inv Na; destruct (in_split x b) as (b1 & b2 & ->); [apply H; now left|].
    destruct (IH (b1 ++ b2)) as (rest & P); [assumption| |].
    - intros y Hy; assert (H' : In y (b1 ++ x :: b2)) by (apply H; now right).
      apply in_app_or in H' as [H'|[->|H']]; [| contradiction |]; apply in_or_app; auto.
    - exists rest; cbn; rewrite P; apply Permutation_middle.
  Qed.

  Lemma mapM_among {A B} (f : A -> option B) a b ra rb :
    among a b -> mapM f a = Some ra -> mapM f b = Some rb -> among ra rb.
  Proof.
    intros (rest & P) Ha Hb.
    assert (E : exists r, mapM f (a ++ rest) = Some r /\ Permutation r rb).
    { revert rb Hb; induction P as [|x l m P IH|x y l|l m n P1 IH1 P2 IH2]; intros rb Hb.
      - exists rb; auto.
      - cbn in *; destruct (f x); [|discriminate]; cbn in *; destruct (mapM f m); [|discriminate].
        destruct (IH _ eq_refl) as (r & -> & Pr); inv Hb; eexists; split; [reflexivity|now constructor].
      - cbn in *; destruct (f x), (f y); try discriminate; cbn in *.
        destruct (mapM f l); [|discriminate]; inv Hb; eexists; split; [reflexivity|constructor].
      - destruct (IH2 _ Hb) as (r & Er & Pr), (IH1 _ Er) as (r' & Er' & Pr').
        exists r'; split; [exact Er'|]; now rewrite Pr'. }
    destruct E as (r & Er & Pr); revert r Er Pr.
    assert (S : forall l ra, mapM f l = Some ra -> forall r, mapM f (l ++ rest) = Some r -> exists r2, r = ra ++ r2).
    { clear; induction l as [|x l IH]; intros ra Ha r Er; cbn in *.
      - inv Ha; exists r; reflexivity.
      - destruct (f x); [|discriminate]; cbn in *; destruct (mapM f l); [|discriminate].
        destruct (mapM f (l ++ rest)) as [r'|]; [|discriminate]; inv Ha; inv Er.
        destruct (IH _ eq_refl _ eq_refl) as (r2 & ->); exists r2; reflexivity. }
    intros r Er Pr; destruct (S a ra Ha r Er) as (r2 & ->); exists r2; exact Pr.
  Qed.

  (** The quads of the slab are those of the set and the losses. *)
  Lemma wid_slots (d : @idataset R) s lost :
    wrep d s lost -> exists idx all,
      (forall i, In i idx <-> sget (id_quads d) i <> None) /\
      mapM (i_quad_at (id_resources d) (id_quads d)) idx = Some all /\ Permutation all (s ++ lost).
  Proof.
    intros [ND W]; destruct (wid_ghosts _ _ _ _ W Logic.I) as (gi & A & B & C).
    exists (id_qi d ++ gi), (sorted_elements qcmp s ++ lost); split; [exact B|]; split.
    - destruct (wid_idx _ _ _ _ W) as [HM _]; revert HM C; clear.
      generalize (sorted_elements qcmp s) as ks; generalize (id_qi d) as qi.
      induction qi as [|i qi IH]; intros ks HM C; cbn in *; [inv HM; exact C|].
      destruct (i_quad_at (id_resources d) (id_quads d) i); [|discriminate]; cbn in *.
      destruct (mapM (i_quad_at (id_resources d) (id_quads d)) qi); [|discriminate]; inv HM.
      rewrite (IH _ eq_refl C); reflexivity.
    - apply Permutation_app_tail, NoDup_Permutation; [|exact ND|intros; apply in_sorted_elements].
      apply (ssorted_nodup (quad_cmp_laws cmp L)), (sorted_elements_sorted (quad_cmp_laws cmp L)), ND.
  Qed.

  Lemma wid_queries (d : @idataset R) s lost :
    wrep d s lost -> id_queries_within cmp d (s ++ lost).
  Proof.
    intros W spare; destruct (wid_slots d s lost W) as (idx & all & HI & HA & HP).
    assert (C : forall m, pm_i m = 0 -> exists l,
              pm_collect (Datatypes.S (capacity d spare)) (capacity d spare) d m = Some l /\
              among l (s ++ lost)).
    { intros m Hm.
      destruct (pm_collect_ends (capacity d spare) d) with (fuel := Datatypes.S (capacity d spare)) (m := m)
        as (l & il & El & A & B & D); [unfold capacity; lia| |lia|].
      - intros i q Hq; exact (wid_quads d s lost i q W Hq).
      - exists l; split; [exact El|].
        assert (Am : among il idx) by (apply nodup_among; [exact B|]; intros i Hi; apply HI, D, Hi).
        destruct (mapM_among _ _ _ _ _ Am A HA) as (rest & Pr); exists rest; now rewrite Pr. }
    split; [|split].
    - intros c; unfold id_pattern_matching; destruct (wid_pm_new _ d s lost W c) as (m & -> & Hm); now apply C.
    - intros c; unfold id_multi_pattern_matching; destruct (wid_pm_new_multi _ d s lost W c) as (m & -> & Hm); now apply C.
    - assert (V : forall p (at_ : quad R -> R) l,
        (forall x q k, i_quad_with_resources (id_resources d) x = Some q -> slot p x = Some k ->
           ir_val (id_resources d) k = Some (at_ q)) ->
        spo_ok True (id_quads d) p l ->
        exists vs, id_values d l = Some vs /\ forall v, In v vs -> exists q, In q (s ++ lost) /\ at_ q = v).
      { intros p at_ l Hat [_ H]; unfold id_values; specialize (H Logic.I).
        induction l as [|k l IH]; [exists []; split; [reflexivity|intros v []]|].
        destruct IH as (vs & Hvs & Hin); [intros; apply H; now right|].
        destruct (H k (or_introl eq_refl)) as (i & x & Hx & Hk).
        destruct (wid_quads d s lost i x W Hx) as (q & Hq).
        pose proof (Hat x q k Hq Hk) as Hv; exists (at_ q :: vs); split.
        - cbn; rewrite Hv; cbn; rewrite Hvs; reflexivity.
        - intros v [<-|Hv']; [|now apply Hin]; exists q; split; [|reflexivity].
          apply (Permutation_in _ HP).
          destruct (mapM_in_inv _ _ _ i HA) as (q' & Eq' & Hq'); [apply HI; congruence|].
          unfold i_quad_at in Eq'; rewrite Hx in Eq'; cbn in Eq'; congruence. }
      destruct W as [_ Wi]; split; [|split].
      + apply (V PosS q_s); [|exact (wid_s _ _ _ _ Wi)].
        intros x q k Hq Hk; apply iqwr_some in Hq; inv Hk; tauto.
      + apply (V PosP q_p); [|exact (wid_p _ _ _ _ Wi)].
        intros x q k Hq Hk; apply iqwr_some in Hq; inv Hk; tauto.
      + apply (V PosO q_o); [|exact (wid_o _ _ _ _ Wi)].
        intros x q k Hq Hk; apply iqwr_some in Hq; inv Hk; tauto.
  Qed.
End Reads.
