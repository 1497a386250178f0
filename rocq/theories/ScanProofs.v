(** What the queries of the indexed containers find, exactly. *)
From Coq Require Import List Bool Arith Lia Permutation Sorted.
Import ListNotations.
From Verif Require Import Base SlabModel TripleModel TriplePatternModel QuadPatternModel SetSpec
  ContainerSpec PatternSpec IndexedSpec ScanSpec Machine BaseProofs PatternProofs BResourceModel
  BResourceProofs BTreeDatasetModel BTreeDatasetProofs BTreeGraphModel BTreeGraphProofs
  IResourceModel IResourceProofs IndexedDatasetModel IndexedDatasetProofs IndexedHistoryProofs
  IndexedConvertProofs IndexedPatternProofs IndexedRunProofs IndexedGraphModel
  IndexedGraphProofs IndexedGraphRunProofs PlaceProofs.
Open Scope panic_scope.

(** ** Skipping *)
Section Skip.
  Context {X : Type}.

  Lemma pget_cons e (s : list (option X)) i : pget (e :: s) (S i) = pget s i.
  Proof. reflexivity. Qed.

  Lemma pget_skipn (s : list (option X)) n i : pget (skipn n s) i = pget s (n + i).
  Proof.
    unfold pget; f_equal; revert s; induction n as [|n IH]; intros [|e s]; cbn; auto.
    destruct i; reflexivity.
  Qed.

  Lemma skip_none (t : X -> bool) ks s :
    (forall i x, pget s i = Some x -> t x = false) -> scan (Some t) ks s = [].
  Proof.
    induction s as [|[x|] s IH]; intros H; cbn; [reflexivity| |].
    - rewrite (H 0 x eq_refl); apply IH; intros i y Hy; apply (H (S i) y Hy).
    - apply IH; intros i y Hy; apply (H (S i) y Hy).
  Qed.

  Lemma skip_to (t : X -> bool) ks j : forall s x,
    pget s j = Some x -> t x = true -> (forall i y, i < j -> pget s i = Some y -> t y = false) ->
    scan (Some t) ks s = scan None ks (skipn j s).
  Proof.
    induction j as [|j IH]; intros [|e s] x Hx Ht H; try discriminate.
    - destruct e as [y|]; inv Hx; cbn; rewrite Ht; reflexivity.
    - cbn [skipn]; rewrite <- (IH s x Hx Ht).
      + destruct e as [y|]; [|reflexivity]; cbn; rewrite (H 0 y); [reflexivity|lia|reflexivity].
      + intros i y Hi Hy; apply (H (S i) y); [lia|exact Hy].
  Qed.

  Lemma skipn_here (s : list (option X)) i x : pget s i = Some x -> skipn i s = Some x :: skipn (S i) s.
  Proof.
    revert s; induction i as [|i IH]; intros [|e s] H; try discriminate.
    - destruct e; inv H; reflexivity.
    - cbn [skipn] in *; now apply IH.
  Qed.

  Lemma scan_vacant ks (s : list (option X)) i : pget s i = None -> scan None ks (skipn i s) = [].
  Proof.
    intros H; rewrite <- (Nat.add_0_r i), <- pget_skipn in H; destruct (skipn i s) as [|[x|] r];
      [reflexivity|discriminate|reflexivity].
  Qed.

  (** A list of elements in the order of their places. *)
  Lemma filter_places (P : X -> bool) s : forall n (r : list (nat * X)),
    StronglySorted Peano.lt (map fst r) ->
    (forall i x, In (i, x) r <-> n <= i /\ pget s (i - n) = Some x /\ P x = true) ->
    map snd r = filter P (present s).
  Proof.
    induction s as [|e s IH]; intros n r Hs H.
    - destruct r as [|[i x] r]; [reflexivity|].
      destruct (proj1 (H i x) (or_introl eq_refl)) as (_ & Hp & _); unfold pget in Hp.
      destruct (i - n); discriminate.
    - assert (Next : forall i (x : X), S n <= i -> pget (e :: s) (i - n) = pget s (i - S n)).
      { intros i x Hi; replace (i - n) with (S (i - S n)) by lia; apply pget_cons. }
      assert (Here : forall x, In (n, x) r <-> e = Some x /\ P x = true).
      { intros x; rewrite H, Nat.sub_diag; cbn; split.
        - intros (_ & Hp & HP); destruct e; inv Hp; auto.
        - intros [-> HP]; auto. }
      assert (Rest : forall r', StronglySorted Peano.lt (map fst r') ->
                (forall i x, In (i, x) r' <-> In (i, x) r /\ n <> i) ->
                map snd r' = filter P (present s)).
      { intros r' Hs' H'; apply (IH (S n)); [assumption|]; intros i x; rewrite H', H; split.
        - intros ((Hi & Hp & HP) & Hn); rewrite (Next i x) in Hp by lia; repeat split; auto; lia.
        - intros (Hi & Hp & HP); rewrite (Next i x) by lia; repeat split; auto; lia. }
      assert (Skip : (forall x, ~ In (n, x) r) -> map snd r = filter P (present s)).
      { intros Hn; apply Rest; [assumption|]; intros i x; split; [|tauto].
        intros Hi; split; [assumption|]; intros <-; now apply Hn in Hi. }
      destruct e as [x|].
      2: { apply Skip; intros y Hy; apply Here in Hy as [Hy _]; discriminate. }
      change (present (Some x :: s)) with (x :: present s); cbn [filter].
      destruct (P x) eqn:EP.
      2: { apply Skip; intros y Hy; apply Here in Hy as [Hy HP]; congruence. }
      destruct r as [|[i y] r].
      { exfalso; apply (Here x); auto. }
      assert (Hh : In (n, x) ((i, y) :: r)) by (apply Here; auto).
      assert (Hi : n <= i) by (apply (H i y); now left).
      cbn in Hs; apply StronglySorted_inv in Hs as [Hs F]; rewrite Forall_forall in F.
      destruct Hh as [Hh|Hh].
      2: { apply (in_map fst) in Hh; specialize (F _ Hh); cbn in F; lia. }
      inv Hh; cbn [map snd]; f_equal; apply Rest; [assumption|]; intros j z; split.
      + intros Hj; split; [now right|]; intros <-.
        apply (in_map fst) in Hj; specialize (F _ Hj); cbn in F; lia.
      + intros [[Hj|Hj] Hn]; [inv Hj; congruence|assumption].
  Qed.
End Skip.

Section Proofs.
  Context {R : Type} {cmp : R -> R -> comparison} (L : ord_laws cmp).
  Context (keep : bool).
  Notation qcmp := (quad_cmp cmp).
  Let LQ : ord_laws qcmp := quad_cmp_laws cmp L.
  Notation inv_ := (id_inv (cmp:=cmp)).
  Notation wr d := (i_quad_with_resources (R:=R) (id_resources d)).

  Section Walk.
    Context (d : @idataset R) (s : list (option (quad R))).
    Context (Hat : forall i, i_quad_at (id_resources d) (id_quads d) i = pget s i).

    (** The constraint [c] is the check [k], from place [n] on. *)
    Definition clink (n : nat) (c : constraint (quad nat)) (k : check (quad R)) : Prop :=
      match c, k with
      | CAny, Unchecked => True
      | CSame f, Equal t =>
          forall i x q, sget (id_quads d) i = Some x -> wr d x = Some q -> f x = t q
      | CNone, Among t => forall i q, n <= i -> pget s i = Some q -> t q = false
      | CFixed l, Among t =>
          lesorted l /\ forall i, n <= i -> (In i l <-> exists q, pget s i = Some q /\ t q = true)
      | _, _ => False
      end.

    Lemma clink_le n m c k : n <= m -> clink n c k -> clink m c k.
    Proof.
      intros H; destruct c, k; cbn; auto.
      - intros A i q Hi; apply A; lia.
      - intros [A B]; split; [assumption|]; intros i Hi; apply B; lia.
    Qed.

    Lemma c_next_link n c k i x q :
      clink n c k -> n <= i -> sget (id_quads d) i = Some x -> wr d x = Some q ->
      clink i (snd (c_next c i x)) k /\
      match fst (c_next c i x) with
      | NOk => passes q k = true
      | NErr r =>
          passes q k = false /\
          match k with
          | Unchecked => False
          | Equal _ => r = Some (S i)
          | Among t =>
              match r with
              | None => forall j y, i <= j -> pget s j = Some y -> t y = false
              | Some j => i < j /\ (exists y, pget s j = Some y /\ t y = true) /\
                          forall j' y, i <= j' < j -> pget s j' = Some y -> t y = false
              end
          end
      end.
    Proof.
      intros Hl Hi Hx Hq.
      assert (Hp : pget s i = Some q) by (rewrite <- Hat; unfold i_quad_at; now rewrite Hx).
      destruct c as [| |f|l], k as [|t|t]; cbn in Hl |- *; try contradiction.
      - assert (Hl' : forall j y, i <= j -> pget s j = Some y -> t y = false)
          by (intros j y Hj; apply Hl; lia).
        split; [exact Hl'|]; split; [exact (Hl' i q (le_n _) Hp)|exact Hl'].
      - auto.
      - split; [assumption|]; rewrite (Hl _ _ _ Hx Hq); destruct (t q) eqn:Et; auto.
      - destruct Hl as [Hs Hl].
        pose proof (fun j => in_drop_lt i l j Hs) as Hd; pose proof (drop_lt_sorted i l Hs) as Hds.
        assert (Hd' : forall j, i <= j -> In j (drop_lt i l) <-> exists y, pget s j = Some y /\ t y = true).
        { intros j Hj; rewrite Hd, Hl by lia; tauto. }
        split; [split; [assumption|exact Hd']|].
        assert (No : forall j y, i <= j -> ~ In j (drop_lt i l) -> pget s j = Some y -> t y = false).
        { intros j y Hj Hn Hy; destruct (t y) eqn:Et; [|reflexivity]; destruct Hn; apply Hd'; eauto. }
        destruct (drop_lt i l) as [|j r].
        + split; [eapply No; eauto|]; intros; eapply No; eauto.
        + destruct (proj1 (Hd j) (or_introl eq_refl)) as [_ Hij].
          destruct (j =? i) eqn:Ej.
          * apply Nat.eqb_eq in Ej; subst j.
            destruct (proj1 (Hd' i Hij) (or_introl eq_refl)) as (y & Hy & Ht); congruence.
          * apply Nat.eqb_neq in Ej.
            assert (Nb : forall j', i <= j' < j -> ~ In j' (j :: r)).
            { intros j' Hj' Hin; apply (lesorted_head _ _ _ Hds) in Hin; lia. }
            split; [apply (No i q); auto; apply Nb; lia|].
            split; [lia|]; split; [apply Hd'; [assumption|now left]|].
            intros j' y Hj' Hy; eapply No; [|apply Nb; exact Hj'|exact Hy]; lia.
    Qed.

    (** What a failed check makes of the walk. *)
    Lemma scan_failed ks k i q r :
      pget s i = Some q -> fails_at ks q = Some k -> passes q k = false ->
      match k with
      | Unchecked => False
      | Equal _ => r = Some (S i)
      | Among t =>
          match r with
          | None => forall j y, i <= j -> pget s j = Some y -> t y = false
          | Some j => i < j /\ (exists y, pget s j = Some y /\ t y = true) /\
                      forall j' y, i <= j' < j -> pget s j' = Some y -> t y = false
          end
      end ->
      scan None ks (skipn i s) = match r with None => [] | Some j => scan None ks (skipn j s) end.
    Proof.
      intros Hp Hf Hk H; rewrite (skipn_here _ _ _ Hp); cbn [scan]; rewrite Hf.
      destruct k as [|t|t]; [contradiction|now subst|]; destruct r as [j|].
      - destruct H as (Hij & (y & Hy & Ht) & Hb).
        replace j with (S i + (j - S i)) at 1 by lia.
        assert (Hsk : forall l : list (option (quad R)), skipn (S i + (j - S i)) l = skipn (j - S i) (skipn (S i) l)).
        { clear; generalize (S i) (j - S i); intros a b l; revert l; induction a as [|a IH]; intros [|e l]; cbn; auto.
          destruct b; reflexivity. }
        rewrite Hsk; apply (skip_to t ks (j - S i) (skipn (S i) s) y); [|assumption|].
        + rewrite pget_skipn; now replace (S i + (j - S i)) with j by lia.
        + intros j' z Hj' Hz; rewrite pget_skipn in Hz; eapply Hb; [|exact Hz]; lia.
      - apply skip_none; intros j y Hy; rewrite pget_skipn in Hy; eapply H; [|exact Hy]; lia.
    Qed.

    Definition linked (m : pm) (kp ko kg : check (quad R)) : Prop :=
      pm_s m = CAny /\ clink (pm_i m) (pm_p m) kp /\ clink (pm_i m) (pm_o m) ko /\
      clink (pm_i m) (pm_g m) kg.

    Lemma pm_next_scan cap kp ko kg fuel : forall m r,
      length s <= cap -> linked m kp ko kg ->
      (forall i x, sget (id_quads d) i = Some x -> exists q, wr d x = Some q) ->
      pm_next fuel cap (id_quads d) m = Some r ->
      match r with
      | None => scan None [kp; ko; kg] (skipn (pm_i m) s) = []
      | Some (i, x, m') => exists q, wr d x = Some q /\ linked m' kp ko kg /\
          scan None [kp; ko; kg] (skipn (pm_i m) s) =
          q :: scan None [kp; ko; kg] (skipn (pm_i m') s)
      end.
    Proof.
      induction fuel as [|fuel IH]; intros m r Hcap (Ms & Mp & Mo & Mg) Hlive E; [discriminate|].
      cbn [pm_next] in E; destruct (pm_i m <? cap) eqn:Ec.
      2: { inv E; apply Nat.ltb_ge in Ec; rewrite skipn_all2 by lia; reflexivity. }
      rewrite Ms in E; cbn [s_next] in E; set (i := pm_i m) in *.
      destruct (sget (id_quads d) i) as [x|] eqn:Ex.
      2: { inv E; apply scan_vacant; rewrite <- Hat; unfold i_quad_at; now rewrite Ex. }
      destruct (Hlive _ _ Ex) as (q & Hq).
      assert (Hp : pget s i = Some q) by (rewrite <- Hat; unfold i_quad_at; now rewrite Ex).
      destruct (c_next_link _ _ _ _ _ _ Mp (le_n _) Ex Hq) as [Lp Hp'].
      destruct (c_next (pm_p m) i x) as [np cp]; cbn [fst snd] in *; destruct np as [|rp].
      2: { destruct Hp' as [Pp Hp']; rewrite (scan_failed _ kp i q rp Hp); auto;
             [|unfold fails_at; cbn; now rewrite Pp].
           destruct rp as [j|]; [|now inv E].
           assert (i <= j) by (destruct kp; [contradiction|inv Hp'; lia|lia]).
           apply IH in E; auto; split; [reflexivity|cbn; split; [|split]]; eapply clink_le; eauto. }
      destruct (c_next_link _ _ _ _ _ _ Mo (le_n _) Ex Hq) as [Lo Ho'].
      destruct (c_next (pm_o m) i x) as [no co]; cbn [fst snd] in *; destruct no as [|ro].
      2: { destruct Ho' as [Po Ho']; rewrite (scan_failed _ ko i q ro Hp); auto;
             [|unfold fails_at; cbn; now rewrite Hp', Po].
           destruct ro as [j|]; [|now inv E].
           assert (i <= j) by (destruct ko; [contradiction|inv Ho'; lia|lia]).
           apply IH in E; auto; split; [reflexivity|cbn; split; [|split]]; eapply clink_le; eauto. }
      destruct (c_next_link _ _ _ _ _ _ Mg (le_n _) Ex Hq) as [Lg Hg'].
      destruct (c_next (pm_g m) i x) as [ng cg]; cbn [fst snd] in *; destruct ng as [|rg].
      2: { destruct Hg' as [Pg Hg']; rewrite (scan_failed _ kg i q rg Hp); auto;
             [|unfold fails_at; cbn; now rewrite Hp', Ho', Pg].
           destruct rg as [j|]; [|now inv E].
           assert (i <= j) by (destruct kg; [contradiction|inv Hg'; lia|lia]).
           apply IH in E; auto; split; [reflexivity|cbn; split; [|split]]; eapply clink_le; eauto. }
      inv E; exists q; split; [exact Hq|]; split.
      - split; [reflexivity|cbn; split; [|split]]; eapply clink_le; [|eassumption| |eassumption| |eassumption]; lia.
      - rewrite (skipn_here _ _ _ Hp); cbn [scan pm_i]; unfold fails_at; cbn [find].
        rewrite Hp', Ho', Hg'; reflexivity.
    Qed.

    Lemma trace_scan cap kp ko kg m r :
      length s <= cap ->
      (forall i x, sget (id_quads d) i = Some x -> exists q, wr d x = Some q) ->
      trace cap (id_quads d) m r -> linked m kp ko kg ->
      mapM (fun e => wr d (snd e)) r = Some (scan None [kp; ko; kg] (skipn (pm_i m) s)).
    Proof.
      intros Hcap Hlive; induction 1 as [m K E|m i x m' r K E Hi Hg T IH]; intros Hl.
      - now rewrite (pm_next_scan _ _ _ _ _ _ _ Hcap Hl Hlive E).
      - destruct (pm_next_scan _ _ _ _ _ _ _ Hcap Hl Hlive E) as (q & Hq & Hl' & ->).
        cbn [mapM snd]; rewrite Hq; cbn [bind]; rewrite (IH Hl'); reflexivity.
    Qed.

    Lemma link_among ks vs c N (P : quad R -> Prop) (t : quad R -> bool) :
      inv_ d ks vs -> id_exact any_resource d -> cspec d c N P -> fixed d c -> (forall q, P q <-> t q = true) ->
      clink 0 c (Among t).
    Proof.
      intros I X [C1 C2] (F1 & F2 & F3) HP.
      assert (Hget : forall i q, pget s i = Some q ->
                exists x, sget (id_quads d) i = Some x /\ wr d x = Some q).
      { intros i q; rewrite <- Hat; unfold i_quad_at; destruct (sget (id_quads d) i) as [x|]; [|discriminate].
        cbn; eauto. }
      destruct c as [| |f|l]; [|now destruct F1|now destruct (F2 f)|]; cbn.
      - intros i q _ Hq; destruct (Hget _ _ Hq) as (x & Hx & Hw).
        destruct (t q) eqn:Et; [|reflexivity]; apply HP in Et.
        now apply (proj2 (C2 _ _ _ Hx Hw) any_resource X (fun _ _ => Logic.I)) in Et.
      - split; [exact C1|]; intros i _; split.
        + intros Hi; pose proof (F3 _ _ eq_refl Hi) as Hx.
          destruct (sget (id_quads d) i) as [x|] eqn:Ex; [|contradiction].
          destruct (id_live_value _ _ _ _ _ I Ex) as (q & Hq & _); exists q; split.
          * rewrite <- Hat; unfold i_quad_at; now rewrite Ex.
          * apply HP, (C2 _ _ _ Ex Hq), Hi.
        + intros (q & Hq & Ht); destruct (Hget _ _ Hq) as (x & Hx & Hw).
          apply (proj2 (C2 _ _ _ Hx Hw) any_resource X (fun _ _ => Logic.I)); now apply HP.
    Qed.

    Lemma link_equal f N (P : quad R -> Prop) (t : quad R -> bool) :
      id_exact any_resource d -> cspec d (CSame f) N P -> (forall q, P q <-> t q = true) -> clink 0 (CSame f) (Equal t).
    Proof.
      intros X [_ C] HP i x q Hx Hq; destruct (C _ _ _ Hx Hq) as [C1 C2]; cbn in C1, C2.
      destruct (f x) eqn:Ef.
      - symmetry; apply HP, C1; reflexivity.
      - destruct (t q) eqn:Et; [|reflexivity]; apply HP in Et; now apply (C2 any_resource X (fun _ _ => Logic.I)).
    Qed.

    (** ** The checks of a pattern *)
    Definition pchk {A} (E : A -> R -> bool) (c : pat_p A) : check (quad R) :=
      match c with PP_Any => Unchecked | PP_SameS => p_eq_s cmp | PP_Given a => p_is E a end.
    Definition ochk {A} (E : A -> R -> bool) (c : pat_o A) : check (quad R) :=
      match c with
      | PO_Any => Unchecked | PO_SameS => o_eq_s cmp | PO_SameP => o_eq_p cmp | PO_Given a => o_is E a
      end.
    Definition gchk {A} (E : A -> R -> bool) (c : pat_g A) : check (quad R) :=
      match c with
      | PG_Any => Unchecked | PG_SameS => g_eq cmp q_s | PG_SameP => g_eq cmp q_p
      | PG_SameO => g_eq cmp q_o | PG_Given a => g_is E a
      end.

    Lemma checks_parts {A} (E : A -> R -> bool) (c : cqp A) :
      cq_checks cmp E c = [pchk E (cq_predicate c); ochk E (cq_object c); gchk E (cq_graph c)].
    Proof. des_pat; reflexivity. Qed.

    Lemma graph_same_true (f : quad R -> R) q :
      q_g q = Some (f q) <-> match q_g q with Some g => same cmp g (f q) | None => false end = true.
    Proof.
      destruct (q_g q) as [g|]; [|split; discriminate].
      rewrite (same_true L); split; [intros E; now inv E|now intros ->].
    Qed.

    Lemma pm_new_linked ks vs c m :
      inv_ d ks vs -> id_exact any_resource d -> any_subject c = true -> pm_new cmp d c = Some m ->
      exists kp ko kg, cq_checks cmp (same cmp) c = [kp; ko; kg] /\ linked m kp ko kg /\ pm_i m = 0.
    Proof.
      intros I X Ha E; rewrite checks_parts; do 3 eexists; split; [reflexivity|].
      unfold pm_new, any_subject in *; destruct (cq_subject c) as [|a]; [|discriminate]; cbn [s_constraint bind] in E.
      destruct (p_constraint cmp d (cq_predicate c)) as [p|] eqn:Ep; [|discriminate]; cbn [bind] in E.
      destruct (o_constraint cmp d (cq_object c)) as [o|] eqn:Eo; [|discriminate]; cbn [bind] in E.
      destruct (g_constraint cmp d (cq_graph c)) as [g|] eqn:Eg; [|discriminate]; cbn [bind] in E; inv E.
      split; [|reflexivity]; split; [reflexivity|]; cbn [pm_i pm_p pm_o pm_g]; split; [|split].
      - destruct (cq_predicate c) as [| |r]; cbn in Ep.
        + inv Ep; exact Logic.I.
        + inv Ep; eapply link_equal; [exact X| |].
          * apply (same_spec L _ _ _ PosS PosP (fun T => q_s) (fun T => q_p) I); reflexivity.
          * intros q; cbn; symmetry; apply (same_true L).
        + destruct (given_spec L _ _ _ PosP r I) as (p' & E & Hp & Hf); rewrite Ep in E; inv E.
          eapply link_among; eauto; intros q; cbn; rewrite (same_true L); split; congruence.
      - destruct (cq_object c) as [| | |r]; cbn in Eo.
        + inv Eo; exact Logic.I.
        + inv Eo; eapply link_equal; [exact X| |].
          * apply (same_spec L _ _ _ PosS PosO (fun T => q_s) (fun T => q_o) I); reflexivity.
          * intros q; cbn; symmetry; apply (same_true L).
        + inv Eo; eapply link_equal; [exact X| |].
          * apply (same_spec L _ _ _ PosP PosO (fun T => q_p) (fun T => q_o) I); reflexivity.
          * intros q; cbn; symmetry; apply (same_true L).
        + destruct (given_spec L _ _ _ PosO r I) as (p' & E & Hp & Hf); rewrite Eo in E; inv E.
          eapply link_among; eauto; intros q; cbn; rewrite (same_true L); split; congruence.
      - destruct (cq_graph c) as [| | | |[r|]]; cbn in Eg.
        + inv Eg; exact Logic.I.
        + inv Eg; eapply link_equal; [exact X| |].
          * apply (graph_same_spec L _ _ _ PosS (fun T => q_s) I); reflexivity.
          * apply graph_same_true.
        + inv Eg; eapply link_equal; [exact X| |].
          * apply (graph_same_spec L _ _ _ PosP (fun T => q_p) I); reflexivity.
          * apply graph_same_true.
        + inv Eg; eapply link_equal; [exact X| |].
          * apply (graph_same_spec L _ _ _ PosO (fun T => q_o) I); reflexivity.
          * apply graph_same_true.
        + destruct (given_spec L _ _ _ PosG r I) as (p' & E & Hp & Hf); rewrite Eg in E; inv E.
          eapply link_among; eauto; intros q; cbn.
          destruct (q_g q); [|split; discriminate]; rewrite (same_true L); split; congruence.
        + inv Eg; destruct (default_spec _ _ _ I) as [H1 H2]; eapply link_among; eauto.
          intros q; cbn; destruct (q_g q); split; congruence.
    Qed.

    Lemma mem_comp l p q :
      (exists r, In r l /\ comp p q = Some r) <->
      match comp p q with Some r => mem cmp r l | None => false end = true.
    Proof.
      destruct (comp p q) as [r|]; [rewrite (mem_true L)|]; split; try discriminate.
      - intros (r' & Hr & E); inv E; assumption.
      - eauto.
      - intros (r' & Hr & E); discriminate.
    Qed.

    Lemma pm_new_multi_linked ks vs c m :
      inv_ d ks vs -> id_exact any_resource d -> any_subject c = true -> pm_new_multi cmp d c = Some m ->
      exists kp ko kg, cq_checks cmp (fun l x => mem cmp x l) c = [kp; ko; kg] /\
        linked m kp ko kg /\ pm_i m = 0.
    Proof.
      intros I X Ha E; rewrite checks_parts; do 3 eexists; split; [reflexivity|].
      unfold pm_new_multi, any_subject in *; rewrite into_parts_accessors in E.
      cbv beta iota zeta in E; destruct (cq_subject c) as [|a]; [|discriminate]; cbn [bind] in E.
      match type of E with bind ?t _ = _ => destruct t as [p|] eqn:Ep; [|discriminate] end; cbn [bind] in E.
      match type of E with bind ?t _ = _ => destruct t as [o|] eqn:Eo; [|discriminate] end; cbn [bind] in E.
      match type of E with bind ?t _ = _ => destruct t as [g|] eqn:Eg; [|discriminate] end; cbn [bind] in E; inv E.
      split; [|reflexivity]; split; [reflexivity|]; cbn [pm_i pm_p pm_o pm_g]; split; [|split].
      - destruct (cq_predicate c) as [| |r].
        + inv Ep; exact Logic.I.
        + inv Ep; eapply link_equal; [exact X| |].
          * apply (same_spec L _ _ _ PosS PosP (fun T => q_s) (fun T => q_p) I); reflexivity.
          * intros q; cbn; symmetry; apply (same_true L).
        + destruct (multi_spec L _ _ _ PosP r I) as (p' & E & Hp & Hf); assert (HE : Some p = Some p') by (rewrite <- Ep; exact E); inv HE.
          eapply link_among; eauto; intros q; exact (mem_comp r PosP q).
      - destruct (cq_object c) as [| | |r].
        + inv Eo; exact Logic.I.
        + inv Eo; eapply link_equal; [exact X| |].
          * apply (same_spec L _ _ _ PosS PosO (fun T => q_s) (fun T => q_o) I); reflexivity.
          * intros q; cbn; symmetry; apply (same_true L).
        + inv Eo; eapply link_equal; [exact X| |].
          * apply (same_spec L _ _ _ PosP PosO (fun T => q_p) (fun T => q_o) I); reflexivity.
          * intros q; cbn; symmetry; apply (same_true L).
        + destruct (multi_spec L _ _ _ PosO r I) as (p' & E & Hp & Hf); assert (HE : Some o = Some p') by (rewrite <- Eo; exact E); inv HE.
          eapply link_among; eauto; intros q; exact (mem_comp r PosO q).
      - destruct (cq_graph c) as [| | | |[r|]].
        + inv Eg; exact Logic.I.
        + inv Eg; eapply link_equal; [exact X| |].
          * apply (graph_same_spec L _ _ _ PosS (fun T => q_s) I); reflexivity.
          * apply graph_same_true.
        + inv Eg; eapply link_equal; [exact X| |].
          * apply (graph_same_spec L _ _ _ PosP (fun T => q_p) I); reflexivity.
          * apply graph_same_true.
        + inv Eg; eapply link_equal; [exact X| |].
          * apply (graph_same_spec L _ _ _ PosO (fun T => q_o) I); reflexivity.
          * apply graph_same_true.
        + destruct (multi_spec L _ _ _ PosG r I) as (p' & E & Hp & Hf); assert (HE : Some g = Some p') by (rewrite <- Eg; exact E); inv HE.
          eapply link_among; eauto; intros q; exact (mem_comp r PosG q).
        + inv Eg; destruct (default_spec _ _ _ I) as [H1 H2]; eapply link_among; eauto.
          intros q; cbn; destruct (q_g q); split; congruence.
    Qed.

    (** A given subject: everything is found, in the order of the places. *)
    Lemma trace_filter ks vs cap m r l (P : quad R -> Prop) (t : quad R -> bool) :
      inv_ d ks vs -> trace cap (id_quads d) m r -> mapM (fun e => wr d (snd e)) r = Some l ->
      (forall q, In q l <-> (exists i, pget s i = Some q) /\ P q) -> (forall q, P q <-> t q = true) ->
      l = filter t (present s).
    Proof.
      intros I T El Hl HP; destruct (trace_live _ _ _ _ T) as [Ts Tl].
      assert (Hr : exists r', map fst r' = map fst r /\ map snd r' = l /\
                     forall i q, In (i, q) r' <-> exists x, In (i, x) r /\ wr d x = Some q).
      { clear - El; revert l El; induction r as [|[i x] r IH]; intros l El.
        - inv El; exists []; repeat split; auto; [intros []|intros (x & [] & _)].
        - apply mapM_cons in El as (q & l' & Hq & El & ->); cbn in Hq.
          destruct (IH _ El) as (r' & E1 & E2 & E3); exists ((i, q) :: r'); cbn; rewrite E1, E2.
          split; [reflexivity|]; split; [reflexivity|]; intros j z; rewrite E3; split.
          + intros [H|(y & Hy & Hz)]; [inv H; eauto|eauto].
          + intros (y & [H|H] & Hz); [inv H; left; congruence|eauto]. }
      destruct Hr as (r' & E1 & E2 & E3); rewrite <- E2.
      assert (Hp : forall i q, In (i, q) r' -> pget s i = Some q).
      { intros i q Hi; apply E3 in Hi as (x & Hi & Hw); apply Tl in Hi as [_ Hi].
        rewrite <- Hat; unfold i_quad_at; now rewrite Hi. }
      apply (filter_places t s 0 r'); [now rewrite E1|]; intros i q; rewrite Nat.sub_0_r; split.
      - intros Hi; split; [lia|]; split; [now apply Hp|]; apply HP, Hl.
        rewrite <- E2; now apply (in_map snd) in Hi.
      - intros (_ & Hi & Ht).
        assert (Hq : In q l) by (apply Hl; split; [eauto|now apply HP]).
        rewrite <- E2 in Hq; apply in_map_iff in Hq as ([j q'] & E & Hj); cbn in E; subst q'.
        assert (i = j) as ->; [|exact Hj].
        apply Hp in Hj; eapply (id_index_inj L _ _ _ i j q I); rewrite Hat; assumption.
    Qed.
  End Walk.

  Lemma passes_matches (c : cqp R) q :
    cq_matches c q <->
    match c with CQ_AnyS _ => true | CQ_GivenS a _ => same cmp a (q_s q) end &&
    forallb (passes q) (cq_checks cmp (same cmp) c) = true.
  Proof.
    destruct q as [s p o g]; des_pat;
      repeat match goal with x : option R |- _ => destruct x end; cbn;
      rewrite ?andb_true_r, ?andb_true_iff, ?(same_true L);
      intuition (try congruence).
  Qed.

  Lemma passes_choice (c : cqp (list R)) q :
    (exists e, choice c e /\ cq_matches e q) <->
    match c with CQ_AnyS _ => true | CQ_GivenS l _ => mem cmp (q_s q) l end &&
    forallb (passes q) (cq_checks cmp (fun l x => mem cmp x l) c) = true.
  Proof.
    rewrite choice_matches; destruct q as [s p o g]; des_pat;
      repeat match goal with
      | x : option R |- _ => destruct x
      | x : option (list R) |- _ => destruct x
      end; cbn;
      rewrite ?andb_true_r, ?andb_true_iff, ?(same_true L), ?(mem_true L);
      intuition (try congruence).
  Qed.

  Lemma id_pattern_answer d S st spare c :
    id_rep (cmp:=cmp) d S -> id_exact any_resource d -> id_kept d st ->
    id_pattern_matching cmp d spare c = Some (answer cmp c (fst st)).
  Proof.
    intros Hr X K; pose proof Hr as [_ (vs & I)].
    unfold id_pattern_matching.
    destruct (pm_new_spec L _ _ _ c I) as (m & Em & M); rewrite Em; cbn [bind].
    destruct (trace_found L _ _ spare _ _ _ _ Hr M) as (r & l & T & Hl & El & F).
    rewrite (pm_collect_trace _ _ _ _ T) by lia.
    pose proof K as (K1 & _ & K3).
    destruct (any_subject c) eqn:Ea.
    - destruct (pm_new_linked _ _ K3 _ _ _ _ I X Ea Em) as (kp & ko & kg & Ek & Lk & E0).
      assert (Hcap : length (fst st) <= capacity d spare) by (unfold capacity; lia).
      assert (Hv : forall i x, sget (id_quads d) i = Some x -> exists q, wr d x = Some q).
      { intros i x Hx; destruct (id_live_value _ _ _ _ _ I Hx) as (q & Hq & _); eauto. }
      rewrite (trace_scan _ _ K3 _ _ _ _ _ _ Hcap Hv T Lk), E0.
      unfold answer, query; rewrite Ek; destruct c; [reflexivity|discriminate].
    - rewrite El; f_equal; unfold answer, query; destruct c as [|a c]; [discriminate|].
      eapply (trace_filter _ _ K3); [exact I|exact T|exact El| |exact (passes_matches (CQ_GivenS a c))].
      destruct F as (_ & F1 & F2); intros q; rewrite <- in_present, (id_kept_in d S st q Hr K); split; [apply F1|].
      intros [Hq HP]; apply (F2 (or_introl eq_refl) any_resource); auto; intros; exact Logic.I.
  Qed.

  Lemma id_multi_answer d S st spare c :
    id_rep (cmp:=cmp) d S -> id_exact any_resource d -> id_kept d st ->
    id_multi_pattern_matching cmp d spare c = Some (multi_answer cmp c (fst st)).
  Proof.
    intros Hr X K; pose proof Hr as [_ (vs & I)].
    unfold id_multi_pattern_matching.
    destruct (pm_new_multi_spec L _ _ _ c I) as (m & Em & M); rewrite Em; cbn [bind].
    destruct (trace_found L _ _ spare _ _ _ _ Hr M) as (r & l & T & Hl & El & F).
    rewrite (pm_collect_trace _ _ _ _ T) by lia.
    pose proof K as (K1 & _ & K3).
    destruct (any_subject c) eqn:Ea.
    - destruct (pm_new_multi_linked _ _ K3 _ _ _ _ I X Ea Em) as (kp & ko & kg & Ek & Lk & E0).
      assert (Hcap : length (fst st) <= capacity d spare) by (unfold capacity; lia).
      assert (Hv : forall i x, sget (id_quads d) i = Some x -> exists q, wr d x = Some q).
      { intros i x Hx; destruct (id_live_value _ _ _ _ _ I Hx) as (q & Hq & _); eauto. }
      rewrite (trace_scan _ _ K3 _ _ _ _ _ _ Hcap Hv T Lk), E0.
      unfold multi_answer, query; rewrite Ek; destruct c; [reflexivity|discriminate].
    - rewrite El; f_equal; unfold multi_answer, query; destruct c as [|a c]; [discriminate|].
      eapply (trace_filter _ _ K3); [exact I|exact T|exact El| |exact (passes_choice (CQ_GivenS a c))].
      destruct F as (_ & F1 & F2); intros q; rewrite <- in_present, (id_kept_in d S st q Hr K); split; [apply F1|].
      intros [Hq HP]; apply (F2 (or_introl eq_refl) any_resource); auto; intros; exact Logic.I.
  Qed.

  (** ** Histories *)
  Lemma id_answers ops0 ops xs d :
    id_reached cmp keep ops0 ops xs d ->
    known_log qcmp quad_comps any_resource [] (full_log cmp ops0 ops xs) ->
    let s := places_after cmp ops0 ops xs in
    (forall spare c, id_pattern_matching cmp d spare c = Some (answer cmp c s)) /\
    (forall spare c, id_multi_pattern_matching cmp d spare c = Some (multi_answer cmp c s)) /\
    (forall spare c n, exists d', id_extract cmp d spare c n = Some (firstn n (answer cmp c s), d')).
  Proof.
    intros H Hk s.
    pose proof (reached_rep L keep _ _ _ _ H) as Hr.
    pose proof (reached_exact L keep any_resource _ _ _ _ H Hk) as X.
    pose proof (reached_kept L keep _ _ _ _ H) as K.
    split; [|split].
    - intros spare c; exact (id_pattern_answer _ _ _ spare c Hr X K).
    - intros spare c; exact (id_multi_answer _ _ _ spare c Hr X K).
    - intros spare c n.
      destruct (reached_state L keep _ _ _ _ H) as [Hs _].
      destruct (id_extract_found L _ _ _ _ _ spare c n Hs) as (qs & d' & E & _ & E' & _).
      rewrite (id_pattern_answer _ _ _ spare c Hr X K) in E; inv E; eauto.
  Qed.
End Proofs.

(** ** Consequences *)
Section Full.
  Context {X : Type} (cmp : X -> X -> comparison).

  Lemma scan_full ks l : forall sk : option (X -> bool),
    match sk with Some t => In (Among t) ks | None => True end ->
    scan sk ks (map Some l) = filter (fun x => forallb (passes x) ks) l.
  Proof.
    induction l as [|x l IH]; intros sk H; cbn [map scan filter]; [reflexivity|].
    destruct (match sk with Some t => t x | None => true end) eqn:Ek.
    - unfold fails_at; destruct (find (fun k => negb (passes x k)) ks) as [k|] eqn:Ef.
      + apply find_some in Ef as [Hin Hk].
        replace (forallb (passes x) ks) with false.
        * destruct k; apply IH; auto.
        * symmetry; apply not_true_is_false; intros Hf; rewrite forallb_forall in Hf.
          rewrite (Hf _ Hin) in Hk; discriminate.
      + replace (forallb (passes x) ks) with true; [f_equal; now apply IH|].
        symmetry; apply forallb_forall; intros k Hin; pose proof (find_none _ _ Ef k Hin) as Hk; cbn in Hk.
        now destruct (passes x k).
    - destruct sk as [t|]; [|discriminate]; rewrite (IH (Some t) H).
      replace (forallb (passes x) ks) with false; [reflexivity|].
      symmetry; apply not_true_is_false; intros Hf; rewrite forallb_forall in Hf.
      specialize (Hf _ H); cbn in Hf; congruence.
  Qed.

  Lemma scan_unchecked (s : list (option X)) : scan None [Unchecked; Unchecked; Unchecked] s = up_to_vacant s.
  Proof. induction s as [|[x|] s IH]; cbn; [reflexivity| |reflexivity]; now f_equal. Qed.

  Lemma scan_unchecked2 (s : list (option X)) : scan None [Unchecked; Unchecked] s = up_to_vacant s.
  Proof. induction s as [|[x|] s IH]; cbn; [reflexivity| |reflexivity]; now f_equal. Qed.

  Lemma present_full (l : list X) : present (map Some l) = l.
  Proof. induction l as [|x l IH]; [reflexivity|]; cbn; f_equal; exact IH. Qed.

  (** The places when nothing was removed. *)
  Definition row (s : list X) : @places X := (map Some (rev s), []).

  Lemma mem_rev x (s : list X) : mem cmp x (rev s) = mem cmp x s.
  Proof.
    unfold mem; apply eq_true_iff_eq; rewrite !existsb_exists; split; intros (y & H & E);
      exists y; (split; [|exact E]); now apply in_rev; rewrite ?rev_involutive.
  Qed.

  Lemma row_put x s : put_new cmp x (row s) = row (add cmp x s).
  Proof.
    unfold put_new, row; cbn [fst]; rewrite present_full, mem_rev; unfold add.
    destruct (mem cmp x s); [reflexivity|]; cbn [put rev]; rewrite map_app; reflexivity.
  Qed.

  Lemma row_vacate (P : X -> bool) s : (forall y, In y s -> P y = false) -> vacate P (row s) = row s.
  Proof.
    intros H; unfold row; cbn [vacate].
    assert (G : forall y, In y (rev s) -> P y = false) by (intros y Hy; apply H; now apply in_rev).
    clear H; revert G; generalize (rev s); clear s; intros s G.
    assert (forall n, positions P n (map Some s) = []) as E.
    { induction s as [|y s IH]; intros n; cbn; [reflexivity|].
      rewrite (G y (or_introl eq_refl)); apply IH; intros z Hz; apply G; now right. }
    rewrite E, map_map; cbn [rev app]; f_equal.
    apply map_ext_in; intros y Hy; cbn; now rewrite (G y Hy).
  Qed.

  Lemma apply_extend l : forall s, apply cmp (extend_changes cmp s l) s = fold_left (fun s x => add cmp x s) l s.
  Proof.
    induction l as [|x l IH]; intros s; cbn [extend_changes fold_left]; [reflexivity|].
    destruct (mem cmp x s) eqn:E.
    - assert (add cmp x s = s) as -> by (unfold add; now rewrite E); apply IH.
    - cbn; apply IH.
  Qed.

  Lemma row_op o s : only_added (set_changes cmp s o) ->
    place_op cmp (row s) o = row (snd (spec_step cmp s o)).
  Proof.
    destruct o as [x|x|l|x| | | |]; cbn [place_op set_changes spec_step snd]; intros H; try reflexivity.
    - apply row_put.
    - destruct (mem cmp x s) eqn:E; [inversion H; discriminate|].
      assert (N : forall y, In y s -> same cmp x y = false).
      { intros y Hy; apply not_true_is_false; intros Hs; unfold mem in E.
        assert (existsb (same cmp x) s = true) by (apply existsb_exists; eauto); congruence. }
      rewrite row_vacate by exact N; f_equal; unfold del.
      clear - N; induction s as [|y s IH]; cbn; [reflexivity|].
      rewrite (N y (or_introl eq_refl)); cbn; f_equal; apply IH; intros z Hz; apply N; now right.
    - clear H; revert s; induction l as [|x l IH]; intros s; cbn [fold_left]; [reflexivity|].
      now rewrite row_put, IH.
  Qed.

  Lemma row_ops ops : forall s, only_added (set_log cmp s ops) ->
    fold_left (place_op cmp) ops (row s) = row (snd (spec_run cmp s ops)).
  Proof.
    induction ops as [|o ops IH]; intros s H; cbn [fold_left spec_run]; [reflexivity|].
    cbn [set_log] in H; apply Forall_app in H as [H1 H2].
    rewrite row_op by exact H1; destruct (spec_step cmp s o) as [x s'] eqn:E; cbn [snd] in *.
    rewrite IH by exact H2; now destruct (spec_run cmp s' ops).
  Qed.
End Full.

Section QuadFull.
  Context {R : Type} {cmp : R -> R -> comparison} (L : ord_laws cmp) (keep : bool).
  Notation qcmp := (quad_cmp cmp).

  Lemma row_iop s o x : allowed cmp s o x -> only_added (changes cmp s o x) ->
    place_iop cmp (row s) o x = row (apply qcmp (changes cmp s o x) s).
  Proof.
    destruct o as [o|g|c n m], x as [x|[ts|]|l]; cbn [allowed changes place_iop]; try contradiction; intros _ H; try reflexivity.
    - rewrite (row_op qcmp o s H), (apply_set_changes (quad_cmp_laws cmp L)); reflexivity.
    - destruct ts as [|t ts]; [|inversion H; discriminate]; apply row_vacate; reflexivity.
    - destruct l as [|q l]; [|inversion H; discriminate]; apply row_vacate; reflexivity.
  Qed.

  Lemma row_run ops : forall s xs, allowed_run cmp s ops xs -> only_added (log cmp s ops xs) ->
    place_run cmp (row s) ops xs = row (apply qcmp (log cmp s ops xs) s).
  Proof.
    induction ops as [|o ops IH]; intros s [|x xs]; cbn [allowed_run log place_run]; try contradiction;
      [reflexivity|]; intros [Ha Hr] H; apply Forall_app in H as [H1 H2].
    rewrite row_iop by assumption; rewrite IH by assumption.
    unfold apply; now rewrite fold_left_app.
  Qed.

  Lemma row_after ops0 ops xs d :
    id_reached cmp keep ops0 ops xs d -> only_added (full_log cmp ops0 ops xs) ->
    places_after cmp ops0 ops xs = map Some (rev (final_set cmp ops0 ops xs)).
  Proof.
    intros H Ha; unfold full_log in Ha; apply Forall_app in Ha as [H1 H2].
    unfold places_after, place_ops; change (@nil (option (quad R)), @nil nat) with (row (@nil (quad R))).
    rewrite row_ops by exact H1; fold (spec_set qcmp ops0).
    rewrite row_run; [reflexivity| |exact H2].
    exact (proj2 (reached_state L keep _ _ _ _ H)).
  Qed.

  Lemma answer_row c l (f : quad R -> bool) :
    (forall q, f q = true <-> cq_matches c q) -> answer cmp c (map Some l) = filter f l.
  Proof.
    intros Hf; unfold answer, query; destruct c as [c|a c].
    - rewrite (scan_full _ l None I); apply filter_ext; intros q; apply eq_true_iff_eq.
      rewrite Hf, (passes_matches L); reflexivity.
    - rewrite present_full; apply filter_ext; intros q; apply eq_true_iff_eq.
      rewrite Hf, (passes_matches L); reflexivity.
  Qed.

  Lemma id_in_order ops0 ops xs d :
    id_reached cmp keep ops0 ops xs d ->
    known_log qcmp quad_comps any_resource [] (full_log cmp ops0 ops xs) ->
    only_added (full_log cmp ops0 ops xs) ->
    forall spare c f, (forall q, f q = true <-> cq_matches c q) ->
      id_pattern_matching cmp d spare c = Some (filter f (rev (final_set cmp ops0 ops xs))).
  Proof.
    intros H Hk Ha spare c f Hf; destruct (id_answers L keep _ _ _ _ H Hk) as [E _].
    rewrite E, (row_after _ _ _ _ H Ha), (answer_row _ _ _ Hf); reflexivity.
  Qed.

  Lemma id_places ops0 ops xs d :
    id_reached cmp keep ops0 ops xs d ->
    forall q, In q (present (places_after cmp ops0 ops xs)) <-> In q (final_set cmp ops0 ops xs).
  Proof.
    intros H q; exact (id_kept_in _ _ _ q (reached_rep L keep _ _ _ _ H) (reached_kept L keep _ _ _ _ H)).
  Qed.
End QuadFull.

Lemma run_length {S O X} (step : S -> O -> option (X * S)) ops : forall s xs s',
  run step s ops = Some (xs, s') -> length xs = length ops.
Proof.
  induction ops as [|o ops IH]; intros s xs s' E; cbn in E; [now inv E|].
  destruct (step s o) as [[x s1]|]; [|discriminate].
  destruct (run step s1 ops) as [[ys s2]|] eqn:E2; [|discriminate]; inv E; cbn; f_equal; eauto.
Qed.

(** ** Graphs *)
Section Graphs.
  Context {R : Type} {cmp : R -> R -> comparison} (L : ord_laws cmp).
  Context (keep : bool).
  Notation qcmp := (quad_cmp cmp).
  Notation tcmp := (triple_cmp cmp).
  Let LQ : ord_laws qcmp := quad_cmp_laws cmp L.
  Let LT : ord_laws tcmp := triple_cmp_laws cmp L.

  Lemma run_iemb ops : forall g dg s0 K n l xs g',
    istate (cmp:=cmp) (iemb g dg) s0 K n l ->
    run (ig_step cmp keep) g ops = Some (xs, g') ->
    exists ys dg', run (id_step cmp keep) (iemb g dg) (map (fun o => IOp (qop o)) ops) =
                   Some (ys, iemb g' dg').
  Proof.
    induction ops as [|o ops IH]; intros g dg s0 K n l xs g' H E; cbn -[id_step ig_step] in *.
    - inv E; eauto.
    - destruct (ig_step cmp keep g o) as [[x g1]|] eqn:E1; [|discriminate]; cbn [bind] in E.
      destruct (run (ig_step cmp keep) g1 ops) as [[ys g2]|] eqn:E2; [|discriminate]; cbn in E; inv E.
      destruct (iemb_step L keep g dg _ o (is_rep _ _ _ _ _ H)) as (dg1 & E3); rewrite E1 in E3; cbn [option_map fst snd] in E3.
      destruct (istate_step L keep _ _ _ _ _ (IOp (qop o)) H) as (x1 & d1 & E4 & _ & H1).
      rewrite E3 in E4; injection E4 as <- <-.
      destruct (IH _ _ _ _ _ _ _ _ H1 E2) as (zs & dg2 & E5).
      rewrite E3, E5; eauto.
  Qed.

  Lemma ig_as_dataset ops0 ops g :
    ig_reached cmp keep ops0 ops g ->
    exists xs dg, id_reached cmp keep (map qop ops0) (map (fun o => IOp (qop o)) ops) xs (iemb g dg).
  Proof.
    intros (xs0 & b & g0 & xs & Eb & E0 & E).
    destruct (run_emb keep _ _ _ _ Eb) as (ys & Hb); rewrite emb_new in Hb.
    destruct (start_spec L keep _ _ _ Hb) as (d & Ed & Hd).
    destruct (iemb_convert b) as (dg & E'); rewrite Ed, E0 in E'; cbn [option_map] in E'; inv E'.
    destruct (run_iemb _ _ _ _ _ _ _ _ _ Hd E) as (zs & dg' & Ez).
    exists zs, dg', ys, (emb b), (iemb g0 dg); auto.
  Qed.

  Definition qpl (st : @places (triple R)) : @places (quad R) :=
    (map (option_map iq) (fst st), snd st).

  Lemma present_iq (s : list (option (triple R))) :
    present (map (option_map iq) s) = map iq (present s).
  Proof.
    induction s as [|[t|] s IH]; [reflexivity| |exact IH].
    change (iq t :: present (map (option_map iq) s) = iq t :: map iq (present s)); now rewrite IH.
  Qed.

  Lemma positions_iq (P : quad R -> bool) (Q : triple R -> bool) s :
    (forall t, P (iq t) = Q t) -> forall n, positions P n (map (option_map iq) s) = positions Q n s.
  Proof.
    intros H; induction s as [|[t|] s IH]; intros n; cbn; [reflexivity| |auto].
    rewrite H; destruct (Q t); now rewrite IH.
  Qed.

  Lemma vacate_iq (P : quad R -> bool) (Q : triple R -> bool) st :
    (forall t, P (iq t) = Q t) -> vacate P (qpl st) = qpl (vacate Q st).
  Proof.
    intros H; destruct st as [s v]; cbn; unfold qpl; cbn; rewrite (positions_iq P Q s H); f_equal.
    rewrite !map_map; apply map_ext; intros [t|]; cbn; [rewrite H; now destruct (Q t)|reflexivity].
  Qed.

  Lemma put_new_iq t st : put_new qcmp (iq t) (qpl st) = qpl (put_new tcmp t st).
  Proof.
    unfold put_new; cbn [fst qpl]; rewrite present_iq, mem_iq.
    destruct (mem tcmp t (present (fst st))); [reflexivity|]; destruct st as [s [|i v]]; unfold put, qpl; cbn [fst snd].
    - rewrite map_app; reflexivity.
    - rewrite map_app, firstn_map; cbn [map]; rewrite <- skipn_map; reflexivity.
  Qed.

  Lemma place_op_iq o st : place_op qcmp (qpl st) (qop o) = qpl (place_op tcmp st o).
  Proof.
    destruct o as [t|t|l|t| | | |]; cbn; try reflexivity.
    - apply put_new_iq.
    - apply vacate_iq; intros t'; apply same_iq.
    - revert st; induction l as [|t l IH]; intros st; cbn; [reflexivity|]; now rewrite put_new_iq, IH.
  Qed.

  Lemma places_iq ops : forall st,
    fold_left (place_op qcmp) (map qop ops) (qpl st) = qpl (fold_left (place_op tcmp) ops st).
  Proof.
    induction ops as [|o ops IH]; intros st; cbn [map fold_left]; [reflexivity|].
    now rewrite place_op_iq, IH.
  Qed.

  Lemma place_run_iq ops : forall st xs,
    length xs = length ops ->
    place_run cmp (qpl st) (map (fun o => IOp (qop o)) ops) xs = qpl (fold_left (place_op tcmp) ops st).
  Proof.
    induction ops as [|o ops IH]; intros st [|x xs] H; cbn [map fold_left place_run place_iop]; try discriminate;
      [reflexivity|].
    rewrite place_op_iq; apply IH; now inv H.
  Qed.

  (** Checks of quads and of triples *)
  Definition krel (k : check (quad R)) (k' : check (triple R)) : Prop :=
    match k, k' with
    | Unchecked, Unchecked => True
    | Equal f, Equal f' | Among f, Among f' => forall t, f (iq t) = f' t
    | _, _ => False
    end.

  Lemma krel_passes k k' t : krel k k' -> passes (iq t) k = passes t k'.
  Proof. destruct k, k'; cbn; auto; contradiction. Qed.

  Lemma scan_iq kp ko kp' ko' s : krel kp kp' -> krel ko ko' -> forall sk sk',
    match sk, sk' with
    | None, None => True | Some f, Some f' => forall t, f (iq t) = f' t | _, _ => False
    end ->
    scan sk [kp; ko; Unchecked] (map (option_map iq) s) = map iq (scan sk' [kp'; ko'] s).
  Proof.
    intros Hp Ho; induction s as [|[t|] s IH]; intros sk sk' Hs; [reflexivity| |].
    - cbn [map option_map scan].
      assert (match sk with Some f => f (iq t) | None => true end =
              match sk' with Some f => f t | None => true end) as ->
        by (destruct sk, sk'; auto; contradiction).
      destruct (match sk' with Some f => f t | None => true end); [|now apply IH].
      unfold fails_at; cbn [find]; rewrite (krel_passes _ _ t Hp), (krel_passes _ _ t Ho); cbn [passes negb].
      destruct (passes t kp') eqn:Ep; cbn [negb].
      + destruct (passes t ko') eqn:Eo; cbn [negb]; [cbn [map]; f_equal; now apply IH|].
        destruct ko, ko'; try contradiction; apply IH; auto.
      + destruct kp, kp'; try contradiction; apply IH; auto.
    - cbn [map option_map scan]; destruct sk, sk'; try contradiction; [now apply IH|reflexivity].
  Qed.

  Lemma filter_iq (P : quad R -> bool) (Q : triple R -> bool) l :
    (forall t, P (iq t) = Q t) -> filter P (map iq l) = map iq (filter Q l).
  Proof.
    intros H; induction l as [|t l IH]; cbn; [reflexivity|]; rewrite H; destruct (Q t); cbn; now rewrite IH.
  Qed.

  Lemma answer_iq c s :
    answer cmp (anyg c) (map (option_map iq) s) = map iq (triple_answer cmp c s).
  Proof.
    destruct c as [[[]|[]|p []]|a [[]|p []]]; unfold answer, query, triple_answer, triple_query; cbn [anyg taa_q tag_q tga_q tgg_q ct_checks];
      unfold cq_checks, qaa_checks, qag_checks, qga_checks, qgg_checks;
      cbn [qaaa_check qaag_check qaga_check qagg_check qgaa_check qgag_check qgga_check qggg_check];
      try (apply scan_iq; [exact I || (intros []; reflexivity)|exact I || (intros []; reflexivity)|exact I]).
    all: rewrite present_iq; apply filter_iq; intros []; reflexivity.
  Qed.

  Lemma ig_answers ops0 ops g :
    ig_reached cmp keep ops0 ops g ->
    known_log tcmp triple_comps any_resource [] (set_log tcmp [] (ops0 ++ ops)) ->
    forall spare c,
    ig_pattern_matching cmp g spare c =
    Some (triple_answer cmp c (fst (place_ops tcmp (ops0 ++ ops)))).
  Proof.
    intros H Hk spare c; destruct (ig_as_dataset _ _ _ H) as (xs & dg & Hd).
    pose proof (reached_rep L keep _ _ _ _ Hd) as Hr.
    pose proof (reached_gexact L keep any_resource _ _ _ dg H Hk) as X.
    pose proof (reached_kept L keep _ _ _ _ Hd) as K.
    pose proof (id_pattern_answer L _ _ _ spare (anyg c) Hr X K) as E.
    rewrite iemb_pattern in E; apply option_map_some in E as (l & -> & E); f_equal.
    apply map_iq_inj; rewrite E, <- answer_iq; f_equal.
    unfold place_ops at 1; change (@nil (option (quad R)), @nil nat) with (qpl ([], [])).
    rewrite places_iq, place_run_iq.
    - unfold place_ops; now rewrite fold_left_app.
    - destruct Hd as (xs0 & b & d0 & _ & _ & Hrun); apply run_length in Hrun; now rewrite map_length in Hrun.
  Qed.

  Lemma triple_passes (c : ctp R) t :
    ct_matches c t <->
    match c with CT_AnyS _ => true | CT_GivenS a _ => same cmp a (t_s t) end &&
    forallb (passes t) (ct_checks cmp (same cmp) c) = true.
  Proof.
    destruct t as [s p o]; destruct c as [[[]|[]|x []]|a [[]|x []]]; cbn;
      rewrite ?andb_true_r, ?andb_true_iff, ?(same_true L); intuition (try congruence).
  Qed.

  Lemma triple_answer_row c l (f : triple R -> bool) :
    (forall t, f t = true <-> ct_matches c t) -> triple_answer cmp c (map Some l) = filter f l.
  Proof.
    intros Hf; unfold triple_answer, triple_query; destruct c as [c|a c].
    - rewrite (scan_full _ l None I); apply filter_ext; intros q; apply eq_true_iff_eq.
      rewrite Hf, triple_passes; reflexivity.
    - rewrite present_full; apply filter_ext; intros q; apply eq_true_iff_eq.
      rewrite Hf, triple_passes; reflexivity.
  Qed.

  Lemma ig_in_order ops0 ops g :
    ig_reached cmp keep ops0 ops g ->
    known_log tcmp triple_comps any_resource [] (set_log tcmp [] (ops0 ++ ops)) ->
    only_added (set_log tcmp [] (ops0 ++ ops)) ->
    forall spare c f, (forall t, f t = true <-> ct_matches c t) ->
      ig_pattern_matching cmp g spare c = Some (filter f (rev (spec_set tcmp (ops0 ++ ops)))).
  Proof.
    intros H Hk Ha spare c f Hf; rewrite (ig_answers _ _ _ H Hk); f_equal.
    unfold place_ops; change (@nil (option (triple R)), @nil nat) with (row (@nil (triple R))).
    rewrite row_ops by exact Ha; now apply triple_answer_row.
  Qed.
End Graphs.
