(** The resource tables of [IndexedBTreeDataset] and [IndexedBTreeGraph] follow the
    shelf of ShelfSpec.v. *)
From Coq Require Import List Bool Arith Lia Permutation Sorted.
Import ListNotations.
From Verif Require Import Base SlabModel TripleModel TriplePatternModel QuadPatternModel SetSpec
  ContainerSpec IndexedSpec ScanSpec Machine BaseProofs BResourceModel BResourceProofs
  BTreeDatasetModel BTreeDatasetProofs BTreeGraphModel BTreeGraphProofs IResourceModel IResourceProofs
  IndexedDatasetModel IndexedDatasetProofs IndexedHistoryProofs IndexedConvertProofs
  IndexedPatternProofs IndexedRunProofs IndexedGraphModel IndexedGraphProofs IndexedGraphRunProofs
  PlaceProofs LedgerSpec LedgerProofs BLedgerProofs ILedgerProofs ShelfSpec ShelfProofs.
Open Scope panic_scope.

Section Lengths.
  Context {X R : Type} (cmp : R -> R -> comparison) (keep : bool).

  Lemma put_length (r : R) st : length (fst st) <= length (fst (put r st)).
  Proof.
    destruct st as [s [|i f]]; cbn -[skipn]; rewrite app_length; cbn -[skipn]; [lia|].
    rewrite firstn_length, skipn_length; lia.
  Qed.

  Lemma clear_length k (st : @places R) : length (fst st) <= length (fst (clear k st)).
  Proof. unfold clear; cbn -[skipn]; rewrite app_length; cbn -[skipn]; rewrite firstn_length, skipn_length; lia. Qed.

  Lemma seat_length known l : forall st show ks st' show',
    seat cmp keep known l st show = (ks, (st', show')) -> length (fst st) <= length (fst st').
  Proof.
    induction l as [|r l IH]; intros st show ks st' show' E; cbn in E; [inv E; lia|].
    destruct (known r).
    - destruct (seat cmp keep known l st show) as [ks1 [st1 sw1]] eqn:E1; inv E; eauto.
    - destruct (seat _ _ _ _ (put r st) _) as [ks1 [st1 sw1]] eqn:E1; inv E.
      apply IH in E1; pose proof (put_length r st); lia.
  Qed.

  Lemma unseat_length (rest : list (X * list nat)) ks : forall st show,
    length (fst st) <= length (fst (fst (unseat cmp rest ks st show))).
  Proof.
    induction ks as [|k ks IH]; intros st show; cbn; [lia|].
    destruct (existsb _ _ || _); [apply IH|].
    pose proof (clear_length k st); etransitivity; [exact H|apply IH].
  Qed.
End Lengths.

Section Proofs.
  Context {R : Type} {cmp : R -> R -> comparison} (L : ord_laws cmp).
  Context (keep : bool).
  Notation qcmp := (quad_cmp cmp).
  Let LQ : ord_laws qcmp := quad_cmp_laws cmp L.
  Notation inv_ := (id_inv (cmp:=cmp)).

  (** ** Acquisition *)
  Lemma i_seat known i l : forall rs ri vs U st show ks rs' ri',
    irinv (cmp:=cmp) rs ri vs U -> kept (ir_val rs) rs st -> shows (ir_val rs) ri show ->
    i_acquire_all (cmp:=cmp) keep rs ri i l = Some (ks, rs', ri') ->
    (forall o v f, In (o, (v, f)) l -> known v = f) ->
    (forall o v k, In (o, (v, Some k)) l -> ir_val rs k = Some v /\ In v vs) ->
    exists st' show', seat cmp keep known (map (fun e => fst (snd e)) l) st show = (ks, (st', show')) /\
      kept (ir_val rs') rs' st' /\ shows (ir_val rs') ri' show'.
  Proof.
    induction l as [|[o [v f]] l IH]; intros rs ri vs U st show ks rs' ri' I K S E Hk Hf; cbn in E.
    - inv E; exists st, show; auto.
    - destruct (i_acquire_spec L keep rs ri vs U o i v f I) as (k & rs1 & ri1 & vs1 & E1 & I1 & Vk & M & W & _).
      { destruct f as [j|]; [|trivial]; apply (Hf o); now left. }
      rewrite E1 in E; cbn in E.
      destruct (i_acquire_all keep rs1 ri1 i l) as [[[ks2 rs2] ri2]|] eqn:E2; [|discriminate]; cbn in E; inv E.
      cbn [map fst snd seat]; rewrite (Hk o v f) by now left.
      assert (Hk' : forall o v f, In (o, (v, f)) l -> known v = f) by (intros o' v' f' Hi; apply (Hk o'); now right).
      assert (Hf' : forall o v j, In (o, (v, Some j)) l -> ir_val rs1 j = Some v /\ In v vs1).
      { intros o' v' j Hi; destruct (Hf o' v' j (or_intror Hi)) as [A B]; split; [auto|]; apply W; auto. }
      destruct f as [j|]; cbn in E1.
      + destruct (sget rs j) as [x|] eqn:Ex; [|discriminate]; cbn in E1; inv E1.
        set (y := ir_upd o (ns_insert i) x) in *.
        assert (V : forall j, ir_val (sset rs k y) j = ir_val rs j)
          by (intros; apply ir_val_sset with x; [assumption|apply ir_value_upd]).
        assert (K1 : kept (ir_val (sset rs k y)) (sset rs k y) st)
          by (eapply kept_ext; [exact V|apply sset_ents|apply sset_ents|exact K]).
        pose proof (shows_ext _ _ _ _ V S) as S1.
        destruct (IH _ _ _ _ _ _ _ _ _ I1 K1 S1 E2 Hk' Hf') as (st' & show' & -> & K' & S').
        exists st', show'; auto.
      + destruct (bt_insert _ _ _ _) as [ri0|] eqn:Eb; [|discriminate]; cbn in E1; inv E1.
        rewrite (kept_spot _ _ _ K).
        set (k := vacant_key rs) in *; set (y := ir_single o v i) in *.
        assert (Hn : sget rs k = None) by apply sget_vacant, I.
        assert (G : forall j, ir_val (sinsert rs y) j = if j =? k then Some v else ir_val rs j).
        { intros j; unfold ir_val; rewrite sget_sinsert by apply I; fold k; destruct (j =? k); [|reflexivity].
          cbn; unfold y; now rewrite ir_value_single. }
        assert (Hn' : ir_val rs k = None) by (unfold ir_val; now rewrite Hn).
        assert (Hni : ~ In k ri).
        { intros Hi; destruct (iri_idx _ _ _ _ I) as [HM _].
          destruct (mapM_in_inv _ _ _ _ HM Hi) as (u & Hu & _); congruence. }
        assert (Ho : forall j, j <> k -> ir_val (sinsert rs y) j = ir_val rs j).
        { intros j Hj; rewrite G; apply Nat.eqb_neq in Hj; now rewrite Hj. }
        assert (K1 : kept (ir_val (sinsert rs y)) (sinsert rs y) (put v st))
          by (eapply kept_put; [apply I|exact K|exact Vk|exact Ho]).
        assert (Hc : forall i, i_resource_index_cmp cmp (sinsert rs y) i k = Some Eq <->
                       ir_val (sinsert rs y) i = Some v).
        { intros j; unfold i_resource_index_cmp; rewrite Vk.
          destruct (ir_val _ j) as [u|]; cbn; [|split; discriminate].
          split; intros H; injection H as H; f_equal; now apply (ord_eq _ L). }
        pose proof (shows_insert L keep _ _ _ _ _ _ k v _ S Hn' Vk Ho Hni Eb Hc (iri_idx _ _ _ _ I1)) as S1.
        destruct (IH _ _ _ _ _ _ _ _ _ I1 K1 S1 E2 Hk' Hf') as (st' & show' & -> & K' & S').
        exists st', show'; auto.
  Qed.

  (** ** Release.  The quad [i], whose components are [l], leaves; [V] are the uses
      by the others. *)
  Definition leaving (i : nat) (l : list (pos * nat)) (V : pos -> nat -> nat -> Prop) p r j : Prop :=
    (j = i /\ In (p, r) l) \/ (j <> i /\ V p r j).

  Lemma i_unseat {X} rs ri vs i p k l V (rest : list (X * list nat)) st show rs' ri' b :
    irinv (cmp:=cmp) rs ri vs (leaving i ((p, k) :: l) V) -> ~ In p (map fst l) ->
    (forall r, (exists p j, j <> i /\ V p r j) <-> used rest r = true) ->
    kept (ir_val rs) rs st -> shows (ir_val rs) ri show ->
    i_release (i_resource_index_cmp cmp) rs ri p i k k = Some (rs', ri', b) ->
    exists st' show' vs',
      unseat cmp rest (k :: map snd l) st show = unseat cmp rest (map snd l) st' show' /\
      irinv (cmp:=cmp) rs' ri' vs' (leaving i l V) /\
      kept (ir_val rs') rs' st' /\ shows (ir_val rs') ri' show'.
  Proof.
    intros I Hp Hr HK HS E.
    assert (Hu : leaving i ((p, k) :: l) V p k i) by (left; cbn; auto).
    destruct (irinv_live _ _ _ _ _ _ _ I Hu) as (v & Hv).
    destruct (i_release_spec L _ _ rs ri vs _ p i k v I Hv (ifinds_index _ _))
      as (rs1 & ri1 & vs1 & b1 & E1 & I1 & M & _ & _ & Hd).
    rewrite E in E1; inv E1.
    apply (irinv_ext _ _ _ _ (leaving i l V)) in I1.
    2: { intros p' r j; unfold leaving; cbn [In]; split.
         - intros [[[-> [Heq|H]]|[H1 H2]] Hn]; [|auto|auto].
           injection Heq as -> ->; exfalso; now apply Hn.
         - intros [[-> H]|[H1 H2]]; (split; [auto|]); intros (E1 & E2 & E3); [subst p' r|contradiction].
           apply Hp, in_map_iff; exists (p, k); auto. }
    assert (Eu : existsb (Nat.eqb k) (map snd l) || used rest k = true <-> sget rs1 k <> None).
    { rewrite orb_true_iff, existsb_in, <- Hr; split.
      - intros H Hn.
        assert (exists p j, leaving i l V p k j) as (p' & j & Hl).
        { destruct H as [H|(p' & j & H1 & H2)].
          - apply in_map_iff in H as ([p' k'] & <- & H); exists p', i; left; auto.
          - exists p', j; right; auto. }
        exact (iri_dead _ _ _ _ I1 _ Hn _ _ Hl).
      - intros H; destruct (sget rs1 k) as [y|] eqn:Ey; [|congruence].
        destruct (iri_use _ _ _ _ I1 _ _ Ey) as [_ (p' & j & [[-> H1]|[H1 H2]])].
        + left; apply in_map_iff; exists (p', k); auto.
        + right; eauto. }
    unfold i_release in E.
    destruct (sget rs k) as [x|] eqn:Ex; [|discriminate]; cbn [bind] in E; cbn zeta in E.
    set (y := ir_upd p (ns_remove i) x) in *.
    assert (Vs : forall j, ir_val (sset rs k y) j = ir_val rs j)
      by (intros; apply ir_val_sset with x; [assumption|apply ir_value_upd]).
    cbn [unseat]; destruct (existsb (Nat.eqb k) (map snd l) || used rest k) eqn:Eb.
    - assert (b1 = false) as ->.
      { destruct b1; [|reflexivity]; exfalso; apply (proj1 Eu eq_refl), Hd; reflexivity. }
      destruct (ir_is_empty y).
      { destruct (bt_remove _ _ _) as [[z1 z2]|]; [|discriminate]; cbn in E.
        destruct (sremove _ _) as [[z3 z4]|]; discriminate. }
      inv E; exists st, show, vs1; split; [reflexivity|]; split; [exact I1|]; split.
      + eapply kept_ext; [exact Vs|apply sset_ents|apply sset_ents|exact HK].
      + eapply shows_ext; [exact Vs|exact HS].
    - assert (b1 = true) as ->.
      { apply Hd; destruct (sget rs1 k) eqn:Es; [|reflexivity].
        assert (false = true) by (apply Eu; discriminate); discriminate. }
      destruct (ir_is_empty y); [|discriminate].
      rewrite (ifinds_index v k (sset rs k y) ri) in E by (now rewrite Vs).
      destruct (bt_remove _ _ _) as [[r0 l0]|] eqn:Er; [|discriminate]; cbn in E.
      destruct (sremove (sset rs k y) k) as [[z s]|] eqn:Es; [|discriminate]; cbn in E; inv E.
      assert (G : forall j, ir_val rs1 j = if j =? k then None else ir_val rs j).
      { intros j; rewrite <- Vs; unfold ir_val; rewrite (sget_sremove _ _ _ _ _ Es).
        destruct (j =? k); reflexivity. }
      assert (Gk : ir_val rs1 k = None) by (rewrite G, Nat.eqb_refl; reflexivity).
      assert (Go : forall j, j <> k -> ir_val rs1 j = ir_val rs j).
      { intros j Hj; rewrite G; apply Nat.eqb_neq in Hj; now rewrite Hj. }
      exists (clear k st), (fun w => if sits cmp st k w then None else show w), vs1.
      split; [reflexivity|]; split; [exact I1|]; split.
      + rewrite clear_vac1 by exact (kept_lt _ _ _ _ _ HK Hv).
        eapply kept_vac; [exact Es| |exact Gk|exact Go].
        eapply kept_ext; [|apply sset_ents|apply sset_ents|exact HK]; reflexivity.
      + assert (S1 : shows (ir_val rs1) ri1 (fun w => if same cmp v w then None else show w)).
        { assert (Gv : forall j, j <> k -> ir_val rs1 j = ir_val (sset rs k y) j)
            by (intros j Hj; rewrite Vs; now apply Go).
          assert (Hix : indexes (cmpk:=cmp) (ir_val (sset rs k y)) ri vs)
            by (eapply indexes_ext; [|apply I]; auto).
          eapply (shows_drop L (ir_val (sset rs k y)));
            [exact (shows_ext _ _ _ _ Vs HS)|exact Hix|exact Er|rewrite Vs; exact Hv|exact Gk|exact Gv]. }
        intros w j; rewrite (kept_sits _ _ _ _ _ w HK Hv); apply S1.
  Qed.

  (** ** [IndexedBTreeDataset] *)
  Notation shift := (shift qcmp cmp quad_comps keep).

  Record ishelved (d : @idataset R) (sh : shelf (quad R) R) : Prop := {
    sh_kept : kept (ir_val (id_resources d)) (id_resources d) (seats sh);
    sh_shows : shows (ir_val (id_resources d)) (id_ri d) (shown sh);
    sh_held : forall z ks, In (z, ks) (held sh) <-> ient d z ks;
    sh_s : forall k, marked sh 0 k = true <-> In k (id_s d);
    sh_p : forall k, marked sh 1 k = true <-> In k (id_p d);
    sh_o : forall k, marked sh 2 k = true <-> In k (id_o d);
    sh_ng : forall k, marked sh 3 k = true <-> In k (id_ng d);
    sh_ns : nsorted (id_ng d);
    sh_lt : forall k, In k (id_ng d) -> k < length (fst (seats sh))
  }.

  Lemma i_known d ks vs sh v f :
    inv_ d ks vs -> ishelved d sh -> i_found d vs v f -> shown sh v = f.
  Proof.
    intros I B Hf; destruct f as [i|]; cbn in Hf.
    - apply (sh_shows _ _ B); tauto.
    - destruct (shown sh v) as [k|] eqn:E; [|reflexivity]; exfalso; apply Hf.
      apply (sh_shows _ _ B) in E as [E1 E2].
      destruct (iri_idx _ _ _ _ (ii_res _ _ _ I)) as [HM _]; apply (mapM_in _ _ _ _ HM); eauto.
  Qed.

  Lemma i_arrive d ks vs q d' sh :
    inv_ d ks vs -> ishelved d sh -> ~ In q ks ->
    id_insert cmp keep d q = Some (true, d') -> ishelved d' (arrive cmp quad_comps keep q sh).
  Proof.
    intros I B Hq E.
    destruct (id_insert_spec L keep _ _ _ _ I Hq) as (d1 & vs1 & x1 & E1 & I1 & D & _).
    rewrite E in E1; inv E1; destruct D as (Q1 & X1 & M1 & Ss & Sp & So & Sg).
    destruct (i_table_ins L keep _ _ _ _ _ I Hq E) as (kx & vs2 & _ & T).
    destruct (id_insert_acquires L keep _ _ _ _ _ I Hq E) as (l & rs & ri & x & El & Hv & Hfd & Eq & Er & Es0).
    destruct (i_seat (shown sh) _ l _ _ _ _ _ _ _ _ _ (ii_res _ _ _ I) (sh_kept _ _ B) (sh_shows _ _ B) El)
      as (st' & show' & Es & K' & S').
    { intros o v f Hi; apply (i_known _ _ _ _ _ _ I B), (Hfd _ _ _ Hi). }
    { intros o v i Hi; destruct (Hfd _ _ _ Hi) as (_ & A & C); auto. }
    rewrite Hv in Es; unfold arrive; rewrite Es.
    assert (G : forall y, sget (sinsert (id_quads d) y) (vacant_key (id_quads d)) = Some y).
    { intros y; rewrite (sget_sinsert _ _ _ (ii_wf _ _ _ I)), Nat.eqb_refl; reflexivity. }
    assert (x1 = x) as -> by (pose proof (G x1) as Gx; rewrite <- Q1, Eq, G in Gx; now inv Gx).
    assert (kx = quad_comps x) as ->.
    { apply (tb_fun _ _ _ (i_table L _ _ _ I1) q).
      - apply (ti_ent _ _ _ _ _ _ _ T); auto.
      - exists (vacant_key (id_quads d)), x; rewrite Q1, G; auto. }
    assert (Hg : forall k, nth_error (quad_comps x) 3 = Some k <-> q_g x = Some k).
    { intros k; unfold quad_comps; destruct (q_g x); cbn; reflexivity. }
    split; cbn [seats shown held marked].
    - rewrite Es0; exact K'.
    - rewrite Es0, Er; exact S'.
    - intros z kz; rewrite (ti_ent _ _ _ _ _ _ _ T), <- (sh_held _ _ B); cbn [In].
      split; (intros [H|H]; [left|now right]).
      + injection H as <- <-; auto.
      + destruct H as [-> ->]; reflexivity.
    - intros k; rewrite orb_true_iff, nth_is_true, (sh_s _ _ B), Ss, in_ns_insert.
      cbn; intuition congruence.
    - intros k; rewrite orb_true_iff, nth_is_true, (sh_p _ _ B), Sp, in_ns_insert.
      cbn; intuition congruence.
    - intros k; rewrite orb_true_iff, nth_is_true, (sh_o _ _ B), So, in_ns_insert.
      cbn; intuition congruence.
    - intros k; rewrite orb_true_iff, nth_is_true, (sh_ng _ _ B), Sg, Hg.
      destruct (q_g x); [rewrite in_ns_insert|]; intuition congruence.
    - rewrite Sg; destruct (q_g x); [apply ns_insert_sorted|]; apply (sh_ns _ _ B).
    - intros k Hk; rewrite Sg in Hk.
      assert (C : q_g x = Some k \/ In k (id_ng d)).
      { destruct (q_g x) as [g|]; [|auto]; apply in_ns_insert in Hk as [->|]; auto. }
      destruct C as [C|C].
      + apply iqwr_some in X1 as (_ & _ & _ & Vg); rewrite C in Vg.
        destruct (q_g q) as [h|]; [|contradiction]; rewrite Es0 in Vg; exact (kept_lt _ _ _ _ _ K' Vg).
      + apply seat_length in Es; pose proof (sh_lt _ _ B _ C); lia.
  Qed.

  Lemma i_used d ks vs k :
    inv_ d ks vs ->
    (exists p j, IndexedDatasetProofs.uses (id_quads d) p k j) <-> exists z kz, ient d z kz /\ In k kz.
  Proof.
    intros I; split.
    - intros (p & j & x & Hx & Hs); destruct (id_live_value _ _ _ _ _ I Hx) as (z & Hz & _).
      exists z, (quad_comps x); split; [exists j, x; auto|].
      unfold quad_comps; destruct p; cbn in Hs; [inv Hs; cbn; auto|inv Hs; cbn; auto|inv Hs; cbn; auto|].
      rewrite Hs; cbn; auto.
    - intros (z & kz & (j & x & Hx & Hz & ->) & Hk).
      assert (exists p, slot p x = Some k) as (p & Hp).
      { unfold quad_comps in Hk; destruct (q_g x) as [g|] eqn:Eg; cbn in Hk.
        - destruct Hk as [<-|[<-|[<-|[<-|[]]]]]; [exists PosS|exists PosP|exists PosO|exists PosG]; cbn; congruence.
        - destruct Hk as [<-|[<-|[<-|[]]]]; [exists PosS|exists PosP|exists PosO]; cbn; congruence. }
      exists p, j, x; auto.
  Qed.

  Lemma i_find_held d ks vs sh q kq :
    inv_ d ks vs -> ishelved d sh -> ient d q kq ->
    find (fun e => same qcmp q (fst e)) (held sh) = Some (q, kq).
  Proof.
    intros I B Hq.
    destruct (find (fun e => same qcmp q (fst e)) (held sh)) as [[z kz]|] eqn:E.
    - apply find_some in E as [E1 E2]; cbn in E2; apply (BaseProofs.same_true LQ) in E2; subst z.
      apply (sh_held _ _ B) in E1; now rewrite (tb_fun _ _ _ (i_table L _ _ _ I) _ _ _ Hq E1).
    - apply (sh_held _ _ B) in Hq; apply (find_none _ _ E) in Hq; cbn in Hq.
      assert (same qcmp q q = true) by (now apply (BaseProofs.same_true LQ)); congruence.
  Qed.

  Lemma i_depart d ks vs i q d' sh :
    inv_ d ks vs -> ishelved d sh -> i_quad_at (id_resources d) (id_quads d) i = Some q ->
    id_remove_by_index cmp d i true = Some d' -> ishelved d' (depart qcmp cmp q sh).
  Proof.
    intros I B Hi E.
    destruct (i_table_rem L _ _ _ _ _ _ I Hi E) as (vs0 & _ & T).
    destruct (id_remove_by_index_spec L _ _ _ _ _ I Hi) as (d1 & vs1 & x & E1 & I1 & D & _).
    rewrite E in E1; inv E1; destruct D as (Er & M & Ss & Sp & So & Sg).
    pose proof (sremove_inv _ _ _ _ Er) as Ex; pose proof Hi as Hx; unfold i_quad_at in Hx.
    rewrite Ex in Hx; cbn in Hx.
    assert (Gq : forall j, sget (id_quads d1) j = if j =? i then None else sget (id_quads d) j)
      by (intros j; apply (sget_sremove _ _ _ _ _ Er)).
    assert (Bq : ient d q (quad_comps x)) by (exists i, x; auto).
    unfold depart; rewrite (i_find_held _ _ _ _ _ _ I B Bq).
    set (rest := filter (fun e => negb (same qcmp q (fst e))) (held sh)).
    assert (Hrest : forall z kz, In (z, kz) rest <-> ient d1 z kz).
    { intros z kz; rewrite (tr_ent _ _ _ _ _ _ T); unfold rest; rewrite filter_In; cbn [fst].
      rewrite negb_true_iff, (BaseProofs.same_false LQ), (sh_held _ _ B); intuition congruence. }
    set (V := IndexedDatasetProofs.uses (id_quads d1)).
    assert (HV : forall p r j, V p r j <-> j <> i /\ IndexedDatasetProofs.uses (id_quads d) p r j).
    { intros p r j; unfold V, IndexedDatasetProofs.uses; rewrite Gq; destruct (j =? i) eqn:Ej.
      - apply Nat.eqb_eq in Ej; split; [intros (y & H & _); discriminate|intros [H _]; contradiction].
      - apply Nat.eqb_neq in Ej; tauto. }
    assert (Hus : forall r, (exists p j, V p r j) <-> used rest r = true).
    { intros r; unfold V; rewrite (i_used _ _ _ r I1), used_iff; split; intros (z & kz & A & C);
        exists z, kz; (split; [|exact C]); now apply Hrest. }
    assert (Hu : forall r, (exists p j, j <> i /\ V p r j) <-> used rest r = true).
    { intros r; rewrite <- Hus; split; [intros (p & j & _ & H); eauto|].
      intros (p & j & H); exists p, j; split; [apply HV in H; tauto|exact H]. }
    set (l := (PosS, q_s x) :: (PosP, q_p x) :: (PosO, q_o x) ::
              match q_g x with Some g => [(PosG, g)] | None => [] end).
    assert (El : quad_comps x = map snd l)
      by (unfold quad_comps, l; destruct (q_g x); reflexivity).
    assert (Hl : forall p r, slot p x = Some r <-> In (p, r) l).
    { intros p r; unfold l; destruct p; cbn; destruct (q_g x) as [g|] eqn:Eg; cbn; split;
        intros H; repeat match goal with
        | H : _ \/ _ |- _ => destruct H as [H|H]
        | H : False |- _ => destruct H
        | H : (_, _) = (_, _) |- _ => inv H
        | H : Some _ = Some _ |- _ => inv H
        end; auto; discriminate. }
    pose proof (ii_res _ _ _ I) as J0.
    apply (irinv_ext _ _ _ _ (leaving i l V)) in J0.
    2: { intros p r j; unfold leaving; rewrite HV, <- Hl; split.
         - intros (y & Hy & Hs); destruct (Nat.eq_dec j i) as [->|Hne]; [left; split; congruence|right].
           split; [exact Hne|]; split; [exact Hne|exists y; auto].
         - intros [[-> H]|[_ [_ H]]]; [exists x; auto|exact H]. }
    assert (Em : exists st' sw',
      unseat cmp rest (quad_comps x) (seats sh) (shown sh) = (st', sw') /\
      kept (ir_val (id_resources d1)) (id_resources d1) st' /\
      shows (ir_val (id_resources d1)) (id_ri d1) sw').
    { rewrite El; unfold l in J0 |- *; unfold id_remove_by_index in E.
      destruct (bt_remove _ _ _) as [[b0 l0]|]; [|discriminate]; cbn [bind] in E.
      rewrite Er in E; cbn [bind] in E; cbn zeta in E.
      destruct (i_release _ _ _ _ _ (q_s x) _) as [[[rs1 ri1] b1]|] eqn:R1; [|discriminate]; cbn [bind] in E.
      destruct (i_release _ _ _ _ _ (q_p x) _) as [[[rs2 ri2] b2]|] eqn:R2; [|discriminate]; cbn [bind] in E.
      destruct (i_release _ _ _ _ _ (q_o x) _) as [[[rs3 ri3] b3]|] eqn:R3; [|discriminate]; cbn [bind] in E.
      assert (N1 : ~ In PosS (map fst ((PosP, q_p x) :: (PosO, q_o x) ::
                match q_g x with Some g => [(PosG, g)] | None => [] end)))
        by (destruct (q_g x); cbn; intuition discriminate).
      assert (N2 : ~ In PosP (map fst ((PosO, q_o x) ::
                match q_g x with Some g => [(PosG, g)] | None => [] end)))
        by (destruct (q_g x); cbn; intuition discriminate).
      assert (N3 : ~ In PosO (map fst match q_g x with Some g => [(PosG, g)] | None => [] end))
        by (destruct (q_g x); cbn; intuition discriminate).
      destruct (i_unseat _ _ _ _ _ _ _ _ rest _ _ _ _ _ J0 N1 Hu (sh_kept _ _ B) (sh_shows _ _ B) R1)
        as (st1 & sw1 & w1 & Eu1 & J1 & K1 & S1).
      destruct (i_unseat _ _ _ _ _ _ _ _ rest _ _ _ _ _ J1 N2 Hu K1 S1 R2)
        as (st2 & sw2 & w2 & Eu2 & J2 & K2 & S2).
      destruct (i_unseat _ _ _ _ _ _ _ _ rest _ _ _ _ _ J2 N3 Hu K2 S2 R3)
        as (st3 & sw3 & w3 & Eu3 & J3 & K3 & S3).
      cbn [map snd] in *; rewrite Eu1, Eu2, Eu3.
      destruct (q_g x) as [g|]; cbn [map snd] in *.
      - destruct (i_release _ _ _ _ _ g _) as [[[rs4 ri4] b4]|] eqn:R4; [|discriminate]; cbn in E; inv E.
        destruct (i_unseat _ _ _ _ _ _ _ _ rest _ _ _ _ _ J3 (fun H => H) Hu K3 S3 R4)
          as (st4 & sw4 & w4 & Eu4 & J4 & K4 & S4).
        exists st4, sw4; cbn [map snd] in Eu4; rewrite Eu4; auto.
      - inv E; exists st3, sw3; auto. }
    destruct Em as (st' & sw' & Eu & K' & S'); rewrite Eu.
    assert (Hg : forall k, nth_error (quad_comps x) 3 = Some k <-> q_g x = Some k).
    { intros k; unfold quad_comps; destruct (q_g x); cbn; reflexivity. }
    assert (Hd : forall g, used rest g = true <-> sget (id_resources d1) g <> None).
    { intros g; rewrite <- Hus; split.
      - intros (p & j & H) Hn; exact (iri_dead _ _ _ _ (ii_res _ _ _ I1) _ Hn _ _ H).
      - intros H; destruct (sget (id_resources d1) g) as [y|] eqn:Ey; [|congruence].
        destruct (iri_use _ _ _ _ (ii_res _ _ _ I1) _ _ Ey) as [_ H']; exact H'. }
    assert (NG : forall k, In k (id_ng d1) <-> In k (id_ng d) /\ ~ (q_g x = Some k /\ used rest k = false)).
    { intros k; destruct (q_g x) as [g|].
      - destruct Sg as [[Sg1 ->]|[Sg1 ->]].
        + rewrite (in_ns_remove _ _ _ (sh_ns _ _ B)).
          assert (used rest g = false).
          { destruct (used rest g) eqn:Eg; [|reflexivity]; apply Hd in Eg; congruence. }
          split; intros [H1 H2]; split; [exact H2|intros [H3 _]; congruence| |exact H1].
          intros ->; apply H2; auto.
        + apply Hd in Sg1; split; [|tauto]; intros H; split; [exact H|intros [Ek Hk]; inv Ek; congruence].
      - rewrite Sg; split; [|tauto]; intros H; split; [exact H|intros [Ek _]; discriminate]. }
    assert (Mk : forall a b, a && negb (b && true) = true <-> a = true /\ ~ b = true).
    { intros [] []; cbn; intuition congruence. }
    split; cbn [seats shown held marked].
    - exact K'.
    - exact S'.
    - exact Hrest.
    - intros k; cbn [Nat.ltb Nat.leb orb]; rewrite Mk, nth_is_true, (sh_s _ _ B), Ss.
      rewrite (in_ns_remove _ _ _ (proj1 (ii_s _ _ _ I))); cbn; intuition congruence.
    - intros k; cbn [Nat.ltb Nat.leb orb]; rewrite Mk, nth_is_true, (sh_p _ _ B), Sp.
      rewrite (in_ns_remove _ _ _ (proj1 (ii_p _ _ _ I))); cbn; intuition congruence.
    - intros k; cbn [Nat.ltb Nat.leb orb]; rewrite Mk, nth_is_true, (sh_o _ _ B), So.
      rewrite (in_ns_remove _ _ _ (proj1 (ii_o _ _ _ I))); cbn; intuition congruence.
    - intros k; cbn [Nat.ltb Nat.leb orb]; rewrite NG, <- (sh_ng _ _ B), <- Hg, <- nth_is_true.
      destruct (marked sh 3 k), (nth_is (quad_comps x) 3 k), (used rest k); cbn; intuition congruence.
    - destruct (q_g x); [destruct Sg as [[_ ->]|[_ ->]]; [apply ns_remove_sorted|]|rewrite Sg]; apply (sh_ns _ _ B).
    - intros k Hk; apply NG in Hk as [Hk _].
      pose proof (unseat_length cmp rest (quad_comps x) (seats sh) (shown sh)) as Hlen.
      rewrite Eu in Hlen; cbn in Hlen; pose proof (sh_lt _ _ B _ Hk); lia.
  Qed.

  (** ** Histories *)
  Lemma extend_changes_ext l : forall s s' : list (quad R),
    (forall q, In q s <-> In q s') -> extend_changes qcmp s l = extend_changes qcmp s' l.
  Proof.
    induction l as [|x l IH]; intros s s' H; cbn; [reflexivity|].
    rewrite (mem_iff L x s s') by apply H.
    destruct (mem qcmp x s'); [now apply IH|]; f_equal; apply IH.
    intros q; rewrite !(in_add LQ), H; reflexivity.
  Qed.

  Lemma set_changes_ext (s s' : list (quad R)) o :
    (forall q, In q s <-> In q s') -> set_changes qcmp s o = set_changes qcmp s' o.
  Proof.
    intros H; destruct o as [q|q|l|q| | | |]; cbn; try reflexivity.
    - now rewrite (mem_iff L q s s') by apply H.
    - now rewrite (mem_iff L q s s') by apply H.
    - now apply extend_changes_ext.
  Qed.

  Lemma i_shelf_insert d s q d' sh :
    id_rep (cmp:=cmp) d s -> ~ In q s -> ishelved d sh -> id_insert cmp keep d q = Some (true, d') ->
    ishelved d' (shift sh (true, q)).
  Proof.
    intros [Hn (vs & I)] Hq B E.
    assert (Hq' : ~ In q (sorted_elements qcmp s)) by now rewrite in_sorted_elements.
    exact (i_arrive _ _ _ _ _ _ I B Hq' E).
  Qed.

  Lemma i_shelf_remove d s i q d' sh :
    id_rep (cmp:=cmp) d s -> i_quad_at (id_resources d) (id_quads d) i = Some q ->
    ishelved d sh -> id_remove_by_index cmp d i true = Some d' -> ishelved d' (shift sh (false, q)).
  Proof. intros [Hn (vs & I)] Hi B E; exact (i_depart _ _ _ _ _ _ _ I B Hi E). Qed.

  Lemma i_shelf_extend l : forall d s0 K n m d' sh,
    istate (cmp:=cmp) d s0 K n m -> ishelved d sh -> id_extend cmp keep d l = Some d' ->
    ishelved d' (fold_left shift (extend_changes qcmp (apply qcmp m s0) l) sh).
  Proof.
    induction l as [|q l IH]; intros d s0 K n m d' sh H B E; cbn in E; [inv E; exact B|].
    cbn [extend_changes]; destruct (mem qcmp q (apply qcmp m s0)) eqn:Em.
    - rewrite (id_insert_dup L keep d _ q (is_rep _ _ _ _ _ H)) in E by now apply (mem_true LQ).
      cbn in E; eapply IH; eauto.
    - destruct (istate_insert L keep _ _ _ _ _ q H) as (d1 & E1 & H1); [now apply (mem_false LQ)|].
      rewrite E1 in E; cbn in E.
      assert (B1 := i_shelf_insert _ _ q _ _ (is_rep _ _ _ _ _ H)
                      (proj1 (mem_false LQ _ _) Em) B E1).
      pose proof (IH _ _ _ _ _ _ _ H1 B1 E) as G; rewrite apply_app in G; exact G.
  Qed.

  Lemma i_shelf_remove_all idx : forall d s0 K n m b b' d' sh,
    istate (cmp:=cmp) d s0 K n m -> NoDup idx ->
    (forall i, In i idx -> sget (id_quads d) i <> None) -> ishelved d sh ->
    id_remove_all cmp keep idx d b = Some (b', d') ->
    exists qs, mapM (i_quad_at (id_resources d) (id_quads d)) idx = Some qs /\
      ishelved d' (fold_left shift (removals qs) sh).
  Proof.
    induction idx as [|i idx IH]; intros d s0 K n m b b' d' sh H Hn Hl B E; cbn in E.
    - inv E; exists []; auto.
    - inv Hn; destruct (i_quad_at (id_resources d) (id_quads d) i) as [q|] eqn:Hq; [|discriminate].
      cbn in E; destruct (istate_remove_by_index L _ _ _ _ _ _ _ H Hq) as (d1 & E1 & H1 & y & D).
      rewrite E1 in E; cbn in E; destruct (bg_insert _ _ _ _) as [[? b1]|]; [|discriminate]; cbn in E.
      assert (B1 := i_shelf_remove _ _ _ _ _ _ (is_rep _ _ _ _ _ H) Hq B E1).
      destruct D as (Er & M & _).
      assert (Hl1 : forall j, In j idx -> sget (id_quads d1) j <> None).
      { intros j Hj; rewrite (sget_sremove _ _ _ _ _ Er).
        destruct (j =? i) eqn:Ej; [apply Nat.eqb_eq in Ej; subst; contradiction|].
        apply Hl; now right. }
      destruct (IH _ _ _ _ _ _ _ _ _ H1 H3 Hl1 B1 E) as (qs & Eqs & B').
      exists (q :: qs); split; [|exact B']; cbn; rewrite Hq; cbn.
      assert (mapM (i_quad_at (id_resources d) (id_quads d)) idx = Some qs) as ->; [|reflexivity].
      rewrite <- Eqs; apply mapM_ext; intros j Hj.
      destruct (mapM_in_inv _ _ _ _ Eqs Hj) as (z & Hz & _); rewrite Hz.
      unfold i_quad_at in *; rewrite (sget_sremove _ _ _ _ _ Er) in Hz.
      destruct (j =? i); [discriminate|].
      destruct (sget (id_quads d) j); [|discriminate]; cbn in *; eapply iqwr_mono; eauto.
  Qed.

  Lemma i_shelf_extract n : forall cap d pm s0 K k m qs d' sh,
    istate (cmp:=cmp) d s0 K k m -> ishelved d sh ->
    pm_extract cmp n cap d pm = Some (qs, d') ->
    (exists t, trace cap (id_quads d) pm t) ->
    ishelved d' (fold_left shift (removals qs) sh).
  Proof.
    induction n as [|n IH]; intros cap d m0 s0 K k m qs d' sh H B E T; [cbn in E; inv E; exact B|].
    destruct T as (t & T); cbn [pm_extract] in E; destruct T as [m1 Km En|m1 i x m1' t Km En Hi Hg T].
    - rewrite En in E; cbn in E; inv E; exact B.
    - rewrite En in E; cbn in E; destruct (is_rep _ _ _ _ _ H) as [_ (vs & I)].
      destruct (id_live_value _ _ _ _ _ I Hg) as (q & Hq & _).
      rewrite Hq in E; cbn in E.
      assert (Ha : i_quad_at (id_resources d) (id_quads d) i = Some q)
        by (unfold i_quad_at; now rewrite Hg).
      destruct (istate_remove_by_index L _ _ _ _ _ _ _ H Ha) as (d1 & Ed & H1 & y & D).
      rewrite Ed in E; cbn in E.
      assert (B1 := i_shelf_remove _ _ _ _ _ _ (is_rep _ _ _ _ _ H) Ha B Ed).
      destruct (pm_extract cmp n cap d1 m1') as [[qs1 d2]|] eqn:E2; [|discriminate]; cbn in E; inv E.
      apply (IH _ _ _ _ _ _ _ _ _ _ H1 B1 E2); exists t.
      eapply trace_local; [exact T|]; intros j Hj; destruct D as (D & _).
      rewrite (sget_sremove _ _ _ _ _ D); destruct (j =? i) eqn:Ej; [|reflexivity].
      apply Nat.eqb_eq in Ej; lia.
  Qed.

  Lemma i_shelf_set_step d s0 K n m o x d' sh :
    istate (cmp:=cmp) d s0 K n m -> ishelved d sh -> id_step cmp keep d (IOp o) = Some (x, d') ->
    ishelved d' (fold_left shift (set_changes qcmp (apply qcmp m s0) o) sh).
  Proof.
    intros H B E; destruct o as [q|q|l|q| | | |]; cbn [id_step set_changes] in *.
    - destruct (id_insert cmp keep d q) as [[b d1]|] eqn:E1; [|discriminate]; cbn in E; inv E.
      destruct (mem qcmp q (apply qcmp m s0)) eqn:Em.
      + rewrite (id_insert_dup L keep d _ q (is_rep _ _ _ _ _ H)) in E1 by now apply (mem_true LQ).
        inv E1; exact B.
      + assert (Hq : ~ In q (apply qcmp m s0)) by now apply (mem_false LQ).
        destruct (istate_insert L keep _ _ _ _ _ q H Hq) as (d2 & E2 & _).
        rewrite E1 in E2; inv E2; exact (i_shelf_insert _ _ _ _ _ (is_rep _ _ _ _ _ H) Hq B E1).
    - destruct (id_remove cmp d q) as [[b d1]|] eqn:E1; [|discriminate]; cbn in E; inv E.
      pose proof (is_rep _ _ _ _ _ H) as Hr; pose proof (id_remove_eq L _ _ q Hr) as E2.
      destruct (mem qcmp q (apply qcmp m s0)) eqn:Em.
      + destruct E2 as (i & Hi & E2); rewrite E1 in E2.
        destruct (id_remove_by_index cmp d i true) as [d2|] eqn:E3; [|discriminate]; cbn in E2; inv E2.
        exact (i_shelf_remove _ _ _ _ _ _ Hr Hi B E3).
      + rewrite E1 in E2; inv E2; exact B.
    - destruct (id_extend cmp keep d l) as [d1|] eqn:E1; [|discriminate]; cbn in E; inv E.
      eapply i_shelf_extend; eauto.
    - destruct (id_contains cmp d q); [|discriminate]; cbn in E; inv E; exact B.
    - inv E; exact B.
    - inv E; exact B.
    - destruct (id_iter d); [|discriminate]; cbn in E; inv E; exact B.
    - destruct (id_into_iter d); [|discriminate]; cbn in E; inv E; exact B.
  Qed.

  (** The quads at increasing places. *)
  Lemma positions_present {A} (P : A -> bool) (s : list (option A)) :
    mapM (pget s) (positions P 0 s) = Some (filter P (present s)).
  Proof.
    assert (Sh : forall (t : list (option A)) n e (u : list (option A)), length u = n -> 
              mapM (pget (u ++ e :: t)) (positions P (S n) t) = mapM (pget ((u ++ [e]) ++ t)) (positions P (length (u ++ [e])) t)).
    { intros t n e u Hu; rewrite app_length, Hu, Nat.add_1_r, <- app_assoc; reflexivity. }
    assert (G : forall (t u : list (option A)),
              mapM (pget (u ++ t)) (positions P (length u) t) = Some (filter P (present t))).
    { induction t as [|e t IH]; intros u; [reflexivity|].
      assert (Hp : pget (u ++ e :: t) (length u) = e).
      { unfold pget; rewrite nth_error_app2, Nat.sub_diag by lia; cbn; now destruct e. }
      destruct e as [x|]; cbn [positions present flat_map app filter].
      - destruct (P x); cbn [mapM].
        + rewrite Hp; cbn [bind]; rewrite (Sh t (length u) (Some x) u eq_refl), IH; reflexivity.
        + rewrite (Sh t (length u) (Some x) u eq_refl); apply IH.
      - rewrite (Sh t (length u) None u eq_refl); apply IH. }
    exact (G s []).
  Qed.

  Lemma at_positions {A} (P : A -> bool) (s : list (option A)) idx :
    StronglySorted Peano.lt idx ->
    (forall i, In i idx <-> exists x, pget s i = Some x /\ P x = true) ->
    mapM (pget s) idx = Some (filter P (present s)).
  Proof.
    intros Hs Hi; rewrite (lt_sorted_ext idx (positions P 0 s)).
    - apply positions_present.
    - exact Hs.
    - apply positions_sorted.
    - intros i; rewrite Hi, in_positions, Nat.sub_0_r; split; [intros H; split; [lia|exact H]|tauto].
  Qed.

  Lemma i_shelf_remove_graph d s0 K n m st g b ts d' sh :
    istate (cmp:=cmp) d s0 K n m -> id_kept d st -> ishelved d sh ->
    id_remove_graph cmp keep d g = Some (Some b, d') -> bg_iter b = Some ts ->
    ishelved d' (fold_left shift (removals (filter
      (fun q => mem qcmp q (map (fun t => Quad (t_s t) (t_p t) (t_o t) g) ts)) (present (fst st)))) sh).
  Proof.
    intros H Hk B E Eb; unfold id_remove_graph in E.
    pose proof (is_rep _ _ _ _ _ H) as Hr; pose proof Hr as [_ (vs & I)].
    assert (LT : ord_laws (triple_cmp cmp)) by now apply triple_cmp_laws.
    destruct (id_graph_indexes L d _ g Hr) as (r & Eg & Hg).
    assert (Sg : forall idx, r = Some idx -> StronglySorted Peano.lt idx).
    { intros idx ->; destruct g as [g|].
      - destruct (i_index_of_resource cmp (id_resources d) (id_ri d) g) as [[j|]|]; cbn in Eg; [|discriminate|discriminate].
        destruct (ns_mem j (id_ng d)); [|discriminate].
        destruct (sget (id_resources d) j) as [y|] eqn:Ey; [|discriminate]; cbn in Eg; inv Eg.
        destruct (iri_use _ _ _ _ (ii_res _ _ _ I) _ _ Ey) as [Hu _]; destruct (Hu PosG) as [Hs _].
        apply nsorted_lt, Hs.
      - cbn in Eg; inv Eg; apply nsorted_lt, (ii_dg _ _ _ I). }
    rewrite Eg in E; cbn [bind] in E; destruct r as [idx|]; [|cbn in E; inv E].
    destruct (id_remove_all cmp keep idx d bg_new) as [[b0 d1]|] eqn:E1; [|discriminate]; cbn [bind] in E; inv E.
    destruct Hg as (Hn & Hl & Hc).
    assert (Hlive : forall i, In i idx -> sget (id_quads d) i <> None).
    { intros i Hi; destruct (Hl i Hi) as (q & Hq & _); unfold i_quad_at in Hq.
      destruct (sget (id_quads d) i); discriminate. }
    destruct (istate_remove_all L keep idx d s0 K n m bg_new [] H Hn Hlive (bg_rep_new (cmp:=cmp)))
      as (d2 & b2 & qs & E2 & Eqs & H2 & Hb).
    rewrite E1 in E2; inv E2.
    destruct (i_shelf_remove_all _ _ _ _ _ _ _ _ _ _ H Hn Hlive B E1) as (qs' & Eqs' & B').
    rewrite Eqs in Eqs'; inv Eqs'.
    assert (Hts : forall t, In t ts <-> In t (map (fun q => fst (into_triple q)) qs')).
    { assert (Fold : forall l s t, In t (fold_left (fun s x => add (triple_cmp cmp) x s) l s) <-> In t s \/ In t l).
      { induction l as [|z l IH]; intros s' t; cbn; [tauto|].
        rewrite IH, (in_add LT); intuition congruence. }
      intros t; rewrite (bg_iter_rep _ _ Hb) in Eb; inv Eb.
      rewrite in_sorted_elements, Fold; cbn; tauto. }
    destruct Hk as (K1 & K2 & K3).
    assert (Eq : mapM (pget (fst st)) idx = Some qs').
    { rewrite <- Eqs; apply mapM_ext; intros i _; now rewrite K3. }
    rewrite (at_positions (fun q => mem qcmp q (map (fun t => Quad (t_s t) (t_p t) (t_o t) g) ts))) in Eq.
    - injection Eq as Eq; rewrite Eq; exact B'.
    - now apply Sg.
    - intros i; split.
      + intros Hi; destruct (Hl i Hi) as (q & Hq & _ & Hqg); exists q; split; [now rewrite <- K3|].
        apply (mem_true LQ), in_map_iff; exists (Triple (q_s q) (q_p q) (q_o q)); split.
        * destruct q; cbn in *; now rewrite Hqg.
        * apply Hts, in_map_iff; exists q; split; [reflexivity|].
          apply (mapM_in _ _ _ _ Eqs); eauto.
      + intros (q & Hq & Hm); rewrite <- K3 in Hq; apply (mem_true LQ), in_map_iff in Hm as (t & Et & Ht).
        apply Hts, in_map_iff in Ht as (q' & Eq' & Hq').
        apply (mapM_in _ _ _ _ Eqs) in Hq' as (j & Hj & Hq').
        destruct (Hl j Hj) as (q2 & Hq2 & _ & Hqg); rewrite Hq' in Hq2; injection Hq2 as Hq2; subst q2.
        assert (Eqq : q' = q) by (destruct q', q; cbn in *; subst; inv Et; reflexivity).
        subst q'; assert (i = j) as -> by (eapply (id_index_inj L _ _ _ i j q I); eauto); exact Hj.
  Qed.

  Lemma i_shelf_step d s0 K n m st o x d' sh :
    istate (cmp:=cmp) d s0 K n m -> id_kept d st -> ishelved d sh ->
    id_step cmp keep d o = Some (x, d') ->
    ishelved d' (fold_left shift (placed_changes cmp st o x) sh).
  Proof.
    intros H Hk B E; destruct o as [o|g|c k spare].
    - cbn [placed_changes]; rewrite (set_changes_ext _ (apply qcmp m s0)).
      + exact (i_shelf_set_step _ _ _ _ _ _ _ _ _ H B E).
      + intros q; apply (id_kept_in _ _ _ q (is_rep _ _ _ _ _ H) Hk).
    - cbn [id_step] in E; destruct (id_remove_graph cmp keep d g) as [[b d1]|] eqn:E1; [|discriminate].
      cbn in E; destruct b as [b|].
      + destruct (bg_iter b) as [ts|] eqn:Eb; [|discriminate]; cbn in E; inv E.
        exact (i_shelf_remove_graph _ _ _ _ _ _ _ _ _ _ _ H Hk B E1 Eb).
      + inv E; cbn.
        destruct (istate_remove_graph L keep d s0 K n m g H) as (b1 & d2 & E2 & D).
        rewrite E1 in E2; injection E2 as <- <-; destruct D as [-> _]; exact B.
    - cbn [id_step] in E; destruct (id_extract cmp d spare c k) as [[qs d1]|] eqn:E1; [|discriminate].
      cbn in E; inv E; unfold id_extract in E1.
      pose proof (is_rep _ _ _ _ _ H) as Hr; pose proof Hr as [_ (vs & I)].
      destruct (pm_new_spec L _ _ _ c I) as (m0 & Em & M); rewrite Em in E1; cbn [bind] in E1.
      destruct (trace_found L _ _ spare _ _ _ _ Hr M) as (t & _ & T & _).
      exact (i_shelf_extract _ _ _ _ _ _ _ _ _ _ _ H B E1 (ex_intro _ t T)).
  Qed.

  Lemma i_shelf_run ops : forall d s0 K n m st xs d' sh,
    istate (cmp:=cmp) d s0 K n m -> id_kept d st -> ishelved d sh ->
    run (id_step cmp keep) d ops = Some (xs, d') ->
    ishelved d' (fold_left shift (placed_log cmp st ops xs) sh).
  Proof.
    induction ops as [|o ops IH]; intros d s0 K n m st xs d' sh H Hk B E; cbn [run] in E; [inv E; exact B|].
    destruct (id_step cmp keep d o) as [[x d1]|] eqn:E1; [|discriminate].
    destruct (run (id_step cmp keep) d1 ops) as [[ys d2]|] eqn:E2; [|discriminate]; inv E.
    destruct (istate_step L keep _ _ _ _ _ o H) as (x3 & d3 & E3 & _ & H3); rewrite E1 in E3; inv E3.
    cbn [placed_log]; rewrite fold_left_app.
    exact (IH _ _ _ _ _ _ _ _ _ H3 (id_kept_step L keep _ _ _ _ _ _ _ _ _ H Hk E1)
             (i_shelf_step _ _ _ _ _ _ _ _ _ _ H Hk B E1) E2).
  Qed.

  (** ** The conversion *)
  Lemma gap_ents {Y} n : forall s : slab Y,
    ents (gap s n) = ents s ++ repeat None n /\
    free (gap s n) = rev (seq (length (ents s)) n) ++ free s.
  Proof.
    induction n as [|n IH]; intros s; cbn [gap repeat seq rev]; [now rewrite app_nil_r|].
    destruct (IH (Slab (ents s ++ [None]) (length (ents s) :: free s))) as [-> ->]; cbn [ents free].
    rewrite app_length, Nat.add_1_r, <- !app_assoc; split; reflexivity.
  Qed.

  Lemma vacancies_from_app {A} (s t : list (option A)) : forall n,
    vacancies_from n (s ++ t) = vacancies_from (n + length s) t ++ vacancies_from n s.
  Proof.
    induction s as [|[x|] s IH]; intros n; cbn [app vacancies_from length].
    - now rewrite Nat.add_0_r, app_nil_r.
    - rewrite IH; do 2 f_equal; lia.
    - rewrite IH, <- app_assoc; do 2 f_equal; lia.
  Qed.

  Lemma vacancies_from_gap {A} g : forall n, vacancies_from n (repeat (@None A) g) = rev (seq n g).
  Proof. induction g as [|g IH]; intros n; cbn; [reflexivity|]; now rewrite IH. Qed.

  Lemma trim_gap {A} g : trim (repeat (@None A) g) = [].
  Proof. induction g as [|g IH]; cbn; [reflexivity|]; now rewrite IH. Qed.

  Lemma trim_some {A} g (x : A) s : trim (repeat None g ++ Some x :: s) = repeat None g ++ Some x :: trim s.
  Proof. induction g as [|g IH]; cbn; [reflexivity|]; rewrite IH; destruct g; reflexivity. Qed.

  Lemma scollect_shape {Y Z} (f : Y -> Z) (s : list (option Y)) : forall g (a : slab Z),
    let c := scollect_from a (map (fun '(i, r) => (i, f r)) (spairs_from (length (ents a) + g) s)) in
    let t := trim (repeat None g ++ s) in
    length (ents c) = length (ents a) + length t /\
    free c = vacancies_from (length (ents a)) t ++ free a.
  Proof.
    induction s as [|[x|] s IH]; intros g a; cbn zeta; cbn [spairs_from map scollect_from].
    - rewrite app_nil_r, trim_gap; cbn; split; [lia|reflexivity].
    - replace (length (ents a) + g - length (ents a)) with g by lia.
      destruct (gap_ents g a) as [Eg Ef]; rewrite Eg, Ef, trim_some.
      specialize (IH 0 (Slab ((ents a ++ repeat None g) ++ [Some (f x)])
                          (rev (seq (length (ents a)) g) ++ free a))).
      cbn zeta in IH; cbn [ents free repeat app] in IH.
      rewrite !app_length, repeat_length in IH; cbn [length] in IH.
      replace (length (ents a) + g + 1 + 0) with (S (length (ents a) + g)) in IH by lia.
      destruct IH as [-> ->]; split.
      + rewrite app_length, repeat_length; cbn [length]; lia.
      + rewrite vacancies_from_app, vacancies_from_gap, repeat_length; cbn [vacancies_from].
        rewrite <- app_assoc; do 2 f_equal; lia.
    - specialize (IH (S g) a); cbn zeta in IH; rewrite Nat.add_succ_r in IH.
      replace (repeat None (S g) ++ s) with (repeat None g ++ None :: s) in IH; [exact IH|].
      replace (None :: s) with ([None] ++ s) by reflexivity; rewrite app_assoc; f_equal.
      change [@None Y] with (repeat (@None Y) 1); rewrite <- repeat_app; f_equal; lia.
  Qed.

  Lemma trim_map {Y Z} (f : Y -> Z) (s : list (option Y)) :
    trim (map (option_map f) s) = map (option_map f) (trim s).
  Proof.
    induction s as [|[x|] s IH]; cbn; [reflexivity|now rewrite IH|].
    rewrite IH; destruct (trim s); reflexivity.
  Qed.

  Lemma vacancies_from_map {Y Z} (f : Y -> Z) (s : list (option Y)) : forall n,
    vacancies_from n (map (option_map f) s) = vacancies_from n s.
  Proof. induction s as [|[x|] s IH]; intros n; cbn; [reflexivity|auto|now rewrite IH]. Qed.

  Lemma trim_pget {A} (s : list (option A)) i : pget (trim s) i = pget s i.
  Proof.
    revert i; induction s as [|[x|] s IH]; intros i; cbn; [reflexivity| |].
    - destruct i as [|i]; [reflexivity|exact (IH i)].
    - destruct i as [|i].
      + destruct (trim s); reflexivity.
      + specialize (IH i); destruct (trim s) as [|e t]; [|exact IH].
        transitivity (pget (@nil (option A)) i); [destruct i; reflexivity|exact IH].
  Qed.

  Lemma id_index_ents idx : forall (d d' : @idataset R), id_index idx d = Some d' ->
    length (ents (id_resources d')) = length (ents (id_resources d)) /\
    free (id_resources d') = free (id_resources d).
  Proof.
    assert (U : forall (rs rs' : slab (iresource R)) p k i, i_use rs p k i = Some rs' ->
              length (ents rs') = length (ents rs) /\ free rs' = free rs).
    { intros rs rs' p k i E; unfold i_use in E; destruct (sget rs k); [|discriminate]; cbn in E; inv E.
      apply sset_ents. }
    induction idx as [|i idx IH]; intros d d' E; cbn in E; [now inv E|].
    destruct (sget (id_quads d) i) as [q|]; [|discriminate]; cbn in E.
    destruct (i_use _ PosS _ _) as [r1|] eqn:U1; [|discriminate]; cbn in E; apply U in U1 as [A1 B1].
    destruct (i_use _ PosP _ _) as [r2|] eqn:U2; [|discriminate]; cbn in E; apply U in U2 as [A2 B2].
    destruct (i_use _ PosO _ _) as [r3|] eqn:U3; [|discriminate]; cbn in E; apply U in U3 as [A3 B3].
    destruct (q_g q).
    - destruct (i_use _ PosG _ _) as [r4|] eqn:U4; [|discriminate]; cbn in E; apply U in U4 as [A4 B4].
      apply IH in E as [-> ->]; cbn; split; congruence.
    - apply IH in E as [-> ->]; cbn; split; congruence.
  Qed.

  Lemma i_reshelve b ks vs sh d :
    bd_inv (cmp:=cmp) b ks vs -> bshelved b sh -> id_from_non_indexed b = Some d ->
    ishelved d (reshelve sh).
  Proof.
    intros I B E; destruct (convert_spec _ _ _ I) as (d1 & E1 & I1 & Q & _ & Hs & Hng & Hat).
    rewrite E in E1; inv E1.
    assert (Ent : forall z kz, ient d1 z kz <-> bent b z kz).
    { intros z kz; split.
      - intros (i & x & Hx & Hz & ->); rewrite Q in Hx; exists i, x; split; [exact Hx|]; split; [|reflexivity].
        pose proof (Hat i) as A; unfold i_quad_at, b_quad_at in A; rewrite Q, Hx in A; cbn in A; congruence.
      - intros (i & x & Hx & Hz & ->); exists i, x; rewrite Q; split; [exact Hx|]; split; [|reflexivity].
        pose proof (Hat i) as A; unfold i_quad_at, b_quad_at in A; rewrite Q, Hx in A; cbn in A; congruence. }
    assert (Hval : forall k, ir_val (id_resources d1) k = br_val (bd_resources b) k).
    { assert (V : forall k w, ir_val (id_resources d1) k = Some w <-> br_val (bd_resources b) k = Some w).
      { intros k w; rewrite <- (i_uses _ _ _ k w I1), <- (b_uses _ _ _ k w I).
        split; intros (z & kz & p & Hz & H); exists z, kz, p; (split; [|exact H]); now apply Ent. }
      intros k; destruct (ir_val (id_resources d1) k) as [w|] eqn:Ew.
      - symmetry; now apply V.
      - destruct (br_val (bd_resources b) k) as [w|] eqn:Ew'; [|reflexivity].
        apply V in Ew'; congruence. }
    assert (Hm : forall p n, (forall x : quad nat, nth_error (quad_comps x) n = slot p x) -> forall k,
              existsb (fun e => nth_is (snd e) n k) (held sh) = true <->
              exists i, IndexedDatasetProofs.uses (id_quads d1) p k i).
    { intros p n Hp k; rewrite existsb_exists; split.
      - intros ([z kz] & Hin & Hk); apply nth_is_true in Hk; cbn in Hk.
        apply (bs_held _ _ B), Ent in Hin as (i & x & Hx & _ & ->).
        exists i, x; split; [exact Hx|]; now rewrite <- Hp.
      - intros (i & x & Hx & Hk); destruct (id_live_value _ _ _ _ _ I1 Hx) as (z & Hz & _).
        exists (z, quad_comps x); split; [|apply nth_is_true; cbn [snd]; now rewrite Hp].
        apply (bs_held _ _ B), Ent; exists i, x; auto. }
    destruct (bs_kept _ _ B) as (K1 & K2 & K3).
    set (s := fst (seats sh)) in *.
    assert (Es : s = map (option_map br_value) (ents (bd_resources b))).
    { apply nth_error_ext_list; intros j; specialize (K3 j); unfold pget, br_val, sget in K3.
      rewrite nth_error_map.
      destruct (nth_error (ents (bd_resources b)) j) as [e|] eqn:Ee, (nth_error s j) as [e'|] eqn:Ee';
        cbn in *; [|exfalso|exfalso|reflexivity].
      - f_equal; destruct e, e'; cbn in K3 |- *; congruence.
      - apply nth_error_None in Ee'; assert (j < length (ents (bd_resources b))) by (apply nth_error_Some; congruence); lia.
      - apply nth_error_None in Ee; assert (j < length s) by (apply nth_error_Some; congruence); lia. }
    unfold id_from_non_indexed in E; pose proof (id_index_ri _ _ _ E) as Eri; cbn in Eri.
    pose proof (id_index_ents _ _ _ E) as [El Ef]; cbn in El, Ef.
    pose proof (scollect_shape (fun r => IRes (br_value r) [] [] [] []) (ents (bd_resources b)) 0 slab_new) as [Sl Sf].
    cbn [repeat app length ents free slab_new Nat.add] in Sl, Sf.
    assert (Hk : kept (ir_val (id_resources d1)) (id_resources d1) (trim s, vacancies_from 0 (trim s))).
    { split; [|split]; cbn [fst snd].
      - rewrite Es, trim_map, map_length, El; exact Sl.
      - rewrite Es, trim_map, vacancies_from_map, Ef, <- (app_nil_r (vacancies_from _ _)); exact Sf.
      - intros i; rewrite trim_pget, Hval; apply K3. }
    split; cbn [seats shown held marked reshelve]; fold s.
    - exact Hk.
    - intros w k; rewrite Hval, Eri; apply (bs_shows _ _ B).
    - intros z kz; rewrite (bs_held _ _ B); symmetry; apply Ent.
    - intros k; rewrite (Hm PosS 0 (fun x => eq_refl)); split.
      + intros (i & x & Hx & Hk'); cbn in Hk'; inv Hk'; apply (Hs _ _ Hx).
      + apply (ii_s _ _ _ I1).
    - intros k; rewrite (Hm PosP 1 (fun x => eq_refl)); split.
      + intros (i & x & Hx & Hk'); cbn in Hk'; inv Hk'; apply (Hs _ _ Hx).
      + apply (ii_p _ _ _ I1).
    - intros k; rewrite (Hm PosO 2 (fun x => eq_refl)); split.
      + intros (i & x & Hx & Hk'); cbn in Hk'; inv Hk'; apply (Hs _ _ Hx).
      + apply (ii_o _ _ _ I1).
    - intros k; rewrite (Hm PosG 3); [|intros x; unfold quad_comps; destruct (q_g x) eqn:Eg; cbn; congruence].
      split; [intros (i & Hu); exact (proj2 (ii_ng _ _ _ I1) _ _ Hu)|apply Hng].
    - apply (ii_ng _ _ _ I1).
    - intros k Hin; destruct (Hng _ Hin) as (i & Hu).
      destruct (irinv_live _ _ _ _ _ _ _ (ii_res _ _ _ I1) Hu) as (v & Hv).
      exact (kept_lt _ _ _ _ _ Hk Hv).
  Qed.

  Lemma i_shelf_reached ops0 ops xs d :
    id_reached cmp keep ops0 ops xs d -> ishelved d (shelf_after cmp keep ops0 ops xs).
  Proof.
    intros (xs0 & b & d0 & Eb & E0 & E).
    destruct (start_spec L keep _ _ _ Eb) as (d0' & E0' & H0); rewrite E0 in E0'; inv E0'.
    pose proof (bd_run_rep_new L keep _ _ _ Eb) as [Hn (vs & I)].
    pose proof (i_reshelve _ _ _ _ _ I (b_shelf_start L keep _ _ _ Eb) E0) as B0.
    assert (K0 : id_kept d0' (place_ops qcmp ops0)).
    { exact (reached_kept L keep ops0 [] [] d0' (ex_intro _ xs0 (ex_intro _ b (ex_intro _ d0'
               (conj Eb (conj E0 eq_refl)))))). }
    exact (i_shelf_run _ _ _ _ _ _ _ _ _ _ H0 K0 B0 E).
  Qed.

  (** ** What is reported *)
  Lemma mapM_map {A B C} (f : A -> B) (g : B -> option C) l : mapM g (map f l) = mapM (fun x => g (f x)) l.
  Proof. induction l as [|x l IH]; cbn; [reflexivity|]; destruct (g (f x)); cbn; [now rewrite IH|reflexivity]. Qed.

  Lemma filter_map_S (mark : nat -> bool) l : filter mark (map S l) = map S (filter (fun k => mark (S k)) l).
  Proof. induction l as [|x l IH]; cbn; [reflexivity|]; destruct (mark (S x)); cbn; now rewrite IH. Qed.

  Lemma listing_filter {A} (s : list (option A)) : forall mark,
    listing mark s = mapM (pget s) (filter mark (seq 0 (length s))).
  Proof.
    induction s as [|e s IH]; intros mark; [reflexivity|].
    cbn [listing length seq filter]; rewrite IH, <- seq_shift, filter_map_S.
    assert (E : mapM (pget (e :: s)) (map S (filter (fun k => mark (S k)) (seq 0 (length s)))) =
                mapM (pget s) (filter (fun k => mark (S k)) (seq 0 (length s))))
      by (rewrite mapM_map; reflexivity).
    destruct (mark 0).
    - cbn [mapM]; rewrite E; destruct e as [x|]; reflexivity.
    - rewrite E; reflexivity.
  Qed.

  Lemma filter_sorted (P : nat -> bool) n : forall a, StronglySorted Peano.lt (filter P (seq a n)).
  Proof.
    induction n as [|n IH]; intros a; cbn; [constructor|].
    destruct (P a); [|apply IH]; constructor; [apply IH|]; rewrite Forall_forall; intros x Hx.
    apply filter_In in Hx as [Hx _]; apply in_seq in Hx; lia.
  Qed.

  Lemma marks_filter (mark : nat -> bool) l n :
    nsorted l -> (forall k, mark k = true <-> In k l) -> (forall k, In k l -> k < n) ->
    l = filter mark (seq 0 n).
  Proof.
    intros Hs Hm Hl; apply lt_sorted_ext; [now apply nsorted_lt|apply filter_sorted|].
    intros k; rewrite filter_In, in_seq, Hm; split; [|tauto]; intros H; split; [|exact H].
    specialize (Hl _ H); lia.
  Qed.

  Lemma list_marked d (sh : shelf (quad R) R) l mark :
    kept (ir_val (id_resources d)) (id_resources d) (seats sh) ->
    nsorted l -> (forall k, mark k = true <-> In k l) -> (forall k, In k l -> k < length (fst (seats sh))) ->
    id_values d l = listing mark (fst (seats sh)) /\ length l = tally mark (fst (seats sh)).
  Proof.
    intros (_ & _ & K) Hs Hm Hl; pose proof (marks_filter _ _ _ Hs Hm Hl) as E; split.
    - rewrite listing_filter, <- E; unfold id_values; apply mapM_ext; intros i _; apply K.
    - unfold tally; now rewrite <- E.
  Qed.

  Lemma present_count {Y A} (at_ : nat -> option A) (s : slab Y) st :
    kept at_ s st -> (forall i, at_ i = None <-> sget s i = None) -> slen s = length (present (fst st)).
  Proof.
    intros (K1 & _ & K3) H; unfold slen, spairs.
    assert (E : forall j, match nth_error (ents s) j, nth_error (fst st) j with
                          | Some (Some _), Some (Some _) | Some None, Some None | None, None => True
                          | _, _ => False
                          end).
    { intros j; specialize (H j); rewrite K3 in H; unfold pget, sget in H.
      destruct (nth_error (ents s) j) as [[y|]|] eqn:E1, (nth_error (fst st) j) as [[a|]|] eqn:E2;
        try exact Logic.I; try (destruct H as [H1 H2]; (specialize (H1 eq_refl) || specialize (H2 eq_refl)); discriminate).
      - apply nth_error_None in E2; assert (j < length (ents s)) by (apply nth_error_Some; congruence); lia.
      - apply nth_error_None in E1; assert (j < length (fst st)) by (apply nth_error_Some; congruence); lia. }
    clear - E; generalize 0; revert E; generalize (fst st) as t; generalize (ents s) as l.
    induction l as [|e l IH]; intros [|e' t] E n.
    - reflexivity.
    - destruct (E 0).
    - specialize (E 0); cbn in E; destruct e; destruct E.
    - pose proof (E 0) as E0; cbn in E0; specialize (IH t (fun j => E (S j))).
      destruct e, e'; cbn; try contradiction; [now rewrite IH|apply IH].
  Qed.

  Lemma id_listings_shelf ops0 ops xs d :
    id_reached cmp keep ops0 ops xs d ->
    let sh := shelf_after cmp keep ops0 ops xs in
    let s := fst (seats sh) in
    id_subjects d = listing (marked sh 0) s /\ id_predicates d = listing (marked sh 1) s /\
    id_objects d = listing (marked sh 2) s /\ id_named_graphs d = listing (marked sh 3) s /\
    id_subject_count d = tally (marked sh 0) s /\ id_predicate_count d = tally (marked sh 1) s /\
    id_object_count d = tally (marked sh 2) s /\ id_named_graph_count d = tally (marked sh 3) s /\
    id_resource_count d = length (present s) /\
    forall r, id_contains_resource cmp d r = Some (if shown sh r then true else false).
  Proof.
    intros H sh s; pose proof (i_shelf_reached _ _ _ _ H) as B; fold sh in B.
    destruct (reached_rep L keep _ _ _ _ H) as [_ (vs & I)].
    assert (U : forall p k i, IndexedDatasetProofs.uses (id_quads d) p k i -> k < length s).
    { intros p k i Hu; destruct (irinv_live _ _ _ _ _ _ _ (ii_res _ _ _ I) Hu) as (v & Hv).
      exact (kept_lt _ _ _ _ _ (sh_kept _ _ B) Hv). }
    destruct (ii_s _ _ _ I) as [Ns Us], (ii_p _ _ _ I) as [Np Up], (ii_o _ _ _ I) as [No Uo].
    destruct (list_marked d sh (id_s d) (marked sh 0) (sh_kept _ _ B) Ns (sh_s _ _ B)) as [L1 C1].
    { intros k Hk; destruct (Us _ Hk) as (i & Hu); eapply U; eauto. }
    destruct (list_marked d sh (id_p d) (marked sh 1) (sh_kept _ _ B) Np (sh_p _ _ B)) as [L2 C2].
    { intros k Hk; destruct (Up _ Hk) as (i & Hu); eapply U; eauto. }
    destruct (list_marked d sh (id_o d) (marked sh 2) (sh_kept _ _ B) No (sh_o _ _ B)) as [L3 C3].
    { intros k Hk; destruct (Uo _ Hk) as (i & Hu); eapply U; eauto. }
    destruct (list_marked d sh (id_ng d) (marked sh 3) (sh_kept _ _ B) (sh_ns _ _ B) (sh_ng _ _ B)
                (sh_lt _ _ B)) as [L4 C4].
    repeat split; try assumption.
    - apply (present_count _ _ _ (sh_kept _ _ B)); intros i; unfold ir_val.
      destruct (sget (id_resources d) i); cbn; split; congruence.
    - intros r; unfold id_contains_resource.
      destruct (i_index_of_resource_spec L _ _ _ _ r (ii_res _ _ _ I)) as (f & -> & Hf); cbn.
      rewrite (i_known _ _ _ _ r f I B Hf); destruct f; reflexivity.
  Qed.

  Lemma id_graph_shelf ops0 ops xs d g :
    id_reached cmp keep ops0 ops xs d ->
    match graph_of (shelf_after cmp keep ops0 ops xs) g with
    | None => id_remove_graph cmp keep d (Some g) = Some (None, d)
    | Some l => exists b d' ts, id_remove_graph cmp keep d (Some g) = Some (Some b, d') /\
        bg_iter b = Some ts /\ increasing (triple_cmp cmp) ts /\
        forall t, In t ts <-> In (Quad (t_s t) (t_p t) (t_o t) (Some g)) l
    end.
  Proof.
    intros H; pose proof (i_shelf_reached _ _ _ _ H) as B.
    set (sh := shelf_after cmp keep ops0 ops xs) in *.
    assert (LT : ord_laws (triple_cmp cmp)) by now apply triple_cmp_laws.
    assert (HS : exists s0 K n m, istate (cmp:=cmp) d s0 K n m).
    { destruct H as (xs0 & b & d0 & Eb & E0 & E).
      destruct (start_spec L keep _ _ _ Eb) as (d0' & E0' & H0); rewrite E0 in E0'; inv E0'.
      destruct (istate_run L keep ops _ _ _ _ _ H0) as (ys & d2 & E2 & _ & H2).
      rewrite E in E2; inv E2; eauto 6. }
    destruct HS as (s0 & K & n & m & HS); pose proof (is_rep _ _ _ _ _ HS) as Hr; pose proof Hr as [_ (vs & I)].
    destruct (i_index_of_resource_spec L _ _ _ _ g (ii_res _ _ _ I)) as (f & Ef & Hf).
    unfold graph_of; rewrite (i_known _ _ _ _ g f I B Hf).
    unfold id_remove_graph; rewrite Ef; cbn [bind].
    destruct f as [k|]; [|reflexivity].
    assert (Em : ns_mem k (id_ng d) = marked sh 3 k).
    { apply eq_true_iff_eq; rewrite (sh_ng _ _ B); apply ns_mem_true, (sh_ns _ _ B). }
    rewrite Em; destruct (marked sh 3 k); [|reflexivity].
    destruct Hf as (_ & Hv & _).
    destruct (sget (id_resources d) k) as [y|] eqn:Ey; [|unfold ir_val in Hv; rewrite Ey in Hv; discriminate].
    cbn [bind]; destruct (iri_use _ _ _ _ (ii_res _ _ _ I) _ _ Ey) as [Hu _].
    destruct (Hu PosG) as [Hs Hi]; change (ir_at PosG y) with (ir_g y) in Hs, Hi.
    assert (Hn : NoDup (ir_g y)).
    { clear - Hs; apply nsorted_lt in Hs; induction Hs as [|x l _ IH F]; constructor; [|exact IH].
      rewrite Forall_forall in F; intros Hx; specialize (F _ Hx); lia. }
    assert (Hlive : forall i, In i (ir_g y) -> sget (id_quads d) i <> None).
    { intros i Hin; apply Hi in Hin as (x & Hx & _); congruence. }
    destruct (istate_remove_all L keep (ir_g y) d s0 K n m bg_new [] HS Hn Hlive (bg_rep_new (cmp:=cmp)))
      as (d2 & b2 & qs & E2 & Eqs & H2 & Hb).
    rewrite E2; cbn [bind].
    exists b2, d2, (sorted_elements (triple_cmp cmp)
                     (fold_left (fun s x => add (triple_cmp cmp) x s) (map (fun q => fst (into_triple q)) qs) [])).
    split; [reflexivity|]; split; [apply (bg_iter_rep _ _ Hb)|]; split.
    { apply (sorted_elements_sorted LT), Hb. }
    assert (Fold : forall l s t, In t (fold_left (fun s x => add (triple_cmp cmp) x s) l s) <-> In t s \/ In t l).
    { induction l as [|z l IH]; intros s' t; cbn; [tauto|].
      rewrite IH, (in_add LT); intuition congruence. }
    intros t; rewrite in_sorted_elements, Fold.
    assert (Q : forall q, In q qs <-> exists kz, In (q, kz) (held sh) /\ nth_is kz 3 k = true).
    { intros q; rewrite (mapM_in _ _ _ _ Eqs); split.
      - intros (i & Hin & Hq); apply Hi in Hin as (x & Hx & Hk).
        unfold i_quad_at in Hq; rewrite Hx in Hq; cbn in Hq.
        exists (quad_comps x); split; [apply (sh_held _ _ B); exists i, x; auto|].
        apply nth_is_true; cbn in Hk; unfold quad_comps; rewrite Hk; reflexivity.
      - intros (kz & Hh & Hk); apply (sh_held _ _ B) in Hh as (i & x & Hx & Hq & ->).
        exists i; split; [|unfold i_quad_at; now rewrite Hx].
        apply Hi; exists x; split; [exact Hx|]; cbn; apply nth_is_true in Hk.
        unfold quad_comps in Hk; destruct (q_g x); cbn in Hk; congruence. }
    assert (Qg : forall q, In q qs -> q_g q = Some g).
    { intros q Hq; apply (mapM_in _ _ _ _ Eqs) in Hq as (i & Hin & Hq); apply Hi in Hin as (x & Hx & Hk).
      unfold i_quad_at in Hq; rewrite Hx in Hq; cbn in Hq, Hk.
      apply iqwr_some in Hq as (_ & _ & _ & Hg); rewrite Hk in Hg; destruct (q_g q) as [h|]; [congruence|contradiction]. }
    rewrite !in_map_iff; split.
    - intros [[]|(q & <- & Hq)]; pose proof (Qg _ Hq) as Eg; apply Q in Hq as (kz & Hh & Hk).
      exists (q, kz); split; [destruct q; cbn in *; now rewrite Eg|]; apply filter_In; auto.
    - intros ([q kz] & Et & Hh); cbn in Et; subst q; apply filter_In in Hh as [Hh Hk]; right.
      exists (Quad (t_s t) (t_p t) (t_o t) (Some g)); split; [destruct t; reflexivity|apply Q; exists kz; auto].
  Qed.

  (** ** Graphs *)
  Notation tcmp := (triple_cmp cmp).
  Notation tshift := (ShelfSpec.shift tcmp cmp triple_comps keep).
  Definition qe (e : triple R * list nat) : quad R * list nat := (iq (fst e), snd e).
  Definition sim (a : shelf (triple R) R) (b : shelf (quad R) R) : Prop :=
    seats b = seats a /\ held b = map qe (held a) /\
    (forall w, shown b w = shown a w) /\ forall i k, marked b i k = marked a i k.

  Lemma used_qe l k : used (map qe l) k = used l k.
  Proof. unfold used; induction l as [|e l IH]; cbn; [reflexivity|]; now rewrite IH. Qed.

  Lemma seat_ext known known' l : (forall w, known' w = known w) -> forall st show show',
    (forall w, show' w = show w) ->
    fst (seat cmp keep known' l st show') = fst (seat cmp keep known l st show) /\
    fst (snd (seat cmp keep known' l st show')) = fst (snd (seat cmp keep known l st show)) /\
    forall w, snd (snd (seat cmp keep known' l st show')) w = snd (snd (seat cmp keep known l st show)) w.
  Proof.
    intros Hk; induction l as [|r l IH]; intros st show show' Hs; cbn [seat]; [auto|].
    rewrite Hk; destruct (known r) as [k|].
    - destruct (IH st show show' Hs) as (A & B & C).
      destruct (seat cmp keep known' l st show') as [ks' [st' sw']], (seat cmp keep known l st show) as [ks [st1 sw]].
      cbn in *; subst; auto.
    - match goal with |- context [seat cmp keep known' l (put r st) ?f'] => set (F' := f') end.
      match goal with |- context [seat cmp keep known l (put r st) ?f] => set (F := f) end.
      destruct (IH (put r st) F F') as (A & B & C).
      { intros w; unfold F, F'; now rewrite Hs. }
      destruct (seat cmp keep known' l (put r st) F') as [ks' [st' sw']], (seat cmp keep known l (put r st) F) as [ks [st1 sw]].
      cbn in *; subst; auto.
  Qed.

  Lemma unseat_ext rest ks : forall st show show',
    (forall w, show' w = show w) ->
    fst (unseat cmp (map qe rest) ks st show') = fst (unseat cmp rest ks st show) /\
    forall w, snd (unseat cmp (map qe rest) ks st show') w = snd (unseat cmp rest ks st show) w.
  Proof.
    induction ks as [|k ks IH]; intros st show show' Hs; cbn [unseat]; [auto|].
    rewrite used_qe; destruct (existsb (Nat.eqb k) ks || used rest k); [now apply IH|].
    apply IH; intros w; now rewrite Hs.
  Qed.

  Lemma sim_arrive t a b : sim a b -> sim (arrive cmp triple_comps keep t a) (arrive cmp quad_comps keep (iq t) b).
  Proof.
    intros (A & B & C & D); unfold arrive.
    change (quad_comps (iq t)) with (triple_comps t); rewrite A.
    destruct (seat_ext (shown a) (shown b) (triple_comps t) C (seats a) (shown a) (shown b) C) as (E1 & E2 & E3).
    destruct (seat cmp keep (shown b) _ _ _) as [ks' [st' sw']], (seat cmp keep (shown a) _ _ _) as [ks [st sw]].
    cbn in E1, E2, E3; subst; split; [reflexivity|]; split; [cbn; now rewrite B|]; split; [exact E3|].
    intros i k; cbn; now rewrite D.
  Qed.

  Lemma sim_depart t a b : sim a b -> sim (depart tcmp cmp t a) (depart qcmp cmp (iq t) b).
  Proof.
    intros (A & B & C & D); unfold depart; rewrite B.
    assert (E1 : forall l, find (fun e => same qcmp (iq t) (fst e)) (map qe l) =
              option_map qe (find (fun e => same tcmp t (fst e)) l)).
    { induction l as [|e l IH]; cbn; [reflexivity|]; rewrite same_iq.
      destruct (same tcmp t (fst e)); [reflexivity|exact IH]. }
    assert (E2 : forall l, filter (fun e => negb (same qcmp (iq t) (fst e))) (map qe l) =
              map qe (filter (fun e => negb (same tcmp t (fst e))) l)).
    { induction l as [|e l IH]; cbn; [reflexivity|]; rewrite same_iq.
      destruct (same tcmp t (fst e)); cbn; [exact IH|now f_equal]. }
    rewrite E1; destruct (find _ (held a)) as [[u ks]|]; cbn [option_map qe fst snd];
      [|split; [exact A|]; split; [exact B|auto]].
    rewrite E2, A; set (rest := filter _ (held a)).
    destruct (unseat_ext rest ks (seats a) (shown a) (shown b) C) as (F1 & F2).
    destruct (unseat cmp (map qe rest) ks (seats a) (shown b)) as [st' sw'], (unseat cmp rest ks (seats a) (shown a)) as [st sw].
    cbn in F1, F2; subst; split; [reflexivity|]; split; [reflexivity|]; split; [exact F2|].
    intros i k; cbn [marked]; now rewrite D, used_qe.
  Qed.

  Lemma sim_shifts l : forall a b, sim a b ->
    sim (fold_left tshift l a) (fold_left shift (map ic l) b).
  Proof.
    induction l as [|[[] t] l IH]; intros a b H; cbn [map fold_left]; [exact H| |]; apply IH.
    - now apply sim_arrive.
    - now apply sim_depart.
  Qed.

  Lemma sim_new : sim shelf_new shelf_new.
  Proof. repeat split. Qed.

  Lemma sim_reshelve a b : sim a b -> sim (reshelve a) (reshelve b).
  Proof.
    intros (A & B & C & D); unfold reshelve; split; [cbn; now rewrite A|]; split; [exact B|].
    split; [exact C|]; intros i k; cbn; rewrite B; generalize (held a) as l.
    induction l as [|e l IH]; cbn; [reflexivity|]; now rewrite IH.
  Qed.

  Lemma ishelved_dg g dg dg' sh : ishelved (iemb g dg) sh -> ishelved (iemb g dg') sh.
  Proof. intros [A B C D E F G H I]; split; assumption. Qed.

  Lemma g_shelf_run ops : forall g s0 K n m xs g' sh,
    gstate (cmp:=cmp) g s0 K n m -> (forall dg, ishelved (iemb g dg) sh) ->
    run (ig_step cmp keep) g ops = Some (xs, g') ->
    forall dg, ishelved (iemb g' dg)
      (fold_left shift (map ic (set_log tcmp (apply tcmp m s0) ops)) sh).
  Proof.
    induction ops as [|o ops IH]; intros g s0 K n m xs g' sh H B E dg; cbn [run] in E; [inv E; apply B|].
    destruct (ig_step cmp keep g o) as [[x g1]|] eqn:E1; [|discriminate].
    destruct (run (ig_step cmp keep) g1 ops) as [[ys g2]|] eqn:E2; [|discriminate]; inv E.
    destruct (gstate_step L keep _ _ _ _ _ o H) as (g3 & E3 & H3); rewrite E1 in E3; inv E3.
    cbn [set_log]; rewrite map_app, fold_left_app.
    assert (B1 : forall dg, ishelved (iemb g3 dg)
      (fold_left shift (map ic (set_changes tcmp (apply tcmp m s0) o)) sh)).
    { intros dg'; destruct H as (dg0 & H).
      destruct (iemb_step L keep g dg0 _ o (is_rep _ _ _ _ _ H)) as (dg1 & Es); rewrite E1 in Es; cbn in Es.
      pose proof (i_shelf_set_step _ _ _ _ _ _ _ _ _ H (B dg0) Es) as G.
      rewrite apply_iq, set_changes_iq in G; exact (ishelved_dg _ _ _ _ G). }
    pose proof (IH _ _ _ _ _ _ _ _ H3 B1 E2 dg) as G.
    rewrite apply_app, (apply_set_changes (triple_cmp_laws cmp L)) in G; exact G.
  Qed.

  Lemma g_shelf_reached ops0 ops g :
    ig_reached cmp keep ops0 ops g ->
    exists sh, sim (triple_shelf cmp keep ops0 ops) sh /\ forall dg, ishelved (iemb g dg) sh.
  Proof.
    intros (xs0 & b & g0 & xs & Eb & E0 & E).
    destruct (gstart L keep _ _ _ Eb) as (g0' & E0' & H0); rewrite E0 in E0'; inv E0'.
    destruct (run_iq _ _ _ _ _ Eb) as (ys & Ey); rewrite emb_new in Ey.
    destruct (iemb_convert b) as (dg0 & Ec); rewrite E0 in Ec; cbn in Ec.
    pose proof (bd_run_rep_new L keep _ _ _ Ey) as [Hn (vs & I)].
    pose proof (i_reshelve _ _ _ _ _ I (b_shelf_start L keep _ _ _ Ey) Ec) as B0.
    pose proof (set_log_iq (cmp:=cmp) ops0 []) as El; cbn [map] in El; rewrite El in B0.
    eexists; split; [|exact (g_shelf_run _ _ _ _ _ _ _ _ _ H0 (fun dg => ishelved_dg _ _ dg _ B0) E)].
    unfold triple_shelf; cbn [apply fold_left].
    apply sim_shifts, sim_reshelve, sim_shifts, sim_new.
  Qed.

  Lemma listing_ext {A} (s : list (option A)) mark mark' :
    (forall k, mark' k = mark k) -> listing mark' s = listing mark s /\ tally mark' s = tally mark s.
  Proof.
    intros H; rewrite !listing_filter; unfold tally.
    rewrite (filter_ext _ _ H); auto.
  Qed.

  Lemma ig_listings_shelf ops0 ops g :
    ig_reached cmp keep ops0 ops g ->
    let sh := triple_shelf cmp keep ops0 ops in
    let s := fst (seats sh) in
    ig_subjects g = listing (marked sh 0) s /\ ig_predicates g = listing (marked sh 1) s /\
    ig_objects g = listing (marked sh 2) s /\
    ig_subject_count g = tally (marked sh 0) s /\ ig_predicate_count g = tally (marked sh 1) s /\
    ig_object_count g = tally (marked sh 2) s /\ ig_resource_count g = length (present s) /\
    forall r, ig_contains_resource cmp g r = Some (if shown sh r then true else false).
  Proof.
    intros H sh s; destruct (g_shelf_reached _ _ _ H) as (sh' & (A & _ & C & D) & B0).
    destruct (greached L keep _ _ _ H) as (dg & HS); pose proof (B0 dg) as B; clear B0.
    fold sh in A, C, D; destruct (is_rep _ _ _ _ _ HS) as [_ (vs & I)].
    assert (U : forall p k i, IndexedDatasetProofs.uses (id_quads (iemb g dg)) p k i -> k < length (fst (seats sh'))).
    { intros p k i Hu; destruct (irinv_live _ _ _ _ _ _ _ (ii_res _ _ _ I) Hu) as (v & Hv).
      exact (kept_lt _ _ _ _ _ (sh_kept _ _ B) Hv). }
    destruct (ii_s _ _ _ I) as [Ns Us], (ii_p _ _ _ I) as [Np Up], (ii_o _ _ _ I) as [No Uo].
    destruct (list_marked _ sh' _ (marked sh' 0) (sh_kept _ _ B) Ns (sh_s _ _ B)) as [L1 C1].
    { intros k Hk; destruct (Us _ Hk) as (i & Hu); eapply U; eauto. }
    destruct (list_marked _ sh' _ (marked sh' 1) (sh_kept _ _ B) Np (sh_p _ _ B)) as [L2 C2].
    { intros k Hk; destruct (Up _ Hk) as (i & Hu); eapply U; eauto. }
    destruct (list_marked _ sh' _ (marked sh' 2) (sh_kept _ _ B) No (sh_o _ _ B)) as [L3 C3].
    { intros k Hk; destruct (Uo _ Hk) as (i & Hu); eapply U; eauto. }
    destruct (listing_ext (fst (seats sh')) _ _ (D 0)) as [M1 T1].
    destruct (listing_ext (fst (seats sh')) _ _ (D 1)) as [M2 T2].
    destruct (listing_ext (fst (seats sh')) _ _ (D 2)) as [M3 T3].
    rewrite M1 in L1; rewrite M2 in L2; rewrite M3 in L3; rewrite T1 in C1; rewrite T2 in C2; rewrite T3 in C3.
    pose proof (present_count _ _ _ (sh_kept _ _ B)) as Pc.
    rewrite A in *; repeat split; try assumption.
    - apply Pc; intros i; unfold ir_val; destruct (sget (id_resources (iemb g dg)) i); cbn; split; congruence.
    - intros r; unfold ig_contains_resource.
      destruct (i_index_of_resource_spec L _ _ _ _ r (ii_res _ _ _ I)) as (f & Ef & Hf).
      cbn [id_resources id_ri iemb] in Ef; rewrite Ef; cbn.
      rewrite <- C, (i_known _ _ _ _ r f I B Hf); destruct f; reflexivity.
  Qed.

  Lemma bg_resource_shelf ops xs g r :
    run (bg_step cmp keep) bg_new ops = Some (xs, g) ->
    bg_contains_resource cmp g r =
      Some (if shown (fold_left tshift (set_log tcmp [] ops) shelf_new) r then true else false).
  Proof.
    intros E; destruct (run_iq _ _ _ _ _ E) as (ys & Ey); rewrite emb_new in Ey.
    pose proof (bd_resource_shelf L keep _ _ _ r Ey) as H.
    pose proof (set_log_iq (cmp:=cmp) ops []) as El; cbn [map] in El; rewrite El in H.
    destruct (sim_shifts (set_log tcmp [] ops) _ _ sim_new) as (_ & _ & C & _).
    rewrite C in H; exact H.
  Qed.
End Proofs.
