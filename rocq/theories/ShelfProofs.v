(** The resource tables of [BTreeDataset] and [BTreeGraph] follow the shelf of
    ShelfSpec.v. *)
From Coq Require Import List Bool Arith Lia Permutation.
Import ListNotations.
From Verif Require Import Base SlabModel TripleModel SetSpec ContainerSpec IndexedSpec ScanSpec Machine
  BaseProofs BResourceModel BResourceProofs BTreeDatasetModel BTreeDatasetProofs PlaceProofs
  LedgerSpec LedgerProofs BLedgerProofs ShelfSpec.
Open Scope panic_scope.

Fixpoint occ (ks : list nat) (r : nat) : nat :=
  match ks with [] => 0 | k :: ks => ind k r + occ ks r end.

Lemma occ_pos ks r : 0 < occ ks r <-> In r ks.
Proof.
  induction ks as [|k ks IH]; cbn; [split; [lia|intros []]|].
  rewrite <- IH; unfold ind; destruct (k =? r) eqn:E.
  - apply Nat.eqb_eq in E; split; [auto|lia].
  - apply Nat.eqb_neq in E; split; [auto|intros [|]; [contradiction|lia]].
Qed.

Lemma existsb_in k ks : existsb (Nat.eqb k) ks = true <-> In k ks.
Proof.
  rewrite existsb_exists; split.
  - intros (j & Hj & E); apply Nat.eqb_eq in E; now subst.
  - intros H; exists k; split; [exact H|apply Nat.eqb_refl].
Qed.

Lemma used_iff {X} (m : list (X * list nat)) k :
  used m k = true <-> exists z kz, In (z, kz) m /\ In k kz.
Proof.
  unfold used; rewrite existsb_exists; split.
  - intros ([z kz] & H & E); exists z, kz; split; [exact H|now apply existsb_in].
  - intros (z & kz & H & E); exists (z, kz); split; [exact H|now apply existsb_in].
Qed.

Lemma nth_is_true ks i k : nth_is ks i k = true <-> nth_error ks i = Some k.
Proof.
  unfold nth_is; destruct (nth_error ks i) as [j|]; [|split; discriminate].
  rewrite Nat.eqb_eq; split; congruence.
Qed.

Section Proofs.
  Context {R : Type} {cmp : R -> R -> comparison} (L : ord_laws cmp).
  Context (keep : bool).

  (** ** Shown resources *)
  Definition shows (val : nat -> option R) (ri : list nat) (show : R -> option nat) : Prop :=
    forall w k, show w = Some k <-> In k ri /\ val k = Some w.

  Lemma shows_ext val val' ri show :
    (forall k, val' k = val k) -> shows val ri show -> shows val' ri show.
  Proof. intros E H w k; rewrite E; apply H. Qed.

  Lemma shows_insert val val' ri ri' vs' show k v c :
    shows val ri show -> val k = None -> val' k = Some v -> (forall j, j <> k -> val' j = val j) ->
    ~ In k ri -> bt_insert keep c k ri = Some ri' ->
    (forall i, c i k = Some Eq <-> val' i = Some v) -> indexes (cmpk:=cmp) val' ri' vs' ->
    shows val' ri' (fun w => if same cmp v w
      then match show w with Some j => Some (if keep then j else k) | None => Some k end
      else show w).
  Proof.
    intros S Hk Hv Ho Hn E Hc HI w j.
    assert (Inj : forall a b, In a ri' -> In b ri' -> val' a = Some v -> val' b = Some v -> a = b).
    { intros a b Ha Hb Va Vb; exact (indexes_inj L _ _ _ a b v HI Ha Hb Va Vb). }
    destruct (same cmp v w) eqn:Es.
    - apply (BaseProofs.same_true L) in Es; subst w.
      assert (G : exists m, In m ri' /\ val' m = Some v /\
        match show v with Some j => Some (if keep then j else k) | None => Some k end = Some m).
      { destruct (show v) as [m|] eqn:Em.
        - apply S in Em as [Hm Vm].
          assert (m <> k) by (intros ->; congruence).
          destruct keep.
          + exists m; split; [|split; [now rewrite Ho|reflexivity]].
            apply (bt_insert_stays _ _ _ _ _ E _ Hm); auto.
          + exists k; split; [|split; [assumption|reflexivity]].
            apply (bt_insert_new _ _ _ _ _ E); discriminate.
        - exists k; split; [|split; [assumption|reflexivity]].
          apply (bt_insert_new _ _ _ _ _ E); intros _ i Hi Eq; apply Hc in Eq.
          assert (i <> k) by (intros ->; contradiction).
          rewrite Ho in Eq by assumption.
          assert (show v = Some i) by now apply S.
          congruence. }
      destruct G as (m & M1 & M2 & ->); split.
      + intros Em; injection Em as <-; auto.
      + intros [H1 H2]; f_equal; now apply Inj.
    - assert (v <> w) by (intros ->; assert (same cmp w w = true) by (now apply (BaseProofs.same_true L)); congruence).
      rewrite (S w j); split; intros [H1 H2].
      + assert (j <> k) by (intros ->; congruence).
        split; [|now rewrite Ho].
        apply (bt_insert_stays _ _ _ _ _ E _ H1); right; intros Eq; apply Hc in Eq.
        rewrite Ho in Eq by assumption; congruence.
      + destruct (bt_insert_sub _ _ _ _ _ E _ H1) as [->|H3]; [congruence|].
        assert (j <> k) by (intros ->; contradiction).
        rewrite Ho in H2 by assumption; auto.
  Qed.

  Lemma shows_drop val val' ri ri' vs show k v r :
    shows val ri show -> indexes (cmpk:=cmp) val ri vs ->
    bt_remove (kcmp (cmpk:=cmp) val) v ri = Some (r, ri') ->
    val k = Some v -> val' k = None -> (forall j, j <> k -> val' j = val j) ->
    shows val' ri' (fun w => if same cmp v w then None else show w).
  Proof.
    intros S HI E Hv Hn Ho.
    destruct (bt_remove_spec L _ _ _ v HI) as (r0 & l & E0 & HI' & Hr); rewrite E in E0; inv E0.
    assert (Sub := bt_remove_sub _ _ _ _ _ E).
    intros w j; destruct (same cmp v w) eqn:Es.
    - apply (BaseProofs.same_true L) in Es; subst w; split; [discriminate|]; intros [H1 H2].
      exfalso; assert (j <> k) as Hjk by (intros ->; congruence).
      rewrite Ho in H2 by assumption.
      destruct HI' as [HM _]; destruct (mapM_in_inv _ _ _ _ HM H1) as (u & Hu & Hin).
      assert (u = v) as -> by congruence; apply (in_del L) in Hin; tauto.
    - assert (v <> w) by (intros ->; assert (same cmp w w = true) by (now apply (BaseProofs.same_true L)); congruence).
      rewrite (S w j); split; intros [H1 H2].
      + assert (j <> k) by (intros ->; congruence).
        split; [|now rewrite Ho].
        destruct r0 as [i|].
        * destruct Hr as (Vi & _ & HP); apply (Permutation_in _ HP) in H1 as [<-|]; [congruence|assumption].
        * destruct Hr as [_ ->]; exact H1.
      + assert (j <> k) by (intros ->; congruence).
        rewrite Ho in H2 by assumption; auto.
  Qed.

  (** ** Seats *)
  Lemma kept_spot {Y} at_ (s : slab Y) (st : @places R) : kept at_ s st -> spot st = vacant_key s.
  Proof. intros (K1 & K2 & _); unfold spot, vacant_key; rewrite <- K2, <- K1; reflexivity. Qed.

  Lemma kept_ext {Y} at_ at' (s s' : slab Y) (st : @places R) :
    (forall i, at' i = at_ i) -> length (ents s') = length (ents s) -> free s' = free s ->
    kept at_ s st -> kept at' s' st.
  Proof.
    intros H1 H2 H3 (K1 & K2 & K3); split; [congruence|]; split; [congruence|].
    intros i; rewrite H1; apply K3.
  Qed.

  Lemma sset_ents {Y} (s : slab Y) k y :
    length (ents (sset s k y)) = length (ents s) /\ free (sset s k y) = free s.
  Proof. unfold sset; cbn; rewrite ?list_set_length; auto. Qed.

  Lemma clear_vac1 k (st : @places R) : k < length (fst st) -> clear k st = vac1 st k.
  Proof. intros H; unfold clear, vac1; now rewrite list_set_split. Qed.

  Lemma kept_sits {Y} at_ (s : slab Y) (st : @places R) k v w :
    kept at_ s st -> at_ k = Some v -> sits cmp st k w = same cmp v w.
  Proof.
    intros (_ & _ & K) H; rewrite K in H; unfold pget, sits in *.
    destruct (nth_error (fst st) k) as [[u|]|]; congruence.
  Qed.

  Lemma kept_lt {Y} at_ (s : slab Y) (st : @places R) k v :
    kept at_ s st -> at_ k = Some v -> k < length (fst st).
  Proof. intros (_ & _ & K) H; rewrite K in H; eapply pget_lt; eauto. Qed.

  (** ** Acquisition *)
  Lemma b_seat known l : forall rs ri vs rc st show ks rs' ri',
    rinv (cmp:=cmp) rs ri vs rc -> kept (br_val rs) rs st -> shows (br_val rs) ri show ->
    acquire_all (cmp:=cmp) keep rs ri l = Some (ks, rs', ri') ->
    (forall v f, In (v, f) l -> known v = f) ->
    (forall v i, In (v, Some i) l -> br_val rs i = Some v /\ In v vs) ->
    exists st' show', seat cmp keep known (map fst l) st show = (ks, (st', show')) /\
      kept (br_val rs') rs' st' /\ shows (br_val rs') ri' show'.
  Proof.
    induction l as [|[v f] l IH]; intros rs ri vs rc st show ks rs' ri' I K S E Hk Hf; cbn in E.
    - inv E; exists st, show; auto.
    - destruct (acquire_spec L keep rs ri vs rc v f I) as (k & rs1 & ri1 & vs1 & E1 & I1 & Vk & M & W & _).
      { destruct f as [i|]; [|trivial]; apply Hf; now left. }
      rewrite E1 in E; cbn in E.
      destruct (acquire_all keep rs1 ri1 l) as [[[ks2 rs2] ri2]|] eqn:E2; [|discriminate]; cbn in E; inv E.
      cbn [map fst seat]; rewrite (Hk v f) by now left.
      assert (Hk' : forall v f, In (v, f) l -> known v = f) by (intros; apply Hk; now right).
      assert (Hf' : forall v i, In (v, Some i) l -> br_val rs1 i = Some v /\ In v vs1).
      { intros v' i Hi; destruct (Hf v' i (or_intror Hi)) as [A B]; split; [auto|]; apply W; auto. }
      destruct f as [i|]; cbn in E1.
      + destruct (sget rs i) as [x|] eqn:Ex; [|discriminate]; cbn in E1; inv E1.
        assert (V : forall j, br_val (sset rs k (BRes (br_value x) (Datatypes.S (br_occ x)))) j = br_val rs j)
          by (intros; now apply br_val_sset with x).
        assert (K1 : kept (br_val (sset rs k (BRes (br_value x) (Datatypes.S (br_occ x)))))
                       (sset rs k (BRes (br_value x) (Datatypes.S (br_occ x)))) st)
          by (eapply kept_ext; [exact V|apply sset_ents|apply sset_ents|exact K]).
        pose proof (shows_ext _ _ _ _ V S) as S1.
        destruct (IH _ _ _ _ _ _ _ _ _ I1 K1 S1 E2 Hk' Hf') as (st' & show' & -> & K' & S').
        exists st', show'; auto.
      + destruct (bt_insert _ _ _ _) as [ri0|] eqn:Eb; [|discriminate]; cbn in E1; inv E1.
        rewrite (kept_spot _ _ _ K).
        set (k := vacant_key rs) in *.
        assert (Hn : sget rs k = None) by apply sget_vacant, I.
        assert (G : forall j, br_val (sinsert rs (BRes v 1)) j = if j =? k then Some v else br_val rs j).
        { intros j; unfold br_val; rewrite sget_sinsert by apply I; fold k; destruct (j =? k); reflexivity. }
        assert (Hn' : br_val rs k = None) by (unfold br_val; now rewrite Hn).
        assert (Hni : ~ In k ri).
        { intros Hi; destruct (ri_idx _ _ _ _ I) as [HM _].
          destruct (mapM_in_inv _ _ _ _ HM Hi) as (u & Hu & _); congruence. }
        assert (Ho : forall j, j <> k -> br_val (sinsert rs (BRes v 1)) j = br_val rs j).
        { intros j Hj; rewrite G; apply Nat.eqb_neq in Hj; now rewrite Hj. }
        assert (K1 : kept (br_val (sinsert rs (BRes v 1))) (sinsert rs (BRes v 1)) (put v st))
          by (eapply kept_put; [apply I|exact K|exact Vk|exact Ho]).
        assert (Hc : forall i, b_resource_index_cmp cmp (sinsert rs (BRes v 1)) i k = Some Eq <->
                       br_val (sinsert rs (BRes v 1)) i = Some v).
        { intros i; unfold b_resource_index_cmp; rewrite Vk.
          destruct (br_val _ i) as [u|]; cbn; [|split; discriminate].
          split; intros H; injection H as H; f_equal; now apply (ord_eq _ L). }
        pose proof (shows_insert _ _ _ _ _ _ k v _ S Hn' Vk Ho Hni Eb Hc (ri_idx _ _ _ _ I1)) as S1.
        destruct (IH _ _ _ _ _ _ _ _ _ I1 K1 S1 E2 Hk' Hf') as (st' & show' & -> & K' & S').
        exists st', show'; auto.
  Qed.

  (** ** Release *)
  Lemma b_unseat {X K} (rcmp : slab (bresource R) -> nat -> K -> option comparison) (key : K)
      rs ri vs k v ks rho (rest : list (X * list nat)) st show rs' ri' :
    rinv (cmp:=cmp) rs ri vs (fun r => occ (k :: ks) r + rho r) ->
    (forall r, 0 < rho r <-> used rest r = true) ->
    br_val rs k = Some v -> finds (cmp:=cmp) rcmp key v k ->
    kept (br_val rs) rs st -> shows (br_val rs) ri show ->
    b_release rcmp rs ri k key = Some (rs', ri') ->
    exists st' show' vs',
      unseat cmp rest (k :: ks) st show = unseat cmp rest ks st' show' /\
      rinv (cmp:=cmp) rs' ri' vs' (fun r => occ ks r + rho r) /\
      kept (br_val rs') rs' st' /\ shows (br_val rs') ri' show' /\
      (forall j, 0 < occ ks j + rho j -> br_val rs' j = br_val rs j).
  Proof.
    intros I Hr Hv Hf HK HS E.
    assert (Hp : 0 < occ (k :: ks) k + rho k) by (cbn; rewrite ind_same; lia).
    destruct (release_spec L rcmp key rs ri vs _ k v I Hp Hv Hf) as (rs1 & ri1 & vs1 & E1 & I1 & M & _).
    rewrite E in E1; inv E1.
    assert (Ec : forall r, occ (k :: ks) r + rho r - ind k r = occ ks r + rho r) by (intros; cbn; lia).
    apply (rinv_ext _ _ _ _ _ Ec) in I1.
    assert (M' : forall j, 0 < occ ks j + rho j -> br_val rs1 j = br_val rs j).
    { intros j Hj; apply M; now rewrite Ec. }
    assert (Eu : existsb (Nat.eqb k) ks || used rest k = true <-> 0 < occ ks k + rho k).
    { rewrite orb_true_iff, existsb_in, <- occ_pos, <- Hr; lia. }
    unfold b_release in E.
    destruct (sget rs k) as [x|] eqn:Ex; [|discriminate]; cbn in E.
    pose proof (ri_occ _ _ _ _ I k) as Ho; rewrite Ex in Ho; cbn in Ho; rewrite ind_same in Ho.
    destruct (br_occ x) as [|n] eqn:En; [discriminate|].
    set (y := BRes (br_value x) n) in *.
    assert (V : forall j, br_val (sset rs k y) j = br_val rs j) by (intros; now apply br_val_sset with x).
    cbn [unseat]; destruct (existsb (Nat.eqb k) ks || used rest k) eqn:Eb.
    - assert (Hn : (n =? 0) = false) by (apply Nat.eqb_neq; destruct Eu as [Eu _]; specialize (Eu eq_refl); lia).
      rewrite Hn in E; inv E.
      exists st, show, vs1; split; [reflexivity|]; split; [exact I1|]; split; [|split; [|exact M']].
      + eapply kept_ext; [exact V|apply sset_ents|apply sset_ents|exact HK].
      + eapply shows_ext; [exact V|exact HS].
    - assert (Hz : n = 0).
      { destruct (Nat.eq_dec n 0); [assumption|]; exfalso.
        assert (false = true) by (apply Eu; lia); discriminate. }
      rewrite Hz in E; cbn in E.
      rewrite (Hf (sset rs k y) ri) in E by (now rewrite V).
      destruct (bt_remove _ _ _) as [[r l]|] eqn:Er; [|discriminate]; cbn in E.
      destruct (sremove (sset rs k y) k) as [[z s]|] eqn:Es; [|discriminate]; cbn in E; inv E.
      assert (G : forall j, br_val rs1 j = if j =? k then None else br_val rs j).
      { intros j; rewrite <- V; unfold br_val; rewrite (sget_sremove _ _ _ _ _ Es).
        destruct (j =? k); reflexivity. }
      assert (Gk : br_val rs1 k = None) by (rewrite G, Nat.eqb_refl; reflexivity).
      assert (Go : forall j, j <> k -> br_val rs1 j = br_val rs j).
      { intros j Hj; rewrite G; apply Nat.eqb_neq in Hj; now rewrite Hj. }
      exists (clear k st), (fun w => if sits cmp st k w then None else show w), vs1.
      split; [reflexivity|]; split; [exact I1|]; split; [|split; [|exact M']].
      + rewrite clear_vac1 by exact (kept_lt _ _ _ _ _ HK Hv).
        eapply kept_vac; [exact Es| |exact Gk|exact Go].
        eapply kept_ext; [|apply sset_ents|apply sset_ents|exact HK]; reflexivity.
      + assert (S1 : shows (br_val rs1) ri1 (fun w => if same cmp v w then None else show w)).
        { assert (Gv : forall j, j <> k -> br_val rs1 j = br_val (sset rs k y) j)
            by (intros j Hj; rewrite V; now apply Go).
          assert (Hix : indexes (cmpk:=cmp) (br_val (sset rs k y)) ri vs)
            by (eapply indexes_ext; [|apply I]; auto).
          eapply (shows_drop (br_val (sset rs k y)));
            [exact (shows_ext _ _ _ _ V HS)|exact Hix|exact Er|rewrite V; exact Hv|exact Gk|exact Gv]. }
        intros w j; rewrite (kept_sits _ _ _ _ _ w HK Hv); apply S1.
  Qed.

  (** ** [BTreeDataset] *)
  Notation qcmp := (quad_cmp cmp).
  Let LQ : ord_laws qcmp := quad_cmp_laws cmp L.
  Notation shift := (shift qcmp cmp quad_comps keep).

  Record bshelved (d : @bdataset R) (sh : shelf (quad R) R) : Prop := {
    bs_kept : kept (br_val (bd_resources d)) (bd_resources d) (seats sh);
    bs_shows : shows (br_val (bd_resources d)) (bd_ri d) (shown sh);
    bs_held : forall z ks, In (z, ks) (held sh) <-> bent d z ks
  }.

  Lemma b_known d ks vs sh v f :
    bd_inv (cmp:=cmp) d ks vs -> bshelved d sh -> b_found d vs v f -> shown sh v = f.
  Proof.
    intros I B Hf; destruct f as [i|]; cbn in Hf.
    - apply (bs_shows _ _ B); tauto.
    - destruct (shown sh v) as [k|] eqn:E; [|reflexivity]; exfalso; apply Hf.
      apply (bs_shows _ _ B) in E as [E1 E2].
      destruct (ri_idx _ _ _ _ (bi_res _ _ _ I)) as [HM _]; apply (mapM_in _ _ _ _ HM); eauto.
  Qed.

  Lemma b_arrive d ks vs q d' sh :
    bd_inv (cmp:=cmp) d ks vs -> bshelved d sh -> ~ In q ks ->
    bd_insert cmp keep d q = Some (true, d') -> bshelved d' (arrive cmp quad_comps keep q sh).
  Proof.
    intros I B Hq E.
    destruct (bd_insert_desc L keep _ _ _ _ I Hq) as (d1 & vs1 & E1 & I1 & _ & _ & (x1 & Q1 & X1 & M1)).
    rewrite E in E1; inv E1.
    destruct (b_table_ins L keep _ _ _ _ _ _ I Hq E I1) as (kx & T).
    destruct (bd_insert_acquires L keep _ _ _ _ _ I Hq E) as (l & rs & ri & x & qi & El & Hv & Hfd & Ed).
    destruct (b_seat (shown sh) l _ _ _ _ _ _ _ _ _ (bi_res _ _ _ I) (bs_kept _ _ B) (bs_shows _ _ B) El)
      as (st' & show' & Es & K' & S').
    { intros v f Hi; apply (b_known _ _ _ _ _ _ I B), Hfd, Hi. }
    { intros v i Hi; destruct (Hfd _ _ Hi) as (_ & A & C); auto. }
    rewrite Hv in Es; unfold arrive; rewrite Es.
    assert (x1 = x) as ->.
    { assert (G : forall y, sget (sinsert (bd_quads d) y) (vacant_key (bd_quads d)) = Some y).
      { intros y; rewrite (sget_sinsert _ _ _ (bi_wf _ _ _ I)), Nat.eqb_refl; reflexivity. }
      pose proof (G x1) as Gx; rewrite <- Q1, Ed in Gx; cbn in Gx; rewrite G in Gx; now inv Gx. }
    assert (kx = quad_comps x) as ->.
    { apply (tb_fun _ _ _ (b_table L _ _ _ I1) q).
      - apply (ti_ent _ _ _ _ _ _ _ T); auto.
      - exists (vacant_key (bd_quads d)), x; rewrite Q1.
        rewrite (sget_sinsert _ _ _ (bi_wf _ _ _ I)), Nat.eqb_refl; auto. }
    split; cbn [seats shown held].
    - rewrite Ed; exact K'.
    - rewrite Ed; exact S'.
    - intros z kz; rewrite (ti_ent _ _ _ _ _ _ _ T), <- (bs_held _ _ B); cbn [In].
      split; (intros [H|H]; [left|now right]).
      + injection H as <- <-; auto.
      + destruct H as [-> ->]; reflexivity.
  Qed.

  Lemma b_used d ks vs k :
    bd_inv (cmp:=cmp) d ks vs ->
    0 < refs (bd_quads d) (bd_qi d) k <-> exists z kz, bent d z kz /\ In k kz.
  Proof.
    intros I; rewrite <- (rinv_live _ _ _ _ k (bi_res _ _ _ I)); split.
    - intros H; destruct (br_val (bd_resources d) k) as [w|] eqn:Ew; [|congruence].
      apply (b_uses _ _ _ _ _ I) in Ew as (z & kz & p & Hz & Hk & _).
      exists z, kz; split; [exact Hz|]; now apply nth_error_In in Hk.
    - intros (z & kz & Hz & Hk); apply In_nth_error in Hk as (p & Hp).
      destruct (nth_error (quad_comps z) p) as [w|] eqn:Ew.
      + assert (uses quad_comps (bent d) k w) as U by (exists z, kz, p; auto).
        apply (b_uses _ _ _ _ _ I) in U; congruence.
      + exfalso; apply nth_error_None in Ew.
        pose proof (tb_len _ _ _ (b_table L _ _ _ I) _ _ Hz) as Hl.
        assert (p < length kz) by (apply nth_error_Some; congruence); lia.
  Qed.

  Lemma find_held d ks vs sh q kq :
    bd_inv (cmp:=cmp) d ks vs -> bshelved d sh -> bent d q kq ->
    find (fun e => same qcmp q (fst e)) (held sh) = Some (q, kq).
  Proof.
    intros I B Hq.
    destruct (find (fun e => same qcmp q (fst e)) (held sh)) as [[z kz]|] eqn:E.
    - apply find_some in E as [E1 E2]; cbn in E2; apply (BaseProofs.same_true LQ) in E2; subst z.
      apply (bs_held _ _ B) in E1; now rewrite (tb_fun _ _ _ (b_table L _ _ _ I) _ _ _ Hq E1).
    - apply (bs_held _ _ B) in Hq; apply (find_none _ _ E) in Hq; cbn in Hq.
      assert (same qcmp q q = true) by (now apply (BaseProofs.same_true LQ)); congruence.
  Qed.

  Lemma b_depart d ks vs q d' sh :
    bd_inv (cmp:=cmp) d ks vs -> bshelved d sh -> In q ks ->
    bd_remove cmp d q = Some (true, d') -> bshelved d' (depart qcmp cmp q sh).
  Proof.
    intros I B Hq E.
    pose proof (b_table_rem L _ _ _ _ _ I Hq E) as T.
    assert (I' : exists ks' vs', bd_inv (cmp:=cmp) d' ks' vs').
    { destruct (bd_remove_desc L _ _ _ q I) as (d1 & vs1 & E1 & I1 & _).
      assert (d1 = d') as -> by congruence; eauto. }
    destruct I' as (ks' & vs' & I').
    unfold bd_remove in E; destruct I as [I1 I2 I3 I4].
    destruct (bt_remove_spec LQ _ _ _ q I3) as (r & qi & Eb & I3' & Hr).
    change (b_quad_cmp cmp (bd_resources d) (bd_quads d))
      with (kcmp (cmpk:=qcmp) (b_quad_at (bd_resources d) (bd_quads d))) in E.
    rewrite Eb in E; cbn in E; destruct r as [i|]; [|destruct Hr; contradiction].
    destruct Hr as (Hv & _ & HP).
    unfold b_quad_at in Hv; destruct (sget (bd_quads d) i) as [x|] eqn:Ex; [|discriminate].
    cbn in Hv; destruct (sremove_some _ _ _ Ex) as (qs & Eqs); rewrite Eqs in E; cbn in E.
    assert (Gq : forall j, sget qs j = if j =? i then None else sget (bd_quads d) j)
      by (intros j; apply (sget_sremove _ _ _ _ _ Eqs)).
    assert (Hni : ~ In i qi).
    { assert (ND : NoDup (i :: qi)) by (apply (Permutation_NoDup HP), (indexes_nodup LQ _ _ _ I3)).
      now inv ND. }
    assert (RC : forall r, refs (bd_quads d) (bd_qi d) r = occ (quad_comps x) r + refs qs qi r).
    { intros r; transitivity (qrefs x r + refs qs qi r).
      - unfold refs; rewrite (sumf_perm _ _ _ HP), sumf_cons, Ex; f_equal.
        apply sumf_ext; intros j Hj; rewrite Gq; destruct (j =? i) eqn:Ej; [|reflexivity].
        apply Nat.eqb_eq in Ej; subst; contradiction.
      - f_equal; unfold qrefs, quad_comps; destruct (q_g x); cbn; lia. }
    assert (Bq : bent d q (quad_comps x)) by (exists i, x; auto).
    unfold depart; rewrite (find_held _ _ _ _ _ _ (Build_bd_inv _ _ _ I1 I2 I3 I4) B Bq).
    set (rest := filter (fun e => negb (same qcmp q (fst e))) (held sh)).
    assert (Hrest : forall z kz, In (z, kz) rest <-> bent d' z kz).
    { intros z kz; rewrite (tr_ent _ _ _ _ _ _ T); unfold rest; rewrite filter_In; cbn [fst].
      rewrite negb_true_iff, (BaseProofs.same_false LQ), (bs_held _ _ B); intuition congruence. }
    apply (rinv_ext _ _ _ _ _ RC) in I4.
    apply qwr_some in Hv as (Vs & Vp & Vo & Vg).
    destruct (b_release (b_resource_cmp cmp) (bd_resources d) (bd_ri d) (q_s x) (q_s q))
      as [[rs1 ri1]|] eqn:R1; [|discriminate]; cbn in E.
    destruct (b_release (b_resource_cmp cmp) rs1 ri1 (q_p x) (q_p q))
      as [[rs2 ri2]|] eqn:R2; [|discriminate]; cbn in E.
    destruct (b_release (b_resource_cmp cmp) rs2 ri2 (q_o x) (q_o q))
      as [[rs3 ri3]|] eqn:R3; [|discriminate]; cbn in E.
    assert (Ed : exists rs ri, d' = BDataset rs qs ri qi /\
      match q_g x with
      | Some g => b_release (b_resource_index_cmp cmp) rs3 ri3 g g
      | None => Some (rs3, ri3)
      end = Some (rs, ri)).
    { destruct (match q_g x with Some _ => _ | None => _ end) as [[rs ri]|]; [|discriminate].
      cbn in E; inv E; eauto. }
    destruct Ed as (rs & ri & -> & R4); clear E.
    assert (Hu : forall r, 0 < refs qs qi r <-> used rest r = true).
    { intros r; rewrite (b_used _ _ _ r I'), used_iff; split; intros (z & kz & A & C);
        exists z, kz; (split; [|exact C]); now apply Hrest. }
    assert (Ec : quad_comps x = q_s x :: q_p x :: q_o x :: match q_g x with Some g => [g] | None => [] end).
    { unfold quad_comps; destruct (q_g x); reflexivity. }
    rewrite Ec in I4 |- *.
    destruct (b_unseat _ _ _ _ _ _ _ _ _ rest _ _ _ _ I4 Hu Vs (finds_value _ _)
                (bs_kept _ _ B) (bs_shows _ _ B) R1) as (st1 & sw1 & vs1 & -> & J1 & K1 & S1 & V1).
    rewrite <- V1 in Vp by (cbn; rewrite ind_same; lia).
    destruct (b_unseat _ _ _ _ _ _ _ _ _ rest _ _ _ _ J1 Hu Vp (finds_value _ _)
                K1 S1 R2) as (st2 & sw2 & vs2 & -> & J2 & K2 & S2 & V2).
    rewrite <- V1, <- V2 in Vo by (cbn; rewrite ind_same; lia).
    destruct (b_unseat _ _ _ _ _ _ _ _ _ rest _ _ _ _ J2 Hu Vo (finds_value _ _)
                K2 S2 R3) as (st3 & sw3 & vs3 & -> & J3 & K3 & S3 & V3).
    destruct (q_g x) as [g|].
    - destruct (q_g q) as [h|]; [|contradiction].
      rewrite <- V1, <- V2, <- V3 in Vg by (cbn; rewrite ind_same; lia).
      destruct (b_unseat _ _ _ _ _ _ _ _ _ rest _ _ _ _ J3 Hu Vg (finds_index _ _)
                  K3 S3 R4) as (st4 & sw4 & vs4 & -> & J4 & K4 & S4 & V4).
      split; cbn [seats shown held unseat]; assumption.
    - injection R4 as <- <-; split; cbn [seats shown held unseat]; assumption.
  Qed.

  (** Histories. *)
  Lemma b_shelf_insert d s q b d' sh :
    bd_rep (cmp:=cmp) d s -> bshelved d sh -> bd_insert cmp keep d q = Some (b, d') ->
    bshelved d' (fold_left shift (if mem qcmp q s then [] else [(true, q)]) sh).
  Proof.
    intros [Hn (vs & I)] B E; destruct (mem qcmp q s) eqn:Em.
    - assert (Hin : In q (sorted_elements qcmp s)).
      { apply in_sorted_elements; now apply (mem_true LQ). }
      rewrite (bd_insert_dup L keep _ _ _ _ I Hin) in E; inv E; exact B.
    - assert (Hin : ~ In q (sorted_elements qcmp s)).
      { rewrite in_sorted_elements; now apply (mem_false LQ). }
      destruct (bd_insert_spec L keep _ _ _ _ I Hin) as (d1 & vs1 & E1 & I1 & _).
      rewrite E in E1; inv E1; exact (b_arrive _ _ _ _ _ _ I B Hin E).
  Qed.

  Lemma b_shelf_remove d s q b d' sh :
    bd_rep (cmp:=cmp) d s -> bshelved d sh -> bd_remove cmp d q = Some (b, d') ->
    bshelved d' (fold_left shift (if mem qcmp q s then [(false, q)] else []) sh).
  Proof.
    intros [Hn (vs & I)] B E; pose proof (mem_sorted L q s) as Ms.
    destruct (bd_remove_desc L _ _ _ q I) as (d1 & vs1 & E1 & I1 & _ & _ & D).
    rewrite E, Ms in E1; rewrite Ms in D; inv E1; destruct (mem qcmp q s) eqn:Em.
    - assert (Hin : In q (sorted_elements qcmp s)).
      { apply in_sorted_elements; now apply (mem_true LQ). }
      exact (b_depart _ _ _ _ _ _ I B Hin E).
    - subst d1; exact B.
  Qed.

  Lemma b_shelf_extend l : forall d s d' sh,
    bd_rep (cmp:=cmp) d s -> bshelved d sh -> bd_extend cmp keep d l = Some d' ->
    bshelved d' (fold_left shift (extend_changes qcmp s l) sh).
  Proof.
    induction l as [|q l IH]; intros d s d' sh H B E; cbn in E; [inv E; exact B|].
    destruct (bd_insert_rep L keep _ _ q H) as (d1 & E1 & H1); rewrite E1 in E; cbn in E.
    pose proof (b_shelf_insert _ _ _ _ _ _ H B E1) as B1.
    specialize (IH _ _ _ _ H1 B1 E); cbn [extend_changes].
    destruct (mem qcmp q s) eqn:Em; cbn in IH |- *; [|exact IH].
    unfold add in IH; rewrite Em in IH; exact IH.
  Qed.

  Lemma b_shelf_step d s o x d' sh :
    bd_rep (cmp:=cmp) d s -> bshelved d sh -> bd_step cmp keep d o = Some (x, d') ->
    bshelved d' (fold_left shift (set_changes qcmp s o) sh).
  Proof.
    intros H B E; destruct o as [q|q|l|q| | | |]; cbn [bd_step set_changes] in *.
    - destruct (bd_insert cmp keep d q) as [[b d1]|] eqn:E1; [|discriminate]; cbn in E; inv E.
      eapply b_shelf_insert; eauto.
    - destruct (bd_remove cmp d q) as [[b d1]|] eqn:E1; [|discriminate]; cbn in E; inv E.
      eapply b_shelf_remove; eauto.
    - destruct (bd_extend cmp keep d l) as [d1|] eqn:E1; [|discriminate]; cbn in E; inv E.
      eapply b_shelf_extend; eauto.
    - destruct (bd_contains cmp d q); [|discriminate]; cbn in E; inv E; exact B.
    - inv E; exact B.
    - inv E; exact B.
    - destruct (bd_iter d); [|discriminate]; cbn in E; inv E; exact B.
    - destruct (bd_into_iter d); [|discriminate]; cbn in E; inv E; exact B.
  Qed.

  Lemma b_shelf_run ops : forall d s xs d' sh,
    bd_rep (cmp:=cmp) d s -> bshelved d sh -> run (bd_step cmp keep) d ops = Some (xs, d') ->
    bshelved d' (fold_left shift (set_log qcmp s ops) sh).
  Proof.
    induction ops as [|o ops IH]; intros d s xs d' sh H B E; cbn [run set_log] in *; [inv E; exact B|].
    destruct (bd_step cmp keep d o) as [[x d1]|] eqn:E1; [|discriminate].
    destruct (run (bd_step cmp keep) d1 ops) as [[ys d2]|] eqn:E2; [|discriminate]; inv E.
    destruct (bd_step_rep L keep _ _ o H) as (d3 & E3 & H3); rewrite E1 in E3; inv E3.
    rewrite fold_left_app; eapply IH; eauto; eapply b_shelf_step; eauto.
  Qed.

  Lemma b_shelf_new : bshelved bd_new shelf_new.
  Proof.
    split; cbn.
    - split; [reflexivity|]; split; [reflexivity|]; intros [|i]; reflexivity.
    - intros w k; split; [discriminate|intros [[] _]].
    - intros z ks; split; [intros []|]; intros (i & y & H & _).
      unfold sget in H; cbn in H; destruct i; discriminate.
  Qed.

  Lemma b_shelf_start ops xs d :
    run (bd_step cmp keep) bd_new ops = Some (xs, d) ->
    bshelved d (fold_left shift (set_log qcmp [] ops) shelf_new).
  Proof. exact (b_shelf_run _ _ _ _ _ _ bd_rep_new b_shelf_new). Qed.

  Lemma bd_resource_shelf ops xs d r :
    run (bd_step cmp keep) bd_new ops = Some (xs, d) ->
    bd_contains_resource cmp d r =
      Some (if shown (fold_left shift (set_log qcmp [] ops) shelf_new) r then true else false).
  Proof.
    intros E; pose proof (bd_run_rep_new L keep _ _ _ E) as [Hn (vs & I)].
    pose proof (b_shelf_start _ _ _ E) as B; unfold bd_contains_resource.
    destruct (index_of_resource_spec L _ _ _ _ r (bi_res _ _ _ I)) as (f & -> & Hf).
    rewrite (b_known _ _ _ _ r f I B) by exact Hf; destruct f; reflexivity.
  Qed.
End Proofs.
