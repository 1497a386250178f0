(** Converting a [BTreeDataset] into an [IndexedBTreeDataset]. *)
From Coq Require Import List Bool Arith Lia Permutation Sorted.
Import ListNotations.
From Verif Require Import Base SlabModel TripleModel TriplePatternModel QuadPatternModel SetSpec
  ContainerSpec IndexedSpec Machine BaseProofs BResourceModel BResourceProofs BTreeDatasetModel
  BTreeDatasetProofs BTreeGraphModel IResourceModel IResourceProofs
  IndexedDatasetModel IndexedDatasetProofs IndexedHistoryProofs.
Open Scope panic_scope.

(** ** Rebuilding a slab *)
Lemma gap_spec {T} n : forall s : slab T,
  swf s ->
  swf (gap s n) /\ length (ents (gap s n)) = length (ents s) + n /\
  forall j, sget (gap s n) j = sget s j.
Proof.
  induction n as [|n IH]; intros s W; cbn; [split; [assumption|split; [lia|reflexivity]]|].
  set (s' := Slab (ents s ++ [None]) (length (ents s) :: free s)).
  assert (W' : swf s').
  { destruct W as [Hn Hf]; split; cbn.
    - constructor; [|assumption]; rewrite Hf.
      assert (nth_error (ents s) (length (ents s)) = None) as -> by (apply nth_error_None; lia).
      discriminate.
    - intros k; rewrite nth_error_app_last, Hf; destruct (k =? length (ents s)) eqn:E.
      + apply Nat.eqb_eq in E; subst; tauto.
      + apply Nat.eqb_neq in E; split; [intros [?|?]; [congruence|assumption]|auto]. }
  destruct (IH s' W') as (A & B & C); split; [exact A|]; split.
  - rewrite B; cbn; rewrite app_length; cbn; lia.
  - intros j; rewrite C; unfold sget; cbn; rewrite nth_error_app_last.
    destruct (j =? length (ents s)) eqn:E; [|reflexivity].
    apply Nat.eqb_eq in E; subst.
    assert (nth_error (ents s) (length (ents s)) = None) as -> by (apply nth_error_None; lia).
    reflexivity.
Qed.

Lemma scollect_from_spec {T} (l : list (nat * T)) : forall s,
  swf s -> StronglySorted Peano.lt (map fst l) ->
  (forall k, In k (map fst l) -> length (ents s) <= k) ->
  swf (scollect_from s l) /\
  forall k x, sget (scollect_from s l) k = Some x <-> sget s k = Some x \/ In (k, x) l.
Proof.
  induction l as [|[k v] l IH]; intros s W Hs Hk; cbn.
  - split; [assumption|]; intros; tauto.
  - cbn in Hs; apply StronglySorted_inv in Hs as [Hs Hf]; rewrite Forall_forall in Hf.
    specialize (Hk k (or_introl eq_refl)) as Hkk.
    destruct (gap_spec (k - length (ents s)) s W) as (W1 & L1 & G1).
    set (s1 := gap s (k - length (ents s))) in *.
    assert (Hl1 : length (ents s1) = k) by lia.
    set (s2 := Slab (ents s1 ++ [Some v]) (free s1)).
    assert (W2 : swf s2).
    { destruct W1 as [Hn1 Hf1]; split; cbn; [assumption|]; intros j.
      rewrite nth_error_app_last, Hf1; destruct (j =? length (ents s1)) eqn:E; [|reflexivity].
      apply Nat.eqb_eq in E; subst j.
      assert (nth_error (ents s1) (length (ents s1)) = None) as -> by (apply nth_error_None; lia).
      split; discriminate. }
    assert (G2 : forall j, sget s2 j = if j =? k then Some v else sget s j).
    { intros j; rewrite <- G1; unfold sget; cbn; rewrite nth_error_app_last, Hl1.
      destruct (j =? k); reflexivity. }
    destruct (IH s2 W2 Hs) as [A B].
    { intros j Hj; cbn; rewrite app_length; cbn; specialize (Hf _ Hj); lia. }
    split; [exact A|]; intros j x; rewrite B, G2; destruct (j =? k) eqn:E.
    + apply Nat.eqb_eq in E; subst j; split.
      * intros [H|H]; [injection H as ->; auto|auto].
      * intros [H|[H|H]]; [|injection H as ->; auto|auto].
        apply sget_lt in H; lia.
    + apply Nat.eqb_neq in E; split; [tauto|].
      intros [H|[H|H]]; [auto|congruence|auto].
Qed.

Lemma scollect_spec {T} (l : list (nat * T)) :
  StronglySorted Peano.lt (map fst l) ->
  swf (scollect l) /\ forall k x, sget (scollect l) k = Some x <-> In (k, x) l.
Proof.
  intros H; destruct (scollect_from_spec l slab_new swf_new H) as [A B].
  - intros; cbn; lia.
  - split; [exact A|]; intros k x; unfold scollect; rewrite B, sget_new.
    split; [intros [?|?]; [discriminate|assumption]|auto].
Qed.

Section Proofs.
  Context {R : Type} {cmp : R -> R -> comparison} (L : ord_laws cmp).
  Context (keep : bool).
  Notation qcmp := (quad_cmp cmp).
  Let LQ : ord_laws qcmp := quad_cmp_laws cmp L.

  (** The table of resources, with the uses recorded so far. *)
  Definition table (rs : slab (iresource R)) (bs : slab (bresource R))
      (D : pos -> nat -> nat -> Prop) : Prop :=
    swf rs /\ forall r,
      match sget rs r, sget bs r with
      | Some x, Some y =>
          ir_value x = br_value y /\
          forall p, nsorted (ir_at p x) /\ forall i, In i (ir_at p x) <-> D p r i
      | None, None => True
      | _, _ => False
      end.

  Lemma table_ext rs bs D D' :
    (forall p r i, sget bs r <> None -> (D p r i <-> D' p r i)) -> table rs bs D -> table rs bs D'.
  Proof.
    intros H [W T]; split; [assumption|]; intros r; specialize (T r).
    destruct (sget rs r) as [x|], (sget bs r) as [y|] eqn:E; auto.
    destruct T as [T1 T2]; split; [assumption|]; intros p; destruct (T2 p) as [A B].
    split; [assumption|]; intros i; rewrite B; apply H; congruence.
  Qed.

  Lemma table_val rs bs D r : table rs bs D -> ir_val rs r = br_val bs r.
  Proof.
    intros [_ T]; specialize (T r); unfold ir_val, br_val.
    destruct (sget rs r) as [x|], (sget bs r) as [y|]; try contradiction; [|reflexivity].
    cbn; f_equal; apply T.
  Qed.

  Lemma table_use rs bs D p k i :
    table rs bs D -> sget bs k <> None ->
    exists rs', i_use rs p k i = Some rs' /\
      table rs' bs (fun p' r j => D p' r j \/ (p' = p /\ r = k /\ j = i)).
  Proof.
    intros [W T] Hk; pose proof (T k) as Tk; unfold i_use.
    destruct (sget rs k) as [x|] eqn:E; [|destruct (sget bs k); [contradiction|congruence]].
    cbn; eexists; split; [reflexivity|]; split; [now apply swf_sset with x|].
    intros r; rewrite (sget_sset _ _ _ _ _ E); specialize (T r).
    destruct (r =? k) eqn:Er.
    - apply Nat.eqb_eq in Er; subst r; rewrite E in T.
      destruct (sget bs k) as [y|]; [|contradiction]; destruct T as [T1 T2].
      split; [now rewrite ir_value_upd|]; intros q; destruct (T2 q) as [A B].
      rewrite ir_at_upd; destruct (pos_eq_dec q p) as [->|Hq].
      + split; [now apply ns_insert_sorted|]; intros j; rewrite in_ns_insert, B; intuition.
      + split; [assumption|]; intros j; rewrite B; intuition.
    - apply Nat.eqb_neq in Er; destruct (sget rs r) as [x'|], (sget bs r) as [y'|]; auto.
      destruct T as [T1 T2]; split; [assumption|]; intros q; destruct (T2 q) as [A B].
      split; [assumption|]; intros j; rewrite B; intuition.
  Qed.

  Definition set_done (qs : slab (quad nat)) (p : pos) (l : list nat) (done : list nat) : Prop :=
    nsorted l /\ forall k, In k l <-> exists i, In i done /\ uses qs p k i.

  Record part (b : @bdataset R) (done : list nat) (d : @idataset R) : Prop := {
    pt_q : id_quads d = bd_quads b;
    pt_ri : id_ri d = bd_ri b;
    pt_qi : id_qi d = bd_qi b;
    pt_t : table (id_resources d) (bd_resources b)
             (fun p r i => In i done /\ uses (bd_quads b) p r i);
    pt_s : set_done (bd_quads b) PosS (id_s d) done;
    pt_p : set_done (bd_quads b) PosP (id_p d) done;
    pt_o : set_done (bd_quads b) PosO (id_o d) done;
    pt_dg : nsorted (id_dg d) /\ forall i, In i (id_dg d) <->
              In i done /\ exists x, sget (bd_quads b) i = Some x /\ q_g x = None;
    pt_ng : set_done (bd_quads b) PosG (id_ng d) done
  }.

  Lemma set_done_insert qs p l done i x k :
    sget qs i = Some x -> slot p x = Some k ->
    set_done qs p l done -> set_done qs p (ns_insert k l) (done ++ [i]).
  Proof.
    intros Hx Hk [A B]; split; [now apply ns_insert_sorted|]; intros j; rewrite in_ns_insert, B; split.
    - intros [->|(n & Hn & Hu)].
      + exists i; rewrite in_app_iff; cbn; split; [auto|exists x; auto].
      + exists n; rewrite in_app_iff; auto.
    - intros (n & Hn & Hu); apply in_app_or in Hn as [Hn|[<-|[]]]; [right; eauto|left].
      destruct Hu as (y & Hy & Hs); congruence.
  Qed.

  Lemma id_index_spec b idx : forall done d,
    part b done d -> (forall i, In i idx -> exists q, b_quad_at (bd_resources b) (bd_quads b) i = Some q) ->
    exists d', id_index idx d = Some d' /\ part b (done ++ idx) d'.
  Proof.
    induction idx as [|i idx IH]; intros done d P Hl; cbn.
    - exists d; rewrite app_nil_r; auto.
    - destruct (Hl i (or_introl eq_refl)) as (q & Hq); destruct P as [P1 P2 P3 P4 P5 P6 P7 P8 P9].
      rewrite P1.
      unfold b_quad_at in Hq; destruct (sget (bd_quads b) i) as [x|] eqn:Ex; [|discriminate].
      cbn in *; apply qwr_some in Hq as (Vs & Vp & Vo & Vg).
      assert (Live : forall k v, br_val (bd_resources b) k = Some v -> sget (bd_resources b) k <> None).
      { intros k v; unfold br_val; destruct (sget (bd_resources b) k); discriminate. }
      destruct (table_use _ _ _ PosS (q_s x) i P4) as (rs1 & -> & T1); [eauto|]; cbn.
      destruct (table_use _ _ _ PosP (q_p x) i T1) as (rs2 & -> & T2); [eauto|]; cbn.
      destruct (table_use _ _ _ PosO (q_o x) i T2) as (rs3 & -> & T3); [eauto|]; cbn.
      assert (exists rs4, match q_g x with Some g => i_use rs3 PosG g i | None => Some rs3 end = Some rs4 /\
        table rs4 (bd_resources b)
          (fun p r j => (In j done /\ uses (bd_quads b) p r j) \/ (slot p x = Some r /\ j = i)))
        as (rs4 & -> & T4).
      { destruct (q_g x) as [g|] eqn:Eg.
        - destruct (q_g q) as [gv|]; [|contradiction].
          destruct (table_use _ _ _ PosG g i T3) as (rs4 & -> & T4); [eauto|].
          exists rs4; split; [reflexivity|]; eapply table_ext; [|exact T4].
          intros [] r j _; cbn; rewrite ?Eg; intuition congruence.
        - exists rs3; split; [reflexivity|]; eapply table_ext; [|exact T3].
          intros [] r j _; cbn; rewrite ?Eg; intuition congruence. }
      cbn; destruct (IH (done ++ [i]) (IDataset rs4 (bd_quads b) (id_ri d) (id_qi d)
             (ns_insert (q_s x) (id_s d)) (ns_insert (q_p x) (id_p d)) (ns_insert (q_o x) (id_o d))
             (match q_g x with Some _ => id_dg d | None => ns_insert i (id_dg d) end)
             (match q_g x with Some g => ns_insert g (id_ng d) | None => id_ng d end)))
        as (d' & E' & P').
      + split; cbn; auto.
        * eapply table_ext; [|exact T4]; intros p r j _; rewrite in_app_iff; cbn; split.
          -- intros [[? ?]|[Hs ->]]; [auto|split; [auto|exists x; auto]].
          -- intros [[?|[<-|[]]] Hu]; [auto|right].
             destruct Hu as (y & Hy & Hs); split; [congruence|reflexivity].
        * eapply set_done_insert; eauto; reflexivity.
        * eapply set_done_insert; eauto; reflexivity.
        * eapply set_done_insert; eauto; reflexivity.
        * destruct P8 as [A B]; destruct (q_g x) as [g|] eqn:Eg.
          -- split; [assumption|]; intros j; rewrite B, in_app_iff; cbn; split; [tauto|].
             intros [[?|[<-|[]]] (y & Hy & Hg)]; [eauto|congruence].
          -- split; [now apply ns_insert_sorted|]; intros j; rewrite in_ns_insert, B, in_app_iff; cbn.
             split.
             ++ intros [->|[? ?]]; [split; [auto|exists x; auto]|auto].
             ++ intros [[?|[<-|[]]] ?]; auto.
        * destruct (q_g x) as [g|] eqn:Eg; [eapply set_done_insert; eauto|].
          destruct P9 as [A B]; split; [assumption|]; intros k; rewrite B; split.
          -- intros (n & Hn & Hu); exists n; rewrite in_app_iff; auto.
          -- intros (n & Hn & Hu); apply in_app_or in Hn as [Hn|[<-|[]]]; [eauto|].
             destruct Hu as (y & Hy & Hs); rewrite Ex in Hy; inv Hy; cbn in Hs; congruence.
      + intros j Hj; apply Hl; auto.
      + exists d'; split; [exact E'|]; now rewrite <- app_assoc in P'.
  Qed.

  Lemma map_fst_map {A B C} (f : B -> C) (l : list (A * B)) :
    map fst (map (fun '(a, b) => (a, f b)) l) = map fst l.
  Proof. rewrite map_map; apply map_ext; intros []; reflexivity. Qed.

  Lemma convert_spec b ks vs :
    bd_inv (cmp:=cmp) b ks vs ->
    exists d, id_from_non_indexed b = Some d /\ id_inv (cmp:=cmp) d ks vs /\
      id_quads d = bd_quads b /\
      (forall W, bd_exact W b -> id_exact W d) /\
      (forall i x, sget (id_quads d) i = Some x ->
         In (q_s x) (id_s d) /\ In (q_p x) (id_p d) /\ In (q_o x) (id_o d)) /\
      ng_exact d /\
      (forall i, i_quad_at (id_resources d) (id_quads d) i =
                 b_quad_at (bd_resources b) (bd_quads b) i).
  Proof.
    intros [I1 I2 I3 I4]; unfold id_from_non_indexed.
    set (f := fun r : bresource R => IRes (br_value r) [] [] [] []).
    set (rs := scollect _).
    assert (C : swf rs /\ forall k x, sget rs k = Some x <->
              In (k, x) (map (fun '(i, r) => (i, f r)) (spairs (bd_resources b)))).
    { apply scollect_spec; rewrite map_fst_map; apply spairs_keys_sorted. }
    destruct C as [W C].
    destruct (id_index_spec b (bd_qi b) [] (IDataset rs (bd_quads b) (bd_ri b) (bd_qi b) [] [] [] [] []))
      as (d & E & P).
    { split; cbn; auto.
      - split; [exact W|]; intros r.
        destruct (sget (bd_resources b) r) as [y|] eqn:Ey.
        + assert (sget rs r = Some (f y)) as ->.
          { apply C, in_map_iff; exists (r, y); split; [reflexivity|now apply spairs_in]. }
          split; [reflexivity|]; intros []; cbn; (split; [constructor|intuition]).
        + destruct (sget rs r) as [x|] eqn:Ex; [|exact I].
          apply C, in_map_iff in Ex as ([k y] & Hk & Hin); inv Hk.
          apply spairs_in in Hin; congruence.
      - split; [apply SSorted_nil|]; intros k; split; [intros []|intros (i & [] & _)].
      - split; [apply SSorted_nil|]; intros k; split; [intros []|intros (i & [] & _)].
      - split; [apply SSorted_nil|]; intros k; split; [intros []|intros (i & [] & _)].
      - split; [apply SSorted_nil|]; intros k; cbn; tauto.
      - split; [apply SSorted_nil|]; intros k; split; [intros []|intros (i & [] & _)]. }
    { intros i Hi; destruct I3 as [HM _]; destruct (mapM_in_inv _ _ _ _ HM Hi) as (q & Hq & _); eauto. }
    cbn in P; exists d; split; [exact E|].
    destruct P as [P1 P2 P3 P4 P5 P6 P7 P8 P9].
    assert (HV : forall r, ir_val (id_resources d) r = br_val (bd_resources b) r)
      by (intros; eapply table_val; eauto).
    assert (HU : forall p r i, In i (bd_qi b) /\ uses (bd_quads b) p r i <-> uses (bd_quads b) p r i).
    { intros p r i; split; [tauto|]; intros H; split; [|assumption].
      destruct H as (x & Hx & _); apply I2; congruence. }
    assert (HQ : forall i, i_quad_at (id_resources d) (id_quads d) i =
                           b_quad_at (bd_resources b) (bd_quads b) i).
    { intros i; unfold i_quad_at, b_quad_at; rewrite P1.
      destruct (sget (bd_quads b) i); [|reflexivity]; cbn.
      unfold i_quad_with_resources, b_quad_with_resources; rewrite !HV.
      destruct (q_g q); [|reflexivity]; now rewrite HV. }
    assert (HS : forall p l, set_done (bd_quads b) p l (bd_qi b) ->
              nsorted l /\ forall k, In k l <-> exists i, uses (bd_quads b) p k i).
    { intros p l [A B]; split; [assumption|]; intros k; rewrite B; split.
      - intros (i & _ & ?); eauto.
      - intros (i & ?); exists i; now apply HU. }
    apply HS in P5, P6, P7, P9.
    destruct P5 as [P5 P5'], P6 as [P6 P6'], P7 as [P7 P7'], P9 as [P9 P9'], P8 as [P8 P8'].
    destruct P4 as [PW PT].
    split; [split|split; [exact P1|split; [|split; [|split; [|exact HQ]]]]].
    - now rewrite P1.
    - intros i; rewrite P1, P3; apply I2.
    - rewrite P3; eapply indexes_ext; [|exact I3]; intros; apply HQ.
    - rewrite P1, P2; split; [exact PW| | |].
      + intros r x Hx; specialize (PT r); rewrite Hx in PT.
        destruct (sget (bd_resources b) r) as [y|] eqn:Ey; [|contradiction]; destruct PT as [_ PT].
        split.
        * intros p; destruct (PT p) as [A B]; split; [assumption|].
          intros i; rewrite B; apply HU.
        * pose proof (ri_occ _ _ _ _ I4 r) as Hr; rewrite Ey in Hr; destruct Hr as [_ Hr].
          apply sumf_pos in Hr as (i & Hi & Hr).
          destruct (sget (bd_quads b) i) as [z|] eqn:Ez; [|lia].
          apply qrefs_pos in Hr as [H|[H|[H|H]]];
            [exists PosS|exists PosP|exists PosO|exists PosG]; exists i, z; cbn; split; congruence.
      + intros r Hr p i (x & Hx & Hs); specialize (PT r); rewrite Hr in PT.
        pose proof (ri_occ _ _ _ _ I4 r) as Ho.
        destruct (sget (bd_resources b) r) as [y|] eqn:Ey; [contradiction|].
        assert (Hi : In i (bd_qi b)) by (apply I2; congruence).
        pose proof (sumf_in (fun i => match sget (bd_quads b) i with
                                       | Some q => qrefs q r | None => 0 end) _ _ Hi) as Hle.
        cbn in Hle; rewrite Hx in Hle; unfold refs in Ho; rewrite Ho in Hle.
        assert (0 < qrefs x r); [|lia].
        apply qrefs_pos; destruct p; cbn in Hs; [inv Hs; auto|inv Hs; auto|inv Hs; auto|auto].
      + eapply indexes_ext; [|apply (ri_idx _ _ _ _ I4)]; auto.
    - rewrite P1; split; [assumption|]; intros k Hk; now apply P5'.
    - rewrite P1; split; [assumption|]; intros k Hk; now apply P6'.
    - rewrite P1; split; [assumption|]; intros k Hk; now apply P7'.
    - rewrite P1; split; [assumption|]; intros i; rewrite P8'; split; [tauto|].
      intros H; split; [|assumption]; destruct H as (x & Hx & _); apply I2; congruence.
    - rewrite P1; split; [assumption|]; intros k i Hk; apply P9'; eauto.
    - intros W' X r w Hr; rewrite P2; apply X; rewrite <- HV; exact Hr.
    - intros i x Hx; rewrite P1 in Hx.
      rewrite P5', P6', P7'; repeat split; exists i, x; auto.
    - intros k Hk; rewrite P1; now apply P9'.
  Qed.

  (** Vacant slots of a [BTreeDataset]. *)
  Lemma bd_insert_free d q r d' :
    bd_insert cmp keep d q = Some (r, d') ->
    length (free (bd_quads d')) = if r : bool then pred (length (free (bd_quads d)))
                                  else length (free (bd_quads d)).
  Proof.
    unfold bd_insert; destruct (bd_contains cmp d q) as [[]|]; cbn; [intros H; inv H; auto| |discriminate].
    intros H; unfold bind in H.
    repeat match type of H with
    | match ?t with _ => _ end = _ => destruct t eqn:?; try discriminate
    end; inv H; cbn; apply free_sinsert.
  Qed.

  Lemma bd_remove_free d q r d' :
    bd_remove cmp d q = Some (r, d') ->
    length (free (bd_quads d')) = if r : bool then S (length (free (bd_quads d)))
                                  else length (free (bd_quads d)).
  Proof.
    unfold bd_remove; intros H; unfold bind in H.
    repeat match type of H with
    | match ?t with _ => _ end = _ => destruct t eqn:?; try discriminate
    end; inv H; cbn; auto; eapply free_sremove; eauto.
  Qed.

  Lemma bd_extend_free l : forall d s d',
    bd_rep (cmp:=cmp) d s -> bd_extend cmp keep d l = Some d' ->
    length (free (bd_quads d')) = vacancies (length (free (bd_quads d))) (extend_changes qcmp s l).
  Proof.
    induction l as [|q l IH]; intros d s d' Hr H; cbn in *; [now inv H|].
    destruct (bd_insert_rep L keep _ _ q Hr) as (d1 & E & Hr1); rewrite E in H; cbn in H.
    rewrite (IH _ _ _ Hr1 H); pose proof (bd_insert_free _ _ _ _ E) as Hf.
    unfold add; destruct (mem qcmp q s) eqn:Em; cbn in *; rewrite Hf; reflexivity.
  Qed.

  Lemma bd_run_free ops : forall d s xs d',
    bd_rep (cmp:=cmp) d s -> run (bd_step cmp keep) d ops = Some (xs, d') ->
    length (free (bd_quads d')) = vacancies (length (free (bd_quads d))) (set_log qcmp s ops).
  Proof.
    induction ops as [|o ops IH]; intros d s xs d' Hr H; cbn -[bd_step spec_step set_changes] in *; [now inv H|].
    destruct (bd_step_rep L keep d s o Hr) as (d1 & E & Hr1); rewrite E in H.
    destruct (run (bd_step cmp keep) d1 ops) as [[ys d2]|] eqn:E2; [|discriminate]; inv H.
    rewrite (IH _ _ _ _ Hr1 E2), vacancies_app; f_equal.
    destruct o as [q|q|l|q| | | |]; cbn in E |- *.
    - destruct (bd_insert cmp keep d q) as [[r d3]|] eqn:E3; [|discriminate]; cbn in E; inv E.
      rewrite (bd_insert_free _ _ _ _ E3); destruct (mem qcmp q s); reflexivity.
    - destruct (bd_remove cmp d q) as [[r d3]|] eqn:E3; [|discriminate]; cbn in E; inv E.
      rewrite (bd_remove_free _ _ _ _ E3); destruct (mem qcmp q s); reflexivity.
    - destruct (bd_extend cmp keep d l) as [d3|] eqn:E3; [|discriminate]; cbn in E; inv E.
      eapply bd_extend_free; eauto.
    - destruct (bd_contains cmp d q); inv E; reflexivity.
    - inv E; reflexivity.
    - inv E; reflexivity.
    - destruct (bd_iter d); inv E; reflexivity.
    - destruct (bd_into_iter d); inv E; reflexivity.
  Qed.

  (** An indexed dataset made from a [BTreeDataset] with the history [ops]. *)
  Lemma start_spec ops xs b :
    run (bd_step cmp keep) bd_new ops = Some (xs, b) ->
    exists d, id_from_non_indexed b = Some d /\
      istate (cmp:=cmp) d (spec_set qcmp ops)
        (fun W => known_log qcmp quad_comps W [] (set_log qcmp [] ops))
        (vacancies 0 (set_log qcmp [] ops)) [].
  Proof.
    intros H; pose proof (bd_run_rep_new L keep _ _ _ H) as [Hn (vs & I)].
    destruct (convert_spec _ _ _ I) as (d & E & I' & Q & X & S & N & _).
    exists d; split; [exact E|].
    assert (Ex : forall W, known_log qcmp quad_comps W [] (set_log qcmp [] ops) -> id_exact W d).
    { intros W Hk; apply (known_set_log LQ) in Hk.
      apply X; eapply (bd_run_xrep L keep W ops); eauto; apply bd_xrep_new. }
    split; auto.
    - split; [exact Hn|exists vs; exact I'].
    - intros _ _ _ i x q Hx Hq _; cbn; split; [discriminate|]; intros _; apply (S i x Hx).
    - intros _ _ _ i x q Hx Hq _; cbn; split; [discriminate|]; intros _; apply (S i x Hx).
    - intros _ _ _ i x q Hx Hq _; cbn; split; [discriminate|]; intros _; apply (S i x Hx).
    - rewrite Q; cbn; rewrite (bd_run_free ops _ _ _ _ (bd_rep_new (cmp:=cmp)) H); reflexivity.
  Qed.
End Proofs.
