(** What containers allocate, from their invariants and histories. *)
From Coq Require Import List Bool Arith Lia Permutation Sorted.
Import ListNotations.
From Verif Require Import Base SlabModel TripleModel SetSpec ContainerSpec Machine BaseProofs
  BResourceModel BResourceProofs BTreeDatasetModel BTreeDatasetProofs BTreeGraphModel BTreeGraphProofs
  IResourceModel IResourceProofs IndexedDatasetModel IndexedDatasetProofs IndexedSpec
  IndexedHistoryProofs IndexedConvertProofs IndexedRunProofs IndexedGraphModel IndexedGraphProofs.
From Verif Require Import HeapSpec HeapProofs.
Open Scope panic_scope.

Lemma nodup_app_intro {A} (l m : list A) :
  NoDup l -> NoDup m -> (forall x, In x l -> In x m -> False) -> NoDup (l ++ m).
Proof.
  induction l as [|a l IH]; intros Hl Hm Hd; cbn; [exact Hm|]; inversion Hl; subst.
  constructor.
  - rewrite in_app_iff; intros [|]; [auto|]; eapply Hd; [now left|eassumption].
  - apply IH; auto; intros x A1 A2; eapply Hd; [right|]; eassumption.
Qed.

Lemma nodup_flat_map {A B} (f : A -> list B) l :
  NoDup l -> (forall a, In a l -> NoDup (f a)) ->
  (forall a b x, In a l -> In b l -> In x (f a) -> In x (f b) -> a = b) -> NoDup (flat_map f l).
Proof.
  induction l as [|a l IH]; intros Hn Hf Hd; cbn; [constructor|]; inversion Hn as [|? ? Na Nl]; subst.
  apply nodup_app_intro.
  - apply Hf; now left.
  - apply IH; auto; [intros; apply Hf; now right|]; intros b c x Hb Hc; apply Hd; now right.
  - intros x H1 H2; apply in_flat_map in H2 as (b & Hb & H2); apply Na.
    rewrite (Hd a b x); auto; [now left|now right].
Qed.

Lemma nodup_map_inj {A B} (f : A -> B) l :
  (forall x y, f x = f y -> x = y) -> NoDup l -> NoDup (map f l).
Proof. intros H; apply FinFun.Injective_map_NoDup; exact H. Qed.

Lemma length_flat_map {A B} (f : A -> list B) l :
  length (flat_map f l) = list_sum (map (fun a => length (f a)) l).
Proof. induction l as [|a l IH]; cbn; [reflexivity|]; rewrite app_length, IH; reflexivity. Qed.

Lemma nsorted_nodup l : nsorted l -> NoDup l.
Proof.
  induction l as [|x l IH]; intros H; [constructor|]; apply nsorted_cons in H as [H F].
  constructor; [intros Hx; specialize (F _ Hx); lia|auto].
Qed.

Section Weight.
  Context {X R : Type} (comps : X -> list R).

  Lemma weight_perm s t : Permutation s t -> weight comps s = weight comps t.
  Proof. intros H; apply list_sum_perm, Permutation_map, H. Qed.

  Lemma weight_le k : (forall x, length (comps x) <= k) -> forall s, weight comps s <= k * length s.
  Proof.
    intros H; induction s as [|x s IH]; [cbn; lia|]; specialize (H x).
    change (length (comps x) + weight comps s <= k * S (length s)); rewrite Nat.mul_succ_r; lia.
  Qed.
End Weight.

Lemma quad_comps_le {R} (q : quad R) : length (quad_comps q) <= 4.
Proof. destruct q as [s p o [g|]]; cbn; lia. Qed.

(** The slots used by the quads of a table. *)
Definition row_slots (qs : slab (quad nat)) (i : nat) : list nat :=
  match sget qs i with Some x => quad_comps x | None => [] end.

Lemma rows_weight {R} (f : nat -> option (quad R)) (qs : slab (quad nat)) :
  (forall i q, f i = Some q -> exists x, sget qs i = Some x /\ (q_g x = None <-> q_g q = None)) ->
  forall qi ks, mapM f qi = Some ks ->
  list_sum (map (fun i => length (row_slots qs i)) qi) = weight quad_comps ks.
Proof.
  intros Hf; induction qi as [|i qi IH]; intros ks H; [inv H; reflexivity|].
  apply mapM_cons in H as (q & ys & E & Eys & ->).
  change (length (row_slots qs i) + list_sum (map (fun i => length (row_slots qs i)) qi) =
          length (quad_comps q) + weight quad_comps ys).
  rewrite (IH _ Eys); f_equal; destruct (Hf _ _ E) as (x & Hx & Hg); unfold row_slots; rewrite Hx.
  destruct x as [a b c [g|]], q as [a' b' c' [g'|]]; cbn in *; intuition congruence.
Qed.

Lemma keys_le {T} (s : slab T) (l : list nat) :
  (forall k, sget s k <> None -> In k l) -> slen s <= length l.
Proof.
  intros H; unfold slen; rewrite <- (map_length fst); apply NoDup_incl_length.
  - apply strongly_lt_nodup, spairs_keys_sorted.
  - intros k Hk; apply in_map_iff in Hk as ((j & x) & <- & Hj); apply spairs_in in Hj.
    apply H; cbn; congruence.
Qed.

Lemma le_keys {T} (s : slab T) (l : list nat) :
  NoDup l -> (forall k, In k l -> sget s k <> None) -> length l <= slen s.
Proof.
  intros Hn H; unfold slen; rewrite <- (map_length fst); apply NoDup_incl_length; [exact Hn|].
  intros k Hk; specialize (H _ Hk); destruct (sget s k) as [x|] eqn:E; [|congruence].
  apply in_map_iff; exists (k, x); split; [reflexivity|now apply spairs_in].
Qed.

Section Inv.
  Context {R : Type} {cmp : R -> R -> comparison} (L : ord_laws cmp).
  Notation qcmp := (quad_cmp cmp).
  Let LQ : ord_laws qcmp := quad_cmp_laws cmp L.

  Lemma bd_inv_bounds (d : @bdataset R) ks vs :
    bd_inv (cmp:=cmp) d ks vs ->
    swf (bd_resources d) /\ slen (bd_quads d) = length ks /\ length (bd_qi d) = length ks /\
    slen (bd_resources d) <= weight quad_comps ks /\ length (bd_ri d) <= slen (bd_resources d).
  Proof.
    intros [Bw Bl [Bm Bs] [Rw Ro Ri]].
    assert (Nq : NoDup (bd_qi d)) by (eapply (indexes_nodup LQ); split; eauto).
    split; [exact Rw|]; split; [|split; [|split]].
    - rewrite (slen_keys _ _ Nq Bl); symmetry; eapply mapM_length; eauto.
    - symmetry; eapply mapM_length; eauto.
    - rewrite <- (rows_weight (b_quad_at (bd_resources d) (bd_quads d)) (bd_quads d)) with (qi := bd_qi d);
        [| |exact Bm].
      + rewrite <- length_flat_map; apply keys_le; intros k Hk; specialize (Ro k).
        destruct (sget (bd_resources d) k) as [x|]; [|congruence]; destruct Ro as [_ Ro].
        apply sumf_pos in Ro as (i & Hi & Hr); apply in_flat_map; exists i; split; [exact Hi|].
        unfold row_slots; destruct (sget (bd_quads d) i) as [q|]; [|lia].
        unfold qrefs, ind in Hr; destruct q as [a b c [g|]]; cbn in *;
          repeat match type of Hr with context [if ?t then _ else _] => destruct t eqn:?; subst end;
          repeat match goal with E : (_ =? _) = true |- _ => apply Nat.eqb_eq in E; subst end;
          try (cbn in Hr; lia); tauto.
      + intros i q E; unfold b_quad_at in E; destruct (sget (bd_quads d) i) as [x|]; [|discriminate].
        cbn in E; apply qwr_some in E; exists x; split; [reflexivity|].
        destruct E as (_ & _ & _ & E); destruct (q_g x), (q_g q); intuition congruence.
    - apply le_keys; [eapply (indexes_nodup L); eauto|]; intros k Hk.
      destruct Ri as [Ri _]; destruct (mapM_in_inv _ _ _ _ Ri Hk) as (v & Ev & _).
      unfold br_val in Ev; destruct (sget _ k); discriminate || congruence.
  Qed.

  Definition row_marks (qs : slab (quad nat)) (i : nat) : list (pos * nat * nat) :=
    match sget qs i with
    | Some x => (PosS, q_s x, i) :: (PosP, q_p x, i) :: (PosO, q_o x, i) ::
                match q_g x with Some g => [(PosG, g, i)] | None => [] end
    | None => []
    end.

  Lemma row_marks_len qs i : length (row_marks qs i) = length (row_slots qs i).
  Proof.
    unfold row_marks, row_slots; destruct (sget qs i) as [[a b c [g|]]|]; reflexivity.
  Qed.

  Lemma row_marks_in qs p r i : uses qs p r i -> In (p, r, i) (row_marks qs i).
  Proof.
    intros (x & Hx & Hs); unfold row_marks; rewrite Hx.
    destruct p; cbn in Hs; [inv Hs| inv Hs|inv Hs|]; cbn; auto.
    rewrite Hs; cbn; auto.
  Qed.

  Lemma used_slots qs p (l qi : list nat) :
    nsorted l -> (forall k, In k l -> exists i, uses qs p k i) ->
    (forall i, sget qs i <> None -> In i qi) -> length l <= length qi.
  Proof.
    intros Hl Hu Hq.
    rewrite <- (map_length (fun i => match sget qs i with Some x => slot p x | None => None end) qi).
    rewrite <- (map_length (@Some nat) l); apply NoDup_incl_length.
    - apply nodup_map_inj; [congruence|now apply nsorted_nodup].
    - intros y Hy; apply in_map_iff in Hy as (k & <- & Hk); destruct (Hu _ Hk) as (i & x & Hx & Hs).
      apply in_map_iff; exists i; rewrite Hx; split; [exact Hs|]; apply Hq; congruence.
  Qed.

  Lemma id_inv_bounds (d : @idataset R) ks vs :
    id_inv (cmp:=cmp) d ks vs ->
    swf (id_quads d) /\
    swf (id_resources d) /\ slen (id_quads d) = length ks /\ length (id_qi d) = length ks /\
    slen (id_resources d) <= weight quad_comps ks /\ length (id_ri d) <= slen (id_resources d) /\
    marks (id_resources d) <= weight quad_comps ks /\
    length (id_s d) <= length ks /\ length (id_p d) <= length ks /\ length (id_o d) <= length ks /\
    length (id_dg d) <= length ks /\ NoDup (id_ng d).
  Proof.
    intros [Bw Bl [Bm Bs] [Rw Ru Rd Ri] [S1 S2] [P1 P2] [O1 O2] [D1 D2] [N1 N2]].
    assert (Nq : NoDup (id_qi d)) by (eapply (indexes_nodup LQ); split; eauto).
    assert (Lq : length (id_qi d) = length ks) by (symmetry; eapply mapM_length; eauto).
    assert (Wk : list_sum (map (fun i => length (row_slots (id_quads d) i)) (id_qi d)) =
                 weight quad_comps ks).
    { apply (rows_weight (i_quad_at (id_resources d) (id_quads d))); [|exact Bm].
      intros i q E; unfold i_quad_at in E; destruct (sget (id_quads d) i) as [x|]; [|discriminate].
      cbn in E; apply iqwr_some in E; exists x; split; [reflexivity|].
      destruct E as (_ & _ & _ & E); destruct (q_g x), (q_g q); intuition congruence. }
    assert (Hq : forall i, sget (id_quads d) i <> None -> In i (id_qi d)) by (intros; now apply Bl).
    assert (Hu : forall p k i, uses (id_quads d) p k i -> In i (id_qi d)).
    { intros p k i (x & Hx & _); apply Hq; congruence. }
    split; [exact Bw|]; split; [exact Rw|]; split; [|split; [exact Lq|]].
    { rewrite (slen_keys _ _ Nq Bl); exact Lq. }
    split; [|split; [|split]].
    - rewrite <- Wk, <- length_flat_map; apply keys_le; intros k Hk.
      destruct (sget (id_resources d) k) as [x|] eqn:Ek; [|congruence].
      destruct (Ru _ _ Ek) as [_ (p & i & Hp)]; apply in_flat_map; exists i; split; [eauto|].
      destruct Hp as (q & Hx & Hs); unfold row_slots; rewrite Hx.
      destruct q as [a b c g], p; cbn in Hs |- *; inv Hs; cbn; auto.
    - apply le_keys; [eapply (indexes_nodup L); eauto|]; intros k Hk.
      destruct Ri as [Ri _]; destruct (mapM_in_inv _ _ _ _ Ri Hk) as (v & Ev & _).
      unfold ir_val in Ev; destruct (sget _ k); discriminate || congruence.
    - rewrite <- Wk.
      rewrite (map_ext _ (fun i => length (row_marks (id_quads d) i))) by (intros; symmetry; apply row_marks_len).
      rewrite <- length_flat_map.
      set (f := fun kx : nat * iresource R =>
             flat_map (fun p => map (fun i => (p, fst kx, i)) (ir_at p (snd kx))) [PosS; PosP; PosO; PosG]).
      replace (marks (id_resources d)) with (length (flat_map f (spairs (id_resources d)))).
      2: { rewrite length_flat_map; unfold marks; f_equal; apply map_ext; intros [k x].
           unfold f; cbn; rewrite !app_length, !map_length; cbn; lia. }
      apply NoDup_incl_length.
      + apply nodup_flat_map.
        * apply (NoDup_map_inv fst), strongly_lt_nodup, spairs_keys_sorted.
        * intros [k x] Hk; apply spairs_in in Hk; destruct (Ru _ _ Hk) as [Hp _].
          apply nodup_flat_map.
          -- repeat constructor; cbn; intuition discriminate.
          -- intros p _; apply nodup_map_inj; [intros; congruence|]; apply nsorted_nodup, Hp.
          -- intros p q y _ _ Hy Hz; apply in_map_iff in Hy as (i & <- & _).
             apply in_map_iff in Hz as (j & E & _); congruence.
        * intros [k x] [k' x'] y Hk Hk' Hy Hz; apply spairs_in in Hk, Hk'.
          apply in_flat_map in Hy as (p & _ & Hy); apply in_map_iff in Hy as (i & <- & _).
          apply in_flat_map in Hz as (q & _ & Hz); apply in_map_iff in Hz as (j & E & _).
          cbn in E; assert (k = k') as <- by congruence; congruence.
      + intros y Hy; apply in_flat_map in Hy as ((k & x) & Hk & Hy); apply spairs_in in Hk.
        apply in_flat_map in Hy as (p & _ & Hy); apply in_map_iff in Hy as (i & <- & Hi); cbn in *.
        destruct (Ru _ _ Hk) as [Hp _]; destruct (Hp p) as [_ Hp']; apply Hp' in Hi.
        apply in_flat_map; exists i; split; [eauto|now apply row_marks_in].
    - rewrite <- Lq; do 3 (split; [eapply used_slots; eauto|]); split.
      + apply NoDup_incl_length; [now apply nsorted_nodup|]; intros i Hi.
        apply D2 in Hi as (x & Hx & _); apply Hq; congruence.
      + now apply nsorted_nodup.
  Qed.
End Inv.

(** ** Logs *)
Section Log.
  Context {X : Type} {cmp : X -> X -> comparison} (L : ord_laws cmp).
  Notation effective := (effective (cmp:=cmp)).

  Lemma effective_extend l : forall s, effective s (extend_changes cmp s l).
  Proof.
    induction l as [|x l IH]; intros s; cbn; [exact I|]; destruct (mem cmp x s) eqn:E; [apply IH|].
    split; [exact E|apply IH].
  Qed.

  Lemma effective_changes s o : effective s (set_changes cmp s o).
  Proof.
    destruct o as [x|x|l|x| | | |]; cbn; try exact I.
    - destruct (mem cmp x s) eqn:E; cbn; auto.
    - destruct (mem cmp x s) eqn:E; cbn; auto.
    - apply effective_extend.
  Qed.

  Lemma effective_log ops : forall s, effective s (set_log cmp s ops).
  Proof.
    induction ops as [|o ops IH]; intros s; cbn -[spec_step set_changes]; [exact I|].
    apply effective_app; split; [apply effective_changes|].
    rewrite (apply_set_changes L); apply IH.
  Qed.

  Lemma set_log_app a b : forall s,
    set_log cmp s (a ++ b) = set_log cmp s a ++ set_log cmp (snd (spec_run cmp s a)) b.
  Proof.
    induction a as [|o a IH]; intros s; [reflexivity|]; cbn [set_log app spec_run].
    rewrite IH, <- app_assoc; destruct (spec_step cmp s o) as [x t]; cbn [snd].
    destruct (spec_run cmp t a); reflexivity.
  Qed.

  Lemma effective_removals l : forall s, NoDup l -> (forall x, In x l -> In x s) ->
    effective s (map (fun x => (false, x)) l).
  Proof.
    induction l as [|x l IH]; intros s Hn H; cbn -[apply_change]; [exact I|]; inversion Hn; subst; split.
    - apply (mem_true L), H; now left.
    - apply IH; [assumption|]; intros y Hy; unfold apply_change; cbn; apply (in_del L); split.
      + intros ->; contradiction.
      + apply H; now right.
  Qed.

  (** Nothing inserted, the set only gets smaller. *)
  Lemma peak_extend f l : (forall x s, f s <= f (x :: s)) -> forall s,
    peak cmp f s (extend_changes cmp s l) = f (fold_left (fun s x => add cmp x s) l s).
  Proof.
    intros Hf.
    assert (A : forall x t, f t <= f (add cmp x t)).
    { intros x t; unfold add; destruct (mem cmp x t); [lia|apply Hf]. }
    assert (G : forall l t, f t <= f (fold_left (fun s x => add cmp x s) l t)).
    { induction l0 as [|y l0 IH]; intros t; cbn; [lia|]; etransitivity; [apply (A y)|apply IH]. }
    induction l as [|x l IH]; intros s; cbn; [reflexivity|]; destruct (mem cmp x s) eqn:E.
    - replace (add cmp x s) with s by (unfold add; now rewrite E); apply IH.
    - cbn; unfold apply_change; cbn [fst snd]; rewrite IH; apply Nat.max_r.
      etransitivity; [apply (A x)|apply G].
  Qed.
End Log.

Section Histories.
  Context {R : Type} {cmp : R -> R -> comparison} (L : ord_laws cmp).
  Context (keep : bool).
  Notation qcmp := (quad_cmp cmp).
  Notation tcmp := (triple_cmp cmp).
  Let LQ : ord_laws qcmp := quad_cmp_laws cmp L.
  Let LT : ord_laws tcmp := triple_cmp_laws cmp L.
  Notation qlen := (@length (quad R)).
  Notation qweight := (weight (@quad_comps R)).

  Lemma sorted_perm s : NoDup s -> Permutation (sorted_elements qcmp s) s.
  Proof.
    intros H; apply NoDup_Permutation; [|exact H|intros; apply in_sorted_elements].
    apply (ssorted_nodup LQ), (sorted_elements_sorted LQ), H.
  Qed.

  Lemma bd_rep_bounds (d : @bdataset R) s :
    bd_rep (cmp:=cmp) d s ->
    swf (bd_quads d) /\ swf (bd_resources d) /\ slen (bd_quads d) = length s /\
    length (bd_qi d) = length s /\
    slen (bd_resources d) <= qweight s /\ length (bd_ri d) <= slen (bd_resources d).
  Proof.
    intros [Hn (vs & I)]; pose proof (bi_wf _ _ _ I) as Hw; apply (bd_inv_bounds L) in I.
    rewrite (weight_perm _ _ _ (sorted_perm _ Hn)), (length_sorted L _ Hn) in I; tauto.
  Qed.

  Lemma bd_run_slots ops : forall (d d' : @bdataset R) s xs N,
    bd_rep (cmp:=cmp) d s -> run (bd_step cmp keep) d ops = Some (xs, d') ->
    slots (bd_resources d) <= N -> peak qcmp qweight s (set_log qcmp s ops) <= N ->
    slots (bd_resources d') <= N.
  Proof.
    induction ops as [|o ops IH]; intros d d' s xs N Hr H Hs Hp; cbn -[bd_step spec_step set_changes] in *.
    - now inv H.
    - destruct (bd_step_rep L keep d s o Hr) as (d1 & E & Hr1); rewrite E in H.
      destruct (run (bd_step cmp keep) d1 ops) as [[ys d2]|] eqn:E2; [|discriminate]; inv H.
      rewrite peak_app, (apply_set_changes LQ) in Hp.
      apply (IH _ _ _ _ N Hr1 E2); [|lia].
      destruct (bd_step_steady keep _ _ _ _ (proj1 (proj2 (bd_rep_bounds _ _ Hr))) E) as (_ & _ & B).
      pose proof (bd_rep_bounds _ _ Hr1) as (_ & _ & _ & _ & C & _).
      pose proof (peak_ge (cmp:=qcmp) qweight (snd (spec_step qcmp s o)) (set_log qcmp (snd (spec_step qcmp s o)) ops)).
      lia.
  Qed.

  Theorem bd_heap ops xs (d : @bdataset R) :
    run (bd_step cmp keep) bd_new ops = Some (xs, d) ->
    slots (bd_quads d) = peak qcmp qlen [] (set_log qcmp [] ops) /\
    slots (bd_resources d) <= peak qcmp qweight [] (set_log qcmp [] ops) /\
    length (bd_qi d) = length (spec_set qcmp ops) /\
    slen (bd_resources d) <= qweight (spec_set qcmp ops) /\
    length (bd_ri d) <= slen (bd_resources d).
  Proof.
    intros H; pose proof (bd_run_rep_new L keep _ _ _ H) as Hr.
    destruct (bd_rep_bounds _ _ Hr) as (W1 & W2 & B1 & B2 & B3 & B4).
    split; [|split; [|auto]].
    - rewrite (slots_len _ W1), (bd_run_free L keep _ _ _ _ _ (bd_rep_new (cmp:=cmp)) H), B1.
      cbn [bd_new bd_quads free slab_new length].
      unfold spec_set; rewrite <- (apply_set_log LQ), (vacancies_peak LQ);
        [reflexivity|constructor|apply (effective_log LQ)].
    - eapply (bd_run_slots ops bd_new); [apply bd_rep_new|exact H|cbn; lia|lia].
  Qed.

  (** ** Indexed datasets *)
  Lemma id_rep_bounds (d : @idataset R) s :
    id_rep (cmp:=cmp) d s ->
    swf (id_quads d) /\
    swf (id_resources d) /\ slen (id_quads d) = length s /\ length (id_qi d) = length s /\
    slen (id_resources d) <= qweight s /\ length (id_ri d) <= slen (id_resources d) /\
    marks (id_resources d) <= qweight s /\
    length (id_s d) <= length s /\ length (id_p d) <= length s /\ length (id_o d) <= length s /\
    length (id_dg d) <= length s /\ NoDup (id_ng d).
  Proof.
    intros [Hn (vs & I)]; apply (id_inv_bounds L) in I.
    rewrite (weight_perm _ _ _ (sorted_perm _ Hn)), (length_sorted L _ Hn) in I; exact I.
  Qed.

  Lemma effective_ichanges s o x : allowed cmp s o x -> effective (cmp:=qcmp) s (changes cmp s o x).
  Proof.
    destruct o as [o|g|c n spare], x as [x|[ts|]|l]; cbn; try contradiction; try (intros; exact Logic.I).
    - intros _; apply (effective_changes (cmp:=qcmp)).
    - intros (Hi & Hin & _).
      pose proof (effective_removals LQ (map (fun t => Quad (t_s t) (t_p t) (t_o t) g) ts) s) as E.
      rewrite map_map in E; apply E.
      + apply nodup_map_inj; [|apply (ssorted_nodup LT); exact Hi].
        intros [a b e] [a' b' e'] Er; cbn in Er; congruence.
      + intros q Hq; apply in_map_iff in Hq as (t & <- & Ht); auto.
    - intros (Hn & _ & Hin); apply (effective_removals LQ); [exact Hn|].
      intros q Hq; apply Hin; exact Hq.
  Qed.

  Lemma effective_ilog ops : forall s xs, allowed_run cmp s ops xs -> effective (cmp:=qcmp) s (log cmp s ops xs).
  Proof.
    induction ops as [|o ops IH]; intros s [|x xs] H; try exact Logic.I; cbn in H |- *; try contradiction.
    destruct H as [Ha Hr]; apply effective_app; split; [now apply effective_ichanges|].
    apply IH; exact Hr.
  Qed.

  Lemma id_run_slots ops : forall (d d' : @idataset R) s0 K n l xs N,
    istate (cmp:=cmp) d s0 K n l -> ng_ok d ->
    run (id_step cmp keep) d ops = Some (xs, d') ->
    slots (id_resources d) <= N ->
    peak qcmp qweight (apply qcmp l s0) (log cmp (apply qcmp l s0) ops xs) <= N ->
    slots (id_resources d') <= N /\ ng_ok d'.
  Proof.
    induction ops as [|o ops IH]; intros d d' s0 K n l xs N Hi Hg H Hs Hp; cbn -[id_step] in H.
    - inv H; auto.
    - destruct (istate_step L keep _ _ _ _ _ o Hi) as (x & d1 & E & A & H1); rewrite E in H.
      destruct (run (id_step cmp keep) d1 ops) as [[ys d2]|] eqn:E2; [|discriminate]; cbn in H; inv H.
      cbn -[changes] in Hp; rewrite peak_app in Hp.
      pose proof (id_rep_bounds _ _ (is_rep _ _ _ _ _ Hi)) as (_ & W & _).
      pose proof (id_rep_bounds _ _ (is_rep _ _ _ _ _ H1)) as (_ & _ & _ & _ & C & _).
      destruct (id_step_steady keep _ _ _ _ W E) as [(_ & _ & B) G].
      rewrite <- apply_app in Hp; cbv zeta in H1.
      apply (IH _ _ _ _ _ _ _ N H1 (G Hg) E2).
      + pose proof (peak_ge (cmp:=qcmp) qweight (apply qcmp (l ++ changes cmp (apply qcmp l s0) o x) s0)
          (log cmp (apply qcmp (l ++ changes cmp (apply qcmp l s0) o x) s0) ops ys)).
        lia.
      + lia.
  Qed.

  Lemma ng_len (d : @idataset R) : ng_ok d -> NoDup (id_ng d) -> length (id_ng d) <= slots (id_resources d).
  Proof.
    intros H Hn; rewrite <- (seq_length (slots (id_resources d)) 0); apply NoDup_incl_length; [exact Hn|].
    intros k Hk; apply in_seq; specialize (H _ Hk); lia.
  Qed.

  Theorem id_heap ops0 ops xs (d : @idataset R) :
    id_reached cmp keep ops0 ops xs d ->
    let l := full_log cmp ops0 ops xs in
    let s := final_set cmp ops0 ops xs in
    slots (id_quads d) = peak qcmp qlen [] l /\
    slots (id_resources d) <= peak qcmp qweight [] l /\
    length (id_qi d) = length s /\
    slen (id_resources d) <= qweight s /\ length (id_ri d) <= slen (id_resources d) /\
    marks (id_resources d) <= qweight s /\
    length (id_s d) <= length s /\ length (id_p d) <= length s /\ length (id_o d) <= length s /\
    length (id_dg d) <= length s /\ length (id_ng d) <= slots (id_resources d).
  Proof.
    intros H l s; pose proof (reached_state L keep _ _ _ _ H) as [Hi Ha].
    pose proof (id_rep_bounds _ _ (is_rep _ _ _ _ _ Hi)) as (W1 & _ & B1 & B2 & B3 & B4 & B5 & B6 & B7 & B8 & B9 & B10).
    fold (final_set cmp ops0 ops xs) in B1, B2, B3, B5, B6, B7, B8, B9; fold s in B1, B2, B3, B5, B6, B7, B8, B9.
    assert (Es : s = apply qcmp l []).
    { unfold s, l, final_set, full_log; rewrite apply_app, (apply_set_log LQ); reflexivity. }
    assert (X : slots (id_resources d) <= peak qcmp qweight [] l /\ ng_ok d).
    { destruct H as (xs0 & b & d0 & Eb & E0 & E).
      destruct (start_spec L keep _ _ _ Eb) as (d0' & E0' & H0); rewrite E0 in E0'; inv E0'.
      pose proof (bd_heap _ _ _ Eb) as (_ & Hb & _).
      pose proof (peak_app (cmp:=qcmp) qweight (set_log qcmp [] ops0) [] (late_log cmp ops0 ops xs)) as Ep.
      fold (full_log cmp ops0 ops xs) in Ep; fold l in Ep; rewrite (apply_set_log LQ) in Ep.
      fold (spec_set qcmp ops0) in Ep.
      apply (id_run_slots ops _ _ _ _ _ _ xs _ H0); [|exact E| |].
      - eapply id_index_ng; [exact E0|]; intros k [].
      - pose proof (id_from_slots _ _ E0); lia.
      - cbn [apply fold_left]; unfold late_log in Ep; lia. }
    destruct X as [X1 X2]; split; [|split; [exact X1|]].
    - rewrite (slots_len _ W1), (is_free _ _ _ _ _ Hi), B1, Es; cbv zeta.
      unfold late_log, l, full_log; rewrite <- vacancies_app, (vacancies_peak LQ); [reflexivity|constructor|].
      apply effective_app; split; [apply (effective_log LQ)|].
      rewrite (apply_set_log LQ); now apply effective_ilog.
    - repeat (split; [assumption|]); now apply ng_len.
  Qed.

  (** ** Graphs *)
  Notation tlen := (@length (triple R)).
  Notation tweight := (weight (@triple_comps R)).

  Lemma weight_iq (s : list (triple R)) : qweight (map iq s) = tweight s.
  Proof. unfold weight; rewrite map_map; reflexivity. Qed.

  Lemma peak_iq (f : list (quad R) -> nat) (g : list (triple R) -> nat) l :
    (forall s, f (map iq s) = g s) ->
    forall s, peak qcmp f (map iq s) (map ic l) = peak tcmp g s l.
  Proof.
    intros Hf; induction l as [|c l IH]; intros s; cbn; [apply Hf|].
    rewrite Hf; f_equal; rewrite <- IH; f_equal.
    destruct c as [[] t]; unfold apply_change; cbn; [apply add_iq|apply del_iq].
  Qed.

  Lemma slots_smap {T U} (f : T -> U) s : slots (smap f s) = slots s.
  Proof. apply map_length. Qed.

  Theorem bg_heap ops xs (g : @bgraph R) :
    run (bg_step cmp keep) bg_new ops = Some (xs, g) ->
    slots (bg_triples g) = peak tcmp tlen [] (set_log tcmp [] ops) /\
    slots (bg_resources g) <= peak tcmp tweight [] (set_log tcmp [] ops) /\
    length (bg_ti g) = length (spec_set tcmp ops) /\
    slen (bg_resources g) <= tweight (spec_set tcmp ops) /\
    length (bg_ri g) <= slen (bg_resources g).
  Proof.
    intros H; destruct (run_emb keep _ _ _ _ H) as (ys & E); rewrite emb_new in E.
    apply bd_heap in E.
    pose proof (set_log_iq (cmp:=cmp) ops []) as El; cbn [map] in El; rewrite El in E.
    pose proof (spec_run_iq (cmp:=cmp) ops []) as Es; cbn [map] in Es; unfold spec_set in E.
    rewrite Es in E; cbn [snd] in E.
    pose proof (peak_iq qlen tlen (set_log tcmp [] ops) (fun s => map_length _ s) []) as P1.
    pose proof (peak_iq qweight tweight (set_log tcmp [] ops) weight_iq []) as P2.
    cbn [map] in P1, P2; rewrite P1, P2, map_length, weight_iq in E.
    cbn [emb bd_quads bd_resources bd_qi bd_ri] in E; rewrite slots_smap in E; exact E.
  Qed.

  Lemma ig_run_slots ops : forall (g g' : @igraph R) s0 K n l xs N,
    gstate (cmp:=cmp) g s0 K n l ->
    run (ig_step cmp keep) g ops = Some (xs, g') ->
    slots (ig_resources g) <= N ->
    peak tcmp tweight (apply tcmp l s0) (set_log tcmp (apply tcmp l s0) ops) <= N ->
    slots (ig_resources g') <= N.
  Proof.
    induction ops as [|o ops IH]; intros g g' s0 K n l xs N Hi H Hs Hp; cbn -[ig_step] in H.
    - inv H; auto.
    - destruct (gstate_step L keep _ _ _ _ _ o Hi) as (g1 & E & H1); rewrite E in H.
      destruct (run (ig_step cmp keep) g1 ops) as [[ys g2]|] eqn:E2; [|discriminate]; cbn in H; inv H.
      cbn [set_log] in Hp; rewrite peak_app, <- (apply_set_changes LT), <- apply_app in Hp.
      apply (IH _ _ _ _ _ _ _ N H1 E2); [|lia].
      destruct Hi as (dg & Hi); destruct (gstate_rep _ _ _ _ _ H1) as (dg1 & H1').
      pose proof (id_rep_bounds _ _ (is_rep _ _ _ _ _ Hi)) as (_ & W & _).
      pose proof (id_rep_bounds _ _ H1') as (_ & _ & _ & _ & C & _).
      destruct (iemb_step L keep g dg _ o (is_rep _ _ _ _ _ Hi)) as (dg2 & E').
      rewrite E in E'; cbn [option_map fst snd] in E'.
      destruct (id_step_steady keep _ _ _ _ W E') as [(_ & _ & B) _].
      cbn [iemb id_resources] in B, C; rewrite weight_iq in C.
      pose proof (peak_ge (cmp:=tcmp) tweight (apply tcmp (l ++ set_changes tcmp (apply tcmp l s0) o) s0)
          (set_log tcmp (apply tcmp (l ++ set_changes tcmp (apply tcmp l s0) o) s0) ops)).
      lia.
  Qed.

  Theorem ig_heap ops0 ops (g : @igraph R) :
    ig_reached cmp keep ops0 ops g ->
    let l := set_log tcmp [] (ops0 ++ ops) in
    let s := spec_set tcmp (ops0 ++ ops) in
    slots (ig_triples g) = peak tcmp tlen [] l /\
    slots (ig_resources g) <= peak tcmp tweight [] l /\
    length (ig_ti g) = length s /\
    slen (ig_resources g) <= tweight s /\ length (ig_ri g) <= slen (ig_resources g) /\
    marks (ig_resources g) <= tweight s /\
    length (ig_s g) <= length s /\ length (ig_p g) <= length s /\ length (ig_o g) <= length s.
  Proof.
    intros H l s.
    assert (El : l = set_log tcmp [] ops0 ++ set_log tcmp (spec_set tcmp ops0) ops).
    { apply (set_log_app (cmp:=tcmp)). }
    assert (Es : s = apply tcmp (set_log tcmp (spec_set tcmp ops0) ops) (spec_set tcmp ops0)).
    { unfold s, spec_set at 1; rewrite <- (apply_set_log LT); fold l; rewrite El, apply_app.
      rewrite (apply_set_log LT ops0); reflexivity. }
    pose proof (greached L keep _ _ _ H) as Hi.
    destruct (gstate_rep _ _ _ _ _ Hi) as (dg & Hr); rewrite <- Es in Hr.
    pose proof (id_rep_bounds _ _ Hr) as (W1 & _ & B1 & B2 & B3 & B4 & B5 & B6 & B7 & B8 & _).
    rewrite ?map_length, ?weight_iq in *; cbn [iemb id_quads id_resources id_qi id_ri id_s id_p id_o] in *.
    split; [|split].
    - destruct Hi as (dg' & Hi); pose proof (is_free _ _ _ _ _ Hi) as Hf; rewrite vacancies_iq in Hf.
      cbn [iemb id_quads] in Hf.
      rewrite <- (slots_smap iq), (slots_len _ W1), Hf, B1, Es, <- vacancies_app, <- El.
      replace (apply tcmp (set_log tcmp (spec_set tcmp ops0) ops) (spec_set tcmp ops0)) with (apply tcmp l []).
      + rewrite (vacancies_peak LT); [reflexivity|constructor|apply (effective_log LT)].
      + rewrite El, apply_app; now rewrite (apply_set_log LT).
    - destruct H as (xs0 & b & g0 & xs & Eb & E0 & E).
      destruct (gstart L keep _ _ _ Eb) as (g0' & E0' & H0); rewrite E0 in E0'; inv E0'.
      pose proof (bg_heap _ _ _ Eb) as (_ & Hb & _).
      rewrite El, peak_app, (apply_set_log LT); fold (spec_set tcmp ops0).
      apply (ig_run_slots ops _ _ _ _ _ _ xs _ H0); [exact E| |].
      + destruct (iemb_convert b) as (dg0 & Ec); rewrite E0 in Ec; cbn [option_map] in Ec.
        apply id_from_slots in Ec; cbn [iemb id_resources emb bd_resources] in Ec; lia.
      + cbn [apply fold_left]; lia.
    - repeat (split; [assumption|]); assumption.
  Qed.

  (** ** Histories that never hold more than [N] elements *)
  Lemma triple_comps_le (t : triple R) : length (triple_comps t) <= 3.
  Proof. cbn; lia. Qed.

  Theorem bd_memory_le ops xs (d : @bdataset R) :
    run (bd_step cmp keep) bd_new ops = Some (xs, d) ->
    bd_memory d <= 10 * peak qcmp qlen [] (set_log qcmp [] ops).
  Proof.
    intros H; destruct (bd_heap _ _ _ H) as (A & B & C & D & E).
    pose proof (peak_end (cmp:=qcmp) qlen (set_log qcmp [] ops) []) as P; rewrite (apply_set_log LQ) in P.
    fold (spec_set qcmp ops) in P.
    pose proof (peak_le (cmp:=qcmp) qweight qlen 4 (set_log qcmp [] ops) (weight_le _ 4 quad_comps_le) []).
    pose proof (weight_le _ 4 quad_comps_le (spec_set qcmp ops)).
    unfold bd_memory; lia.
  Qed.

  Theorem bg_memory_le ops xs (g : @bgraph R) :
    run (bg_step cmp keep) bg_new ops = Some (xs, g) ->
    bg_memory g <= 8 * peak tcmp tlen [] (set_log tcmp [] ops).
  Proof.
    intros H; destruct (bg_heap _ _ _ H) as (A & B & C & D & E).
    pose proof (peak_end (cmp:=tcmp) tlen (set_log tcmp [] ops) []) as P; rewrite (apply_set_log LT) in P.
    fold (spec_set tcmp ops) in P.
    pose proof (peak_le (cmp:=tcmp) tweight tlen 3 (set_log tcmp [] ops) (weight_le _ 3 triple_comps_le) []).
    pose proof (weight_le _ 3 triple_comps_le (spec_set tcmp ops)).
    unfold bg_memory; lia.
  Qed.

  Theorem id_memory_le ops0 ops xs (d : @idataset R) :
    id_reached cmp keep ops0 ops xs d ->
    id_memory d <= 22 * peak qcmp qlen [] (full_log cmp ops0 ops xs).
  Proof.
    intros H; destruct (id_heap _ _ _ _ H) as (A1 & A2 & A3 & A4 & A5 & A6 & A7 & A8 & A9 & A10 & A11).
    set (l := full_log cmp ops0 ops xs) in *; set (s := final_set cmp ops0 ops xs) in *.
    assert (Es : s = apply qcmp l []).
    { unfold s, l, final_set, full_log; rewrite apply_app, (apply_set_log LQ); reflexivity. }
    pose proof (peak_end (cmp:=qcmp) qlen l []) as P; rewrite <- Es in P.
    pose proof (peak_le (cmp:=qcmp) qweight qlen 4 l (weight_le _ 4 quad_comps_le) []).
    pose proof (weight_le _ 4 quad_comps_le s).
    unfold id_memory; lia.
  Qed.

  Theorem ig_memory_le ops0 ops (g : @igraph R) :
    ig_reached cmp keep ops0 ops g ->
    ig_memory g <= 14 * peak tcmp tlen [] (set_log tcmp [] (ops0 ++ ops)).
  Proof.
    intros H; destruct (ig_heap _ _ _ H) as (A1 & A2 & A3 & A4 & A5 & A6 & A7 & A8 & A9).
    set (l := set_log tcmp [] (ops0 ++ ops)) in *; set (s := spec_set tcmp (ops0 ++ ops)) in *.
    pose proof (peak_end (cmp:=tcmp) tlen l []) as P; unfold l at 1 in P; rewrite (apply_set_log LT) in P.
    fold (spec_set tcmp (ops0 ++ ops)) in P; fold s in P.
    pose proof (peak_le (cmp:=tcmp) tweight tlen 3 l (weight_le _ 3 triple_comps_le) []).
    pose proof (weight_le _ 3 triple_comps_le s).
    unfold ig_memory; lia.
  Qed.
End Histories.

(** The peak is reached between two operations. *)
Section Prefix.
  Context {X : Type} {cmp : X -> X -> comparison} (L : ord_laws cmp).

  Lemma peak_step s o :
    NoDup s ->
    peak cmp (@length X) s (set_changes cmp s o) = max (length s) (length (snd (spec_step cmp s o))).
  Proof.
    intros Hs; rewrite <- (apply_set_changes L).
    destruct o as [x|x|l|x| | | |]; cbn; try lia.
    - destruct (mem cmp x s); cbn; lia.
    - destruct (mem cmp x s); cbn; lia.
    - rewrite (peak_extend (@length X)) by (intros; cbn; lia).
      pose proof (peak_ge (cmp:=cmp) (@length X) s (extend_changes cmp s l)) as P.
      rewrite (peak_extend (@length X)) in P by (intros; cbn; lia).
      pose proof (apply_set_changes L s (Extend l)) as E; cbn in E; rewrite E; lia.
  Qed.

  Lemma peak_prefix ops : forall s N, NoDup s ->
    (forall k, length (snd (spec_run cmp s (firstn k ops))) <= N) ->
    peak cmp (@length X) s (set_log cmp s ops) <= N.
  Proof.
    induction ops as [|o ops IH]; intros s N Hs H; [apply (H 0)|]; cbn [set_log].
    rewrite peak_app, (peak_step _ _ Hs), (apply_set_changes L).
    assert (Hs' : NoDup (snd (spec_step cmp s o))).
    { destruct o as [x|x|l|x| | | |]; cbn; auto; [now apply (nodup_add L)|now apply (nodup_del (cmp:=cmp))|].
      clear -L Hs; revert s Hs; induction l as [|x l IH]; intros s Hs; cbn; [exact Hs|].
      apply IH; now apply (nodup_add L). }
    assert (A : forall k, length (snd (spec_run cmp (snd (spec_step cmp s o)) (firstn k ops))) <= N).
    { intros k; specialize (H (S k)); cbn in H; destruct (spec_step cmp s o) as [x t]; cbn [snd] in *.
      destruct (spec_run cmp t (firstn k ops)); exact H. }
    specialize (IH _ N Hs' A); pose proof (H 0) as H0; pose proof (A 0) as A0; cbn in H0, A0; lia.
  Qed.
End Prefix.

Section Bounded.
  Context {R : Type} {cmp : R -> R -> comparison} (L : ord_laws cmp).
  Context (keep : bool).
  Notation qcmp := (quad_cmp cmp).
  Notation tcmp := (triple_cmp cmp).

  Theorem bd_memory_bounded ops xs (d : @bdataset R) N :
    run (bd_step cmp keep) bd_new ops = Some (xs, d) ->
    (forall k, length (spec_set qcmp (firstn k ops)) <= N) -> bd_memory d <= 10 * N.
  Proof.
    intros H HN; pose proof (bd_memory_le L keep _ _ _ H).
    pose proof (peak_prefix (quad_cmp_laws cmp L) ops [] N (NoDup_nil _) HN); lia.
  Qed.

  Theorem bg_memory_bounded ops xs (g : @bgraph R) N :
    run (bg_step cmp keep) bg_new ops = Some (xs, g) ->
    (forall k, length (spec_set tcmp (firstn k ops)) <= N) -> bg_memory g <= 8 * N.
  Proof.
    intros H HN; pose proof (bg_memory_le L keep _ _ _ H).
    pose proof (peak_prefix (triple_cmp_laws cmp L) ops [] N (NoDup_nil _) HN); lia.
  Qed.

  Theorem ig_memory_bounded ops0 ops (g : @igraph R) N :
    ig_reached cmp keep ops0 ops g ->
    (forall k, length (spec_set tcmp (firstn k (ops0 ++ ops))) <= N) -> ig_memory g <= 14 * N.
  Proof.
    intros H HN; pose proof (ig_memory_le L keep _ _ _ H).
    pose proof (peak_prefix (triple_cmp_laws cmp L) (ops0 ++ ops) [] N (NoDup_nil _) HN); lia.
  Qed.

  Theorem id_emptied ops0 ops xs (d : @idataset R) :
    id_reached cmp keep ops0 ops xs d -> final_set cmp ops0 ops xs = [] ->
    slen (id_quads d) = 0 /\ slen (id_resources d) = 0 /\ marks (id_resources d) = 0 /\
    id_qi d = [] /\ id_ri d = [] /\ id_s d = [] /\ id_p d = [] /\ id_o d = [] /\ id_dg d = [].
  Proof.
    intros H E; pose proof (reached_rep L keep _ _ _ _ H) as Hr; rewrite E in Hr.
    apply (id_rep_bounds L) in Hr as (_ & _ & B1 & B2 & B3 & B4 & B5 & B6 & B7 & B8 & B9 & _).
    cbn [length weight map list_sum fold_right] in *.
    assert (Z : forall {A} (l : list A), length l <= 0 -> l = []) by (intros A [|] ?; cbn in *; [reflexivity|lia]).
    repeat split; try (apply Z); try lia; unfold weight in *; cbn in *; lia.
  Qed.
End Bounded.
