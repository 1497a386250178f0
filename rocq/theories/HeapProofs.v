(** Bounds on what containers allocate. *)
From Coq Require Import List Bool Arith Lia Permutation Sorted.
Import ListNotations.
From Verif Require Import Base SlabModel TripleModel SetSpec ContainerSpec Machine BaseProofs
  BResourceModel BResourceProofs BTreeDatasetModel BTreeDatasetProofs BTreeGraphModel BTreeGraphProofs
  IResourceModel IResourceProofs IndexedDatasetModel IndexedDatasetProofs IndexedSpec
  IndexedHistoryProofs IndexedConvertProofs IndexedRunProofs IndexedGraphModel IndexedGraphProofs.
From Verif Require Import HeapSpec.
Open Scope panic_scope.

Ltac opened H := unfold bind in H;
  repeat match type of H with
  | match ?t with _ => _ end = _ => destruct t eqn:?; try discriminate
  end;
  repeat match goal with
  | E : Some _ = Some _ |- _ => inv E
  | E : match ?t with _ => _ end = Some _ |- _ => destruct t eqn:?; try discriminate
  end.

(** ** Slabs *)
Fixpoint holes {T} (n : nat) (l : list (option T)) : list nat :=
  match l with
  | [] => []
  | Some _ :: r => holes (S n) r
  | None :: r => n :: holes (S n) r
  end.

Lemma holes_in {T} (l : list (option T)) : forall n k,
  In k (holes n l) <-> n <= k /\ nth_error l (k - n) = Some None.
Proof.
  induction l as [|[x|] l IH]; intros n k; cbn.
  - destruct (k - n); cbn; intuition discriminate.
  - rewrite IH; split; intros [A B].
    + split; [lia|]; replace (k - n) with (S (k - S n)) by lia; exact B.
    + destruct (Nat.eq_dec n k) as [->|]; [rewrite Nat.sub_diag in B; discriminate|].
      split; [lia|]; replace (k - n) with (S (k - S n)) in B by lia; exact B.
  - rewrite IH; split.
    + intros [->|[A B]]; [split; [lia|]; now rewrite Nat.sub_diag|].
      split; [lia|]; replace (k - n) with (S (k - S n)) by lia; exact B.
    + intros [A B]; destruct (Nat.eq_dec n k) as [->|]; [now left|right].
      split; [lia|]; replace (k - n) with (S (k - S n)) in B by lia; exact B.
Qed.

Lemma holes_nodup {T} (l : list (option T)) : forall n, NoDup (holes n l).
Proof.
  induction l as [|[x|] l IH]; intros n; cbn; [constructor|auto|constructor; auto].
  rewrite holes_in; lia.
Qed.

Lemma holes_len {T} (l : list (option T)) : forall n,
  length (spairs_from n l) + length (holes n l) = length l.
Proof. induction l as [|[x|] l IH]; intros n; cbn; [reflexivity| |]; rewrite <- (IH (S n)); lia. Qed.

Lemma slots_len {T} (s : slab T) : swf s -> slots s = slen s + length (free s).
Proof.
  intros [Hn Hf]; unfold slots, slen, spairs; rewrite <- (holes_len (ents s) 0); f_equal.
  apply nodup_same_length; [apply holes_nodup|exact Hn|].
  intros k; rewrite holes_in, Nat.sub_0_r, Hf; split; [tauto|]; intros H; split; [lia|exact H].
Qed.

Lemma list_set_len {T} (l : list T) : forall i x, length (list_set l i x) = length l.
Proof. induction l as [|y l IH]; intros [|i] x; cbn; auto. Qed.

Lemma slots_sset {T} (s : slab T) i x : slots (sset s i x) = slots s.
Proof. apply list_set_len. Qed.

Lemma slen_sset {T} (s : slab T) i y x : swf s -> sget s i = Some y -> slen (sset s i x) = slen s.
Proof.
  intros W G; pose proof (slots_len _ W) as E1; pose proof (slots_len _ (swf_sset _ _ _ x W G)) as E2.
  rewrite slots_sset in E2; change (free (sset s i x)) with (free s) in E2; lia.
Qed.

Lemma slots_sremove {T} (s s' : slab T) i x : sremove s i = Some (x, s') -> slots s' = slots s.
Proof.
  unfold sremove; intros H; destruct (sget s i); [|discriminate]; inv H; apply list_set_len.
Qed.

Lemma slots_sinsert {T} (s : slab T) x :
  swf s -> slen (sinsert s x) = S (slen s) /\ slots (sinsert s x) = max (slots s) (S (slen s)).
Proof.
  intros W; pose proof (slots_len _ W) as E1; pose proof (slots_len _ (swf_sinsert _ x W)) as E2.
  unfold sinsert in *; destruct (free s) as [|k f]; cbn [free length] in *; unfold slots in *;
    cbn [ents] in *.
  - rewrite app_length in E2 |- *; cbn [length] in *; lia.
  - rewrite list_set_len in E2 |- *; lia.
Qed.

Lemma vacant_lt {T} (s : slab T) x : swf s -> vacant_key s < slots (sinsert s x).
Proof.
  intros W; apply (sget_lt _ _ x); rewrite sget_sinsert by exact W; now rewrite Nat.eqb_refl.
Qed.

(** Entries were only added, to vacant slots first. *)
Definition grown {T} (s s' : slab T) : Prop :=
  swf s' /\ slots s <= slots s' /\ slen s <= slen s' /\ slots s' <= max (slots s) (slen s').
(** Entries were only removed. *)
Definition shrunk {T} (s s' : slab T) : Prop := swf s' /\ slots s' = slots s.
(** The slots that were added are filled. *)
Definition steady {T} (s s' : slab T) : Prop :=
  swf s' /\ slots s <= slots s' /\ slots s' <= max (slots s) (slen s').

Lemma grown_refl {T} (s : slab T) : swf s -> grown s s.
Proof. unfold grown; intros; repeat split; try lia; apply H. Qed.
Lemma grown_trans {T} (a b c : slab T) : grown a b -> grown b c -> grown a c.
Proof. intros (A1 & A2 & A3 & A4) (B1 & B2 & B3 & B4); split; [exact B1|]; lia. Qed.
Lemma grown_sinsert {T} (s : slab T) x : swf s -> grown s (sinsert s x).
Proof.
  intros W; destruct (slots_sinsert s x W); split; [now apply swf_sinsert|]; lia.
Qed.
Lemma grown_sset {T} (s : slab T) i y x : swf s -> sget s i = Some y -> grown s (sset s i x).
Proof.
  intros W G; split; [eapply swf_sset; eauto|]; rewrite slots_sset, (slen_sset _ _ _ _ W G); lia.
Qed.
Lemma shrunk_refl {T} (s : slab T) : swf s -> shrunk s s.
Proof. split; auto. Qed.
Lemma shrunk_trans {T} (a b c : slab T) : shrunk a b -> shrunk b c -> shrunk a c.
Proof. intros (A1 & A2) (B1 & B2); split; [exact B1|]; congruence. Qed.
Lemma shrunk_sset {T} (s : slab T) i y x : swf s -> sget s i = Some y -> shrunk s (sset s i x).
Proof. intros W G; split; [eapply swf_sset; eauto|apply slots_sset]. Qed.
Lemma shrunk_sremove {T} (s s' : slab T) i x : swf s -> sremove s i = Some (x, s') -> shrunk s s'.
Proof. intros W G; split; [eapply swf_sremove; eauto|eapply slots_sremove; eauto]. Qed.
Lemma grown_steady {T} (s s' : slab T) : grown s s' -> steady s s'.
Proof. intros (A & B & C & D); split; auto. Qed.
Lemma shrunk_steady {T} (s s' : slab T) : shrunk s s' -> steady s s'.
Proof. intros (A & B); split; [exact A|lia]. Qed.

(** ** The peak of a log *)
Section Peak.
  Context {X : Type} {cmp : X -> X -> comparison} (L : ord_laws cmp).

  (** Every change changes the set. *)
  Fixpoint effective (s : list X) (l : list (change X)) : Prop :=
    match l with
    | [] => True
    | (b, x) :: r => mem cmp x s = negb b /\ effective (apply_change cmp s (b, x)) r
    end.

  Lemma peak_ge f s l : f s <= peak cmp f s l.
  Proof. destruct l; cbn; lia. Qed.

  Lemma peak_app f a : forall s b,
    peak cmp f s (a ++ b) = max (peak cmp f s a) (peak cmp f (apply cmp a s) b).
  Proof.
    induction a as [|c a IH]; intros s b; cbn.
    - pose proof (peak_ge f s b); lia.
    - rewrite IH; unfold apply; lia.
  Qed.

  Lemma peak_end f l : forall s, f (apply cmp l s) <= peak cmp f s l.
  Proof.
    induction l as [|c l IH]; intros s; cbn; [lia|].
    specialize (IH (apply_change cmp s c)); unfold apply in IH; lia.
  Qed.

  Lemma peak_le f g k l : (forall s, f s <= k * g s) -> forall s, peak cmp f s l <= k * peak cmp g s l.
  Proof.
    intros H; induction l as [|c l IH]; intros s; cbn; [apply H|].
    specialize (IH (apply_change cmp s c)); specialize (H s); rewrite <- Nat.mul_max_distr_l; lia.
  Qed.

  Lemma effective_app a : forall s b,
    effective s (a ++ b) <-> effective s a /\ effective (apply cmp a s) b.
  Proof.
    induction a as [|[t x] a IH]; intros s b; cbn; [tauto|]; rewrite IH; unfold apply; tauto.
  Qed.

  Lemma change_len s b x :
    NoDup s -> mem cmp x s = negb b ->
    NoDup (apply_change cmp s (b, x)) /\
    if b then length (apply_change cmp s (b, x)) = S (length s)
    else S (length (apply_change cmp s (b, x))) = length s.
  Proof.
    intros Hs Hm; unfold apply_change; cbn [fst snd]; destruct b; cbn in Hm.
    - split; [now apply (nodup_add L)|]; unfold add; now rewrite Hm.
    - apply (mem_true L) in Hm; split; [now apply (nodup_del (cmp:=cmp))|].
      transitivity (length (x :: del cmp x s)); [reflexivity|].
      apply nodup_same_length; [|exact Hs|].
      + constructor; [rewrite (in_del L); tauto|now apply (nodup_del (cmp:=cmp))].
      + intros y; cbn; rewrite (in_del L); split; [intros [<-|[_ H]]; auto|].
        intros Hy; destruct (mem cmp y [x]) eqn:E.
        * apply (mem_true L) in E as [->|[]]; now left.
        * right; split; [|exact Hy]; intros ->.
          assert (mem cmp x [x] = true) by (apply (mem_true L); now left); congruence.
  Qed.

  Lemma vacancies_peak l : forall s n, NoDup s -> effective s l ->
    length (apply cmp l s) + vacancies n l = max (length s + n) (peak cmp (@length X) s l).
  Proof.
    induction l as [|[b x] l IH]; intros s n Hs He; cbn -[apply_change].
    - lia.
    - destruct He as [Hm He]; destruct (change_len s b x Hs Hm) as [Hn Hl].
      pose proof (peak_ge (@length X) (apply_change cmp s (b, x)) l) as Hp.
      destruct b; cbn -[apply_change] in *;
        rewrite (IH _ _ Hn He : length (fold_left _ _ _) + _ = _); destruct n; lia.
  Qed.
End Peak.

(** ** Structure of the operations *)
Section Ops.
  Context {R : Type} {cmp : R -> R -> comparison} (keep : bool).

  Lemma b_acquire_grown (rs rs' : slab (bresource R)) ri v f k ri' :
    swf rs -> b_acquire cmp keep rs ri v f = Some (k, rs', ri') -> grown rs rs'.
  Proof.
    intros W H; destruct f as [i|]; cbn in H; opened H.
    - eapply grown_sset; eauto.
    - now apply grown_sinsert.
  Qed.

  Lemma b_release_shrunk {K} rcmp (rs rs' : slab (bresource R)) ri i (k : K) ri' :
    swf rs -> b_release rcmp rs ri i k = Some (rs', ri') -> shrunk rs rs'.
  Proof.
    intros W H; unfold b_release in H; opened H.
    - eapply shrunk_trans; [eapply shrunk_sset; eauto|].
      eapply shrunk_sremove; eauto; eapply swf_sset; eauto.
    - eapply shrunk_sset; eauto.
  Qed.

  Lemma i_acquire_grown (rs rs' : slab (iresource R)) ri p i v f k ri' :
    swf rs -> i_acquire cmp keep rs ri p i v f = Some (k, rs', ri') ->
    grown rs rs' /\ k < slots rs'.
  Proof.
    intros W H; destruct f as [j|]; cbn in H; opened H.
    - split; [eapply grown_sset; eauto|]; rewrite slots_sset; eapply sget_lt; eauto.
    - split; [now apply grown_sinsert|now apply vacant_lt].
  Qed.

  Lemma i_release_shrunk {K} rcmp (rs rs' : slab (iresource R)) ri p i j (k : K) ri' b :
    swf rs -> i_release rcmp rs ri p i j k = Some (rs', ri', b) -> shrunk rs rs'.
  Proof.
    intros W H; unfold i_release in H; opened H.
    - eapply shrunk_trans; [eapply shrunk_sset; eauto|].
      eapply shrunk_sremove; eauto; eapply swf_sset; eauto.
    - eapply shrunk_sset; eauto.
  Qed.

  Lemma bd_insert_grown (d d' : @bdataset R) q b :
    swf (bd_resources d) -> bd_insert cmp keep d q = Some (b, d') ->
    grown (bd_resources d) (bd_resources d').
  Proof.
    intros W H; unfold bd_insert in H; opened H; cbn; try (now apply grown_refl);
      repeat match goal with
      | E : b_acquire _ _ ?rs _ _ _ = Some (_, ?rs', _), W : swf ?rs |- _ =>
          let G := fresh "G" in
          pose proof (b_acquire_grown _ _ _ _ _ _ _ W E) as G; clear E;
          pose proof (proj1 G)
      end; eauto 8 using grown_trans.
  Qed.

  Lemma bd_extend_grown l : forall (d d' : @bdataset R),
    swf (bd_resources d) -> bd_extend cmp keep d l = Some d' ->
    grown (bd_resources d) (bd_resources d').
  Proof.
    induction l as [|q l IH]; intros d d' W H; cbn in H; [inv H; now apply grown_refl|].
    destruct (bd_insert cmp keep d q) as [[b d1]|] eqn:E; [|discriminate]; cbn in H.
    pose proof (bd_insert_grown _ _ _ _ W E) as G; eapply grown_trans; [exact G|].
    apply IH; [apply G|exact H].
  Qed.

  Lemma bd_remove_shrunk (d d' : @bdataset R) q b :
    swf (bd_resources d) -> bd_remove cmp d q = Some (b, d') ->
    shrunk (bd_resources d) (bd_resources d').
  Proof.
    intros W H; unfold bd_remove in H; opened H; cbn; try (now apply shrunk_refl);
      repeat match goal with
      | E : b_release _ ?rs _ _ _ = Some (?rs', _), W : swf ?rs |- _ =>
          let G := fresh "G" in
          pose proof (b_release_shrunk _ _ _ _ _ _ _ W E) as G; clear E;
          pose proof (proj1 G)
      end; eauto 12 using shrunk_trans.
  Qed.

  Lemma bd_step_steady (d d' : @bdataset R) o x :
    swf (bd_resources d) -> bd_step cmp keep d o = Some (x, d') ->
    steady (bd_resources d) (bd_resources d').
  Proof.
    intros W H; destruct o as [q|q|l|q| | | |]; cbn in H; opened H;
      try (apply shrunk_steady, shrunk_refl; exact W).
    - eapply grown_steady, bd_insert_grown; eauto.
    - eapply shrunk_steady, bd_remove_shrunk; eauto.
    - eapply grown_steady, bd_extend_grown; eauto.
  Qed.

  (** Named graphs are slots of the table. *)
  Definition ng_ok (d : @idataset R) : Prop := forall k, In k (id_ng d) -> k < slots (id_resources d).

  Lemma id_insert_grown (d d' : @idataset R) q b :
    swf (id_resources d) -> id_insert cmp keep d q = Some (b, d') ->
    grown (id_resources d) (id_resources d') /\ (ng_ok d -> ng_ok d').
  Proof.
    intros W H; unfold id_insert in H; opened H; cbn; [split; [now apply grown_refl|auto]| |];
      repeat match goal with
      | E : i_acquire _ _ ?rs _ _ _ _ _ = Some (_, ?rs', _), W : swf ?rs |- _ =>
          let G := fresh "G" in let K := fresh "K" in
          pose proof (i_acquire_grown _ _ _ _ _ _ _ _ _ W E) as [G K]; clear E;
          pose proof (proj1 G)
      end.
    all: match goal with |- grown _ ?s /\ _ =>
      assert (GG : grown (id_resources d) s) by eauto 8 using grown_trans end.
    all: split; [exact GG|]; intros N k Hk; cbn in Hk |- *; destruct GG as (_ & GG & _).
    all: try (apply in_ns_insert in Hk as [->|Hk]; [assumption|]).
    all: specialize (N _ Hk); lia.
  Qed.

  Lemma id_extend_grown l : forall (d d' : @idataset R),
    swf (id_resources d) -> id_extend cmp keep d l = Some d' ->
    grown (id_resources d) (id_resources d') /\ (ng_ok d -> ng_ok d').
  Proof.
    induction l as [|q l IH]; intros d d' W H; cbn in H.
    - inv H; split; [now apply grown_refl|auto].
    - destruct (id_insert cmp keep d q) as [[b d1]|] eqn:E; [|discriminate]; cbn in H.
      destruct (id_insert_grown _ _ _ _ W E) as [G N].
      destruct (IH _ _ (proj1 G) H) as [G' N'].
      split; [eapply grown_trans; [exact G|exact G']|auto].
  Qed.

  Lemma ns_remove_incl k l j : In j (ns_remove k l) -> In j l.
  Proof.
    induction l as [|y l IH]; cbn; [auto|]; destruct (Nat.compare k y); cbn; tauto.
  Qed.

  Lemma id_remove_by_index_shrunk (d d' : @idataset R) i b :
    swf (id_resources d) -> id_remove_by_index cmp d i b = Some d' ->
    shrunk (id_resources d) (id_resources d') /\ (ng_ok d -> ng_ok d').
  Proof.
    intros W H; unfold id_remove_by_index in H; opened H; cbn;
      repeat match goal with
      | E : i_release _ ?rs _ _ _ _ _ = Some (?rs', _, _), W : swf ?rs |- _ =>
          let G := fresh "G" in
          pose proof (i_release_shrunk _ _ _ _ _ _ _ _ _ _ W E) as G; clear E;
          pose proof (proj1 G)
      end.
    all: match goal with |- shrunk _ ?s /\ _ =>
      assert (GG : shrunk (id_resources d) s) by eauto 12 using shrunk_trans end.
    all: split; [exact GG|]; intros N k Hk; cbn in Hk |- *; destruct GG as (_ & GG).
    all: rewrite GG; apply N.
    all: repeat match type of Hk with context [if ?b then _ else _] => destruct b end; 
      try (eapply ns_remove_incl; exact Hk); exact Hk.
  Qed.

  Lemma id_remove_shrunk (d d' : @idataset R) q b :
    swf (id_resources d) -> id_remove cmp d q = Some (b, d') ->
    shrunk (id_resources d) (id_resources d') /\ (ng_ok d -> ng_ok d').
  Proof.
    intros W H; unfold id_remove, bind in H.
    destruct (bt_remove _ _ _) as [[[i|] qi]|]; [| |discriminate].
    - destruct (id_remove_by_index _ _ _ _) as [d1|] eqn:E; [|discriminate]; inv H.
      apply id_remove_by_index_shrunk in E; exact E || exact W.
    - inv H; split; [now apply shrunk_refl|auto].
  Qed.

  Lemma id_remove_all_shrunk idx : forall (d d' : @idataset R) g g',
    swf (id_resources d) -> id_remove_all cmp keep idx d g = Some (g', d') ->
    shrunk (id_resources d) (id_resources d') /\ (ng_ok d -> ng_ok d').
  Proof.
    induction idx as [|i idx IH]; intros d d' g g' W H; cbn in H.
    - inv H; split; [now apply shrunk_refl|auto].
    - unfold bind in H; destruct (i_quad_at _ _ _); [|discriminate].
      destruct (id_remove_by_index _ _ _ _) as [d1|] eqn:E; [|discriminate].
      destruct (bg_insert _ _ _ _) as [[b g1]|]; [|discriminate].
      destruct (id_remove_by_index_shrunk _ _ _ _ W E) as [G N].
      destruct (IH _ _ _ _ (proj1 G) H) as [G' N']; split; [eapply shrunk_trans; eauto|auto].
  Qed.

  Lemma id_remove_graph_shrunk (d d' : @idataset R) g r :
    swf (id_resources d) -> id_remove_graph cmp keep d g = Some (r, d') ->
    shrunk (id_resources d) (id_resources d') /\ (ng_ok d -> ng_ok d').
  Proof.
    intros W H; unfold id_remove_graph, bind in H.
    match type of H with match ?t with _ => _ end = _ => destruct t as [[idx|]|]; [| |discriminate] end.
    - destruct (id_remove_all _ _ _ _ _) as [[b d1]|] eqn:E; [|discriminate]; inv H.
      eapply id_remove_all_shrunk; eauto.
    - inv H; split; [now apply shrunk_refl|auto].
  Qed.

  Lemma pm_extract_shrunk n : forall cap (d d' : @idataset R) m l,
    swf (id_resources d) -> pm_extract cmp n cap d m = Some (l, d') ->
    shrunk (id_resources d) (id_resources d') /\ (ng_ok d -> ng_ok d').
  Proof.
    induction n as [|n IH]; intros cap d d' m l W H; cbn -[pm_next] in H.
    - inv H; split; [now apply shrunk_refl|auto].
    - unfold bind in H; destruct (pm_next _ _ _ _) as [[[[i q] m']|]|]; [| |discriminate].
      + destruct (i_quad_with_resources _ _); [|discriminate].
        destruct (id_remove_by_index _ _ _ _) as [d1|] eqn:E; [|discriminate].
        destruct (pm_extract _ _ _ d1 _) as [[l' d2]|] eqn:E'; [|discriminate]; inv H.
        destruct (id_remove_by_index_shrunk _ _ _ _ W E) as [G N].
        destruct (IH _ _ _ _ _ (proj1 G) E') as [G' N']; split; [eapply shrunk_trans; eauto|auto].
      + inv H; split; [now apply shrunk_refl|auto].
  Qed.

  Lemma id_step_steady (d d' : @idataset R) o x :
    swf (id_resources d) -> id_step cmp keep d o = Some (x, d') ->
    steady (id_resources d) (id_resources d') /\ (ng_ok d -> ng_ok d').
  Proof.
    intros W H; destruct o as [[q|q|l|q| | | |]|g|c n spare]; cbn in H; unfold bind in H.
    - destruct (id_insert _ _ _ _) as [[b d1]|] eqn:E; [|discriminate]; inv H.
      destruct (id_insert_grown _ _ _ _ W E) as [G N]; split; [now apply grown_steady|exact N].
    - destruct (id_remove _ _ _) as [[b d1]|] eqn:E; [|discriminate]; inv H.
      destruct (id_remove_shrunk _ _ _ _ W E) as [G N]; split; [now apply shrunk_steady|exact N].
    - destruct (id_extend _ _ _ _) as [d1|] eqn:E; [|discriminate]; inv H.
      destruct (id_extend_grown _ _ _ W E) as [G N]; split; [now apply grown_steady|exact N].
    - destruct (id_contains _ _ _); [|discriminate]; inv H.
      split; [now apply shrunk_steady, shrunk_refl|auto].
    - inv H; split; [now apply shrunk_steady, shrunk_refl|auto].
    - inv H; split; [now apply shrunk_steady, shrunk_refl|auto].
    - destruct (id_iter _); [|discriminate]; inv H.
      split; [now apply shrunk_steady, shrunk_refl|auto].
    - destruct (id_into_iter _); [|discriminate]; inv H.
      split; [now apply shrunk_steady, shrunk_refl|auto].
    - destruct (id_remove_graph _ _ _ _) as [[r d1]|] eqn:E; [|discriminate].
      destruct (id_remove_graph_shrunk _ _ _ _ W E) as [G N].
      assert (d1 = d') as <- by (destruct r; [destruct (bg_iter _)|]; congruence).
      split; [now apply shrunk_steady|exact N].
    - destruct (id_extract _ _ _ _ _) as [[r d1]|] eqn:E; [|discriminate]; inv H.
      unfold id_extract, bind in E; destruct (pm_new _ _ _); [|discriminate].
      destruct (pm_extract_shrunk _ _ _ _ _ _ W E) as [G N]; split; [now apply shrunk_steady|exact N].
  Qed.

  Lemma i_use_slots (rs rs' : slab (iresource R)) p k i :
    i_use rs p k i = Some rs' -> slots rs' = slots rs /\ k < slots rs.
  Proof.
    unfold i_use; intros H; opened H; split; [apply slots_sset|eapply sget_lt; eauto].
  Qed.

  Lemma id_index_slots idx : forall (d d' : @idataset R), id_index idx d = Some d' ->
    slots (id_resources d') = slots (id_resources d).
  Proof.
    induction idx as [|i idx IH]; intros d d' H; cbn in H; [now inv H|].
    unfold bind in H.
    destruct (sget (id_quads d) i) as [q|]; [|discriminate].
    destruct (i_use _ PosS _ _) as [r1|] eqn:U1; [|discriminate]; apply i_use_slots in U1 as [A1 _].
    destruct (i_use _ PosP _ _) as [r2|] eqn:U2; [|discriminate]; apply i_use_slots in U2 as [A2 _].
    destruct (i_use _ PosO _ _) as [r3|] eqn:U3; [|discriminate]; apply i_use_slots in U3 as [A3 _].
    destruct (q_g q).
    - destruct (i_use _ PosG _ _) as [r4|] eqn:U4; [|discriminate]; apply i_use_slots in U4 as [A4 _].
      rewrite (IH _ _ H); cbn; congruence.
    - rewrite (IH _ _ H); cbn; congruence.
  Qed.

  Lemma id_index_ng idx : forall (d d' : @idataset R), id_index idx d = Some d' -> ng_ok d -> ng_ok d'.
  Proof.
    induction idx as [|i idx IH]; intros d d' H N; cbn in H; [now inv H|].
    unfold bind in H.
    destruct (sget (id_quads d) i) as [q|]; [|discriminate].
    destruct (i_use _ PosS _ _) as [r1|] eqn:U1; [|discriminate]; apply i_use_slots in U1 as [A1 _].
    destruct (i_use _ PosP _ _) as [r2|] eqn:U2; [|discriminate]; apply i_use_slots in U2 as [A2 _].
    destruct (i_use _ PosO _ _) as [r3|] eqn:U3; [|discriminate]; apply i_use_slots in U3 as [A3 _].
    destruct (q_g q).
    - destruct (i_use _ PosG _ _) as [r4|] eqn:U4; [|discriminate]; apply i_use_slots in U4 as [A4 B4].
      apply (IH _ _ H); intros k Hk; cbn in Hk |- *; apply in_ns_insert in Hk as [->|Hk].
      + congruence.
      + specialize (N _ Hk); lia.
    - apply (IH _ _ H); intros k Hk; cbn in Hk |- *; specialize (N _ Hk); lia.
  Qed.

  (** Conversion. *)
  Lemma gap_slots {T} n : forall s : slab T, slots (gap s n) = slots s + n.
  Proof.
    unfold slots; induction n as [|n IH]; intros s; cbn; [lia|].
    rewrite IH; cbn; rewrite app_length; cbn; lia.
  Qed.

  Lemma scollect_slots {T} (l : list (nat * T)) : forall s n,
    slots s <= n -> (forall k x, In (k, x) l -> k < n) ->
    StronglySorted Peano.lt (map fst l) -> (forall k x, In (k, x) l -> slots s <= k) ->
    slots (scollect_from s l) <= n.
  Proof.
    induction l as [|[k x] l IH]; intros s n Hs Hl Hss Hk; cbn; [exact Hs|].
    assert (A : slots s <= k) by (eapply Hk; now left).
    assert (B : k < n) by (eapply Hl; now left).
    cbn in Hss; inversion Hss as [|? ? S1 S2]; subst.
    assert (E : slots (Slab (ents (gap s (k - length (ents s))) ++ [Some x])
                            (free (gap s (k - length (ents s))))) = S k).
    { unfold slots at 1; cbn; rewrite app_length; cbn.
      pose proof (gap_slots (k - length (ents s)) s); unfold slots in *; lia. }
    apply IH; rewrite ?E; auto.
    - intros j y Hj; eapply Hl; right; exact Hj.
    - intros j y Hj; rewrite Forall_forall in S2.
      assert (k < j); [|lia]; apply S2; apply in_map_iff; exists (j, y); auto.
  Qed.

  Lemma id_from_slots (b : @bdataset R) d : id_from_non_indexed b = Some d ->
    slots (id_resources d) <= slots (bd_resources b).
  Proof.
    unfold id_from_non_indexed; intros H; apply id_index_slots in H; rewrite H; cbn.
    apply scollect_slots.
    - cbn; lia.
    - intros k x Hk; apply in_map_iff in Hk as ((j & y) & E & Hj); inv E.
      apply spairs_in in Hj; eapply sget_lt; exact Hj.
    - rewrite map_map.
      erewrite (map_ext _ fst); [apply spairs_keys_sorted|]; intros [? ?]; reflexivity.
    - intros; cbn; lia.
  Qed.
End Ops.
