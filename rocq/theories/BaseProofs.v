(** Lemmas on orders, lists, slabs and sorted indexes. *)
From Coq Require Import List Bool Arith Lia Permutation Sorted.
Import ListNotations.
From Verif Require Import Base SlabModel TripleModel SetSpec.
Open Scope panic_scope.

(** ** Tactics *)
Ltac inv H := inversion H; subst; clear H.
Ltac break_match :=
  match goal with
  | |- context [match ?x with _ => _ end] => destruct x eqn:?
  end.
Ltac break_match_hyp :=
  match goal with
  | H : context [match ?x with _ => _ end] |- _ => destruct x eqn:?
  end.
Ltac simp_bind :=
  repeat match goal with
  | H : bind ?x _ = Some _ |- _ =>
      let E := fresh "E" in destruct x eqn:E; cbn [bind] in H; [|discriminate H]
  end.

(** ** Orders *)
Section Ord.
  Context {A : Type} {cmp : A -> A -> comparison} (L : ord_laws cmp).

  Lemma ord_refl x : cmp x x = Eq.
  Proof. apply (ord_eq _ L); reflexivity. Qed.

  Lemma ord_lt_gt x y : cmp x y = Lt <-> cmp y x = Gt.
  Proof. rewrite (ord_sym _ L x y); destruct (cmp x y); cbn; split; congruence. Qed.

  Lemma ord_lt_irrefl x : cmp x x <> Lt.
  Proof. rewrite ord_refl; discriminate. Qed.

  Lemma ord_lt_neq x y : cmp x y = Lt -> x <> y.
  Proof. intros H E; subst; now apply ord_lt_irrefl in H. Qed.

  Lemma same_true x y : same cmp x y = true <-> x = y.
  Proof.
    unfold same; rewrite <- (ord_eq _ L).
    destruct (cmp x y); split; intros H; try reflexivity; discriminate.
  Qed.

  Lemma same_false x y : same cmp x y = false <-> x <> y.
  Proof.
    rewrite <- same_true; destruct (same cmp x y); split; intros H; congruence.
  Qed.

  Lemma ord_dec (x y : A) : {x = y} + {x <> y}.
  Proof.
    destruct (cmp x y) eqn:E.
    - left; now apply (ord_eq _ L).
    - right; intros ->; rewrite ord_refl in E; discriminate.
    - right; intros ->; rewrite ord_refl in E; discriminate.
  Qed.

  Lemma mem_true x s : mem cmp x s = true <-> In x s.
  Proof.
    unfold mem; rewrite existsb_exists; split.
    - intros (y & Hy & E); apply same_true in E; now subst.
    - intros H; exists x; split; [assumption|now apply same_true].
  Qed.

  Lemma mem_false x s : mem cmp x s = false <-> ~ In x s.
  Proof. rewrite <- mem_true; destruct (mem cmp x s); split; congruence. Qed.

  Lemma in_add x y s : In y (add cmp x s) <-> y = x \/ In y s.
  Proof.
    unfold add; destruct (mem cmp x s) eqn:E; cbn.
    - apply mem_true in E; split; [auto|intros [->|H]; auto].
    - split; [intros [H|H]; auto|intros [H|H]; auto].
  Qed.

  Lemma in_del x y s : In y (del cmp x s) <-> y <> x /\ In y s.
  Proof.
    unfold del; rewrite filter_In, negb_true_iff, same_false; intuition congruence.
  Qed.

  Lemma nodup_add x s : NoDup s -> NoDup (add cmp x s).
  Proof.
    intros H; unfold add; destruct (mem cmp x s) eqn:E; [assumption|].
    constructor; [now apply mem_false|assumption].
  Qed.

  Lemma nodup_filter {B} (f : B -> bool) l : NoDup l -> NoDup (filter f l).
  Proof.
    induction 1 as [|x l Hx Hl IH]; cbn; [constructor|].
    destruct (f x); [constructor; [|assumption]|assumption].
    rewrite filter_In; tauto.
  Qed.

  Lemma nodup_del x s : NoDup s -> NoDup (del cmp x s).
  Proof. apply nodup_filter. Qed.

  Definition lt x y := cmp x y = Lt.
  Definition ssorted := StronglySorted lt.

  Lemma in_place x y s : In y (place cmp x s) <-> y = x \/ In y s.
  Proof.
    induction s as [|z s IH]; cbn; [intuition|].
    destruct (cmp x z); cbn; rewrite ?IH; intuition.
  Qed.

  Lemma in_sorted_elements y s : In y (sorted_elements cmp s) <-> In y s.
  Proof.
    induction s as [|z s IH]; cbn; [tauto|].
    rewrite in_place, IH; intuition.
  Qed.

  Lemma place_sorted x s : ssorted s -> ~ In x s -> ssorted (place cmp x s).
  Proof.
    induction s as [|y s IH]; cbn; intros Hs Hx.
    - repeat constructor.
    - apply StronglySorted_inv in Hs as [Hs Hy].
      destruct (cmp x y) eqn:E.
      + apply (ord_eq _ L) in E; subst; exfalso; auto.
      + constructor; [now constructor|].
        constructor; [exact E|].
        eapply Forall_impl; [|exact Hy]; intros a Ha; eapply (ord_trans _ L); eauto.
      + constructor; [apply IH; tauto|].
        apply Forall_forall; intros z Hz; apply in_place in Hz as [->|Hz].
        * now apply ord_lt_gt.
        * rewrite Forall_forall in Hy; auto.
  Qed.

  Lemma sorted_elements_sorted s : NoDup s -> ssorted (sorted_elements cmp s).
  Proof.
    induction 1 as [|x s Hx Hs IH]; cbn; [constructor|].
    apply place_sorted; [assumption|]; intros H; apply Hx, (in_sorted_elements x s), H.
  Qed.

  Lemma ssorted_nodup l : ssorted l -> NoDup l.
  Proof.
    induction 1 as [|x l Hl IH Hx]; constructor; [|assumption].
    intros H; rewrite Forall_forall in Hx; specialize (Hx _ H); now apply ord_lt_irrefl in Hx.
  Qed.

  (** Sorted lists with the same elements are equal. *)
  Lemma ssorted_ext l m : ssorted l -> ssorted m -> (forall x, In x l <-> In x m) -> l = m.
  Proof.
    revert m; induction l as [|x l IH]; intros [|y m] Hl Hm H.
    - reflexivity.
    - exfalso; apply (H y); now left.
    - exfalso; apply (H x); now left.
    - apply StronglySorted_inv in Hl as [Hl Fx], Hm as [Hm Fy].
      rewrite Forall_forall in Fx, Fy.
      assert (x = y) as <-.
      { destruct (proj1 (H x) (or_introl eq_refl)) as [E|E]; [now symmetry|].
        destruct (proj2 (H y) (or_introl eq_refl)) as [E'|E']; [assumption|].
        specialize (Fx _ E'); specialize (Fy _ E).
        apply ord_lt_gt in Fy; unfold lt in Fx; congruence. }
      f_equal; apply IH; auto.
      intros z; split; intros Hz.
      + destruct (proj1 (H z) (or_intror Hz)) as [<-|]; [|assumption].
        exfalso; now apply (ord_lt_irrefl x), Fx.
      + destruct (proj2 (H z) (or_intror Hz)) as [<-|]; [|assumption].
        exfalso; now apply (ord_lt_irrefl x), Fy.
  Qed.

  Lemma nodup_same_length {B} (l m : list B) :
    NoDup l -> NoDup m -> (forall x, In x l <-> In x m) -> length l = length m.
  Proof.
    intros Hl Hm H; apply Permutation_length, NoDup_Permutation; assumption.
  Qed.

  Lemma sorted_elements_unique s l :
    NoDup s -> ssorted l -> (forall x, In x l <-> In x s) -> l = sorted_elements cmp s.
  Proof.
    intros Hs Hl H; apply ssorted_ext; auto using sorted_elements_sorted.
    intros x; rewrite in_sorted_elements; auto.
  Qed.

  (** Removing an element of a sorted list. *)
  Lemma filter_sorted (f : A -> bool) l : ssorted l -> ssorted (filter f l).
  Proof.
    induction 1 as [|x l Hl IH Hx]; cbn; [constructor|].
    destruct (f x); [|assumption]; constructor; [assumption|].
    rewrite Forall_forall in *; intros y Hy; apply filter_In in Hy; now apply Hx.
  Qed.

  Lemma list_cmp_laws : ord_laws (list_cmp cmp).
  Proof.
    split.
    - intros x; induction x as [|a x IH]; intros [|b y]; cbn; try (split; congruence).
      destruct (cmp a b) eqn:E.
      + apply (ord_eq _ L) in E; subst; rewrite IH; split; congruence.
      + split; [discriminate|]; intros H; inv H; now rewrite ord_refl in E.
      + split; [discriminate|]; intros H; inv H; now rewrite ord_refl in E.
    - intros x; induction x as [|a x IH]; intros [|b y]; cbn; try reflexivity.
      rewrite (ord_sym _ L a b); destruct (cmp a b); cbn; auto.
    - intros x; induction x as [|a x IH]; intros [|b y] [|c z]; cbn; try congruence.
      destruct (cmp a b) eqn:E1; try discriminate.
      + apply (ord_eq _ L) in E1; subst b.
        destruct (cmp a c) eqn:E2; auto; apply IH.
      + destruct (cmp b c) eqn:E2; try discriminate.
        * apply (ord_eq _ L) in E2; subst b; now rewrite E1.
        * now rewrite (ord_trans _ L _ _ _ E1 E2).
  Qed.

  Lemma option_cmp_laws : ord_laws (option_cmp cmp).
  Proof.
    split.
    - intros [x|] [y|]; cbn; try (split; congruence).
      rewrite (ord_eq _ L); split; congruence.
    - intros [x|] [y|]; cbn; auto; apply (ord_sym _ L).
    - intros [x|] [y|] [z|]; cbn; try congruence; apply (ord_trans _ L).
  Qed.
End Ord.

Lemma then_cmp_eq c d : then_cmp c d = Eq <-> c = Eq /\ d = Eq.
Proof. destruct c; cbn; intuition congruence. Qed.

Lemma then_cmp_lt c d : then_cmp c d = Lt <-> c = Lt \/ (c = Eq /\ d = Lt).
Proof. destruct c; cbn; intuition congruence. Qed.

Lemma then_cmp_opp c d : then_cmp (CompOpp c) (CompOpp d) = CompOpp (then_cmp c d).
Proof. destruct c; reflexivity. Qed.

(** Lexicographic product of two lawful comparisons, read through projections. *)
Lemma lex_laws {A B C} (ca : A -> A -> comparison) (cb : B -> B -> comparison)
    (f : C -> A) (g : C -> B) :
  ord_laws ca -> ord_laws cb -> (forall x y, f x = f y -> g x = g y -> x = y) ->
  ord_laws (fun x y => then_cmp (ca (f x) (f y)) (cb (g x) (g y))).
Proof.
  intros La Lb Hinj; split.
  - intros x y; rewrite then_cmp_eq, (ord_eq _ La), (ord_eq _ Lb); split.
    + intros []; auto.
    + intros ->; auto.
  - intros x y; rewrite (ord_sym _ La (f x)), (ord_sym _ Lb (g x)); apply then_cmp_opp.
  - intros x y z; rewrite !then_cmp_lt, !(ord_eq _ La).
    intros [H1|[E1 H1]] [H2|[E2 H2]].
    + left; eapply (ord_trans _ La); eauto.
    + left; now rewrite <- E2.
    + left; now rewrite E1.
    + right; split; [congruence|]; eapply (ord_trans _ Lb); eauto.
Qed.

Lemma quad_cmp_laws {R} (cmp : R -> R -> comparison) :
  ord_laws cmp -> ord_laws (quad_cmp cmp).
Proof.
  intros L.
  pose proof (option_cmp_laws L) as L4.
  pose proof (lex_laws cmp (option_cmp cmp) (@fst R (option R)) (@snd R (option R)) L L4
    ltac:(intros [] []; cbn; congruence)) as L3.
  pose proof (lex_laws cmp _ (@fst R (R * option R)) (@snd R (R * option R)) L L3
    ltac:(intros [] []; cbn; congruence)) as L2.
  pose proof (lex_laws cmp _ (fun q : quad R => q_s q)
    (fun q : quad R => (q_p q, (q_o q, q_g q))) L L2
    ltac:(intros [] []; cbn; congruence)) as L1.
  exact L1.
Qed.

Lemma triple_cmp_laws {R} (cmp : R -> R -> comparison) :
  ord_laws cmp -> ord_laws (triple_cmp cmp).
Proof.
  intros L.
  pose proof (lex_laws cmp cmp (@fst R R) (@snd R R) L L
    ltac:(intros [] []; cbn; congruence)) as L2.
  pose proof (lex_laws cmp _ (fun t : triple R => t_s t)
    (fun t : triple R => (t_p t, t_o t)) L L2
    ltac:(intros [] []; cbn; congruence)) as L1.
  exact L1.
Qed.

Lemma nat_compare_laws : ord_laws Nat.compare.
Proof.
  split.
  - intros; apply Nat.compare_eq_iff.
  - intros; apply Nat.compare_antisym.
  - intros x y z; rewrite !Nat.compare_lt_iff; lia.
Qed.

(** ** mapM *)
Lemma mapM_length {A B} (f : A -> option B) l ks : mapM f l = Some ks -> length ks = length l.
Proof.
  revert ks; induction l as [|x l IH]; cbn; intros ks H.
  - now inv H.
  - destruct (f x); [|discriminate]; destruct (mapM f l); [|discriminate]; inv H; cbn; auto.
Qed.

Lemma mapM_cons {A B} (f : A -> option B) x l ks :
  mapM f (x :: l) = Some ks <->
  exists y ys, f x = Some y /\ mapM f l = Some ys /\ ks = y :: ys.
Proof.
  cbn; split.
  - destruct (f x); [|discriminate]; destruct (mapM f l); [|discriminate].
    intros H; inv H; eauto.
  - intros (y & ys & -> & -> & ->); reflexivity.
Qed.

Lemma mapM_ext {A B} (f g : A -> option B) l :
  (forall x, In x l -> f x = g x) -> mapM f l = mapM g l.
Proof.
  induction l as [|x l IH]; cbn; intros H; [reflexivity|].
  rewrite H, IH; auto.
Qed.

Lemma mapM_in {A B} (f : A -> option B) l ks y :
  mapM f l = Some ks -> (In y ks <-> exists x, In x l /\ f x = Some y).
Proof.
  revert ks; induction l as [|x l IH]; intros ks H.
  - inv H; cbn; firstorder.
  - apply mapM_cons in H as (z & ys & Hz & Hys & ->); cbn; rewrite (IH _ Hys); split.
    + intros [<-|(x' & ? & ?)]; eauto.
    + intros (x' & [<-|Hin] & E); [left; congruence|eauto].
Qed.

Lemma mapM_in_inv {A B} (f : A -> option B) l ks x :
  mapM f l = Some ks -> In x l -> exists y, f x = Some y /\ In y ks.
Proof.
  revert ks; induction l as [|a l IH]; intros ks H Hin; [destruct Hin|].
  apply mapM_cons in H as (z & ys & Hz & Hys & ->).
  destruct Hin as [<-|Hin]; [exists z; cbn; auto|].
  destruct (IH _ Hys Hin) as (y & ? & ?); exists y; cbn; auto.
Qed.

Lemma mapM_total {A B} (f : A -> option B) l :
  (forall x, In x l -> f x <> None) -> exists ks, mapM f l = Some ks.
Proof.
  induction l as [|x l IH]; cbn; intros H; [eauto|].
  destruct (f x) eqn:E; [|exfalso; eapply H; eauto].
  destruct IH as (ks & ->); eauto.
Qed.

Lemma mapM_nodup {A B} (f : A -> option B) l ks :
  mapM f l = Some ks -> NoDup ks -> NoDup l.
Proof.
  revert ks; induction l as [|x l IH]; intros ks H Hn; [constructor|].
  apply mapM_cons in H as (z & ys & Hz & Hys & ->); inv Hn.
  constructor; [|eauto].
  intros Hin; destruct (mapM_in_inv _ _ _ _ Hys Hin) as (y & Hy & Hin').
  rewrite Hz in Hy; inv Hy; contradiction.
Qed.

(** ** list_set *)
Lemma list_set_length {A} (l : list A) i x : length (list_set l i x) = length l.
Proof. revert i; induction l as [|y l IH]; intros [|i]; cbn; auto. Qed.

Lemma list_set_nth {A} (l : list A) i j x :
  i < length l -> nth_error (list_set l i x) j = if j =? i then Some x else nth_error l j.
Proof.
  revert i j; induction l as [|y l IH]; intros [|i] [|j] H; cbn in *; try lia; auto.
  rewrite IH by lia; destruct (j =? i) eqn:E; reflexivity.
Qed.

(** ** Slabs *)
Definition swf {T} (s : slab T) : Prop :=
  NoDup (free s) /\ forall k, In k (free s) <-> nth_error (ents s) k = Some None.

Lemma swf_new {T} : swf (@slab_new T).
Proof.
  split; cbn; [constructor|]; intros k; cbn.
  destruct k; cbn; split; [tauto|discriminate|tauto|discriminate].
Qed.

Lemma nth_error_app_last {A} (l : list A) x j :
  nth_error (l ++ [x]) j = if j =? length l then Some x else nth_error l j.
Proof.
  destruct (j =? length l) eqn:E.
  - apply Nat.eqb_eq in E; subst; rewrite nth_error_app2, Nat.sub_diag by lia; reflexivity.
  - apply Nat.eqb_neq in E; destruct (lt_dec j (length l)).
    + apply nth_error_app1; assumption.
    + rewrite nth_error_app2 by lia.
      destruct (j - length l) as [|m] eqn:E'; [lia|]; cbn; replace (nth_error (@nil A) m) with (@None A) by (now destruct m).
      symmetry; apply nth_error_None; lia.
Qed.

Lemma sget_vacant {T} (s : slab T) : swf s -> sget s (vacant_key s) = None.
Proof.
  intros [Hn Hf]; unfold sget, vacant_key; destruct (free s) as [|k f] eqn:E.
  - assert (nth_error (ents s) (length (ents s)) = None) as -> by (apply nth_error_None; lia).
    reflexivity.
  - assert (nth_error (ents s) k = Some None) as -> by (apply Hf; now left); reflexivity.
Qed.

Lemma sget_sinsert {T} (s : slab T) x i :
  swf s -> sget (sinsert s x) i = if i =? vacant_key s then Some x else sget s i.
Proof.
  intros [Hn Hf]; unfold sget, sinsert, vacant_key; destruct (free s) as [|k f] eqn:E; cbn.
  - rewrite nth_error_app_last; destruct (i =? length (ents s)); reflexivity.
  - assert (Hk : nth_error (ents s) k = Some None) by (apply Hf; now left).
    assert (k < length (ents s)) by (apply nth_error_Some; congruence).
    rewrite list_set_nth by assumption; destruct (i =? k); reflexivity.
Qed.

Lemma swf_sinsert {T} (s : slab T) x : swf s -> swf (sinsert s x).
Proof.
  intros [Hn Hf]; unfold swf, sinsert; destruct (free s) as [|k f] eqn:E; cbn.
  - split; [constructor|]; intros j; rewrite nth_error_app_last.
    destruct (j =? length (ents s)) eqn:Ej.
    + cbn; split; [tauto|discriminate].
    + apply Hf.
  - inv Hn; split; [assumption|]; intros j.
    assert (Hk : nth_error (ents s) k = Some None) by (apply Hf; now left).
    assert (k < length (ents s)) by (apply nth_error_Some; congruence).
    rewrite list_set_nth by assumption.
    destruct (j =? k) eqn:Ej.
    + apply Nat.eqb_eq in Ej; subst; split; [contradiction|discriminate].
    + rewrite <- Hf; cbn; apply Nat.eqb_neq in Ej; intuition congruence.
Qed.

Lemma sget_lt {T} (s : slab T) i x : sget s i = Some x -> i < length (ents s).
Proof.
  unfold sget; intros H; apply nth_error_Some.
  destruct (nth_error (ents s) i); congruence.
Qed.

Lemma sget_nth {T} (s : slab T) i x : sget s i = Some x <-> nth_error (ents s) i = Some (Some x).
Proof. unfold sget; destruct (nth_error (ents s) i) as [[|]|]; split; congruence. Qed.

Lemma sget_sset {T} (s : slab T) i y x j :
  sget s i = Some y -> sget (sset s i x) j = if j =? i then Some x else sget s j.
Proof.
  intros H; apply sget_lt in H; unfold sget, sset; cbn.
  rewrite list_set_nth by assumption; destruct (j =? i); reflexivity.
Qed.

Lemma swf_sset {T} (s : slab T) i y x : swf s -> sget s i = Some y -> swf (sset s i x).
Proof.
  intros [Hn Hf] H; split; cbn; [assumption|]; intros k.
  pose proof (sget_lt _ _ _ H); rewrite list_set_nth by assumption.
  destruct (k =? i) eqn:E; [|apply Hf].
  apply Nat.eqb_eq in E; subst; rewrite Hf.
  apply sget_nth in H; split; congruence.
Qed.

Lemma sremove_some {T} (s : slab T) i x :
  sget s i = Some x -> exists s', sremove s i = Some (x, s').
Proof. intros H; unfold sremove; rewrite H; eauto. Qed.

Lemma sremove_inv {T} (s s' : slab T) i x :
  sremove s i = Some (x, s') -> sget s i = Some x.
Proof. unfold sremove; destruct (sget s i); [|discriminate]; intros H; now inv H. Qed.

Lemma sget_sremove {T} (s s' : slab T) i x j :
  sremove s i = Some (x, s') -> sget s' j = if j =? i then None else sget s j.
Proof.
  intros H; pose proof (sremove_inv _ _ _ _ H) as Hx; unfold sremove in H.
  rewrite Hx in H; inv H; pose proof (sget_lt _ _ _ Hx).
  unfold sget; cbn; rewrite list_set_nth by assumption; destruct (j =? i); reflexivity.
Qed.

Lemma swf_sremove {T} (s s' : slab T) i x : swf s -> sremove s i = Some (x, s') -> swf s'.
Proof.
  intros [Hn Hf] H; pose proof (sremove_inv _ _ _ _ H) as Hx; unfold sremove in H.
  rewrite Hx in H; inv H; pose proof (sget_lt _ _ _ Hx).
  split; cbn.
  - constructor; [|assumption]; rewrite Hf; apply sget_nth in Hx; congruence.
  - intros k; rewrite list_set_nth by assumption; destruct (k =? i) eqn:E.
    + apply Nat.eqb_eq in E; subst; split; auto.
    + apply Nat.eqb_neq in E; rewrite <- Hf; intuition congruence.
Qed.

Lemma spairs_from_in {T} (l : list (option T)) n i x :
  In (i, x) (spairs_from n l) <-> n <= i /\ nth_error l (i - n) = Some (Some x).
Proof.
  revert n; induction l as [|[y|] l IH]; intros n; cbn.
  - destruct (i - n); cbn; intuition discriminate.
  - rewrite IH; split.
    + intros [H|[H1 H2]].
      * inv H; split; [lia|]; now rewrite Nat.sub_diag.
      * split; [lia|]; replace (i - n) with (S (i - S n)) by lia; assumption.
    + intros [H1 H2]; destruct (i - n) as [|m] eqn:E.
      * left; cbn in H2; inv H2; f_equal; lia.
      * right; split; [lia|]; replace (i - S n) with m by lia; assumption.
  - rewrite IH; split.
    + intros [H1 H2]; split; [lia|]; replace (i - n) with (S (i - S n)) by lia; assumption.
    + intros [H1 H2]; destruct (i - n) as [|m] eqn:E.
      * cbn in H2; discriminate.
      * split; [lia|]; replace (i - S n) with m by lia; assumption.
Qed.

Lemma spairs_in {T} (s : slab T) i x : In (i, x) (spairs s) <-> sget s i = Some x.
Proof.
  unfold spairs; rewrite spairs_from_in, Nat.sub_0_r, sget_nth; split; [tauto|].
  intros; split; [lia|assumption].
Qed.

Lemma spairs_from_keys {T} (l : list (option T)) n :
  StronglySorted Peano.lt (map fst (spairs_from n l)) /\
  Forall (fun k => n <= k) (map fst (spairs_from n l)).
Proof.
  revert n; induction l as [|[y|] l IH]; intros n; cbn.
  - split; constructor.
  - destruct (IH (S n)) as [H1 H2]; split; constructor; auto;
      (eapply Forall_impl; [|exact H2]); cbn; lia.
  - destruct (IH (S n)) as [H1 H2]; split; auto.
    eapply Forall_impl; [|exact H2]; cbn; lia.
Qed.

Lemma spairs_keys_sorted {T} (s : slab T) : StronglySorted Peano.lt (map fst (spairs s)).
Proof. apply spairs_from_keys. Qed.

Lemma strongly_lt_nodup l : StronglySorted Peano.lt l -> NoDup l.
Proof.
  induction 1 as [|x l Hl IH Hx]; constructor; [|assumption].
  intros H; rewrite Forall_forall in Hx; specialize (Hx _ H); lia.
Qed.

Lemma slen_keys {T} (s : slab T) (l : list nat) :
  NoDup l -> (forall i, In i l <-> sget s i <> None) -> slen s = length l.
Proof.
  intros Hl H; unfold slen; rewrite <- (map_length fst).
  apply nodup_same_length; auto.
  - apply strongly_lt_nodup, spairs_keys_sorted.
  - intros i; rewrite H, in_map_iff; split.
    + intros ((j & x) & <- & Hin); apply spairs_in in Hin; cbn; congruence.
    + intros Hi; destruct (sget s i) as [x|] eqn:E; [|congruence].
      exists (i, x); split; [reflexivity|now apply spairs_in].
Qed.

(** ** Sorted indexes *)
Section Index.
  Context {K : Type} {cmpk : K -> K -> comparison} (L : ord_laws cmpk).
  Context (val : nat -> option K).

  (** The comparison closures used by the containers have this shape. *)
  Definition kcmp (i : nat) (k : K) : option comparison :=
    v <- val i ;; Some (cmpk v k).
  Definition icmp (i j : nat) : option comparison :=
    v <- val i ;; w <- val j ;; Some (cmpk v w).

  (** [l] indexes the sorted sequence [ks]. *)
  Definition indexes (l : list nat) (ks : list K) : Prop :=
    mapM val l = Some ks /\ ssorted (cmp:=cmpk) ks.

  Lemma indexes_nodup l ks : indexes l ks -> NoDup l.
  Proof. intros [H1 H2]; eapply mapM_nodup; eauto; eapply ssorted_nodup; eauto. Qed.

  Lemma indexes_inj l ks i j v :
    indexes l ks -> In i l -> In j l -> val i = Some v -> val j = Some v -> i = j.
  Proof.
    intros [H Hs]; apply (ssorted_nodup L) in Hs; revert ks H Hs.
    induction l as [|x l IH]; intros ks H Hs Hi Hj Vi Vj; [destruct Hi|].
    apply mapM_cons in H as (y & ys & Hy & Hys & ->); inv Hs.
    destruct Hi as [<-|Hi], Hj as [<-|Hj]; auto.
    - exfalso; rewrite Hy in Vi; inv Vi.
      destruct (mapM_in_inv _ _ _ _ Hys Hj) as (z & Hz & Hin); congruence.
    - exfalso; rewrite Hy in Vj; inv Vj.
      destruct (mapM_in_inv _ _ _ _ Hys Hi) as (z & Hz & Hin); congruence.
    - eauto.
  Qed.

  Lemma bt_get_spec l ks k :
    indexes l ks ->
    exists r, bt_get kcmp k l = Some r /\
      match r with
      | Some i => In i l /\ val i = Some k /\ In k ks
      | None => ~ In k ks
      end.
  Proof.
    intros [H Hs]; revert ks H Hs; induction l as [|x l IH]; intros ks H Hs.
    - inv H; exists None; cbn; auto.
    - apply mapM_cons in H as (y & ys & Hy & Hys & ->).
      apply StronglySorted_inv in Hs as [Hs Fy].
      cbn; unfold kcmp at 1; rewrite Hy; cbn.
      destruct (cmpk y k) eqn:E.
      + apply (ord_eq _ L) in E; subst; eexists; split; [reflexivity|]; cbn; auto.
      + destruct (IH _ Hys Hs) as (r & -> & Hr); exists r; split; [reflexivity|].
        destruct r; [cbn; tauto|].
        intros [->|Hin]; [|tauto]; now apply (ord_lt_irrefl L) in E.
      + eexists; split; [reflexivity|]; intros [->|Hin].
        * now rewrite (ord_refl L) in E.
        * rewrite Forall_forall in Fy; specialize (Fy _ Hin).
          unfold lt in Fy; congruence.
  Qed.

  Lemma bt_insert_new keep l ks x k :
    indexes l ks -> val x = Some k -> ~ In k ks ->
    exists l', bt_insert keep icmp x l = Some l' /\ Permutation l' (x :: l) /\
      indexes l' (place cmpk k ks).
  Proof.
    intros [H Hs] Hx Hk.
    assert (Hp : ssorted (cmp:=cmpk) (place cmpk k ks)) by (apply place_sorted; auto).
    enough (exists l', bt_insert keep icmp x l = Some l' /\ Permutation l' (x :: l) /\
                       mapM val l' = Some (place cmpk k ks)) as (l' & ? & ? & ?).
    { exists l'; unfold indexes; auto. }
    clear Hp; revert ks H Hs Hk; induction l as [|i l IH]; intros ks H Hs Hk.
    - inv H; exists [x]; cbn; rewrite Hx; auto.
    - pose proof H as H0.
      apply mapM_cons in H as (y & ys & Hy & Hys & ->).
      apply StronglySorted_inv in Hs as [Hs Fy].
      cbn; unfold icmp at 1; rewrite Hy; cbn; rewrite Hx; cbn.
      rewrite (ord_sym _ L y k).
      destruct (cmpk y k) eqn:E; cbn.
      + apply (ord_eq _ L) in E; subst; cbn in Hk; tauto.
      + destruct (IH _ Hys Hs) as (l' & -> & HP & HM); [cbn in Hk; tauto|].
        cbn; eexists; split; [reflexivity|]; split.
        * rewrite HP; apply perm_swap.
        * cbn; rewrite Hy, HM; reflexivity.
      + eexists; split; [reflexivity|]; split; [reflexivity|].
        cbn [mapM]; rewrite Hx; cbn [mapM] in H0; rewrite H0; reflexivity.
  Qed.

  (** Inserting an index of a value already indexed. *)
  Lemma bt_insert_dup keep l ks x k :
    indexes l ks -> val x = Some k -> In k ks ->
    exists l', bt_insert keep icmp x l = Some l' /\
      (forall i, In i l' -> i = x \/ In i l) /\ indexes l' ks.
  Proof.
    intros [H Hs] Hx Hk.
    enough (exists l', bt_insert keep icmp x l = Some l' /\
                (forall i, In i l' -> i = x \/ In i l) /\ mapM val l' = Some ks)
      as (l' & ? & ? & ?) by (exists l'; unfold indexes; auto).
    revert ks H Hs Hk; induction l as [|i l IH]; intros ks H Hs Hk.
    - inv H; destruct Hk.
    - pose proof H as H0.
      apply mapM_cons in H as (y & ys & Hy & Hys & ->).
      apply StronglySorted_inv in Hs as [Hs Fy].
      cbn; unfold icmp at 1; rewrite Hy; cbn; rewrite Hx; cbn.
      destruct (cmpk y k) eqn:E; cbn.
      + apply (ord_eq _ L) in E; subst.
        eexists; split; [reflexivity|]; split.
        * destruct keep; cbn; intuition.
        * destruct keep; [exact H0|]; cbn; rewrite Hx, Hys; reflexivity.
      + destruct (IH _ Hys Hs) as (l' & -> & HP & HM).
        { destruct Hk as [->|]; [now apply (ord_lt_irrefl L) in E|assumption]. }
        cbn; eexists; split; [reflexivity|]; split.
        * cbn; intros j [<-|Hj]; [auto|]; destruct (HP _ Hj); auto.
        * cbn; rewrite Hy, HM; reflexivity.
      + exfalso; destruct Hk as [->|Hk].
        * now rewrite (ord_refl L) in E.
        * rewrite Forall_forall in Fy; specialize (Fy _ Hk); unfold lt in Fy; congruence.
  Qed.

  (** The indexes of the other values stay. *)
  Lemma insert_dup_others l l' ks x k j w :
    indexes l ks -> indexes l' ks -> (forall i, In i l' -> i = x \/ In i l) ->
    val x = Some k -> In j l -> val j = Some w -> w <> k -> In j l'.
  Proof.
    intros H H' Hsub Hx Hj Hw Hn; pose proof H as [HM _]; pose proof H' as [HM' _].
    assert (Hin : In w ks) by (apply (mapM_in _ _ _ _ HM); eauto).
    apply (mapM_in _ _ _ _ HM') in Hin as (i & Hi & Vi).
    destruct (Hsub _ Hi) as [->|Hi']; [congruence|].
    now rewrite (indexes_inj l ks j i w H Hj Hi' Hw Vi).
  Qed.

  Lemma del_notin k ks : ~ In k ks -> del cmpk k ks = ks.
  Proof.
    induction ks as [|y ks IH]; cbn; intros H; [reflexivity|].
    replace (same cmpk k y) with false; cbn.
    - f_equal; apply IH; tauto.
    - symmetry; apply (same_false L); intros ->; auto.
  Qed.

  Lemma bt_remove_spec l ks k :
    indexes l ks ->
    exists r l', bt_remove kcmp k l = Some (r, l') /\ indexes l' (del cmpk k ks) /\
      match r with
      | Some i => val i = Some k /\ In k ks /\ Permutation l (i :: l')
      | None => ~ In k ks /\ l' = l
      end.
  Proof.
    intros [H Hs].
    assert (Hp : ssorted (cmp:=cmpk) (del cmpk k ks)) by (apply filter_sorted; auto).
    enough (exists r l', bt_remove kcmp k l = Some (r, l') /\
      mapM val l' = Some (del cmpk k ks) /\
      match r with
      | Some i => val i = Some k /\ In k ks /\ Permutation l (i :: l')
      | None => ~ In k ks /\ l' = l
      end) as (r & l' & ? & ? & ?).
    { exists r, l'; unfold indexes; auto. }
    clear Hp; revert ks H Hs; induction l as [|i l IH]; intros ks H Hs.
    - inv H; cbn; exists None, []; cbn; auto.
    - pose proof H as H0.
      apply mapM_cons in H as (y & ys & Hy & Hys & ->).
      pose proof Hs as Hs0.
      apply StronglySorted_inv in Hs as [Hs Fy]; rewrite Forall_forall in Fy.
      cbn; unfold kcmp at 1; rewrite Hy; cbn.
      destruct (cmpk y k) eqn:E; cbn.
      + apply (ord_eq _ L) in E; subst.
        exists (Some i), l; split; [reflexivity|]; split; [|cbn; auto].
        replace (same cmpk k k) with true by (symmetry; now apply (same_true L)); cbn.
        rewrite Hys; f_equal; symmetry; apply del_notin.
        intros Hin; apply Fy in Hin; now apply (ord_lt_irrefl L) in Hin.
      + destruct (IH _ Hys Hs) as (r & l' & -> & HM & Hr).
        exists r, (i :: l'); split; [reflexivity|].
        replace (same cmpk k y) with false; cbn.
        2:{ symmetry; apply (same_false L); intros ->; now apply (ord_lt_irrefl L) in E. }
        split; [rewrite Hy, HM; reflexivity|].
        destruct r as [j|].
        * destruct Hr as (V & Hin & HP); repeat split; auto.
          rewrite HP; apply perm_swap.
        * destruct Hr as (Hn & ->); split; [|reflexivity].
          intros [->|Hin]; [now apply (ord_lt_irrefl L) in E|tauto].
      + exists None, (i :: l); split; [reflexivity|].
        assert (~ In k (y :: ys)) as Hn.
        { intros [->|Hin]; [now rewrite (ord_refl L) in E|].
          specialize (Fy _ Hin); unfold lt in Fy; congruence. }
        split; [|auto].
        change (mapM val (i :: l) = Some (del cmpk k (y :: ys))).
        rewrite del_notin; assumption.
  Qed.
End Index.

Lemma bt_get_ext {K} (c d : nat -> K -> option comparison) k l :
  (forall i, In i l -> c i k = d i k) -> bt_get c k l = bt_get d k l.
Proof.
  induction l as [|x l IH]; cbn; intros H; [reflexivity|].
  rewrite H by auto; rewrite IH by auto; reflexivity.
Qed.

Lemma bt_remove_ext {K} (c d : nat -> K -> option comparison) k l :
  (forall i, In i l -> c i k = d i k) -> bt_remove c k l = bt_remove d k l.
Proof.
  induction l as [|x l IH]; cbn; intros H; [reflexivity|].
  rewrite H by auto; rewrite IH by auto; reflexivity.
Qed.

(** Removing through the index comparison is removing by value. *)
Lemma bt_remove_icmp {K} (cmpk : K -> K -> comparison) val j k l :
  val j = Some k -> bt_remove (icmp (cmpk:=cmpk) val) j l = bt_remove (kcmp (cmpk:=cmpk) val) k l.
Proof.
  intros Hj; induction l as [|x l IH]; cbn; [reflexivity|].
  unfold icmp at 1, kcmp at 1; rewrite Hj; destruct (val x); cbn; [|reflexivity].
  destruct (cmpk k0 k); auto; rewrite IH; reflexivity.
Qed.

Lemma indexes_ext {K} (cmpk : K -> K -> comparison) (v w : nat -> option K) l ks :
  (forall i, In i l -> w i = v i) -> indexes (cmpk:=cmpk) v l ks -> indexes (cmpk:=cmpk) w l ks.
Proof.
  intros H [H1 H2]; split; [|assumption]; rewrite <- H1; now apply mapM_ext.
Qed.
