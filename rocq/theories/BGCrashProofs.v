(** [BTreeGraph] whose comparison may panic: as [BTreeDataset] restricted to the
    default graph (see BTreeGraphProofs.v). *)
From Coq Require Import List Bool Arith Lia.
Import ListNotations.
From Verif Require Import Base SlabModel TripleModel SetSpec BaseProofs BResourceModel
  BTreeDatasetModel BTreeGraphModel BTreeGraphProofs CrashModel CrashSpec CrashProofs CrashAgree
  BCrashProofs.

(** ** Simulation: the same comparisons, related states and results *)
Section Sim.
  Context {S1 S2 : Type} (rel : S1 -> S2 -> Prop).

  Definition sim {A B} (h : A -> B -> Prop) (a : act S1 A) (b : act S2 B) : Prop :=
    forall n s t, rel s t ->
      match a n s, b n t with
      | Done x m s', Done y m' t' => h x y /\ m = m' /\ rel s' t'
      | Interrupted s', Interrupted t' => rel s' t'
      | Failed s', Failed t' => rel s' t'
      | _, _ => False
      end.

  Lemma sim_ret {A B} (h : A -> B -> Prop) x y : h x y -> sim h (ret x) (ret y).
  Proof. intros H n s t Hr; cbn; auto. Qed.

  Lemma sim_called {A B} (h : A -> B -> Prop) x y : h x y -> sim h (called x) (called y).
  Proof. intros H [|n] s t Hr; cbn; auto. Qed.

  Lemma sim_need {A B} (h : A -> B -> Prop) x y :
    match x, y with Some x, Some y => h x y | None, None => True | _, _ => False end ->
    sim h (need x) (need y).
  Proof. intros H n s t Hr; destruct x, y; cbn; auto. Qed.

  Lemma sim_get : sim rel get get.
  Proof. intros n s t Hr; cbn; auto. Qed.

  Lemma sim_put s t : rel s t -> sim eq (put s) (put t).
  Proof. intros H n s' t' _; cbn; auto. Qed.

  Lemma sim_then {A B C D} (h : A -> B -> Prop) (k : C -> D -> Prop) a b f g :
    sim h a b -> (forall x y, h x y -> sim k (f x) (g y)) -> sim k (andthen a f) (andthen b g).
  Proof.
    intros H K n s t Hr; specialize (H n s t Hr); unfold andthen.
    destruct (a n s) as [x m s'|s'|s'], (b n t) as [y m' t'|t'|t']; try contradiction; auto.
    destruct H as (H1 & <- & H3); now apply K.
  Qed.

  Lemma sim_ret_then_r {A B C} (k : A -> C -> Prop) (a : act S1 A) (y : B) g :
    sim k a (g y) -> sim k a (andthen (ret y) g).
  Proof. auto. Qed.

  Lemma sim_m_get {K K'} (c : nat -> K -> act S1 comparison) (d : nat -> K' -> act S2 comparison) k k' l :
    (forall i, sim eq (c i k) (d i k')) -> sim eq (m_get c k l) (m_get d k' l).
  Proof.
    intros H; induction l as [|i l IH]; cbn [m_get]; [now apply sim_ret|].
    apply sim_then with eq; [apply H|]; intros x y <-; destruct x; auto using sim_ret.
  Qed.

  Lemma sim_m_insert keep (c : nat -> nat -> act S1 comparison) (d : nat -> nat -> act S2 comparison) x l :
    (forall i, sim eq (c i x) (d i x)) -> sim eq (m_insert keep c x l) (m_insert keep d x l).
  Proof.
    intros H; induction l as [|i l IH]; cbn [m_insert]; [now apply sim_ret|].
    apply sim_then with eq; [apply H|]; intros y z <-; destruct y; auto using sim_ret.
    apply sim_then with eq; [apply IH|]; intros y z <-; auto using sim_ret.
  Qed.

  Lemma sim_m_remove {K K'} (c : nat -> K -> act S1 comparison) (d : nat -> K' -> act S2 comparison) k k' l :
    (forall i, sim eq (c i k) (d i k')) -> sim eq (m_remove c k l) (m_remove d k' l).
  Proof.
    intros H; induction l as [|i l IH]; cbn [m_remove]; [now apply sim_ret|].
    apply sim_then with eq; [apply H|]; intros x y <-; destruct x; auto using sim_ret.
    apply sim_then with eq; [apply IH|]; intros [x r] y <-; auto using sim_ret.
  Qed.
End Sim.

Section SimComparisons.
  Context {R : Type} (cmp : R -> R -> comparison) {S1 S2 : Type} (rel : S1 -> S2 -> Prop).

  Lemma sim_cmp_iq a b : sim rel eq (m_triple_cmp cmp a b) (m_quad_cmp cmp (iq a) (iq b)).
  Proof.
    unfold m_triple_cmp, m_quad_cmp, m_then; cbn [iq into_quad q_s q_p q_o q_g].
    apply sim_then with eq; [now apply sim_called|]; intros x y <-; destruct x; auto using sim_ret.
    apply sim_then with eq; [now apply sim_called|]; intros x y <-; destruct x; auto using sim_ret.
    intros [|n] s t Hr; cbn; auto.
    destruct (cmp (t_o a) (t_o b)); cbn; auto.
  Qed.

  Lemma sim_at_cmp_iq at1 at2 i q :
    (forall i, at2 i = option_map iq (at1 i)) ->
    sim rel eq (m_triple_at_cmp cmp at1 i q) (m_quad_at_cmp cmp at2 i (iq q)).
  Proof.
    intros H; unfold m_triple_at_cmp, m_quad_at_cmp.
    apply sim_then with (fun x y => y = iq x).
    - apply sim_need; rewrite H; destruct (at1 i); cbn; auto.
    - intros x y ->; apply sim_cmp_iq.
  Qed.

  Lemma sim_index_cmp_iq at1 at2 i j :
    (forall i, at2 i = option_map iq (at1 i)) ->
    sim rel eq (m_triple_index_cmp cmp at1 i j) (m_quad_index_cmp cmp at2 i j).
  Proof.
    intros H; unfold m_triple_index_cmp, m_quad_index_cmp.
    apply sim_then with (fun x y => y = iq x).
    - apply sim_need; rewrite H; destruct (at1 i); cbn; auto.
    - intros x y ->; apply sim_then with (fun x y => y = iq x).
      + apply sim_need; rewrite H; destruct (at1 j); cbn; auto.
      + intros x' y ->; apply sim_cmp_iq.
  Qed.
End SimComparisons.

(** ** Operations on triples as operations on quads *)
Section Ops.
  Context {R : Type} (cmp : R -> R -> comparison).
  Notation qcmp := (quad_cmp cmp).
  Notation tcmp := (triple_cmp cmp).

  Definition op_iq (o : op (triple R)) : op (quad R) :=
    match o with
    | Insert t => Insert (iq t)
    | Remove t => Remove (iq t)
    | Extend l => Extend (map iq l)
    | Contains t => Contains (iq t)
    | Len => Len
    | IsEmpty => IsEmpty
    | Iter => Iter
    | IntoIter => IntoIter
    end.

  Definition out_iq (x : out (triple R)) : out (quad R) :=
    match x with
    | OUnit => OUnit
    | OBool b => OBool b
    | ONat n => ONat n
    | OList l => OList (map iq l)
    end.

  Lemma out_iq_inj x y : out_iq x = out_iq y -> x = y.
  Proof. destruct x, y; cbn; intros E; inv E; try reflexivity; f_equal; now apply map_iq_inj. Qed.

  Lemma spec_step_iq s o :
    spec_step qcmp (map iq s) (op_iq o) =
    (out_iq (fst (spec_step tcmp s o)), map iq (snd (spec_step tcmp s o))).
  Proof.
    destruct o; cbn; rewrite ?mem_iq, ?add_iq, ?del_iq, ?fold_add_iq, ?sorted_iq, ?map_length; reflexivity.
  Qed.

  Lemma answer_iq s lost o : answer qcmp (map iq s) (map iq lost) (op_iq o) = out_iq (answer tcmp s lost o).
  Proof.
    destruct o; cbn; rewrite ?mem_iq, ?sorted_iq, ?map_length; reflexivity.
  Qed.

  Lemma left_over_iq s lost o s1 lost1 :
    left_over qcmp (map iq s) (map iq lost) (op_iq o) s1 lost1 ->
    exists s2 lost2, s1 = map iq s2 /\ lost1 = map iq lost2 /\ left_over tcmp s lost o s2 lost2.
  Proof.
    destruct o as [t|t|l|t| | | |]; cbn; try contradiction.
    - rewrite mem_iq; intros [-> [-> | [H ->]]]; [exists s, lost|exists s, (t :: lost)]; repeat split; auto.
    - rewrite del_iq; intros [[-> | ->] ->]; [exists s, lost|exists (del tcmp t s), lost]; repeat split; auto.
    - intros (l1 & x & l2 & E & -> & H).
      apply map_eq_app in E as (a & b & -> & <- & E2).
      destruct b as [|t b]; [discriminate|]; cbn in E2; inv E2.
      rewrite fold_add_iq in *; rewrite mem_iq in H.
      destruct H as [-> | [H ->]]; [exists (fold_left (fun s x => add tcmp x s) a s), lost
                                   |exists (fold_left (fun s x => add tcmp x s) a s), (t :: lost)];
        (split; [reflexivity|]); (split; [reflexivity|]); exists a, t, b; auto.
    - intros [-> ->]; exists s, lost; auto.
  Qed.
End Ops.

Section Graph.
  Context {R : Type} {cmp : R -> R -> comparison} (L : ord_laws cmp).
  Context (keep : bool).
  Notation qcmp := (quad_cmp cmp).
  Notation tcmp := (triple_cmp cmp).

  Definition gd (g : @bgraph R) (d : @bdataset R) : Prop := d = emb g.

  Lemma sim_bg_table {A} (a : act (@btable R) A) : sim gd eq (m_bg_table a) (m_bd_table a).
  Proof.
    intros n g d ->; unfold m_bg_table, m_bd_table, zoom; cbn.
    destruct (a n (bg_resources g, bg_ri g)) as [x m [rs ri]|[rs ri]|[rs ri]]; cbn; unfold gd; auto.
  Qed.

  Lemma sim_bg_contains t : sim gd eq (m_bg_contains cmp t) (m_bd_contains cmp (iq t)).
  Proof.
    unfold m_bg_contains, m_bd_contains.
    apply sim_then with gd; [apply sim_get|]; intros g d E0; unfold gd in E0; subst d; cbn [emb bd_qi bd_resources bd_quads].
    apply sim_then with eq; [|intros x y <-; now apply sim_ret].
    apply sim_m_get; intros i; apply sim_at_cmp_iq; intros; apply qat_iq.
  Qed.

  Lemma sim_bg_insert t : sim gd eq (m_bg_insert cmp keep t) (m_bd_insert cmp keep (iq t)).
  Proof.
    unfold m_bg_insert, m_bd_insert; cbn [iq into_quad q_s q_p q_o q_g].
    apply sim_then with eq; [apply sim_bg_contains|]; intros c c' <-; destruct c; [now apply sim_ret|].
    apply sim_then with eq; [apply sim_bg_table|]; intros fs y <-.
    apply sim_then with eq; [apply sim_bg_table|]; intros fp y <-.
    apply sim_then with eq; [apply sim_bg_table|]; intros fo y <-.
    apply sim_ret_then_r.
    apply sim_then with gd; [apply sim_get|]; intros g d E0; unfold gd in E0; subst d; cbv zeta; cbn [emb bd_quads].
    rewrite vacant_key_smap.
    apply sim_then with eq; [apply sim_bg_table|]; intros s_i y <-.
    apply sim_then with eq; [apply sim_bg_table|]; intros p_i y <-.
    apply sim_then with eq; [apply sim_bg_table|]; intros o_i y <-.
    apply sim_ret_then_r.
    apply sim_then with gd; [apply sim_get|]; intros g1 d E1; unfold gd in E1; subst d; cbv zeta; cbn [emb bd_quads bd_resources bd_ri bd_qi].
    change (Quad s_i p_i o_i None) with (iq (Triple s_i p_i o_i)); rewrite sinsert_smap.
    apply sim_then with eq; [now apply sim_put|]; intros u y <-.
    apply sim_then with eq.
    { apply sim_m_insert; intros i; apply sim_index_cmp_iq; intros; apply qat_iq. }
    intros ti y <-.
    apply sim_then with eq; [now apply sim_put|]; intros u' y <-; now apply sim_ret.
  Qed.

  Lemma sim_bg_remove t : sim gd eq (m_bg_remove cmp t) (m_bd_remove cmp (iq t)).
  Proof.
    unfold m_bg_remove, m_bd_remove.
    apply sim_then with gd; [apply sim_get|]; intros g d E0; unfold gd in E0; subst d; cbn [emb bd_quads bd_resources bd_ri bd_qi].
    apply sim_then with eq.
    { apply sim_m_remove; intros i; apply sim_at_cmp_iq; intros; apply qat_iq. }
    intros [f ti] y <-.
    apply sim_then with eq; [now apply sim_put|]; intros u y <-.
    destruct f as [i|]; [|now apply sim_ret].
    apply sim_then with (fun x y => y = (iq (fst x), smap iq (snd x))).
    { apply sim_need; rewrite sremove_smap; destruct (sremove (bg_triples g) i) as [[x ts]|]; cbn; auto. }
    intros [x ts] y ->; cbn [fst snd].
    apply sim_then with eq; [now apply sim_put|]; intros u' y <-.
    cbn [iq into_quad q_s q_p q_o q_g].
    apply sim_then with eq; [apply sim_bg_table|]; intros ? y <-.
    apply sim_then with eq; [apply sim_bg_table|]; intros ? y <-.
    apply sim_then with eq; [apply sim_bg_table|]; intros ? y <-.
    apply sim_ret_then_r; now apply sim_ret.
  Qed.

  Lemma sim_bg_extend l : sim gd eq (m_bg_extend cmp keep l) (m_bd_extend cmp keep (map iq l)).
  Proof.
    induction l as [|t l IH]; cbn [m_bg_extend m_bd_extend map]; [now apply sim_ret|].
    apply sim_then with eq; [apply sim_bg_insert|]; intros; exact IH.
  Qed.

  Definition oq (x : out (triple R)) (y : out (quad R)) : Prop := y = out_iq x.

  Lemma sim_bg_step o : sim gd oq (m_bg_step cmp keep o) (m_bd_step cmp keep (op_iq o)).
  Proof.
    destruct o as [t|t|l|t| | | |]; cbn [m_bg_step m_bd_step op_iq].
    - apply sim_then with eq; [apply sim_bg_insert|]; intros x y <-; now apply sim_ret.
    - apply sim_then with eq; [apply sim_bg_remove|]; intros x y <-; now apply sim_ret.
    - apply sim_then with eq; [apply sim_bg_extend|]; intros x y <-; now apply sim_ret.
    - apply sim_then with eq; [apply sim_bg_contains|]; intros x y <-; now apply sim_ret.
    - apply sim_then with gd; [apply sim_get|]; intros g d E0; unfold gd in E0; subst d; apply sim_ret; unfold oq.
      now rewrite emb_len.
    - apply sim_then with gd; [apply sim_get|]; intros g d E0; unfold gd in E0; subst d; apply sim_ret; unfold oq, bd_is_empty, bg_is_empty.
      now rewrite emb_len.
    - apply sim_then with gd; [apply sim_get|]; intros g d E0; unfold gd in E0; subst d; apply sim_then with (fun x y => y = map iq x).
      + apply sim_need; rewrite emb_iter; destruct (bg_iter g); cbn; auto.
      + intros x y ->; now apply sim_ret.
    - apply sim_then with gd; [apply sim_get|]; intros g d E0; unfold gd in E0; subst d; apply sim_then with (fun x y => y = map iq x).
      + apply sim_need; rewrite emb_into_iter; destruct (bg_into_iter g); cbn; auto.
      + intros x y ->; now apply sim_ret.
  Qed.

  Definition wg_rep (g : @bgraph R) (s lost : list (triple R)) : Prop :=
    wd_rep (cmp:=cmp) (emb g) (map iq s) (map iq lost).

  Lemma runs_bg_step g s lost o n :
    wg_rep g s lost ->
    runs (m_bg_step cmp keep o) n g
      (fun x g' => x = answer tcmp s lost o /\ wg_rep g' (snd (spec_step tcmp s o)) lost)
      (fun g' => exists s' lost', wg_rep g' s' lost' /\ left_over tcmp s lost o s' lost').
  Proof.
    intros W; pose proof (runs_step L keep _ _ _ (op_iq o) n W) as H.
    pose proof (sim_bg_step o n g (emb g) eq_refl) as S; unfold runs in *.
    destruct (m_bg_step cmp keep o n g) as [x m g'|g'|g'],
      (m_bd_step cmp keep (op_iq o) n (emb g)) as [y m' d'|d'|d']; try contradiction.
    - destruct S as (-> & _ & ->), H as [H1 H2]; rewrite spec_step_iq in H2; split; [|exact H2].
      rewrite answer_iq in H1; now apply out_iq_inj.
    - unfold gd in S; subst; destruct H as (s1 & lost1 & H1 & H2).
      apply left_over_iq in H2 as (s2 & lost2 & -> & -> & H2); exists s2, lost2; auto.
  Qed.

  Lemma run_bg_history l : forall g s lost,
    wg_rep g s lost ->
    exists ys g' s' lost', m_run (m_bg_step cmp keep) g l = Some (ys, g') /\
      history tcmp s lost (map fst l) ys s' lost' /\ wg_rep g' s' lost'.
  Proof.
    induction l as [|[o n] l IH]; intros d s lost W.
    - exists [], d, s, lost; split; [reflexivity|]; split; [constructor|exact W].
    - cbn; pose proof (runs_bg_step d s lost o n W) as H; unfold runs in H.
      destruct (m_bg_step cmp keep o n d) as [x m d1|d1|]; [| |contradiction].
      + destruct H as [-> W1]; destruct (IH _ _ _ W1) as (ys & d' & s' & lost' & -> & Hh & W').
        exists (Some (answer tcmp s lost o) :: ys), d', s', lost'; split; [reflexivity|].
        split; [now constructor|exact W'].
      + destruct H as (s1 & lost1 & W1 & Hl); destruct (IH _ _ _ W1) as (ys & d' & s' & lost' & -> & Hh & W').
        exists (None :: ys), d', s', lost'; split; [reflexivity|].
        split; [econstructor; eauto|exact W'].
  Qed.

  Lemma wg_rep_new : wg_rep bg_new [] [].
  Proof. apply wd_rep_new. Qed.

  (** ** Agreement *)
  Lemma smap_iq_inj (s t : slab (triple nat)) : smap iq s = smap iq t -> s = t.
  Proof.
    destruct s as [l f], t as [m f']; unfold smap; cbn; intros E; inv E; f_equal.
    revert m H0; induction l as [|x l IH]; intros [|y m] E; cbn in E; inv E; [reflexivity|].
    f_equal; [|auto]; destruct x, y; cbn in *; try discriminate; [|reflexivity].
    f_equal; apply iq_inj; congruence.
  Qed.

  Lemma emb_inj (g h : @bgraph R) : emb g = emb h -> g = h.
  Proof.
    intros E; pose proof (f_equal bd_quads E) as E1; cbn in E1; apply smap_iq_inj in E1.
    pose proof (f_equal bd_resources E) as E2; pose proof (f_equal bd_ri E) as E3.
    pose proof (f_equal bd_qi E) as E4; cbn in E2, E3, E4.
    destruct g, h; cbn in *; congruence.
  Qed.

  Lemma emb_step g o :
    bd_step cmp keep (emb g) (op_iq o) =
    option_map (fun '(x, g') => (out_iq x, emb g')) (bg_step cmp keep g o).
  Proof.
    destruct o as [t|t|l|t| | | |]; cbn [bd_step bg_step op_iq].
    - rewrite emb_insert; destruct (bg_insert cmp keep g t) as [[b g']|]; reflexivity.
    - rewrite emb_remove; destruct (bg_remove cmp g t) as [[b g']|]; reflexivity.
    - rewrite emb_extend; destruct (bg_extend cmp keep g l) as [g'|]; reflexivity.
    - rewrite emb_contains; destruct (bg_contains cmp g t) as [b|]; reflexivity.
    - now rewrite emb_len.
    - unfold bd_is_empty, bg_is_empty; now rewrite emb_len.
    - rewrite emb_iter; destruct (bg_iter g); reflexivity.
    - rewrite emb_into_iter; destruct (bg_into_iter g); reflexivity.
  Qed.

  Lemma agrees_bg_step g o : agrees (m_bg_step cmp keep o) g (bg_step cmp keep g o).
  Proof.
    destruct (agrees_bd_step cmp keep (emb g) (op_iq o)) as [k H]; exists k; intros n.
    pose proof (sim_bg_step o n g (emb g) eq_refl) as S.
    destruct (H n) as [H1 H2]; split; intros Hn.
    - destruct (H1 Hn) as (d & Ed); rewrite Ed in S.
      destruct (m_bg_step cmp keep o n g); try contradiction; eauto.
    - specialize (H2 Hn); rewrite emb_step in H2.
      destruct (bg_step cmp keep g o) as [[x g']|]; cbn in H2.
      + rewrite H2 in S; destruct (m_bg_step cmp keep o n g) as [y m h| |]; try contradiction.
        destruct S as (E1 & -> & E2); apply out_iq_inj in E1; apply emb_inj in E2; now subst.
      + destruct H2 as (d & Ed); rewrite Ed in S.
        destruct (m_bg_step cmp keep o n g); try contradiction; eauto.
  Qed.
End Graph.
