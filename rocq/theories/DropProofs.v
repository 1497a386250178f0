(** Containers whose resources may panic when they are compared or dropped. *)
From Coq Require Import List Bool Arith Lia Permutation.
Import ListNotations.
From Verif Require Import Base SlabModel TripleModel SetSpec ContainerSpec IndexedSpec Machine BaseProofs BResourceModel
  BResourceProofs BTreeDatasetModel BTreeDatasetProofs BTreeGraphModel BTreeGraphProofs IResourceModel IResourceProofs
  IndexedDatasetModel IndexedDatasetProofs IndexedHistoryProofs IndexedRunProofs IndexedGraphModel IndexedGraphProofs
  CrashModel CrashSpec ICrashSpec CrashProofs BCrashProofs CrashAgree BGCrashProofs CrashHistoryProofs
  ICrashModel ICrashProofs ICrashReads ICrashAgree IGCrashProofs ICrashConvert ICrashHistory DropSpec DropModel.
Open Scope act_scope.

(** ** Rules *)
Lemma runs_assoc {St A B C} (a : act St A) (b : A -> act St B) (f : B -> act St C) n s P E :
  runs (andthen a (fun x => andthen (b x) f)) n s P E -> runs (andthen (andthen a b) f) n s P E.
Proof. unfold runs, andthen; destruct (a n s); auto. Qed.

Lemma quiet_drops {St} k : quiet (@drops St k) (Some tt).
Proof.
  induction k as [|k IH]; cbn [drops]; [apply quiet_ret|].
  eapply quiet_eq; [apply (quiet_andthen _ _ (Some tt) (fun _ => Some tt)); [apply quiet_called|auto]|reflexivity].
Qed.

Lemma runs_called_then {St A B} (x : A) (f : A -> act St B) n s P (E : St -> Prop) :
  E s -> (forall m, runs (f x) m s P E) -> runs (andthen (called x) f) n s P E.
Proof. intros HE H; eapply runs_quiet_then; [apply quiet_called|exact HE|exact H]. Qed.

Lemma runs_drops_then {St B} k (f : unit -> act St B) n s P (E : St -> Prop) :
  E s -> (forall m, runs (f tt) m s P E) -> runs (andthen (drops k) f) n s P E.
Proof. intros HE H; eapply runs_quiet_then; [apply quiet_drops|exact HE|exact H]. Qed.

(** Reads, and then the changes. *)
Definition point {St A} (a : act St A) (s : St) (P : A -> St -> Prop) (E : St -> Prop) : Prop :=
  exists k, forall n, (n < k -> a n s = Interrupted s) /\ (k <= n -> runs a n s P E).

Lemma point_get {St B} (f : St -> act St B) s P E : point (f s) s P E -> point (andthen get f) s P E.
Proof. auto. Qed.

Lemma point_quiet {St A B} (a : act St A) x (f : A -> act St B) s P E :
  quiet a (Some x) -> (forall m, runs (f x) m s P E) -> point (andthen a f) s P E.
Proof.
  intros [k Hk] H; exists k; intros n; unfold runs, andthen; rewrite Hk; split; intros Hn.
  - apply Nat.ltb_lt in Hn; now rewrite Hn.
  - apply Nat.ltb_ge in Hn; rewrite Hn; apply (H (n - k)).
Qed.

Lemma point_runs {St A} (a : act St A) s n P (E : St -> Prop) :
  point a s P E -> runs a n s P (fun t => t = s \/ E t).
Proof.
  intros [k H]; destruct (H n) as [A1 A2]; destruct (lt_dec n k) as [Hn|Hn].
  - unfold runs; rewrite (A1 Hn); auto.
  - eapply runs_weak; [apply A2; lia|auto|auto].
Qed.

Lemma point_turns {St A} (a : act St A) s (P : A -> St -> Prop) (E after : St -> Prop) :
  point a s P E -> (forall x t, P x t -> after t) -> (forall t, E t -> after t) -> turns a s after.
Proof.
  intros [k H] HP HE; exists k; intros n; destruct (H n) as [A1 A2]; split; [exact A1|].
  intros Hn; specialize (A2 Hn); unfold runs in A2; destruct (a n s); eauto.
Qed.

Lemma then_calls_drops {St A} (count : St -> A -> nat) (a : act St A) :
  then_calls a (d <- get ;; b <- a ;; _ <- drops (count d b) ;; ret b).
Proof.
  intros n st; unfold andthen, get; destruct (a n st) as [x m st'| |]; auto.
  destruct (@quiet_drops St (count st x)) as [k ->]; destruct (m <? k); cbn; auto.
Qed.

(** A history, from its steps. *)
Lemma cut_history_of {St X} {cmp : X -> X -> comparison} (step : op X -> act St (out X))
    (rep : St -> list X -> list X -> Prop) :
  (forall d s lost o n, rep d s lost ->
     runs (step o) n d
       (fun x d' => x = answer cmp s lost o /\ rep d' (snd (spec_step cmp s o)) lost)
       (fun d' => exists s' lost', rep d' s' lost' /\ cut cmp s lost o s' lost')) ->
  forall l d s lost, rep d s lost ->
    exists ys d' s' lost', m_run step d l = Some (ys, d') /\
      cut_history cmp s lost (map fst l) ys s' lost' /\ rep d' s' lost'.
Proof.
  intros Hs l; induction l as [|[o n] l IH]; intros d s lost W.
  - exists [], d, s, lost; split; [reflexivity|]; split; [constructor|exact W].
  - cbn; pose proof (Hs d s lost o n W) as H; unfold runs in H.
    destruct (step o n d) as [x m d1|d1|]; [| |contradiction].
    + destruct H as [-> W1]; destruct (IH _ _ _ W1) as (ys & d' & s' & lost' & -> & Hh & W').
      exists (Some (answer cmp s lost o) :: ys), d', s', lost'; split; [reflexivity|].
      split; [now constructor|exact W'].
    + destruct H as (s1 & lost1 & W1 & Hl); destruct (IH _ _ _ W1) as (ys & d' & s' & lost' & -> & Hh & W').
      exists (None :: ys), d', s', lost'; split; [reflexivity|].
      split; [econstructor; eauto|exact W'].
Qed.

Lemma cut_weak {X} (cmp : X -> X -> comparison) s lost o s' lost' :
  left_over cmp s lost o s' lost' -> cut cmp s lost o s' lost'.
Proof.
  unfold left_over, cut, insertion_cut; destruct o; try tauto.
  intros (l1 & x & l2 & -> & -> & H); exists l1, x, l2; split; [reflexivity|]; tauto.
Qed.

(** ** [BTreeDataset] *)
Section Dataset.
  Context {R : Type} {cmp : R -> R -> comparison} (L : ord_laws cmp).
  Context (keep : bool).
  Notation qcmp := (quad_cmp cmp).
  Let LQ : ord_laws qcmp := quad_cmp_laws cmp L.

  Lemma runs_d_insert_rep d s lost q n :
    wd_rep (cmp:=cmp) d s lost ->
    runs (d_bd_insert cmp keep q) n d
      (fun b d' => b = negb (mem qcmp q s) /\ wd_rep (cmp:=cmp) d' (add qcmp q s) lost)
      (fun d' => exists s' lost', wd_rep (cmp:=cmp) d' s' lost' /\ insertion_cut qcmp s lost q s' lost').
  Proof.
    intros W; unfold d_bd_insert, insertion_cut; apply runs_get_then, runs_andthen.
    eapply runs_weak; [apply (runs_insert_rep L keep _ _ _ q n W)| |]; cbn beta.
    - intros b d' [-> W'] m; apply runs_drops_then; [eexists _, lost; split; [exact W'|]; auto|].
      intros m'; apply runs_ret; auto.
    - intros d' (lost' & W' & H); exists s, lost'; split; [exact W'|]; tauto.
  Qed.

  Lemma runs_d_extend_rep l : forall d s lost n,
    wd_rep (cmp:=cmp) d s lost ->
    runs (d_bd_extend cmp keep l) n d
      (fun _ d' => wd_rep (cmp:=cmp) d' (fold_left (fun s q => add qcmp q s) l s) lost)
      (fun d' => exists s' lost', wd_rep (cmp:=cmp) d' s' lost' /\ cut qcmp s lost (Extend l) s' lost').
  Proof.
    induction l as [|q l IH]; intros d s lost n W; [apply runs_ret; exact W|].
    cbn [d_bd_extend fold_left]; apply runs_andthen.
    eapply runs_weak; [apply (runs_d_insert_rep _ _ _ q n W)| |]; cbn beta.
    - intros b d' [_ W'] m; eapply runs_weak; [apply (IH _ _ _ m W')|auto|].
      intros d2 (s' & lost' & W2 & l1 & x & l2 & -> & H).
      exists s', lost'; split; [exact W2|]; exists (q :: l1), x, l2; auto.
    - intros d' (s' & lost' & W' & H); exists s', lost'; split; [exact W'|].
      exists [], q, l; auto.
  Qed.

  Lemma runs_d_release_then {K B} d pending rest rs0 rs ri rcmp (key : K) k v
      (f : unit -> act (@bdataset R) B) n P (E : @bdataset R -> Prop) :
    midr (cmp:=cmp) (bd_quads d) (bd_qi d) rs0 pending rs ri ->
    (forall r, pending r = ind k r + rest r) -> br_val rs0 k = Some v ->
    m_finds (cmp:=cmp) rcmp key v k ->
    (forall rs' ri', midr (cmp:=cmp) (bd_quads d) (bd_qi d) rs0 rest rs' ri' -> E (with_table d rs' ri')) ->
    (forall rs' ri' m, midr (cmp:=cmp) (bd_quads d) (bd_qi d) rs0 rest rs' ri' ->
       runs (f tt) m (with_table d rs' ri') P E) ->
    runs (andthen (d_bd_release rcmp k key) f) n (with_table d rs ri) P E.
  Proof.
    intros M Hp Hv Hf HE H; unfold d_bd_release; apply runs_assoc.
    eapply (runs_release_then L d pending rest); [exact M|exact Hp|exact Hv|exact Hf|exact HE|].
    intros rs' ri' m M'; apply runs_assoc, runs_get_then.
    destruct (sget _ k).
    - apply H, M'.
    - apply runs_called_then; [now apply HE|]; intros m'; now apply H.
  Qed.

  Lemma point_d_remove d ks lost q :
    wd_inv (cmp:=cmp) d ks lost ->
    point (d_bd_remove cmp q) d
      (fun b d' => b = mem qcmp q ks /\ wd_inv (cmp:=cmp) d' (del qcmp q ks) lost)
      (fun d' => wd_inv (cmp:=cmp) d' (del qcmp q ks) lost).
  Proof.
    intros W; pose proof W as [I1 I2 I3 I4]; unfold d_bd_remove; apply point_get.
    destruct (bt_remove_spec LQ _ _ _ q I2) as (r & qi & E & I2' & Hr).
    eapply point_quiet.
    { eapply quiet_eq; [eapply quiet_m_remove; intros; apply quiet_quad_at_cmp|exact E]. }
    intros m; cbn beta iota; apply runs_put_then; destruct r as [i|].
    2: { apply runs_ret; destruct Hr as [Hr ->]; split; [symmetry; now apply (mem_false LQ)|].
         rewrite (del_notin LQ) by assumption; destruct d; exact W. }
    destruct Hr as (Hv & Hin & HP).
    unfold b_quad_at in Hv; destruct (sget (bd_quads d) i) as [x|] eqn:Ex; [|discriminate].
    cbn in Hv; destruct (sremove_some _ _ _ Ex) as (qs & Eqs).
    eapply runs_need_then; [exact Eqs|]; cbn beta iota; apply runs_put_then.
    assert (Gq : forall j, sget qs j = if j =? i then None else sget (bd_quads d) j)
      by (intros j; apply (sget_sremove _ _ _ _ _ Eqs)).
    assert (ND : NoDup (i :: qi)).
    { apply (Permutation_NoDup HP), (indexes_nodup LQ _ _ _ I2). }
    assert (Hni : ~ In i qi) by now inv ND.
    assert (RC : forall r, refs (bd_quads d) (bd_qi d) r = qrefs x r + refs qs qi r).
    { intros r; unfold refs; rewrite (sumf_perm _ _ _ HP), sumf_cons, Ex; f_equal.
      apply sumf_ext; intros j Hj; rewrite Gq; destruct (j =? i) eqn:Ej; [|reflexivity].
      apply Nat.eqb_eq in Ej; subst; contradiction. }
    apply qwr_some in Hv as (Vs & Vp & Vo & Vg).
    set (d1 := BDataset (bd_resources d) qs (bd_ri d) qi).
    assert (Fin : forall pending rs ri, midr (cmp:=cmp) qs qi (bd_resources d) pending rs ri ->
              wd_inv (cmp:=cmp) (with_table d1 rs ri) (del qcmp q ks) lost).
    { intros pending rs ri [M V]; split; cbn.
      - eapply swf_sremove; eauto.
      - eapply indexes_ext; [|exact I2']; intros j Hj; unfold b_quad_at; rewrite Gq.
        destruct (j =? i) eqn:Ej; [apply Nat.eqb_eq in Ej; subst; contradiction|].
        destruct (sget (bd_quads d) j) as [y|] eqn:Ey; cbn; [|reflexivity].
        assert (Hy : forall r, 0 < qrefs y r -> br_val rs r = br_val (bd_resources d) r).
        { intros r Hp; apply V.
          assert (qrefs y r <= refs qs qi r); [|lia].
          unfold refs; etransitivity; [|eapply sumf_in, Hj]; cbn; rewrite Gq, Ej, Ey; reflexivity. }
        unfold b_quad_with_resources.
        rewrite !Hy by (apply qrefs_pos; auto).
        destruct (q_g y) as [g|] eqn:Eg; [|reflexivity].
        rewrite (Hy g) by (apply qrefs_pos; auto); reflexivity.
      - eapply winv_le; [exact M|]; intros; cbn; lia.
      - rewrite (slen_sremove _ _ _ _ Eqs) in I4.
        rewrite (length_del L q ks) in I4; [lia| |assumption].
        apply (ssorted_nodup LQ), I2. }
    assert (M0 : midr (cmp:=cmp) qs qi (bd_resources d) (qrefs x) (bd_resources d) (bd_ri d)).
    { split; [|auto]; eapply winv_le; [exact I3|]; intros r; cbn; rewrite RC; lia. }
    assert (Hmem : true = mem qcmp q ks) by (symmetry; now apply (mem_true LQ)).
    change (BDataset (bd_resources d) qs (bd_ri d) qi) with (with_table d1 (bd_resources d) (bd_ri d)).
    change qs with (bd_quads d1) in M0; change qi with (bd_qi d1) in M0.
    eapply (runs_d_release_then d1 (qrefs x)
      (fun r => ind (q_p x) r + ind (q_o x) r + match q_g x with Some g => ind g r | None => 0 end));
      [exact M0|intros; unfold qrefs; lia|exact Vs|apply m_finds_value
      |intros rs' ri' M; eapply Fin, M|].
    intros rs1 ri1 n1 M1.
    eapply (runs_d_release_then d1 _
      (fun r => ind (q_o x) r + match q_g x with Some g => ind g r | None => 0 end));
      [exact M1|intros; cbn; lia|exact Vp|apply m_finds_value|intros rs' ri' M; eapply Fin, M|].
    intros rs2 ri2 n2 M2.
    eapply (runs_d_release_then d1 _ (fun r => match q_g x with Some g => ind g r | None => 0 end));
      [exact M2|intros; cbn; lia|exact Vo|apply m_finds_value|intros rs' ri' M; eapply Fin, M|].
    intros rs3 ri3 n3 M3; destruct (q_g x) as [g_i|].
    - destruct (q_g q) as [g|]; [|contradiction].
      eapply (runs_d_release_then d1 _ (fun _ => 0));
        [exact M3|intros; cbn; lia|exact Vg|apply m_finds_index|intros rs' ri' M; eapply Fin, M|].
      intros rs4 ri4 n4 M4; apply runs_ret; split; [exact Hmem|eapply Fin, M4].
    - unfold andthen at 1; apply runs_ret; split; [exact Hmem|eapply Fin, M3].
  Qed.

  Lemma point_d_remove_rep d s lost q :
    wd_rep (cmp:=cmp) d s lost ->
    point (d_bd_remove cmp q) d
      (fun b d' => b = mem qcmp q s /\ wd_rep (cmp:=cmp) d' (del qcmp q s) lost)
      (fun d' => wd_rep (cmp:=cmp) d' (del qcmp q s) lost).
  Proof.
    intros [Hn W]; destruct (point_d_remove _ _ _ q W) as [k H]; exists k; intros n.
    destruct (H n) as [A1 A2]; split; [exact A1|]; intros Hk.
    eapply runs_weak; [exact (A2 Hk)| |]; cbn beta; rewrite (del_ext L) by assumption.
    - intros b d' [-> W']; split; [now apply (mem_sorted L)|]; split; [now apply (nodup_del (cmp:=qcmp))|exact W'].
    - intros d' W'; split; [now apply (nodup_del (cmp:=qcmp))|exact W'].
  Qed.

  Lemma runs_d_remove_rep d s lost q n :
    wd_rep (cmp:=cmp) d s lost ->
    runs (d_bd_remove cmp q) n d
      (fun b d' => b = mem qcmp q s /\ wd_rep (cmp:=cmp) d' (del qcmp q s) lost)
      (fun d' => wd_rep (cmp:=cmp) d' s lost \/ wd_rep (cmp:=cmp) d' (del qcmp q s) lost).
  Proof.
    intros W; eapply runs_weak; [apply point_runs, (point_d_remove_rep _ _ _ q W)|auto|].
    intros d' [-> |W']; auto.
  Qed.

  Lemma runs_d_bd_step d s lost o n :
    wd_rep (cmp:=cmp) d s lost ->
    runs (d_bd_step cmp keep o) n d
      (fun x d' => x = answer qcmp s lost o /\ wd_rep (cmp:=cmp) d' (snd (spec_step qcmp s o)) lost)
      (fun d' => exists s' lost', wd_rep (cmp:=cmp) d' s' lost' /\ cut qcmp s lost o s' lost').
  Proof.
    intros W.
    assert (Old : runs (m_bd_step cmp keep o) n d
      (fun x d' => x = answer qcmp s lost o /\ wd_rep (cmp:=cmp) d' (snd (spec_step qcmp s o)) lost)
      (fun d' => exists s' lost', wd_rep (cmp:=cmp) d' s' lost' /\ cut qcmp s lost o s' lost')).
    { eapply runs_weak; [apply (runs_step L keep _ _ _ o n W)|auto|].
      intros d' (s' & lost' & W' & H); exists s', lost'; split; [exact W'|now apply cut_weak]. }
    destruct o as [q|q|l|q| | | |]; cbn [d_bd_step]; try exact Old; clear Old.
    - apply runs_andthen; eapply runs_weak; [apply (runs_d_insert_rep _ _ _ q n W)| |auto]; cbn beta.
      intros b d' [-> W'] m; apply runs_ret; auto.
    - apply runs_andthen; eapply runs_weak; [apply (runs_d_remove_rep _ _ _ q n W)| |]; cbn beta.
      + intros b d' [-> W'] m; apply runs_ret; auto.
      + intros d' [W'|W']; eexists _, lost; (split; [exact W'|]); cbn; auto.
    - apply runs_andthen; eapply runs_weak; [apply (runs_d_extend_rep l _ _ _ n W)| |auto]; cbn beta.
      intros [] d' W' m; apply runs_ret; auto.
  Qed.

  Lemma bd_dropped l :
    exists ys d s lost vs,
      m_run (d_bd_step cmp keep) bd_new l = Some (ys, d) /\
      cut_history qcmp [] [] (map fst l) ys s lost /\
      bd_len d = length s + length lost /\ bd_iter d = Some (sorted_elements qcmp s) /\
      bd_resources_iter d = Some vs /\ increasing cmp vs /\
      (forall v, bd_contains_resource cmp d v = Some (mem cmp v vs)) /\
      forall q, turns (d_bd_remove cmp q) d (fun d' =>
        bd_len d' = length (del qcmp q s) + length lost /\
        bd_iter d' = Some (sorted_elements qcmp (del qcmp q s))).
  Proof.
    destruct (cut_history_of (cmp:=qcmp) _ _ runs_d_bd_step l _ _ _ (wd_rep_new (cmp:=cmp)))
      as (ys & d & s & lost & E & Hh & W).
    destruct (wd_reads L _ _ _ W) as (A & B & vs & C & D & F).
    exists ys, d, s, lost, vs.
    split; [exact E|]; split; [exact Hh|]; split; [exact A|]; split; [exact B|].
    split; [exact C|]; split; [exact D|]; split; [exact F|].
    intros q; assert (G : forall d', wd_rep (cmp:=cmp) d' (del qcmp q s) lost ->
        bd_len d' = length (del qcmp q s) + length lost /\
        bd_iter d' = Some (sorted_elements qcmp (del qcmp q s))).
    { intros d' W'; destruct (wd_reads L _ _ _ W') as (A' & B' & _); auto. }
    eapply point_turns; [apply (point_d_remove_rep _ _ _ q W)| |exact G].
    intros b d' [_ W']; auto.
  Qed.
End Dataset.

(** ** [BTreeGraph] *)
Lemma sim_drops {S1 S2} (rel : S1 -> S2 -> Prop) k : sim rel eq (drops k) (drops k).
Proof.
  induction k as [|k IH]; cbn [drops]; [now apply sim_ret|].
  apply sim_then with eq; [now apply sim_called|]; intros; exact IH.
Qed.

Lemma cut_iq {R} (cmp : R -> R -> comparison) s lost o s1 lost1 :
  cut (quad_cmp cmp) (map iq s) (map iq lost) (op_iq o) s1 lost1 ->
  exists s2 lost2, s1 = map iq s2 /\ lost1 = map iq lost2 /\ cut (triple_cmp cmp) s lost o s2 lost2.
Proof.
  assert (One : forall s t, insertion_cut (quad_cmp cmp) (map iq s) (map iq lost) (iq t) s1 lost1 ->
    exists s2 lost2, s1 = map iq s2 /\ lost1 = map iq lost2 /\ insertion_cut (triple_cmp cmp) s lost t s2 lost2).
  { intros s0 t; unfold insertion_cut; rewrite mem_iq, add_iq; intros [[-> ->]|[(H & -> & ->)|[-> ->]]].
    - exists s0, lost; auto.
    - exists s0, (t :: lost); repeat split; auto.
    - exists (add (triple_cmp cmp) t s0), lost; do 2 (split; [reflexivity|]); auto. }
  destruct o as [t|t|l|t| | | |]; cbn; try contradiction.
  - apply One.
  - rewrite del_iq; intros [[-> | ->] ->]; [exists s, lost|exists (del (triple_cmp cmp) t s), lost]; repeat split; auto.
  - intros (l1 & x & l2 & E & H).
    apply map_eq_app in E as (a & b & -> & <- & E2).
    destruct b as [|t b]; [discriminate|]; cbn in E2; inv E2.
    rewrite fold_add_iq in H; destruct (One _ _ H) as (s2 & lost2 & -> & -> & H2).
    exists s2, lost2; split; [reflexivity|]; split; [reflexivity|]; exists a, t, b; auto.
  - intros [-> ->]; exists s, lost; auto.
Qed.

Section Graph.
  Context {R : Type} {cmp : R -> R -> comparison} (L : ord_laws cmp).
  Context (keep : bool).
  Notation qcmp := (quad_cmp cmp).
  Notation tcmp := (triple_cmp cmp).

  Lemma sim_d_bg_insert t : sim gd eq (d_bg_insert cmp keep t) (d_bd_insert cmp keep (iq t)).
  Proof.
    unfold d_bg_insert, d_bd_insert.
    apply sim_then with gd; [apply sim_get|]; intros g d E0; unfold gd in E0; subst d.
    apply sim_then with eq; [apply sim_bg_insert|]; intros b b' <-.
    apply sim_then with eq; [apply sim_drops|]; intros u u' _; now apply sim_ret.
  Qed.

  Lemma sim_d_bg_release i v : sim gd eq (d_bg_release cmp i v) (d_bd_release (m_resource_cmp cmp) i v).
  Proof.
    unfold d_bg_release, d_bd_release.
    apply sim_then with eq; [apply sim_bg_table|]; intros u u' _.
    apply sim_then with gd; [apply sim_get|]; intros g d E0; unfold gd in E0; subst d; cbn [emb bd_resources].
    destruct (sget (bg_resources g) i); [now apply sim_ret|now apply sim_called].
  Qed.

  Lemma sim_d_bg_remove t : sim gd eq (d_bg_remove cmp t) (d_bd_remove cmp (iq t)).
  Proof.
    unfold d_bg_remove, d_bd_remove.
    apply sim_then with gd; [apply sim_get|]; intros g d E0; unfold gd in E0; subst d; cbn [emb bd_quads bd_resources bd_ri bd_qi].
    apply sim_then with eq.
    { apply sim_m_remove; intros i; apply sim_at_cmp_iq; intros; apply qat_iq. }
    intros [f ti] y <-.
    apply sim_then with eq; [now apply sim_put|]; intros u y <-.
    destruct f as [i|]; [|now apply sim_ret].
    apply sim_then with (fun x y => y = (iq (fst x), smap iq (snd x))).
    { apply sim_need; rewrite sremove_smap; destruct (sremove (bg_triples g) i) as [[x ts]|]; cbn; auto. }
    intros [x ts] y ->; cbn [fst snd].
    apply sim_then with eq; [now apply sim_put|]; intros u' y <-.
    cbn [iq into_quad q_s q_p q_o q_g].
    apply sim_then with eq; [apply sim_d_bg_release|]; intros ? y <-.
    apply sim_then with eq; [apply sim_d_bg_release|]; intros ? y <-.
    apply sim_then with eq; [apply sim_d_bg_release|]; intros ? y <-.
    apply sim_ret_then_r; now apply sim_ret.
  Qed.

  Lemma sim_d_bg_extend l : sim gd eq (d_bg_extend cmp keep l) (d_bd_extend cmp keep (map iq l)).
  Proof.
    induction l as [|t l IH]; cbn [d_bg_extend d_bd_extend map]; [now apply sim_ret|].
    apply sim_then with eq; [apply sim_d_bg_insert|]; intros; exact IH.
  Qed.

  Lemma sim_d_bg_step o : sim gd oq (d_bg_step cmp keep o) (d_bd_step cmp keep (op_iq o)).
  Proof.
    pose proof (sim_bg_step (cmp:=cmp) keep o) as Old.
    destruct o as [t|t|l|t| | | |]; cbn [d_bg_step d_bd_step op_iq] in *; try exact Old; clear Old.
    - apply sim_then with eq; [apply sim_d_bg_insert|]; intros x y <-; now apply sim_ret.
    - apply sim_then with eq; [apply sim_d_bg_remove|]; intros x y <-; now apply sim_ret.
    - apply sim_then with eq; [apply sim_d_bg_extend|]; intros x y <-; now apply sim_ret.
  Qed.

  Lemma runs_d_bg_step g s lost o n :
    wg_rep (cmp:=cmp) g s lost ->
    runs (d_bg_step cmp keep o) n g
      (fun x g' => x = answer tcmp s lost o /\ wg_rep (cmp:=cmp) g' (snd (spec_step tcmp s o)) lost)
      (fun g' => exists s' lost', wg_rep (cmp:=cmp) g' s' lost' /\ cut tcmp s lost o s' lost').
  Proof.
    intros W; pose proof (runs_d_bd_step L keep _ _ _ (op_iq o) n W) as H.
    pose proof (sim_d_bg_step o n g (emb g) eq_refl) as S; unfold runs in *.
    destruct (d_bg_step cmp keep o n g) as [x m g'|g'|g'],
      (d_bd_step cmp keep (op_iq o) n (emb g)) as [y m' d'|d'|d']; try contradiction.
    - destruct S as (-> & _ & ->), H as [H1 H2]; rewrite spec_step_iq in H2; split; [|exact H2].
      rewrite answer_iq in H1; now apply out_iq_inj.
    - unfold gd in S; subst; destruct H as (s1 & lost1 & H1 & H2).
      apply cut_iq in H2 as (s2 & lost2 & -> & -> & H2); exists s2, lost2; auto.
  Qed.

  Lemma wg_reads (g : @bgraph R) s lost :
    wg_rep (cmp:=cmp) g s lost ->
    bg_len g = length s + length lost /\ bg_iter g = Some (sorted_elements tcmp s) /\
    exists vs, bg_resources_iter g = Some vs /\ increasing cmp vs /\
      forall v, bg_contains_resource cmp g v = Some (mem cmp v vs).
  Proof.
    intros W; destruct (wd_reads L _ _ _ W) as (A & B & vs & C & D & F).
    rewrite emb_len, !map_length in A; split; [exact A|].
    rewrite emb_iter, sorted_iq in B; split.
    - destruct (bg_iter g) as [x|]; cbn in B; [|discriminate]; f_equal.
      injection B as B; now apply map_iq_inj.
    - exists vs; split; [exact C|]; split; [exact D|]; intros v; rewrite <- emb_contains_resource; apply F.
  Qed.

  Lemma point_d_bg_remove g s lost t :
    wg_rep (cmp:=cmp) g s lost ->
    point (d_bg_remove cmp t) g (fun b g' => b = mem tcmp t s /\ wg_rep (cmp:=cmp) g' (del tcmp t s) lost)
      (fun g' => wg_rep (cmp:=cmp) g' (del tcmp t s) lost).
  Proof.
    intros W; destruct (point_d_remove_rep L _ _ _ (iq t) W) as [k H]; exists k; intros n.
    pose proof (sim_d_bg_remove t n g (emb g) eq_refl) as S; destruct (H n) as [A1 A2]; split; intros Hn.
    - rewrite (A1 Hn) in S; destruct (d_bg_remove cmp t n g) as [x m g'|g'|g']; try contradiction.
      apply emb_inj in S; now subst.
    - specialize (A2 Hn); unfold runs in *; rewrite mem_iq, del_iq in A2.
      destruct (d_bg_remove cmp t n g) as [x m g'|g'|g'],
        (d_bd_remove cmp (iq t) n (emb g)) as [y m' d'|d'|d']; try contradiction.
      + destruct S as (-> & _ & ->); exact A2.
      + unfold gd in S; subst; exact A2.
  Qed.

  Lemma bg_dropped l :
    exists ys g s lost vs,
      m_run (d_bg_step cmp keep) bg_new l = Some (ys, g) /\
      cut_history tcmp [] [] (map fst l) ys s lost /\
      bg_len g = length s + length lost /\ bg_iter g = Some (sorted_elements tcmp s) /\
      bg_resources_iter g = Some vs /\ increasing cmp vs /\
      (forall v, bg_contains_resource cmp g v = Some (mem cmp v vs)) /\
      forall t, turns (d_bg_remove cmp t) g (fun g' =>
        bg_len g' = length (del tcmp t s) + length lost /\
        bg_iter g' = Some (sorted_elements tcmp (del tcmp t s))).
  Proof.
    destruct (cut_history_of (cmp:=tcmp) _ _ runs_d_bg_step l _ _ _ (wg_rep_new (cmp:=cmp)))
      as (ys & g & s & lost & E & Hh & W).
    destruct (wg_reads _ _ _ W) as (A & B & vs & C & D & F).
    exists ys, g, s, lost, vs.
    split; [exact E|]; split; [exact Hh|]; split; [exact A|]; split; [exact B|].
    split; [exact C|]; split; [exact D|]; split; [exact F|].
    intros t; assert (G : forall g', wg_rep (cmp:=cmp) g' (del tcmp t s) lost ->
        bg_len g' = length (del tcmp t s) + length lost /\
        bg_iter g' = Some (sorted_elements tcmp (del tcmp t s))).
    { intros g' W'; destruct (wg_reads _ _ _ W') as (A' & B' & _); auto. }
    eapply point_turns; [apply (point_d_bg_remove _ _ _ t W)| |exact G].
    intros b g' [_ W']; auto.
  Qed.
End Graph.
