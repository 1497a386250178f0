(** How many times the destructor of resources is called. *)
From Coq Require Import List Bool Arith Lia Permutation.
Import ListNotations.
From Verif Require Import Base SlabModel TripleModel SetSpec ContainerSpec IndexedSpec Machine BaseProofs BResourceModel
  BResourceProofs BTreeDatasetModel BTreeDatasetProofs BTreeGraphModel BTreeGraphProofs IResourceModel IResourceProofs
  IndexedDatasetModel IndexedDatasetProofs IndexedHistoryProofs IndexedRunProofs IndexedGraphModel IndexedGraphProofs
  IndexedConvertProofs
  CrashModel CrashSpec ICrashSpec CrashProofs BCrashProofs CrashAgree BGCrashProofs CrashHistoryProofs HeapProofs
  ICrashModel ICrashProofs ICrashReads ICrashAgree IGCrashProofs ICrashConvert ICrashHistory DropSpec DropModel DropProofs
  DropIProofs.

(** ** Rules *)
Section Rules.
  Context {St : Type} (held : St -> nat) (I : St -> Prop).

  Lemma costs_agrees {A} (a : act St A) s x s' : agrees a s (Some (x, s')) <-> exists k, costs a s k x s'.
  Proof. reflexivity. Qed.

  Lemma costs_then {A B} (a : act St A) (f : A -> act St B) s k j x s' y s'' :
    costs a s k x s' -> costs (f x) s' j y s'' -> costs (andthen a f) s (k + j) y s''.
  Proof.
    intros Hk Hj n; unfold andthen; split; intros Hn.
    - destruct (lt_dec n k) as [H|H].
      + destruct (Hk n) as [A1 _]; destruct (A1 H) as (s1 & ->); eauto.
      + destruct (Hk n) as [_ A2]; rewrite A2 by lia; apply Hj; lia.
    - destruct (Hk n) as [_ A2]; rewrite A2 by lia.
      destruct (Hj (n - k)) as [_ B2]; rewrite B2 by lia; f_equal; lia.
  Qed.

  Lemma costs_ret {A} (x : A) (s : St) : costs (ret x) s 0 x s.
  Proof. intros n; split; [lia|]; intros _; cbn; now rewrite Nat.sub_0_r. Qed.

  Lemma costs_called {A} (x : A) (s : St) : costs (called x) s 1 x s.
  Proof.
    intros n; split; intros Hn; [assert (n = 0) as -> by lia; cbn; eauto|].
    destruct n; [lia|]; cbn; f_equal; lia.
  Qed.

  Lemma costs_drops k (s : St) : costs (drops k) s k tt s.
  Proof.
    induction k as [|k IH]; cbn [drops]; [apply costs_ret|].
    apply (costs_then _ _ _ 1 k tt s); [apply costs_called|exact IH].
  Qed.

  (** [a] is [b] with destructors; [c] values are given to the container. *)
  Definition spends {A} (c : nat) (a b : act St A) (s : St) : Prop :=
    (exists k j x s', costs b s k x s' /\ costs a s (k + j) x s' /\ I s' /\ j + held s' = c + held s) \/
    agrees b s None.

  Lemma spends_ret {A} (x : A) s : I s -> spends 0 (ret x) (ret x) s.
  Proof. intros H; left; exists 0, 0, x, s; repeat split; auto using costs_ret; intros; apply costs_ret; auto. Qed.

  Lemma spends_then {A B} c1 c2 (a b : act St A) (f g : A -> act St B) s :
    spends c1 a b s -> (forall x s', I s' -> spends c2 (f x) (g x) s') ->
    spends (c1 + c2) (andthen a f) (andthen b g) s.
  Proof.
    intros [(k & j & x & s' & B1 & A1 & H1 & E1)|N] H; [|right; now apply agrees_then_none].
    destruct (H x s' H1) as [(k2 & j2 & y & s2 & B2 & A2 & H2 & E2)|N].
    - left; exists (k + k2), (j + j2), y, s2; split; [eapply costs_then; eauto|].
      split; [|split; [exact H2|lia]].
      replace (k + k2 + (j + j2)) with ((k + j) + (k2 + j2)) by lia; eapply costs_then; eauto.
    - right; eapply agrees_then; [apply costs_agrees; eauto|exact N].
  Qed.

  Lemma spends_get {B} c (f g : St -> act St B) s :
    spends c (f s) (g s) s -> spends c (andthen get f) (andthen get g) s.
  Proof. auto. Qed.

  Lemma spends_put {B} c t (f g : unit -> act St B) s :
    held t = held s -> spends c (f tt) (g tt) t -> spends c (andthen (put t) f) (andthen (put t) g) s.
  Proof.
    intros H [(k & j & x & s' & B1 & A1 & H1 & E1)|N]; [left|right; exact N].
    exists k, j, x, s'; rewrite <- H; auto.
  Qed.

  Lemma spends_put_end t s : I t -> held t = held s -> spends 0 (put t) (put t) s.
  Proof.
    intros H E; left; exists 0, 0, tt, t.
    assert (C : costs (put t) s 0 tt t) by (intros n; split; [lia|]; intros _; cbn; now rewrite Nat.sub_0_r).
    split; [exact C|]; split; [exact C|]; split; [exact H|]; cbn; now symmetry.
  Qed.

  Lemma spends_need {A B} c (x : option A) (f g : A -> act St B) s :
    (forall y, x = Some y -> spends c (f y) (g y) s) -> spends c (andthen (need x) f) (andthen (need x) g) s.
  Proof. intros H; destruct x as [x|]; [exact (H x eq_refl)|right; apply agrees_need_none]. Qed.

  Lemma spends_quiet {A B} c (a : act St A) r (f g : A -> act St B) s :
    quiet a r -> (forall y, r = Some y -> spends c (f y) (g y) s) -> spends c (andthen a f) (andthen a g) s.
  Proof.
    intros [k0 Q] H; destruct r as [x|].
    - assert (C : costs a s k0 x s).
      { intros n; rewrite Q; split; intros Hn.
        - apply Nat.ltb_lt in Hn; rewrite Hn; eauto.
        - apply Nat.ltb_ge in Hn; now rewrite Hn. }
      destruct (H x eq_refl) as [(k & j & y & s' & B1 & A1 & H1 & E1)|N].
      + left; exists (k0 + k), j, y, s'; split; [eapply costs_then; eauto|].
        split; [|auto]; rewrite <- Nat.add_assoc; eapply costs_then; eauto.
      + right; eapply agrees_then; [apply costs_agrees; exists k0; exact C|exact N].
    - right; apply agrees_then_none, agrees_quiet_none; now exists k0.
  Qed.

  Lemma spends_same {A} (a : act St A) r s :
    agrees a s r -> match r with Some (_, s') => I s' /\ held s' = held s | None => True end -> spends 0 a a s.
  Proof.
    destruct r as [[x s']|]; [|right; assumption]; intros [k H] [Hi E]; left.
    exists k, 0, x, s'; rewrite Nat.add_0_r; repeat (split; [assumption|]); cbn; exact E.
  Qed.

  Lemma spends_drops {A} c (a : act St A) s r count :
    agrees a s r ->
    (forall x s', r = Some (x, s') -> I s' /\ count x + held s' = c + held s) ->
    spends c (andthen a (fun x => andthen (drops (count x)) (fun _ => ret x))) a s.
  Proof.
    destruct r as [[x s']|]; [|right; assumption]; intros [k H] Hc.
    destruct (Hc _ _ eq_refl) as [Hi E]; left; exists k, (count x), x, s'; split; [exact H|].
    split; [|auto]; eapply costs_then; [exact H|].
    pose proof (costs_then (drops (count x)) (fun _ => ret x) s' (count x) 0 tt s' x s'
      (costs_drops _ _) (costs_ret _ _)) as C0; now rewrite Nat.add_0_r in C0.
  Qed.

  Lemma spends_cast {A} c c' (a b : act St A) s : c = c' -> spends c a b s -> spends c' a b s.
  Proof. now intros ->. Qed.

  (** Histories. *)
  Context {X : Type} (count : X -> nat) (dstep mstep : op X -> act St (out X))
    (step : St -> op X -> option (out X * St)).
  Hypothesis Hs : forall s o, I s -> spends (given count o) (dstep o) (mstep o) s.
  Hypothesis Ha : forall s o, agrees (mstep o) s (step s o).

  Lemma spends_run l : forall s ys s', I s ->
    run step s l = Some (ys, s') ->
    exists k j, costs (all_of mstep l) s k ys s' /\ costs (all_of dstep l) s (k + j) ys s' /\ I s' /\
      j + held s' = all_given count l + held s.
  Proof.
    induction l as [|o l IH]; intros s ys s' H E; cbn [run all_of all_given fold_right] in *.
    - injection E as <- <-; exists 0, 0; auto using costs_ret.
    - specialize (Ha s o); destruct (step s o) as [[x s1]|]; [|discriminate].
      destruct (run step s1 l) as [[xs s2]|] eqn:Er; [|discriminate]; injection E as <- <-.
      destruct (Hs s o H) as [(k & j & y & s3 & B1 & A1 & H1 & E1)|N];
        [|pose proof (agrees_unique _ _ _ _ Ha N); discriminate].
      assert (Some (x, s1) = Some (y, s3)) as U by (eapply agrees_unique; [exact Ha|apply costs_agrees; eauto]).
      injection U as -> ->.
      destruct (IH s3 xs s2 H1 Er) as (k2 & j2 & B2 & A2 & H2 & E2).
      exists (k + k2), (j + j2); split; [|split; [|split; [exact H2|]]].
      + eapply costs_then; [exact B1|]; replace k2 with (k2 + 0) by lia; eapply costs_then; [exact B2|apply costs_ret].
      + replace (k + k2 + (j + j2)) with ((k + j) + (k2 + j2 + 0)) by lia.
        eapply costs_then; [exact A1|]; eapply costs_then; [exact A2|apply costs_ret].
      + unfold all_given in *; lia.
  Qed.
End Rules.

Open Scope act_scope.

(** ** [BTreeDataset] *)
Section Dataset.
  Context {R : Type} (cmp : R -> R -> comparison) (keep : bool).
  Notation bheld := (fun d : @bdataset R => slen (bd_resources d)).
  Notation bwf := (fun d : @bdataset R => swf (bd_resources d)).

  Lemma b_acquire_held rs ri v f k (rs' : slab (bresource R)) ri' : swf rs ->
    b_acquire cmp keep rs ri v f = Some (k, rs', ri') ->
    swf rs' /\ slen rs' = (match f with Some _ => 0 | None => 1 end) + slen rs.
  Proof.
    intros W; unfold b_acquire; destruct f as [i|].
    - destruct (sget rs i) as [r|] eqn:Er; cbn; [|discriminate]; intros E; inv E.
      split; [eapply swf_sset; eauto|eapply slen_sset; eauto].
    - destruct (bt_insert keep _ _ _) as [ri1|]; cbn; [|discriminate]; intros E; inv E.
      split; [now apply swf_sinsert|now apply slen_sinsert].
  Qed.

  Lemma b_release_held {K} rcmp rs ri i (k : K) (rs' : slab (bresource R)) ri' : swf rs ->
    b_release rcmp rs ri i k = Some (rs', ri') ->
    swf rs' /\ slen rs = (match sget rs' i with Some _ => 0 | None => 1 end) + slen rs'.
  Proof.
    intros W; unfold b_release; destruct (sget rs i) as [r|] eqn:Er; cbn [bind]; [|discriminate].
    destruct (br_occ r) as [|n]; [discriminate|].
    assert (W1 : swf (sset rs i (BRes (br_value r) n))) by (eapply swf_sset; eauto).
    assert (L1 : slen (sset rs i (BRes (br_value r) n)) = slen rs) by (eapply slen_sset; eauto).
    cbv zeta; destruct (n =? 0).
    - destruct (bt_remove _ k ri) as [[y ri1]|]; cbn [bind]; [|discriminate].
      destruct (sremove (sset rs i (BRes (br_value r) n)) i) as [[z rs2]|] eqn:Es; cbn [bind]; [|discriminate].
      intros E; inv E; split; [eapply swf_sremove; eauto|].
      rewrite (sget_sremove _ _ _ _ i Es), Nat.eqb_refl, <- L1; now rewrite (slen_sremove _ _ _ _ Es).
    - intros E; inv E; split; [exact W1|].
      rewrite (sget_sset _ _ _ _ _ Er), Nat.eqb_refl; now rewrite L1.
  Qed.

  Lemma bd_insert_held d q b d' : bwf d -> bd_insert cmp keep d q = Some (b, d') ->
    bwf d' /\
    not_stored (b_index_of_resource cmp (bd_resources d) (bd_ri d)) b (quad_owns q) + bheld d' =
      quad_values q + bheld d.
  Proof.
    intros W; unfold bd_insert; destruct (bd_contains cmp d q) as [[]|]; cbn [bind]; [| |discriminate].
    { intros E; inv E; split; [exact W|]; unfold not_stored, quad_owns, quad_values; destruct (q_g q); reflexivity. }
    cbv zeta; unfold not_stored, quad_owns, quad_values.
    destruct (b_index_of_resource cmp (bd_resources d) (bd_ri d) (q_s q)) as [fs|] eqn:Fs; cbn [bind]; [|discriminate].
    destruct (b_index_of_resource cmp (bd_resources d) (bd_ri d) (q_p q)) as [fp|] eqn:Fp; cbn [bind]; [|discriminate].
    destruct (b_index_of_resource cmp (bd_resources d) (bd_ri d) (q_o q)) as [fo|] eqn:Fo; cbn [bind]; [|discriminate].
    destruct (q_g q) as [g|].
    - destruct (b_index_of_resource cmp (bd_resources d) (bd_ri d) g) as [fg|] eqn:Fg; cbn [bind]; [|discriminate].
      destruct (b_acquire cmp keep _ _ _ fs) as [[[s_i rs1] ri1]|] eqn:E1; cbn [bind]; [|discriminate].
      destruct (b_acquire cmp keep rs1 _ _ fp) as [[[p_i rs2] ri2]|] eqn:E2; cbn [bind]; [|discriminate].
      destruct (b_acquire cmp keep rs2 _ _ fo) as [[[o_i rs3] ri3]|] eqn:E3; cbn [bind]; [|discriminate].
      destruct (b_acquire cmp keep rs3 _ _ fg) as [[[g_i rs4] ri4]|] eqn:E4; cbn [bind]; [|discriminate].
      destruct (bt_insert keep _ _ _) as [qi|]; cbn [bind]; [|discriminate].
      intros E; inv E; cbn [bd_resources].
      destruct (b_acquire_held _ _ _ _ _ _ _ W E1) as [W1 L1], (b_acquire_held _ _ _ _ _ _ _ W1 E2) as [W2 L2],
        (b_acquire_held _ _ _ _ _ _ _ W2 E3) as [W3 L3], (b_acquire_held _ _ _ _ _ _ _ W3 E4) as [W4 L4].
      split; [exact W4|]; cbn [filter]; rewrite Fs, Fp, Fo, Fg.
      destruct fs, fp, fo, fg; cbn [length]; lia.
    - destruct (b_acquire cmp keep _ _ _ fs) as [[[s_i rs1] ri1]|] eqn:E1; cbn [bind]; [|discriminate].
      destruct (b_acquire cmp keep rs1 _ _ fp) as [[[p_i rs2] ri2]|] eqn:E2; cbn [bind]; [|discriminate].
      destruct (b_acquire cmp keep rs2 _ _ fo) as [[[o_i rs3] ri3]|] eqn:E3; cbn [bind]; [|discriminate].
      destruct (bt_insert keep _ _ _) as [qi|]; cbn [bind]; [|discriminate].
      intros E; inv E; cbn [bd_resources].
      destruct (b_acquire_held _ _ _ _ _ _ _ W E1) as [W1 L1], (b_acquire_held _ _ _ _ _ _ _ W1 E2) as [W2 L2],
        (b_acquire_held _ _ _ _ _ _ _ W2 E3) as [W3 L3].
      split; [exact W3|]; cbn [filter]; rewrite Fs, Fp, Fo.
      destruct fs, fp, fo; cbn [length]; lia.
  Qed.

  Lemma spends_bd_release {K} rcmp' (rcmp : slab (bresource R) -> nat -> K -> option comparison) i (k : K) d :
    (forall rs j, quiet (rcmp' (br_val rs) j k) (rcmp rs j k)) -> bwf d ->
    spends bheld bwf 0 (d_bd_release rcmp' i k) (m_bd_table (m_b_release rcmp' i k)) d.
  Proof.
    intros H W.
    pose proof (agrees_zoom (fun d => (bd_resources d, bd_ri d))
      (fun '(rs, ri) d => BDataset rs (bd_quads d) ri (bd_qi d)) _ d _
      (agrees_release rcmp' rcmp (bd_resources d) (bd_ri d) i k H)) as A.
    destruct (b_release rcmp (bd_resources d) (bd_ri d) i k) as [[rs ri]|] eqn:E; cbn [option_map] in A;
      [|right; exact A].
    destruct (b_release_held _ _ _ _ _ _ _ W E) as [W1 L1]; destruct A as [c A].
    left; exists c, (match sget rs i with Some _ => 0 | None => 1 end), tt, (BDataset rs (bd_quads d) ri (bd_qi d)).
    split; [exact A|]; split; [|split; [exact W1|cbn; now rewrite L1]].
    eapply costs_then; [exact A|]; intros n.
    change (andthen get ?f n ?s) with (f s n s).
    cbn [bd_resources]; destruct (sget rs i); [apply costs_ret|apply costs_called].
  Qed.

  Lemma spends_bd_remove q d : bwf d -> spends bheld bwf 0 (d_bd_remove cmp q) (m_bd_remove cmp q) d.
  Proof.
    intros W; unfold d_bd_remove, m_bd_remove; apply spends_get.
    eapply spends_quiet; [eapply quiet_m_remove; intros; apply quiet_quad_at_cmp|].
    intros [[i|] qi] _; (apply spends_put; [reflexivity|]); [|apply spends_ret; exact W].
    apply spends_need; intros [x qs] _; apply spends_put; [reflexivity|].
    assert (V : forall i v s, bwf s -> spends bheld bwf 0 (d_bd_release (m_resource_cmp cmp) i v)
        (m_bd_table (m_b_release (m_resource_cmp cmp) i v)) s).
    { intros j v s Ws; apply (spends_bd_release _ (b_resource_cmp cmp)); [|exact Ws].
      intros; apply (quiet_resource_cmp cmp (br_val _)). }
    apply (spends_then _ _ 0 0); [now apply V|]; intros _ s1 W1.
    apply (spends_then _ _ 0 0); [now apply V|]; intros _ s2 W2.
    apply (spends_then _ _ 0 0); [now apply V|]; intros _ s3 W3.
    apply (spends_then _ _ 0 0); [|intros _ s4 W4; now apply spends_ret].
    destruct (q_g x); [|now apply spends_ret].
    apply (spends_bd_release _ (b_resource_index_cmp cmp)); [|exact W3].
    intros; apply (quiet_resource_index_cmp cmp (br_val _)).
  Qed.

  Lemma spends_bd_insert q d : bwf d ->
    spends bheld bwf (quad_values q) (d_bd_insert cmp keep q) (m_bd_insert cmp keep q) d.
  Proof.
    intros W; unfold d_bd_insert.
    pose proof (agrees_bd_insert cmp keep d q) as A.
    apply (spends_drops bheld bwf (quad_values q) (m_bd_insert cmp keep q) d _
      (fun b => not_stored (b_index_of_resource cmp (bd_resources d) (bd_ri d)) b (quad_owns q)) A).
    intros b d' E; now apply bd_insert_held.
  Qed.

  Lemma spends_bd_step o d : bwf d -> spends bheld bwf (given quad_values o) (d_bd_step cmp keep o) (m_bd_step cmp keep o) d.
  Proof.
    intros W.
    assert (Old : forall o, (match o with Insert _ | Remove _ | Extend _ => False | _ => True end) ->
      spends bheld bwf 0 (m_bd_step cmp keep o) (m_bd_step cmp keep o) d).
    { intros o' Ho; apply (spends_same _ _ _ _ _ (agrees_bd_step cmp keep d o')).
      destruct (bd_step cmp keep d o') as [[x d']|] eqn:E; [|exact Logic.I].
      assert (d' = d) as ->; [|auto].
      destruct o'; try contradiction; cbn in E;
        repeat match type of E with bind ?m _ = _ => destruct m; cbn in E; [|discriminate] end; now inv E. }
    destruct o as [q|q|l|q| | | |]; cbn [d_bd_step given]; try (apply Old; exact Logic.I);
      cbn [m_bd_step]; (eapply spends_cast; [apply Nat.add_0_r|]; apply spends_then; [|intros; now apply spends_ret]).
    - now apply spends_bd_insert.
    - now apply spends_bd_remove.
    - clear Old; revert d W; induction l as [|q l IH]; intros d W; cbn [d_bd_extend m_bd_extend fold_right];
        [now apply spends_ret|].
      apply spends_then; [now apply spends_bd_insert|]; intros _ s' W'; apply IH; exact W'.
  Qed.

  Lemma bd_counted ops ys d :
    run (bd_step cmp keep) bd_new ops = Some (ys, d) ->
    exists k j,
      costs (all_of (m_bd_step cmp keep) ops) bd_new k ys d /\
      costs (all_of (d_bd_step cmp keep) ops) bd_new (k + j) ys d /\
      j + slen (bd_resources d) = all_given quad_values ops.
  Proof.
    intros E.
    destruct (spends_run bheld bwf quad_values _ _ _ (fun s o => spends_bd_step o s) (agrees_bd_step cmp keep)
      ops bd_new ys d swf_new E) as (k & j & A & B & _ & C).
    exists k, j; rewrite Nat.add_0_r in C; auto.
  Qed.
End Dataset.

(** ** [BTreeGraph] *)
Section Graph.
  Context {R : Type} (cmp : R -> R -> comparison) (keep : bool).
  Notation gheld := (fun g : @bgraph R => slen (bg_resources g)).
  Notation gwf := (fun g : @bgraph R => swf (bg_resources g)).

  Lemma costs_emb {A B} (h : A -> B -> Prop) (Hinj : forall x x' y, h x y -> h x' y -> x = x') (a : act (@bgraph R) A) (b : act (@bdataset R) B) g k y d :
    sim gd h a b -> costs b (emb g) k y d -> exists x g', costs a g k x g' /\ h x y /\ d = emb g'.
  Proof.
    intros S C.
    assert (Q : exists x g', a k g = Done x 0 g' /\ h x y /\ d = emb g').
    { pose proof (S k g (emb g) eq_refl) as Sk; destruct (C k) as [_ C2]; rewrite (C2 (le_n k)) in Sk.
      destruct (a k g) as [x m g'| |]; try contradiction; destruct Sk as (H1 & H2 & H3); unfold gd in H3.
      exists x, g'; rewrite H2, Nat.sub_diag; auto. }
    destruct Q as (x & g' & E & Hx & ->); exists x, g'; split; [|auto].
    intros n; pose proof (S n g (emb g) eq_refl) as Sn; destruct (C n) as [C1 C2]; split; intros Hn.
    - destruct (C1 Hn) as (t & Et); rewrite Et in Sn; destruct (a n g); try contradiction; eauto.
    - rewrite (C2 Hn) in Sn; destruct (a n g) as [x2 m g2| |]; try contradiction.
      destruct Sn as (H1 & -> & H3); rewrite (Hinj _ _ _ H1 Hx); apply emb_inj in H3; now subst.
  Qed.

  Lemma agrees_emb_none {A B} (h : A -> B -> Prop) (a : act (@bgraph R) A) (b : act (@bdataset R) B) g :
    sim gd h a b -> agrees b (emb g) None -> agrees a g None.
  Proof.
    intros S [k C]; exists k; intros n; pose proof (S n g (emb g) eq_refl) as Sn.
    destruct (C n) as [C1 C2]; split; intros Hn.
    - destruct (C1 Hn) as (t & Et); rewrite Et in Sn; destruct (a n g); try contradiction; eauto.
    - destruct (C2 Hn) as (t & Et); rewrite Et in Sn; destruct (a n g); try contradiction; eauto.
  Qed.

  Lemma given_iq o : given quad_values (op_iq o) = given (triple_values (R:=R)) o.
  Proof. destruct o; try reflexivity; cbn; induction l; cbn in *; congruence. Qed.

  Lemma spends_bg_step o g : gwf g -> spends gheld gwf (given triple_values o) (d_bg_step cmp keep o) (m_bg_step cmp keep o) g.
  Proof.
    intros W; assert (Hinj : forall x x' (y : out (quad R)), oq x y -> oq x' y -> x = x').
    { intros x x' y H H'; unfold oq in *; apply out_iq_inj; congruence. }
    destruct (spends_bd_step cmp keep (op_iq o) (emb g) W) as [(k & j & y & d & B1 & A1 & H1 & E1)|N].
    - destruct (costs_emb _ Hinj _ _ _ _ _ _ (sim_bg_step (cmp:=cmp) keep o) B1) as (x & g' & B2 & Hx & ->).
      destruct (costs_emb _ Hinj _ _ _ _ _ _ (sim_d_bg_step (cmp:=cmp) keep o) A1) as (x2 & g2 & A2 & Hx2 & E2).
      apply emb_inj in E2; subst g2; rewrite (Hinj _ _ _ Hx2 Hx) in A2.
      left; exists k, j, x, g'; split; [exact B2|]; split; [exact A2|]; split; [exact H1|].
      rewrite <- given_iq; exact E1.
    - right; eapply agrees_emb_none; [apply sim_bg_step|exact N].
  Qed.

  Lemma bg_counted ops ys g :
    run (bg_step cmp keep) bg_new ops = Some (ys, g) ->
    exists k j,
      costs (all_of (m_bg_step cmp keep) ops) bg_new k ys g /\
      costs (all_of (d_bg_step cmp keep) ops) bg_new (k + j) ys g /\
      j + slen (bg_resources g) = all_given triple_values ops.
  Proof.
    intros E.
    destruct (spends_run gheld gwf triple_values _ _ _ (fun s o => spends_bg_step o s) (agrees_bg_step (cmp:=cmp) keep)
      ops bg_new ys g swf_new E) as (k & j & A & B & _ & C).
    exists k, j; rewrite Nat.add_0_r in C; auto.
  Qed.
End Graph.

(** ** Indexed containers *)
Section Indexed.
  Context {R : Type} (cmp : R -> R -> comparison) (keep : bool).
  Notation iheld := (fun d : @idataset R => slen (id_resources d)).
  Notation iwf := (fun d : @idataset R => swf (id_resources d)).
  Notation jheld := (fun d : @igraph R => slen (ig_resources d)).
  Notation jwf := (fun d : @igraph R => swf (ig_resources d)).

  Lemma i_acquire_held rs ri p i v f k (rs' : slab (iresource R)) ri' : swf rs ->
    i_acquire cmp keep rs ri p i v f = Some (k, rs', ri') ->
    swf rs' /\ slen rs' = (match f with Some _ => 0 | None => 1 end) + slen rs.
  Proof.
    intros W; unfold i_acquire; destruct f as [j|].
    - destruct (sget rs j) as [r|] eqn:Er; cbn; [|discriminate]; intros E; inv E.
      split; [eapply swf_sset; eauto|eapply slen_sset; eauto].
    - destruct (bt_insert keep _ _ _) as [ri1|]; cbn; [|discriminate]; intros E; inv E.
      split; [now apply swf_sinsert|now apply slen_sinsert].
  Qed.

  Lemma i_release_held {K} rcmp rs ri p i k (key : K) (rs' : slab (iresource R)) ri' gone : swf rs ->
    i_release rcmp rs ri p i k key = Some (rs', ri', gone) ->
    swf rs' /\ slen rs = (if gone then 1 else 0) + slen rs'.
  Proof.
    intros W; unfold i_release; destruct (sget rs k) as [r|] eqn:Er; cbn [bind]; [|discriminate].
    set (r' := ir_upd p (ns_remove i) r).
    assert (W1 : swf (sset rs k r')) by (eapply swf_sset; eauto).
    assert (L1 : slen (sset rs k r') = slen rs) by (eapply slen_sset; eauto).
    cbv zeta; destruct (ir_is_empty r').
    - destruct (bt_remove _ key ri) as [[y ri1]|]; cbn [bind]; [|discriminate].
      destruct (sremove (sset rs k r') k) as [[z rs2]|] eqn:Es; cbn [bind]; [|discriminate].
      intros E; inv E; split; [eapply swf_sremove; eauto|].
      rewrite <- L1; now rewrite (slen_sremove _ _ _ _ Es).
    - intros E; inv E; split; [exact W1|]; now rewrite L1.
  Qed.

  Lemma id_insert_held d q b d' : iwf d -> id_insert cmp keep d q = Some (b, d') ->
    iwf d' /\
    not_stored (i_index_of_resource cmp (id_resources d) (id_ri d)) b (quad_owns q) + iheld d' =
      quad_values q + iheld d.
  Proof.
    intros W; unfold id_insert; destruct (id_contains cmp d q) as [[]|]; cbn [bind]; [| |discriminate].
    { intros E; inv E; split; [exact W|]; unfold not_stored, quad_owns, quad_values; destruct (q_g q); reflexivity. }
    cbv zeta; unfold not_stored, quad_owns, quad_values.
    destruct (i_index_of_resource cmp (id_resources d) (id_ri d) (q_s q)) as [fs|] eqn:Fs; cbn [bind]; [|discriminate].
    destruct (i_index_of_resource cmp (id_resources d) (id_ri d) (q_p q)) as [fp|] eqn:Fp; cbn [bind]; [|discriminate].
    destruct (i_index_of_resource cmp (id_resources d) (id_ri d) (q_o q)) as [fo|] eqn:Fo; cbn [bind]; [|discriminate].
    destruct (q_g q) as [g|].
    - destruct (i_index_of_resource cmp (id_resources d) (id_ri d) g) as [fg|] eqn:Fg; cbn [bind]; [|discriminate].
      destruct (i_acquire cmp keep _ _ _ _ _ fs) as [[[s_i rs1] ri1]|] eqn:E1; cbn [bind]; [|discriminate].
      destruct (i_acquire cmp keep rs1 _ _ _ _ fp) as [[[p_i rs2] ri2]|] eqn:E2; cbn [bind]; [|discriminate].
      destruct (i_acquire cmp keep rs2 _ _ _ _ fo) as [[[o_i rs3] ri3]|] eqn:E3; cbn [bind]; [|discriminate].
      destruct (i_acquire cmp keep rs3 _ _ _ _ fg) as [[[g_i rs4] ri4]|] eqn:E4; cbn [bind]; [|discriminate].
      destruct (bt_insert keep _ _ _) as [qi|]; cbn [bind]; [|discriminate].
      intros E; inv E; cbn [id_resources].
      destruct (i_acquire_held _ _ _ _ _ _ _ _ _ W E1) as [W1 L1], (i_acquire_held _ _ _ _ _ _ _ _ _ W1 E2) as [W2 L2],
        (i_acquire_held _ _ _ _ _ _ _ _ _ W2 E3) as [W3 L3], (i_acquire_held _ _ _ _ _ _ _ _ _ W3 E4) as [W4 L4].
      split; [exact W4|]; cbn [filter]; rewrite Fs, Fp, Fo, Fg.
      destruct fs, fp, fo, fg; cbn [length]; lia.
    - destruct (i_acquire cmp keep _ _ _ _ _ fs) as [[[s_i rs1] ri1]|] eqn:E1; cbn [bind]; [|discriminate].
      destruct (i_acquire cmp keep rs1 _ _ _ _ fp) as [[[p_i rs2] ri2]|] eqn:E2; cbn [bind]; [|discriminate].
      destruct (i_acquire cmp keep rs2 _ _ _ _ fo) as [[[o_i rs3] ri3]|] eqn:E3; cbn [bind]; [|discriminate].
      destruct (bt_insert keep _ _ _) as [qi|]; cbn [bind]; [|discriminate].
      intros E; inv E; cbn [id_resources].
      destruct (i_acquire_held _ _ _ _ _ _ _ _ _ W E1) as [W1 L1], (i_acquire_held _ _ _ _ _ _ _ _ _ W1 E2) as [W2 L2],
        (i_acquire_held _ _ _ _ _ _ _ _ _ W2 E3) as [W3 L3].
      split; [exact W3|]; cbn [filter]; rewrite Fs, Fp, Fo.
      destruct fs, fp, fo; cbn [length]; lia.
  Qed.

  Lemma ig_insert_held d t b d' : jwf d -> ig_insert cmp keep d t = Some (b, d') ->
    jwf d' /\
    not_stored (i_index_of_resource cmp (ig_resources d) (ig_ri d)) b (triple_owns t) + jheld d' =
      triple_values t + jheld d.
  Proof.
    intros W; unfold ig_insert; destruct (ig_contains cmp d t) as [[]|]; cbn [bind]; [| |discriminate].
    { intros E; inv E; split; [exact W|reflexivity]. }
    cbv zeta; unfold not_stored, triple_owns, triple_values.
    destruct (i_index_of_resource cmp (ig_resources d) (ig_ri d) (t_s t)) as [fs|] eqn:Fs; cbn [bind]; [|discriminate].
    destruct (i_index_of_resource cmp (ig_resources d) (ig_ri d) (t_p t)) as [fp|] eqn:Fp; cbn [bind]; [|discriminate].
    destruct (i_index_of_resource cmp (ig_resources d) (ig_ri d) (t_o t)) as [fo|] eqn:Fo; cbn [bind]; [|discriminate].
    destruct (i_acquire cmp keep _ _ _ _ _ fs) as [[[s_i rs1] ri1]|] eqn:E1; cbn [bind]; [|discriminate].
    destruct (i_acquire cmp keep rs1 _ _ _ _ fp) as [[[p_i rs2] ri2]|] eqn:E2; cbn [bind]; [|discriminate].
    destruct (i_acquire cmp keep rs2 _ _ _ _ fo) as [[[o_i rs3] ri3]|] eqn:E3; cbn [bind]; [|discriminate].
    destruct (bt_insert keep _ _ _) as [qi|]; cbn [bind]; [|discriminate].
    intros E; inv E; cbn [ig_resources].
    destruct (i_acquire_held _ _ _ _ _ _ _ _ _ W E1) as [W1 L1], (i_acquire_held _ _ _ _ _ _ _ _ _ W1 E2) as [W2 L2],
      (i_acquire_held _ _ _ _ _ _ _ _ _ W2 E3) as [W3 L3].
    split; [exact W3|]; cbn [filter]; rewrite Fs, Fp, Fo.
    destruct fs, fp, fo; cbn [length]; lia.
  Qed.

  Lemma costs_gone {St} (gone : bool) (s : St) :
    costs (_ <- (if gone then called tt else ret tt) ;; ret gone) s (if gone then 1 else 0) gone s.
  Proof.
    rewrite <- (Nat.add_0_r (if gone then 1 else 0)); eapply costs_then; [|apply costs_ret].
    destruct gone; [apply costs_called|apply costs_ret].
  Qed.

  Lemma spends_id_release p i k d : iwf d ->
    spends iheld iwf 0 (d_id_release cmp p i k) (m_id_table (m_i_release (m_resource_index_cmp cmp) p i k k)) d.
  Proof.
    intros W.
    pose proof (agrees_zoom (fun d => (id_resources d, id_ri d))
      (fun '(rs, ri) d => IDataset rs (id_quads d) ri (id_qi d) (id_s d) (id_p d) (id_o d) (id_dg d) (id_ng d)) _ d _
      (agrees_i_release (m_resource_index_cmp cmp) (i_resource_index_cmp cmp) (id_resources d) (id_ri d) p i k k
        (fun rs j => quiet_idx cmp k rs j))) as A.
    destruct (i_release (i_resource_index_cmp cmp) (id_resources d) (id_ri d) p i k k) as [[[rs ri] gone]|] eqn:E;
      cbn [option_map] in A; [|right; exact A].
    destruct (i_release_held _ _ _ _ _ _ _ _ _ _ W E) as [W1 L1]; destruct A as [c A].
    left; eexists c, (if gone then 1 else 0), gone, _.
    split; [exact A|]; split; [|split; [exact W1|cbn; now rewrite L1]].
    eapply costs_then; [exact A|apply costs_gone].
  Qed.

  Lemma spends_ig_release p i k v d : jwf d ->
    spends jheld jwf 0 (d_ig_release cmp p i k v) (m_ig_table (m_i_release (m_resource_cmp cmp) p i k v)) d.
  Proof.
    intros W.
    pose proof (agrees_zoom (fun d => (ig_resources d, ig_ri d))
      (fun '(rs, ri) d => IGraphS rs (ig_triples d) ri (ig_ti d) (ig_s d) (ig_p d) (ig_o d)) _ d _
      (agrees_i_release (m_resource_cmp cmp) (i_resource_cmp cmp) (ig_resources d) (ig_ri d) p i k v
        (fun rs j => quiet_val cmp v rs j))) as A.
    destruct (i_release (i_resource_cmp cmp) (ig_resources d) (ig_ri d) p i k v) as [[[rs ri] gone]|] eqn:E;
      cbn [option_map] in A; [|right; exact A].
    destruct (i_release_held _ _ _ _ _ _ _ _ _ _ W E) as [W1 L1]; destruct A as [c A].
    left; eexists c, (if gone then 1 else 0), gone, _.
    split; [exact A|]; split; [|split; [exact W1|cbn; now rewrite L1]].
    eapply costs_then; [exact A|apply costs_gone].
  Qed.

  Lemma spends_id_remove q d : iwf d -> spends iheld iwf 0 (d_id_remove cmp q) (m_id_remove cmp q) d.
  Proof.
    intros W; unfold d_id_remove, m_id_remove; apply spends_get.
    eapply spends_quiet; [eapply quiet_m_remove; intros; apply quiet_quad_at_cmp|].
    intros [[i|] qi] _; (apply spends_put; [reflexivity|]); [|apply spends_ret; exact W].
    apply (spends_then _ _ 0 0); [|intros; now apply spends_ret].
    unfold d_id_remove_by_index, m_id_remove_by_index; apply spends_get.
    apply (spends_then _ _ 0 0); [apply spends_ret; exact W|]; intros _ s0 W0; apply spends_get.
    apply spends_need; intros [x qs] _; apply spends_put; [reflexivity|].
    apply (spends_then _ _ 0 0); [now apply spends_id_release|]; intros _ s1 W1.
    apply (spends_then _ _ 0 0); [now apply spends_id_release|]; intros _ s2 W2.
    apply (spends_then _ _ 0 0); [now apply spends_id_release|]; intros _ s3 W3.
    destruct (q_g x).
    - apply (spends_then _ _ 0 0); [now apply spends_id_release|]; intros gone s4 W4.
      apply spends_get, spends_put_end; [exact W4|reflexivity].
    - apply spends_get, spends_put_end; [exact W3|reflexivity].
  Qed.

  Lemma spends_ig_remove t d : jwf d -> spends jheld jwf 0 (d_ig_remove cmp t) (m_ig_remove cmp t) d.
  Proof.
    intros W; unfold d_ig_remove, m_ig_remove; apply spends_get.
    eapply spends_quiet; [eapply quiet_m_remove; intros; apply quiet_triple_at_cmp|].
    intros [[i|] ti] _; (apply spends_put; [reflexivity|]); [|apply spends_ret; exact W].
    apply spends_need; intros [x ts] _; apply spends_put; [reflexivity|].
    apply (spends_then _ _ 0 0); [now apply spends_ig_release|]; intros _ s1 W1.
    apply (spends_then _ _ 0 0); [now apply spends_ig_release|]; intros _ s2 W2.
    apply (spends_then _ _ 0 0); [now apply spends_ig_release|]; intros _ s3 W3.
    now apply spends_ret.
  Qed.

  Lemma spends_id_insert q d : iwf d ->
    spends iheld iwf (quad_values q) (d_id_insert cmp keep q) (m_id_insert cmp keep q) d.
  Proof.
    intros W; unfold d_id_insert.
    apply (spends_drops iheld iwf (quad_values q) (m_id_insert cmp keep q) d _
      (fun b => not_stored (i_index_of_resource cmp (id_resources d) (id_ri d)) b (quad_owns q))
      (agrees_id_insert cmp keep d q)).
    intros b d' E; now apply id_insert_held.
  Qed.

  Lemma spends_ig_insert t d : jwf d ->
    spends jheld jwf (triple_values t) (d_ig_insert cmp keep t) (m_ig_insert cmp keep t) d.
  Proof.
    intros W; unfold d_ig_insert.
    apply (spends_drops jheld jwf (triple_values t) (m_ig_insert cmp keep t) d _
      (fun b => not_stored (i_index_of_resource cmp (ig_resources d) (ig_ri d)) b (triple_owns t))
      (agrees_ig_insert cmp keep d t)).
    intros b d' E; now apply ig_insert_held.
  Qed.

  Lemma spends_id_step o d : iwf d -> spends iheld iwf (given quad_values o) (d_id_step cmp keep o) (m_id_step cmp keep o) d.
  Proof.
    intros W.
    assert (Old : forall o, (match o with Insert _ | Remove _ | Extend _ => False | _ => True end) ->
      spends iheld iwf 0 (m_id_step cmp keep o) (m_id_step cmp keep o) d).
    { intros o' Ho; apply (spends_same _ _ _ _ _ (agrees_id_step cmp keep d o')).
      destruct (id_set_step cmp keep d o') as [[x d']|] eqn:E; [|exact Logic.I].
      assert (d' = d) as ->; [|auto].
      unfold id_set_step in E; destruct o'; try contradiction; cbn in E;
        repeat match type of E with context [bind ?m _] => destruct m; cbn in E; [|discriminate] end; now inv E. }
    destruct o as [q|q|l|q| | | |]; cbn [d_id_step given]; try (apply Old; exact Logic.I);
      cbn [m_id_step]; (eapply spends_cast; [apply Nat.add_0_r|]; apply spends_then; [|intros; now apply spends_ret]).
    - now apply spends_id_insert.
    - now apply spends_id_remove.
    - clear Old; revert d W; induction l as [|q l IH]; intros d W; cbn [d_id_extend m_id_extend fold_right];
        [now apply spends_ret|].
      apply spends_then; [now apply spends_id_insert|]; intros _ s' W'; apply IH; exact W'.
  Qed.

  Lemma spends_ig_step o d : jwf d -> spends jheld jwf (given triple_values o) (d_ig_step cmp keep o) (m_ig_step cmp keep o) d.
  Proof.
    intros W.
    assert (Old : forall o, (match o with Insert _ | Remove _ | Extend _ => False | _ => True end) ->
      spends jheld jwf 0 (m_ig_step cmp keep o) (m_ig_step cmp keep o) d).
    { intros o' Ho; apply (spends_same _ _ _ _ _ (agrees_ig_step cmp keep d o')).
      destruct (ig_step cmp keep d o') as [[x d']|] eqn:E; [|exact Logic.I].
      assert (d' = d) as ->; [|auto].
      destruct o'; try contradiction; cbn in E;
        repeat match type of E with context [bind ?m _] => destruct m; cbn in E; [|discriminate] end; now inv E. }
    destruct o as [q|q|l|q| | | |]; cbn [d_ig_step given]; try (apply Old; exact Logic.I);
      cbn [m_ig_step]; (eapply spends_cast; [apply Nat.add_0_r|]; apply spends_then; [|intros; now apply spends_ret]).
    - now apply spends_ig_insert.
    - now apply spends_ig_remove.
    - clear Old; revert d W; induction l as [|q l IH]; intros d W; cbn [d_ig_extend m_ig_extend fold_right];
        [now apply spends_ret|].
      apply spends_then; [now apply spends_ig_insert|]; intros _ s' W'; apply IH; exact W'.
  Qed.

  (** Conversions *)
  Lemma i_use_held rs p k i (rs' : slab (iresource R)) : swf rs -> i_use rs p k i = Some rs' -> swf rs' /\ slen rs' = slen rs.
  Proof.
    intros W; unfold i_use; destruct (sget rs k) as [r|] eqn:Er; cbn; [|discriminate]; intros E; inv E.
    split; [eapply swf_sset; eauto|eapply slen_sset; eauto].
  Qed.

  Lemma id_index_held idx : forall (d d' : @idataset R), iwf d -> id_index idx d = Some d' -> iwf d' /\ iheld d' = iheld d.
  Proof.
    induction idx as [|i idx IH]; cbn [id_index]; intros d d' W E; [now inv E|].
    destruct (sget (id_quads d) i) as [q|]; cbn [bind] in E; [|discriminate].
    destruct (i_use (id_resources d) PosS (q_s q) i) as [r1|] eqn:E1; cbn [bind] in E; [|discriminate].
    destruct (i_use r1 PosP (q_p q) i) as [r2|] eqn:E2; cbn [bind] in E; [|discriminate].
    destruct (i_use r2 PosO (q_o q) i) as [r3|] eqn:E3; cbn [bind] in E; [|discriminate].
    destruct (i_use_held _ _ _ _ _ W E1) as [W1 L1], (i_use_held _ _ _ _ _ W1 E2) as [W2 L2],
      (i_use_held _ _ _ _ _ W2 E3) as [W3 L3].
    destruct (q_g q) as [g|].
    - destruct (i_use r3 PosG g i) as [r4|] eqn:E4; cbn [bind] in E; [|discriminate].
      destruct (i_use_held _ _ _ _ _ W3 E4) as [W4 L4].
      apply IH in E as [A B]; [|exact W4]; split; [exact A|]; cbn in B; congruence.
    - cbn [bind] in E; apply IH in E as [A B]; [|exact W3]; split; [exact A|]; cbn in B; congruence.
  Qed.

  Lemma ig_index_held idx : forall (d d' : @igraph R), jwf d -> ig_index idx d = Some d' -> jwf d' /\ jheld d' = jheld d.
  Proof.
    induction idx as [|i idx IH]; cbn [ig_index]; intros d d' W E; [now inv E|].
    destruct (sget (ig_triples d) i) as [q|]; cbn [bind] in E; [|discriminate].
    destruct (ig_use (ig_resources d) PosS (t_s q) i) as [r1|] eqn:E1; cbn [bind] in E; [|discriminate].
    destruct (ig_use r1 PosP (t_p q) i) as [r2|] eqn:E2; cbn [bind] in E; [|discriminate].
    destruct (ig_use r2 PosO (t_o q) i) as [r3|] eqn:E3; cbn [bind] in E; [|discriminate].
    destruct (i_use_held _ _ _ _ _ W E1) as [W1 L1], (i_use_held _ _ _ _ _ W1 E2) as [W2 L2],
      (i_use_held _ _ _ _ _ W2 E3) as [W3 L3].
    apply IH in E as [A B]; [|exact W3]; split; [exact A|]; cbn in B; congruence.
  Qed.

  Lemma collected (rs : slab (bresource R)) :
    let rs' := scollect (map (fun '(i, r) => (i, IRes (br_value r) [] [] [] [])) (spairs rs)) in
    swf rs' /\ slen rs' = slen rs.
  Proof.
    intros rs'.
    assert (C : swf rs' /\ forall k x, sget rs' k = Some x <->
      In (k, x) (map (fun '(i, r) => (i, IRes (br_value r) [] [] [] [])) (spairs rs))).
    { apply scollect_spec; rewrite map_fst_map; apply spairs_keys_sorted. }
    destruct C as [W C]; split; [exact W|].
    rewrite (slen_keys rs' (map fst (spairs rs))).
    - unfold slen; now rewrite map_length.
    - apply strongly_lt_nodup, spairs_keys_sorted.
    - intros i; split.
      + intros Hi; apply in_map_iff in Hi as ([j r] & <- & Hi).
        assert (In (j, IRes (br_value r) [] [] [] []) (map (fun '(i, r) => (i, IRes (br_value r) [] [] [] [])) (spairs rs))).
        { apply in_map_iff; exists (j, r); auto. }
        apply C in H; cbn; congruence.
      + intros Hi; destruct (sget rs' i) as [x|] eqn:Ex; [|congruence].
        apply C, in_map_iff in Ex as ([k y] & Hk & Hin); inv Hk.
        apply in_map_iff; exists (i, y); auto.
  Qed.

  Lemma id_counted b d0 ops ys d :
    id_from_non_indexed b = Some d0 ->
    run (id_step cmp keep) d0 (map IOp ops) = Some (map IOut ys, d) ->
    slen (id_resources d0) = slen (bd_resources b) /\
    exists k j,
      costs (all_of (m_id_step cmp keep) ops) d0 k ys d /\
      costs (all_of (d_id_step cmp keep) ops) d0 (k + j) ys d /\
      j + slen (id_resources d) = all_given quad_values ops + slen (bd_resources b).
  Proof.
    intros E0 E; apply id_set_step_run in E; unfold id_from_non_indexed in E0.
    destruct (collected (bd_resources b)) as [W1 L1].
    apply id_index_held in E0 as [W0 L0]; [|exact W1]; cbn [id_resources] in L0; rewrite L1 in L0.
    split; [exact L0|].
    destruct (spends_run iheld iwf quad_values _ _ _ (fun s o => spends_id_step o s) (agrees_id_step cmp keep)
      ops d0 ys d W0 E) as (k & j & A & B & _ & C).
    exists k, j; rewrite <- L0; auto.
  Qed.

  Lemma ig_counted b g0 ops ys g :
    ig_from_non_indexed b = Some g0 ->
    run (ig_step cmp keep) g0 ops = Some (ys, g) ->
    slen (ig_resources g0) = slen (bg_resources b) /\
    exists k j,
      costs (all_of (m_ig_step cmp keep) ops) g0 k ys g /\
      costs (all_of (d_ig_step cmp keep) ops) g0 (k + j) ys g /\
      j + slen (ig_resources g) = all_given triple_values ops + slen (bg_resources b).
  Proof.
    intros E0 E; unfold ig_from_non_indexed in E0.
    destruct (collected (bg_resources b)) as [W1 L1].
    apply ig_index_held in E0 as [W0 L0]; [|exact W1]; cbn [ig_resources] in L0; rewrite L1 in L0.
    split; [exact L0|].
    destruct (spends_run jheld jwf triple_values _ _ _ (fun s o => spends_ig_step o s) (agrees_ig_step cmp keep)
      ops g0 ys g W0 E) as (k & j & A & B & _ & C).
    exists k, j; rewrite <- L0; auto.
  Qed.
End Indexed.
