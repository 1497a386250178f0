(** With enough comparisons the operations of ICrashModel.v end as those of the
    other models; with less they are interrupted. *)
From Coq Require Import List Bool Arith Lia.
Import ListNotations.
From Verif Require Import Base SlabModel TripleModel SetSpec IndexedSpec BaseProofs BResourceModel
  BTreeDatasetModel BTreeDatasetProofs BTreeGraphModel BTreeGraphProofs IResourceModel IndexedDatasetModel
  IndexedGraphModel CrashModel CrashProofs CrashAgree BGCrashProofs ICrashModel ICrashProofs.

Section Table.
  Context {R : Type} (cmp : R -> R -> comparison).
  Context (keep : bool).

  Lemma agrees_i_index_of rs ri v :
    agrees (m_i_index_of_resource cmp v) (rs, ri)
      (option_map (fun f => (f, (rs, ri))) (i_index_of_resource cmp rs ri v)).
  Proof.
    apply agrees_get; cbn beta iota; apply agrees_quiet; unfold i_index_of_resource.
    eapply quiet_m_get; intros; apply (quiet_resource_cmp cmp (ir_val rs)).
  Qed.

  Lemma agrees_i_acquire rs ri p i v f :
    agrees (m_i_acquire cmp keep p i v f) (rs, ri)
      (option_map (fun '(k, rs, ri) => (k, (rs, ri))) (i_acquire cmp keep rs ri p i v f)).
  Proof.
    unfold m_i_acquire, i_acquire; apply agrees_get; cbn beta iota; destruct f as [k|].
    - destruct (sget rs k) as [x|]; [|apply agrees_need_none].
      apply agrees_need_then, agrees_put_then, agrees_ret.
    - apply agrees_put_then.
      set (rs' := sinsert rs (ir_single p v i)).
      pose proof (quiet_m_insert (St:=@itable R) keep (m_resource_index_cmp cmp (ir_val rs'))
        (i_resource_index_cmp cmp rs') (vacant_key rs) ri
        (fun i => quiet_resource_index_cmp cmp (ir_val rs') i _)) as Q.
      destruct (bt_insert keep _ _ _) as [ri'|].
      + eapply agrees_then; [apply agrees_quiet_some, Q|]; apply agrees_put_then, agrees_ret.
      + apply agrees_then_none, agrees_quiet_none, Q.
  Qed.

  Lemma agrees_i_release {K} rcmp' (rcmp : slab (iresource R) -> nat -> K -> option comparison) rs ri p i k key :
    (forall rs i, quiet (rcmp' (ir_val rs) i key) (rcmp rs i key)) ->
    agrees (m_i_release rcmp' p i k key) (rs, ri)
      (option_map (fun '(rs, ri, b) => (b, (rs, ri))) (i_release rcmp rs ri p i k key)).
  Proof.
    intros H; unfold m_i_release, i_release; apply agrees_get; cbn beta iota.
    destruct (sget rs k) as [x|]; [|apply agrees_need_none].
    apply agrees_need_then; cbn [bind].
    set (x' := ir_upd p (ns_remove i) x); set (rs' := sset rs k x').
    apply agrees_put_then; destruct (ir_is_empty x'); [|apply agrees_ret].
    pose proof (quiet_m_remove (rcmp' (ir_val rs')) (rcmp rs') key ri (H rs')) as Q.
    destruct (bt_remove (rcmp rs') key ri) as [[y ri']|].
    - eapply agrees_then; [apply agrees_quiet_some, Q|]; cbn beta iota; apply agrees_put_then.
      destruct (sremove rs' k) as [[z rs'']|]; [|apply agrees_need_none].
      apply agrees_need_then; cbn beta iota; apply agrees_put_then, agrees_ret.
    - apply agrees_then_none, agrees_quiet_none, Q.
  Qed.

  Lemma quiet_val v rs i :
    quiet (St:=@itable R) (m_resource_cmp cmp (ir_val rs) i v) (i_resource_cmp cmp rs i v).
  Proof. apply (quiet_resource_cmp cmp (ir_val _)). Qed.
  Lemma quiet_idx v rs i :
    quiet (St:=@itable R) (m_resource_index_cmp cmp (ir_val rs) i v) (i_resource_index_cmp cmp rs i v).
  Proof. apply (quiet_resource_index_cmp cmp (ir_val _)). Qed.
End Table.

Lemma agrees_local {S T A B} (a : act T A) (f : A * T -> act S B) t s r x t' :
  agrees a t (Some (x, t')) -> agrees (f (x, t')) s r -> agrees (andthen (local a t) f) s r.
Proof.
  intros [k Hk] H2; eapply agrees_then; [|exact H2]; exists k; intros n; unfold local; cbn.
  destruct (Hk n) as [A1 A2]; split; intros Hn.
  - destruct (A1 Hn) as (s1 & ->); eauto.
  - now rewrite A2.
Qed.
Lemma agrees_local_none {S T A B} (a : act T A) (f : A * T -> act S B) t s :
  agrees a t None -> agrees (andthen (local a t) f) s None.
Proof.
  intros [k Hk]; apply agrees_then_none; exists k; intros n; unfold local; cbn.
  destruct (Hk n) as [A1 A2]; split; intros Hn.
  - destruct (A1 Hn) as (s1 & ->); eauto.
  - destruct (A2 Hn) as (s1 & ->); eauto.
Qed.

Section Dataset.
  Context {R : Type} (cmp : R -> R -> comparison).
  Context (keep : bool).

  Lemma agrees_id_contains d q :
    agrees (m_id_contains cmp q) d (option_map (fun b => (b, d)) (id_contains cmp d q)).
  Proof.
    unfold m_id_contains, id_contains, id_index_of_quad; apply agrees_get.
    pose proof (quiet_m_get (St:=@idataset R) _ _ q (id_qi d)
      (fun i => quiet_quad_at_cmp cmp (i_quad_at (id_resources d) (id_quads d)) i q)) as Q.
    change (kcmp (cmpk:=quad_cmp cmp) (i_quad_at (id_resources d) (id_quads d)))
      with (i_quad_cmp cmp (id_resources d) (id_quads d)) in Q.
    destruct (bt_get _ q (id_qi d)); cbn [bind option_map].
    - eapply agrees_then; [apply agrees_quiet_some, Q|apply agrees_ret].
    - apply agrees_then_none, agrees_quiet_none, Q.
  Qed.

  (** One step of an operation of the table, within the dataset. *)
  Lemma agrees_id_table {A B} (a : act (@itable R) A) (f : A -> act (@idataset R) B) d r x rs ri :
    agrees a (id_resources d, id_ri d) (Some (x, (rs, ri))) ->
    agrees (f x) (IDataset rs (id_quads d) ri (id_qi d) (id_s d) (id_p d) (id_o d) (id_dg d) (id_ng d)) r ->
    agrees (andthen (m_id_table a) f) d r.
  Proof.
    intros H1 H2; eapply agrees_then; [|exact H2].
    unfold m_id_table; exact (agrees_zoom _ _ a d (Some (x, (rs, ri))) H1).
  Qed.

  Lemma agrees_id_table_none {A B} (a : act (@itable R) A) (f : A -> act (@idataset R) B) d :
    agrees a (id_resources d, id_ri d) None -> agrees (andthen (m_id_table a) f) d None.
  Proof.
    intros H; apply agrees_then_none; unfold m_id_table; exact (agrees_zoom _ _ a d None H).
  Qed.

  Lemma agrees_id_insert d q : agrees (m_id_insert cmp keep q) d (id_insert cmp keep d q).
  Proof.
    unfold m_id_insert, id_insert.
    pose proof (agrees_id_contains d q) as C; destruct (id_contains cmp d q) as [c|]; cbn [bind option_map] in *;
      [|now apply agrees_then_none].
    eapply agrees_then; [exact C|]; destruct c; [apply agrees_ret|].
    destruct d as [rs qs ri qi ss ps os dg ng];
      cbn [id_resources id_quads id_ri id_qi id_s id_p id_o id_dg id_ng].
    pose proof (agrees_i_index_of cmp rs ri (q_s q)) as F; destruct (i_index_of_resource cmp rs ri (q_s q)) as [fs|];
      cbn [bind option_map] in *; [eapply agrees_id_table; [exact F|]|now apply agrees_id_table_none].
    cbn [id_resources id_quads id_ri id_qi id_s id_p id_o id_dg id_ng]; clear F.
    pose proof (agrees_i_index_of cmp rs ri (q_p q)) as F; destruct (i_index_of_resource cmp rs ri (q_p q)) as [fp|];
      cbn [bind option_map] in *; [eapply agrees_id_table; [exact F|]|now apply agrees_id_table_none].
    cbn [id_resources id_quads id_ri id_qi id_s id_p id_o id_dg id_ng]; clear F.
    pose proof (agrees_i_index_of cmp rs ri (q_o q)) as F; destruct (i_index_of_resource cmp rs ri (q_o q)) as [fo|];
      cbn [bind option_map] in *; [eapply agrees_id_table; [exact F|]|now apply agrees_id_table_none].
    cbn [id_resources id_quads id_ri id_qi id_s id_p id_o id_dg id_ng]; clear F.
    match goal with |- agrees _ _ (bind ?m _) => set (rg := m) end.
    assert (G : agrees (match q_g q with
                  | Some g => (f <- m_id_table (m_i_index_of_resource cmp g) ;; ret (Some (g, f)))%act
                  | None => ret None
                  end) (IDataset rs qs ri qi ss ps os dg ng)
              (option_map (fun fg => (fg, IDataset rs qs ri qi ss ps os dg ng)) rg)).
    { unfold rg; destruct (q_g q) as [g|]; [|apply agrees_ret].
      pose proof (agrees_i_index_of cmp rs ri g) as A.
      destruct (i_index_of_resource cmp rs ri g) as [f|]; cbn [bind option_map] in *;
        [eapply agrees_id_table; [exact A|apply agrees_ret]|now apply agrees_id_table_none]. }
    clearbody rg; destruct rg as [fg|]; cbn [bind option_map] in *;
      [eapply agrees_then; [exact G|]; clear G C|now apply agrees_then_none].
    apply agrees_get; cbv zeta; cbn [id_resources id_quads id_ri id_qi id_s id_p id_o id_dg id_ng].
    set (i := vacant_key qs).
    pose proof (agrees_i_acquire cmp keep rs ri PosS i (q_s q) fs) as A.
    destruct (i_acquire cmp keep rs ri PosS i (q_s q) fs) as [[[s_i rs1] ri1]|]; cbn [bind option_map] in *;
      [eapply agrees_id_table; [exact A|]|now apply agrees_id_table_none].
    cbn [id_resources id_quads id_ri id_qi id_s id_p id_o id_dg id_ng]; clear A.
    pose proof (agrees_i_acquire cmp keep rs1 ri1 PosP i (q_p q) fp) as A.
    destruct (i_acquire cmp keep rs1 ri1 PosP i (q_p q) fp) as [[[p_i rs2] ri2]|]; cbn [bind option_map] in *;
      [eapply agrees_id_table; [exact A|]|now apply agrees_id_table_none].
    cbn [id_resources id_quads id_ri id_qi id_s id_p id_o id_dg id_ng]; clear A.
    pose proof (agrees_i_acquire cmp keep rs2 ri2 PosO i (q_o q) fo) as A.
    destruct (i_acquire cmp keep rs2 ri2 PosO i (q_o q) fo) as [[[o_i rs3] ri3]|]; cbn [bind option_map] in *;
      [eapply agrees_id_table; [exact A|]|now apply agrees_id_table_none].
    cbn [id_resources id_quads id_ri id_qi id_s id_p id_o id_dg id_ng]; clear A.
    match goal with |- agrees _ _ (bind ?m _) => set (r4 := m) end.
    assert (G : agrees (match fg with
                 | Some (g, f) => (g_i <- m_id_table (m_i_acquire cmp keep PosG i g f) ;; ret (Some g_i))%act
                 | None => ret None
                 end) (IDataset rs3 qs ri3 qi ss ps os dg ng)
              (option_map (fun '(g_i, rs, ri) => (g_i, IDataset rs qs ri qi ss ps os dg ng)) r4)).
    { unfold r4; destruct fg as [[g f]|]; [|apply agrees_ret].
      pose proof (agrees_i_acquire cmp keep rs3 ri3 PosG i g f) as A.
      destruct (i_acquire cmp keep rs3 ri3 PosG i g f) as [[[g_i rs4] ri4]|]; cbn [bind option_map] in *;
        [eapply agrees_id_table; [exact A|apply agrees_ret]|now apply agrees_id_table_none]. }
    clearbody r4; destruct r4 as [[[g_i rs4] ri4]|]; cbn [bind option_map] in *;
      [eapply agrees_then; [exact G|]|now apply agrees_then_none].
    apply agrees_get; cbn [id_resources id_quads id_ri id_qi id_s id_p id_o id_dg id_ng].
    apply agrees_get, agrees_put_then; cbn [id_resources id_quads id_ri id_qi id_s id_p id_o id_dg id_ng].
    set (qs' := sinsert qs _).
    pose proof (quiet_m_insert (St:=@idataset R) keep (m_quad_index_cmp cmp (i_quad_at rs4 qs'))
      (i_quad_index_cmp cmp rs4 qs') i qi
      (fun i => quiet_quad_index_cmp cmp (i_quad_at rs4 qs') i _)) as Q.
    destruct (bt_insert keep _ _ _) as [qi'|]; cbn [bind].
    - eapply agrees_then; [apply agrees_quiet_some, Q|]; apply agrees_put_then, agrees_ret.
    - apply agrees_then_none, agrees_quiet_none, Q.
  Qed.

  Lemma agrees_id_remove_by_index d i b :
    agrees (m_id_remove_by_index cmp i b) d (option_map (fun d => (tt, d)) (id_remove_by_index cmp d i b)).
  Proof.
    unfold m_id_remove_by_index, id_remove_by_index; apply agrees_get.
    destruct d as [rs qs ri qi ss ps os dg ng];
      cbn [id_resources id_quads id_ri id_qi id_s id_p id_o id_dg id_ng].
    match goal with |- agrees _ _ (option_map _ (bind ?m _)) => set (r0 := m) end.
    assert (I0 : agrees (if b then
                   ('(_, qi) <- m_remove (m_quad_index_cmp cmp (i_quad_at rs qs)) i qi ;;
                    put (IDataset rs qs ri qi ss ps os dg ng))%act else ret tt)
                 (IDataset rs qs ri qi ss ps os dg ng)
                 (option_map (fun qi => (tt, IDataset rs qs ri qi ss ps os dg ng)) r0)).
    { unfold r0; destruct b; [|apply agrees_ret].
      pose proof (quiet_m_remove (St:=@idataset R) (m_quad_index_cmp cmp (i_quad_at rs qs))
        (i_quad_index_cmp cmp rs qs) i qi (fun j => quiet_quad_index_cmp cmp (i_quad_at rs qs) j _)) as Q.
      destruct (bt_remove _ i qi) as [[f qi']|]; cbn [bind option_map].
      - eapply agrees_then; [apply agrees_quiet_some, Q|]; apply agrees_put.
      - apply agrees_then_none, agrees_quiet_none, Q. }
    clearbody r0; destruct r0 as [qi'|]; cbn [bind option_map] in *;
      [eapply agrees_then; [exact I0|]; clear I0|now apply agrees_then_none].
    apply agrees_get; cbn [id_resources id_quads id_ri id_qi id_s id_p id_o id_dg id_ng].
    destruct (sremove qs i) as [[x qs']|]; [|apply agrees_need_none].
    apply agrees_need_then; cbn beta iota; cbn [bind]; apply agrees_put_then.
    pose proof (agrees_i_release (m_resource_index_cmp cmp) (i_resource_index_cmp cmp) rs ri PosS i (q_s x) (q_s x)
      (quiet_idx cmp (q_s x))) as A.
    destruct (i_release _ rs ri PosS i (q_s x) (q_s x)) as [[[rs1 ri1] b1]|]; cbn [bind option_map] in *;
      [eapply agrees_id_table; [exact A|]|now apply agrees_id_table_none].
    cbn [id_resources id_quads id_ri id_qi id_s id_p id_o id_dg id_ng]; clear A.
    pose proof (agrees_i_release (m_resource_index_cmp cmp) (i_resource_index_cmp cmp) rs1 ri1 PosP i (q_p x) (q_p x)
      (quiet_idx cmp (q_p x))) as A.
    destruct (i_release _ rs1 ri1 PosP i (q_p x) (q_p x)) as [[[rs2 ri2] b2]|]; cbn [bind option_map] in *;
      [eapply agrees_id_table; [exact A|]|now apply agrees_id_table_none].
    cbn [id_resources id_quads id_ri id_qi id_s id_p id_o id_dg id_ng]; clear A.
    pose proof (agrees_i_release (m_resource_index_cmp cmp) (i_resource_index_cmp cmp) rs2 ri2 PosO i (q_o x) (q_o x)
      (quiet_idx cmp (q_o x))) as A.
    destruct (i_release _ rs2 ri2 PosO i (q_o x) (q_o x)) as [[[rs3 ri3] b3]|]; cbn [bind option_map] in *;
      [eapply agrees_id_table; [exact A|]|now apply agrees_id_table_none].
    cbn [id_resources id_quads id_ri id_qi id_s id_p id_o id_dg id_ng]; clear A.
    destruct (q_g x) as [g|]; [|apply agrees_get, agrees_put].
    pose proof (agrees_i_release (m_resource_index_cmp cmp) (i_resource_index_cmp cmp) rs3 ri3 PosG i g g
      (quiet_idx cmp g)) as A.
    destruct (i_release _ rs3 ri3 PosG i g g) as [[[rs4 ri4] b4]|]; cbn [bind option_map] in *;
      [eapply agrees_id_table; [exact A|]|now apply agrees_id_table_none].
    apply agrees_get, agrees_put.
  Qed.

  Lemma agrees_id_remove d q : agrees (m_id_remove cmp q) d (id_remove cmp d q).
  Proof.
    unfold m_id_remove, id_remove; apply agrees_get.
    pose proof (quiet_m_remove (St:=@idataset R) _ _ q (id_qi d)
      (fun i => quiet_quad_at_cmp cmp (i_quad_at (id_resources d) (id_quads d)) i q)) as Q.
    change (kcmp (cmpk:=quad_cmp cmp) (i_quad_at (id_resources d) (id_quads d)))
      with (i_quad_cmp cmp (id_resources d) (id_quads d)) in Q.
    destruct (bt_remove _ q (id_qi d)) as [[found qi']|]; cbn [bind];
      [|apply agrees_then_none, agrees_quiet_none, Q].
    eapply agrees_then; [apply agrees_quiet_some, Q|]; cbn beta iota; apply agrees_put_then.
    destruct found as [i|]; [|apply agrees_ret].
    set (d' := IDataset _ _ _ _ _ _ _ _ _).
    pose proof (agrees_id_remove_by_index d' i false) as A.
    destruct (id_remove_by_index cmp d' i false) as [d2|]; cbn [bind option_map] in *;
      [eapply agrees_then; [exact A|apply agrees_ret]|now apply agrees_then_none].
  Qed.

  Lemma agrees_id_remove_all idx : forall d g,
    agrees (m_id_remove_all cmp keep idx g) d (id_remove_all cmp keep idx d g).
  Proof.
    induction idx as [|i idx IH]; intros d g; [apply agrees_ret|]; cbn [m_id_remove_all id_remove_all].
    apply agrees_get; destruct (i_quad_at (id_resources d) (id_quads d) i) as [q|]; cbn [bind];
      [apply agrees_need_then|apply agrees_need_none].
    eapply agrees_then; [apply agrees_quiet_some, quiet_cloned|].
    pose proof (agrees_id_remove_by_index d i true) as A.
    destruct (id_remove_by_index cmp d i true) as [d2|]; cbn [bind option_map] in *;
      [eapply agrees_then; [exact A|]|now apply agrees_then_none].
    assert (B : agrees (m_bg_insert cmp keep (fst (into_triple q))) g (bg_insert cmp keep g (fst (into_triple q)))).
    { pose proof (agrees_bg_step (cmp:=cmp) keep g (Insert (fst (into_triple q)))) as [k H]; exists k; intros n.
      destruct (H n) as [H1 H2]; cbn [m_bg_step bg_step] in *; unfold andthen in *; split; intros Hn.
      - destruct (H1 Hn) as (s' & E).
        destruct (m_bg_insert cmp keep (fst (into_triple q)) n g); try discriminate; eauto.
      - specialize (H2 Hn); destruct (bg_insert cmp keep g (fst (into_triple q))) as [[b g']|]; cbn [bind] in H2.
        + destruct (m_bg_insert cmp keep (fst (into_triple q)) n g); try discriminate; cbn in H2; now inv H2.
        + destruct H2 as (s' & H2).
          destruct (m_bg_insert cmp keep (fst (into_triple q)) n g); try discriminate; eauto. }
    destruct (bg_insert cmp keep g (fst (into_triple q))) as [[b g']|]; cbn [bind];
      [eapply agrees_local; [exact B|apply IH]|now apply agrees_local_none].
  Qed.

  Lemma agrees_id_remove_graph d g : agrees (m_id_remove_graph cmp keep g) d (id_remove_graph cmp keep d g).
  Proof.
    unfold m_id_remove_graph, id_remove_graph.
    match goal with |- agrees _ _ (bind ?m _) => set (r0 := m) end.
    match goal with |- agrees (andthen ?m _) _ _ =>
      assert (A : agrees m d (option_map (fun x => (x, d)) r0)) end.
    { unfold r0; destruct g as [g|]; [|apply agrees_get, agrees_ret].
      pose proof (agrees_i_index_of cmp (id_resources d) (id_ri d) g) as A.
      destruct (i_index_of_resource cmp (id_resources d) (id_ri d) g) as [f|]; cbn [bind option_map] in *;
        [eapply agrees_id_table; [exact A|]|now apply agrees_id_table_none].
      replace (IDataset (id_resources d) (id_quads d) (id_ri d) (id_qi d) (id_s d) (id_p d) (id_o d) (id_dg d) (id_ng d))
        with d by (destruct d; reflexivity).
      apply agrees_get; destruct f as [k|]; [|apply agrees_ret].
      destruct (ns_mem k (id_ng d)); [|apply agrees_ret].
      destruct (sget (id_resources d) k); cbn [bind option_map];
        [apply agrees_need_then, agrees_ret|apply agrees_need_none]. }
    clearbody r0; destruct r0 as [idx|]; cbn [bind option_map] in *;
      [eapply agrees_then; [exact A|]|now apply agrees_then_none].
    destruct idx as [idx|]; [|apply agrees_ret].
    pose proof (agrees_id_remove_all idx d bg_new) as B.
    destruct (id_remove_all cmp keep idx d bg_new) as [[h d']|]; cbn [bind];
      [eapply agrees_then; [exact B|apply agrees_ret]|now apply agrees_then_none].
  Qed.

  Lemma agrees_id_extend l : forall d,
    agrees (m_id_extend cmp keep l) d (option_map (fun d => (tt, d)) (id_extend cmp keep d l)).
  Proof.
    induction l as [|q l IH]; intros d; [apply agrees_ret|]; cbn [m_id_extend id_extend].
    pose proof (agrees_id_insert d q) as A.
    destruct (id_insert cmp keep d q) as [[b d']|]; cbn [bind]; [|now apply agrees_then_none].
    eapply agrees_then; [exact A|apply IH].
  Qed.

  (** [id_step] on the operations of a set *)
  Definition id_set_step (d : @idataset R) (o : op (quad R)) : option (out (quad R) * @idataset R) :=
    match id_step cmp keep d (IOp o) with
    | Some (IOut x, d') => Some (x, d')
    | _ => None
    end.

  Lemma agrees_id_step d o : agrees (m_id_step cmp keep o) d (id_set_step d o).
  Proof.
    unfold id_set_step; destruct o as [q|q|l|q| | | |]; cbn [m_id_step id_step].
    - pose proof (agrees_id_insert d q) as A.
      destruct (id_insert cmp keep d q) as [[b d']|]; cbn [bind]; [|now apply agrees_then_none].
      eapply agrees_then; [exact A|apply agrees_ret].
    - pose proof (agrees_id_remove d q) as A.
      destruct (id_remove cmp d q) as [[b d']|]; cbn [bind]; [|now apply agrees_then_none].
      eapply agrees_then; [exact A|apply agrees_ret].
    - pose proof (agrees_id_extend l d) as A.
      destruct (id_extend cmp keep d l) as [d'|]; cbn [bind option_map] in *; [|now apply agrees_then_none].
      eapply agrees_then; [exact A|apply agrees_ret].
    - pose proof (agrees_id_contains d q) as A.
      destruct (id_contains cmp d q) as [b|]; cbn [bind option_map] in *; [|now apply agrees_then_none].
      eapply agrees_then; [exact A|apply agrees_ret].
    - apply agrees_get, agrees_ret.
    - apply agrees_get, agrees_ret.
    - apply agrees_get; destruct (id_iter d); cbn [bind]; [apply agrees_need_then, agrees_ret|apply agrees_need_none].
    - apply agrees_get; destruct (id_into_iter d); cbn [bind]; [apply agrees_need_then, agrees_ret|apply agrees_need_none].
  Qed.
End Dataset.

Section Graph.
  Context {R : Type} (cmp : R -> R -> comparison).
  Context (keep : bool).

  Lemma agrees_ig_contains g t :
    agrees (m_ig_contains cmp t) g (option_map (fun b => (b, g)) (ig_contains cmp g t)).
  Proof.
    unfold m_ig_contains, ig_contains, ig_index_of_triple; apply agrees_get.
    pose proof (quiet_m_get (St:=@igraph R) _ _ t (ig_ti g)
      (fun i => quiet_triple_at_cmp cmp (i_triple_at (ig_resources g) (ig_triples g)) i t)) as Q.
    change (kcmp (cmpk:=triple_cmp cmp) (i_triple_at (ig_resources g) (ig_triples g)))
      with (i_triple_cmp cmp (ig_resources g) (ig_triples g)) in Q.
    destruct (bt_get _ t (ig_ti g)); cbn [bind option_map].
    - eapply agrees_then; [apply agrees_quiet_some, Q|apply agrees_ret].
    - apply agrees_then_none, agrees_quiet_none, Q.
  Qed.

  Lemma agrees_ig_table {A B} (a : act (@itable R) A) (f : A -> act (@igraph R) B) g r x rs ri :
    agrees a (ig_resources g, ig_ri g) (Some (x, (rs, ri))) ->
    agrees (f x) (IGraphS rs (ig_triples g) ri (ig_ti g) (ig_s g) (ig_p g) (ig_o g)) r ->
    agrees (andthen (m_ig_table a) f) g r.
  Proof.
    intros H1 H2; eapply agrees_then; [|exact H2].
    unfold m_ig_table; exact (agrees_zoom _ _ a g (Some (x, (rs, ri))) H1).
  Qed.

  Lemma agrees_ig_table_none {A B} (a : act (@itable R) A) (f : A -> act (@igraph R) B) g :
    agrees a (ig_resources g, ig_ri g) None -> agrees (andthen (m_ig_table a) f) g None.
  Proof.
    intros H; apply agrees_then_none; unfold m_ig_table; exact (agrees_zoom _ _ a g None H).
  Qed.

  Lemma agrees_ig_insert g t : agrees (m_ig_insert cmp keep t) g (ig_insert cmp keep g t).
  Proof.
    unfold m_ig_insert, ig_insert.
    pose proof (agrees_ig_contains g t) as C; destruct (ig_contains cmp g t) as [c|]; cbn [bind option_map] in *;
      [|now apply agrees_then_none].
    eapply agrees_then; [exact C|]; destruct c; [apply agrees_ret|].
    destruct g as [rs ts ri ti ss ps os];
      cbn [ig_resources ig_triples ig_ri ig_ti ig_s ig_p ig_o].
    pose proof (agrees_i_index_of cmp rs ri (t_s t)) as F; destruct (i_index_of_resource cmp rs ri (t_s t)) as [fs|];
      cbn [bind option_map] in *; [eapply agrees_ig_table; [exact F|]|now apply agrees_ig_table_none].
    cbn [ig_resources ig_triples ig_ri ig_ti ig_s ig_p ig_o]; clear F.
    pose proof (agrees_i_index_of cmp rs ri (t_p t)) as F; destruct (i_index_of_resource cmp rs ri (t_p t)) as [fp|];
      cbn [bind option_map] in *; [eapply agrees_ig_table; [exact F|]|now apply agrees_ig_table_none].
    cbn [ig_resources ig_triples ig_ri ig_ti ig_s ig_p ig_o]; clear F.
    pose proof (agrees_i_index_of cmp rs ri (t_o t)) as F; destruct (i_index_of_resource cmp rs ri (t_o t)) as [fo|];
      cbn [bind option_map] in *; [eapply agrees_ig_table; [exact F|]|now apply agrees_ig_table_none].
    cbn [ig_resources ig_triples ig_ri ig_ti ig_s ig_p ig_o]; clear F C.
    apply agrees_get; cbv zeta; cbn [ig_resources ig_triples ig_ri ig_ti ig_s ig_p ig_o].
    set (i := vacant_key ts).
    pose proof (agrees_i_acquire cmp keep rs ri PosS i (t_s t) fs) as A.
    destruct (i_acquire cmp keep rs ri PosS i (t_s t) fs) as [[[s_i rs1] ri1]|]; cbn [bind option_map] in *;
      [eapply agrees_ig_table; [exact A|]|now apply agrees_ig_table_none].
    cbn [ig_resources ig_triples ig_ri ig_ti ig_s ig_p ig_o]; clear A.
    pose proof (agrees_i_acquire cmp keep rs1 ri1 PosP i (t_p t) fp) as A.
    destruct (i_acquire cmp keep rs1 ri1 PosP i (t_p t) fp) as [[[p_i rs2] ri2]|]; cbn [bind option_map] in *;
      [eapply agrees_ig_table; [exact A|]|now apply agrees_ig_table_none].
    cbn [ig_resources ig_triples ig_ri ig_ti ig_s ig_p ig_o]; clear A.
    pose proof (agrees_i_acquire cmp keep rs2 ri2 PosO i (t_o t) fo) as A.
    destruct (i_acquire cmp keep rs2 ri2 PosO i (t_o t) fo) as [[[o_i rs3] ri3]|]; cbn [bind option_map] in *;
      [eapply agrees_ig_table; [exact A|]|now apply agrees_ig_table_none].
    cbn [ig_resources ig_triples ig_ri ig_ti ig_s ig_p ig_o]; clear A.
    apply agrees_get; cbn [ig_resources ig_triples ig_ri ig_ti ig_s ig_p ig_o].
    apply agrees_get, agrees_put_then; cbn [ig_resources ig_triples ig_ri ig_ti ig_s ig_p ig_o].
    set (ts' := sinsert ts _).
    pose proof (quiet_m_insert (St:=@igraph R) keep (m_triple_index_cmp cmp (i_triple_at rs3 ts'))
      (i_triple_index_cmp cmp rs3 ts') i ti
      (fun i => quiet_triple_index_cmp cmp (i_triple_at rs3 ts') i _)) as Q.
    destruct (bt_insert keep _ _ _) as [ti'|]; cbn [bind].
    - eapply agrees_then; [apply agrees_quiet_some, Q|]; apply agrees_put_then, agrees_ret.
    - apply agrees_then_none, agrees_quiet_none, Q.
  Qed.

  Lemma agrees_ig_remove g t : agrees (m_ig_remove cmp t) g (ig_remove cmp g t).
  Proof.
    unfold m_ig_remove, ig_remove; apply agrees_get.
    pose proof (quiet_m_remove (St:=@igraph R) _ _ t (ig_ti g)
      (fun i => quiet_triple_at_cmp cmp (i_triple_at (ig_resources g) (ig_triples g)) i t)) as Q.
    change (kcmp (cmpk:=triple_cmp cmp) (i_triple_at (ig_resources g) (ig_triples g)))
      with (i_triple_cmp cmp (ig_resources g) (ig_triples g)) in Q.
    destruct g as [rs ts ri ti ss ps os]; cbn [ig_resources ig_triples ig_ri ig_ti ig_s ig_p ig_o] in *.
    destruct (bt_remove _ t ti) as [[found ti']|]; cbn [bind];
      [|apply agrees_then_none, agrees_quiet_none, Q].
    eapply agrees_then; [apply agrees_quiet_some, Q|]; cbn beta iota; apply agrees_put_then.
    destruct found as [i|]; [|apply agrees_ret].
    destruct (sremove ts i) as [[x ts']|]; [|apply agrees_need_none].
    apply agrees_need_then; cbn beta iota; cbn [bind]; apply agrees_put_then.
    pose proof (agrees_i_release (m_resource_cmp cmp) (i_resource_cmp cmp) rs ri PosS i (t_s x) (t_s t)
      (quiet_val cmp (t_s t))) as A.
    destruct (i_release _ rs ri PosS i (t_s x) (t_s t)) as [[[rs1 ri1] b1]|]; cbn [bind option_map] in *;
      [eapply agrees_ig_table; [exact A|]|now apply agrees_ig_table_none].
    cbn [ig_resources ig_triples ig_ri ig_ti ig_s ig_p ig_o]; clear A.
    pose proof (agrees_i_release (m_resource_cmp cmp) (i_resource_cmp cmp) rs1 ri1 PosP i (t_p x) (t_p t)
      (quiet_val cmp (t_p t))) as A.
    destruct (i_release _ rs1 ri1 PosP i (t_p x) (t_p t)) as [[[rs2 ri2] b2]|]; cbn [bind option_map] in *;
      [eapply agrees_ig_table; [exact A|]|now apply agrees_ig_table_none].
    cbn [ig_resources ig_triples ig_ri ig_ti ig_s ig_p ig_o]; clear A.
    pose proof (agrees_i_release (m_resource_cmp cmp) (i_resource_cmp cmp) rs2 ri2 PosO i (t_o x) (t_o t)
      (quiet_val cmp (t_o t))) as A.
    destruct (i_release _ rs2 ri2 PosO i (t_o x) (t_o t)) as [[[rs3 ri3] b3]|]; cbn [bind option_map] in *;
      [eapply agrees_ig_table; [exact A|]|now apply agrees_ig_table_none].
    apply agrees_ret.
  Qed.

  Lemma agrees_ig_extend l : forall g,
    agrees (m_ig_extend cmp keep l) g (option_map (fun g => (tt, g)) (ig_extend cmp keep g l)).
  Proof.
    induction l as [|t l IH]; intros g; [apply agrees_ret|]; cbn [m_ig_extend ig_extend].
    pose proof (agrees_ig_insert g t) as A.
    destruct (ig_insert cmp keep g t) as [[b g']|]; cbn [bind]; [|now apply agrees_then_none].
    eapply agrees_then; [exact A|apply IH].
  Qed.

  Lemma agrees_ig_step g o : agrees (m_ig_step cmp keep o) g (ig_step cmp keep g o).
  Proof.
    destruct o as [t|t|l|t| | | |]; cbn [m_ig_step ig_step].
    - pose proof (agrees_ig_insert g t) as A.
      destruct (ig_insert cmp keep g t) as [[b g']|]; cbn [bind]; [|now apply agrees_then_none].
      eapply agrees_then; [exact A|apply agrees_ret].
    - pose proof (agrees_ig_remove g t) as A.
      destruct (ig_remove cmp g t) as [[b g']|]; cbn [bind]; [|now apply agrees_then_none].
      eapply agrees_then; [exact A|apply agrees_ret].
    - pose proof (agrees_ig_extend l g) as A.
      destruct (ig_extend cmp keep g l) as [g'|]; cbn [bind option_map] in *; [|now apply agrees_then_none].
      eapply agrees_then; [exact A|apply agrees_ret].
    - pose proof (agrees_ig_contains g t) as A.
      destruct (ig_contains cmp g t) as [b|]; cbn [bind option_map] in *; [|now apply agrees_then_none].
      eapply agrees_then; [exact A|apply agrees_ret].
    - apply agrees_get, agrees_ret.
    - apply agrees_get, agrees_ret.
    - apply agrees_get; destruct (ig_iter g); cbn [bind]; [apply agrees_need_then, agrees_ret|apply agrees_need_none].
    - apply agrees_get; destruct (ig_into_iter g); cbn [bind]; [apply agrees_need_then, agrees_ret|apply agrees_need_none].
  Qed.
End Graph.
