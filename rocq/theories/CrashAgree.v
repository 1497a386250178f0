(** With enough comparisons the operations of CrashModel.v end as those of the
    other models; with less they are interrupted. *)
From Coq Require Import List Bool Arith Lia.
Import ListNotations.
From Verif Require Import Base SlabModel TripleModel SetSpec BaseProofs BResourceModel BResourceProofs
  BTreeDatasetModel BTreeDatasetProofs BTreeGraphModel CrashModel CrashProofs.

(** [r]: the result without interruption ([None]: a panic of the code). *)
Definition agrees {St A} (a : act St A) (s : St) (r : option (A * St)) : Prop :=
  exists k, forall n,
    (n < k -> exists s', a n s = Interrupted s') /\
    (k <= n -> match r with
               | Some (x, s') => a n s = Done x (n - k) s'
               | None => exists s', a n s = Failed s'
               end).

Lemma agrees_quiet {St A} (a : act St A) s r :
  quiet a r -> agrees a s (option_map (fun x => (x, s)) r).
Proof.
  intros [k H]; exists k; intros n; rewrite H; split; intros Hn.
  - apply Nat.ltb_lt in Hn; rewrite Hn; eauto.
  - apply Nat.ltb_ge in Hn; rewrite Hn; destruct r; cbn; eauto.
Qed.

Lemma agrees_quiet_some {St A} (a : act St A) s x : quiet a (Some x) -> agrees a s (Some (x, s)).
Proof. apply (agrees_quiet a s (Some x)). Qed.

Lemma agrees_quiet_none {St A} (a : act St A) s : quiet a None -> agrees a s None.
Proof. apply (agrees_quiet a s None). Qed.

Lemma agrees_ret {St A} (x : A) (s : St) : agrees (ret x) s (Some (x, s)).
Proof. apply agrees_quiet_some, quiet_ret. Qed.

Lemma agrees_put {St} (s t : St) : agrees (put t) s (Some (tt, t)).
Proof. exists 0; intros n; split; [lia|]; intros _; cbn; now rewrite Nat.sub_0_r. Qed.

Lemma agrees_then {St A B} (a : act St A) (f : A -> act St B) s x s' r :
  agrees a s (Some (x, s')) -> agrees (f x) s' r -> agrees (andthen a f) s r.
Proof.
  intros [k Hk] [j Hj]; exists (k + j); intros n; unfold andthen; split; intros Hn.
  - destruct (lt_dec n k) as [H|H].
    + destruct (Hk n) as [A1 _]; destruct (A1 H) as (s1 & ->); eauto.
    + destruct (Hk n) as [_ A2]; rewrite A2 by lia; apply Hj; lia.
  - destruct (Hk n) as [_ A2]; rewrite A2 by lia.
    destruct (Hj (n - k)) as [_ B2]; specialize (B2 ltac:(lia)).
    destruct r as [[y s2]|]; [|exact B2]; rewrite B2; f_equal; lia.
Qed.

Lemma agrees_then_none {St A B} (a : act St A) (f : A -> act St B) s :
  agrees a s None -> agrees (andthen a f) s None.
Proof.
  intros [k Hk]; exists k; intros n; unfold andthen; destruct (Hk n) as [A1 A2]; split; intros Hn.
  - destruct (A1 Hn) as (s1 & ->); eauto.
  - destruct (A2 Hn) as (s1 & ->); eauto.
Qed.

Lemma agrees_get {St B} (f : St -> act St B) s r : agrees (f s) s r -> agrees (andthen get f) s r.
Proof. auto. Qed.

Lemma agrees_put_then {St B} (t : St) (f : unit -> act St B) s r :
  agrees (f tt) t r -> agrees (andthen (put t) f) s r.
Proof. auto. Qed.

Lemma agrees_need_then {St A B} (x : A) (f : A -> act St B) s r :
  agrees (f x) s r -> agrees (andthen (need (Some x)) f) s r.
Proof. auto. Qed.

Lemma agrees_need_none {St A B} (f : A -> act St B) s : agrees (andthen (need None) f) s None.
Proof. exists 0; intros n; split; [lia|]; intros _; cbn; eauto. Qed.

Lemma agrees_zoom {St T A} (view : St -> T) update (a : act T A) s r :
  agrees a (view s) r ->
  agrees (zoom view update a) s (option_map (fun '(x, t) => (x, update t s)) r).
Proof.
  intros [k Hk]; exists k; intros n; unfold zoom; destruct (Hk n) as [A1 A2]; split; intros Hn.
  - destruct (A1 Hn) as (s1 & ->); eauto.
  - specialize (A2 Hn); destruct r as [[x t]|]; cbn; [now rewrite A2|].
    destruct A2 as (s1 & ->); eauto.
Qed.

Section Table.
  Context {R : Type} (cmp : R -> R -> comparison).
  Context (keep : bool).

  Lemma agrees_index_of rs ri v :
    agrees (m_b_index_of_resource cmp v) (rs, ri)
      (option_map (fun f => (f, (rs, ri))) (b_index_of_resource cmp rs ri v)).
  Proof.
    apply agrees_get; cbn beta iota; apply agrees_quiet; unfold b_index_of_resource.
    eapply quiet_m_get; intros; apply (quiet_resource_cmp cmp (br_val rs)).
  Qed.

  Lemma agrees_acquire rs ri v f :
    agrees (m_b_acquire cmp keep v f) (rs, ri)
      (option_map (fun '(k, rs, ri) => (k, (rs, ri))) (b_acquire cmp keep rs ri v f)).
  Proof.
    unfold m_b_acquire, b_acquire; apply agrees_get; cbn beta iota; destruct f as [i|].
    - destruct (sget rs i) as [x|]; [|apply agrees_need_none].
      apply agrees_need_then, agrees_put_then, agrees_ret.
    - apply agrees_put_then.
      set (rs' := sinsert rs (BRes v 1)).
      pose proof (quiet_m_insert (St:=@btable R) keep (m_resource_index_cmp cmp (br_val rs'))
        (b_resource_index_cmp cmp rs') (vacant_key rs) ri
        (fun i => quiet_resource_index_cmp cmp (br_val rs') i _)) as Q.
      destruct (bt_insert keep _ _ _) as [ri'|].
      + eapply agrees_then; [apply agrees_quiet_some, Q|]; apply agrees_put_then, agrees_ret.
      + apply agrees_then_none, agrees_quiet_none, Q.
  Qed.

  Lemma agrees_release {K} rcmp' (rcmp : slab (bresource R) -> nat -> K -> option comparison) rs ri i k :
    (forall rs i, quiet (rcmp' (br_val rs) i k) (rcmp rs i k)) ->
    agrees (m_b_release rcmp' i k) (rs, ri) (option_map (fun t => (tt, t)) (b_release rcmp rs ri i k)).
  Proof.
    intros H; unfold m_b_release, b_release; apply agrees_get; cbn beta iota.
    destruct (sget rs i) as [x|]; [|apply agrees_need_none].
    apply agrees_need_then; cbn [bind]; destruct (br_occ x) as [|n]; [apply agrees_quiet_none, quiet_need|].
    set (rs' := sset rs i (BRes (br_value x) n)).
    apply agrees_put_then; destruct (n =? 0); [|apply agrees_ret].
    pose proof (quiet_m_remove (rcmp' (br_val rs')) (rcmp rs') k ri (H rs')) as Q.
    destruct (bt_remove (rcmp rs') k ri) as [[y ri']|].
    - eapply agrees_then; [apply agrees_quiet_some, Q|]; cbn beta iota; apply agrees_put_then.
      destruct (sremove rs' i) as [[z rs'']|]; [|apply agrees_need_none].
      apply agrees_need_then; cbn beta iota; apply agrees_put.
    - apply agrees_then_none, agrees_quiet_none, Q.
  Qed.
End Table.

Section Dataset.
  Context {R : Type} (cmp : R -> R -> comparison).
  Context (keep : bool).

  Lemma agrees_bd_contains d q :
    agrees (m_bd_contains cmp q) d (option_map (fun b => (b, d)) (bd_contains cmp d q)).
  Proof.
    unfold m_bd_contains, bd_contains, bd_index_of_quad; apply agrees_get.
    pose proof (quiet_m_get (St:=@bdataset R) _ _ q (bd_qi d)
      (fun i => quiet_quad_at_cmp cmp (b_quad_at (bd_resources d) (bd_quads d)) i q)) as Q.
    change (kcmp (cmpk:=quad_cmp cmp) (b_quad_at (bd_resources d) (bd_quads d)))
      with (b_quad_cmp cmp (bd_resources d) (bd_quads d)) in Q.
    destruct (bt_get _ q (bd_qi d)); cbn [bind option_map].
    - eapply agrees_then; [apply agrees_quiet_some, Q|apply agrees_ret].
    - apply agrees_then_none, agrees_quiet_none, Q.
  Qed.

  (** One step of an operation of the table, within the dataset. *)
  Lemma agrees_bd_table {A B} (a : act (@btable R) A) (f : A -> act (@bdataset R) B) d r x rs ri :
    agrees a (bd_resources d, bd_ri d) (Some (x, (rs, ri))) ->
    agrees (f x) (BDataset rs (bd_quads d) ri (bd_qi d)) r ->
    agrees (andthen (m_bd_table a) f) d r.
  Proof.
    intros H1 H2; eapply agrees_then; [|exact H2].
    unfold m_bd_table; exact (agrees_zoom _ _ a d (Some (x, (rs, ri))) H1).
  Qed.

  Lemma agrees_bd_table_none {A B} (a : act (@btable R) A) (f : A -> act (@bdataset R) B) d :
    agrees a (bd_resources d, bd_ri d) None -> agrees (andthen (m_bd_table a) f) d None.
  Proof.
    intros H; apply agrees_then_none; unfold m_bd_table; exact (agrees_zoom _ _ a d None H).
  Qed.

  Lemma agrees_bd_insert d q : agrees (m_bd_insert cmp keep q) d (bd_insert cmp keep d q).
  Proof.
    unfold m_bd_insert, bd_insert.
    pose proof (agrees_bd_contains d q) as C; destruct (bd_contains cmp d q) as [c|]; cbn [bind option_map] in *;
      [|now apply agrees_then_none].
    eapply agrees_then; [exact C|]; destruct c; [apply agrees_ret|].
    destruct d as [rs qs ri qi]; cbn [bd_resources bd_quads bd_ri bd_qi].
    pose proof (agrees_index_of cmp rs ri (q_s q)) as F; destruct (b_index_of_resource cmp rs ri (q_s q)) as [fs|];
      cbn [bind option_map] in *; [eapply agrees_bd_table; [exact F|]|now apply agrees_bd_table_none].
    cbn [bd_resources bd_quads bd_ri bd_qi]; clear F.
    pose proof (agrees_index_of cmp rs ri (q_p q)) as F; destruct (b_index_of_resource cmp rs ri (q_p q)) as [fp|];
      cbn [bind option_map] in *; [eapply agrees_bd_table; [exact F|]|now apply agrees_bd_table_none].
    cbn [bd_resources bd_quads bd_ri bd_qi]; clear F.
    pose proof (agrees_index_of cmp rs ri (q_o q)) as F; destruct (b_index_of_resource cmp rs ri (q_o q)) as [fo|];
      cbn [bind option_map] in *; [eapply agrees_bd_table; [exact F|]|now apply agrees_bd_table_none].
    cbn [bd_resources bd_quads bd_ri bd_qi]; clear F.
    assert (Rest : forall fg,
      agrees (andthen get (fun d =>
                let i := vacant_key (bd_quads d) in
                s_i <- m_bd_table (m_b_acquire cmp keep (q_s q) fs) ;;
                p_i <- m_bd_table (m_b_acquire cmp keep (q_p q) fp) ;;
                o_i <- m_bd_table (m_b_acquire cmp keep (q_o q) fo) ;;
                g_i <- match fg with
                       | Some (g, f) => g_i <- m_bd_table (m_b_acquire cmp keep g f) ;; ret (Some g_i)
                       | None => ret None
                       end ;;
                d <- get ;;
                let qs := sinsert (bd_quads d) (Quad s_i p_i o_i g_i) in
                _ <- put (BDataset (bd_resources d) qs (bd_ri d) (bd_qi d)) ;;
                qi <- m_insert keep (m_quad_index_cmp cmp (b_quad_at (bd_resources d) qs)) i (bd_qi d) ;;
                _ <- put (BDataset (bd_resources d) qs (bd_ri d) qi) ;;
                ret true)) (BDataset rs qs ri qi)
        (bind (b_acquire cmp keep rs ri (q_s q) fs) (fun '(s_i, rs, ri) =>
         bind (b_acquire cmp keep rs ri (q_p q) fp) (fun '(p_i, rs, ri) =>
         bind (b_acquire cmp keep rs ri (q_o q) fo) (fun '(o_i, rs, ri) =>
         bind (match fg with
               | Some (g, f) =>
                   bind (b_acquire cmp keep rs ri g f) (fun '(g_i, rs, ri) => Some (Some g_i, rs, ri))
               | None => Some (None, rs, ri)
               end) (fun '(g_i, rs, ri) =>
         bind (bt_insert keep (b_quad_index_cmp cmp rs (sinsert qs (Quad s_i p_i o_i g_i))) (vacant_key qs) qi)
           (fun qi' => Some (true, BDataset rs (sinsert qs (Quad s_i p_i o_i g_i)) ri qi')))))))).
    { intros fg; apply agrees_get; cbn [bd_resources bd_quads bd_ri bd_qi].
      pose proof (agrees_acquire cmp keep rs ri (q_s q) fs) as A.
      destruct (b_acquire cmp keep rs ri (q_s q) fs) as [[[s_i rs1] ri1]|]; cbn [bind option_map] in *;
        [eapply agrees_bd_table; [exact A|]|now apply agrees_bd_table_none].
      cbn [bd_resources bd_quads bd_ri bd_qi]; clear A.
      pose proof (agrees_acquire cmp keep rs1 ri1 (q_p q) fp) as A.
      destruct (b_acquire cmp keep rs1 ri1 (q_p q) fp) as [[[p_i rs2] ri2]|]; cbn [bind option_map] in *;
        [eapply agrees_bd_table; [exact A|]|now apply agrees_bd_table_none].
      cbn [bd_resources bd_quads bd_ri bd_qi]; clear A.
      pose proof (agrees_acquire cmp keep rs2 ri2 (q_o q) fo) as A.
      destruct (b_acquire cmp keep rs2 ri2 (q_o q) fo) as [[[o_i rs3] ri3]|]; cbn [bind option_map] in *;
        [eapply agrees_bd_table; [exact A|]|now apply agrees_bd_table_none].
      cbn [bd_resources bd_quads bd_ri bd_qi]; clear A.
      match goal with |- agrees _ _ (bind ?m _) => set (r4 := m) end.
      assert (G : agrees (match fg with
                   | Some (g, f) => (g_i <- m_bd_table (m_b_acquire cmp keep g f) ;; ret (Some g_i))%act
                   | None => ret None
                   end) (BDataset rs3 qs ri3 qi)
                (option_map (fun '(g_i, rs, ri) => (g_i, BDataset rs qs ri qi)) r4)).
      { unfold r4; destruct fg as [[g f]|]; [|apply agrees_ret].
        pose proof (agrees_acquire cmp keep rs3 ri3 g f) as A.
        destruct (b_acquire cmp keep rs3 ri3 g f) as [[[g_i rs4] ri4]|]; cbn [bind option_map] in *;
          [eapply agrees_bd_table; [exact A|apply agrees_ret]|now apply agrees_bd_table_none]. }
      clearbody r4; destruct r4 as [[[g_i rs4] ri4]|]; cbn [bind option_map] in *;
        [eapply agrees_then; [exact G|]|now apply agrees_then_none].
      apply agrees_get; cbn [bd_resources bd_quads bd_ri bd_qi]; apply agrees_put_then.
      set (qs' := sinsert qs _).
      pose proof (quiet_m_insert (St:=@bdataset R) keep (m_quad_index_cmp cmp (b_quad_at rs4 qs'))
        (b_quad_index_cmp cmp rs4 qs') (vacant_key qs) qi
        (fun i => quiet_quad_index_cmp cmp (b_quad_at rs4 qs') i _)) as Q.
      destruct (bt_insert keep _ _ _) as [qi'|]; cbn [bind].
      - eapply agrees_then; [apply agrees_quiet_some, Q|]; apply agrees_put_then, agrees_ret.
      - apply agrees_then_none, agrees_quiet_none, Q. }
    match goal with |- agrees _ _ (bind ?m _) => set (rg := m) end.
    assert (G : agrees (match q_g q with
                  | Some g => (f <- m_bd_table (m_b_index_of_resource cmp g) ;; ret (Some (g, f)))%act
                  | None => ret None
                  end) (BDataset rs qs ri qi)
              (option_map (fun fg => (fg, BDataset rs qs ri qi)) rg)).
    { unfold rg; destruct (q_g q) as [g|]; [|apply agrees_ret].
      pose proof (agrees_index_of cmp rs ri g) as A.
      destruct (b_index_of_resource cmp rs ri g) as [f|]; cbn [bind option_map] in *;
        [eapply agrees_bd_table; [exact A|apply agrees_ret]|now apply agrees_bd_table_none]. }
    clearbody rg; destruct rg as [fg|]; cbn [bind option_map] in *;
      [eapply agrees_then; [exact G|]; apply Rest|now apply agrees_then_none].
  Qed.

  Lemma agrees_bd_remove d q : agrees (m_bd_remove cmp q) d (bd_remove cmp d q).
  Proof.
    unfold m_bd_remove, bd_remove; apply agrees_get.
    pose proof (quiet_m_remove (St:=@bdataset R) _ _ q (bd_qi d)
      (fun i => quiet_quad_at_cmp cmp (b_quad_at (bd_resources d) (bd_quads d)) i q)) as Q.
    change (kcmp (cmpk:=quad_cmp cmp) (b_quad_at (bd_resources d) (bd_quads d)))
      with (b_quad_cmp cmp (bd_resources d) (bd_quads d)) in Q.
    destruct d as [rs qs ri qi]; cbn [bd_resources bd_quads bd_ri bd_qi] in *.
    destruct (bt_remove _ q qi) as [[found qi']|]; cbn [bind];
      [|apply agrees_then_none, agrees_quiet_none, Q].
    eapply agrees_then; [apply agrees_quiet_some, Q|]; cbn beta iota; apply agrees_put_then.
    destruct found as [i|]; [|apply agrees_ret].
    destruct (sremove qs i) as [[x qs']|]; [|apply agrees_need_none].
    apply agrees_need_then; cbn beta iota; cbn [bind]; apply agrees_put_then.
    assert (Fv : forall v rs i, quiet (St:=@btable R) (m_resource_cmp cmp (br_val rs) i v)
                   (b_resource_cmp cmp rs i v))
      by (intros; apply (quiet_resource_cmp cmp (br_val _))).
    assert (Fi : forall v rs i, quiet (St:=@btable R) (m_resource_index_cmp cmp (br_val rs) i v)
                   (b_resource_index_cmp cmp rs i v))
      by (intros; apply (quiet_resource_index_cmp cmp (br_val _))).
    pose proof (agrees_release _ _ rs ri (q_s x) (q_s q) (Fv (q_s q))) as A.
    destruct (b_release _ rs ri (q_s x) (q_s q)) as [[rs1 ri1]|]; cbn [bind option_map] in *;
      [eapply agrees_bd_table; [exact A|]|now apply agrees_bd_table_none].
    cbn [bd_resources bd_quads bd_ri bd_qi]; clear A.
    pose proof (agrees_release _ _ rs1 ri1 (q_p x) (q_p q) (Fv (q_p q))) as A.
    destruct (b_release _ rs1 ri1 (q_p x) (q_p q)) as [[rs2 ri2]|]; cbn [bind option_map] in *;
      [eapply agrees_bd_table; [exact A|]|now apply agrees_bd_table_none].
    cbn [bd_resources bd_quads bd_ri bd_qi]; clear A.
    pose proof (agrees_release _ _ rs2 ri2 (q_o x) (q_o q) (Fv (q_o q))) as A.
    destruct (b_release _ rs2 ri2 (q_o x) (q_o q)) as [[rs3 ri3]|]; cbn [bind option_map] in *;
      [eapply agrees_bd_table; [exact A|]|now apply agrees_bd_table_none].
    cbn [bd_resources bd_quads bd_ri bd_qi]; clear A.
    destruct (q_g x) as [g_i|]; [|unfold andthen at 1; apply agrees_ret].
    pose proof (agrees_release _ _ rs3 ri3 g_i g_i (Fi g_i)) as A.
    destruct (b_release _ rs3 ri3 g_i g_i) as [[rs4 ri4]|]; cbn [bind option_map] in *;
      [eapply agrees_bd_table; [exact A|]|now apply agrees_bd_table_none].
    apply agrees_ret.
  Qed.

  Lemma agrees_bd_extend l : forall d,
    agrees (m_bd_extend cmp keep l) d (option_map (fun d => (tt, d)) (bd_extend cmp keep d l)).
  Proof.
    induction l as [|q l IH]; intros d; [apply agrees_ret|]; cbn [m_bd_extend bd_extend].
    pose proof (agrees_bd_insert d q) as A.
    destruct (bd_insert cmp keep d q) as [[b d']|]; cbn [bind]; [|now apply agrees_then_none].
    eapply agrees_then; [exact A|apply IH].
  Qed.

  Lemma agrees_bd_step d o : agrees (m_bd_step cmp keep o) d (bd_step cmp keep d o).
  Proof.
    destruct o as [q|q|l|q| | | |]; cbn [m_bd_step bd_step].
    - pose proof (agrees_bd_insert d q) as A.
      destruct (bd_insert cmp keep d q) as [[b d']|]; cbn [bind]; [|now apply agrees_then_none].
      eapply agrees_then; [exact A|apply agrees_ret].
    - pose proof (agrees_bd_remove d q) as A.
      destruct (bd_remove cmp d q) as [[b d']|]; cbn [bind]; [|now apply agrees_then_none].
      eapply agrees_then; [exact A|apply agrees_ret].
    - pose proof (agrees_bd_extend l d) as A.
      destruct (bd_extend cmp keep d l) as [d'|]; cbn [bind option_map] in *; [|now apply agrees_then_none].
      eapply agrees_then; [exact A|apply agrees_ret].
    - pose proof (agrees_bd_contains d q) as A.
      destruct (bd_contains cmp d q) as [b|]; cbn [bind option_map] in *; [|now apply agrees_then_none].
      eapply agrees_then; [exact A|apply agrees_ret].
    - apply agrees_get, agrees_ret.
    - apply agrees_get, agrees_ret.
    - apply agrees_get; destruct (bd_iter d); cbn [bind]; [apply agrees_need_then, agrees_ret|apply agrees_need_none].
    - apply agrees_get; destruct (bd_into_iter d); cbn [bind]; [apply agrees_need_then, agrees_ret|apply agrees_need_none].
  Qed.
End Dataset.
