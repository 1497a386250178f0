(** Extractions interrupted by panics of the comparison or of [Clone]. *)
From Coq Require Import List Bool Arith Lia Permutation Sorted.
Import ListNotations.
From Verif Require Import Base SlabModel TripleModel TriplePatternModel QuadPatternModel SetSpec ContainerSpec
  IndexedSpec Machine BaseProofs BResourceModel BResourceProofs BTreeDatasetModel BTreeDatasetProofs
  IResourceModel IResourceProofs IndexedDatasetModel IndexedDatasetProofs IndexedPatternProofs
  IndexedHistoryProofs IndexedRunProofs IterModel IterSpec IterProofs
  CrashModel CrashSpec ICrashSpec CrashProofs CrashAgree CrashHistoryProofs
  ICrashModel ICrashProofs ICrashReads ICrashAgree ICrashHistory ExtractCrashModel ExtractCrashSpec.

(** ** The search *)
Definition bump (i : nat) (m : pm) : pm := PM (pm_s m) (pm_p m) (pm_o m) (pm_g m) (S i).

Lemma pm_poll_seek fuel cap qs m :
  pm_poll fuel cap qs m =
  match pm_seek fuel cap qs m with
  | None => None
  | Some (None, m') => Some (None, m')
  | Some (Some (i, q), m') => Some (Some (i, q), bump i m')
  end.
Proof.
  revert m; induction fuel as [|fuel IH]; intros m; [reflexivity|].
  cbn [pm_poll pm_seek]; destruct (pm_i m <? cap); [|reflexivity].
  destruct (s_next (pm_s m) (pm_i m)) as [[i|] cs]; [|reflexivity].
  destruct (sget qs i) as [q|]; [|reflexivity].
  destruct (c_next (pm_p m) i q) as [[|[j|]] cp]; [|apply IH|reflexivity].
  destruct (c_next (pm_o m) i q) as [[|[j|]] co]; [|apply IH|reflexivity].
  destruct (c_next (pm_g m) i q) as [[|[j|]] cg]; [reflexivity|apply IH|reflexivity].
Qed.

Lemma pm_next_seek fuel cap qs m :
  pm_next fuel cap qs m =
  match pm_seek fuel cap qs m with
  | None => None
  | Some (None, _) => Some None
  | Some (Some (i, q), m') => Some (Some (i, q, bump i m'))
  end.
Proof.
  rewrite pm_next_poll, pm_poll_seek; destruct (pm_seek fuel cap qs m) as [[[[i q]|] m']|]; reflexivity.
Qed.

(** The same search again, from where it was left. *)
Lemma pm_seek_over fuel cap qs m m' :
  pm_seek fuel cap qs m = Some (None, m') -> forall f, pm_seek (S f) cap qs m' = Some (None, m').
Proof.
  intros H f.
  assert (P : pm_poll fuel cap qs m = Some (None, m')) by now rewrite pm_poll_seek, H.
  pose proof (pm_poll_fused _ _ _ _ _ P f) as F; rewrite pm_poll_seek in F.
  destruct (pm_seek (S f) cap qs m') as [[[[i q]|] m2]|]; congruence.
Qed.

Lemma pm_seek_again fuel cap qs m i x m' :
  pm_seek fuel cap qs m = Some (Some (i, x), m') ->
  sget qs i = Some x /\ forall f qs',
    (sget qs' i = None -> pm_seek (S f) cap qs' m' = Some (None, m')) /\
    (sget qs' i = Some x -> pm_seek (S f) cap qs' m' = Some (Some (i, x), m')).
Proof.
  revert m; induction fuel as [|fuel IH]; intros m H; [discriminate|].
  cbn [pm_seek] in H; destruct (pm_i m <? cap) eqn:Ei; [|discriminate].
  pose proof (s_next_idem (pm_s m) (pm_i m)) as Is.
  destruct (s_next (pm_s m) (pm_i m)) as [[k|] cs]; cbn [snd] in Is; [|discriminate].
  destruct (sget qs k) as [q|] eqn:Eq; [|discriminate].
  pose proof (c_next_idem (pm_p m) k q) as Ip.
  destruct (c_next (pm_p m) k q) as [[|[j|]] cp]; cbn [snd] in Ip; [|eapply IH; exact H|discriminate].
  pose proof (c_next_idem (pm_o m) k q) as Io.
  destruct (c_next (pm_o m) k q) as [[|[j|]] co]; cbn [snd] in Io; [|eapply IH; exact H|discriminate].
  pose proof (c_next_idem (pm_g m) k q) as Ig.
  destruct (c_next (pm_g m) k q) as [[|[j|]] cg]; cbn [snd] in Ig; [|eapply IH; exact H|discriminate].
  inversion H; subst; clear H IH; split; [exact Eq|]; intros f qs'; split.
  - intros E'; cbn [pm_seek pm_i pm_s pm_p pm_o pm_g]; now rewrite Ei, Is, E'.
  - intros E'; cbn [pm_seek pm_i pm_s pm_p pm_o pm_g]; now rewrite Ei, Is, E', Ip, Io, Ig.
Qed.

(** What the search finds from now on. *)
Definition ahead (cap : nat) (qs : slab (quad nat)) (m : pm) (r : list (nat * quad nat)) : Prop :=
  match r with
  | [] => exists m', pm_seek (S cap) cap qs m = Some (None, m')
  | (i, x) :: r => exists m', pm_seek (S cap) cap qs m = Some (Some (i, x), m') /\
                     sget qs i = Some x /\ trace cap qs (bump i m') r
  end.

Lemma trace_ahead cap qs m r : trace cap qs m r -> ahead cap qs m r.
Proof.
  intros T; destruct T as [m K E|m i x m' r K E Hi Hg T]; rewrite pm_next_seek in E; cbn [ahead].
  - destruct (pm_seek (S cap) cap qs m) as [[[[i q]|] m']|]; try discriminate; eauto.
  - destruct (pm_seek (S cap) cap qs m) as [[[[j q]|] m2]|]; try discriminate; inversion E; subst; eauto.
Qed.

(** ** Actions that read only, from a given state *)
Definition steady {St A} (a : act St A) (s : St) (r : option A) : Prop :=
  exists k, forall n,
    a n s = if n <? k then Interrupted s
            else match r with Some x => Done x (n - k) s | None => Failed s end.

Lemma steady_ret {St A} (x : A) (s : St) : steady (ret x) s (Some x).
Proof. exists 0; intros n; cbn; now rewrite Nat.sub_0_r. Qed.

Lemma steady_then {St A B} (a : act St A) (f : A -> act St B) s r g :
  steady a s r -> (forall x, r = Some x -> steady (f x) s (g x)) -> steady (andthen a f) s (bind r g).
Proof.
  intros [k Hk] Hf; destruct r as [x|]; cbn.
  - destruct (Hf x eq_refl) as [j Hj]; exists (k + j); intros n; unfold andthen; rewrite Hk.
    destruct (n <? k) eqn:E1.
    + apply Nat.ltb_lt in E1; replace (n <? k + j) with true; [reflexivity|].
      symmetry; apply Nat.ltb_lt; lia.
    + apply Nat.ltb_ge in E1; rewrite Hj; replace (n <? k + j) with (n - k <? j).
      * destruct (n - k <? j); [reflexivity|]; now rewrite Nat.sub_add_distr.
      * destruct (n <? k + j) eqn:E2.
        -- apply Nat.ltb_lt in E2; apply Nat.ltb_lt; lia.
        -- apply Nat.ltb_ge in E2; apply Nat.ltb_ge; lia.
  - exists k; intros n; unfold andthen; rewrite Hk; destruct (n <? k); reflexivity.
Qed.

Lemma steady_get {St B} (f : St -> act St B) s r : steady (f s) s r -> steady (andthen get f) s r.
Proof. auto. Qed.

(** ** What [drained] says *)
Lemma nodup_apart {X} (l m : list X) :
  NoDup l -> NoDup m -> (forall x, In x l -> ~ In x m) -> NoDup (l ++ m).
Proof.
  induction l as [|x l IH]; intros Hl Hm H; [exact Hm|]; cbn; inversion Hl; subst; constructor.
  - rewrite in_app_iff; intros [A|A]; [contradiction|exact (H x (or_introl eq_refl) A)].
  - apply IH; auto; intros y Hy; apply H; now right.
Qed.

Lemma nodup_part {X} (l : list X) : forall k, NoDup l -> NoDup (firstn k l).
Proof.
  induction l as [|x l IH]; intros [|k] H; try constructor; inversion H; subst.
  - intros Hx; apply H2; rewrite <- (firstn_skipn k l); apply in_app_iff; now left.
  - now apply IH.
Qed.

Lemma over_items {X} (ys : list (option (option X))) : over ys -> items ys = [] /\ ~ In None ys.
Proof.
  induction ys as [|y ys IH]; intros H; [split; [reflexivity|intros []]|].
  rewrite (H y (or_introl eq_refl)); destruct IH as [A B]; [intros z Hz; apply H; now right|].
  split; [exact A|]; intros [C|C]; [discriminate|contradiction].
Qed.

Lemma drained_items {X} (rest : list X) ys taken :
  drained rest ys taken ->
  exists k lost, k + lost <= length rest /\ lost <= 1 /\
    items ys = firstn k rest /\ taken = firstn (k + lost) rest /\
    (lost = 1 -> In None ys) /\ (In (Some None) ys -> lost = 1 \/ k = length rest).
Proof.
  induction 1 as [rest|x rest ys taken D IH|x rest ys taken D IH|x rest ys O|ys O].
  - exists 0, 0; cbn; split; [lia|]; split; [lia|]; repeat split; [lia|tauto].
  - destruct IH as (k & lost & A & B & C & E & F & G); exists (S k), lost; cbn.
    split; [lia|]; split; [lia|]; split; [now rewrite C|]; split; [now rewrite E|].
    split; [auto|]; intros [H|H]; [discriminate|]; destruct (G H); [auto|right; lia].
  - destruct IH as (k & lost & A & B & C & E & F & G); exists k, lost; cbn.
    split; [exact A|]; split; [lia|]; split; [exact C|]; split; [exact E|].
    split; [auto|]; intros [H|H]; [discriminate|]; exact (G H).
  - exists 0, 1; cbn; destruct (over_items _ O) as [A _]; split; [lia|]; split; [lia|].
    split; [exact A|]; split; [reflexivity|]; split; auto.
  - exists 0, 0; cbn; destruct (over_items _ O) as [A _]; split; [lia|]; split; [lia|].
    split; [exact A|]; split; [reflexivity|]; split; [lia|auto].
Qed.

Section Proofs.
  Context {R : Type} {cmp : R -> R -> comparison} (L : ord_laws cmp).
  Context (keep : bool).
  Notation qcmp := (quad_cmp cmp).
  Let LQ : ord_laws qcmp := quad_cmp_laws cmp L.
  Notation wr d := (i_quad_with_resources (id_resources d)).

  (** ** The constraints *)
  Lemma steady_index_of (d : @idataset R) v :
    steady (m_id_table (m_i_index_of_resource cmp v)) d (i_index_of_resource cmp (id_resources d) (id_ri d) v).
  Proof.
    pose proof (quiet_m_get (St:=@itable R) _ _ v (id_ri d)
      (fun i => quiet_resource_cmp cmp (ir_val (id_resources d)) i v)) as (k & Hk).
    exists k; intros n; unfold m_id_table, zoom, m_i_index_of_resource, andthen, get; cbn [fst snd].
    rewrite Hk; unfold i_index_of_resource, i_resource_cmp.
    destruct (n <? k); [destruct d; reflexivity|].
    match goal with |- match match ?a with _ => _ end with _ => _ end =
                       match ?b with _ => _ end => change b with a; destruct a end;
      destruct d; reflexivity.
  Qed.

  Lemma steady_given (d : @idataset R) p v :
    steady (m_given_constraint cmp p v) d (given_constraint cmp (id_resources d) (id_ri d) p v).
  Proof.
    unfold m_given_constraint, given_constraint, m_id_get_resource, i_get_resource.
    eapply steady_then.
    - eapply steady_then; [apply steady_index_of|]; intros f _; apply steady_get.
      destruct f; apply steady_ret.
    - intros f _; apply steady_ret.
  Qed.

  Lemma steady_pm_new (d : @idataset R) c : steady (m_pm_new cmp c) d (pm_new cmp d c).
  Proof.
    unfold m_pm_new, pm_new.
    eapply steady_then; [destruct (cq_subject c); [apply steady_ret|apply steady_given]|]; intros s _.
    eapply steady_then; [destruct (cq_predicate c); try apply steady_ret; apply steady_given|]; intros p _.
    eapply steady_then; [destruct (cq_object c); try apply steady_ret; apply steady_given|]; intros o _.
    eapply steady_then; [|intros g _; apply steady_ret].
    destruct (cq_graph c) as [| | | |[g|]]; try apply steady_ret; apply steady_given.
  Qed.

  (** ** The removal: which quads remain, and their values *)

  (** However the action ends, the state it leaves has the property. *)
  Definition leaves {St A} (a : act St A) (n : nat) (s : St) (Q : St -> Prop) : Prop :=
    match a n s with Done _ _ s' | Interrupted s' | Failed s' => Q s' end.

  Lemma leaves_then {St A B} (a : act St A) (f : A -> act St B) n s (Q : St -> Prop) :
    leaves a n s Q -> (forall x m s', Q s' -> leaves (f x) m s' Q) -> leaves (andthen a f) n s Q.
  Proof. unfold leaves, andthen; intros H Hf; destruct (a n s); auto; apply Hf, H. Qed.

  Lemma runs_leaves {St A} (a : act St A) n s P E (Q : St -> Prop) :
    runs a n s P E -> leaves a n s Q ->
    runs a n s (fun x s' => P x s' /\ Q s') (fun s' => E s' /\ Q s').
  Proof. unfold runs, leaves; destruct (a n s); auto. Qed.

  Definition fewer (qs : slab (quad nat)) (rs : slab (iresource R)) (d : @idataset R) : Prop :=
    id_quads d = qs /\ forall r v, ir_val (id_resources d) r = Some v -> ir_val rs r = Some v.

  Lemma leaves_release p i k qs rs0 : forall n d,
    fewer qs rs0 d ->
    leaves (m_id_table (m_i_release (m_resource_index_cmp cmp) p i k k)) n d (fewer qs rs0).
  Proof.
    intros n d [Hq Hv]; unfold m_id_table, leaves, zoom, m_i_release, andthen, get, need, put, ret.
    destruct (sget (id_resources d) k) as [r|] eqn:Er; [|split; assumption].
    set (r' := ir_upd p (ns_remove i) r); set (rs := sset (id_resources d) k r').
    assert (V : forall j v, ir_val rs j = Some v -> ir_val rs0 j = Some v).
    { intros j v; unfold rs, ir_val; rewrite (sget_sset _ _ _ _ _ Er); destruct (j =? k) eqn:Ej.
      - apply Nat.eqb_eq in Ej; subst j; cbn; intros E; apply Hv; unfold ir_val; rewrite Er; cbn.
        rewrite <- E; unfold r'; destruct r, p; reflexivity.
      - apply Hv. }
    destruct (ir_is_empty r'); [|split; assumption].
    destruct (quiet_m_remove (St:=@itable R) _ _ k (id_ri d)
      (fun j => quiet_resource_index_cmp cmp (ir_val rs) j k)) as (m & Hm).
    rewrite Hm; destruct (n <? m); [split; assumption|].
    destruct (bt_remove _ k (id_ri d)) as [[f ri]|]; [|split; assumption].
    destruct (sremove rs k) as [[y rs2]|] eqn:E2; [|split; assumption].
    split; [exact Hq|]; cbn [id_resources]; intros j v; unfold ir_val; rewrite (sget_sremove _ _ _ _ _ E2).
    destruct (j =? k); [discriminate|apply V].
  Qed.

  Lemma leaves_tail i x q n d qs rs0 :
    fewer qs rs0 d -> leaves (m_tail (cmp:=cmp) false i x q) n d (fewer qs rs0).
  Proof.
    intros H; unfold m_tail, m_rel.
    apply leaves_then; [now apply leaves_release|]; clear; intros _ n d H.
    apply leaves_then; [now apply leaves_release|]; clear; intros _ n d H.
    apply leaves_then; [now apply leaves_release|]; clear; intros _ n d H.
    destruct (q_g x) as [g|]; [|exact H].
    apply leaves_then; [now apply leaves_release|]; clear; intros b n d H; exact H.
  Qed.

  (** The quad [i] is gone; [d'] has otherwise the quads of [d]. *)
  Definition without (i : nat) (d d' : @idataset R) : Prop :=
    (forall j, sget (id_quads d') j = if j =? i then None else sget (id_quads d) j) /\
    forall r v, ir_val (id_resources d') r = Some v -> ir_val (id_resources d) r = Some v.

  Lemma runs_taken F d ks lost i q n :
    wid_inv (cmp:=cmp) F d ks lost -> In i (id_qi d) ->
    i_quad_at (id_resources d) (id_quads d) i = Some q ->
    runs (m_id_remove_by_index cmp i true) n d
      (fun _ d' => wid_inv (cmp:=cmp) F d' (del qcmp q ks) lost /\ without i d d')
      (fun d' => d' = d \/ wid_inv (cmp:=cmp) F d' (del qcmp q ks) lost /\ without i d d').
  Proof.
    intros W Hi Hv; pose proof (wid_idx _ _ _ _ W) as I2.
    unfold m_id_remove_by_index; apply runs_get_then.
    destruct (bt_remove_spec LQ _ _ _ q I2) as (r & qi & E & I2' & Hr).
    assert (Hin : In q ks).
    { destruct I2 as [HM _]; destruct (mapM_in_inv _ _ _ _ HM Hi) as (y & Hy & Hin); congruence. }
    destruct r as [i'|]; [|destruct Hr; contradiction].
    destruct Hr as (Hv' & _ & HP).
    assert (i' = i) as ->.
    { eapply (indexes_inj LQ _ _ _ _ _ _ I2); eauto.
      eapply Permutation_in; [symmetry; exact HP|now left]. }
    clear Hv'; pose proof Hv as Hv0.
    unfold i_quad_at in Hv; destruct (sget (id_quads d) i) as [x|] eqn:Ex; [|discriminate].
    cbn in Hv; destruct (sremove_some _ _ _ Ex) as (qs & Eqs).
    apply runs_andthen.
    eapply runs_quiet_then.
    { eapply quiet_eq; [eapply quiet_m_remove; intros; apply quiet_quad_index_cmp|].
      rewrite (bt_remove_icmp qcmp _ i q _ Hv0); exact E. }
    { auto. }
    intros m; cbn beta iota; apply runs_put; intros m'; apply runs_get_then.
    cbn [id_quads id_resources id_ri id_qi id_s id_p id_o id_dg id_ng].
    eapply runs_need_then; [exact Eqs|]; cbn beta iota; apply runs_put_then.
    assert (G : forall d', fewer qs (id_resources d) d' -> without i d d').
    { intros d' [Hq Hr]; split; [|exact Hr]; intros j; rewrite Hq; apply (sget_sremove _ _ _ _ _ Eqs). }
    eapply runs_weak;
      [apply runs_leaves;
        [apply (runs_removal L F false d ks lost i x q qs qi m' W Hin Ex Hv Eqs HP I2')
        |apply (leaves_tail i x q m' _ qs (id_resources d)); split; [reflexivity|auto]]
      | |]; cbn beta.
    - intros _ d' [A B]; auto.
    - intros d' [A B]; auto.
  Qed.

  (** Without loss all the quads of the slab are in the index. *)
  Lemma no_iloss F (d : @idataset R) ks i :
    wid_inv (cmp:=cmp) F d ks [] -> sget (id_quads d) i <> None -> In i (id_qi d).
  Proof.
    intros W H; pose proof (wid_idx _ _ _ _ W) as I2; pose proof (wid_len _ _ _ _ W) as I4.
    destruct (sget (id_quads d) i) as [x|] eqn:E; [|congruence].
    assert (ND : NoDup (id_qi d)) by (eapply (indexes_nodup LQ), I2).
    assert (Le : length (map fst (spairs (id_quads d))) <= length (id_qi d)).
    { rewrite map_length; fold (slen (id_quads d)); rewrite I4; destruct I2 as [HM _].
      apply mapM_length in HM; cbn; lia. }
    apply (NoDup_length_incl ND Le).
    - intros j Hj; destruct I2 as [HM _]; destruct (mapM_in_inv _ _ _ _ HM Hj) as (q & Hq & _).
      unfold i_quad_at in Hq; destruct (sget (id_quads d) j) as [y|] eqn:Ey; [|discriminate].
      apply in_map_iff; exists (j, y); split; [reflexivity|now apply spairs_in].
    - apply in_map_iff; exists (i, x); split; [reflexivity|now apply spairs_in].
  Qed.

  (** ** One call *)
  Notation vals d r := (mapM (fun e : nat * quad nat => wr d (snd e)) r).

  Lemma runs_call_end cap d m n :
    ahead cap (id_quads d) m [] ->
    runs (m_extract_call cmp cap) n (d, m)
      (fun y s => y = None /\ fst s = d /\ ahead cap (id_quads d) (snd s) []) (fun _ => False).
  Proof.
    intros (m' & E); unfold m_extract_call; apply runs_get_then; cbn beta iota.
    eapply runs_need_then; [exact E|]; cbn beta iota; apply runs_put_then, runs_ret.
    split; [reflexivity|]; split; [reflexivity|]; exists m'; exact (pm_seek_over _ _ _ _ _ E cap).
  Qed.

  Lemma runs_call_item cap d s m i x r q l n :
    wid_rep (cmp:=cmp) True d s [] -> ahead cap (id_quads d) m ((i, x) :: r) ->
    vals d ((i, x) :: r) = Some (q :: l) ->
    runs (m_extract_call cmp cap) n (d, m)
      (fun y '(d', m') => y = Some q /\ wid_rep (cmp:=cmp) True d' (del qcmp q s) [] /\
         ahead cap (id_quads d') m' r /\ vals d' r = Some l)
      (fun '(d', m') => d' = d /\ ahead cap (id_quads d) m' ((i, x) :: r) \/
         wid_rep (cmp:=cmp) True d' (del qcmp q s) [] /\ ahead cap (id_quads d') m' []).
  Proof.
    intros [ND W] (m' & E & Hx & T) V.
    apply mapM_cons in V as (q' & l' & Hq & Hl & Eql); inversion Eql; subst q' l'; cbn [snd] in Hq; clear Eql.
    destruct (pm_seek_again _ _ _ _ _ _ _ E) as (_ & Again).
    assert (Same : ahead cap (id_quads d) m' ((i, x) :: r)).
    { exists m'; split; [apply Again; exact Hx|]; split; [exact Hx|exact T]. }
    unfold m_extract_call; apply runs_get_then; cbn beta iota.
    eapply runs_need_then; [exact E|]; cbn beta iota; apply runs_put_then.
    eapply runs_need_then; [exact Hq|].
    eapply runs_quiet_then; [apply quiet_cloned|left; split; [reflexivity|exact Same]|].
    clear n; intros n; apply runs_andthen, runs_zoom; cbn [fst snd].
    assert (Hi : In i (id_qi d)) by (apply (no_iloss _ _ _ _ W); congruence).
    eapply runs_weak; [apply (runs_taken True d _ [] i q n W Hi)| |].
    { unfold i_quad_at; rewrite Hx; exact Hq. }
    - intros u d' [W' [Gq Gr]] n'; apply runs_get_then; cbn beta iota; apply runs_put_then, runs_ret.
      rewrite (del_ext L) in W' by assumption.
      assert (W2 : wid_rep (cmp:=cmp) True d' (del qcmp q s) []).
      { split; [now apply (nodup_del (cmp:=qcmp))|exact W']. }
      split; [reflexivity|]; split; [exact W2|].
      assert (T2 : trace cap (id_quads d') (bump i m') r).
      { eapply trace_local; [exact T|]; intros j Hj; cbn [bump pm_i] in Hj; rewrite Gq.
        destruct (j =? i) eqn:Ej; [apply Nat.eqb_eq in Ej; lia|reflexivity]. }
      split; [now apply trace_ahead|].
      rewrite <- Hl; apply mapM_ext; intros [j z] Hj; cbn [snd].
      apply (trace_live _ _ _ _ T2) in Hj as [_ Hz].
      destruct (wid_quads _ _ _ _ _ W2 Hz) as (v & Hv); rewrite Hv; symmetry.
      eapply iqwr_mono; [|exact Hv]; exact Gr.
    - intros d' [->|[W' [Gq Gr]]]; [now left|right].
      rewrite (del_ext L) in W' by assumption.
      split; [split; [now apply (nodup_del (cmp:=qcmp))|exact W']|].
      exists m'; apply Again; rewrite Gq, Nat.eqb_refl; reflexivity.
  Qed.

  (** ** Calls *)
  Notation step cap := (fun _ : unit => m_extract_call cmp cap).

  Lemma run_over cap d : forall l m,
    ahead cap (id_quads d) m [] ->
    exists ys m', m_run (step cap) (d, m) l = Some (ys, (d, m')) /\ over ys.
  Proof.
    induction l as [|[u n] l IH]; intros m H; [exists [], m; split; [reflexivity|intros y []]|].
    pose proof (runs_call_end cap d m n H) as Hr; unfold runs in Hr; cbn [m_run].
    destruct (m_extract_call cmp cap n (d, m)) as [y k [d1 m1]|s|s]; [|contradiction|contradiction].
    cbn [fst snd] in Hr; destruct Hr as (-> & -> & H1).
    destruct (IH m1 H1) as (ys & m' & -> & Ho); exists (Some None :: ys), m'; split; [reflexivity|].
    intros y [<-|Hy]; [reflexivity|auto].
  Qed.

  Lemma run_drained cap : forall l d s m r qs,
    wid_rep (cmp:=cmp) True d s [] -> ahead cap (id_quads d) m r -> vals d r = Some qs ->
    exists ys d' m' taken s', m_run (step cap) (d, m) l = Some (ys, (d', m')) /\
      drained qs ys taken /\ wid_rep (cmp:=cmp) True d' s' [] /\
      forall q, In q s' <-> In q s /\ ~ In q taken.
  Proof.
    induction l as [|[u n] l IH]; intros d s m r qs W H V.
    { exists [], d, m, [], s; split; [reflexivity|]; split; [constructor|]; split; [exact W|].
      intros q; cbn; tauto. }
    destruct r as [|[i x] r].
    - cbn in V; inversion V; subst qs; clear V.
      pose proof (runs_call_end cap d m n H) as Hr; unfold runs in Hr; cbn [m_run].
      destruct (m_extract_call cmp cap n (d, m)) as [y k [d1 m1]|w|w]; [|contradiction|contradiction].
      cbn [fst snd] in Hr; destruct Hr as (-> & -> & H1).
      destruct (run_over cap d l m1 H1) as (ys & m' & -> & Ho).
      exists (Some None :: ys), d, m', [], s; split; [reflexivity|]; split; [now constructor|].
      split; [exact W|]; intros q; cbn; tauto.
    - destruct qs as [|q qs].
      { apply mapM_cons in V as (y & ys & _ & _ & F); discriminate. }
      assert (Del : forall p, In p (del qcmp q s) <-> In p s /\ ~ In p [q]).
      { intros p; rewrite (in_del LQ); cbn; split; intros [A B]; split; try assumption; intros C.
        - destruct C as [C|[]]; subst; contradiction.
        - subst; apply B; now left. }
      pose proof (runs_call_item cap d s m i x r q qs n W H V) as Hr; unfold runs in Hr; cbn [m_run].
      destruct (m_extract_call cmp cap n (d, m)) as [y k [d1 m1]|[d1 m1]|w]; [| |contradiction].
      + destruct Hr as (-> & W1 & H1 & V1).
        destruct (IH d1 _ m1 r qs W1 H1 V1) as (ys & d' & m' & taken & s' & -> & D & W' & Hs).
        exists (Some (Some q) :: ys), d', m', (q :: taken), s'; split; [reflexivity|].
        split; [now constructor|]; split; [exact W'|].
        intros p; rewrite Hs, Del; cbn; tauto.
      + destruct Hr as [[-> H1]|[W1 H1]].
        * destruct (IH d s m1 _ _ W H1 V) as (ys & d' & m' & taken & s' & -> & D & W' & Hs).
          exists (None :: ys), d', m', taken, s'; split; [reflexivity|]; split; [now constructor|auto].
        * destruct (run_over cap d1 l m1 H1) as (ys & m' & -> & Ho).
          exists (None :: ys), d1, m', [q], (del qcmp q s); split; [reflexivity|].
          split; [now constructor|]; split; [exact W1|exact Del].
  Qed.

  (** ** Any number of calls, from any dataset *)
  Lemma id_extract_interrupted ops0 ops xs d spare c n :
    id_reached cmp keep ops0 ops xs d ->
    exists qs, id_pattern_matching cmp d spare c = Some qs /\
    match m_pm_new cmp c n d with
    | Failed _ => False
    | Interrupted d' => d' = d
    | Done m _ d' => d' = d /\
        forall calls, exists ys d' m' taken s0,
          m_run (step (capacity d spare)) (d, m) calls = Some (ys, (d', m')) /\
          drained qs ys taken /\ NoDup s0 /\
          (forall q, In q s0 <-> In q (final_set cmp ops0 ops xs) /\ ~ In q taken) /\
          id_iter d' = Some (sorted_elements qcmp s0) /\ id_len d' = length s0 /\
          forall l, exists ys d2 s lost,
            m_run (m_id_step cmp keep) d' l = Some (ys, d2) /\
            history qcmp s0 [] (map fst l) ys s lost /\
            id_len d2 = length s + length lost /\ id_iter d2 = Some (sorted_elements qcmp s) /\
            id_queries_within cmp d2 (s ++ lost)
    end.
  Proof.
    intros H; apply (reached_rep L) in H; pose proof H as [Hn (vs & I)].
    destruct (pm_new_spec L _ _ _ c I) as (m & Em & M).
    destruct (trace_found L _ _ spare _ _ _ _ H M) as (r & qs & T & Hl & El & F).
    exists qs; split.
    { unfold id_pattern_matching; rewrite Em; cbn [bind].
      rewrite (pm_collect_trace _ _ _ _ T) by lia; exact El. }
    destruct (steady_pm_new d c) as (k & Hk); rewrite Hk, Em.
    destruct (n <? k); [reflexivity|]; split; [reflexivity|].
    intros calls.
    destruct (run_drained _ calls d _ m r qs (id_rep_weak L True _ _ H) (trace_ahead _ _ _ _ T) El)
      as (ys & d' & m' & taken & s0 & Er & D & W & Hs).
    exists ys, d', m', taken, s0; split; [exact Er|]; split; [exact D|]; split; [exact (proj1 W)|].
    split; [exact Hs|]; destruct (wid_reads L _ _ _ _ W) as (A & B & _).
    split; [exact B|]; split; [now rewrite Nat.add_0_r in A|].
    intros l; destruct (run_id_history L keep True l _ _ _ W) as (ys2 & d2 & s & lost & Er2 & Hh & W2).
    destruct (wid_reads L _ _ _ _ W2) as (A2 & B2 & _).
    exists ys2, d2, s, lost; split; [exact Er2|]; split; [exact Hh|]; split; [exact A2|]; split; [exact B2|].
    exact (wid_queries L _ _ _ W2).
  Qed.

  (** The calls return the first items of the query, in its order; the dataset
      loses these and at most one other. *)
  Lemma id_extract_lost ops0 ops xs d spare c n m e d1 calls :
    id_reached cmp keep ops0 ops xs d ->
    m_pm_new cmp c n d = Done m e d1 ->
    exists qs ys d' m' k lost,
      id_pattern_matching cmp d spare c = Some qs /\
      m_run (step (capacity d spare)) (d1, m) calls = Some (ys, (d', m')) /\
      k + lost <= length qs /\ lost <= 1 /\ items ys = firstn k qs /\
      (lost = 1 -> In None ys) /\ (In (Some None) ys -> lost = 1 \/ k = length qs) /\
      id_len d' + k + lost = id_len d /\
      forall q, id_contains cmp d' q =
        Some (mem qcmp q (final_set cmp ops0 ops xs) && negb (mem qcmp q (firstn (k + lost) qs))).
  Proof.
    intros H E; pose proof H as Hr; apply (reached_rep L) in Hr.
    pose proof Hr as [Hn (vs & I)].
    destruct (pm_new_spec L _ _ _ c I) as (m0 & Em & M).
    destruct (trace_found L _ _ spare _ _ _ _ Hr M) as (r & qs & T & Hl & El & F).
    destruct (steady_pm_new d c) as (kk & Hk); rewrite Hk, Em in E.
    destruct (n <? kk); [discriminate|]; inversion E; subst m0 e d1; clear E.
    destruct (run_drained _ calls d _ m r qs (id_rep_weak L True _ _ Hr) (trace_ahead _ _ _ _ T) El)
      as (ys & d' & m' & taken & s0 & Er & D & W & Hs).
    destruct (drained_items _ _ _ D) as (k & lost & A1 & A2 & A3 & A4 & A5 & A6).
    exists qs, ys, d', m', k, lost; split.
    { unfold id_pattern_matching; rewrite Em; cbn [bind].
      rewrite (pm_collect_trace _ _ _ _ T) by lia; exact El. }
    split; [exact Er|]; split; [exact A1|]; split; [exact A2|]; split; [exact A3|]; split; [exact A5|].
    split; [exact A6|].
    assert (Hm : forall q, mem qcmp q s0 =
      mem qcmp q (final_set cmp ops0 ops xs) && negb (mem qcmp q (firstn (k + lost) qs))).
    { intros q; rewrite <- A4; specialize (Hs q).
      destruct (mem qcmp q s0) eqn:E1, (mem qcmp q (final_set cmp ops0 ops xs)) eqn:E2,
        (mem qcmp q taken) eqn:E3; try reflexivity; exfalso;
      repeat match goal with
      | HH : mem qcmp _ _ = true |- _ => apply (mem_true LQ) in HH
      | HH : mem qcmp _ _ = false |- _ => apply (mem_false LQ) in HH
      end; tauto. }
    split.
    - destruct (wid_reads L _ _ _ _ W) as (B & _).
      destruct (wid_reads L _ _ _ _ (id_rep_weak L True _ _ Hr)) as (B' & _).
      rewrite B, B', !Nat.add_0_r, <- Nat.add_assoc.
      assert (Hlen : length taken = k + lost) by (rewrite A4; apply firstn_length_le; exact A1).
      assert (NDq : NoDup qs) by apply F.
      rewrite <- Hlen, <- app_length; apply Permutation_length, NoDup_Permutation; [|exact Hn|].
      + apply nodup_apart; [exact (proj1 W)| |].
        * rewrite A4; now apply nodup_part.
        * intros q Hq; now apply Hs in Hq.
      + intros q; rewrite in_app_iff, Hs; split.
        * intros [[B1 _]|B1]; [exact B1|]; apply F; rewrite A4 in B1; rewrite <- (firstn_skipn (k + lost) qs).
          apply in_app_iff; now left.
        * intros Hq; destruct (mem qcmp q taken) eqn:Et.
          -- apply (mem_true LQ) in Et; now right.
          -- apply (mem_false LQ) in Et; left; auto.
    - intros q; rewrite <- Hm.
      destruct W as [Nw Wi]; rewrite <- (mem_sorted L); unfold id_contains, id_index_of_quad.
      destruct (bt_get_spec LQ _ _ _ q (wid_idx _ _ _ _ Wi)) as (f & Ef & Hf).
      change (i_quad_cmp cmp (id_resources d') (id_quads d'))
        with (kcmp (cmpk:=qcmp) (i_quad_at (id_resources d') (id_quads d'))).
      rewrite Ef; cbn [bind]; f_equal; destruct f; cbn; symmetry;
        [apply (mem_true LQ); tauto|now apply (mem_false LQ)].
  Qed.

  (** ** Without interruption *)
  Lemma agrees_extract_call cap d m :
    agrees (m_extract_call cmp cap) (d, m) (extract_call cmp cap (d, m)).
  Proof.
    unfold m_extract_call, extract_call; apply agrees_get; cbn beta iota; rewrite pm_poll_seek.
    destruct (pm_seek (S cap) cap (id_quads d) m) as [[[[i x]|] m']|]; cbn [bind];
      [| |apply agrees_need_none]; apply agrees_need_then; cbn beta iota; apply agrees_put_then;
      [|apply agrees_ret].
    destruct (wr d x) as [q|]; cbn [bind]; [|apply agrees_need_none]; apply agrees_need_then.
    eapply agrees_then; [apply agrees_quiet_some, quiet_cloned|].
    pose proof (agrees_zoom fst (fun d' (s : @idataset R * pm) => (d', snd s)) _ (d, m') _
                  (agrees_id_remove_by_index cmp d i true)) as A; cbn [fst snd] in A.
    destruct (id_remove_by_index cmp d i true) as [d2|]; cbn [bind option_map] in *;
      [eapply agrees_then; [exact A|]|now apply agrees_then_none].
    apply agrees_get; cbn beta iota; apply agrees_put_then, agrees_ret.
  Qed.

  Lemma calls_run {I X} (next : I -> option (option X * I)) n : forall i,
    calls next n i = run (fun i (_ : unit) => next i) i (repeat tt n).
  Proof.
    induction n as [|n IH]; intros i; [reflexivity|]; cbn [calls repeat run].
    destruct (next i) as [[x j]|]; [|reflexivity]; cbn [bind]; rewrite IH.
    destruct (run _ j (repeat tt n)) as [[l e]|]; reflexivity.
  Qed.

  Lemma id_extract_enough d c m cap j ys s :
    pm_new cmp d c = Some m -> calls (extract_call cmp cap) j (d, m) = Some (ys, s) ->
    exists k, forall n, k <= n ->
      (exists e, m_pm_new cmp c n d = Done m e d) /\
      m_run (step cap) (d, m) (repeat (tt, n) j) = Some (map Some ys, s).
  Proof.
    intros Em E; rewrite calls_run in E.
    assert (A : forall s (o : unit), agrees (step cap o) s (extract_call cmp cap s))
      by (intros [d0 m0] o; apply agrees_extract_call).
    destruct (run_enough _ _ A _ _ _ _ E) as (k1 & H1).
    destruct (steady_pm_new d c) as (k2 & H2); rewrite Em in H2.
    exists (k1 + k2); intros n Hn; split.
    - rewrite H2; replace (n <? k2) with false by (symmetry; apply Nat.ltb_ge; lia); eauto.
    - rewrite <- (H1 n) by lia; f_equal; clear; induction j as [|j IH]; cbn; congruence.
  Qed.

  Lemma id_extract_all_done d c m cap n e d' l ys s :
    m_pm_new cmp c n d = Done m e d' -> m_run (step cap) (d', m) l = Some (map Some ys, s) ->
    d' = d /\ pm_new cmp d c = Some m /\ calls (extract_call cmp cap) (length l) (d, m) = Some (ys, s).
  Proof.
    intros E1 E2; destruct (steady_pm_new d c) as (k & Hk); rewrite Hk in E1.
    destruct (n <? k); [discriminate|].
    destruct (pm_new cmp d c) as [m0|]; inversion E1; subst; clear E1.
    split; [reflexivity|]; split; [reflexivity|].
    assert (A : forall s (o : unit), agrees (step cap o) s (extract_call cmp cap s))
      by (intros [d0 m0] o; apply agrees_extract_call).
    apply (run_all_done _ _ A) in E2.
    rewrite calls_run, <- E2; f_equal; clear; induction l as [|[[] n] l IH]; cbn; congruence.
  Qed.
End Proofs.
