(** [IndexedBTreeGraph]: it behaves as an [IndexedBTreeDataset] whose quads are
    all in the default graph. *)
From Coq Require Import List Bool Arith Lia Permutation Sorted.
Import ListNotations.
From Verif Require Import Base SlabModel TripleModel TriplePatternModel QuadPatternModel SetSpec
  ContainerSpec PatternSpec IndexedSpec Machine BaseProofs PatternProofs BResourceModel
  BResourceProofs BTreeDatasetModel BTreeDatasetProofs BTreeGraphModel BTreeGraphProofs
  IResourceModel IResourceProofs IndexedDatasetModel IndexedDatasetProofs IndexedHistoryProofs
  IndexedConvertProofs IndexedPatternProofs IndexedRunProofs IndexedGraphModel.
Open Scope panic_scope.

Section Proofs.
  Context {R : Type} {cmp : R -> R -> comparison} (L : ord_laws cmp).
  Context (keep : bool).
  Notation qcmp := (quad_cmp cmp).
  Notation tcmp := (triple_cmp cmp).
  Let LQ : ord_laws qcmp := quad_cmp_laws cmp L.
  Let LT : ord_laws tcmp := triple_cmp_laws cmp L.

  Definition iemb (g : @igraph R) (dg : list nat) : @idataset R :=
    IDataset (ig_resources g) (smap iq (ig_triples g)) (ig_ri g) (ig_ti g)
      (ig_s g) (ig_p g) (ig_o g) dg [].

  Lemma iwr_iq rs t :
    i_quad_with_resources (R:=R) rs (iq t) = option_map iq (i_triple_with_resources rs t).
  Proof.
    unfold i_quad_with_resources, i_triple_with_resources; cbn.
    destruct (ir_val rs (t_s t)); cbn; [|reflexivity].
    destruct (ir_val rs (t_p t)); cbn; [|reflexivity].
    destruct (ir_val rs (t_o t)); reflexivity.
  Qed.

  Lemma iat_iq rs ts i :
    i_quad_at (R:=R) rs (smap iq ts) i = option_map iq (i_triple_at rs ts i).
  Proof.
    unfold i_quad_at, i_triple_at; rewrite sget_smap; destruct (sget ts i); cbn; [|reflexivity].
    apply iwr_iq.
  Qed.

  Lemma i_quad_cmp_iq rs ts i t :
    i_quad_cmp cmp rs (smap iq ts) i (iq t) = i_triple_cmp cmp rs ts i t.
  Proof.
    unfold i_quad_cmp, i_triple_cmp; rewrite iat_iq; destruct (i_triple_at rs ts i); cbn;
      [now rewrite qcmp_iq|reflexivity].
  Qed.

  Lemma i_quad_index_cmp_iq rs ts i j :
    i_quad_index_cmp cmp rs (smap iq ts) i j = i_triple_index_cmp cmp rs ts i j.
  Proof.
    unfold i_quad_index_cmp, i_triple_index_cmp; rewrite !iat_iq.
    destruct (i_triple_at rs ts i); cbn; [|reflexivity].
    destruct (i_triple_at rs ts j); cbn; [now rewrite qcmp_iq|reflexivity].
  Qed.

  Lemma iemb_len g dg : id_len (iemb g dg) = ig_len g.
  Proof. apply slen_smap. Qed.

  Lemma iemb_iter g dg : id_iter (iemb g dg) = option_map (map iq) (ig_iter g).
  Proof.
    unfold id_iter, ig_iter; rewrite <- mapM_option_map; apply mapM_ext; intros; apply iat_iq.
  Qed.

  Lemma iemb_into_iter g dg : id_into_iter (iemb g dg) = option_map (map iq) (ig_into_iter g).
  Proof.
    unfold id_into_iter, ig_into_iter; cbn; generalize (ig_triples g) as ts.
    induction (ig_ti g) as [|i l IH]; intros ts; cbn; [reflexivity|].
    rewrite sremove_smap; destruct (sremove ts i) as [[t ts']|]; cbn; [|reflexivity].
    rewrite iwr_iq; destruct (i_triple_with_resources _ t); cbn; [|reflexivity].
    rewrite IH; destruct (ig_into_triples _ ts' l); reflexivity.
  Qed.

  Lemma iemb_contains g dg t : id_contains cmp (iemb g dg) (iq t) = ig_contains cmp g t.
  Proof.
    unfold id_contains, ig_contains, id_index_of_quad, ig_index_of_triple; cbn.
    erewrite bt_get_het; [reflexivity|]; intros; apply i_quad_cmp_iq.
  Qed.

  Definition iemb2 dg (x : bool * @igraph R) : bool * @idataset R := (fst x, iemb (snd x) dg).

  Lemma iemb_insert g dg t :
    exists dg', id_insert cmp keep (iemb g dg) (iq t) =
                option_map (iemb2 dg') (ig_insert cmp keep g t).
  Proof.
    unfold id_insert, ig_insert; rewrite iemb_contains.
    destruct (ig_contains cmp g t) as [[|]|]; cbn; [now exists dg| |now exists dg].
    exists (ns_insert (vacant_key (ig_triples g)) dg); rewrite vacant_key_smap.
    unfold i_index_of_resource.
    destruct (bt_get _ (t_s t) _); cbn; [|reflexivity].
    destruct (bt_get _ (t_p t) _); cbn; [|reflexivity].
    destruct (bt_get _ (t_o t) _); cbn; [|reflexivity].
    destruct (i_acquire _ _ _ _ _ _ (t_s t) _) as [[[s_i ?] ?]|]; cbn; [|reflexivity].
    destruct (i_acquire _ _ _ _ _ _ (t_p t) _) as [[[p_i ?] ?]|]; cbn; [|reflexivity].
    destruct (i_acquire _ _ _ _ _ _ (t_o t) _) as [[[o_i ?] ?]|]; cbn; [|reflexivity].
    change (Quad s_i p_i o_i None) with (iq (Triple s_i p_i o_i)).
    rewrite sinsert_smap.
    erewrite bt_insert_het; [|intros; apply i_quad_index_cmp_iq].
    destruct (bt_insert _ _ _ _); reflexivity.
  Qed.

  (** Releasing by value or by index is the same. *)
  Lemma release_value (rs : slab (iresource R)) ri p i k v :
    sget rs k = None \/ ir_val rs k = Some v ->
    i_release (i_resource_index_cmp cmp) rs ri p i k k =
    i_release (i_resource_cmp cmp) rs ri p i k v.
  Proof.
    intros H; unfold i_release; destruct (sget rs k) as [r|] eqn:Er; cbn; [|reflexivity].
    destruct H as [H|H]; [discriminate|].
    unfold ir_val in H; rewrite Er in H; inv H.
    destruct (ir_is_empty _); [|reflexivity].
    rewrite (bt_remove_het _ (i_resource_cmp cmp (sset rs k (ir_upd p (ns_remove i) r))) k (ir_value r));
      [reflexivity|].
    intros j; unfold i_resource_index_cmp, i_resource_cmp.
    assert (ir_val (sset rs k (ir_upd p (ns_remove i) r)) k = Some (ir_value r)) as ->.
    { unfold ir_val; rewrite (sget_sset _ _ _ _ _ Er), Nat.eqb_refl; destruct p; reflexivity. }
    reflexivity.
  Qed.

  Lemma release_keeps {K} (rc : _ -> nat -> K -> option comparison) (rs : slab (iresource R)) ri p i k key rs' ri' b :
    i_release rc rs ri p i k key = Some (rs', ri', b) ->
    forall j v, ir_val rs j = Some v -> sget rs' j = None \/ ir_val rs' j = Some v.
  Proof.
    unfold i_release; destruct (sget rs k) as [r|] eqn:Er; cbn; [|discriminate].
    set (rs1 := sset rs k _).
    assert (H1 : forall j v, ir_val rs j = Some v -> ir_val rs1 j = Some v).
    { intros j v; unfold ir_val, rs1; rewrite (sget_sset _ _ _ _ _ Er).
      destruct (j =? k) eqn:E; [|auto]; apply Nat.eqb_eq in E; subst; rewrite Er; cbn.
      destruct p; auto. }
    destruct (ir_is_empty _).
    - destruct (bt_remove _ _ _) as [[? ?]|]; cbn; [|discriminate].
      destruct (sremove rs1 k) as [[x rs2]|] eqn:E2; cbn; [|discriminate].
      intros E; inv E; intros j v Hj; apply H1 in Hj; unfold ir_val in *.
      rewrite (sget_sremove _ _ _ _ _ E2); destruct (j =? k); auto.
    - intros E; inv E; auto.
  Qed.

  Lemma release_none {K} (rc : _ -> nat -> K -> option comparison) (rs : slab (iresource R)) ri p i k key rs' ri' b :
    i_release rc rs ri p i k key = Some (rs', ri', b) ->
    forall j, sget rs j = None -> sget rs' j = None.
  Proof.
    unfold i_release; destruct (sget rs k) as [r|] eqn:Er; cbn; [|discriminate].
    set (rs1 := sset rs k _).
    assert (H1 : forall j, sget rs j = None -> sget rs1 j = None).
    { intros j; unfold rs1; rewrite (sget_sset _ _ _ _ _ Er).
      destruct (j =? k) eqn:E; [|auto]; apply Nat.eqb_eq in E; congruence. }
    destruct (ir_is_empty _).
    - destruct (bt_remove _ _ _) as [[? ?]|]; cbn; [|discriminate].
      destruct (sremove rs1 k) as [[x rs2]|] eqn:E2; cbn; [|discriminate].
      intros E; inv E; intros j Hj; apply H1 in Hj.
      rewrite (sget_sremove _ _ _ _ _ E2); destruct (j =? k); auto.
    - intros E; inv E; auto.
  Qed.

  Lemma iemb_remove g dg s t :
    id_rep (cmp:=cmp) (iemb g dg) s ->
    exists dg', id_remove cmp (iemb g dg) (iq t) = option_map (iemb2 dg') (ig_remove cmp g t).
  Proof.
    intros [_ (vs & I)]; unfold id_remove, ig_remove; cbn.
    assert (E : bt_remove (i_quad_cmp cmp (ig_resources g) (smap iq (ig_triples g))) (iq t) (ig_ti g) =
                bt_remove (i_triple_cmp cmp (ig_resources g) (ig_triples g)) t (ig_ti g))
      by (apply bt_remove_het; intros; apply i_quad_cmp_iq).
    rewrite E; destruct (bt_remove_spec LQ _ _ _ (iq t) (ii_idx _ _ _ I)) as (r & qi & E' & _ & Hr).
    change (kcmp (cmpk:=qcmp) (i_quad_at (id_resources (iemb g dg)) (id_quads (iemb g dg))))
      with (i_quad_cmp cmp (ig_resources g) (smap iq (ig_triples g))) in E'.
    cbn [id_qi iemb] in E'; rewrite E in E'; rewrite E'; cbn.
    destruct r as [i|]; cbn; [|now exists dg].
    exists (ns_remove i dg); unfold id_remove_by_index; cbn.
    rewrite sremove_smap; destruct (sremove (ig_triples g) i) as [[x ts]|] eqn:Ex; cbn; [|reflexivity].
    destruct Hr as (Hv & _ & _); cbn in Hv; rewrite iat_iq in Hv.
    apply option_map_some in Hv as (t' & Hv & Et); apply iq_inj in Et; subst t'.
    unfold i_triple_at in Hv; apply sremove_inv in Ex; rewrite Ex in Hv; cbn in Hv.
    unfold i_triple_with_resources in Hv.
    destruct (ir_val (ig_resources g) (t_s x)) as [vs'|] eqn:Vs; cbn in Hv; [|discriminate].
    destruct (ir_val (ig_resources g) (t_p x)) as [vp|] eqn:Vp; cbn in Hv; [|discriminate].
    destruct (ir_val (ig_resources g) (t_o x)) as [vo|] eqn:Vo; cbn in Hv; [|discriminate].
    inv Hv; cbn.
    rewrite (release_value _ _ _ _ _ _ (or_intror Vs)).
    destruct (i_release _ _ _ PosS _ _ _) as [[[rs1 ri1] b1]|] eqn:E1; cbn; [|reflexivity].
    pose proof (release_keeps _ _ _ _ _ _ _ _ _ _ E1) as K1.
    rewrite (release_value _ _ _ _ _ _ (K1 _ _ Vp)).
    destruct (i_release _ rs1 _ PosP _ _ _) as [[[rs2 ri2] b2]|] eqn:E2; cbn; [|reflexivity].
    pose proof (release_keeps _ _ _ _ _ _ _ _ _ _ E2) as K2.
    rewrite (release_value rs2 ri2 PosO i (t_o x) vo).
    - destruct (i_release _ rs2 _ PosO _ _ _) as [[[rs3 ri3] b3]|] eqn:E3; reflexivity.
    - destruct (K1 _ _ Vo) as [H|H]; [|now apply K2].
      left; exact (release_none _ _ _ _ _ _ _ _ _ _ E2 _ H).
  Qed.

  Lemma iemb_extend l : forall g dg,
    exists dg', id_extend cmp keep (iemb g dg) (map iq l) =
                option_map (fun g => iemb g dg') (ig_extend cmp keep g l).
  Proof.
    induction l as [|t l IH]; intros g dg; cbn; [now exists dg|].
    destruct (iemb_insert g dg t) as (dg1 & ->).
    destruct (ig_insert cmp keep g t) as [[b g']|]; cbn; [apply IH|now exists dg].
  Qed.

  Lemma iemb_index idx : forall g dg,
    exists dg', id_index idx (iemb g dg) = option_map (fun g => iemb g dg') (ig_index idx g).
  Proof.
    induction idx as [|i idx IH]; intros g dg; cbn; [now exists dg|].
    rewrite sget_smap; destruct (sget (ig_triples g) i) as [t|]; cbn; [|now exists dg].
    change (i_use (R:=R)) with (ig_use (R:=R)).
    destruct (ig_use _ PosS _ _) as [rs1|]; cbn; [|now exists dg].
    destruct (ig_use rs1 PosP _ _) as [rs2|]; cbn; [|now exists dg].
    destruct (ig_use rs2 PosO _ _) as [rs3|]; cbn; [|now exists dg].
    exact (IH (IGraphS rs3 (ig_triples g) (ig_ri g) (ig_ti g) (ns_insert (t_s t) (ig_s g))
                 (ns_insert (t_p t) (ig_p g)) (ns_insert (t_o t) (ig_o g))) (ns_insert i dg)).
  Qed.

  Lemma iemb_convert b :
    exists dg, id_from_non_indexed (emb b) =
               option_map (fun g => iemb g dg) (ig_from_non_indexed (R:=R) b).
  Proof.
    unfold ig_from_non_indexed.
    exact (iemb_index (bg_ti b) (IGraphS _ (bg_triples b) (bg_ri b) (bg_ti b) [] [] []) []).
  Qed.

  (** ** Operations *)
  Definition qout (x : out (triple R)) : out (quad R) :=
    match x with
    | OUnit => OUnit | OBool b => OBool b | ONat n => ONat n | OList l => OList (map iq l)
    end.

  Lemma qout_inj x y : qout x = qout y -> x = y.
  Proof.
    destruct x, y; cbn; intros E; inv E; auto; f_equal; now apply map_iq_inj.
  Qed.

  Lemma iemb_step g dg s o :
    id_rep (cmp:=cmp) (iemb g dg) s ->
    exists dg', id_step cmp keep (iemb g dg) (IOp (qop o)) =
      option_map (fun x => (IOut (qout (fst x)), iemb (snd x) dg')) (ig_step cmp keep g o).
  Proof.
    intros H; destruct o as [t|t|l|t| | | |]; cbn [qop id_step ig_step].
    - destruct (iemb_insert g dg t) as (dg' & ->); exists dg'.
      destruct (ig_insert cmp keep g t) as [[b g']|]; reflexivity.
    - destruct (iemb_remove g dg s t H) as (dg' & ->); exists dg'.
      destruct (ig_remove cmp g t) as [[b g']|]; reflexivity.
    - destruct (iemb_extend l g dg) as (dg' & ->); exists dg'.
      destruct (ig_extend cmp keep g l); reflexivity.
    - rewrite iemb_contains; exists dg; destruct (ig_contains cmp g t); reflexivity.
    - exists dg; rewrite iemb_len; reflexivity.
    - exists dg; unfold id_is_empty; rewrite iemb_len; reflexivity.
    - exists dg; rewrite iemb_iter; destruct (ig_iter g); reflexivity.
    - exists dg; rewrite iemb_into_iter; destruct (ig_into_iter g); reflexivity.
  Qed.

  Lemma spec_out_iq s o :
    fst (spec_step qcmp (map iq s) (qop o)) = qout (fst (spec_step tcmp s o)).
  Proof.
    destruct o as [t|t|l|t| | | |]; cbn; rewrite ?mem_iq, ?map_length; try reflexivity.
    - f_equal; apply sorted_iq.
    - f_equal; apply sorted_iq.
  Qed.

  (** ** Logs *)
  Definition ic (c : change (triple R)) : change (quad R) := (fst c, iq (snd c)).

  Lemma apply_change_iq s c : apply_change qcmp (map iq s) (ic c) = map iq (apply_change tcmp s c).
  Proof. destruct c as [[] t]; cbn; [apply add_iq|apply del_iq]. Qed.

  Lemma apply_iq l : forall s, apply qcmp (map ic l) (map iq s) = map iq (apply tcmp l s).
  Proof.
    induction l as [|c l IH]; intros s; [reflexivity|]; cbn [map].
    rewrite !apply_cons, apply_change_iq; apply IH.
  Qed.

  Lemma extend_changes_iq l : forall s,
    extend_changes qcmp (map iq s) (map iq l) = map ic (extend_changes tcmp s l).
  Proof.
    induction l as [|t l IH]; intros s; cbn; [reflexivity|]; rewrite mem_iq, add_iq, !IH.
    destruct (mem tcmp t s); reflexivity.
  Qed.

  Lemma set_changes_iq s o :
    set_changes qcmp (map iq s) (qop o) = map ic (set_changes tcmp s o).
  Proof.
    destruct o as [t|t|l|t| | | |]; cbn; rewrite ?mem_iq; try reflexivity.
    - destruct (mem tcmp t s); reflexivity.
    - destruct (mem tcmp t s); reflexivity.
    - apply extend_changes_iq.
  Qed.

  Lemma set_log_iq ops : forall s,
    set_log qcmp (map iq s) (map qop ops) = map ic (set_log tcmp s ops).
  Proof.
    induction ops as [|o ops IH]; intros s; cbn; [reflexivity|].
    rewrite map_app, set_changes_iq, spec_step_iq, IH; reflexivity.
  Qed.

  Lemma known_log_iq W l : forall s,
    known_log tcmp triple_comps W s l -> known_log qcmp quad_comps W (map iq s) (map ic l).
  Proof.
    induction l as [|[b t] l IH]; intros s; [auto|].
    cbn -[apply_change]; intros [H1 H2]; split.
    - destruct b; [now apply repeats_known_iq|exact I].
    - change (true, iq t) with (ic (true, t)); change (b, iq t) with (ic (b, t)).
      rewrite apply_change_iq; auto.
  Qed.

  Lemma vacancies_iq l : forall n, vacancies n (map ic l) = vacancies n l.
  Proof. induction l as [|[[] t] l IH]; intros n; cbn; auto. Qed.

  Lemma last_change_iq (f : quad R -> R) r l :
    last_change cmp f r (map ic l) = last_change cmp (fun t => f (iq t)) r l.
  Proof.
    unfold last_change; generalize (@None bool); induction l as [|c l IH]; intros a; cbn; auto.
  Qed.

  Lemma stable_iq (f : quad R -> R) s l r :
    stable cmp f (map iq s) (map ic l) r <-> stable cmp (fun t => f (iq t)) s l r.
  Proof.
    unfold stable; rewrite last_change_iq; split; intros [(x & Hx & E) H]; (split; [|assumption]).
    - apply in_map_iff in Hx as (t & <- & Ht); eauto.
    - exists (iq x); rewrite in_map_iq; auto.
  Qed.

  (** ** The state of a history *)
  Definition gstate (g : @igraph R) (s0 : list (triple R)) (K : (R -> Prop) -> Prop) (n : nat)
      (l : list (change (triple R))) : Prop :=
    exists dg, istate (cmp:=cmp) (iemb g dg) (map iq s0) K n (map ic l).

  Definition grep (g : @igraph R) (s : list (triple R)) : Prop :=
    exists dg, id_rep (cmp:=cmp) (iemb g dg) (map iq s).

  Lemma gstate_rep g s0 K n l : gstate g s0 K n l -> grep g (apply tcmp l s0).
  Proof.
    intros (dg & H); exists dg; rewrite <- apply_iq; apply (is_rep _ _ _ _ _ H).
  Qed.

  Lemma gstate_step g s0 K n l o :
    gstate g s0 K n l ->
    let s := apply tcmp l s0 in
    exists g', ig_step cmp keep g o = Some (fst (spec_step tcmp s o), g') /\
      gstate g' s0 K n (l ++ set_changes tcmp s o).
  Proof.
    intros (dg & H) s.
    destruct (istate_set_step L keep _ _ _ _ _ (qop o) H) as (d' & E & H').
    destruct (iemb_step g dg _ o (is_rep _ _ _ _ _ H)) as (dg' & E').
    rewrite E in E'; symmetry in E'; apply option_map_some in E' as ([x g'] & E1 & E2).
    cbn in E2; rewrite apply_iq, spec_out_iq in E2; inv E2.
    exists g'; split.
    - rewrite E1; do 2 f_equal; now apply qout_inj.
    - exists dg'; rewrite map_app, <- set_changes_iq; unfold s; rewrite <- apply_iq; exact H'.
  Qed.

  Lemma gstate_run ops : forall g s0 K n l,
    gstate g s0 K n l ->
    let s := apply tcmp l s0 in
    exists g', run (ig_step cmp keep) g ops = Some (fst (spec_run tcmp s ops), g') /\
      gstate g' s0 K n (l ++ set_log tcmp s ops).
  Proof.
    induction ops as [|o ops IH]; intros g s0 K n l H s.
    - exists g; cbn; rewrite app_nil_r; auto.
    - destruct (gstate_step _ _ _ _ _ o H) as (g1 & E1 & H1); fold s in E1, H1.
      destruct (IH _ _ _ _ _ H1) as (g2 & E2 & H2).
      rewrite apply_app, (apply_set_changes LT) in E2, H2; fold s in E2, H2.
      exists g2; cbn [run set_log spec_run]; rewrite E1; cbn [bind].
      destruct (spec_step tcmp s o) as [x s1] eqn:E; cbn [fst snd] in *; rewrite E2; cbn [bind].
      destruct (spec_run tcmp s1 ops) as [ys s2]; cbn [fst]; split; [reflexivity|].
      rewrite app_assoc; exact H2.
  Qed.

  Notation K0 ops0 := (fun W => known_log tcmp triple_comps W [] (set_log tcmp [] ops0)).
  Notation n0 ops0 := (vacancies 0 (set_log tcmp [] ops0)).

  Lemma gstate_mono g s0 (K K' : (R -> Prop) -> Prop) n l : (forall W, K' W -> K W) -> gstate g s0 K n l -> gstate g s0 K' n l.
  Proof. intros HK (dg & H); exists dg; destruct H; split; auto. Qed.

  Lemma run_emb ops : forall g xs g',
    run (bg_step cmp keep) g ops = Some (xs, g') ->
    exists ys, run (bd_step cmp keep) (emb g) (map qop ops) = Some (ys, emb g').
  Proof.
    induction ops as [|o ops IH]; intros g xs g' H; cbn in *; [inv H; eauto|].
    destruct (bg_step cmp keep g o) as [[x g1]|] eqn:E1; [|discriminate]; cbn in H.
    destruct (run (bg_step cmp keep) g1 ops) as [[ys g2]|] eqn:E2; [|discriminate]; cbn in H; inv H.
    destruct (step_iq _ _ _ _ _ E1) as (y & ->); cbn.
    destruct (IH _ _ _ E2) as (zs & ->); cbn; eauto.
  Qed.

  Lemma gstart ops0 xs b :
    run (bg_step cmp keep) bg_new ops0 = Some (xs, b) ->
    exists g, ig_from_non_indexed b = Some g /\
      gstate g (spec_set tcmp ops0) (K0 ops0) (n0 ops0) [].
  Proof.
    intros H; destruct (run_emb _ _ _ _ H) as (ys & Hb); rewrite emb_new in Hb.
    destruct (start_spec L keep _ _ _ Hb) as (d & Ed & Hd).
    destruct (iemb_convert b) as (dg & E); rewrite Ed in E; symmetry in E.
    apply option_map_some in E as (g & Eg & <-); exists g; split; [exact Eg|].
    pose proof (set_log_iq ops0 []) as El; cbn [map] in El; rewrite El, vacancies_iq in Hd.
    pose proof (spec_run_iq (cmp:=cmp) ops0 []) as Es; cbn [map] in Es.
    exists dg; unfold spec_set in *; rewrite Es in Hd; destruct Hd as [a1 a2 a3 a4 a5 a6 a7].
    split; auto; [intros W HK|intros W HK|intros W HK|intros W HK|intros HK]; apply known_log_iq in HK;
      cbn [map] in HK; auto.
  Qed.

  (** Everything one can do succeeds. *)
  Lemma ig_total ops0 ops :
    exists b g0 g, run (bg_step cmp keep) bg_new ops0 = Some (spec_outs tcmp ops0, b) /\
      ig_from_non_indexed b = Some g0 /\
      run (ig_step cmp keep) g0 ops = Some (fst (spec_run tcmp (spec_set tcmp ops0) ops), g).
  Proof.
    destruct (bg_run_ok L keep ops0) as (b & Eb).
    destruct (gstart _ _ _ Eb) as (g0 & E0 & H0).
    destruct (gstate_run ops _ _ _ _ _ H0) as (g & E & H).
    exists b, g0, g; auto.
  Qed.

  Lemma greached ops0 ops g :
    ig_reached cmp keep ops0 ops g ->
    gstate g (spec_set tcmp ops0) (K0 ops0) (n0 ops0) (set_log tcmp (spec_set tcmp ops0) ops).
  Proof.
    intros (xs0 & b & g0 & xs & Eb & E0 & E).
    destruct (gstart _ _ _ Eb) as (g0' & E0' & H0); rewrite E0 in E0'; inv E0'.
    destruct (gstate_run ops _ _ _ _ _ H0) as (g' & E' & H); rewrite E in E'; inv E'; exact H.
  Qed.
End Proofs.
