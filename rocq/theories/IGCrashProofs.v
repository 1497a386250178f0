(** [IndexedBTreeGraph] whose comparison may panic: as [IndexedBTreeDataset]
    restricted to the default graph (see IndexedGraphProofs.v), except that the
    resources that are dropped are looked for by value. *)
From Coq Require Import List Bool Arith Lia Permutation.
Import ListNotations.
From Verif Require Import Base SlabModel TripleModel TriplePatternModel QuadPatternModel SetSpec ContainerSpec
  IndexedSpec Machine BaseProofs
  BResourceModel BTreeDatasetModel BTreeGraphModel BTreeGraphProofs IResourceModel IndexedDatasetModel
  IndexedGraphModel IndexedGraphProofs IndexedGraphRunProofs CrashModel CrashSpec ICrashSpec CrashProofs CrashAgree
  BGCrashProofs CrashHistoryProofs ICrashModel ICrashProofs ICrashReads ICrashAgree.

Section SimMore.
  Context {S1 S2 : Type} (rel : S1 -> S2 -> Prop).

  Lemma sim_assoc_r {A B C D} (k : A -> D -> Prop) (a : act S1 A) (b : act S2 B) (c : B -> act S2 C) f :
    sim rel k a (andthen b (fun x => andthen (c x) f)) -> sim rel k a (andthen (andthen b c) f).
  Proof.
    intros H n s t Hr; specialize (H n s t Hr); revert H; unfold andthen.
    destruct (b n t) as [x m t'|t'|t']; auto.
  Qed.

  Lemma sim_ext_r {A B} (k : A -> B -> Prop) (a : act S1 A) (b b' : act S2 B) :
    (forall n t, b n t = b' n t) -> sim rel k a b -> sim rel k a b'.
  Proof. intros E H n s t Hr; rewrite <- E; now apply H. Qed.
End SimMore.

Section Graph.
  Context {R : Type} {cmp : R -> R -> comparison} (L : ord_laws cmp).
  Context (keep : bool).
  Notation qcmp := (quad_cmp cmp).
  Notation tcmp := (triple_cmp cmp).

  Definition gi (g : @igraph R) (d : @idataset R) : Prop := exists dg, d = iemb g dg.

  Lemma sim_ig_table {A} (a : act (@itable R) A) : sim gi eq (m_ig_table a) (m_id_table a).
  Proof.
    intros n g d [dg ->]; unfold m_ig_table, m_id_table, zoom; cbn.
    destruct (a n (ig_resources g, ig_ri g)) as [x m [rs ri]|[rs ri]|[rs ri]]; cbn.
    - split; [reflexivity|]; split; [reflexivity|]; exists dg; reflexivity.
    - exists dg; reflexivity.
    - exists dg; reflexivity.
  Qed.

  Lemma sim_ig_contains t : sim gi eq (m_ig_contains cmp t) (m_id_contains cmp (iq t)).
  Proof.
    unfold m_ig_contains, m_id_contains.
    apply sim_then with gi; [apply sim_get|]; intros g d [dg ->];
      cbn [iemb id_qi id_resources id_quads].
    apply sim_then with eq; [|intros x y <-; now apply sim_ret].
    apply sim_m_get; intros i; apply sim_at_cmp_iq; intros; apply iat_iq.
  Qed.

  Lemma sim_ig_insert t : sim gi eq (m_ig_insert cmp keep t) (m_id_insert cmp keep (iq t)).
  Proof.
    unfold m_ig_insert, m_id_insert; cbn [iq into_quad q_s q_p q_o q_g].
    apply sim_then with eq; [apply sim_ig_contains|]; intros c c' <-; destruct c; [now apply sim_ret|].
    apply sim_then with eq; [apply sim_ig_table|]; intros fs y <-.
    apply sim_then with eq; [apply sim_ig_table|]; intros fp y <-.
    apply sim_then with eq; [apply sim_ig_table|]; intros fo y <-.
    apply sim_ret_then_r.
    apply sim_then with gi; [apply sim_get|]; intros g d [dg0 ->]; cbv zeta; cbn [iemb id_quads].
    rewrite vacant_key_smap.
    apply sim_then with eq; [apply sim_ig_table|]; intros s_i y <-.
    apply sim_then with eq; [apply sim_ig_table|]; intros p_i y <-.
    apply sim_then with eq; [apply sim_ig_table|]; intros o_i y <-.
    apply sim_ret_then_r.
    apply sim_then with gi; [apply sim_get|]; intros g1 d [dg1 ->].
    apply sim_then with gi; [apply sim_get|]; intros g2 d [dg2 ->].
    cbn [iemb id_quads id_resources id_ri id_qi id_s id_p id_o id_dg id_ng].
    change (Quad s_i p_i o_i None) with (iq (Triple s_i p_i o_i)); rewrite sinsert_smap.
    apply sim_then with eq; [apply sim_put; eexists; reflexivity|]; intros u y <-.
    apply sim_then with eq.
    { apply sim_m_insert; intros i; apply sim_index_cmp_iq; intros; apply iat_iq. }
    intros ti y <-.
    apply sim_then with eq; [apply sim_put; eexists; reflexivity|]; intros u' y <-; now apply sim_ret.
  Qed.

  Lemma sim_ig_remove t : sim gi eq (m_ig_remove cmp t) (m_remove_as (cmp:=cmp) true (iq t)).
  Proof.
    unfold m_ig_remove, m_remove_as.
    apply sim_then with gi; [apply sim_get|]; intros g d [dg ->].
    cbn [iemb id_quads id_resources id_ri id_qi id_s id_p id_o id_dg id_ng].
    apply sim_then with eq.
    { apply sim_m_remove; intros i; apply sim_at_cmp_iq; intros; apply iat_iq. }
    intros [f ti] y <-.
    apply sim_then with eq; [apply sim_put; eexists; reflexivity|]; intros u y <-.
    destruct f as [i|]; [|now apply sim_ret].
    apply sim_then with (fun x y => y = (iq (fst x), smap iq (snd x))).
    { apply sim_need; rewrite sremove_smap; destruct (sremove (ig_triples g) i) as [[x ts]|]; cbn; auto. }
    intros [x ts] y ->; cbn [fst snd].
    apply sim_then with eq; [apply sim_put; eexists; reflexivity|]; intros u' y <-.
    unfold m_tail, m_rel; cbn [iq into_quad q_s q_p q_o q_g].
    apply sim_assoc_r; apply sim_then with eq; [apply sim_ig_table|]; intros ? y <-.
    apply sim_assoc_r; apply sim_then with eq; [apply sim_ig_table|]; intros ? y <-.
    apply sim_assoc_r; apply sim_then with eq; [apply sim_ig_table|]; intros ? y <-.
    intros n h d [dg' ->]; cbn; split; [reflexivity|]; split; [reflexivity|]; eexists; reflexivity.
  Qed.

  Lemma sim_ig_extend l : sim gi eq (m_ig_extend cmp keep l) (m_id_extend cmp keep (map iq l)).
  Proof.
    induction l as [|t l IH]; cbn [m_ig_extend m_id_extend map]; [now apply sim_ret|].
    apply sim_then with eq; [apply sim_ig_insert|]; intros; exact IH.
  Qed.

  Lemma sim_ig_step o : sim gi oq (m_ig_step cmp keep o) (m_step_as (cmp:=cmp) keep true (op_iq o)).
  Proof.
    destruct o as [t|t|l|t| | | |]; cbn [m_ig_step m_step_as m_id_step op_iq].
    - apply sim_then with eq; [apply sim_ig_insert|]; intros x y <-; now apply sim_ret.
    - apply sim_then with eq; [apply sim_ig_remove|]; intros x y <-; now apply sim_ret.
    - apply sim_then with eq; [apply sim_ig_extend|]; intros x y <-; now apply sim_ret.
    - apply sim_then with eq; [apply sim_ig_contains|]; intros x y <-; now apply sim_ret.
    - apply sim_then with gi; [apply sim_get|]; intros g d [dg ->]; apply sim_ret; unfold oq.
      now rewrite iemb_len.
    - apply sim_then with gi; [apply sim_get|]; intros g d [dg ->]; apply sim_ret; unfold oq, id_is_empty, ig_is_empty.
      now rewrite iemb_len.
    - apply sim_then with gi; [apply sim_get|]; intros g d [dg ->]; apply sim_then with (fun x y => y = map iq x).
      + apply sim_need; rewrite iemb_iter; destruct (ig_iter g); cbn; auto.
      + intros x y ->; now apply sim_ret.
    - apply sim_then with gi; [apply sim_get|]; intros g d [dg ->]; apply sim_then with (fun x y => y = map iq x).
      + apply sim_need; rewrite iemb_into_iter; destruct (ig_into_iter g); cbn; auto.
      + intros x y ->; now apply sim_ret.
  Qed.

  Context (F : Prop).
  Definition wig_rep (g : @igraph R) (s lost : list (triple R)) : Prop :=
    exists dg, wid_rep (cmp:=cmp) F (iemb g dg) (map iq s) (map iq lost).

  Lemma runs_ig_step g s lost o n :
    wig_rep g s lost ->
    runs (m_ig_step cmp keep o) n g
      (fun x g' => x = answer tcmp s lost o /\ wig_rep g' (snd (spec_step tcmp s o)) lost)
      (fun g' => exists s' lost', wig_rep g' s' lost' /\ left_over tcmp s lost o s' lost').
  Proof.
    intros [dg W]; pose proof (runs_id_step L keep F true _ _ _ (op_iq o) n W) as H.
    pose proof (sim_ig_step o n g (iemb g dg) (ex_intro _ dg eq_refl)) as S; unfold runs in *.
    destruct (m_ig_step cmp keep o n g) as [x m g'|g'|g'],
      (m_step_as keep true (op_iq o) n (iemb g dg)) as [y m' d'|d'|d']; try contradiction.
    - destruct S as (-> & _ & dg' & ->), H as [H1 H2]; rewrite spec_step_iq in H2.
      split; [|exists dg'; exact H2]; rewrite answer_iq in H1; now apply out_iq_inj.
    - destruct S as [dg' ->]; destruct H as (s1 & lost1 & H1 & H2).
      apply left_over_iq in H2 as (s2 & lost2 & -> & -> & H2); exists s2, lost2; split; [exists dg'; exact H1|exact H2].
  Qed.

  Lemma run_ig_history l : forall g s lost,
    wig_rep g s lost ->
    exists ys g' s' lost', m_run (m_ig_step cmp keep) g l = Some (ys, g') /\
      history tcmp s lost (map fst l) ys s' lost' /\ wig_rep g' s' lost'.
  Proof.
    induction l as [|[o n] l IH]; intros d s lost W.
    - exists [], d, s, lost; split; [reflexivity|]; split; [constructor|exact W].
    - cbn; pose proof (runs_ig_step d s lost o n W) as H; unfold runs in H.
      destruct (m_ig_step cmp keep o n d) as [x m d1|d1|]; [| |contradiction].
      + destruct H as [-> W1]; destruct (IH _ _ _ W1) as (ys & d' & s' & lost' & -> & Hh & W').
        exists (Some (answer tcmp s lost o) :: ys), d', s', lost'; split; [reflexivity|].
        split; [now constructor|exact W'].
      + destruct H as (s1 & lost1 & W1 & Hl); destruct (IH _ _ _ W1) as (ys & d' & s' & lost' & -> & Hh & W').
        exists (None :: ys), d', s', lost'; split; [reflexivity|].
        split; [econstructor; eauto|exact W'].
  Qed.

  Lemma wig_rep_new : wig_rep ig_new [] [].
  Proof. exists []; apply wid_rep_new. Qed.

  Lemma wig_reads g s lost :
    wig_rep g s lost ->
    ig_len g = length s + length lost /\ ig_iter g = Some (sorted_elements tcmp s) /\
    exists vs, ig_resources_iter g = Some vs /\ increasing cmp vs /\
      forall v, ig_contains_resource cmp g v = Some (mem cmp v vs).
  Proof.
    intros [dg W]; destruct (wid_reads L F _ _ _ W) as (A & B & vs & C & D & E).
    rewrite iemb_len, !map_length in A; split; [exact A|].
    rewrite iemb_iter, sorted_iq in B; split.
    - destruct (ig_iter g) as [x|]; cbn in B; [|discriminate]; f_equal.
      injection B as B; now apply map_iq_inj.
    - exists vs; split; [exact C|]; split; [exact D|exact E].
  Qed.
End Graph.

Lemma among_iq {R} (l : list (triple R)) all : among (map iq l) (map iq all) -> among l all.
Proof.
  intros (rest & P).
  assert (E : exists r, rest = map iq r).
  { assert (H : forall q, In q rest -> exists t, q = iq t).
    { intros q Hq; assert (H : In q (map iq all)) by (apply (Permutation_in _ P), in_or_app; auto).
      apply in_map_iff in H as (t & <- & _); eauto. }
    clear P; induction rest as [|q rest IH]; [now exists []|].
    destruct IH as (r & ->); [intros; apply H; now right|].
    destruct (H q (or_introl eq_refl)) as (t & ->); now exists (t :: r). }
  destruct E as (r & ->); exists r; rewrite <- map_app in P.
  apply (Permutation_map (fun q => Triple (q_s q) (q_p q) (q_o q))) in P; rewrite !map_map in P.
  assert (E : forall m : list (triple R),
    map (fun t => Triple (q_s (iq t)) (q_p (iq t)) (q_o (iq t))) m = m).
  { intros m; induction m as [|[] m IH]; cbn in *; [reflexivity|now rewrite IH]. }
  now rewrite !E in P.
Qed.

Lemma wig_queries {R} {cmp : R -> R -> comparison} (L : ord_laws cmp) (g : @igraph R) s lost :
  wig_rep (cmp:=cmp) True g s lost -> ig_queries_within cmp g (s ++ lost).
Proof.
  intros [dg W] spare; destruct (wid_queries L _ _ _ W spare) as (A & _ & B & C & D).
  rewrite <- map_app in *.
  assert (V : forall (at_ : quad R -> R) (at' : triple R -> R) o,
    (forall t, at_ (iq t) = at' t) ->
    (exists l, o = Some l /\ forall v, In v l -> exists q, In q (map iq (s ++ lost)) /\ at_ q = v) ->
    exists l, o = Some l /\ forall v, In v l -> exists t, In t (s ++ lost) /\ at' t = v).
  { intros at_ at' o Hat (l & E & H); exists l; split; [exact E|]; intros v Hv.
    destruct (H v Hv) as (q & Hq & <-); apply in_map_iff in Hq as (t & <- & Ht); exists t; auto. }
  split; [|split; [|split]].
  - intros c; destruct (A (anyg c)) as (l & Hl & Am); rewrite iemb_pattern in Hl.
    destruct (ig_pattern_matching cmp g spare c) as [ts|]; [|discriminate]; inv Hl.
    exists ts; split; [reflexivity|]; now apply among_iq.
  - exact (V q_s t_s _ (fun _ => eq_refl) B).
  - exact (V q_p t_p _ (fun _ => eq_refl) C).
  - exact (V q_o t_o _ (fun _ => eq_refl) D).
Qed.
