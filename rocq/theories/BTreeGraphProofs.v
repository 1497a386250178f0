(** [BTreeGraph] behaves as [BTreeDataset] restricted to the default graph. *)
From Coq Require Import List Bool Arith Lia Permutation Sorted.
Import ListNotations.
From Verif Require Import Base SlabModel TripleModel SetSpec ContainerSpec Machine BaseProofs
  BResourceModel BResourceProofs BTreeDatasetModel BTreeDatasetProofs BTreeGraphModel.
Open Scope panic_scope.

(** ** Mapping a slab *)
Definition smap {T U} (f : T -> U) (s : slab T) : slab U :=
  Slab (map (option_map f) (ents s)) (free s).

Lemma sget_smap {T U} (f : T -> U) s i : sget (smap f s) i = option_map f (sget s i).
Proof.
  unfold sget, smap; cbn; rewrite nth_error_map.
  destruct (nth_error (ents s) i) as [[x|]|]; reflexivity.
Qed.

Lemma vacant_key_smap {T U} (f : T -> U) s : vacant_key (smap f s) = vacant_key s.
Proof. unfold vacant_key, smap; cbn; rewrite map_length; reflexivity. Qed.

Lemma map_list_set {A B} (f : A -> B) l : forall i x,
  map f (list_set l i x) = list_set (map f l) i (f x).
Proof. induction l; intros [|i] x; cbn; f_equal; auto. Qed.

Lemma sinsert_smap {T U} (f : T -> U) s x : sinsert (smap f s) (f x) = smap f (sinsert s x).
Proof.
  unfold sinsert, smap; cbn; destruct (free s) as [|k l]; cbn; f_equal.
  - now rewrite map_app.
  - now rewrite map_list_set.
Qed.

Lemma sremove_smap {T U} (f : T -> U) s i :
  sremove (smap f s) i = option_map (fun '(x, s') => (f x, smap f s')) (sremove s i).
Proof.
  unfold sremove; rewrite sget_smap; destruct (sget s i); cbn; [|reflexivity].
  unfold smap; cbn; now rewrite map_list_set.
Qed.

Lemma slen_smap {T U} (f : T -> U) s : slen (smap f s) = slen s.
Proof.
  unfold slen, spairs, smap; cbn; generalize 0 as n; induction (ents s) as [|[x|] l IH]; intros n;
    cbn; auto.
Qed.

(** ** B-tree operations through equal comparisons *)
Lemma bt_get_het {K K'} (c : nat -> K -> option comparison) (d : nat -> K' -> option comparison)
    k k' l :
  (forall i, c i k = d i k') -> bt_get c k l = bt_get d k' l.
Proof. intros H; induction l as [|i l IH]; cbn; [reflexivity|]; now rewrite H, IH. Qed.

Lemma bt_remove_het {K K'} (c : nat -> K -> option comparison) (d : nat -> K' -> option comparison)
    k k' l :
  (forall i, c i k = d i k') -> bt_remove c k l = bt_remove d k' l.
Proof. intros H; induction l as [|i l IH]; cbn; [reflexivity|]; now rewrite H, IH. Qed.

Lemma bt_insert_het keep c d x l :
  (forall i, c i x = d i x) -> bt_insert keep c x l = bt_insert keep d x l.
Proof. intros H; induction l as [|i l IH]; cbn; [reflexivity|]; now rewrite H, IH. Qed.

Lemma mapM_option_map {A B C} (f : A -> option B) (g : B -> C) l :
  mapM (fun x => option_map g (f x)) l = option_map (map g) (mapM f l).
Proof.
  induction l as [|x l IH]; cbn; [reflexivity|]; destruct (f x); cbn; [|reflexivity].
  rewrite IH; destruct (mapM f l); reflexivity.
Qed.

(** ** The embedding *)
Definition iq {A} (t : triple A) : quad A := into_quad t None.

Lemma iq_inj {A} (a b : triple A) : iq a = iq b -> a = b.
Proof. destruct a, b; cbn; intros E; inv E; reflexivity. Qed.

Section Proofs.
  Context {R : Type} {cmp : R -> R -> comparison} (L : ord_laws cmp).
  Context (keep : bool).
  Notation qcmp := (quad_cmp cmp).
  Notation tcmp := (triple_cmp cmp).
  Let LT : ord_laws tcmp := triple_cmp_laws cmp L.
  Let LQ : ord_laws qcmp := quad_cmp_laws cmp L.

  Definition emb (g : @bgraph R) : @bdataset R :=
    BDataset (bg_resources g) (smap iq (bg_triples g)) (bg_ri g) (bg_ti g).

  Lemma qcmp_iq a b : qcmp (iq a) (iq b) = tcmp a b.
  Proof.
    unfold quad_cmp, triple_cmp; cbn.
    destruct (cmp (t_s a) (t_s b)), (cmp (t_p a) (t_p b)), (cmp (t_o a) (t_o b)); reflexivity.
  Qed.

  Lemma qwr_iq rs t :
    b_quad_with_resources (R:=R) rs (iq t) = option_map iq (b_triple_with_resources rs t).
  Proof.
    unfold b_quad_with_resources, b_triple_with_resources; cbn.
    destruct (br_val rs (t_s t)); cbn; [|reflexivity].
    destruct (br_val rs (t_p t)); cbn; [|reflexivity].
    destruct (br_val rs (t_o t)); reflexivity.
  Qed.

  Lemma qat_iq rs ts i :
    b_quad_at (R:=R) rs (smap iq ts) i = option_map iq (b_triple_at rs ts i).
  Proof.
    unfold b_quad_at, b_triple_at; rewrite sget_smap; destruct (sget ts i); cbn; [|reflexivity].
    apply qwr_iq.
  Qed.

  Lemma b_quad_cmp_iq rs ts i t : b_quad_cmp cmp rs (smap iq ts) i (iq t) = b_triple_cmp cmp rs ts i t.
  Proof.
    unfold b_quad_cmp, b_triple_cmp; rewrite qat_iq; destruct (b_triple_at rs ts i); cbn;
      [now rewrite qcmp_iq|reflexivity].
  Qed.

  Lemma b_quad_index_cmp_iq rs ts i j :
    b_quad_index_cmp cmp rs (smap iq ts) i j = b_triple_index_cmp cmp rs ts i j.
  Proof.
    unfold b_quad_index_cmp, b_triple_index_cmp; rewrite !qat_iq.
    destruct (b_triple_at rs ts i); cbn; [|reflexivity].
    destruct (b_triple_at rs ts j); cbn; [now rewrite qcmp_iq|reflexivity].
  Qed.

  Lemma emb_new : emb bg_new = bd_new.
  Proof. reflexivity. Qed.

  Lemma emb_len g : bd_len (emb g) = bg_len g.
  Proof. apply slen_smap. Qed.

  Lemma emb_iter g : bd_iter (emb g) = option_map (map iq) (bg_iter g).
  Proof.
    unfold bd_iter, bg_iter; rewrite <- mapM_option_map; apply mapM_ext; intros; apply qat_iq.
  Qed.

  Lemma emb_into_iter g : bd_into_iter (emb g) = option_map (map iq) (bg_into_iter g).
  Proof.
    unfold bd_into_iter, bg_into_iter; cbn; generalize (bg_triples g) as ts.
    induction (bg_ti g) as [|i l IH]; intros ts; cbn; [reflexivity|].
    rewrite sremove_smap; destruct (sremove ts i) as [[t ts']|]; cbn; [|reflexivity].
    rewrite qwr_iq; destruct (b_triple_with_resources _ t); cbn; [|reflexivity].
    rewrite IH; destruct (b_into_triples _ ts' l); reflexivity.
  Qed.

  Lemma emb_contains g t : bd_contains cmp (emb g) (iq t) = bg_contains cmp g t.
  Proof.
    unfold bd_contains, bg_contains, bd_index_of_quad, bg_index_of_triple; cbn.
    erewrite bt_get_het; [reflexivity|]; intros; apply b_quad_cmp_iq.
  Qed.

  Definition emb2 (x : bool * @bgraph R) : bool * @bdataset R := (fst x, emb (snd x)).

  Lemma emb_insert g t :
    bd_insert cmp keep (emb g) (iq t) = option_map emb2 (bg_insert cmp keep g t).
  Proof.
    unfold bd_insert, bg_insert; rewrite emb_contains.
    destruct (bg_contains cmp g t) as [[|]|]; cbn; try reflexivity.
    unfold b_index_of_resource.
    destruct (bt_get _ (t_s t) _); cbn; [|reflexivity].
    destruct (bt_get _ (t_p t) _); cbn; [|reflexivity].
    destruct (bt_get _ (t_o t) _); cbn; [|reflexivity].
    destruct (b_acquire _ _ _ _ (t_s t) _) as [[[? ?] ?]|]; cbn; [|reflexivity].
    destruct (b_acquire _ _ _ _ (t_p t) _) as [[[? ?] ?]|]; cbn; [|reflexivity].
    destruct (b_acquire _ _ _ _ (t_o t) _) as [[[? ?] ?]|]; cbn; [|reflexivity].
    change (Quad n n0 n1 None) with (iq (Triple n n0 n1)).
    rewrite sinsert_smap, vacant_key_smap.
    erewrite bt_insert_het; [|intros; apply b_quad_index_cmp_iq].
    destruct (bt_insert _ _ _ _); reflexivity.
  Qed.

  Lemma emb_remove g t :
    bd_remove cmp (emb g) (iq t) = option_map emb2 (bg_remove cmp g t).
  Proof.
    unfold bd_remove, bg_remove; cbn.
    erewrite (bt_remove_het (b_quad_cmp cmp _ _)); [|intros; apply b_quad_cmp_iq].
    destruct (bt_remove _ _ _) as [[[i|] ti]|]; cbn; try reflexivity.
    rewrite sremove_smap; destruct (sremove _ _) as [[x ts]|]; cbn; [|reflexivity].
    destruct (b_release _ _ _ (t_s x) _) as [[? ?]|]; cbn; [|reflexivity].
    destruct (b_release _ _ _ (t_p x) _) as [[? ?]|]; cbn; [|reflexivity].
    destruct (b_release _ _ _ (t_o x) _) as [[? ?]|]; reflexivity.
  Qed.

  Lemma emb_extend l : forall g,
    bd_extend cmp keep (emb g) (map iq l) = option_map emb (bg_extend cmp keep g l).
  Proof.
    induction l as [|t l IH]; intros g; cbn; [reflexivity|]; rewrite emb_insert.
    destruct (bg_insert cmp keep g t) as [[b g']|]; cbn; [apply IH|reflexivity].
  Qed.

  (** ** Sets of triples as sets of quads *)
  Lemma same_iq a b : same qcmp (iq a) (iq b) = same tcmp a b.
  Proof. unfold same; now rewrite qcmp_iq. Qed.

  Lemma mem_iq t s : mem qcmp (iq t) (map iq s) = mem tcmp t s.
  Proof. unfold mem; induction s; cbn; [reflexivity|]; now rewrite same_iq, IHs. Qed.

  Lemma add_iq t s : add qcmp (iq t) (map iq s) = map iq (add tcmp t s).
  Proof. unfold add; rewrite mem_iq; destruct (mem tcmp t s); reflexivity. Qed.

  Lemma del_iq t s : del qcmp (iq t) (map iq s) = map iq (del tcmp t s).
  Proof.
    unfold del; induction s as [|x s IH]; cbn; [reflexivity|]; rewrite same_iq, IH.
    destruct (same tcmp t x); reflexivity.
  Qed.

  Lemma fold_add_iq l : forall s,
    fold_left (fun s q => add qcmp q s) (map iq l) (map iq s) =
    map iq (fold_left (fun s t => add tcmp t s) l s).
  Proof. induction l as [|x l IH]; intros s; cbn; [reflexivity|]; now rewrite add_iq, IH. Qed.

  Lemma place_iq t s : place qcmp (iq t) (map iq s) = map iq (place tcmp t s).
  Proof.
    induction s as [|x s IH]; cbn; [reflexivity|]; rewrite qcmp_iq, IH.
    destruct (tcmp t x); reflexivity.
  Qed.

  Lemma sorted_iq s : sorted_elements qcmp (map iq s) = map iq (sorted_elements tcmp s).
  Proof.
    induction s as [|x s IH]; cbn; [reflexivity|]; unfold sorted_elements in IH; rewrite IH.
    apply place_iq.
  Qed.

  Lemma map_iq_inj (l m : list (triple R)) : map iq l = map iq m -> l = m.
  Proof.
    revert m; induction l as [|x l IH]; intros [|y m] E; cbn in E; inv E; auto.
    f_equal; auto; destruct x, y; cbn in *; congruence.
  Qed.

  Lemma in_map_iq t (s : list (triple R)) : In (iq t) (map iq s) <-> In t s.
  Proof.
    rewrite in_map_iff; split; [intros (x & E & H); apply iq_inj in E; now subst|eauto].
  Qed.

  (** ** Refinement *)
  Definition bg_rep (g : @bgraph R) (s : list (triple R)) : Prop :=
    NoDup s /\ bd_rep (cmp:=cmp) (emb g) (map iq s).

  Lemma bg_rep_new : bg_rep bg_new [].
  Proof. split; [constructor|apply bd_rep_new]. Qed.

  Lemma option_map_some {A B} (f : A -> B) x y :
    option_map f x = Some y -> exists a, x = Some a /\ f a = y.
  Proof. destruct x; cbn; intros E; inv E; eauto. Qed.

  Lemma bg_insert_rep g s t :
    bg_rep g s ->
    exists g', bg_insert cmp keep g t = Some (negb (mem tcmp t s), g') /\ bg_rep g' (add tcmp t s).
  Proof.
    intros [Hn H]; destruct (bd_insert_rep L keep _ _ (iq t) H) as (d & E & H').
    rewrite emb_insert in E; apply option_map_some in E as ([b g'] & E & E').
    unfold emb2 in E'; cbn in E'; inv E'; rewrite mem_iq in E.
    exists g'; split; [exact E|]; split; [now apply (nodup_add LT)|].
    rewrite <- add_iq; exact H'.
  Qed.

  Lemma bg_remove_rep g s t :
    bg_rep g s ->
    exists g', bg_remove cmp g t = Some (mem tcmp t s, g') /\ bg_rep g' (del tcmp t s).
  Proof.
    intros [Hn H]; destruct (bd_remove_rep L _ _ (iq t) H) as (d & E & H').
    rewrite emb_remove in E; apply option_map_some in E as ([b g'] & E & E').
    unfold emb2 in E'; cbn in E'; inv E'; rewrite mem_iq in E.
    exists g'; split; [exact E|]; split; [now apply (nodup_del (cmp:=tcmp))|].
    rewrite <- del_iq; exact H'.
  Qed.

  Lemma bg_extend_rep l : forall g s,
    bg_rep g s ->
    exists g', bg_extend cmp keep g l = Some g' /\
               bg_rep g' (fold_left (fun s t => add tcmp t s) l s).
  Proof.
    induction l as [|t l IH]; intros g s H; cbn; [eauto|].
    destruct (bg_insert_rep _ _ t H) as (g1 & -> & H1); cbn; auto.
  Qed.

  Lemma bg_contains_rep g s t : bg_rep g s -> bg_contains cmp g t = Some (mem tcmp t s).
  Proof.
    intros [_ [_ (vs & I)]]; rewrite <- emb_contains, (bd_contains_spec L _ _ _ _ I).
    now rewrite mem_sorted, mem_iq.
  Qed.

  Lemma bg_len_rep g s : bg_rep g s -> bg_len g = length s.
  Proof.
    intros [_ [Hn (vs & I)]]; rewrite <- emb_len, (bd_len_spec L _ _ _ I), (length_sorted L _ Hn).
    apply map_length.
  Qed.

  Lemma bg_iter_rep g s : bg_rep g s -> bg_iter g = Some (sorted_elements tcmp s).
  Proof.
    intros [_ H]; apply bd_iter_rep in H; rewrite emb_iter, sorted_iq in H.
    apply option_map_some in H as (l & -> & E); f_equal; now apply map_iq_inj.
  Qed.

  Lemma bg_into_iter_rep g s : bg_rep g s -> bg_into_iter g = Some (sorted_elements tcmp s).
  Proof.
    intros [_ [_ (vs & I)]]; apply (bd_into_iter_spec L) in I; rewrite emb_into_iter, sorted_iq in I.
    apply option_map_some in I as (l & -> & E); f_equal; now apply map_iq_inj.
  Qed.

  Lemma bg_step_rep g s o :
    bg_rep g s ->
    exists g', bg_step cmp keep g o = Some (fst (spec_step tcmp s o), g') /\
               bg_rep g' (snd (spec_step tcmp s o)).
  Proof.
    intros H; destruct o as [t|t|l|t| | | |]; cbn.
    - destruct (bg_insert_rep _ _ t H) as (g' & -> & H'); cbn; eauto.
    - destruct (bg_remove_rep _ _ t H) as (g' & -> & H'); cbn; eauto.
    - destruct (bg_extend_rep l _ _ H) as (g' & -> & H'); cbn; eauto.
    - rewrite (bg_contains_rep _ _ _ H); cbn; eauto.
    - rewrite (bg_len_rep _ _ H); cbn; eauto.
    - unfold bg_is_empty; rewrite (bg_len_rep _ _ H); cbn; eauto.
    - rewrite (bg_iter_rep _ _ H); cbn; eauto.
    - rewrite (bg_into_iter_rep _ _ H); cbn; eauto.
  Qed.

  Lemma bg_run_rep ops : forall g s,
    bg_rep g s ->
    exists g', run (bg_step cmp keep) g ops = Some (fst (spec_run tcmp s ops), g') /\
               bg_rep g' (snd (spec_run tcmp s ops)).
  Proof.
    induction ops as [|o ops IH]; intros g s H; cbn; [eauto|].
    destruct (bg_step_rep _ _ o H) as (g1 & -> & H1).
    destruct (spec_step tcmp s o) as [x s1] eqn:E; cbn in *.
    destruct (IH _ _ H1) as (g2 & -> & H2).
    destruct (spec_run tcmp s1 ops); cbn in *; eauto.
  Qed.

  Lemma bg_run_ok ops :
    exists g, run (bg_step cmp keep) bg_new ops = Some (spec_outs tcmp ops, g).
  Proof. destruct (bg_run_rep ops _ _ bg_rep_new) as (g & H & _); eauto. Qed.

  Lemma bg_run_rep_new ops xs g :
    run (bg_step cmp keep) bg_new ops = Some (xs, g) -> bg_rep g (spec_set tcmp ops).
  Proof.
    intros H; destruct (bg_run_rep ops _ _ bg_rep_new) as (g' & H' & R'); rewrite H in H'; inv H'.
    exact R'.
  Qed.

  Lemma bg_iteration ops xs g :
    run (bg_step cmp keep) bg_new ops = Some (xs, g) ->
    exists l, bg_iter g = Some l /\ bg_into_iter g = Some l /\
      increasing tcmp l /\ (forall t, In t l <-> In t (spec_set tcmp ops)).
  Proof.
    intros H; apply bg_run_rep_new in H.
    exists (sorted_elements tcmp (spec_set tcmp ops)); split; [now apply bg_iter_rep|].
    split; [now apply bg_into_iter_rep|]; split.
    - destruct H; now apply (sorted_elements_sorted LT).
    - intros t; apply in_sorted_elements.
  Qed.

  (** ** Comparison *)
  Lemma tsorted_ext s t :
    NoDup s -> NoDup t ->
    (sorted_elements tcmp s = sorted_elements tcmp t <-> forall q, In q s <-> In q t).
  Proof.
    intros Hs Ht; split; intros H.
    - intros q; rewrite <- (in_sorted_elements (cmp:=tcmp) q s), H; apply in_sorted_elements.
    - apply (sorted_elements_unique LT); auto.
      + now apply (sorted_elements_sorted LT).
      + intros q; rewrite in_sorted_elements; apply H.
  Qed.

  Lemma triple_eqb_spec (eqb : R -> R -> bool) :
    (forall x y, eqb x y = true <-> x = y) ->
    forall a b, triple_eqb eqb eqb eqb a b = true <-> a = b.
  Proof.
    intros H [s p o] [s' p' o']; unfold triple_eqb; cbn.
    rewrite !andb_true_iff, !H; split; [intros [[-> ->] ->]; reflexivity|intros E; inv E; auto].
  Qed.

  Lemma forallb_combine_t {X} (eqb : X -> X -> bool) :
    (forall x y, eqb x y = true <-> x = y) ->
    forall l m, length l = length m ->
      (forallb (fun '(u, v) => eqb u v) (combine l m) = true <-> l = m).
  Proof.
    intros H; induction l as [|x l IH]; intros [|y m] E; cbn in *; try discriminate.
    - tauto.
    - inv E; rewrite andb_true_iff, H, IH by assumption; split; [intros [-> ->]|intros E; inv E]; auto.
  Qed.

  Lemma tlength_sorted s : NoDup s -> length (sorted_elements tcmp s) = length s.
  Proof.
    intros H; apply nodup_same_length; auto.
    - apply (ssorted_nodup LT), (sorted_elements_sorted LT), H.
    - intros; apply in_sorted_elements.
  Qed.

  Lemma bg_eqb_rep (eqb : R -> R -> bool) a b s t :
    (forall x y, eqb x y = true <-> x = y) -> bg_rep a s -> bg_rep b t ->
    exists r, bg_eqb eqb a b = Some r /\ (r = true <-> forall q, In q s <-> In q t).
  Proof.
    intros H Ha Hb; unfold bg_eqb.
    rewrite (bg_len_rep _ _ Ha), (bg_len_rep _ _ Hb), (bg_iter_rep _ _ Ha), (bg_iter_rep _ _ Hb).
    cbn; destruct Ha as [Ns _], Hb as [Nt _].
    destruct (_ =? _) eqn:E.
    - apply Nat.eqb_eq in E; eexists; split; [reflexivity|].
      rewrite (forallb_combine_t (triple_eqb eqb eqb eqb)).
      + now apply tsorted_ext.
      + now apply triple_eqb_spec.
      + now rewrite !tlength_sorted.
    - apply Nat.eqb_neq in E; exists false; split; [reflexivity|]; split; [discriminate|].
      intros Hq; exfalso; apply E; rewrite <- (tlength_sorted s), <- (tlength_sorted t) by assumption.
      f_equal; now apply tsorted_ext.
  Qed.

  Lemma bg_equality (eqb : R -> R -> bool) ops1 ops2 xs1 xs2 g1 g2 :
    (forall x y, eqb x y = true <-> x = y) ->
    run (bg_step cmp keep) bg_new ops1 = Some (xs1, g1) ->
    run (bg_step cmp keep) bg_new ops2 = Some (xs2, g2) ->
    exists b h1 h2, bg_eqb eqb g1 g2 = Some b /\
      bg_hash_input g1 = Some h1 /\ bg_hash_input g2 = Some h2 /\
      (b = true <-> forall t, In t (spec_set tcmp ops1) <-> In t (spec_set tcmp ops2)) /\
      (b = true <-> bg_cmp cmp g1 g2 = Some Eq) /\
      (b = true <-> h1 = h2).
  Proof.
    intros He H1 H2; apply bg_run_rep_new in H1, H2.
    destruct (bg_eqb_rep eqb _ _ _ _ He H1 H2) as (b & Eb & Hb).
    exists b; unfold bg_hash_input, bg_cmp.
    rewrite (bg_len_rep _ _ H1), (bg_len_rep _ _ H2), (bg_iter_rep _ _ H1), (bg_iter_rep _ _ H2).
    cbn; eexists _, _; split; [exact Eb|]; split; [reflexivity|]; split; [reflexivity|].
    split; [exact Hb|]; destruct H1 as [N1 _], H2 as [N2 _]; split.
    - rewrite Hb, <- (tsorted_ext _ _ N1 N2), <- (ord_eq _ (list_cmp_laws LT)).
      split; congruence.
    - rewrite Hb, <- (tsorted_ext _ _ N1 N2); split.
      + intros E; f_equal; [|exact E].
        rewrite <- (tlength_sorted _ N1), E; now apply tlength_sorted.
      + intros E; inv E; reflexivity.
  Qed.

  Lemma bg_ordering ops1 ops2 xs1 xs2 g1 g2 :
    run (bg_step cmp keep) bg_new ops1 = Some (xs1, g1) ->
    run (bg_step cmp keep) bg_new ops2 = Some (xs2, g2) ->
    exists l1 l2, bg_iter g1 = Some l1 /\ bg_iter g2 = Some l2 /\
      bg_cmp cmp g1 g2 = Some (list_cmp tcmp l1 l2) /\ ord_laws (list_cmp tcmp).
  Proof.
    intros H1 H2; apply bg_run_rep_new in H1, H2; unfold bg_cmp.
    rewrite (bg_iter_rep _ _ H1), (bg_iter_rep _ _ H2).
    eexists _, _; split; [reflexivity|]; split; [reflexivity|].
    split; [reflexivity|apply (list_cmp_laws LT)].
  Qed.

  (** ** Rebuilding *)
  Lemma in_fold_add_t l : forall s q,
    In q (fold_left (fun s q => add tcmp q s) l s) <-> In q s \/ In q l.
  Proof.
    induction l as [|x l IH]; intros s q; cbn; [tauto|].
    rewrite IH, (in_add LT); intuition congruence.
  Qed.

  Lemma bg_collect l :
    exists g, bg_from_iter cmp keep l = Some g /\
      exists m, bg_iter g = Some m /\ increasing tcmp m /\ forall t, In t m <-> In t l.
  Proof.
    destruct (bg_extend_rep l _ _ bg_rep_new) as (g & E & H); exists g; split; [exact E|].
    eexists; split; [apply bg_iter_rep; eauto|]; split.
    - destruct H as [Hn _]; now apply (sorted_elements_sorted LT).
    - intros q; rewrite in_sorted_elements, in_fold_add_t; cbn; tauto.
  Qed.

  Lemma bg_rebuild (eqb : R -> R -> bool) ops xs g :
    (forall x y, eqb x y = true <-> x = y) ->
    run (bg_step cmp keep) bg_new ops = Some (xs, g) ->
    exists l g', bg_iter g = Some l /\ bg_serialize g = Some (length l, l) /\
      bg_from_iter cmp keep l = Some g' /\ bg_eqb eqb g g' = Some true.
  Proof.
    intros He H; apply bg_run_rep_new in H.
    set (l := sorted_elements tcmp (spec_set tcmp ops)).
    destruct (bg_extend_rep l _ _ bg_rep_new) as (g' & E & H').
    exists l, g'; unfold bg_serialize.
    rewrite (bg_iter_rep _ _ H), (bg_len_rep _ _ H); split; [reflexivity|]; split.
    - cbn; f_equal; f_equal; symmetry; apply tlength_sorted; apply H.
    - split; [exact E|].
      destruct (bg_eqb_rep eqb _ _ _ _ He H H') as (b & Eb & Hb); rewrite Eb; f_equal.
      apply Hb; intros q; rewrite in_fold_add_t; cbn; unfold l; rewrite in_sorted_elements; tauto.
  Qed.

  (** ** Resources *)
  Lemma occurs_iq (r : R) s : occurs quad_comps r (map iq s) <-> occurs triple_comps r s.
  Proof.
    split.
    - intros (q & Hq & Hr); apply in_map_iff in Hq as (t & <- & Ht); exists t; auto.
    - intros (t & Ht & Hr); exists (iq t); rewrite in_map_iq; auto.
  Qed.

  Lemma emb_contains_resource g r :
    bd_contains_resource cmp (emb g) r = bg_contains_resource cmp g r.
  Proof. reflexivity. Qed.

  Lemma bg_resources_used ops xs g :
    run (bg_step cmp keep) bg_new ops = Some (xs, g) ->
    exists l, bg_resources_iter g = Some l /\ increasing cmp l /\
      (forall r, bg_contains_resource cmp g r = Some (mem cmp r l)) /\
      (forall r, In r l -> occurs triple_comps r (spec_set tcmp ops)).
  Proof.
    intros H; apply bg_run_rep_new in H as [_ H].
    destruct (bd_resources_sound L _ _ H) as (l & A & B & C & D).
    exists l; split; [exact A|]; split; [exact B|]; split; [exact C|].
    intros r Hr; apply occurs_iq; auto.
  Qed.

  (** Histories without repeated new resources. *)
  Definition qop (o : op (triple R)) : op (quad R) :=
    match o with
    | Insert t => Insert (iq t)
    | Remove t => Remove (iq t)
    | Extend l => Extend (map iq l)
    | Contains t => Contains (iq t)
    | Len => Len
    | IsEmpty => IsEmpty
    | Iter => Iter
    | IntoIter => IntoIter
    end.

  Lemma repeats_known_iq W (s : list (triple R)) t :
    repeats_known triple_comps W s t -> repeats_known quad_comps W (map iq s) (iq t).
  Proof. intros H i j r Hw Hij Hi Hj; apply occurs_iq; exact (H i j r Hw Hij Hi Hj). Qed.

  Lemma extend_known_iq W l : forall s,
    extend_known tcmp triple_comps W s l -> extend_known qcmp quad_comps W (map iq s) (map iq l).
  Proof.
    induction l as [|x l IH]; intros s H; cbn in *; [trivial|]; destruct H as [H1 H2].
    split; [now apply repeats_known_iq|]; rewrite add_iq; auto.
  Qed.

  Lemma spec_step_iq s o :
    snd (spec_step qcmp (map iq s) (qop o)) = map iq (snd (spec_step tcmp s o)).
  Proof.
    destruct o; cbn; auto using add_iq, del_iq, fold_add_iq.
  Qed.

  Lemma known_history_iq W ops : forall s,
    known_history tcmp triple_comps W s ops ->
    known_history qcmp quad_comps W (map iq s) (map qop ops).
  Proof.
    induction ops as [|o ops IH]; intros s H; cbn [known_history map] in *; [trivial|].
    destruct H as [H1 H2]; split.
    - destruct o; cbn; auto using repeats_known_iq, extend_known_iq.
    - rewrite spec_step_iq; auto.
  Qed.

  Lemma spec_run_iq ops : forall s,
    snd (spec_run qcmp (map iq s) (map qop ops)) = map iq (snd (spec_run tcmp s ops)).
  Proof.
    induction ops as [|o ops IH]; intros s; cbn [spec_run map]; [reflexivity|].
    pose proof (spec_step_iq s o) as E.
    destruct (spec_step qcmp (map iq s) (qop o)) as [x s1], (spec_step tcmp s o) as [y s2].
    cbn in E; subst s1; specialize (IH s2).
    destruct (spec_run qcmp (map iq s2) (map qop ops)), (spec_run tcmp s2 ops); exact IH.
  Qed.

  Lemma step_iq g o x g' :
    bg_step cmp keep g o = Some (x, g') ->
    exists y, bd_step cmp keep (emb g) (qop o) = Some (y, emb g').
  Proof.
    destruct o as [t|t|l|t| | | |]; cbn [bg_step bd_step qop].
    - rewrite emb_insert; destruct (bg_insert cmp keep g t) as [[b h]|]; cbn; intros E; inv E; eauto.
    - rewrite emb_remove; destruct (bg_remove cmp g t) as [[b h]|]; cbn; intros E; inv E; eauto.
    - rewrite emb_extend; destruct (bg_extend cmp keep g l); cbn; intros E; inv E; eauto.
    - rewrite emb_contains; destruct (bg_contains cmp g t); cbn; intros E; inv E; eauto.
    - intros E; inv E; eexists; reflexivity.
    - intros E; inv E; eexists; reflexivity.
    - rewrite emb_iter; destruct (bg_iter g); cbn; intros E; inv E; eauto.
    - rewrite emb_into_iter; destruct (bg_into_iter g); cbn; intros E; inv E; eauto.
  Qed.

  Lemma run_iq ops : forall g xs g',
    run (bg_step cmp keep) g ops = Some (xs, g') ->
    exists ys, run (bd_step cmp keep) (emb g) (map qop ops) = Some (ys, emb g').
  Proof.
    induction ops as [|o ops IH]; intros g xs g' E; cbn in *; [inv E; eauto|].
    destruct (bg_step cmp keep g o) as [[x g1]|] eqn:E1; [|discriminate].
    destruct (step_iq _ _ _ _ E1) as (y & ->).
    destruct (run (bg_step cmp keep) g1 ops) as [[ys g2]|] eqn:E2; [|discriminate]; inv E.
    destruct (IH _ _ _ E2) as (zs & ->); eauto.
  Qed.

  Lemma bg_resources_exactly ops xs g :
    run (bg_step cmp keep) bg_new ops = Some (xs, g) ->
    exists l, bg_resources_iter g = Some l /\ increasing cmp l /\
      (forall r, bg_contains_resource cmp g r = Some (mem cmp r l)) /\
      (forall r, known_history tcmp triple_comps (eq r) [] ops ->
         In r l <-> occurs triple_comps r (spec_set tcmp ops)).
  Proof.
    intros H; apply run_iq in H as (ys & H); rewrite emb_new in H.
    destruct (bd_resources_exactly L keep _ _ _ H) as (l & A & B & C & D).
    exists l; split; [exact A|]; split; [exact B|]; split; [exact C|].
    intros r Hk; rewrite (D r (known_history_iq _ _ [] Hk)); unfold spec_set.
    pose proof (spec_run_iq ops []) as E; cbn [map] in E; rewrite E; apply occurs_iq.
  Qed.
End Proofs.

Lemma bg_run_total {R} {cmp : R -> R -> comparison} (L : ord_laws cmp) keep ops :
  run (bg_step cmp keep) bg_new ops <> None.
Proof. destruct (bg_run_ok L keep ops) as (d & ->); discriminate. Qed.

(** insert (1 1 2), insert (3 1 4), remove (1 1 2) *)
Definition bg_bad_ops : list (op (triple nat)) :=
  [Insert (Triple 1 1 2); Insert (Triple 3 1 4); Remove (Triple 1 1 2)].

Lemma bg_resources_counterexample :
  exists (ops : list (op (triple nat))) xs g r,
    forall keep,
      run (bg_step Nat.compare keep) bg_new ops = Some (xs, g keep) /\
      occurs triple_comps r (spec_set (triple_cmp Nat.compare) ops) /\
      bg_contains_resource Nat.compare (g keep) r = Some false.
Proof.
  exists bg_bad_ops, [OBool true; OBool true; OBool true],
    (fun keep => match run (bg_step Nat.compare keep) bg_new bg_bad_ops with
                 | Some (_, d) => d | None => bg_new end), 1.
  intros keep; split; [|split].
  - destruct keep; vm_compute; reflexivity.
  - exists (Triple 3 1 4); vm_compute; auto.
  - destruct keep; vm_compute; reflexivity.
Qed.
