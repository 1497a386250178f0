(** Lemmas on the maps, sorts and greedy matching of IsoModel.v. *)
From Coq Require Import List Bool Arith Lia Permutation Sorted.
Import ListNotations.
From Verif Require Import Base TripleModel SetSpec ContainerSpec IsoModel IsoSpec BaseProofs.

Section Map.
  Context {K V : Type} {cmp : K -> K -> comparison} (L : ord_laws cmp).
  Implicit Types (m : list (K * V)).

  Definition msorted m : Prop := increasing cmp (map fst m).

  Lemma m_get_in k v m : m_get cmp k m = Some v -> In (k, v) m.
  Proof.
    induction m as [|[k' v'] m IH]; cbn; [discriminate|].
    destruct (cmp k k') eqn:E; try (intros H; right; now apply IH).
    apply (ord_eq _ L) in E; subst. intros [= ->]. now left.
  Qed.
  Lemma m_get_none k m : m_get cmp k m = None <-> ~ In k (map fst m).
  Proof.
    induction m as [|[k' v'] m IH]; cbn; [tauto|].
    destruct (cmp k k') eqn:E.
    - apply (ord_eq _ L) in E; subst. split; [discriminate|]. intros H; destruct H; now left.
    - rewrite IH. split; [intros H [->|?]; [|now apply H]|tauto]. now rewrite (ord_refl L) in E.
    - rewrite IH. split; [intros H [->|?]; [|now apply H]|tauto]. now rewrite (ord_refl L) in E.
  Qed.
  Lemma m_get_some_key k v m : m_get cmp k m = Some v -> In k (map fst m).
  Proof. intros H. apply m_get_in in H. apply in_map_iff. now exists (k, v). Qed.
  Lemma m_get_key k m : In k (map fst m) -> exists v, m_get cmp k m = Some v.
  Proof.
    intros H. destruct (m_get cmp k m) as [v|] eqn:E; [now exists v|].
    now apply m_get_none in E.
  Qed.
  Lemma in_m_get k v m : msorted m -> In (k, v) m -> m_get cmp k m = Some v.
  Proof.
    intros S H. apply ssorted_nodup in S; [|exact L].
    induction m as [|[k' v'] m IH]; [destruct H|]. cbn in *. inv S.
    destruct H as [[= -> ->]|H].
    - now rewrite (ord_refl L).
    - destruct (cmp k k') eqn:E; [|now apply IH|now apply IH].
      apply (ord_eq _ L) in E; subst. destruct H2. apply in_map_iff. now exists (k', v).
  Qed.
  Lemma m_contains_true k m : m_contains cmp k m = true <-> In k (map fst m).
  Proof.
    unfold m_contains. destruct (m_get cmp k m) eqn:E.
    - apply m_get_some_key in E. tauto.
    - apply m_get_none in E. split; [discriminate|tauto].
  Qed.
  Lemma m_contains_false k m : m_contains cmp k m = false <-> ~ In k (map fst m).
  Proof. rewrite <- m_contains_true. destruct (m_contains cmp k m); split; congruence. Qed.

  Lemma m_alter_keys k f m x :
    In x (map fst (m_alter cmp k f m)) <-> x = k \/ In x (map fst m).
  Proof.
    induction m as [|[k' v'] m IH]; cbn; [intuition|].
    destruct (cmp k k') eqn:E; cbn.
    - apply (ord_eq _ L) in E; subst. intuition.
    - intuition.
    - rewrite IH. tauto.
  Qed.
  Lemma m_alter_sorted k f m : msorted m -> msorted (m_alter cmp k f m).
  Proof.
    unfold msorted, increasing. induction m as [|[k' v'] m IH]; cbn; intros S; [repeat constructor|].
    apply StronglySorted_inv in S as [S F].
    destruct (cmp k k') eqn:E; cbn.
    - now constructor.
    - constructor; [now constructor|]. constructor; [assumption|].
      eapply Forall_impl; [|exact F]. intros z Hz. now apply (ord_trans _ L k k' z).
    - constructor; [now apply IH|]. rewrite Forall_forall in *. intros z Hz.
      apply m_alter_keys in Hz as [->|Hz]; [now apply (ord_lt_gt L)|now apply F].
  Qed.
  Lemma m_get_alter k f m x : msorted m ->
    m_get cmp x (m_alter cmp k f m) = if same cmp k x then Some (f (m_get cmp k m)) else m_get cmp x m.
  Proof.
    unfold msorted, increasing. induction m as [|[k' v'] m IH]; cbn; intros S.
    - unfold same. rewrite (ord_sym _ L x k). now destruct (cmp x k).
    - apply StronglySorted_inv in S as [S F].
      destruct (cmp k k') eqn:E; cbn.
      + apply (ord_eq _ L) in E; subst. unfold same. rewrite (ord_sym _ L x k').
        now destruct (cmp x k').
      + unfold same. rewrite (ord_sym _ L x k). destruct (cmp x k) eqn:E1; [|reflexivity|reflexivity].
        cbn. repeat f_equal. symmetry. apply m_get_none. intros H.
        rewrite Forall_forall in F. apply F in H.
        apply (ord_lt_irrefl L k). now apply (ord_trans _ L k k' k).
      + rewrite (IH S). unfold same. destruct (cmp x k') eqn:E1; [|reflexivity|reflexivity].
        apply (ord_eq _ L) in E1; subst. now rewrite E.
  Qed.
  Lemma m_get_insert k v m x : msorted m ->
    m_get cmp x (m_insert cmp k v m) = if same cmp k x then Some v else m_get cmp x m.
  Proof. intros S. unfold m_insert. now rewrite m_get_alter. Qed.
  (** Inserting a key above all the others. *)
  Lemma m_insert_last k v m : (forall x, In x (map fst m) -> cmp x k = Lt) ->
    m_insert cmp k v m = m ++ [(k, v)].
  Proof.
    unfold m_insert. induction m as [|[k' v'] m IH]; cbn; intros H; [reflexivity|].
    rewrite (ord_sym _ L k' k), (H k') by (now left). cbn. f_equal. apply IH. auto.
  Qed.
End Map.

Section Sets.
  Context {K : Type} {cmp : K -> K -> comparison} (L : ord_laws cmp).
  Lemma in_s_insert k s x : In x (s_insert cmp k s) <-> x = k \/ In x s.
  Proof.
    induction s as [|k' s IH]; cbn; [intuition|].
    destruct (cmp k k') eqn:E; cbn.
    - apply (ord_eq _ L) in E; subst. intuition.
    - intuition.
    - rewrite IH. tauto.
  Qed.

  Lemma sort_insert_perm (x : K) l : Permutation (sort_insert cmp x l) (x :: l).
  Proof.
    induction l as [|y l IH]; cbn; [reflexivity|].
    destruct (cmp x y); try reflexivity. rewrite IH. apply perm_swap.
  Qed.
  Lemma sort_unstable_perm (l : list K) : Permutation (sort_unstable cmp l) l.
  Proof.
    induction l as [|x l IH]; cbn; [reflexivity|]. rewrite sort_insert_perm. now rewrite IH.
  Qed.
End Sets.

(** ** Greedy matching *)
Section Greedy.
  Context {R T : Type} (f : quad R -> quad R -> bool) (ka kb : quad R -> T).
  Context (F : forall p q, f p q = true <-> ka p = kb q).

  Fixpoint live (o : list (option (quad R))) : list (quad R) :=
    match o with [] => [] | Some q :: o => q :: live o | None :: o => live o end.
  Lemma live_some l : live (map Some l) = l.
  Proof. induction l; cbn; congruence. Qed.

  Lemma take_match_some q o o' : take_match f q o = Some o' ->
    exists q', ka q = kb q' /\ Permutation (live o) (q' :: live o').
  Proof.
    revert o'; induction o as [|[p|] o IH]; cbn; intros o'; [discriminate| |].
    - destruct (f q p) eqn:E.
      + intros [= <-]. exists p. apply F in E. now split.
      + destruct (take_match f q o) as [r|]; [|discriminate]. intros [= <-].
        destruct (IH r eq_refl) as (q' & E1 & P). exists q'. split; [assumption|].
        cbn. rewrite P. apply perm_swap.
    - destruct (take_match f q o) as [r|]; [|discriminate]. intros [= <-].
      destruct (IH r eq_refl) as (q' & E1 & P). now exists q'.
  Qed.
  Lemma take_match_none q o : take_match f q o = None -> ~ In (ka q) (map kb (live o)).
  Proof.
    induction o as [|[p|] o IH]; cbn; [tauto| |].
    - destruct (f q p) eqn:E; [discriminate|].
      destruct (take_match f q o); [discriminate|]. intros _ [H|H]; [|now apply IH].
      symmetry in H. apply F in H. congruence.
    - destruct (take_match f q o); [discriminate|]. auto.
  Qed.
  Lemma take_all_spec l o :
    take_all f l o = true <-> exists r, Permutation (map ka l ++ r) (map kb (live o)).
  Proof.
    revert o; induction l as [|q l IH]; intros o; cbn.
    - split; [intros _; now exists (map kb (live o))|reflexivity].
    - destruct (take_match f q o) as [o'|] eqn:E.
      + apply take_match_some in E as (q' & E & P). rewrite IH.
        assert (Q : Permutation (map kb (live o)) (ka q :: map kb (live o'))).
        { rewrite E. change (kb q' :: map kb (live o')) with (map kb (q' :: live o')).
          now apply Permutation_map. }
        split; intros [r H]; exists r.
        * rewrite Q, <- H. reflexivity.
        * rewrite Q in H. now apply Permutation_cons_inv in H.
      + split; [discriminate|]. intros [r H]. exfalso. apply take_match_none in E. apply E.
        eapply Permutation_in; [exact H|]. now left.
  Qed.
  Lemma sig_with_spec a b : sig_with f a b = true <-> Permutation (map ka a) (map kb b).
  Proof.
    unfold sig_with. destruct (length a =? length b) eqn:E.
    - apply Nat.eqb_eq in E. rewrite take_all_spec, live_some. split.
      + intros [r H]. assert (r = []) as ->.
        { apply Permutation_length in H. rewrite app_length, !map_length in H.
          destruct r; [reflexivity|cbn in H; lia]. }
        now rewrite app_nil_r in H.
      + intros H. exists []. now rewrite app_nil_r.
    - split; [discriminate|]. intros H. apply Permutation_length in H.
      rewrite !map_length in H. apply Nat.eqb_neq in E. congruence.
  Qed.
End Greedy.
