(** Interrupted operations: reasoning rules, and the table of resources. *)
From Coq Require Import List Bool Arith Lia Permutation Sorted.
Import ListNotations.
From Verif Require Import Base SlabModel TripleModel SetSpec BaseProofs BResourceModel BResourceProofs
  BTreeDatasetModel BTreeDatasetProofs CrashModel.

(** ** Rules *)

(** What holds if [a] ends ([P]), and if it is interrupted ([E]); it does not
    panic by itself. *)
Definition runs {St A} (a : act St A) (n : nat) (s : St) (P : A -> St -> Prop) (E : St -> Prop) : Prop :=
  match a n s with
  | Done x _ s' => P x s'
  | Interrupted s' => E s'
  | Failed _ => False
  end.

Lemma runs_weak {St A} (a : act St A) n s (P P' : A -> St -> Prop) (E E' : St -> Prop) :
  runs a n s P E -> (forall x s', P x s' -> P' x s') -> (forall s', E s' -> E' s') -> runs a n s P' E'.
Proof. unfold runs; destruct (a n s); auto. Qed.

Lemma runs_ret {St A} (x : A) n (s : St) (P : A -> St -> Prop) (E : St -> Prop) :
  P x s -> runs (ret x) n s P E.
Proof. auto. Qed.

Lemma runs_put {St} (t : St) n s (P : unit -> St -> Prop) (E : St -> Prop) :
  P tt t -> runs (put t) n s P E.
Proof. auto. Qed.

Lemma runs_get {St} n (s : St) (P : St -> St -> Prop) (E : St -> Prop) : P s s -> runs get n s P E.
Proof. auto. Qed.

Lemma runs_andthen {St A B} (a : act St A) (f : A -> act St B) n s P E :
  runs a n s (fun x s' => forall m, runs (f x) m s' P E) E -> runs (andthen a f) n s P E.
Proof. unfold runs at 1 3, andthen; destruct (a n s); intros H; apply H. Qed.

Lemma runs_get_then {St B} (f : St -> act St B) n s P E :
  runs (f s) n s P E -> runs (andthen get f) n s P E.
Proof. auto. Qed.

Lemma runs_put_then {St B} (t : St) (f : unit -> act St B) n s P E :
  runs (f tt) n t P E -> runs (andthen (put t) f) n s P E.
Proof. auto. Qed.

Lemma runs_need_then {St A B} (r : option A) x (f : A -> act St B) n s P E :
  r = Some x -> runs (f x) n s P E -> runs (andthen (need r) f) n s P E.
Proof. intros ->; auto. Qed.

Lemma runs_zoom {St T A} (view : St -> T) update (a : act T A) n s (P : A -> St -> Prop) (E : St -> Prop) :
  runs a n (view s) (fun x t => P x (update t s)) (fun t => E (update t s)) ->
  runs (zoom view update a) n s P E.
Proof. unfold runs, zoom; destruct (a n (view s)); auto. Qed.

(** ** Searches: actions that do not change the state; [r] is the result ([None]
    if they panic by themselves), after some number of comparisons. *)
Definition quiet {St A} (a : act St A) (r : option A) : Prop :=
  exists k, forall n s,
    a n s = if n <? k then Interrupted s
            else match r with Some x => Done x (n - k) s | None => Failed s end.

Lemma quiet_ret {St A} (x : A) : quiet (@ret St A x) (Some x).
Proof. exists 0; intros n s; cbn; now rewrite Nat.sub_0_r. Qed.

Lemma quiet_need {St A} (r : option A) : quiet (@need St A r) r.
Proof. exists 0; intros n s; cbn; rewrite Nat.sub_0_r; destruct r; reflexivity. Qed.

Lemma quiet_called {St A} (x : A) : quiet (@called St A x) (Some x).
Proof. exists 1; intros [|n] s; cbn; [reflexivity|]; now rewrite Nat.sub_0_r. Qed.

Lemma quiet_andthen {St A B} (a : act St A) (f : A -> act St B) r g :
  quiet a r -> (forall x, r = Some x -> quiet (f x) (g x)) ->
  quiet (andthen a f) (bind r g).
Proof.
  intros [k Hk] Hf; destruct r as [x|]; cbn.
  - destruct (Hf x eq_refl) as [j Hj]; exists (k + j); intros n s; unfold andthen; rewrite Hk.
    destruct (n <? k) eqn:E1.
    + apply Nat.ltb_lt in E1; replace (n <? k + j) with true; [reflexivity|].
      symmetry; apply Nat.ltb_lt; lia.
    + apply Nat.ltb_ge in E1; rewrite Hj; replace (n <? k + j) with (n - k <? j).
      * destruct (n - k <? j); [reflexivity|]; now rewrite Nat.sub_add_distr.
      * destruct (n <? k + j) eqn:E2.
        -- apply Nat.ltb_lt in E2; apply Nat.ltb_lt; lia.
        -- apply Nat.ltb_ge in E2; apply Nat.ltb_ge; lia.
  - exists k; intros n s; unfold andthen; rewrite Hk; destruct (n <? k); reflexivity.
Qed.

Lemma quiet_eq {St A} (a : act St A) r r' : quiet a r -> r = r' -> quiet a r'.
Proof. intros H <-; exact H. Qed.

Lemma runs_quiet {St A} (a : act St A) x n s (P : A -> St -> Prop) (E : St -> Prop) :
  quiet a (Some x) -> P x s -> E s -> runs a n s P E.
Proof. intros [k H] HP HE; unfold runs; rewrite H; destruct (n <? k); assumption. Qed.

Lemma runs_quiet_then {St A B} (a : act St A) x (f : A -> act St B) n s P (E : St -> Prop) :
  quiet a (Some x) -> E s -> (forall m, runs (f x) m s P E) -> runs (andthen a f) n s P E.
Proof. intros H HE Hf; apply runs_andthen; eapply runs_quiet; eauto. Qed.

Section Tree.
  Context {St : Type}.

  Lemma quiet_m_get {K} (c : nat -> K -> act St comparison) (c' : nat -> K -> option comparison) k l :
    (forall i, quiet (c i k) (c' i k)) -> quiet (m_get c k l) (bt_get c' k l).
  Proof.
    intros H; induction l as [|i l IH]; [apply quiet_ret|].
    cbn [m_get bt_get]; apply quiet_andthen; [apply H|]; intros [] _; auto using quiet_ret.
  Qed.

  Lemma quiet_m_insert keep (c : nat -> nat -> act St comparison) c' x l :
    (forall i, quiet (c i x) (c' i x)) -> quiet (m_insert keep c x l) (bt_insert keep c' x l).
  Proof.
    intros H; induction l as [|i l IH]; [apply quiet_ret|].
    cbn [m_insert bt_insert]; apply quiet_andthen; [apply H|]; intros [] _; auto using quiet_ret.
    apply quiet_andthen; auto using quiet_ret.
  Qed.

  Lemma quiet_m_remove {K} (c : nat -> K -> act St comparison) (c' : nat -> K -> option comparison) k l :
    (forall i, quiet (c i k) (c' i k)) -> quiet (m_remove c k l) (bt_remove c' k l).
  Proof.
    intros H; induction l as [|i l IH]; [apply quiet_ret|].
    cbn [m_remove bt_remove]; apply quiet_andthen; [apply H|]; intros [] _; auto using quiet_ret.
    apply quiet_andthen; [exact IH|]; intros [? ?] _; apply quiet_ret.
  Qed.
End Tree.

Section Comparisons.
  Context {R : Type} (cmp : R -> R -> comparison) {St : Type}.

  Lemma quiet_m_then (a b : act St comparison) c d :
    quiet a (Some c) -> quiet b (Some d) -> quiet (m_then a b) (Some (then_cmp c d)).
  Proof.
    intros Ha Hb; unfold m_then.
    eapply quiet_eq; [apply (quiet_andthen _ _ (Some c)
      (fun c => Some (then_cmp c d)) Ha)|reflexivity].
    intros x E; inv E; destruct x; cbn; auto using quiet_ret.
  Qed.

  Lemma quiet_triple_cmp a b : quiet (St:=St) (m_triple_cmp cmp a b) (Some (triple_cmp cmp a b)).
  Proof. repeat (apply quiet_m_then || apply quiet_called). Qed.

  Lemma quiet_quad_cmp a b : quiet (St:=St) (m_quad_cmp cmp a b) (Some (quad_cmp cmp a b)).
  Proof.
    repeat (apply quiet_m_then || apply quiet_called).
    destruct (q_g a), (q_g b); cbn; auto using quiet_ret, quiet_called.
  Qed.

  Lemma quiet_resource_cmp val i r :
    quiet (St:=St) (m_resource_cmp cmp val i r) (kcmp (cmpk:=cmp) val i r).
  Proof. apply quiet_andthen; [apply quiet_need|]; intros; apply quiet_called. Qed.

  Lemma quiet_resource_index_cmp val i j :
    quiet (St:=St) (m_resource_index_cmp cmp val i j) (icmp (cmpk:=cmp) val i j).
  Proof.
    apply quiet_andthen; [apply quiet_need|]; intros.
    apply quiet_andthen; [apply quiet_need|]; intros; apply quiet_called.
  Qed.

  Lemma quiet_quad_at_cmp at_ i q :
    quiet (St:=St) (m_quad_at_cmp cmp at_ i q) (kcmp (cmpk:=quad_cmp cmp) at_ i q).
  Proof. apply quiet_andthen; [apply quiet_need|]; intros; apply quiet_quad_cmp. Qed.

  Lemma quiet_quad_index_cmp at_ i j :
    quiet (St:=St) (m_quad_index_cmp cmp at_ i j) (icmp (cmpk:=quad_cmp cmp) at_ i j).
  Proof.
    apply quiet_andthen; [apply quiet_need|]; intros.
    apply quiet_andthen; [apply quiet_need|]; intros; apply quiet_quad_cmp.
  Qed.

  Lemma quiet_triple_at_cmp at_ i t :
    quiet (St:=St) (m_triple_at_cmp cmp at_ i t) (kcmp (cmpk:=triple_cmp cmp) at_ i t).
  Proof. apply quiet_andthen; [apply quiet_need|]; intros; apply quiet_triple_cmp. Qed.

  Lemma quiet_triple_index_cmp at_ i j :
    quiet (St:=St) (m_triple_index_cmp cmp at_ i j) (icmp (cmpk:=triple_cmp cmp) at_ i j).
  Proof.
    apply quiet_andthen; [apply quiet_need|]; intros.
    apply quiet_andthen; [apply quiet_need|]; intros; apply quiet_triple_cmp.
  Qed.
End Comparisons.

(** ** Number of entries of a slab *)
Lemma slen_count {T} (s : slab T) : slen s = length (filter (fun o => match o with Some _ => true | None => false end) (ents s)).
Proof.
  unfold slen, spairs; generalize 0 as n; induction (ents s) as [|[x|] l IH]; intros n; cbn; auto.
Qed.

Lemma count_set {T} (l : list (option T)) i o :
  i < length l ->
  length (filter (fun o => match o with Some _ => true | None => false end) (list_set l i o)) +
    match nth_error l i with Some (Some _) => 1 | _ => 0 end =
  length (filter (fun o => match o with Some _ => true | None => false end) l) +
    match o with Some _ => 1 | None => 0 end.
Proof.
  revert i; induction l as [|y l IH]; intros [|i] H; cbn in H; try lia.
  - cbn; destruct o, y; cbn; lia.
  - cbn; specialize (IH i ltac:(lia)); destruct y; cbn; lia.
Qed.

Lemma slen_sinsert {T} (s : slab T) x : swf s -> slen (sinsert s x) = S (slen s).
Proof.
  intros [_ Hf]; rewrite !slen_count; unfold sinsert; destruct (free s) as [|k f] eqn:E; cbn.
  - rewrite filter_app, app_length; cbn; lia.
  - assert (Hk : nth_error (ents s) k = Some None) by (apply Hf; now left).
    assert (k < length (ents s)) by (apply nth_error_Some; congruence).
    pose proof (count_set (ents s) k (Some x) ltac:(assumption)) as C; rewrite Hk in C; lia.
Qed.

Lemma slen_sremove {T} (s s' : slab T) i x : sremove s i = Some (x, s') -> slen s = S (slen s').
Proof.
  intros H; pose proof (sremove_inv _ _ _ _ H) as Hx; unfold sremove in H; rewrite Hx in H; inv H.
  rewrite !slen_count; cbn.
  pose proof (count_set (ents s) i None (sget_lt _ _ _ Hx)) as C.
  apply sget_nth in Hx; rewrite Hx in C; lia.
Qed.

(** ** The table of resources of the non-indexed containers *)
Section Table.
  Context {R : Type} {cmp : R -> R -> comparison} (L : ord_laws cmp).
  Context (keep : bool).

  (** The counters are at least the number of uses. *)
  Record winv (rs : slab (bresource R)) (ri : list nat) (rc : nat -> nat) : Prop := {
    wi_wf : swf rs;
    wi_occ : forall r, 0 < rc r -> exists x, sget rs r = Some x /\ rc r <= br_occ x;
    wi_idx : exists vs, indexes (cmpk:=cmp) (br_val rs) ri vs
  }.

  Lemma winv_le rs ri rc rc' : winv rs ri rc -> (forall r, rc' r <= rc r) -> winv rs ri rc'.
  Proof.
    intros [A B C] H; split; auto; intros r Hr.
    destruct (B r) as (x & ? & ?); [specialize (H r); lia|]; exists x; split; [auto|].
    specialize (H r); lia.
  Qed.

  Definition grows (rs rs' : slab (bresource R)) : Prop :=
    forall j w, br_val rs j = Some w -> br_val rs' j = Some w.

  Lemma winv_new rc : (forall r, rc r = 0) -> winv slab_new [] rc.
  Proof.
    intros H; split; [apply swf_new| |].
    - intros r; rewrite H; lia.
    - exists []; repeat constructor.
  Qed.

  Lemma quiet_index_of rs ri rc v :
    winv rs ri rc ->
    exists f, b_index_of_resource cmp rs ri v = Some f /\
      match f with Some i => br_val rs i = Some v | None => True end.
  Proof.
    intros [_ _ (vs & H)].
    destruct (bt_get_spec L (br_val rs) ri vs v H) as (r & Hr & Hs); exists r; split; [exact Hr|].
    destruct r; tauto.
  Qed.

  Lemma runs_index_of rs ri rc v n :
    winv rs ri rc ->
    runs (m_b_index_of_resource cmp v) n (rs, ri)
      (fun f t => t = (rs, ri) /\ match f with Some i => br_val rs i = Some v | None => True end)
      (fun t => t = (rs, ri)).
  Proof.
    intros W; destruct (quiet_index_of _ _ _ v W) as (f & E & Hf).
    unfold m_b_index_of_resource; apply runs_get_then; cbn.
    eapply runs_quiet; [|split; [reflexivity|exact Hf]|reflexivity].
    eapply quiet_eq; [apply (quiet_m_get _ (kcmp (cmpk:=cmp) (br_val rs)));
      intros; apply quiet_resource_cmp|exact E].
  Qed.

  Lemma runs_acquire rs ri rc v f n :
    winv rs ri rc ->
    match f with Some i => br_val rs i = Some v | None => True end ->
    runs (m_b_acquire cmp keep v f) n (rs, ri)
      (fun k '(rs', ri') => winv rs' ri' (fun r => rc r + ind k r) /\ br_val rs' k = Some v /\ grows rs rs')
      (fun '(rs', ri') => winv rs' ri' rc /\ grows rs rs').
  Proof.
    intros [W1 W2 (vs & W3)] Hf; unfold m_b_acquire; apply runs_get_then; cbn.
    destruct f as [i|].
    - destruct (sget rs i) as [x|] eqn:E; [|unfold br_val in Hf; rewrite E in Hf; discriminate].
      eapply runs_need_then; [reflexivity|]; apply runs_put_then, runs_ret.
      set (y := BRes (br_value x) (S (br_occ x))).
      assert (V : forall j, br_val (sset rs i y) j = br_val rs j)
        by (intros; now apply br_val_sset with x).
      split; [split|split].
      + now apply swf_sset with x.
      + intros r Hr; rewrite (sget_sset _ _ _ _ _ E); unfold ind in *.
        rewrite (Nat.eqb_sym i r) in *; destruct (r =? i) eqn:Er.
        * apply Nat.eqb_eq in Er; subst r; exists y; split; [reflexivity|]; cbn.
          destruct (Nat.eq_dec (rc i) 0); [lia|].
          destruct (W2 i ltac:(lia)) as (x' & Ex & Hx); rewrite E in Ex; inv Ex; lia.
        * destruct (W2 r ltac:(lia)) as (x' & Ex & Hx); exists x'; split; [auto|lia].
      + exists vs; eapply indexes_ext; [|exact W3]; auto.
      + now rewrite V.
      + intros j w; now rewrite V.
    - apply runs_put_then.
      set (k := vacant_key rs); set (rs' := sinsert rs (BRes v 1)).
      assert (Hk : sget rs k = None) by now apply sget_vacant.
      assert (G : forall j, sget rs' j = if j =? k then Some (BRes v 1) else sget rs j)
        by (intros; now apply sget_sinsert).
      assert (Vk : br_val rs' k = Some v) by (unfold br_val; now rewrite G, Nat.eqb_refl).
      assert (V : grows rs rs').
      { intros j w; unfold br_val; rewrite G; destruct (j =? k) eqn:Ej; [|auto].
        apply Nat.eqb_eq in Ej; subst j; rewrite Hk; discriminate. }
      assert (Hidx : indexes (cmpk:=cmp) (br_val rs') ri vs).
      { eapply indexes_ext; [|exact W3].
        intros i Hi; destruct W3 as [HM _].
        destruct (mapM_in_inv _ _ _ _ HM Hi) as (w & Hw & _); rewrite Hw; auto. }
      assert (Hocc : forall r, 0 < rc r + ind k r ->
                exists x, sget rs' r = Some x /\ rc r + ind k r <= br_occ x).
      { intros r Hr; rewrite G; unfold ind in *; rewrite (Nat.eqb_sym k r) in *.
        destruct (r =? k) eqn:Er.
        - apply Nat.eqb_eq in Er; subst r; exists (BRes v 1); split; [reflexivity|]; cbn.
          destruct (Nat.eq_dec (rc k) 0); [lia|].
          destruct (W2 k ltac:(lia)) as (x' & Ex & _); congruence.
        - destruct (W2 r ltac:(lia)) as (x' & Ex & Hx); exists x'; split; [auto|lia]. }
      assert (Wi : winv rs' ri rc).
      { split; [now apply swf_sinsert| |eauto]; intros r Hr.
        destruct (Hocc r ltac:(lia)) as (x & ? & ?); exists x; split; [auto|lia]. }
      assert (exists ri' vs', bt_insert keep (icmp (cmpk:=cmp) (br_val rs')) k ri = Some ri' /\
                indexes (cmpk:=cmp) (br_val rs') ri' vs') as (ri' & vs' & Ei & Hi).
      { destruct (in_dec (ord_dec L) v vs) as [Hin|Hnin].
        - destruct (bt_insert_dup L (br_val rs') keep ri vs k v Hidx Vk Hin) as (ri' & ? & _ & ?); eauto.
        - destruct (bt_insert_new L (br_val rs') keep ri vs k v Hidx Vk Hnin) as (ri' & ? & _ & ?); eauto. }
      eapply runs_quiet_then.
      + eapply quiet_eq; [apply (quiet_m_insert _ _ (icmp (cmpk:=cmp) (br_val rs')));
          intros; apply quiet_resource_index_cmp|exact Ei].
      + auto.
      + intros m; apply runs_put_then, runs_ret; split; [|auto].
        split; [now apply swf_sinsert|exact Hocc|eauto].
  Qed.

  (** The two comparisons used on release look for the value of the slot. *)
  Definition m_finds {K} (rcmp : (nat -> option R) -> nat -> K -> act (@btable R) comparison) (key : K)
      (v : R) (k : nat) : Prop :=
    forall rs ri, br_val rs k = Some v ->
      quiet (m_remove (rcmp (br_val rs)) key ri) (bt_remove (kcmp (cmpk:=cmp) (br_val rs)) v ri).

  Lemma m_finds_value v k : m_finds (m_resource_cmp cmp) v v k.
  Proof.
    intros rs ri _; apply (quiet_m_remove _ (kcmp (cmpk:=cmp) (br_val rs))).
    intros; apply quiet_resource_cmp.
  Qed.

  Lemma m_finds_index v k : m_finds (m_resource_index_cmp cmp) k v k.
  Proof.
    intros rs ri H; rewrite <- (bt_remove_icmp cmp (br_val rs) k v ri H).
    apply (quiet_m_remove _ (icmp (cmpk:=cmp) (br_val rs))); intros; apply quiet_resource_index_cmp.
  Qed.

  Lemma runs_release {K} rcmp (key : K) rs ri rc k v n :
    winv rs ri rc -> 0 < rc k -> br_val rs k = Some v -> m_finds rcmp key v k ->
    runs (m_b_release rcmp k key) n (rs, ri)
      (fun _ '(rs', ri') => winv rs' ri' (fun r => rc r - ind k r) /\
         forall j, 0 < rc j - ind k j -> br_val rs' j = br_val rs j)
      (fun '(rs', ri') => winv rs' ri' (fun r => rc r - ind k r) /\
         forall j, 0 < rc j - ind k j -> br_val rs' j = br_val rs j).
  Proof.
    intros [W1 W2 (vs & W3)] Hrc Hv Hf; unfold m_b_release; apply runs_get_then; cbn.
    destruct (W2 k Hrc) as (x & E & Hx); eapply runs_need_then; [exact E|].
    destruct (br_occ x) as [|m] eqn:Eo; [lia|].
    set (y := BRes (br_value x) m).
    assert (V : forall j, br_val (sset rs k y) j = br_val rs j)
      by (intros; now apply br_val_sset with x).
    assert (Hidx : indexes (cmpk:=cmp) (br_val (sset rs k y)) ri vs)
      by (eapply indexes_ext; [|exact W3]; auto).
    pose proof (sget_sset _ _ _ y k E) as Gk; rewrite Nat.eqb_refl in Gk.
    assert (Wm : winv (sset rs k y) ri (fun r => rc r - ind k r)).
    { split; [now apply swf_sset with x| |eauto]; intros r Hr.
      rewrite (sget_sset _ _ _ _ _ E); unfold ind in *; rewrite (Nat.eqb_sym k r) in *.
      destruct (r =? k) eqn:Er.
      - apply Nat.eqb_eq in Er; subst r; exists y; split; [reflexivity|cbn; lia].
      - destruct (W2 r ltac:(lia)) as (x' & Ex & Hx'); exists x'; split; [auto|lia]. }
    apply runs_put_then; destruct (m =? 0) eqn:Em; [|apply runs_ret; auto].
    apply Nat.eqb_eq in Em; subst m.
    destruct (bt_remove_spec L (br_val (sset rs k y)) ri vs v Hidx)
      as (r & ri' & Er & Hidx' & _).
    eapply runs_quiet_then.
    - eapply quiet_eq; [apply (Hf (sset rs k y) ri); now rewrite V|exact Er].
    - auto.
    - intros m; cbn; apply runs_put_then.
      destruct (sremove_some _ _ _ Gk) as (rs' & Hrm); eapply runs_need_then; [exact Hrm|].
      cbn beta iota; apply runs_put.
      assert (G : forall j, sget rs' j = if j =? k then None else sget rs j).
      { intros j; rewrite (sget_sremove _ _ _ _ _ Hrm), (sget_sset _ _ _ _ _ E).
        destruct (j =? k); reflexivity. }
      assert (Hnk : ~ In k ri').
      { intros Hin; destruct Hidx' as [HM _].
        destruct (mapM_in_inv _ _ _ _ HM Hin) as (w & Hw & Hw').
        rewrite V, Hv in Hw; inv Hw; apply (in_del L) in Hw'; tauto. }
      split; [split|].
      + eapply swf_sremove; [|exact Hrm]; now apply swf_sset with x.
      + intros j Hj; rewrite G; unfold ind in *; rewrite (Nat.eqb_sym k j) in *; destruct (j =? k) eqn:Ej.
        * apply Nat.eqb_eq in Ej; subst; lia.
        * destruct (W2 j ltac:(lia)) as (x' & Ex & Hx'); exists x'; split; [auto|lia].
      + exists (del cmp v vs); eapply indexes_ext; [|exact Hidx']; intros j Hj.
        unfold br_val; rewrite G, (sget_sset _ _ _ _ _ E).
        destruct (j =? k) eqn:Ej; [|reflexivity].
        apply Nat.eqb_eq in Ej; subst; contradiction.
      + intros j Hj; unfold br_val; rewrite G; destruct (j =? k) eqn:Ej; [|reflexivity].
        apply Nat.eqb_eq in Ej; subst; rewrite ind_same in Hj; lia.
  Qed.
End Table.
