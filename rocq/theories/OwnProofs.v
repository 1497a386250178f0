(** Every resource that comes out of a container was put in it. *)
From Coq Require Import List Bool Arith.
Import ListNotations.
From Verif Require Import Base TripleModel TriplePatternModel QuadPatternModel SlabModel SetSpec
  IndexedSpec Machine BResourceModel BTreeDatasetModel BTreeGraphModel IResourceModel
  IndexedDatasetModel IndexedGraphModel MapSpec.
Open Scope panic_scope.

Ltac unbind H :=
  match type of H with
  | bind ?x _ = Some _ =>
      let E := fresh "E" in destruct x eqn:E; [cbn [bind] in H|discriminate H]
  end.

Section Slab.
  Context {T : Type} (P : T -> Prop).
  Definition all (s : slab T) : Prop :=
    Forall (fun e => match e with Some x => P x | None => True end) (ents s).

  Lemma all_new : all slab_new.
  Proof. constructor. Qed.
  Lemma all_get s i x : all s -> sget s i = Some x -> P x.
  Proof.
    unfold all, sget; rewrite Forall_forall; intros H E.
    destruct (nth_error (ents s) i) as [[y|]|] eqn:N; try discriminate; injection E as <-.
    exact (H _ (nth_error_In _ _ N)).
  Qed.
  Lemma all_list_set {A} (Q : A -> Prop) l x : Q x -> Forall Q l -> forall i, Forall Q (list_set l i x).
  Proof.
    intros Hx H; induction H as [|y l Hy H IH]; intros i; [constructor|].
    destruct i; cbn; constructor; auto.
  Qed.
  Lemma all_set s i x : all s -> P x -> all (sset s i x).
  Proof. intros H Hx; apply all_list_set; auto. Qed.
  Lemma all_insert s x : all s -> P x -> all (sinsert s x).
  Proof.
    unfold all, sinsert; intros H Hx; destruct (free s); cbn.
    - apply Forall_app; auto.
    - apply all_list_set; auto.
  Qed.
  Lemma all_remove s i x s' : all s -> sremove s i = Some (x, s') -> all s'.
  Proof.
    unfold sremove; destruct (sget s i); [|discriminate]; intros H E; injection E as <- <-.
    apply all_list_set; auto.
  Qed.
  Lemma all_gap n : forall s, all s -> all (gap s n).
  Proof.
    induction n as [|n IH]; intros s H; [exact H|]; cbn; apply IH; unfold all; cbn.
    apply Forall_app; auto.
  Qed.
  Lemma all_collect l : Forall (fun '(_, x) => P x) l -> all (scollect l).
  Proof.
    unfold scollect; generalize all_new; generalize (@slab_new T); intros s Hs H; revert s Hs.
    induction H as [|[k x] l Hx H IH]; intros s Hs; [exact Hs|]; cbn; apply IH.
    unfold all; cbn; apply Forall_app; split; [now apply all_gap|auto].
  Qed.
  Lemma all_pairs s : all s -> Forall (fun '(_, x) => P x) (spairs s).
  Proof.
    unfold all, spairs; generalize 0; intros n H; revert n.
    induction H as [|[x|] l Hx H IH]; intros n; cbn; auto.
  Qed.
End Slab.

Lemma mapM_all {A B} (f : A -> option B) (P : B -> Prop) l r :
  (forall x y, f x = Some y -> P y) -> mapM f l = Some r -> Forall P r.
Proof.
  intros H; revert r; induction l as [|x l IH]; cbn; intros r E; [injection E as <-; constructor|].
  destruct (f x) eqn:Ex; [|discriminate]; destruct (mapM f l); [|discriminate]; injection E as <-.
  constructor; eauto.
Qed.

(** Steps that keep an invariant and whose results satisfy a property. *)
Lemma run_all {S O X} (step : S -> O -> option (X * S)) (inv : S -> Prop) (P : O -> Prop) (Q : X -> Prop) :
  (forall s o x s', inv s -> P o -> step s o = Some (x, s') -> Q x /\ inv s') ->
  forall ops s xs s', inv s -> Forall P ops -> run step s ops = Some (xs, s') -> Forall Q xs /\ inv s'.
Proof.
  intros H; induction ops as [|o ops IH]; cbn; intros s xs s' Hs Ho E.
  - injection E as <- <-; auto.
  - inversion Ho; subst.
    destruct (step s o) as [[x s1]|] eqn:E1; [|discriminate]; cbn in E.
    destruct (run step s1 ops) as [[ys s2]|] eqn:E2; [|discriminate]; injection E as <- <-.
    destruct (H _ _ _ _ Hs H2 E1) as [Hx H1'].
    destruct (IH _ _ _ H1' H3 E2); auto.
Qed.

Section Own.
  Context {R : Type} (cmp : R -> R -> comparison) (keep : bool) (P : R -> Prop).
  Notation ball := (all (fun r => P (br_value r))).
  Notation iall := (all (fun r => P (ir_value r))).

  Lemma br_val_all rs i v : ball rs -> br_val rs i = Some v -> P v.
  Proof. unfold br_val; intros H E; unbind E; injection E as <-; exact (all_get _ _ _ _ H E0). Qed.
  Lemma b_acquire_all rs ri v k i rs' ri' :
    ball rs -> P v -> b_acquire cmp keep rs ri v k = Some (i, rs', ri') -> ball rs'.
  Proof.
    unfold b_acquire; intros H Hv E; destruct k; unbind E; injection E as <- <- <-.
    - apply all_set; [exact H|]; exact (all_get _ _ _ _ H E0).
    - now apply all_insert.
  Qed.
  Lemma b_release_all {K} (rc : slab (bresource R) -> nat -> K -> option comparison) rs ri i k rs' ri' :
    ball rs -> b_release rc rs ri i k = Some (rs', ri') -> ball rs'.
  Proof.
    unfold b_release; intros H E; unbind E; destruct (br_occ b) as [|n]; [discriminate|].
    assert (H' : ball (sset rs i (BRes (br_value b) n)))
      by (apply all_set; [exact H|exact (all_get _ _ _ _ H E0)]).
    destruct (n =? 0); [|injection E as <- <-; exact H'].
    unbind E; destruct p; unbind E; destruct p; injection E as <- <-; exact (all_remove _ _ _ _ _ H' E2).
  Qed.

  (** [BTreeDataset] *)
  Lemma b_quad_with_resources_all rs q x :
    ball rs -> b_quad_with_resources rs q = Some x -> quad_all P x.
  Proof.
    unfold b_quad_with_resources; intros H E; do 3 unbind E.
    destruct (q_g q); [unbind E|]; injection E as <-; repeat split; cbn; eauto using br_val_all.
  Qed.
  Lemma b_quad_at_all rs qs i x : ball rs -> b_quad_at rs qs i = Some x -> quad_all P x.
  Proof. unfold b_quad_at; intros H E; unbind E; eauto using b_quad_with_resources_all. Qed.
  Lemma bd_iter_all d l : ball (bd_resources d) -> bd_iter d = Some l -> Forall (quad_all P) l.
  Proof. intros H; apply mapM_all; intros i x; now apply b_quad_at_all. Qed.
  Lemma bd_resources_iter_all d l :
    ball (bd_resources d) -> bd_resources_iter d = Some l -> Forall P l.
  Proof. intros H; apply mapM_all; intros i x; now apply br_val_all. Qed.
  Lemma bd_into_iter_all d l : ball (bd_resources d) -> bd_into_iter d = Some l -> Forall (quad_all P) l.
  Proof.
    unfold bd_into_iter; intros H; generalize (bd_quads d); revert l.
    induction (bd_qi d) as [|i idx IH]; cbn; intros l qs E; [injection E as <-; constructor|].
    unbind E; destruct p; do 2 unbind E; injection E as <-.
    constructor; eauto using b_quad_with_resources_all.
  Qed.
  Lemma bd_insert_all d q b d' :
    ball (bd_resources d) -> quad_all P q -> bd_insert cmp keep d q = Some (b, d') ->
    ball (bd_resources d').
  Proof.
    unfold bd_insert; intros H (Hs & Hp & Ho & Hg) E; unbind E.
    destruct b0; [injection E as <- <-; exact H|].
    do 3 unbind E; unbind E.
    do 3 (unbind E; destruct p as [[? ?] ?]); unbind E; destruct p as [[? ?] ?]; unbind E.
    injection E as <- <-; cbn.
    pose proof (b_acquire_all _ _ _ _ _ _ _ H Hs E5) as H1.
    pose proof (b_acquire_all _ _ _ _ _ _ _ H1 Hp E6) as H2.
    pose proof (b_acquire_all _ _ _ _ _ _ _ H2 Ho E7) as H3.
    destruct (q_g q) as [g|].
    - unbind E4; injection E4 as <-; unbind E8; destruct p as [[? ?] ?]; injection E8 as <- <- <-.
      exact (b_acquire_all _ _ _ _ _ _ _ H3 Hg E4).
    - injection E4 as <-; injection E8 as <- <- <-; exact H3.
  Qed.
  Lemma bd_remove_all d q b d' :
    ball (bd_resources d) -> bd_remove cmp d q = Some (b, d') -> ball (bd_resources d').
  Proof.
    unfold bd_remove; intros H E; unbind E; destruct p as [[i|] qi]; [|injection E as <- <-; exact H].
    unbind E; destruct p; do 4 (unbind E; destruct p); injection E as <- <-; cbn.
    pose proof (b_release_all _ _ _ _ _ _ _ H E2) as H1.
    pose proof (b_release_all _ _ _ _ _ _ _ H1 E3) as H2.
    pose proof (b_release_all _ _ _ _ _ _ _ H2 E4) as H3.
    destruct (q_g q0); [exact (b_release_all _ _ _ _ _ _ _ H3 E5)|injection E5 as <- <-; exact H3].
  Qed.
  Lemma bd_extend_all l : forall d d',
    ball (bd_resources d) -> Forall (quad_all P) l -> bd_extend cmp keep d l = Some d' ->
    ball (bd_resources d').
  Proof.
    induction l as [|q l IH]; cbn -[bd_insert]; intros d d' H Hl E; [injection E as <-; exact H|].
    inversion Hl; subst; unbind E; destruct p; eauto using bd_insert_all.
  Qed.
  Lemma bd_step_all d o x d' :
    ball (bd_resources d) -> op_puts (quad_all P) o -> bd_step cmp keep d o = Some (x, d') ->
    out_all (quad_all P) x /\ ball (bd_resources d').
  Proof.
    intros H Ho E; destruct o; cbn -[bd_insert bd_remove bd_extend bd_iter bd_into_iter bd_contains] in E;
      try unbind E; try destruct p; injection E as <- <-; split; cbn;
      eauto using bd_insert_all, bd_remove_all, bd_extend_all, bd_iter_all, bd_into_iter_all.
  Qed.
  Lemma bd_run_all ops xs d :
    Forall (op_puts (quad_all P)) ops -> run (bd_step cmp keep) bd_new ops = Some (xs, d) ->
    Forall (out_all (quad_all P)) xs /\ ball (bd_resources d).
  Proof.
    apply (run_all _ (fun d => ball (bd_resources d)) _ _ bd_step_all); apply all_new.
  Qed.
  Lemma bd_own ops xs d :
    Forall (op_puts (quad_all P)) ops -> run (bd_step cmp keep) bd_new ops = Some (xs, d) ->
    Forall (out_all (quad_all P)) xs /\
    forall l, bd_resources_iter d = Some l -> Forall P l.
  Proof.
    intros Ho E; destruct (bd_run_all _ _ _ Ho E) as [Hx H]; split; [exact Hx|].
    intros l; now apply bd_resources_iter_all.
  Qed.

  (** [BTreeGraph] *)
  Lemma b_triple_with_resources_all rs t x :
    ball rs -> b_triple_with_resources rs t = Some x -> triple_all P x.
  Proof.
    unfold b_triple_with_resources; intros H E; do 3 unbind E.
    injection E as <-; repeat split; cbn; eauto using br_val_all.
  Qed.
  Lemma b_triple_at_all rs ts i x : ball rs -> b_triple_at rs ts i = Some x -> triple_all P x.
  Proof. unfold b_triple_at; intros H E; unbind E; eauto using b_triple_with_resources_all. Qed.
  Lemma bg_iter_all g l : ball (bg_resources g) -> bg_iter g = Some l -> Forall (triple_all P) l.
  Proof. intros H; apply mapM_all; intros i x; now apply b_triple_at_all. Qed.
  Lemma bg_resources_iter_all g l :
    ball (bg_resources g) -> bg_resources_iter g = Some l -> Forall P l.
  Proof. intros H; apply mapM_all; intros i x; now apply br_val_all. Qed.
  Lemma bg_into_iter_all g l : ball (bg_resources g) -> bg_into_iter g = Some l -> Forall (triple_all P) l.
  Proof.
    unfold bg_into_iter; intros H; generalize (bg_triples g); revert l.
    induction (bg_ti g) as [|i idx IH]; cbn; intros l ts E; [injection E as <-; constructor|].
    unbind E; destruct p; do 2 unbind E; injection E as <-.
    constructor; eauto using b_triple_with_resources_all.
  Qed.
  Lemma bg_insert_all g t b g' :
    ball (bg_resources g) -> triple_all P t -> bg_insert cmp keep g t = Some (b, g') ->
    ball (bg_resources g').
  Proof.
    unfold bg_insert; intros H (Hs & Hp & Ho) E; unbind E.
    destruct b0; [injection E as <- <-; exact H|].
    do 3 unbind E.
    do 3 (unbind E; destruct p as [[? ?] ?]); unbind E.
    injection E as <- <-; cbn.
    pose proof (b_acquire_all _ _ _ _ _ _ _ H Hs E4) as H1.
    pose proof (b_acquire_all _ _ _ _ _ _ _ H1 Hp E5) as H2.
    exact (b_acquire_all _ _ _ _ _ _ _ H2 Ho E6).
  Qed.
  Lemma bg_remove_all g t b g' :
    ball (bg_resources g) -> bg_remove cmp g t = Some (b, g') -> ball (bg_resources g').
  Proof.
    unfold bg_remove; intros H E; unbind E; destruct p as [[i|] ti]; [|injection E as <- <-; exact H].
    unbind E; destruct p; do 3 (unbind E; destruct p); injection E as <- <-; cbn.
    pose proof (b_release_all _ _ _ _ _ _ _ H E2) as H1.
    pose proof (b_release_all _ _ _ _ _ _ _ H1 E3) as H2.
    exact (b_release_all _ _ _ _ _ _ _ H2 E4).
  Qed.
  Lemma bg_extend_all l : forall g g',
    ball (bg_resources g) -> Forall (triple_all P) l -> bg_extend cmp keep g l = Some g' ->
    ball (bg_resources g').
  Proof.
    induction l as [|t l IH]; cbn -[bg_insert]; intros g g' H Hl E; [injection E as <-; exact H|].
    inversion Hl; subst; unbind E; destruct p; eauto using bg_insert_all.
  Qed.
  Lemma bg_step_all g o x g' :
    ball (bg_resources g) -> op_puts (triple_all P) o -> bg_step cmp keep g o = Some (x, g') ->
    out_all (triple_all P) x /\ ball (bg_resources g').
  Proof.
    intros H Ho E; destruct o; cbn -[bg_insert bg_remove bg_extend bg_iter bg_into_iter bg_contains] in E;
      try unbind E; try destruct p; injection E as <- <-; split; cbn;
      eauto using bg_insert_all, bg_remove_all, bg_extend_all, bg_iter_all, bg_into_iter_all.
  Qed.
  Lemma bg_run_all ops xs g :
    Forall (op_puts (triple_all P)) ops -> run (bg_step cmp keep) bg_new ops = Some (xs, g) ->
    Forall (out_all (triple_all P)) xs /\ ball (bg_resources g).
  Proof.
    apply (run_all _ (fun g => ball (bg_resources g)) _ _ bg_step_all); apply all_new.
  Qed.
  Lemma bg_own ops xs g :
    Forall (op_puts (triple_all P)) ops -> run (bg_step cmp keep) bg_new ops = Some (xs, g) ->
    Forall (out_all (triple_all P)) xs /\
    forall l, bg_resources_iter g = Some l -> Forall P l.
  Proof.
    intros Ho E; destruct (bg_run_all _ _ _ Ho E) as [Hx H]; split; [exact Hx|].
    intros l; now apply bg_resources_iter_all.
  Qed.

  (** Indexed containers *)
  Lemma ir_val_all rs i v : iall rs -> ir_val rs i = Some v -> P v.
  Proof. unfold ir_val; intros H E; unbind E; injection E as <-; exact (all_get _ _ _ _ H E0). Qed.
  Lemma ir_upd_value p f (x : iresource R) : ir_value (ir_upd p f x) = ir_value x.
  Proof. destruct p; reflexivity. Qed.
  Lemma ir_single_value p (v : R) i : ir_value (ir_single p v i) = v.
  Proof. destruct p; reflexivity. Qed.
  Lemma i_acquire_all rs ri p i v k j rs' ri' :
    iall rs -> P v -> i_acquire cmp keep rs ri p i v k = Some (j, rs', ri') -> iall rs'.
  Proof.
    unfold i_acquire; intros H Hv E; destruct k; unbind E; injection E as <- <- <-.
    - apply all_set; [exact H|]; rewrite ir_upd_value; exact (all_get _ _ _ _ H E0).
    - apply all_insert; [exact H|]; now rewrite ir_single_value.
  Qed.
  Lemma i_release_all {K} (rc : slab (iresource R) -> nat -> K -> option comparison) rs ri p i k key rs' ri' b :
    iall rs -> i_release rc rs ri p i k key = Some (rs', ri', b) -> iall rs'.
  Proof.
    unfold i_release; intros H E; unbind E.
    assert (H' : iall (sset rs k (ir_upd p (ns_remove i) i0)))
      by (apply all_set; [exact H|rewrite ir_upd_value; exact (all_get _ _ _ _ H E0)]).
    cbv zeta in E; destruct (ir_is_empty _); [|injection E as <- <- <-; exact H'].
    unbind E; destruct p0; unbind E; destruct p0; injection E as <- <- <-.
    exact (all_remove _ _ _ _ _ H' E2).
  Qed.
  Lemma i_use_all rs p k i rs' : iall rs -> i_use rs p k i = Some rs' -> iall rs'.
  Proof.
    unfold i_use; intros H E; unbind E; injection E as <-.
    apply all_set; [exact H|]; rewrite ir_upd_value; exact (all_get _ _ _ _ H E0).
  Qed.
  Lemma i_start_all (rs : slab (bresource R)) :
    ball rs -> iall (scollect (map (fun '(i, r) => (i, IRes (br_value r) [] [] [] [])) (spairs rs))).
  Proof.
    intros H; apply all_collect; apply all_pairs in H; apply Forall_map.
    eapply Forall_impl; [|exact H]; intros [i r]; auto.
  Qed.

  Lemma i_quad_with_resources_all rs q x :
    iall rs -> i_quad_with_resources rs q = Some x -> quad_all P x.
  Proof.
    unfold i_quad_with_resources; intros H E; do 3 unbind E.
    destruct (q_g q); [unbind E|]; injection E as <-; repeat split; cbn; eauto using ir_val_all.
  Qed.
  Lemma i_quad_at_all rs qs i x : iall rs -> i_quad_at rs qs i = Some x -> quad_all P x.
  Proof. unfold i_quad_at; intros H E; unbind E; eauto using i_quad_with_resources_all. Qed.
  Lemma id_index_all idx : forall d d',
    iall (id_resources d) -> id_index idx d = Some d' -> iall (id_resources d').
  Proof.
    induction idx as [|i idx IH]; cbn -[i_use]; intros d d' H E; [injection E as <-; exact H|].
    do 4 unbind E.
    assert (H3 : iall s1) by eauto using i_use_all.
    destruct (q_g q); [unbind E|]; (eapply IH; [|exact E]); cbn; eauto using i_use_all.
  Qed.
  Lemma id_iter_all d l : iall (id_resources d) -> id_iter d = Some l -> Forall (quad_all P) l.
  Proof. intros H; apply mapM_all; intros i x; now apply i_quad_at_all. Qed.
  Lemma id_values_all d idx l : iall (id_resources d) -> id_values d idx = Some l -> Forall P l.
  Proof. intros H; apply mapM_all; intros i x; now apply ir_val_all. Qed.
  Lemma id_into_iter_all d l : iall (id_resources d) -> id_into_iter d = Some l -> Forall (quad_all P) l.
  Proof.
    unfold id_into_iter; intros H; generalize (id_quads d); revert l.
    induction (id_qi d) as [|i idx IH]; cbn; intros l qs E; [injection E as <-; constructor|].
    unbind E; destruct p; do 2 unbind E; injection E as <-.
    constructor; eauto using i_quad_with_resources_all.
  Qed.
  Lemma id_insert_all d q b d' :
    iall (id_resources d) -> quad_all P q -> id_insert cmp keep d q = Some (b, d') ->
    iall (id_resources d').
  Proof.
    unfold id_insert; intros H (Hs & Hp & Ho & Hg) E; unbind E.
    destruct b0; [injection E as <- <-; exact H|].
    do 3 unbind E; unbind E.
    do 3 (unbind E; destruct p as [[? ?] ?]); unbind E; destruct p as [[? ?] ?]; unbind E.
    injection E as <- <-; cbn.
    pose proof (i_acquire_all _ _ _ _ _ _ _ _ _ H Hs E5) as H1.
    pose proof (i_acquire_all _ _ _ _ _ _ _ _ _ H1 Hp E6) as H2.
    pose proof (i_acquire_all _ _ _ _ _ _ _ _ _ H2 Ho E7) as H3.
    destruct (q_g q) as [g|].
    - unbind E4; injection E4 as <-; unbind E8; destruct p as [[? ?] ?]; injection E8 as <- <- <-.
      exact (i_acquire_all _ _ _ _ _ _ _ _ _ H3 Hg E4).
    - injection E4 as <-; injection E8 as <- <- <-; exact H3.
  Qed.
  Lemma id_remove_by_index_all d i b d' :
    iall (id_resources d) -> id_remove_by_index cmp d i b = Some d' -> iall (id_resources d').
  Proof.
    unfold id_remove_by_index; intros H E; unbind E; unbind E; destruct p.
    do 3 (unbind E; destruct p as [[? ?] ?]).
    pose proof (i_release_all _ _ _ _ _ _ _ _ _ _ H E2) as H1.
    pose proof (i_release_all _ _ _ _ _ _ _ _ _ _ H1 E3) as H2.
    pose proof (i_release_all _ _ _ _ _ _ _ _ _ _ H2 E4) as H3.
    cbv zeta in E; destruct (q_g q) as [g|]; [|injection E as <-; exact H3].
    unbind E; destruct p as [[? ?] ?]; injection E as <-.
    exact (i_release_all _ _ _ _ _ _ _ _ _ _ H3 E5).
  Qed.
  Lemma id_remove_own d q b d' :
    iall (id_resources d) -> id_remove cmp d q = Some (b, d') -> iall (id_resources d').
  Proof.
    unfold id_remove; intros H E; unbind E; destruct p as [[i|] qi]; [|injection E as <- <-; exact H].
    unbind E; injection E as <- <-; eapply id_remove_by_index_all; [|exact E1]; exact H.
  Qed.
  Lemma id_remove_all_all idx : forall d g g' d',
    iall (id_resources d) -> ball (bg_resources g) ->
    id_remove_all cmp keep idx d g = Some (g', d') ->
    ball (bg_resources g') /\ iall (id_resources d').
  Proof.
    induction idx as [|i idx IH]; cbn [id_remove_all]; intros d g g' d' H Hg E.
    - injection E as <- <-; auto.
    - unbind E; unbind E; unbind E; destruct p.
      pose proof (i_quad_at_all _ _ _ _ H E0) as (Hs & Hp & Ho & _).
      eapply IH; [| |exact E].
      + exact (id_remove_by_index_all _ _ _ _ H E1).
      + refine (bg_insert_all _ _ _ _ Hg _ E2); cbn; repeat split; assumption.
  Qed.
  Lemma id_remove_graph_all d g r d' :
    iall (id_resources d) -> id_remove_graph cmp keep d g = Some (r, d') ->
    (forall b, r = Some b -> ball (bg_resources b)) /\ iall (id_resources d').
  Proof.
    unfold id_remove_graph; intros H E; unbind E; destruct o as [idx|].
    - unbind E; destruct p; injection E as <- <-.
      destruct (id_remove_all_all idx d bg_new b i H (all_new _) E1); split; [|assumption].
      intros b' E'; injection E' as <-; assumption.
    - injection E as <- <-; split; [discriminate|exact H].
  Qed.
  Lemma id_extend_all l : forall d d',
    iall (id_resources d) -> Forall (quad_all P) l -> id_extend cmp keep d l = Some d' ->
    iall (id_resources d').
  Proof.
    induction l as [|q l IH]; cbn -[id_insert]; intros d d' H Hl E; [injection E as <-; exact H|].
    inversion Hl; subst; unbind E; destruct p; eauto using id_insert_all.
  Qed.
  Lemma pm_collect_all fuel cap d : iall (id_resources d) -> forall m l,
    pm_collect fuel cap d m = Some l -> Forall (quad_all P) l.
  Proof.
    intros H; induction fuel as [|fuel IH]; cbn -[pm_next i_quad_with_resources]; intros m l E;
      [try discriminate; injection E as <-; constructor|].
    unbind E; destruct o as [[[i q] m']|]; [|injection E as <-; constructor].
    do 2 unbind E; injection E as <-; constructor; eauto using i_quad_with_resources_all.
  Qed.
  Lemma pm_extract_all n cap : forall d m l d', iall (id_resources d) ->
    pm_extract cmp n cap d m = Some (l, d') -> Forall (quad_all P) l /\ iall (id_resources d').
  Proof.
    induction n as [|n IH]; cbn [pm_extract]; intros d m l d' H E; [injection E as <- <-; auto|].
    unbind E; destruct o as [[[i q] m']|]; [|injection E as <- <-; auto].
    do 2 unbind E; unbind E; destruct p; injection E as <- <-.
    destruct (IH _ _ _ _ (id_remove_by_index_all _ _ _ _ H E2) E3); split; [|assumption].
    constructor; eauto using i_quad_with_resources_all.
  Qed.
  Lemma id_extract_all d spare c n l d' : iall (id_resources d) ->
    id_extract cmp d spare c n = Some (l, d') -> Forall (quad_all P) l /\ iall (id_resources d').
  Proof. unfold id_extract; intros H E; unbind E; eauto using pm_extract_all. Qed.
  Lemma id_step_all d o x d' :
    iall (id_resources d) -> iop_puts P o -> id_step cmp keep d o = Some (x, d') ->
    iout_all P x /\ iall (id_resources d').
  Proof.
    intros H Ho E; destruct o as [[]|g|c n spare]; cbn [id_step] in E.
    9: { unbind E; destruct p as [[b|] d1]; destruct (id_remove_graph_all _ _ _ _ H E0) as [Hb Hd].
         - unbind E; injection E as <- <-; split; [|exact Hd]; cbn; eauto using bg_iter_all.
         - injection E as <- <-; split; [exact I|exact Hd]. }
    9: { unbind E; destruct p; injection E as <- <-; exact (id_extract_all _ _ _ _ _ _ H E0). }
    all: try unbind E; try destruct p; injection E as <- <-; split; cbn;
      eauto using id_insert_all, id_remove_own, id_extend_all, id_iter_all, id_into_iter_all.
  Qed.
  Lemma id_reached_all ops0 ops xs d :
    Forall (op_puts (quad_all P)) ops0 -> Forall (iop_puts P) ops -> id_reached cmp keep ops0 ops xs d ->
    Forall (iout_all P) xs /\ iall (id_resources d).
  Proof.
    intros Ho0 Ho (xs0 & b & d0 & E0 & E1 & E2).
    destruct (bd_run_all _ _ _ Ho0 E0) as [_ Hb].
    assert (H0 : iall (id_resources d0)).
    { unfold id_from_non_indexed in E1; eapply id_index_all; [|exact E1]; now apply i_start_all. }
    exact (run_all _ (fun d => iall (id_resources d)) _ _ id_step_all _ _ _ _ H0 Ho E2).
  Qed.
  Lemma id_own ops0 ops xs d :
    Forall (op_puts (quad_all P)) ops0 -> Forall (iop_puts P) ops -> id_reached cmp keep ops0 ops xs d ->
    Forall (iout_all P) xs /\
    (forall l, id_resources_iter d = Some l -> Forall P l) /\
    (forall l, id_subjects d = Some l -> Forall P l) /\
    (forall l, id_predicates d = Some l -> Forall P l) /\
    (forall l, id_objects d = Some l -> Forall P l) /\
    (forall l, id_named_graphs d = Some l -> Forall P l) /\
    (forall spare c l, id_pattern_matching cmp d spare c = Some l -> Forall (quad_all P) l) /\
    (forall spare c l, id_multi_pattern_matching cmp d spare c = Some l -> Forall (quad_all P) l).
  Proof.
    intros Ho0 Ho E; destruct (id_reached_all _ _ _ _ Ho0 Ho E) as [Hx H]; split; [exact Hx|].
    do 5 (split; [intros l; now apply id_values_all|]).
    split; intros spare c l E1; unfold id_pattern_matching, id_multi_pattern_matching in E1; unbind E1;
      eauto using pm_collect_all.
  Qed.

  Lemma i_triple_with_resources_all rs t x :
    iall rs -> i_triple_with_resources rs t = Some x -> triple_all P x.
  Proof.
    unfold i_triple_with_resources; intros H E; do 3 unbind E.
    injection E as <-; repeat split; cbn; eauto using ir_val_all.
  Qed.
  Lemma i_triple_at_all rs ts i x : iall rs -> i_triple_at rs ts i = Some x -> triple_all P x.
  Proof. unfold i_triple_at; intros H E; unbind E; eauto using i_triple_with_resources_all. Qed.
  Lemma ig_index_all idx : forall g g',
    iall (ig_resources g) -> ig_index idx g = Some g' -> iall (ig_resources g').
  Proof.
    induction idx as [|i idx IH]; cbn -[ig_use]; intros g g' H E; [injection E as <-; exact H|].
    do 4 unbind E; eapply IH; [|exact E]; cbn.
    exact (i_use_all _ _ _ _ _ (i_use_all _ _ _ _ _ (i_use_all _ _ _ _ _ H E1) E2) E3).
  Qed.
  Lemma ig_iter_all g l : iall (ig_resources g) -> ig_iter g = Some l -> Forall (triple_all P) l.
  Proof. intros H; apply mapM_all; intros i x; now apply i_triple_at_all. Qed.
  Lemma ig_values_all g idx l : iall (ig_resources g) -> ig_values g idx = Some l -> Forall P l.
  Proof. intros H; apply mapM_all; intros i x; now apply ir_val_all. Qed.
  Lemma ig_into_iter_all g l : iall (ig_resources g) -> ig_into_iter g = Some l -> Forall (triple_all P) l.
  Proof.
    unfold ig_into_iter; intros H; generalize (ig_triples g); revert l.
    induction (ig_ti g) as [|i idx IH]; cbn; intros l ts E; [injection E as <-; constructor|].
    unbind E; destruct p; do 2 unbind E; injection E as <-.
    constructor; eauto using i_triple_with_resources_all.
  Qed.
  Lemma ig_insert_all g t b g' :
    iall (ig_resources g) -> triple_all P t -> ig_insert cmp keep g t = Some (b, g') ->
    iall (ig_resources g').
  Proof.
    unfold ig_insert; intros H (Hs & Hp & Ho) E; unbind E.
    destruct b0; [injection E as <- <-; exact H|].
    do 3 unbind E.
    do 3 (unbind E; destruct p as [[? ?] ?]); unbind E.
    injection E as <- <-; cbn.
    pose proof (i_acquire_all _ _ _ _ _ _ _ _ _ H Hs E4) as H1.
    pose proof (i_acquire_all _ _ _ _ _ _ _ _ _ H1 Hp E5) as H2.
    exact (i_acquire_all _ _ _ _ _ _ _ _ _ H2 Ho E6).
  Qed.
  Lemma ig_remove_all g t b g' :
    iall (ig_resources g) -> ig_remove cmp g t = Some (b, g') -> iall (ig_resources g').
  Proof.
    unfold ig_remove; intros H E; unbind E; destruct p as [[i|] ti]; [|injection E as <- <-; exact H].
    unbind E; destruct p; do 3 (unbind E; destruct p as [[? ?] ?]); injection E as <- <-; cbn.
    pose proof (i_release_all _ _ _ _ _ _ _ _ _ _ H E2) as H1.
    pose proof (i_release_all _ _ _ _ _ _ _ _ _ _ H1 E3) as H2.
    exact (i_release_all _ _ _ _ _ _ _ _ _ _ H2 E4).
  Qed.
  Lemma ig_extend_all l : forall g g',
    iall (ig_resources g) -> Forall (triple_all P) l -> ig_extend cmp keep g l = Some g' ->
    iall (ig_resources g').
  Proof.
    induction l as [|t l IH]; cbn -[ig_insert]; intros g g' H Hl E; [injection E as <-; exact H|].
    inversion Hl; subst; unbind E; destruct p; eauto using ig_insert_all.
  Qed.
  Lemma gm_collect_all fuel cap g : iall (ig_resources g) -> forall m l,
    gm_collect fuel cap g m = Some l -> Forall (triple_all P) l.
  Proof.
    intros H; induction fuel as [|fuel IH]; cbn -[gm_next i_triple_with_resources]; intros m l E;
      [try discriminate; injection E as <-; constructor|].
    unbind E; destruct o as [[[i t] m']|]; [|injection E as <-; constructor].
    do 2 unbind E; injection E as <-; constructor; eauto using i_triple_with_resources_all.
  Qed.
  Lemma ig_step_all g o x g' :
    iall (ig_resources g) -> op_puts (triple_all P) o -> ig_step cmp keep g o = Some (x, g') ->
    out_all (triple_all P) x /\ iall (ig_resources g').
  Proof.
    intros H Ho E; destruct o; cbn [ig_step] in E;
      try unbind E; try destruct p; injection E as <- <-; split; cbn;
      eauto using ig_insert_all, ig_remove_all, ig_extend_all, ig_iter_all, ig_into_iter_all.
  Qed.
  Lemma ig_own ops0 ops g :
    Forall (op_puts (triple_all P)) ops0 -> Forall (op_puts (triple_all P)) ops ->
    ig_reached cmp keep ops0 ops g ->
    (forall l, ig_iter g = Some l -> Forall (triple_all P) l) /\
    (forall l, ig_into_iter g = Some l -> Forall (triple_all P) l) /\
    (forall l, ig_resources_iter g = Some l -> Forall P l) /\
    (forall l, ig_subjects g = Some l -> Forall P l) /\
    (forall l, ig_predicates g = Some l -> Forall P l) /\
    (forall l, ig_objects g = Some l -> Forall P l) /\
    (forall spare c l, ig_pattern_matching cmp g spare c = Some l -> Forall (triple_all P) l).
  Proof.
    intros Ho0 Ho (xs0 & b & g0 & xs & E0 & E1 & E2).
    destruct (bg_run_all _ _ _ Ho0 E0) as [_ Hb].
    assert (H0 : iall (ig_resources g0)).
    { unfold ig_from_non_indexed in E1; eapply ig_index_all; [|exact E1]; now apply i_start_all. }
    destruct (run_all _ (fun g => iall (ig_resources g)) _ _ ig_step_all _ _ _ _ H0 Ho E2) as [_ H].
    split; [intros l; now apply ig_iter_all|]; split; [intros l; now apply ig_into_iter_all|].
    do 4 (split; [intros l; now apply ig_values_all|]).
    intros spare c l E3; unfold ig_pattern_matching in E3; unbind E3; eauto using gm_collect_all.
  Qed.
End Own.
