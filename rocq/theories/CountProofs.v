(** Proofs about the counting methods (CountModel.v). *)
From Coq Require Import List Bool Arith Lia.
Import ListNotations.
From Verif Require Import Base BaseProofs TripleModel TripleProofs SlabModel SetSpec ContainerSpec IndexedSpec
  Machine BResourceModel BTreeDatasetModel BTreeDatasetProofs BTreeGraphModel BTreeGraphProofs
  IResourceModel IndexedDatasetModel IndexedDatasetProofs IndexedGraphModel IndexedRunProofs
  IndexedGraphRunProofs ConsumeModel ConsumeProofs IterSpec IterProofs CountModel CountSpec.
Open Scope panic_scope.

Lemma count_slots_spec {X} (at_ : nat -> option X) idx l :
  mapM at_ idx = Some l -> count_slots (slots_next at_) idx = Some (length l).
Proof.
  unfold count_slots; intros H.
  enough (E : forall idx l, mapM at_ idx = Some l -> forall n k, k > length idx ->
            count_calls (slots_next at_) k n idx = Some (n + length l))
    by (rewrite (E _ _ H); [reflexivity|lia]).
  clear; induction idx as [|i r IH]; intros l H n k K; (destruct k as [|k]; [lia|]).
  - cbn in H; injection H as <-; cbn; f_equal; lia.
  - cbn in H; destruct (at_ i) as [x|] eqn:E; [|discriminate]; cbn in H.
    destruct (mapM at_ r) as [m|] eqn:G; [|discriminate]; injection H as <-.
    cbn; rewrite E; cbn; rewrite (IH m eq_refl); [cbn; f_equal; lia|cbn in K; lia].
Qed.

Lemma quads_of_triples_streams {R} (at_ : nat -> option (triple R)) idx l :
  mapM at_ idx = Some l ->
  streams (quads_of_triples (slots_next at_)) idx (map (fun t => Quad (t_s t) (t_p t) (t_o t) None) l).
Proof.
  revert l; induction idx as [|i r IH]; intros l H.
  - cbn in H; injection H as <-. apply streams_nil with (P := fun i => i = []); [reflexivity|].
    intros i ->; now exists [].
  - cbn in H. destruct (at_ i) as [x|] eqn:E; [|discriminate].
    cbn in H. destruct (mapM at_ r) as [k|]; [|discriminate]. injection H as <-.
    apply streams_cons with (j := r); [|now apply IH].
    unfold quads_of_triples; cbn; rewrite E; destruct x; reflexivity.
Qed.

Section Numbers.
  Context {R : Type} {cmp : R -> R -> comparison} (L : ord_laws cmp).

  Definition eq_dec_of (x y : R) : {x = y} + {x <> y}.
  Proof.
    destruct (cmp x y) eqn:E; [left; now apply (ord_eq _ L)|right|right];
      intros H; apply (ord_eq _ L) in H; congruence.
  Defined.

  Lemma number_occurs {X} (comps : X -> list R) (s : list X) :
    number (fun r => occurs comps r s) (length (nodup eq_dec_of (flat_map comps s))).
  Proof.
    exists (nodup eq_dec_of (flat_map comps s)); split; [apply NoDup_nodup|]; split; [|reflexivity].
    intros r; rewrite nodup_In, in_flat_map; reflexivity.
  Qed.

  Lemma number_sorted {X} {xcmp : X -> X -> comparison} (LX : ord_laws xcmp) (l s : list X) :
    increasing xcmp l -> (forall x, In x l <-> In x s) -> number (fun x => In x s) (length l).
  Proof. intros A B; exists l; split; [eapply (ssorted_nodup LX); exact A|auto]. Qed.

  Lemma known_each {X} (xcmp : X -> X -> comparison) (comps : X -> list R) r ops : forall s,
    known_history xcmp comps any_resource s ops -> known_history xcmp comps (eq r) s ops.
  Proof.
    assert (K : forall s x, repeats_known comps any_resource s x -> repeats_known comps (eq r) s x)
      by (intros s x H i j w _; apply H; exact Logic.I).
    assert (E : forall l s, extend_known xcmp comps any_resource s l -> extend_known xcmp comps (eq r) s l).
    { induction l as [|x l IH]; intros s H; cbn in *; [exact Logic.I|]; destruct H; auto. }
    induction ops as [|o ops IH]; intros s H; cbn in *; [exact Logic.I|].
    destruct H as [A B]; split; [destruct o; auto|auto].
  Qed.
  Lemma known_log_each {X} (xcmp : X -> X -> comparison) (comps : X -> list R) r log : forall s,
    known_log xcmp comps any_resource s log -> known_log xcmp comps (eq r) s log.
  Proof.
    induction log as [|[b x] log IH]; intros s H; cbn in *; [exact Logic.I|].
    destruct H as [A B]; split; [|auto].
    destruct b; [intros i j w _; apply A|]; exact Logic.I.
  Qed.

  (** Listed resources against used ones. *)
  Lemma listed_at_most {X} (comps : X -> list R) (s : list X) l m :
    increasing cmp l -> (forall r, In r l -> occurs comps r s) ->
    number (fun r => occurs comps r s) m -> length l <= m.
  Proof.
    intros A B (u & C & D & <-); apply NoDup_incl_length.
    - eapply (ssorted_nodup L); exact A.
    - intros r H; now apply D, B.
  Qed.
  Lemma listed_all {X} (comps : X -> list R) (s : list X) l m :
    increasing cmp l -> (forall r, In r l <-> occurs comps r s) ->
    number (fun r => occurs comps r s) m -> length l = m.
  Proof.
    intros A B (u & C & D & <-); apply nodup_same_length; auto.
    - eapply (ssorted_nodup L); exact A.
    - intros r; now rewrite D, B.
  Qed.
End Numbers.

Section Counts.
  Context {R : Type} {cmp : R -> R -> comparison} (L : ord_laws cmp).
  Context (keep : bool).
  Notation qcmp := (quad_cmp cmp).
  Notation tcmp := (triple_cmp cmp).

  Lemma bd_counts ops xs d : run (bd_step cmp keep) bd_new ops = Some (xs, d) ->
    bd_quads_count d = Some (bd_len d) /\
    number (fun q => In q (spec_set qcmp ops)) (bd_len d) /\
    exists l m, bd_resources_iter d = Some l /\ bd_resource_count d = Some (length l) /\
      number (fun r => occurs quad_comps r (spec_set qcmp ops)) m /\ length l <= m /\
      (known_history qcmp quad_comps any_resource [] ops -> length l = m).
  Proof.
    intros H; destruct (bd_run_rep_new L _ _ _ _ H) as [Hn (vs & I)].
    destruct (bd_iteration L keep ops xs d H) as (l & E & _ & S & M).
    assert (Le : bd_len d = length l).
    { rewrite (bd_len_spec L _ _ _ I); rewrite (bd_iter_spec _ _ _ I) in E; congruence. }
    split; [rewrite Le; now apply count_slots_spec|].
    split; [rewrite Le; eapply number_sorted; eauto using quad_cmp_laws|].
    destruct (bd_resources_exactly L keep ops xs d H) as (k & A & B & _ & C).
    destruct (bd_resources_used L keep ops xs d H) as (k' & A' & _ & _ & C').
    rewrite A in A'; injection A' as <-.
    pose proof (number_occurs L quad_comps (spec_set qcmp ops)) as N.
    exists k; eexists; split; [exact A|]; split; [now apply count_slots_spec|]; split; [exact N|].
    split; [eapply listed_at_most; eauto|].
    intros K; eapply listed_all; eauto.
    intros r; apply C, known_each, K.
  Qed.

  Lemma bg_counts ops xs g : run (bg_step cmp keep) bg_new ops = Some (xs, g) ->
    exists ts, bg_iter g = Some ts /\
      bg_triples_count g = Some (bg_len g) /\
      number (fun t => In t (spec_set tcmp ops)) (bg_len g) /\
      streams (bg_quads_next g) (bg_ti g) (map (fun t => Quad (t_s t) (t_p t) (t_o t) None) ts) /\
      bg_quads_count g = Some (bg_len g) /\
    exists l m, bg_resources_iter g = Some l /\ bg_resource_count g = Some (length l) /\
      number (fun r => occurs triple_comps r (spec_set tcmp ops)) m /\ length l <= m /\
      (known_history tcmp triple_comps any_resource [] ops -> length l = m).
  Proof.
    intros H; destruct (bg_iteration L keep ops xs g H) as (l & E & _ & S & M).
    assert (Le : bg_len g = length l).
    { pose proof (bg_run_rep_new L _ _ _ _ H) as Hr; rewrite (bg_len_rep L _ _ Hr).
      apply nodup_same_length; [apply Hr|eapply (ssorted_nodup (triple_cmp_laws _ L)); exact S|].
      intros t; symmetry; apply M. }
    exists l; split; [exact E|].
    assert (C : bg_triples_count g = Some (bg_len g)) by (rewrite Le; now apply count_slots_spec).
    split; [exact C|]. split; [rewrite Le; eapply number_sorted; eauto using triple_cmp_laws|].
    split; [now apply quads_of_triples_streams|]. split; [exact C|].
    destruct (bg_resources_exactly L keep ops xs g H) as (k & A & B & _ & D).
    destruct (bg_resources_used L keep ops xs g H) as (k' & A' & _ & _ & D').
    rewrite A in A'; injection A' as <-.
    pose proof (number_occurs L triple_comps (spec_set tcmp ops)) as N.
    exists k; eexists; split; [exact A|]; split; [now apply count_slots_spec|]; split; [exact N|].
    split; [eapply listed_at_most; eauto|].
    intros K; eapply listed_all; eauto.
    intros r; apply D, known_each, K.
  Qed.

  (** The slots of the resources are at least as many as the resources. *)
  Lemma slots_at_least {X} (comps : X -> list R) (s : list X) (rs : slab (iresource R)) m :
    (forall x r, In x s -> In r (comps x) -> exists i, ir_val rs i = Some r) ->
    number (fun r => occurs comps r s) m -> m <= slen rs.
  Proof.
    intros A (u & C & D & <-); unfold slen.
    rewrite <- (map_length (fun p => ir_value (snd p)) (spairs rs)).
    apply NoDup_incl_length; [exact C|].
    intros r H; apply D in H as (x & Hx & Hr).
    destruct (A x r Hx Hr) as [i E]; unfold ir_val in E.
    destruct (sget rs i) as [y|] eqn:F; [|discriminate]; cbn in E; injection E as <-.
    apply in_map_iff; exists (i, y); split; [reflexivity|now apply spairs_in].
  Qed.

  Lemma quad_values (rs : slab (iresource R)) qs i q r :
    i_quad_at rs qs i = Some q -> In r (quad_comps q) -> exists k, ir_val rs k = Some r.
  Proof.
    unfold i_quad_at, i_quad_with_resources; destruct (sget qs i) as [x|]; [|discriminate]; cbn.
    destruct (ir_val rs (q_s x)) as [a|] eqn:A; [|discriminate]; cbn.
    destruct (ir_val rs (q_p x)) as [b|] eqn:B; [|discriminate]; cbn.
    destruct (ir_val rs (q_o x)) as [c|] eqn:C; [|discriminate]; cbn.
    destruct (q_g x) as [gi|].
    - destruct (ir_val rs gi) as [e|] eqn:E; [|discriminate]; cbn; intros [= <-]; cbn.
      intros [<-|[<-|[<-|[<-|[]]]]]; eauto.
    - intros [= <-]; cbn; intros [<-|[<-|[<-|[]]]]; eauto.
  Qed.
  Lemma triple_values (rs : slab (iresource R)) ts i t r :
    i_triple_at rs ts i = Some t -> In r (triple_comps t) -> exists k, ir_val rs k = Some r.
  Proof.
    unfold i_triple_at, i_triple_with_resources; destruct (sget ts i) as [x|]; [|discriminate]; cbn.
    destruct (ir_val rs (t_s x)) as [a|] eqn:A; [|discriminate]; cbn.
    destruct (ir_val rs (t_p x)) as [b|] eqn:B; [|discriminate]; cbn.
    destruct (ir_val rs (t_o x)) as [c|] eqn:C; [|discriminate]; cbn.
    intros [= <-]; cbn; intros [<-|[<-|[<-|[]]]]; eauto.
  Qed.

  Lemma id_counts ops0 ops xs d : id_reached cmp keep ops0 ops xs d ->
    let s := final_set cmp ops0 ops xs in
    id_quads_count d = Some (id_len d) /\ number (fun q => In q s) (id_len d) /\
    exists l m, id_resources_iter d = Some l /\
      number (fun r => occurs quad_comps r s) m /\ length l <= m <= id_resource_count d /\
      (known_log qcmp quad_comps any_resource [] (full_log cmp ops0 ops xs) ->
       length l = m /\ id_resource_count d = m).
  Proof.
    intros H s; destruct (id_contents L keep _ _ _ _ H) as (l & E & _ & S & M & Le & _); fold s in M.
    split; [rewrite Le; now apply count_slots_spec|].
    split; [rewrite Le; eapply number_sorted; eauto using quad_cmp_laws|].
    destruct (id_resources_used L keep _ _ _ _ H) as (k & A & B & _ & C & D & F).
    pose proof (number_occurs L quad_comps s) as N.
    exists k; eexists; split; [exact A|]; split; [exact N|]; split.
    - split; [eapply listed_at_most; eauto|].
      eapply slots_at_least; [|exact N].
      intros q r Hq Hr; apply M, (mapM_in _ _ _ _ E) in Hq as (i & _ & V).
      eapply quad_values; eauto.
    - intros K. assert (Q : length k = length (nodup (eq_dec_of L) (flat_map quad_comps s))).
      { eapply listed_all; eauto; intros r; apply D, known_log_each, K. }
      split; [exact Q|]. rewrite (F K); exact Q.
  Qed.

  Lemma ig_counts ops0 ops g : ig_reached cmp keep ops0 ops g ->
    let s := spec_set tcmp (ops0 ++ ops) in
    exists ts, ig_iter g = Some ts /\
      ig_triples_count g = Some (ig_len g) /\ number (fun t => In t s) (ig_len g) /\
      streams (ig_quads_next g) (ig_ti g) (map (fun t => Quad (t_s t) (t_p t) (t_o t) None) ts) /\
      ig_quads_count g = Some (ig_len g) /\
    exists l m, ig_resources_iter g = Some l /\
      number (fun r => occurs triple_comps r s) m /\ length l <= m <= ig_resource_count g /\
      (known_log tcmp triple_comps any_resource [] (set_log tcmp [] (ops0 ++ ops)) ->
       length l = m /\ ig_resource_count g = m).
  Proof.
    intros H s; destruct (ig_contents L keep _ _ _ H) as (l & E & _ & S & M & Le & _); fold s in M.
    exists l; split; [exact E|].
    assert (C0 : ig_triples_count g = Some (ig_len g)) by (rewrite Le; now apply count_slots_spec).
    split; [exact C0|]. split; [rewrite Le; eapply number_sorted; eauto using triple_cmp_laws|].
    split; [now apply quads_of_triples_streams|]. split; [exact C0|].
    destruct (ig_resources_used L keep _ _ _ H) as (k & A & B & _ & C & D & F).
    pose proof (number_occurs L triple_comps s) as N.
    exists k; eexists; split; [exact A|]; split; [exact N|]; split.
    - split; [eapply listed_at_most; eauto|].
      eapply slots_at_least; [|exact N].
      intros q r Hq Hr; apply M, (mapM_in _ _ _ _ E) in Hq as (i & _ & V).
      eapply triple_values; eauto.
    - intros K. assert (Q : length k = length (nodup (eq_dec_of L) (flat_map triple_comps s))).
      { eapply listed_all; eauto; intros r; apply D, known_log_each, K. }
      split; [exact Q|]. rewrite (F K); exact Q.
  Qed.
End Counts.

(** ** Counterexamples *)
Lemma number_nat (P : nat -> Prop) l : NoDup l -> (forall x, In x l <-> P x) -> number P (length l).
Proof. intros A B; now exists l. Qed.

Ltac count_resources l :=
  apply (number_nat _ l);
  [repeat constructor; cbn; intuition discriminate
  |intros r; split;
   [cbn; intros H; repeat (destruct H as [<-|H]; [eexists; split; [vm_compute; left; reflexivity|cbn; tauto]|]); destruct H
   |intros (x & H & K); vm_compute in H; destruct H as [<-|[]]; cbn in K; cbn; tauto]].

Lemma bd_count_counterexample :
  exists ops xs d, forall keep,
    run (bd_step Nat.compare keep) bd_new ops = Some (xs, d keep) /\
    number (fun r => occurs quad_comps r (spec_set (quad_cmp Nat.compare) ops)) 3 /\
    bd_resource_count (d keep) = Some 2.
Proof.
  exists bd_bad_ops, [OBool true; OBool true; OBool true],
    (fun keep => match run (bd_step Nat.compare keep) bd_new bd_bad_ops with
                 | Some (_, d) => d | None => bd_new end).
  intros keep; split; [destruct keep; vm_compute; reflexivity|].
  split; [count_resources [3; 1; 4]|destruct keep; vm_compute; reflexivity].
Qed.

Lemma bg_count_counterexample :
  exists ops xs g, forall keep,
    run (bg_step Nat.compare keep) bg_new ops = Some (xs, g keep) /\
    number (fun r => occurs triple_comps r (spec_set (triple_cmp Nat.compare) ops)) 3 /\
    bg_resource_count (g keep) = Some 2.
Proof.
  set (ops := [Insert (Triple 1 1 2); Insert (Triple 3 1 4); Remove (Triple 1 1 2)]).
  exists ops, [OBool true; OBool true; OBool true],
    (fun keep => match run (bg_step Nat.compare keep) bg_new ops with
                 | Some (_, d) => d | None => bg_new end).
  intros keep; split; [destruct keep; vm_compute; reflexivity|].
  split; [count_resources [3; 1; 4]|destruct keep; vm_compute; reflexivity].
Qed.

Lemma id_count_counterexample :
  exists ops xs d l, forall keep,
    id_reached Nat.compare keep [] ops xs (d keep) /\
    id_resources_iter (d keep) = Some l /\ length l = 2 /\
    number (fun r => occurs quad_comps r (final_set Nat.compare [] ops xs)) 2 /\
    id_resource_count (d keep) = 3.
Proof.
  set (ops := [IOp (Insert (Quad 1 1 2 None))]).
  exists ops, [IOut (OBool true)],
    (fun keep => match run (id_step Nat.compare keep) id_new ops with
                 | Some (_, d) => d | None => id_new end), [1; 2].
  intros keep; split.
  { exists [], bd_new, id_new; split; [reflexivity|split; [reflexivity|destruct keep; vm_compute; reflexivity]]. }
  split; [destruct keep; vm_compute; reflexivity|]. split; [reflexivity|].
  split; [count_resources [1; 2]|destruct keep; vm_compute; reflexivity].
Qed.

Lemma ig_count_counterexample :
  exists ops g l, forall keep,
    ig_reached Nat.compare keep [] ops (g keep) /\
    ig_resources_iter (g keep) = Some l /\ length l = 2 /\
    number (fun r => occurs triple_comps r (spec_set (triple_cmp Nat.compare) ops)) 2 /\
    ig_resource_count (g keep) = 3.
Proof.
  set (ops := [Insert (Triple 1 1 2)]).
  exists ops, (fun keep => match run (ig_step Nat.compare keep) ig_new ops with
                 | Some (_, d) => d | None => ig_new end), [1; 2].
  intros keep; split.
  { exists [], bg_new, ig_new, [OBool true]; split; [reflexivity|split; [reflexivity|destruct keep; vm_compute; reflexivity]]. }
  split; [destruct keep; vm_compute; reflexivity|]. split; [reflexivity|].
  split; [count_resources [1; 2]|destruct keep; vm_compute; reflexivity].
Qed.
