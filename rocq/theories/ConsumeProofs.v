(** Proofs for P_Consume.v and the iterators over contents of P_Iter.v. *)
From Coq Require Import List Bool Arith Lia.
Import ListNotations.
From Verif Require Import Base SlabModel TripleModel TriplePatternModel SetSpec ContainerSpec
  IndexedSpec Machine BaseProofs BResourceModel BTreeDatasetModel BTreeDatasetProofs
  BTreeGraphModel BTreeGraphProofs IResourceModel IndexedDatasetModel IndexedGraphModel
  IndexedRunProofs IndexedGraphRunProofs
  CrashModel ICrashModel IterSpec IterProofs ConsumeModel ConsumeSpec.

(** ** Borrowing iterators *)

Lemma slots_streams {X} (at_ : nat -> option X) idx l :
  mapM at_ idx = Some l -> streams (slots_next at_) idx l.
Proof.
  revert l; induction idx as [|i r IH]; intros l H.
  - cbn in H; injection H as <-. apply streams_nil with (P := fun i => i = []); [reflexivity|].
    intros i ->; now exists [].
  - cbn in H. destruct (at_ i) as [x|] eqn:E; [|discriminate].
    cbn in H. destruct (mapM at_ r) as [k|]; [|discriminate]. injection H as <-.
    apply streams_cons with (j := r); [unfold slots_next; cbn; now rewrite E|auto].
Qed.

(** ** Consuming iterators *)
Section Consuming.
  Context {Rs X Y : Type} (read : Rs -> X -> option Y) (parts : Y -> nat)
          (cloned : Y -> act (Rs * slab X * list nat) Y).
  Context (cloned_ok : forall y n s,
    cloned y n s = if n <? parts y then Interrupted s else Done y (n - parts y) s).

  Fixpoint reads (rs : Rs) (xs : slab X) (idx : list nat) : option (list Y) :=
    match idx with
    | [] => Some []
    | i :: r =>
        match sremove xs i with
        | None => None
        | Some (x, xs) =>
            match read rs x with
            | None => None
            | Some y => match reads rs xs r with None => None | Some l => Some (y :: l) end
            end
        end
    end.

  Lemma into_consumed budgets : forall rs xs idx l,
    reads rs xs idx = Some l ->
    exists s, m_run (fun _ : unit => m_into_next read cloned) (rs, xs, idx) (map (pair tt) budgets) =
      Some (consumed parts l budgets, s).
  Proof.
    induction budgets as [|n bs IH]; intros rs xs idx l H; [now eexists|].
    destruct idx as [|i r].
    - injection H as <-. destruct (IH rs xs [] [] eq_refl) as [s E].
      exists s. cbn [map m_run]. unfold m_into_next at 1.
      unfold andthen, get, ret. rewrite E. reflexivity.
    - cbn [reads] in H. destruct (sremove xs i) as [[x xs']|] eqn:E1; [|discriminate].
      destruct (read rs x) as [y|] eqn:E2; [|discriminate].
      destruct (reads rs xs' r) as [k|] eqn:E3; [|discriminate]. injection H as <-.
      destruct (IH rs xs' r k E3) as [s E]. exists s.
      cbn [map m_run consumed]. unfold m_into_next at 1.
      unfold andthen, get, put, need, ret. rewrite E1, E2, cloned_ok.
      destruct (n <? parts y); rewrite E; reflexivity.
  Qed.
End Consuming.

Lemma m_cloned_ok {St R} (q : quad R) n (s : St) :
  m_cloned q n s = if n <? quad_parts q then Interrupted s else Done q (n - quad_parts q) s.
Proof.
  destruct q as [a b c [g|]]; unfold m_cloned, quad_parts, andthen, called, ret; cbn [q_s q_p q_o q_g];
    do 4 (destruct n as [|n]; [reflexivity|]); cbn; now rewrite ?Nat.sub_0_r.
Qed.
Lemma m_cloned_triple_ok {St R} (t : triple R) n (s : St) :
  m_cloned_triple t n s = if n <? triple_parts t then Interrupted s else Done t (n - triple_parts t) s.
Proof.
  destruct t as [a b c]; unfold m_cloned_triple, triple_parts, andthen, called, ret; cbn [t_s t_p t_o].
  do 3 (destruct n as [|n]; [reflexivity|]); cbn; now rewrite ?Nat.sub_0_r.
Qed.

Section Containers.
  Context {R : Type}.

  Lemma bd_reads rs qs idx : @b_into_iter R rs qs idx = reads b_quad_with_resources rs qs idx.
  Proof.
    revert qs; induction idx as [|i r IH]; intros qs; cbn; [reflexivity|].
    destruct (sremove qs i) as [[q qs']|]; cbn; [|reflexivity].
    destruct (b_quad_with_resources rs q); cbn; [|reflexivity]. now rewrite IH.
  Qed.
  Lemma bg_reads rs ts idx : @b_into_triples R rs ts idx = reads b_triple_with_resources rs ts idx.
  Proof.
    revert ts; induction idx as [|i r IH]; intros ts; cbn; [reflexivity|].
    destruct (sremove ts i) as [[t ts']|]; cbn; [|reflexivity].
    destruct (b_triple_with_resources rs t); cbn; [|reflexivity]. now rewrite IH.
  Qed.
  Lemma id_reads rs qs idx : @i_into_iter R rs qs idx = reads i_quad_with_resources rs qs idx.
  Proof.
    revert qs; induction idx as [|i r IH]; intros qs; cbn; [reflexivity|].
    destruct (sremove qs i) as [[q qs']|]; cbn; [|reflexivity].
    destruct (i_quad_with_resources rs q); cbn; [|reflexivity]. now rewrite IH.
  Qed.
  Lemma ig_reads rs ts idx : @ig_into_triples R rs ts idx = reads i_triple_with_resources rs ts idx.
  Proof.
    revert ts; induction idx as [|i r IH]; intros ts; cbn; [reflexivity|].
    destruct (sremove ts i) as [[t ts']|]; cbn; [|reflexivity].
    destruct (i_triple_with_resources rs t); cbn; [|reflexivity]. now rewrite IH.
  Qed.

  Lemma bd_any_consumed (d : @bdataset R) l :
    bd_into_iter d = Some l -> forall budgets, exists s,
      m_run (fun _ : unit => m_bd_into_next) (bd_consume d) (map (pair tt) budgets) =
        Some (consumed quad_parts l budgets, s).
  Proof.
    unfold bd_into_iter; rewrite bd_reads; intros H b.
    exact (into_consumed _ _ _ m_cloned_ok b _ _ _ _ H).
  Qed.
  Lemma bg_any_consumed (g : @bgraph R) l :
    bg_into_iter g = Some l -> forall budgets, exists s,
      m_run (fun _ : unit => m_bg_into_next) (bg_consume g) (map (pair tt) budgets) =
        Some (consumed triple_parts l budgets, s).
  Proof.
    unfold bg_into_iter; rewrite bg_reads; intros H b.
    exact (into_consumed _ _ _ m_cloned_triple_ok b _ _ _ _ H).
  Qed.
  Lemma id_any_consumed (d : @idataset R) l :
    id_into_iter d = Some l -> forall budgets, exists s,
      m_run (fun _ : unit => m_id_into_next) (id_consume d) (map (pair tt) budgets) =
        Some (consumed quad_parts l budgets, s).
  Proof.
    unfold id_into_iter; rewrite id_reads; intros H b.
    exact (into_consumed _ _ _ m_cloned_ok b _ _ _ _ H).
  Qed.
  Lemma ig_any_consumed (g : @igraph R) l :
    ig_into_iter g = Some l -> forall budgets, exists s,
      m_run (fun _ : unit => m_ig_into_next) (ig_consume g) (map (pair tt) budgets) =
        Some (consumed triple_parts l budgets, s).
  Proof.
    unfold ig_into_iter; rewrite ig_reads; intros H b.
    exact (into_consumed _ _ _ m_cloned_triple_ok b _ _ _ _ H).
  Qed.

  Context (cmp : R -> R -> comparison) (OL : ord_laws cmp) (keep : bool).

  Lemma bd_consumed ops xs d : run (bd_step cmp keep) bd_new ops = Some (xs, d) ->
    exists l, increasing (quad_cmp cmp) l /\
      (forall q, In q l <-> In q (spec_set (quad_cmp cmp) ops)) /\
      forall budgets, exists s,
        m_run (fun _ : unit => m_bd_into_next) (bd_consume d) (map (pair tt) budgets) =
          Some (consumed quad_parts l budgets, s).
  Proof.
    intros H. destruct (bd_iteration OL keep ops xs d H) as (l & _ & E & I & M).
    exists l; repeat split; try apply I; try apply M. now apply bd_any_consumed.
  Qed.
  Lemma bg_consumed ops xs g : run (bg_step cmp keep) bg_new ops = Some (xs, g) ->
    exists l, increasing (triple_cmp cmp) l /\
      (forall t, In t l <-> In t (spec_set (triple_cmp cmp) ops)) /\
      forall budgets, exists s,
        m_run (fun _ : unit => m_bg_into_next) (bg_consume g) (map (pair tt) budgets) =
          Some (consumed triple_parts l budgets, s).
  Proof.
    intros H. destruct (bg_iteration OL keep ops xs g H) as (l & _ & E & I & M).
    exists l; repeat split; try apply I; try apply M. now apply bg_any_consumed.
  Qed.
  Lemma id_consumed ops0 ops xs d : id_reached cmp keep ops0 ops xs d ->
    exists l, increasing (quad_cmp cmp) l /\
      (forall q, In q l <-> In q (final_set cmp ops0 ops xs)) /\
      forall budgets, exists s,
        m_run (fun _ : unit => m_id_into_next) (id_consume d) (map (pair tt) budgets) =
          Some (consumed quad_parts l budgets, s).
  Proof.
    intros H. destruct (id_contents OL keep ops0 ops xs d H) as (l & _ & E & I & M & _).
    exists l; repeat split; try apply I; try apply M. now apply id_any_consumed.
  Qed.
  Lemma ig_consumed ops0 ops g : ig_reached cmp keep ops0 ops g ->
    exists l, increasing (triple_cmp cmp) l /\
      (forall t, In t l <-> In t (spec_set (triple_cmp cmp) (ops0 ++ ops))) /\
      forall budgets, exists s,
        m_run (fun _ : unit => m_ig_into_next) (ig_consume g) (map (pair tt) budgets) =
          Some (consumed triple_parts l budgets, s).
  Proof.
    intros H. destruct (ig_contents OL keep ops0 ops g H) as (l & _ & E & I & M & _).
    exists l; repeat split; try apply I; try apply M. now apply ig_any_consumed.
  Qed.
End Containers.

(** ** What [consumed] says *)

Lemma consumed_nth {X} parts (l : list X) budgets k n :
  nth_error budgets k = Some n ->
  nth_error (consumed parts l budgets) k =
    Some match nth_error l k with
         | Some x => if n <? parts x then None else Some (Some x)
         | None => Some None
         end.
Proof.
  revert l k; induction budgets as [|m b IH]; intros l k H; [destruct k; discriminate|].
  destruct k as [|k].
  - injection H as ->. now destruct l.
  - destruct l as [|x l]; cbn [consumed nth_error].
    + rewrite (IH [] k H). now destruct k.
    + exact (IH l k H).
Qed.

(** ** Setters *)

Ltac set_tac n :=
  cbn; unfold inside, clone, done; cbn;
  (eexists; split; [(instantiate (1 := 0); reflexivity) || (instantiate (1 := 1); reflexivity)
                    || (instantiate (1 := 2); reflexivity)|]);
  destruct n as [|[|n]]; cbn; rewrite ?app_nil_r, <- ?app_assoc, ?Nat.sub_0_r; reflexivity.

Section Setters.
  Context {T : Type}.

  Lemma set_subject_clones (s : T) c log n :
    let (old, c') := ct_set_subject s c in
    exists k, k + 1 + resources_in c = resources_in c' + resources_in_s old /\
      m_set_subject s c (log, n) =
        if n <? k then Aborted else Written ((old, c'), (log ++ repeat s k, n - k)).
  Proof. destruct c as [[[| | |o]|[| |o]|p [| |o]]|x [[| |o]|p [|o]]]; set_tac n. Qed.

  Lemma set_predicate_clones (p : T) c log n :
    let (old, c') := ct_set_predicate p c in
    exists k, k + 1 + resources_in c = resources_in c' + resources_in_p old /\
      m_set_predicate p c (log, n) =
        if n <? k then Aborted else Written ((old, c'), (log ++ repeat p k, n - k)).
  Proof. destruct c as [[[| | |o]|[| |o]|q [| |o]]|x [[| |o]|q [|o]]]; set_tac n. Qed.

  Lemma set_object_clones (x : T) c log n :
    let (old, c') := ct_set_object x c in
    exists k, k + 1 + resources_in c = resources_in c' + resources_in_o old /\
      m_set_object x c (log, n) =
        if n <? k then Aborted else Written ((old, c'), (log ++ repeat x k, n - k)).
  Proof. destruct c as [[[| | |o]|[| |o]|q [| |o]]|y [[| |o]|q [|o]]]; set_tac n. Qed.

  Lemma any_subject_set_predicate_clones (p : T) c log n :
    let (old, c') := tas_set_predicate p c in
    exists k, k + 1 + resources_in (CT_AnyS c) = resources_in (CT_AnyS c') + resources_in_p old /\
      m_tas_set_predicate p c (log, n) =
        if n <? k then Aborted else Written ((old, c'), (log ++ repeat p k, n - k)).
  Proof. destruct c as [[| | |o]|[| |o]|q [| |o]]; set_tac n. Qed.

  Lemma any_subject_set_object_clones (x : T) c log n :
    let (old, c') := tas_set_object x c in
    exists k, k + 1 + resources_in (CT_AnyS c) = resources_in (CT_AnyS c') + resources_in_o old /\
      m_tas_set_object x c (log, n) =
        if n <? k then Aborted else Written ((old, c'), (log ++ repeat x k, n - k)).
  Proof. destruct c as [[| | |o]|[| |o]|q [| |o]]; set_tac n. Qed.
End Setters.

(** ** The iterators over the contents *)
Section Streams.
  Context {R : Type} (cmp : R -> R -> comparison) (OL : ord_laws cmp) (keep : bool).

  Lemma bd_iter_streams ops xs d : run (bd_step cmp keep) bd_new ops = Some (xs, d) ->
    (exists l, bd_iter d = Some l /\ streams (bd_quads_next d) (bd_qi d) l) /\
    (exists l, bd_resources_iter d = Some l /\ streams (bd_resources_next d) (bd_ri d) l).
  Proof.
    intros H; split.
    - destruct (bd_iteration OL keep ops xs d H) as (l & E & _).
      exists l; split; [exact E|now apply slots_streams].
    - destruct (bd_resources_exactly OL keep ops xs d H) as (l & E & _).
      exists l; split; [exact E|now apply slots_streams].
  Qed.
  Lemma bg_iter_streams ops xs g : run (bg_step cmp keep) bg_new ops = Some (xs, g) ->
    (exists l, bg_iter g = Some l /\ streams (bg_triples_next g) (bg_ti g) l) /\
    (exists l, bg_resources_iter g = Some l /\ streams (bg_resources_next g) (bg_ri g) l).
  Proof.
    intros H; split.
    - destruct (bg_iteration OL keep ops xs g H) as (l & E & _).
      exists l; split; [exact E|now apply slots_streams].
    - destruct (bg_resources_exactly OL keep ops xs g H) as (l & E & _).
      exists l; split; [exact E|now apply slots_streams].
  Qed.

  Lemma id_iter_streams ops0 ops xs d : id_reached cmp keep ops0 ops xs d ->
    (exists l, id_iter d = Some l /\ streams (id_quads_next d) (id_qi d) l) /\
    (exists l, id_resources_iter d = Some l /\ streams (id_values_next d) (id_ri d) l) /\
    (exists l, id_subjects d = Some l /\ streams (id_values_next d) (id_s d) l) /\
    (exists l, id_predicates d = Some l /\ streams (id_values_next d) (id_p d) l) /\
    (exists l, id_objects d = Some l /\ streams (id_values_next d) (id_o d) l) /\
    (forall l, id_named_graphs d = Some l -> streams (id_values_next d) (id_ng d) l).
  Proof.
    intros H. destruct (id_no_panic OL keep _ _ _ _ H) as (A & _ & B & C & D & E & _).
    repeat match goal with |- _ /\ _ => split end.
    1: destruct (id_iter d) as [l|] eqn:F; [|easy].
    2: destruct (id_resources_iter d) as [l|] eqn:F; [|easy].
    3: destruct (id_subjects d) as [l|] eqn:F; [|easy].
    4: destruct (id_predicates d) as [l|] eqn:F; [|easy].
    5: destruct (id_objects d) as [l|] eqn:F; [|easy].
    1-5: exists l; split; [reflexivity|now apply slots_streams].
    intros l F; now apply slots_streams.
  Qed.
  Lemma ig_iter_streams ops0 ops g : ig_reached cmp keep ops0 ops g ->
    (exists l, ig_iter g = Some l /\ streams (ig_triples_next g) (ig_ti g) l) /\
    (exists l, ig_resources_iter g = Some l /\ streams (ig_values_next g) (ig_ri g) l) /\
    (exists l, ig_subjects g = Some l /\ streams (ig_values_next g) (ig_s g) l) /\
    (exists l, ig_predicates g = Some l /\ streams (ig_values_next g) (ig_p g) l) /\
    (exists l, ig_objects g = Some l /\ streams (ig_values_next g) (ig_o g) l).
  Proof.
    intros H. destruct (ig_no_panic OL keep _ _ _ H) as (A & _ & B & C & D & E & _).
    repeat match goal with |- _ /\ _ => split end.
    1: destruct (ig_iter g) as [l|] eqn:F; [|easy].
    2: destruct (ig_resources_iter g) as [l|] eqn:F; [|easy].
    3: destruct (ig_subjects g) as [l|] eqn:F; [|easy].
    4: destruct (ig_predicates g) as [l|] eqn:F; [|easy].
    5: destruct (ig_objects g) as [l|] eqn:F; [|easy].
    all: exists l; split; [reflexivity|now apply slots_streams].
  Qed.
End Streams.
