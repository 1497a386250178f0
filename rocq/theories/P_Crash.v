(** Property C63: a [BTreeDataset] or [BTreeGraph] whose user-supplied comparison
    panics in the middle of an operation can still be used.

    An operation of a history is given with the number of comparisons that it may
    make; the next one panics, the panic is caught, and the history goes on with
    the container as the operation left it (CrashModel.v). *)
From Coq Require Import List Bool Arith.
Import ListNotations.
From Verif Require Import Base SlabModel TripleModel SetSpec ContainerSpec Machine BaseProofs BResourceModel
  BTreeDatasetModel BTreeGraphModel CrashModel CrashSpec CrashHistoryProofs CrashIdle CrashCallsProofs.

(** No history panics by itself, wherever the comparisons panic; an interrupted
    insertion or membership test leaves the set as it was, an interrupted removal
    leaves it as it was or without the quad, an interrupted extension leaves the
    set extended by a prefix, and all other operations return what they return on
    a set.  Missing for the full property: interrupted insertions may be counted
    by [len] and [is_empty] for ever ([lost]). *)
Theorem c63_btree_dataset_partial :
  forall R (cmp : R -> R -> comparison), ord_laws cmp ->
  forall keep (l : list (op (quad R) * nat)),
    exists ys d s lost vs,
      m_run (m_bd_step cmp keep) bd_new l = Some (ys, d) /\
      history (quad_cmp cmp) [] [] (map fst l) ys s lost /\
      bd_len d = length s + length lost /\ bd_iter d = Some (sorted_elements (quad_cmp cmp) s) /\
      bd_resources_iter d = Some vs /\ increasing cmp vs /\
      forall v, bd_contains_resource cmp d v = Some (mem cmp v vs).
Proof. exact @bd_interrupted. Qed.
Print Assumptions c63_btree_dataset_partial.

Theorem c63_btree_graph_partial :
  forall R (cmp : R -> R -> comparison), ord_laws cmp ->
  forall keep (l : list (op (triple R) * nat)),
    exists ys g s lost vs,
      m_run (m_bg_step cmp keep) bg_new l = Some (ys, g) /\
      history (triple_cmp cmp) [] [] (map fst l) ys s lost /\
      bg_len g = length s + length lost /\ bg_iter g = Some (sorted_elements (triple_cmp cmp) s) /\
      bg_resources_iter g = Some vs /\ increasing cmp vs /\
      forall v, bg_contains_resource cmp g v = Some (mem cmp v vs).
Proof. exact @bg_interrupted. Qed.
Print Assumptions c63_btree_graph_partial.

(** The losses are elements that interrupted operations were to insert, at most one
    for each interruption; without interruption the history is one of a set. *)
Theorem c63_losses_partial :
  forall X (cmp : X -> X -> comparison) s lost ops ys s' lost',
    history cmp s lost ops ys s' lost' ->
    exists new, lost' = new ++ lost /\ length new <= interruptions ys /\
      forall x, In x new -> In x (not_inserted ops ys).
Proof. exact @history_lost. Qed.
Print Assumptions c63_losses_partial.

Theorem c63_no_interruption_partial :
  forall X (cmp : X -> X -> comparison) s ops ys s' lost',
    history cmp s [] ops ys s' lost' -> interruptions ys = 0 ->
    lost' = [] /\ ys = map Some (fst (spec_run cmp s ops)) /\ s' = snd (spec_run cmp s ops).
Proof. exact @history_done. Qed.
Print Assumptions c63_no_interruption_partial.

(** Whatever was interrupted before, an operation that does not change the set leaves
    the container exactly as it was, interrupted or not: a membership test, the
    insertion of a quad that is present, the removal of one that is absent. *)
Theorem c63_idle_dataset_partial :
  forall R (cmp : R -> R -> comparison), ord_laws cmp ->
  forall keep (l : list (op (quad R) * nat)),
    exists ys d s lost,
      m_run (m_bd_step cmp keep) bd_new l = Some (ys, d) /\
      history (quad_cmp cmp) [] [] (map fst l) ys s lost /\
      forall o, idle (quad_cmp cmp) s o ->
        leaves_as_is (m_bd_step cmp keep o) d (answer (quad_cmp cmp) s lost o).
Proof. exact @bd_idle. Qed.
Print Assumptions c63_idle_dataset_partial.

Theorem c63_idle_graph_partial :
  forall R (cmp : R -> R -> comparison), ord_laws cmp ->
  forall keep (l : list (op (triple R) * nat)),
    exists ys g s lost,
      m_run (m_bg_step cmp keep) bg_new l = Some (ys, g) /\
      history (triple_cmp cmp) [] [] (map fst l) ys s lost /\
      forall o, idle (triple_cmp cmp) s o ->
        leaves_as_is (m_bg_step cmp keep o) g (answer (triple_cmp cmp) s lost o).
Proof. exact @bg_idle. Qed.
Print Assumptions c63_idle_graph_partial.

(** The operations that may be interrupted are those of the other properties:
    with enough comparisons they return the same and leave the same container, and
    so do those of a history of which none was interrupted. *)
Theorem c63_same_dataset_partial :
  forall R (cmp : R -> R -> comparison) keep (ops : list (op (quad R))) ys d,
    run (bd_step cmp keep) bd_new ops = Some (ys, d) ->
    exists k, forall n, k <= n ->
      m_run (m_bd_step cmp keep) bd_new (map (fun o => (o, n)) ops) = Some (map Some ys, d).
Proof. exact @bd_enough. Qed.
Print Assumptions c63_same_dataset_partial.

Theorem c63_same_dataset_done_partial :
  forall R (cmp : R -> R -> comparison) keep (l : list (op (quad R) * nat)) ys d,
    m_run (m_bd_step cmp keep) bd_new l = Some (map Some ys, d) ->
    run (bd_step cmp keep) bd_new (map fst l) = Some (ys, d).
Proof. exact @bd_all_done. Qed.
Print Assumptions c63_same_dataset_done_partial.

Theorem c63_same_graph_partial :
  forall R (cmp : R -> R -> comparison) keep (ops : list (op (triple R))) ys g,
    run (bg_step cmp keep) bg_new ops = Some (ys, g) ->
    exists k, forall n, k <= n ->
      m_run (m_bg_step cmp keep) bg_new (map (fun o => (o, n)) ops) = Some (map Some ys, g).
Proof. exact @bg_enough. Qed.
Print Assumptions c63_same_graph_partial.

Theorem c63_same_graph_done_partial :
  forall R (cmp : R -> R -> comparison) keep (l : list (op (triple R) * nat)) ys g,
    m_run (m_bg_step cmp keep) bg_new l = Some (map Some ys, g) ->
    run (bg_step cmp keep) bg_new (map fst l) = Some (ys, g).
Proof. exact @bg_all_done. Qed.
Print Assumptions c63_same_graph_done_partial.

(** What may panic: to test whether a container of one element has another one makes
    one call for each component that both have, up to the first that differs, and
    panics at the first call that does. *)
Theorem c63_dataset_calls_partial :
  forall R (cmp : R -> R -> comparison) keep d a b,
    bd_iter d = Some [a] ->
    makes_calls (m_bd_step cmp keep (Contains b)) d (component_calls cmp (quad_parts a) (quad_parts b))
      (OBool (match quad_cmp cmp a b with Eq => true | _ => false end)).
Proof. exact @bd_calls. Qed.
Print Assumptions c63_dataset_calls_partial.

Theorem c63_graph_calls_partial :
  forall R (cmp : R -> R -> comparison) keep g a b,
    bg_iter g = Some [a] ->
    makes_calls (m_bg_step cmp keep (Contains b)) g (component_calls cmp (triple_parts a) (triple_parts b))
      (OBool (match triple_cmp cmp a b with Eq => true | _ => false end)).
Proof. exact @bg_calls. Qed.
Print Assumptions c63_graph_calls_partial.

(** The full property fails.  A comparison that panics at the end of an insertion
    leaves a dataset that, when its other quad is removed, has nothing to iterate
    over but a length of 1, is not empty and is not equal to an empty dataset. *)
Theorem c63_btree_dataset_refuted :
  exists l : list (op (quad nat) * nat), forall keep, exists ys d,
    m_run (m_bd_step Nat.compare keep) bd_new l = Some (ys, d) /\
    bd_iter d = Some [] /\ bd_len d = 1 /\ bd_is_empty d = false /\
    bd_eqb Nat.eqb d (@bd_new nat) = Some false /\
    bd_hash_input d <> bd_hash_input (@bd_new nat).
Proof.
  exists [(Insert (Quad 1 2 3 None), 20); (Insert (Quad 4 2 3 None), 12);
          (Remove (Quad 1 2 3 None), 20)].
  intros []; do 2 eexists; (split; [vm_compute; reflexivity|]); repeat split; discriminate.
Qed.
Print Assumptions c63_btree_dataset_refuted.

(** And it may be equal to a dataset with other quads, because equality compares the
    lengths and then the quads of both as far as the shorter iterator goes. *)
Theorem c63_btree_dataset_eq_refuted :
  exists l l' : list (op (quad nat) * nat), forall keep, exists ys d ys' d',
    m_run (m_bd_step Nat.compare keep) bd_new l = Some (ys, d) /\
    m_run (m_bd_step Nat.compare keep) bd_new l' = Some (ys', d') /\
    bd_iter d = Some [Quad 1 2 3 None] /\
    bd_iter d' = Some [Quad 1 2 3 None; Quad 5 6 7 None] /\
    bd_eqb Nat.eqb d d' = Some true.
Proof.
  exists [(Insert (Quad 1 2 3 None), 20); (Insert (Quad 4 2 3 None), 12)],
    [(Insert (Quad 1 2 3 None), 20); (Insert (Quad 5 6 7 None), 40)].
  intros []; do 4 eexists; (split; [vm_compute; reflexivity|]);
    (split; [vm_compute; reflexivity|]); repeat split.
Qed.
Print Assumptions c63_btree_dataset_eq_refuted.

Theorem c63_btree_graph_refuted :
  exists l : list (op (triple nat) * nat), forall keep, exists ys g,
    m_run (m_bg_step Nat.compare keep) bg_new l = Some (ys, g) /\
    bg_iter g = Some [] /\ bg_len g = 1 /\ bg_is_empty g = false /\
    bg_eqb Nat.eqb g (@bg_new nat) = Some false /\
    bg_hash_input g <> bg_hash_input (@bg_new nat).
Proof.
  exists [(Insert (Triple 1 2 3), 20); (Insert (Triple 4 2 3), 12);
          (Remove (Triple 1 2 3), 20)].
  intros []; do 2 eexists; (split; [vm_compute; reflexivity|]); repeat split; discriminate.
Qed.
Print Assumptions c63_btree_graph_refuted.

Theorem c63_btree_graph_eq_refuted :
  exists l l' : list (op (triple nat) * nat), forall keep, exists ys g ys' g',
    m_run (m_bg_step Nat.compare keep) bg_new l = Some (ys, g) /\
    m_run (m_bg_step Nat.compare keep) bg_new l' = Some (ys', g') /\
    bg_iter g = Some [Triple 1 2 3] /\
    bg_iter g' = Some [Triple 1 2 3; Triple 5 6 7] /\
    bg_eqb Nat.eqb g g' = Some true.
Proof.
  exists [(Insert (Triple 1 2 3), 20); (Insert (Triple 4 2 3), 12)],
    [(Insert (Triple 1 2 3), 20); (Insert (Triple 5 6 7), 40)].
  intros []; do 4 eexists; (split; [vm_compute; reflexivity|]);
    (split; [vm_compute; reflexivity|]); repeat split.
Qed.
Print Assumptions c63_btree_graph_eq_refuted.

(** Resources of removed quads may stay, and be listed, for ever. *)
Theorem c63_resources_refuted :
  exists l : list (op (quad nat) * nat), forall keep, exists ys d,
    m_run (m_bd_step Nat.compare keep) bd_new l = Some (ys, d) /\
    bd_iter d = Some [] /\ bd_resources_iter d = Some [2; 3] /\
    bd_contains_resource Nat.compare d 2 = Some true.
Proof.
  exists [(Insert (Quad 1 2 3 None), 20); (Remove (Quad 1 2 3 None), 4)].
  intros []; do 2 eexists; (split; [vm_compute; reflexivity|]); repeat split.
Qed.
Print Assumptions c63_resources_refuted.

(** The laws of the order hold for numbers, and the histories above have
    interruptions of every kind: before and after the set changes, in an
    extension, in a membership test. *)
Example c63_ex :
  ord_laws Nat.compare /\
  forall keep,
    option_map fst (m_run (m_bd_step Nat.compare keep) bd_new
      [(Extend [Quad 1 2 3 None; Quad 4 5 6 (Some 7); Quad 8 9 8 None], 25); (Iter, 0);
       (Contains (Quad 1 2 3 None), 1); (Remove (Quad 1 2 3 None), 1); (Iter, 0);
       (Remove (Quad 1 2 3 None), 4); (Insert (Quad 4 5 6 (Some 7)), 60); (Iter, 0);
       (Insert (Quad 4 5 6 (Some 8)), 40); (Insert (Quad 4 5 6 (Some 8)), 40); (Iter, 0); (Len, 0)]) =
    Some [None; Some (OList [Quad 1 2 3 None]); None; None; Some (OList [Quad 1 2 3 None]);
          None; Some (OBool true); Some (OList [Quad 4 5 6 (Some 7)]);
          Some (OBool true); Some (OBool false);
          Some (OList [Quad 4 5 6 (Some 7); Quad 4 5 6 (Some 8)]); Some (ONat 2)].
Proof. split; [exact nat_compare_laws|intros []; vm_compute; reflexivity]. Qed.

(** A history with a loss, as the specification sees it. *)
Example c63_history_ex :
  let q := Quad 1 2 3 None in let x := Quad 4 2 3 None in
  history (quad_cmp Nat.compare) [] [] [Insert q; Insert x; Remove q; Iter; Len]
    [Some (OBool true); None; Some (OBool true); Some (OList []); Some (ONat 1)] [] [x].
Proof.
  intros q x.
  apply (h_done (quad_cmp Nat.compare) [] [] (Insert q)).
  eapply h_interrupted; [split; [reflexivity|right; split; reflexivity]|].
  apply (h_done (quad_cmp Nat.compare) [q] [x] (Remove q)).
  apply (h_done (quad_cmp Nat.compare) [] [x] Iter).
  apply (h_done (quad_cmp Nat.compare) [] [x] Len), h_nil.
Qed.

(** Operations that do not change the set of that history. *)
Example c63_idle_ex :
  let q := Quad 1 2 3 None in let x := Quad 4 2 3 None in
  idle (quad_cmp Nat.compare) [q] (Insert q) /\ idle (quad_cmp Nat.compare) [q] (Remove x) /\
  idle (quad_cmp Nat.compare) [q] (Extend [q; q]) /\ idle (quad_cmp Nat.compare) [q] (Contains x) /\
  ~ idle (quad_cmp Nat.compare) [q] (Insert x) /\ ~ idle (quad_cmp Nat.compare) [q] (Remove q).
Proof.
  repeat split; try discriminate; intros y [<-|[<-|[]]]; reflexivity.
Qed.

(** Calls: three differences, and the graphs when there are two. *)
Example c63_calls_ex :
  map (fun q => component_calls Nat.compare (quad_parts (Quad 1 2 3 (Some 4))) (quad_parts q))
    [Quad 5 2 3 None; Quad 1 5 3 None; Quad 1 2 5 None; Quad 1 2 3 None; Quad 1 2 3 (Some 5)] = [1; 2; 3; 3; 4] /\
  forall keep, option_map (fun r => bd_iter (snd r))
    (run (bd_step Nat.compare keep) bd_new [Insert (Quad 1 2 3 (Some 4))]) = Some (Some [Quad 1 2 3 (Some 4)]).
Proof. split; [reflexivity|intros []; reflexivity]. Qed.
