(** Property C85: containers whose resources panic when they are dropped, compared or cloned.

    As in C63 and C64, an operation of a history is given with the number of calls of the user's code
    that it may make, here also of the destructor of resources; the next call panics, the panic is
    caught, and the history goes on with the container as the operation left it (DropModel.v). *)
From Coq Require Import List Bool Arith.
Import ListNotations.
From Verif Require Import Base SlabModel TripleModel SetSpec ContainerSpec IndexedSpec Machine BaseProofs BResourceModel
  BTreeDatasetModel BTreeGraphModel IResourceModel IndexedDatasetModel IndexedGraphModel CrashModel CrashSpec
  ICrashSpec ICrashModel DropSpec DropModel DropProofs DropIProofs DropCountProofs.

(** No history panics by itself.  An interrupted insertion leaves the set as it was or with the
    quad, and may leave a loss (as in C63); an interrupted removal leaves the set as it was or without
    the quad; an interrupted extension has inserted a prefix.  A removal turns at one of its calls:
    before it nothing has changed, from it on the quad is gone, so that a destructor that panics
    does not bring it back. *)
Theorem c85_btree_dataset :
  forall R (cmp : R -> R -> comparison), ord_laws cmp ->
  forall keep (l : list (op (quad R) * nat)),
    exists ys d s lost vs,
      m_run (d_bd_step cmp keep) bd_new l = Some (ys, d) /\
      cut_history (quad_cmp cmp) [] [] (map fst l) ys s lost /\
      bd_len d = length s + length lost /\ bd_iter d = Some (sorted_elements (quad_cmp cmp) s) /\
      bd_resources_iter d = Some vs /\ increasing cmp vs /\
      (forall v, bd_contains_resource cmp d v = Some (mem cmp v vs)) /\
      forall q, turns (d_bd_remove cmp q) d (fun d' =>
        bd_len d' = length (del (quad_cmp cmp) q s) + length lost /\
        bd_iter d' = Some (sorted_elements (quad_cmp cmp) (del (quad_cmp cmp) q s))).
Proof. exact @bd_dropped. Qed.
Print Assumptions c85_btree_dataset.

Theorem c85_btree_graph :
  forall R (cmp : R -> R -> comparison), ord_laws cmp ->
  forall keep (l : list (op (triple R) * nat)),
    exists ys g s lost vs,
      m_run (d_bg_step cmp keep) bg_new l = Some (ys, g) /\
      cut_history (triple_cmp cmp) [] [] (map fst l) ys s lost /\
      bg_len g = length s + length lost /\ bg_iter g = Some (sorted_elements (triple_cmp cmp) s) /\
      bg_resources_iter g = Some vs /\ increasing cmp vs /\
      (forall v, bg_contains_resource cmp g v = Some (mem cmp v vs)) /\
      forall t, turns (d_bg_remove cmp t) g (fun g' =>
        bg_len g' = length (del (triple_cmp cmp) t s) + length lost /\
        bg_iter g' = Some (sorted_elements (triple_cmp cmp) (del (triple_cmp cmp) t s))).
Proof. exact @bg_dropped. Qed.
Print Assumptions c85_btree_graph.

(** The indexed containers, also from an interrupted container that was converted ([l0 = []] is the
    empty one).  The queries do not panic, and return only elements of the set and losses. *)
Theorem c85_indexed_dataset :
  forall R (cmp : R -> R -> comparison), ord_laws cmp ->
  forall keep (l0 l : list (op (quad R) * nat)),
    exists ys0 b s0 lost0 d0,
      m_run (d_bd_step cmp keep) bd_new l0 = Some (ys0, b) /\
      cut_history (quad_cmp cmp) [] [] (map fst l0) ys0 s0 lost0 /\
      id_from_non_indexed b = Some d0 /\
      exists ys d s lost vs,
        m_run (d_id_step cmp keep) d0 l = Some (ys, d) /\
        cut_history (quad_cmp cmp) s0 lost0 (map fst l) ys s lost /\
        id_len d = length s + length lost /\ id_iter d = Some (sorted_elements (quad_cmp cmp) s) /\
        id_resources_iter d = Some vs /\ increasing cmp vs /\
        (forall v, id_contains_resource cmp d v = Some (mem cmp v vs)) /\
        (lost0 = [] -> id_queries_within cmp d (s ++ lost)) /\
        forall q, turns (d_id_remove cmp q) d (fun d' =>
          id_len d' = length (del (quad_cmp cmp) q s) + length lost /\
          id_iter d' = Some (sorted_elements (quad_cmp cmp) (del (quad_cmp cmp) q s))).
Proof. exact @id_dropped. Qed.
Print Assumptions c85_indexed_dataset.

Theorem c85_indexed_graph :
  forall R (cmp : R -> R -> comparison), ord_laws cmp ->
  forall keep (l0 l : list (op (triple R) * nat)),
    exists ys0 b s0 lost0 g0,
      m_run (d_bg_step cmp keep) bg_new l0 = Some (ys0, b) /\
      cut_history (triple_cmp cmp) [] [] (map fst l0) ys0 s0 lost0 /\
      ig_from_non_indexed b = Some g0 /\
      exists ys g s lost vs,
        m_run (d_ig_step cmp keep) g0 l = Some (ys, g) /\
        cut_history (triple_cmp cmp) s0 lost0 (map fst l) ys s lost /\
        ig_len g = length s + length lost /\ ig_iter g = Some (sorted_elements (triple_cmp cmp) s) /\
        ig_resources_iter g = Some vs /\ increasing cmp vs /\
        (forall v, ig_contains_resource cmp g v = Some (mem cmp v vs)) /\
        (lost0 = [] -> ig_queries_within cmp g (s ++ lost)) /\
        forall t, turns (d_ig_remove cmp t) g (fun g' =>
          ig_len g' = length (del (triple_cmp cmp) t s) + length lost /\
          ig_iter g' = Some (sorted_elements (triple_cmp cmp) (del (triple_cmp cmp) t s))).
Proof. exact @ig_dropped. Qed.
Print Assumptions c85_indexed_graph.

(** An insertion drops the values that it does not store after everything else: if a destructor
    panics, the insertion is complete. *)
Theorem c85_insert_last :
  forall R (cmp : R -> R -> comparison) keep,
    (forall q, then_calls (m_bd_insert cmp keep q) (d_bd_insert cmp keep q)) /\
    (forall t, then_calls (m_bg_insert cmp keep t) (d_bg_insert cmp keep t)) /\
    (forall q, then_calls (m_id_insert cmp keep q) (d_id_insert cmp keep q)) /\
    (forall t, then_calls (m_ig_insert cmp keep t) (d_ig_insert cmp keep t)).
Proof. exact @inserts_last. Qed.
Print Assumptions c85_insert_last.

(** Without a panic the model with destructors is the one without: from some number of calls on, and only then. *)
Theorem c85_same_btree_dataset :
  forall R (cmp : R -> R -> comparison) keep,
    (forall (ops : list (op (quad R))) ys d,
       run (bd_step cmp keep) bd_new ops = Some (ys, d) ->
       exists k, forall n, k <= n ->
         m_run (d_bd_step cmp keep) bd_new (map (fun o => (o, n)) ops) = Some (map Some ys, d)) /\
    (forall (l : list (op (quad R) * nat)) ys d,
       m_run (d_bd_step cmp keep) bd_new l = Some (map Some ys, d) ->
       run (bd_step cmp keep) bd_new (map fst l) = Some (ys, d)).
Proof. exact (fun R cmp keep => conj (@bd_drop_enough R cmp keep) (@bd_drop_done R cmp keep)). Qed.
Print Assumptions c85_same_btree_dataset.

Theorem c85_same_btree_graph :
  forall R (cmp : R -> R -> comparison) keep,
    (forall (ops : list (op (triple R))) ys g,
       run (bg_step cmp keep) bg_new ops = Some (ys, g) ->
       exists k, forall n, k <= n ->
         m_run (d_bg_step cmp keep) bg_new (map (fun o => (o, n)) ops) = Some (map Some ys, g)) /\
    (forall (l : list (op (triple R) * nat)) ys g,
       m_run (d_bg_step cmp keep) bg_new l = Some (map Some ys, g) ->
       run (bg_step cmp keep) bg_new (map fst l) = Some (ys, g)).
Proof. exact (fun R cmp keep => conj (@bg_drop_enough R cmp keep) (@bg_drop_done R cmp keep)). Qed.
Print Assumptions c85_same_btree_graph.

Theorem c85_same_indexed_dataset :
  forall R (cmp : R -> R -> comparison) keep d0,
    (forall (ops : list (op (quad R))) ys d,
       run (id_step cmp keep) d0 (map IOp ops) = Some (map IOut ys, d) ->
       exists k, forall n, k <= n ->
         m_run (d_id_step cmp keep) d0 (map (fun o => (o, n)) ops) = Some (map Some ys, d)) /\
    (forall (l : list (op (quad R) * nat)) ys d,
       m_run (d_id_step cmp keep) d0 l = Some (map Some ys, d) ->
       run (id_step cmp keep) d0 (map IOp (map fst l)) = Some (map IOut ys, d)).
Proof. exact (fun R cmp keep d0 => conj (@id_drop_enough R cmp keep d0) (@id_drop_done R cmp keep d0)). Qed.
Print Assumptions c85_same_indexed_dataset.

Theorem c85_same_indexed_graph :
  forall R (cmp : R -> R -> comparison) keep g0,
    (forall (ops : list (op (triple R))) ys g,
       run (ig_step cmp keep) g0 ops = Some (ys, g) ->
       exists k, forall n, k <= n ->
         m_run (d_ig_step cmp keep) g0 (map (fun o => (o, n)) ops) = Some (map Some ys, g)) /\
    (forall (l : list (op (triple R) * nat)) ys g,
       m_run (d_ig_step cmp keep) g0 l = Some (map Some ys, g) ->
       run (ig_step cmp keep) g0 (map fst l) = Some (ys, g)).
Proof. exact (fun R cmp keep g0 => conj (@ig_drop_enough R cmp keep g0) (@ig_drop_done R cmp keep g0)). Qed.
Print Assumptions c85_same_indexed_graph.

(** Every value given to the container is stored or dropped, once: the calls of a history beyond its
    comparisons and clones are as many as the values given, less those that are stored at the end. *)
Theorem c85_counted_btree_dataset :
  forall R (cmp : R -> R -> comparison) keep (ops : list (op (quad R))) ys d,
    run (bd_step cmp keep) bd_new ops = Some (ys, d) ->
    exists k j,
      costs (all_of (m_bd_step cmp keep) ops) bd_new k ys d /\
      costs (all_of (d_bd_step cmp keep) ops) bd_new (k + j) ys d /\
      j + slen (bd_resources d) = all_given quad_values ops.
Proof. exact @bd_counted. Qed.
Print Assumptions c85_counted_btree_dataset.

Theorem c85_counted_btree_graph :
  forall R (cmp : R -> R -> comparison) keep (ops : list (op (triple R))) ys g,
    run (bg_step cmp keep) bg_new ops = Some (ys, g) ->
    exists k j,
      costs (all_of (m_bg_step cmp keep) ops) bg_new k ys g /\
      costs (all_of (d_bg_step cmp keep) ops) bg_new (k + j) ys g /\
      j + slen (bg_resources g) = all_given triple_values ops.
Proof. exact @bg_counted. Qed.
Print Assumptions c85_counted_btree_graph.

(** The conversion of a container moves its resources. *)
Theorem c85_counted_indexed_dataset :
  forall R (cmp : R -> R -> comparison) keep b d0 (ops : list (op (quad R))) ys d,
    id_from_non_indexed b = Some d0 ->
    run (id_step cmp keep) d0 (map IOp ops) = Some (map IOut ys, d) ->
    slen (id_resources d0) = slen (bd_resources b) /\
    exists k j,
      costs (all_of (m_id_step cmp keep) ops) d0 k ys d /\
      costs (all_of (d_id_step cmp keep) ops) d0 (k + j) ys d /\
      j + slen (id_resources d) = all_given quad_values ops + slen (bd_resources b).
Proof. exact @id_counted. Qed.
Print Assumptions c85_counted_indexed_dataset.

Theorem c85_counted_indexed_graph :
  forall R (cmp : R -> R -> comparison) keep b g0 (ops : list (op (triple R))) ys g,
    ig_from_non_indexed b = Some g0 ->
    run (ig_step cmp keep) g0 ops = Some (ys, g) ->
    slen (ig_resources g0) = slen (bg_resources b) /\
    exists k j,
      costs (all_of (m_ig_step cmp keep) ops) g0 k ys g /\
      costs (all_of (d_ig_step cmp keep) ops) g0 (k + j) ys g /\
      j + slen (ig_resources g) = all_given triple_values ops + slen (bg_resources b).
Proof. exact @ig_counted. Qed.
Print Assumptions c85_counted_indexed_graph.

(** The named graphs are kept apart from the resources: if the destructor of a graph name panics when the
    last quad of that graph is removed, the name stays in the list without its resource, and listing
    the named graphs panics (compare C29). *)
Theorem c85_named_graphs_left :
  exists (l : list (op (quad nat) * nat)) ys d,
    m_run (d_id_step Nat.compare true) id_new l = Some (ys, d) /\
    id_iter d = Some [] /\ id_resources_iter d = Some [] /\ id_named_graphs d = None.
Proof.
  exists [(Insert (Quad 1 2 3 (Some 4)), 100); (Remove (Quad 1 2 3 (Some 4)), 11)].
  do 2 eexists. split; [ vm_compute; reflexivity | vm_compute; auto ].
Qed.
Print Assumptions c85_named_graphs_left.

(** Examples.  Natural numbers are lawful resources; the insertion of a quad that is there is interrupted
    when its second value is dropped, and the set is as it was. *)
Example c85_ord : ord_laws Nat.compare.
Proof. exact nat_compare_laws. Qed.

Example c85_present :
  match m_run (d_bd_step Nat.compare true) bd_new
    [(Insert (Quad 1 2 3 None), 20); (Insert (Quad 1 2 3 None), 4); (Insert (Quad 1 2 4 None), 20)] with
  | Some (ys, d) =>
      ys = [Some (OBool true); None; Some (OBool true)] /\ bd_len d = 2 /\ bd_resources_iter d = Some [1; 2; 3; 4]
  | None => False
  end.
Proof. vm_compute. auto. Qed.

(** The insertion of a new quad is interrupted by the destructor of a value that it does not store: the quad
    is there. *)
Example c85_inserted :
  match m_run (d_bd_step Nat.compare true) bd_new
    [(Insert (Quad 1 2 3 None), 20); (Insert (Quad 1 2 4 None), 15); (Contains (Quad 1 2 4 None), 20)] with
  | Some (ys, d) => ys = [Some (OBool true); None; Some (OBool true)] /\ bd_len d = 2
  | None => False
  end.
Proof. vm_compute. auto. Qed.

(** A removal is interrupted by the destructor of the subject: the quad is gone, the other resources stay
    listed, and a later quad uses them. *)
Example c85_removed :
  match m_run (d_bd_step Nat.compare true) bd_new
    [(Insert (Quad 1 2 3 None), 20); (Remove (Quad 1 2 3 None), 4)] with
  | Some (ys, d) =>
      ys = [Some (OBool true); None] /\ bd_iter d = Some [] /\ bd_resources_iter d = Some [2; 3]
  | None => False
  end.
Proof. vm_compute. auto. Qed.

(** Two insertions of the same quad store three values and drop three; the removal drops the stored ones. *)
Example c85_six :
  exists k j d,
    costs (all_of (d_bd_step Nat.compare true)
      [Insert (Quad 1 2 3 None); Insert (Quad 1 2 3 None); Remove (Quad 1 2 3 None)]) bd_new (k + j)
      [OBool true; OBool false; OBool true] d /\
    slen (bd_resources d) = 0 /\ j = 6.
Proof.
  destruct (@bd_counted nat Nat.compare true
    [Insert (Quad 1 2 3 None); Insert (Quad 1 2 3 None); Remove (Quad 1 2 3 None)] _ _ eq_refl)
    as (k & j & _ & C & E).
  exists k, j. eexists. split; [ exact C | ]. vm_compute in E |- *. rewrite <- plus_n_O in E. auto.
Qed.
