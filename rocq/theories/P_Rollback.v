(** Property C94: undoing a batch of insertions on the indexed containers.

    [cmp], [keep], [id_reached], [ig_reached] and [final_set] are as in
    P_IndexedDataset.v and P_IndexedGraph.v.  [tried b] inserts all the elements
    of [b], then removes them, the last one first; [graph_or_empty] does not
    distinguish a [remove_graph] that returns nothing from one that returns an
    empty graph (RollbackSpec.v).  Nothing is assumed about the history. *)
From Coq Require Import List Bool Arith.
Import ListNotations.
From Verif Require Import Base TripleModel TriplePatternModel QuadPatternModel SetSpec ContainerSpec
  IndexedSpec Machine BaseProofs IResourceModel IndexedDatasetModel IndexedGraphModel RollbackSpec
  RollbackProofs.

(** The quads of [b] are different and absent.  They are all inserted and all
    removed; then whatever is done later returns what it would have returned
    without them, and what queries find and which resources are reported is the
    same. *)
Theorem c94_dataset :
  forall R (cmp : R -> R -> comparison), ord_laws cmp ->
  forall keep ops0 ops xs d,
    id_reached cmp keep ops0 ops xs d ->
    forall b, NoDup b -> (forall q, In q b -> ~ In q (final_set cmp ops0 ops xs)) ->
    exists d1, run (id_step cmp keep) d (map IOp (tried b)) =
        Some (map (fun _ => IOut (OBool true)) (tried b), d1) /\
      forall more, exists ys e zs e1,
        run (id_step cmp keep) d more = Some (ys, e) /\
        run (id_step cmp keep) d1 more = Some (zs, e1) /\
        map graph_or_empty ys = map graph_or_empty zs /\
        (forall spare spare1 c,
           id_pattern_matching cmp e spare c = id_pattern_matching cmp e1 spare1 c) /\
        (forall spare spare1 c,
           id_multi_pattern_matching cmp e spare c = id_multi_pattern_matching cmp e1 spare1 c) /\
        (forall r, id_contains_resource cmp e r = id_contains_resource cmp e1 r) /\
        id_resources_iter e = id_resources_iter e1.
Proof. exact @id_rollback. Qed.
Print Assumptions c94_dataset.

Theorem c94_graph :
  forall R (cmp : R -> R -> comparison), ord_laws cmp ->
  forall keep ops0 ops g,
    ig_reached cmp keep ops0 ops g ->
    forall b, NoDup b -> (forall t, In t b -> ~ In t (spec_set (triple_cmp cmp) (ops0 ++ ops))) ->
    exists g1, run (ig_step cmp keep) g (tried b) = Some (map (fun _ => OBool true) (tried b), g1) /\
      forall more, exists ys e e1,
        run (ig_step cmp keep) g more = Some (ys, e) /\
        run (ig_step cmp keep) g1 more = Some (ys, e1) /\
        (forall spare spare1 c, ig_pattern_matching cmp e spare c = ig_pattern_matching cmp e1 spare1 c) /\
        (forall r, ig_contains_resource cmp e r = ig_contains_resource cmp e1 r) /\
        ig_resources_iter e = ig_resources_iter e1.
Proof. exact @ig_rollback. Qed.
Print Assumptions c94_graph.

(** A history with a marked quad, a removal and a vacant place. *)
Definition ex_ops : list (iop nat) :=
  [IOp (Insert (Quad 1 1 2 None)); IOp (Insert (Quad 1 3 4 (Some 9))); IOp (Insert (Quad 5 6 7 None));
   IOp (Remove (Quad 1 1 2 None))].
Definition ex_batch : list (quad nat) :=
  [Quad 1 8 8 None; Quad 4 1 1 (Some 9); Quad 0 0 0 (Some 0)].
Definition ex_triples : list (op (triple nat)) :=
  [Insert (Triple 1 1 2); Insert (Triple 1 3 4); Remove (Triple 1 1 2)].

Example c94_case : forall keep, exists xs d,
  id_reached Nat.compare keep [] ex_ops xs d /\ NoDup ex_batch /\
  forall q, In q ex_batch -> ~ In q (final_set Nat.compare [] ex_ops xs).
Proof.
  intros []; (do 2 eexists; split; [exists []; do 2 eexists; vm_compute; repeat split|]).
  all: split; [repeat constructor; cbn; intuition discriminate|].
  all: vm_compute; intros q [<-|[<-|[<-|[]]]] [H|[H|[]]]; discriminate.
Qed.
Example c94_graph_case : forall keep, exists g,
  ig_reached Nat.compare keep [] ex_triples g /\ NoDup [Triple 2 2 1; Triple 1 4 4] /\
  forall t, In t [Triple 2 2 1; Triple 1 4 4] ->
    ~ In t (spec_set (triple_cmp Nat.compare) ([] ++ ex_triples)).
Proof.
  intros []; (eexists; split; [do 4 eexists; vm_compute; repeat split|]).
  all: split; [repeat constructor; cbn; intuition discriminate|].
  all: vm_compute; intros t [<-|[<-|[]]] [H|[]]; discriminate.
Qed.

(** What the theorems above leave out is false.

    Removed in the order of their insertion: a quad inserted afterwards is not
    found by a query that gives no subject. *)
Theorem c94_other_order :
  exists b q d1, NoDup b /\ ~ In q b /\ forall keep,
    run (id_step Nat.compare keep) id_new
        (map IOp (map Insert b ++ map Remove b ++ [Insert q; Contains q])) =
      Some (map (fun _ => IOut (OBool true)) (map Insert b ++ map Remove b ++ [Insert q; Contains q]), d1 keep) /\
    forall spare, id_pattern_matching Nat.compare (d1 keep) spare (CQ_AnyS (QA_AnyP (QAA_Any QAAA_Any))) = Some [].
Proof. exact id_rollback_order. Qed.
Print Assumptions c94_other_order.

(** The subjects, predicates and objects reported are not restored. *)
Theorem c94_positions :
  exists d b d1, NoDup b /\ forall keep,
    run (id_step Nat.compare keep) id_new [IOp (Insert (Quad 1 2 3 None))] =
      Some ([IOut (OBool true)], d keep) /\
    run (id_step Nat.compare keep) (d keep) (map IOp (tried b)) =
      Some (map (fun _ => IOut (OBool true)) (tried b), d1 keep) /\
    id_subjects (d keep) = Some [1] /\ id_subjects (d1 keep) = Some [] /\
    id_predicates (d keep) = Some [2] /\ id_predicates (d1 keep) = Some [] /\
    id_objects (d keep) = Some [3] /\ id_objects (d1 keep) = Some [].
Proof. exact id_rollback_positions. Qed.
Print Assumptions c94_positions.

(** The other way round: a quad is removed and inserted again.  Another quad, that
    a query found before, is no longer found. *)
Theorem c94_removed_and_inserted :
  exists ops q t c d d1 l l1, forall keep,
    run (id_step Nat.compare keep) id_new (map IOp ops) = Some (map (fun _ => IOut (OBool true)) ops, d keep) /\
    run (id_step Nat.compare keep) (d keep) (map IOp [Remove q; Insert q]) =
      Some ([IOut (OBool true); IOut (OBool true)], d1 keep) /\
    q <> t /\ In t (l keep) /\ ~ In t (l1 keep) /\
    (forall spare, id_pattern_matching Nat.compare (d keep) spare c = Some (l keep)) /\
    (forall spare, id_pattern_matching Nat.compare (d1 keep) spare c = Some (l1 keep)).
Proof. exact id_rollback_removal. Qed.
Print Assumptions c94_removed_and_inserted.
