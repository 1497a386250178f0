(** C97: the difference of two containers and its application. *)
From Coq Require Import List Arith.
Import ListNotations.
From Verif Require Import Base TripleModel QuadPatternModel SetSpec ContainerSpec IndexedSpec Machine
  BTreeDatasetModel BTreeGraphModel IndexedDatasetModel IndexedGraphModel PatchModel PatchProofs.

(** C97: the difference of two datasets is what one has and the other has not, in the
    order of iteration; applied to the first it gives the second, every operation
    being effective; applied again, none is; undone, it gives the first again; and any other patch that leads
    there contains it. *)
Theorem c97_dataset : forall R (cmp : R -> R -> comparison), ord_laws cmp ->
  forall keep ops1 xs a la ops2 ys b lb,
  run (bd_step cmp keep) bd_new ops1 = Some (xs, a) -> bd_iter a = Some la ->
  run (bd_step cmp keep) bd_new ops2 = Some (ys, b) -> bd_iter b = Some lb ->
  exists removed added,
    diff bd_iter (bd_contains cmp) a b = Some (removed, added) /\
    (exists f, removed = filter f la) /\ (exists f, added = filter f lb) /\
    (forall x, In x removed <-> In x la /\ ~ In x lb) /\ (forall x, In x added <-> In x lb /\ ~ In x la) /\
    (exists d d' d'',
       patch (bd_insert cmp keep) (bd_remove cmp) a removed added = Some (length removed + length added, d) /\
       bd_iter d = Some lb /\
       patch (bd_insert cmp keep) (bd_remove cmp) d added removed = Some (length removed + length added, d') /\
       bd_iter d' = Some la /\
       patch (bd_insert cmp keep) (bd_remove cmp) d removed added = Some (0, d'') /\ bd_iter d'' = Some lb) /\
    (forall r u n d, patch (bd_insert cmp keep) (bd_remove cmp) a r u = Some (n, d) -> bd_iter d = Some lb ->
       incl removed r /\ incl added u).
Proof. exact @bd_patched. Qed.
Print Assumptions c97_dataset.

(** C97: the same for graphs. *)
Theorem c97_graph : forall R (cmp : R -> R -> comparison), ord_laws cmp ->
  forall keep ops1 xs a la ops2 ys b lb,
  run (bg_step cmp keep) bg_new ops1 = Some (xs, a) -> bg_iter a = Some la ->
  run (bg_step cmp keep) bg_new ops2 = Some (ys, b) -> bg_iter b = Some lb ->
  exists removed added,
    diff bg_iter (bg_contains cmp) a b = Some (removed, added) /\
    (exists f, removed = filter f la) /\ (exists f, added = filter f lb) /\
    (forall x, In x removed <-> In x la /\ ~ In x lb) /\ (forall x, In x added <-> In x lb /\ ~ In x la) /\
    (exists d d' d'',
       patch (bg_insert cmp keep) (bg_remove cmp) a removed added = Some (length removed + length added, d) /\
       bg_iter d = Some lb /\
       patch (bg_insert cmp keep) (bg_remove cmp) d added removed = Some (length removed + length added, d') /\
       bg_iter d' = Some la /\
       patch (bg_insert cmp keep) (bg_remove cmp) d removed added = Some (0, d'') /\ bg_iter d'' = Some lb) /\
    (forall r u n d, patch (bg_insert cmp keep) (bg_remove cmp) a r u = Some (n, d) -> bg_iter d = Some lb ->
       incl removed r /\ incl added u).
Proof. exact @bg_patched. Qed.
Print Assumptions c97_graph.

(** C97: the same for indexed datasets. *)
Theorem c97_indexed_dataset : forall R (cmp : R -> R -> comparison), ord_laws cmp ->
  forall keep ops01 ops1 xs a la ops02 ops2 ys b lb,
  id_reached cmp keep ops01 ops1 xs a -> id_iter a = Some la ->
  id_reached cmp keep ops02 ops2 ys b -> id_iter b = Some lb ->
  exists removed added,
    diff id_iter (id_contains cmp) a b = Some (removed, added) /\
    (exists f, removed = filter f la) /\ (exists f, added = filter f lb) /\
    (forall x, In x removed <-> In x la /\ ~ In x lb) /\ (forall x, In x added <-> In x lb /\ ~ In x la) /\
    (exists d d' d'',
       patch (id_insert cmp keep) (id_remove cmp) a removed added = Some (length removed + length added, d) /\
       id_iter d = Some lb /\
       patch (id_insert cmp keep) (id_remove cmp) d added removed = Some (length removed + length added, d') /\
       id_iter d' = Some la /\
       patch (id_insert cmp keep) (id_remove cmp) d removed added = Some (0, d'') /\ id_iter d'' = Some lb) /\
    (forall r u n d, patch (id_insert cmp keep) (id_remove cmp) a r u = Some (n, d) -> id_iter d = Some lb ->
       incl removed r /\ incl added u).
Proof. exact @id_patched. Qed.
Print Assumptions c97_indexed_dataset.

(** C97: the same for indexed graphs. *)
Theorem c97_indexed_graph : forall R (cmp : R -> R -> comparison), ord_laws cmp ->
  forall keep ops01 ops1 a la ops02 ops2 b lb,
  ig_reached cmp keep ops01 ops1 a -> ig_iter a = Some la ->
  ig_reached cmp keep ops02 ops2 b -> ig_iter b = Some lb ->
  exists removed added,
    diff ig_iter (ig_contains cmp) a b = Some (removed, added) /\
    (exists f, removed = filter f la) /\ (exists f, added = filter f lb) /\
    (forall x, In x removed <-> In x la /\ ~ In x lb) /\ (forall x, In x added <-> In x lb /\ ~ In x la) /\
    (exists d d' d'',
       patch (ig_insert cmp keep) (ig_remove cmp) a removed added = Some (length removed + length added, d) /\
       ig_iter d = Some lb /\
       patch (ig_insert cmp keep) (ig_remove cmp) d added removed = Some (length removed + length added, d') /\
       ig_iter d' = Some la /\
       patch (ig_insert cmp keep) (ig_remove cmp) d removed added = Some (0, d'') /\ ig_iter d'' = Some lb) /\
    (forall r u n d, patch (ig_insert cmp keep) (ig_remove cmp) a r u = Some (n, d) -> ig_iter d = Some lb ->
       incl removed r /\ incl added u).
Proof. exact @ig_patched. Qed.
Print Assumptions c97_indexed_graph.

(** C97: the patched indexed dataset has the quads of the other, but need not find them
    as the other does: patterns can miss what they find there. *)
Theorem c97_queries : forall keep, exists ops xs b added d c q,
  id_reached Nat.compare keep [] ops xs b /\
  diff id_iter (id_contains Nat.compare) id_new b = Some ([], added) /\
  patch (id_insert Nat.compare keep) (id_remove Nat.compare) id_new [] added = Some (length added, d) /\
  id_iter d = id_iter b /\
  forall spare, id_pattern_matching Nat.compare b spare c = Some [q] /\
    id_pattern_matching Nat.compare d spare c = Some [].
Proof. exact patch_queries. Qed.
Print Assumptions c97_queries.

(** Two quads in common, one of each only. *)
Definition p_ops1 := [Insert (Quad 5 1 2 None); Insert (Quad 1 1 2 (Some 3)); Insert (Quad 0 4 4 None)].
Definition p_ops2 := [Insert (Quad 1 1 2 (Some 3)); Insert (Quad 7 7 7 None); Insert (Quad 6 6 6 None);
                      Remove (Quad 6 6 6 None); Insert (Quad 5 1 2 None)].
Example c97_ex : exists xs ys a b d d',
  run (bd_step Nat.compare true) bd_new p_ops1 = Some (xs, a) /\
  run (bd_step Nat.compare true) bd_new p_ops2 = Some (ys, b) /\
  diff bd_iter (bd_contains Nat.compare) a b = Some ([Quad 0 4 4 None], [Quad 7 7 7 None]) /\
  patch (bd_insert Nat.compare true) (bd_remove Nat.compare) a [Quad 0 4 4 None] [Quad 7 7 7 None] = Some (2, d) /\
  bd_iter d = Some [Quad 1 1 2 (Some 3); Quad 5 1 2 None; Quad 7 7 7 None] /\
  patch (bd_insert Nat.compare true) (bd_remove Nat.compare) d [Quad 7 7 7 None] [Quad 0 4 4 None] = Some (2, d') /\
  bd_iter d' = Some [Quad 0 4 4 None; Quad 1 1 2 (Some 3); Quad 5 1 2 None].
Proof. do 6 eexists. repeat (split; [vm_compute; reflexivity|]). vm_compute; reflexivity. Qed.
Example c97_indexed_ex : exists xs ys a b d,
  id_reached Nat.compare true [] (map IOp p_ops1) xs a /\ id_reached Nat.compare true [] (map IOp p_ops2) ys b /\
  diff id_iter (id_contains Nat.compare) a b = Some ([Quad 0 4 4 None], [Quad 7 7 7 None]) /\
  patch (id_insert Nat.compare true) (id_remove Nat.compare) a [Quad 0 4 4 None] [Quad 7 7 7 None] = Some (2, d) /\
  id_iter d = id_iter b.
Proof.
  do 5 eexists. split; [exists []; do 2 eexists; vm_compute; repeat split|].
  split; [exists []; do 2 eexists; vm_compute; repeat split|].
  repeat (split; [vm_compute; reflexivity|]). vm_compute; reflexivity.
Qed.
(** Triples, in both kinds of graph. *)
Definition p_ops3 := [Insert (Triple 1 1 2); Insert (Triple 0 4 4)].
Definition p_ops4 := [Insert (Triple 3 3 3); Insert (Triple 1 1 2)].
Example c97_graph_ex : exists xs ys zs a b,
  run (bg_step Nat.compare false) bg_new p_ops3 = Some (xs, a) /\
  run (bg_step Nat.compare false) bg_new p_ops4 = Some (ys, b) /\
  diff bg_iter (bg_contains Nat.compare) a b = Some ([Triple 0 4 4], zs) /\ zs = [Triple 3 3 3].
Proof. do 5 eexists. repeat (split; [vm_compute; reflexivity|]). reflexivity. Qed.
Example c97_indexed_graph_ex : exists a b,
  ig_reached Nat.compare false [] p_ops3 a /\ ig_reached Nat.compare false [] p_ops4 b /\
  diff ig_iter (ig_contains Nat.compare) a b = Some ([Triple 0 4 4], [Triple 3 3 3]).
Proof.
  do 2 eexists. split; [exists []; do 3 eexists; vm_compute; repeat split|].
  split; [exists []; do 3 eexists; vm_compute; repeat split|]. vm_compute; reflexivity.
Qed.
