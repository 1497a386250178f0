(** C99: bringing together two versions of a container. *)
From Coq Require Import List Arith.
Import ListNotations.
From Verif Require Import Base TripleModel QuadPatternModel SetSpec ContainerSpec IndexedSpec Machine
  BTreeDatasetModel BTreeGraphModel IndexedDatasetModel IndexedGraphModel PatchModel PullModel PullProofs.

(** C99: pulling the changes that lead from [b] to [y] into [x] leaves what both
    versions have, and what at least one has and the base has not.  The number of
    changes reported is that of the elements in which [x] and the result differ.
    Pulling the other way gives the same elements; pulling again changes nothing. *)
Theorem c99_dataset : forall R (cmp : R -> R -> comparison), ord_laws cmp ->
  forall keep ops0 ws b lb ops1 xs x lx ops2 ys y ly,
  let pull := pull bd_iter (bd_contains cmp) (bd_insert cmp keep) (bd_remove cmp) in
  run (bd_step cmp keep) bd_new ops0 = Some (ws, b) -> bd_iter b = Some lb ->
  run (bd_step cmp keep) bd_new ops1 = Some (xs, x) -> bd_iter x = Some lx ->
  run (bd_step cmp keep) bd_new ops2 = Some (ys, y) -> bd_iter y = Some ly ->
  exists n m lm, pull b x y = Some (n, m) /\ bd_iter m = Some lm /\
    (forall q, In q lm <-> In q lx /\ In q ly \/ ~ In q lb /\ (In q lx \/ In q ly)) /\
    (exists gone new, diff bd_iter (bd_contains cmp) x m = Some (gone, new) /\ n = length gone + length new) /\
    (exists n' m', pull b y x = Some (n', m') /\ bd_iter m' = Some lm) /\
    (exists m', pull b m y = Some (0, m') /\ bd_iter m' = Some lm).
Proof. exact @bd_pulled. Qed.
Print Assumptions c99_dataset.

(** C99: the same for graphs. *)
Theorem c99_graph : forall R (cmp : R -> R -> comparison), ord_laws cmp ->
  forall keep ops0 ws b lb ops1 xs x lx ops2 ys y ly,
  let pull := pull bg_iter (bg_contains cmp) (bg_insert cmp keep) (bg_remove cmp) in
  run (bg_step cmp keep) bg_new ops0 = Some (ws, b) -> bg_iter b = Some lb ->
  run (bg_step cmp keep) bg_new ops1 = Some (xs, x) -> bg_iter x = Some lx ->
  run (bg_step cmp keep) bg_new ops2 = Some (ys, y) -> bg_iter y = Some ly ->
  exists n m lm, pull b x y = Some (n, m) /\ bg_iter m = Some lm /\
    (forall q, In q lm <-> In q lx /\ In q ly \/ ~ In q lb /\ (In q lx \/ In q ly)) /\
    (exists gone new, diff bg_iter (bg_contains cmp) x m = Some (gone, new) /\ n = length gone + length new) /\
    (exists n' m', pull b y x = Some (n', m') /\ bg_iter m' = Some lm) /\
    (exists m', pull b m y = Some (0, m') /\ bg_iter m' = Some lm).
Proof. exact @bg_pulled. Qed.
Print Assumptions c99_graph.

(** C99: the same for indexed datasets. *)
Theorem c99_indexed_dataset : forall R (cmp : R -> R -> comparison), ord_laws cmp ->
  forall keep ops00 ops0 ws b lb ops01 ops1 xs x lx ops02 ops2 ys y ly,
  let pull := pull id_iter (id_contains cmp) (id_insert cmp keep) (id_remove cmp) in
  id_reached cmp keep ops00 ops0 ws b -> id_iter b = Some lb ->
  id_reached cmp keep ops01 ops1 xs x -> id_iter x = Some lx ->
  id_reached cmp keep ops02 ops2 ys y -> id_iter y = Some ly ->
  exists n m lm, pull b x y = Some (n, m) /\ id_iter m = Some lm /\
    (forall q, In q lm <-> In q lx /\ In q ly \/ ~ In q lb /\ (In q lx \/ In q ly)) /\
    (exists gone new, diff id_iter (id_contains cmp) x m = Some (gone, new) /\ n = length gone + length new) /\
    (exists n' m', pull b y x = Some (n', m') /\ id_iter m' = Some lm) /\
    (exists m', pull b m y = Some (0, m') /\ id_iter m' = Some lm).
Proof. exact @id_pulled. Qed.
Print Assumptions c99_indexed_dataset.

(** C99: the same for indexed graphs. *)
Theorem c99_indexed_graph : forall R (cmp : R -> R -> comparison), ord_laws cmp ->
  forall keep ops00 ops0 b lb ops01 ops1 x lx ops02 ops2 y ly,
  let pull := pull ig_iter (ig_contains cmp) (ig_insert cmp keep) (ig_remove cmp) in
  ig_reached cmp keep ops00 ops0 b -> ig_iter b = Some lb ->
  ig_reached cmp keep ops01 ops1 x -> ig_iter x = Some lx ->
  ig_reached cmp keep ops02 ops2 y -> ig_iter y = Some ly ->
  exists n m lm, pull b x y = Some (n, m) /\ ig_iter m = Some lm /\
    (forall q, In q lm <-> In q lx /\ In q ly \/ ~ In q lb /\ (In q lx \/ In q ly)) /\
    (exists gone new, diff ig_iter (ig_contains cmp) x m = Some (gone, new) /\ n = length gone + length new) /\
    (exists n' m', pull b y x = Some (n', m') /\ ig_iter m' = Some lm) /\
    (exists m', pull b m y = Some (0, m') /\ ig_iter m' = Some lm).
Proof. exact @ig_pulled. Qed.
Print Assumptions c99_indexed_graph.

(** C99: the changes of any number of versions.  What the base has is left if no version
    has removed it, and what it has not is there if some version has added it.  The
    order in which the versions come is immaterial, and so is how often. *)
Theorem c99_versions_dataset : forall R (cmp : R -> R -> comparison), ord_laws cmp ->
  forall keep ops0 ws b lb ops1 xs x lx vs,
  let pull_all := pull_all bd_iter (bd_contains cmp) (bd_insert cmp keep) (bd_remove cmp) in
  let has y q := exists l, bd_iter y = Some l /\ In q l in
  run (bd_step cmp keep) bd_new ops0 = Some (ws, b) -> bd_iter b = Some lb ->
  run (bd_step cmp keep) bd_new ops1 = Some (xs, x) -> bd_iter x = Some lx ->
  Forall (fun y => exists ops ys, run (bd_step cmp keep) bd_new ops = Some (ys, y)) vs ->
  exists m lm, pull_all b vs x = Some m /\ bd_iter m = Some lm /\
    (forall q, In q lm <-> In q lb /\ In q lx /\ (forall y, In y vs -> has y q) \/
                           ~ In q lb /\ (In q lx \/ exists y, In y vs /\ has y q)) /\
    (forall vs', (forall y, In y vs' <-> In y vs) ->
       exists m', pull_all b vs' x = Some m' /\ bd_iter m' = Some lm).
Proof. exact @bd_pulled_all. Qed.
Print Assumptions c99_versions_dataset.

(** C99: the same for graphs. *)
Theorem c99_versions_graph : forall R (cmp : R -> R -> comparison), ord_laws cmp ->
  forall keep ops0 ws b lb ops1 xs x lx vs,
  let pull_all := pull_all bg_iter (bg_contains cmp) (bg_insert cmp keep) (bg_remove cmp) in
  let has y q := exists l, bg_iter y = Some l /\ In q l in
  run (bg_step cmp keep) bg_new ops0 = Some (ws, b) -> bg_iter b = Some lb ->
  run (bg_step cmp keep) bg_new ops1 = Some (xs, x) -> bg_iter x = Some lx ->
  Forall (fun y => exists ops ys, run (bg_step cmp keep) bg_new ops = Some (ys, y)) vs ->
  exists m lm, pull_all b vs x = Some m /\ bg_iter m = Some lm /\
    (forall q, In q lm <-> In q lb /\ In q lx /\ (forall y, In y vs -> has y q) \/
                           ~ In q lb /\ (In q lx \/ exists y, In y vs /\ has y q)) /\
    (forall vs', (forall y, In y vs' <-> In y vs) ->
       exists m', pull_all b vs' x = Some m' /\ bg_iter m' = Some lm).
Proof. exact @bg_pulled_all. Qed.
Print Assumptions c99_versions_graph.

(** C99: the same for indexed datasets. *)
Theorem c99_versions_indexed_dataset : forall R (cmp : R -> R -> comparison), ord_laws cmp ->
  forall keep ops00 ops0 ws b lb ops01 ops1 xs x lx vs,
  let pull_all := pull_all id_iter (id_contains cmp) (id_insert cmp keep) (id_remove cmp) in
  let has y q := exists l, id_iter y = Some l /\ In q l in
  id_reached cmp keep ops00 ops0 ws b -> id_iter b = Some lb ->
  id_reached cmp keep ops01 ops1 xs x -> id_iter x = Some lx ->
  Forall (fun y => exists ops0 ops ys, id_reached cmp keep ops0 ops ys y) vs ->
  exists m lm, pull_all b vs x = Some m /\ id_iter m = Some lm /\
    (forall q, In q lm <-> In q lb /\ In q lx /\ (forall y, In y vs -> has y q) \/
                           ~ In q lb /\ (In q lx \/ exists y, In y vs /\ has y q)) /\
    (forall vs', (forall y, In y vs' <-> In y vs) ->
       exists m', pull_all b vs' x = Some m' /\ id_iter m' = Some lm).
Proof. exact @id_pulled_all. Qed.
Print Assumptions c99_versions_indexed_dataset.

(** C99: the same for indexed graphs. *)
Theorem c99_versions_indexed_graph : forall R (cmp : R -> R -> comparison), ord_laws cmp ->
  forall keep ops00 ops0 b lb ops01 ops1 x lx vs,
  let pull_all := pull_all ig_iter (ig_contains cmp) (ig_insert cmp keep) (ig_remove cmp) in
  let has y q := exists l, ig_iter y = Some l /\ In q l in
  ig_reached cmp keep ops00 ops0 b -> ig_iter b = Some lb ->
  ig_reached cmp keep ops01 ops1 x -> ig_iter x = Some lx ->
  Forall (fun y => exists ops0 ops, ig_reached cmp keep ops0 ops y) vs ->
  exists m lm, pull_all b vs x = Some m /\ ig_iter m = Some lm /\
    (forall q, In q lm <-> In q lb /\ In q lx /\ (forall y, In y vs -> has y q) \/
                           ~ In q lb /\ (In q lx \/ exists y, In y vs /\ has y q)) /\
    (forall vs', (forall y, In y vs' <-> In y vs) ->
       exists m', pull_all b vs' x = Some m' /\ ig_iter m' = Some lm).
Proof. exact @ig_pulled_all. Qed.
Print Assumptions c99_versions_indexed_graph.

(** C99: two indexed datasets that pull the changes of each other have the same quads,
    but patterns can find in one what they miss in the other. *)
Theorem c99_queries : forall keep, exists ops xs x n m n' m' c q,
  let pull := pull id_iter (id_contains Nat.compare) (id_insert Nat.compare keep) (id_remove Nat.compare) in
  id_reached Nat.compare keep [] ops xs x /\
  pull id_new x id_new = Some (n, m) /\ pull id_new id_new x = Some (n', m') /\ id_iter m = id_iter m' /\
  forall spare, id_pattern_matching Nat.compare m spare c = Some [q] /\
    id_pattern_matching Nat.compare m' spare c = Some [].
Proof. exact pull_queries. Qed.
Print Assumptions c99_queries.

(** The base, and two versions of it.  Both remove the first quad and add the last; each
    makes another change besides. *)
Definition m_base := [Insert (Quad 0 4 4 None); Insert (Quad 1 1 2 (Some 3)); Insert (Quad 5 1 2 None);
                      Insert (Quad 6 6 6 None)].
Definition m_mine := m_base ++ [Remove (Quad 0 4 4 None); Remove (Quad 5 1 2 None); Insert (Quad 9 9 9 None)].
Definition m_theirs := m_base ++ [Insert (Quad 9 9 9 None); Insert (Quad 7 7 7 (Some 3)); Remove (Quad 0 4 4 None)].
Definition m_result := [Quad 1 1 2 (Some 3); Quad 6 6 6 None; Quad 7 7 7 (Some 3); Quad 9 9 9 None].
Example c99_dataset_ex : exists ws xs ys b x y m m' m'',
  let pull := pull bd_iter (bd_contains Nat.compare) (bd_insert Nat.compare true) (bd_remove Nat.compare) in
  run (bd_step Nat.compare true) bd_new m_base = Some (ws, b) /\
  run (bd_step Nat.compare true) bd_new m_mine = Some (xs, x) /\
  run (bd_step Nat.compare true) bd_new m_theirs = Some (ys, y) /\
  pull b x y = Some (1, m) /\ bd_iter m = Some (m_result) /\
  pull b y x = Some (1, m') /\ bd_iter m' = Some (m_result) /\
  pull b m y = Some (0, m'') /\ bd_iter m'' = Some (m_result).
Proof. do 9 eexists. repeat (split; [vm_compute; reflexivity|]). vm_compute; reflexivity. Qed.
Example c99_indexed_ex : exists ws xs ys b x y m,
  id_reached Nat.compare true [] (map IOp m_base) ws b /\
  id_reached Nat.compare true [] (map IOp m_mine) xs x /\
  id_reached Nat.compare true [] (map IOp m_theirs) ys y /\
  pull id_iter (id_contains Nat.compare) (id_insert Nat.compare true) (id_remove Nat.compare) b x y = Some (1, m) /\
  id_iter m = Some (m_result).
Proof.
  do 7 eexists. do 3 (split; [exists []; do 2 eexists; vm_compute; repeat split|]).
  split; vm_compute; reflexivity.
Qed.
(** Triples, in both kinds of graph. *)
Definition m_base3 := [Insert (Triple 1 1 2); Insert (Triple 0 4 4)].
Definition m_mine3 := m_base3 ++ [Insert (Triple 2 2 2)].
Definition m_theirs3 := m_base3 ++ [Remove (Triple 0 4 4); Insert (Triple 3 3 3)].
Example c99_graph_ex : exists ws xs ys b x y m,
  run (bg_step Nat.compare false) bg_new m_base3 = Some (ws, b) /\
  run (bg_step Nat.compare false) bg_new m_mine3 = Some (xs, x) /\
  run (bg_step Nat.compare false) bg_new m_theirs3 = Some (ys, y) /\
  pull bg_iter (bg_contains Nat.compare) (bg_insert Nat.compare false) (bg_remove Nat.compare) b x y = Some (2, m) /\
  bg_iter m = Some [Triple 1 1 2; Triple 2 2 2; Triple 3 3 3].
Proof. do 7 eexists. repeat (split; [vm_compute; reflexivity|]). vm_compute; reflexivity. Qed.
Example c99_indexed_graph_ex : exists b x y m,
  ig_reached Nat.compare false [] m_base3 b /\ ig_reached Nat.compare false [] m_mine3 x /\
  ig_reached Nat.compare false [] m_theirs3 y /\
  pull ig_iter (ig_contains Nat.compare) (ig_insert Nat.compare false) (ig_remove Nat.compare) b x y = Some (2, m) /\
  ig_iter m = Some [Triple 1 1 2; Triple 2 2 2; Triple 3 3 3].
Proof.
  do 4 eexists. do 3 (split; [exists []; do 3 eexists; vm_compute; repeat split|]).
  split; vm_compute; reflexivity.
Qed.

(** Three versions, in two orders. *)
Definition m_third := m_base ++ [Remove (Quad 6 6 6 None); Insert (Quad 8 8 8 None)].
Definition m_all := [Quad 1 1 2 (Some 3); Quad 7 7 7 (Some 3); Quad 8 8 8 None; Quad 9 9 9 None].
Example c99_versions_ex : exists ws xs ys zs b x y z m m',
  let pull_all := pull_all bd_iter (bd_contains Nat.compare) (bd_insert Nat.compare true) (bd_remove Nat.compare) in
  run (bd_step Nat.compare true) bd_new m_base = Some (ws, b) /\
  run (bd_step Nat.compare true) bd_new m_mine = Some (xs, x) /\
  run (bd_step Nat.compare true) bd_new m_theirs = Some (ys, y) /\
  run (bd_step Nat.compare true) bd_new m_third = Some (zs, z) /\
  pull_all b [y; z] x = Some m /\ bd_iter m = Some (m_all) /\
  pull_all b [z; y; z] x = Some m' /\ bd_iter m' = Some (m_all).
Proof. do 10 eexists. repeat (split; [vm_compute; reflexivity|]). vm_compute; reflexivity. Qed.
Example c99_versions_indexed_ex : exists ws xs ys zs b x y z m,
  id_reached Nat.compare true [] (map IOp m_base) ws b /\
  id_reached Nat.compare true [] (map IOp m_mine) xs x /\
  id_reached Nat.compare true [] (map IOp m_theirs) ys y /\
  id_reached Nat.compare true [] (map IOp m_third) zs z /\
  pull_all id_iter (id_contains Nat.compare) (id_insert Nat.compare true) (id_remove Nat.compare) b [z; y] x = Some m /\
  id_iter m = Some (m_all).
Proof.
  do 9 eexists. do 4 (split; [exists []; do 2 eexists; vm_compute; repeat split|]).
  split; vm_compute; reflexivity.
Qed.
Definition m_third3 := m_base3 ++ [Remove (Triple 1 1 2); Insert (Triple 3 3 3)].
Example c99_versions_graph_ex : exists ws xs ys zs b x y z m,
  run (bg_step Nat.compare false) bg_new m_base3 = Some (ws, b) /\
  run (bg_step Nat.compare false) bg_new m_mine3 = Some (xs, x) /\
  run (bg_step Nat.compare false) bg_new m_theirs3 = Some (ys, y) /\
  run (bg_step Nat.compare false) bg_new m_third3 = Some (zs, z) /\
  pull_all bg_iter (bg_contains Nat.compare) (bg_insert Nat.compare false) (bg_remove Nat.compare) b [y; z] x = Some m /\
  bg_iter m = Some [Triple 2 2 2; Triple 3 3 3].
Proof. do 9 eexists. repeat (split; [vm_compute; reflexivity|]). vm_compute; reflexivity. Qed.
Example c99_versions_indexed_graph_ex : exists b x y z m,
  ig_reached Nat.compare false [] m_base3 b /\ ig_reached Nat.compare false [] m_mine3 x /\
  ig_reached Nat.compare false [] m_theirs3 y /\ ig_reached Nat.compare false [] m_third3 z /\
  pull_all ig_iter (ig_contains Nat.compare) (ig_insert Nat.compare false) (ig_remove Nat.compare) b [y; z] x = Some m /\
  ig_iter m = Some [Triple 2 2 2; Triple 3 3 3].
Proof.
  do 5 eexists. do 4 (split; [exists []; do 3 eexists; vm_compute; repeat split|]).
  split; vm_compute; reflexivity.
Qed.
