(** The indexed containers as instances of the pattern matching traits
    (/repo/src/dataset/impl/indexed_btree_dataset.rs 613-630,
    /repo/src/dataset/graph/impl/indexed_btree_graph.rs 449-466): the iterator is
    the list of the items that remain to be returned.  The lists are those that
    IndexedDatasetModel.v and IndexedGraphModel.v compute; no call panics (C30,
    C33), the empty list in that case is a dummy.

    [contains_quad] of the first (627-629) and [contains_triple] of the second
    (463-465) are overridden by [contains]; the other methods are the provided
    ones. *)
From Coq Require Import List.
Import ListNotations.
From Verif Require Import Base TripleModel TriplePatternModel QuadPatternModel
  IndexedDatasetModel IndexedGraphModel.

Definition id_start {R} (cmp : R -> R -> comparison) (d : @idataset R) (spare : nat) (c : cqp R)
  : list (quad R) :=
  match id_pattern_matching cmp d spare c with Some l => l | None => [] end.
Definition ig_start {R} (cmp : R -> R -> comparison) (g : @igraph R) (spare : nat) (c : ctp R)
  : list (triple R) :=
  match ig_pattern_matching cmp g spare c with Some l => l | None => [] end.
