(** A program that copies an indexed container with the functions of the crate:
      fn copy(d: &IndexedBTreeDataset<R>) -> IndexedBTreeDataset<R> {
          d.iter().map(|q| q.map(R::clone)).collect()
      }
    and the same for graphs.  [Clone] is supposed to return an equal value, as in
    the other models.  The functions of the crate are those of the other models. *)
From Coq Require Import List.
From Verif Require Import Base TripleModel IndexedDatasetModel IndexedGraphModel.

Section Copy.
  Context {R : Type} (cmp : R -> R -> comparison) (keep : bool).

  (** /repo/src/dataset/impl/indexed_btree_dataset.rs 167-173 [iter], 497-503
      [from_iter]. *)
  Definition id_copy (d : @idataset R) : option (@idataset R) :=
    match id_iter d with Some l => id_from_iter cmp keep l | None => None end.

  (** /repo/src/dataset/graph/impl/indexed_btree_graph.rs: [iter], [from_iter], as in
      [IndexedGraphModel]. *)
  Definition ig_copy (g : @igraph R) : option (@igraph R) :=
    match ig_iter g with Some l => ig_from_iter cmp keep l | None => None end.
End Copy.
