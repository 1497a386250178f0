(** The text of the containers: one line per element, in the order of iteration.
    [None] is a panic of the iteration. *)
From Coq Require Import List.
From Verif Require Import Base TextModel TripleModel DisplayModel BTreeDatasetModel BTreeGraphModel
  IndexedDatasetModel IndexedGraphModel.

Section Text.
  Context {R : Type} (show : fspec -> R -> text).

  (** /repo/src/dataset/impl/btree_dataset.rs 446-454 *)
  Definition bd_rdf_fmt (d : @bdataset R) : option text :=
    bind (bd_iter d) (fun l => Some (quads_rdf_fmt show l)).
  (** /repo/src/dataset/impl/indexed_btree_dataset.rs 1407-1415 *)
  Definition id_rdf_fmt (d : @idataset R) : option text :=
    bind (id_iter d) (fun l => Some (quads_rdf_fmt show l)).
  (** /repo/src/dataset/graph/impl/btree_graph.rs 420-428 *)
  Definition bg_rdf_fmt (g : @bgraph R) : option text :=
    bind (bg_iter g) (fun l => Some (triples_rdf_fmt show l)).
  (** /repo/src/dataset/graph/impl/indexed_btree_graph.rs 826-834 *)
  Definition ig_rdf_fmt (g : @igraph R) : option text :=
    bind (ig_iter g) (fun l => Some (triples_rdf_fmt show l)).
End Text.
