(** The counting methods of the traits, for the containers of the crate, and a graph
    seen as a dataset.

    ds = dataset/mod.rs, gr = dataset/graph/mod.rs.  The indexed containers override
    all but [quads_count] and [triples_count]: IndexedDatasetModel.v
    ([id_resource_count] and below) and IndexedGraphModel.v.  A panic is [None]. *)
From Coq Require Import List Arith.
Import ListNotations.
From Verif Require Import Base TripleModel SlabModel BResourceModel BTreeDatasetModel
  BTreeGraphModel IResourceModel IndexedDatasetModel IndexedGraphModel ConsumeModel.
Open Scope panic_scope.

(** std: [Iterator::count], which no iterator of the crate overrides: [next] is
    called until it returns [None].  Running out of [fuel] is [None] too; the
    theorems say that it does not. *)
Fixpoint count_calls {I X} (next : I -> option (option X * I)) (fuel n : nat) (i : I) : option nat :=
  match fuel with
  | 0 => None
  | S fuel =>
      '(x, i) <- next i ;;
      match x with Some _ => count_calls next fuel (S n) i | None => Some n end
  end.
Definition count_slots {X} (next : list nat -> option (option X * list nat)) (idx : list nat)
  : option nat := count_calls next (S (length idx)) 0 idx.

(** utils.rs 23-29 [TripleToQuadIterator::next]. *)
Definition quads_of_triples {I R} (next : I -> option (option (triple R) * I)) (i : I)
  : option (option (quad R) * I) :=
  '(t, i) <- next i ;; Some (option_map (fun t => into_quad t None) t, i).

Section Counts.
  Context {R : Type}.
  (** ds 39-41 [quads_count], 66-68 [resource_count]. *)
  Definition bd_quads_count (d : @bdataset R) : option nat := count_slots (bd_quads_next d) (bd_qi d).
  Definition bd_resource_count (d : @bdataset R) : option nat :=
    count_slots (bd_resources_next d) (bd_ri d).
  Definition id_quads_count (d : @idataset R) : option nat := count_slots (id_quads_next d) (id_qi d).
  (** gr 21-23 [triples_count], 33-35 [graph_resource_count]. *)
  Definition bg_triples_count (g : @bgraph R) : option nat :=
    count_slots (bg_triples_next g) (bg_ti g).
  Definition bg_resource_count (g : @bgraph R) : option nat :=
    count_slots (bg_resources_next g) (bg_ri g).
  Definition ig_triples_count (g : @igraph R) : option nat :=
    count_slots (ig_triples_next g) (ig_ti g).

  (** A graph as a dataset, ds 50-56: its quads, and [quads_count]; ds 77-83, 104-110,
      131-137, 158-164 [resources], [subjects], [predicates], [objects] and their
      counts are those of the graph; ds 185-191 there are no named graphs. *)
  Definition bg_quads_next (g : @bgraph R) := quads_of_triples (bg_triples_next g).
  Definition ig_quads_next (g : @igraph R) := quads_of_triples (ig_triples_next g).
  Definition bg_quads_count (g : @bgraph R) : option nat := bg_triples_count g.
  Definition ig_quads_count (g : @igraph R) : option nat := ig_triples_count g.
End Counts.
