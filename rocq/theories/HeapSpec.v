(** How much a container allocates, and the largest number of elements it ever
    held.  The bound says nothing of how slots are reused. *)
From Coq Require Import List Arith.
Import ListNotations.
From Verif Require Import SetSpec IndexedSpec.
From Verif Require Import SlabModel BResourceModel BTreeDatasetModel BTreeGraphModel.
From Verif Require Import IResourceModel IndexedDatasetModel IndexedGraphModel.

Section Peak.
  Context {X : Type} (cmp : X -> X -> comparison) (size : list X -> nat).

  (** The largest size of the set, from [s] and through the changes [l]. *)
  Fixpoint peak (s : list X) (l : list (change X)) : nat :=
    match l with
    | [] => size s
    | c :: r => max (size s) (peak (apply_change cmp s c) r)
    end.
End Peak.

(** The number of slots of a slab, vacant or not. *)
Definition slots {T} (s : slab T) : nat := length (ents s).

(** All the sets of indexes kept beside the resources. *)
Definition marks {R} (rs : slab (iresource R)) : nat :=
  list_sum (map (fun kx => length (ir_s (snd kx)) + length (ir_p (snd kx)) +
                           length (ir_o (snd kx)) + length (ir_g (snd kx))) (spairs rs)).

(** Everything a container keeps: the slots of its slabs and the items of its
    trees and sets. *)
Definition bd_memory {R} (d : @bdataset R) : nat :=
  slots (bd_quads d) + slots (bd_resources d) + length (bd_qi d) + length (bd_ri d).
Definition bg_memory {R} (g : @bgraph R) : nat :=
  slots (bg_triples g) + slots (bg_resources g) + length (bg_ti g) + length (bg_ri g).
Definition id_memory {R} (d : @idataset R) : nat :=
  slots (id_quads d) + slots (id_resources d) + marks (id_resources d) +
  length (id_qi d) + length (id_ri d) + length (id_s d) + length (id_p d) +
  length (id_o d) + length (id_dg d) + length (id_ng d).
Definition ig_memory {R} (g : @igraph R) : nat :=
  slots (ig_triples g) + slots (ig_resources g) + marks (ig_resources g) +
  length (ig_ti g) + length (ig_ri g) + length (ig_s g) + length (ig_p g) + length (ig_o g).

(** The number of components of the elements of a set. *)
Definition weight {X R} (comps : X -> list R) (s : list X) : nat :=
  list_sum (map (fun x => length (comps x)) s).
