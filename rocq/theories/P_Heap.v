(** Property C66: what a container allocates is bounded by the most it ever held.

    [peak cmp size [] l] (HeapSpec.v) is the largest [size] the set had through
    the changes [l]; [weight comps s] counts the components of the elements of [s];
    [slots] are the entries of a slab, vacant or not; [..._memory] adds up all that
    a container keeps. *)
From Coq Require Import List Arith Bool Lia.
Import ListNotations.
From Verif Require Import Base SlabModel TripleModel SetSpec ContainerSpec IndexedSpec Machine
  BResourceModel BTreeDatasetModel BTreeGraphModel IResourceModel IndexedDatasetModel
  IndexedGraphModel BaseProofs HeapSpec HeapProofs HeapBoundProofs.

(** ** [BTreeDataset] *)

Theorem c66_btree_dataset_slots : forall {R} {cmp : R -> R -> comparison}, ord_laws cmp ->
  forall keep ops xs (d : @bdataset R),
  run (bd_step cmp keep) bd_new ops = Some (xs, d) ->
  slots (bd_quads d) = peak (quad_cmp cmp) (@length (quad R)) [] (set_log (quad_cmp cmp) [] ops) /\
  slots (bd_resources d) <=
    peak (quad_cmp cmp) (weight (@quad_comps R)) [] (set_log (quad_cmp cmp) [] ops) /\
  length (bd_qi d) = length (spec_set (quad_cmp cmp) ops) /\
  slen (bd_resources d) <= weight (@quad_comps R) (spec_set (quad_cmp cmp) ops) /\
  length (bd_ri d) <= slen (bd_resources d).
Proof. exact @bd_heap. Qed.
Print Assumptions c66_btree_dataset_slots.

Theorem c66_btree_dataset_memory : forall {R} {cmp : R -> R -> comparison}, ord_laws cmp ->
  forall keep ops xs (d : @bdataset R) N,
  run (bd_step cmp keep) bd_new ops = Some (xs, d) ->
  (forall k, length (spec_set (quad_cmp cmp) (firstn k ops)) <= N) -> bd_memory d <= 10 * N.
Proof. exact @bd_memory_bounded. Qed.
Print Assumptions c66_btree_dataset_memory.

(** Six quads come and go, never more than two at once; the resource 5 is repeated. *)
Definition heap_quad (n : nat) : quad nat := Quad n 5 5 (Some (S n)).
Definition heap_ops : list (op (quad nat)) :=
  flat_map (fun n => [Insert (heap_quad n); Insert (heap_quad (n + 20));
                      Remove (heap_quad n); Remove (heap_quad (n + 20))]) [10; 11; 12; 13; 14; 15]
  ++ [Extend [heap_quad 30; heap_quad 30]].

Example c66_ex_btree_dataset : exists xs d,
  run (bd_step Nat.compare true) bd_new heap_ops = Some (xs, d) /\
  slots (bd_quads d) = 2 /\ slots (bd_resources d) = 6 /\ slen (bd_resources d) = 4 /\
  bd_memory d = 12.
Proof. do 2 eexists; (split; [vm_compute; reflexivity|]); vm_compute; auto. Qed.

Example c66_ex_prefixes : forall k, length (spec_set (quad_cmp Nat.compare) (firstn k heap_ops)) <= 2.
Proof.
  intros k; do 25 (destruct k as [|k]; [vm_compute; lia|]); rewrite firstn_all2 by (cbn; lia).
  vm_compute; lia.
Qed.

(** ** [BTreeGraph] *)

Theorem c66_btree_graph_slots : forall {R} {cmp : R -> R -> comparison}, ord_laws cmp ->
  forall keep ops xs (g : @bgraph R),
  run (bg_step cmp keep) bg_new ops = Some (xs, g) ->
  slots (bg_triples g) = peak (triple_cmp cmp) (@length (triple R)) [] (set_log (triple_cmp cmp) [] ops) /\
  slots (bg_resources g) <=
    peak (triple_cmp cmp) (weight (@triple_comps R)) [] (set_log (triple_cmp cmp) [] ops) /\
  length (bg_ti g) = length (spec_set (triple_cmp cmp) ops) /\
  slen (bg_resources g) <= weight (@triple_comps R) (spec_set (triple_cmp cmp) ops) /\
  length (bg_ri g) <= slen (bg_resources g).
Proof. exact @bg_heap. Qed.
Print Assumptions c66_btree_graph_slots.

Theorem c66_btree_graph_memory : forall {R} {cmp : R -> R -> comparison}, ord_laws cmp ->
  forall keep ops xs (g : @bgraph R) N,
  run (bg_step cmp keep) bg_new ops = Some (xs, g) ->
  (forall k, length (spec_set (triple_cmp cmp) (firstn k ops)) <= N) -> bg_memory g <= 8 * N.
Proof. exact @bg_memory_bounded. Qed.
Print Assumptions c66_btree_graph_memory.

Definition heap_triple (n : nat) : triple nat := Triple n n (S n).
Definition heap_tops : list (op (triple nat)) :=
  flat_map (fun n => [Insert (heap_triple n); Remove (heap_triple n)]) [10; 11; 12; 13]
  ++ [Insert (heap_triple 20)].

Example c66_ex_btree_graph : exists xs g,
  run (bg_step Nat.compare true) bg_new heap_tops = Some (xs, g) /\
  slots (bg_triples g) = 1 /\ slots (bg_resources g) = 3 /\ bg_memory g <= 8 * 1 /\
  forall k, length (spec_set (triple_cmp Nat.compare) (firstn k heap_tops)) <= 1.
Proof.
  do 2 eexists; (split; [vm_compute; reflexivity|]).
  split; [vm_compute; reflexivity|]; split; [vm_compute; reflexivity|]; split; [vm_compute; lia|].
  intros k; do 9 (destruct k as [|k]; [vm_compute; lia|]); rewrite firstn_all2 by (cbn; lia).
  vm_compute; lia.
Qed.

(** ** [IndexedBTreeDataset] *)

Theorem c66_indexed_dataset_slots : forall {R} {cmp : R -> R -> comparison}, ord_laws cmp ->
  forall keep ops0 ops xs (d : @idataset R),
  id_reached cmp keep ops0 ops xs d ->
  let l := full_log cmp ops0 ops xs in
  let s := final_set cmp ops0 ops xs in
  slots (id_quads d) = peak (quad_cmp cmp) (@length (quad R)) [] l /\
  slots (id_resources d) <= peak (quad_cmp cmp) (weight (@quad_comps R)) [] l /\
  length (id_qi d) = length s /\
  slen (id_resources d) <= weight (@quad_comps R) s /\ length (id_ri d) <= slen (id_resources d) /\
  marks (id_resources d) <= weight (@quad_comps R) s /\
  length (id_s d) <= length s /\ length (id_p d) <= length s /\ length (id_o d) <= length s /\
  length (id_dg d) <= length s /\ length (id_ng d) <= slots (id_resources d).
Proof. exact @id_heap. Qed.
Print Assumptions c66_indexed_dataset_slots.

Theorem c66_indexed_dataset_memory : forall {R} {cmp : R -> R -> comparison}, ord_laws cmp ->
  forall keep ops0 ops xs (d : @idataset R),
  id_reached cmp keep ops0 ops xs d ->
  id_memory d <= 22 * peak (quad_cmp cmp) (@length (quad R)) [] (full_log cmp ops0 ops xs).
Proof. exact @id_memory_le. Qed.
Print Assumptions c66_indexed_dataset_memory.

(** Nothing is kept but vacant slots, and maybe names of graphs. *)
Theorem c66_indexed_dataset_emptied : forall {R} {cmp : R -> R -> comparison}, ord_laws cmp ->
  forall keep ops0 ops xs (d : @idataset R),
  id_reached cmp keep ops0 ops xs d -> final_set cmp ops0 ops xs = [] ->
  slen (id_quads d) = 0 /\ slen (id_resources d) = 0 /\ marks (id_resources d) = 0 /\
  id_qi d = [] /\ id_ri d = [] /\ id_s d = [] /\ id_p d = [] /\ id_o d = [] /\ id_dg d = [].
Proof. exact @id_emptied. Qed.
Print Assumptions c66_indexed_dataset_emptied.

Example c66_ex_indexed_dataset : exists xs d,
  id_reached Nat.compare true heap_ops
    [IOp (Remove (heap_quad 30)); IOp (Insert (heap_quad 40)); IOp (Insert (heap_quad 41));
     IRemoveGraph (Some 41); IOp (Remove (heap_quad 41))] xs d /\
  slots (id_quads d) = 2 /\ slots (id_resources d) <= 6 /\
  final_set Nat.compare heap_ops
    [IOp (Remove (heap_quad 30)); IOp (Insert (heap_quad 40)); IOp (Insert (heap_quad 41));
     IRemoveGraph (Some 41); IOp (Remove (heap_quad 41))] xs = [] /\
  peak (quad_cmp Nat.compare) (@length (quad nat)) [] (full_log Nat.compare heap_ops
    [IOp (Remove (heap_quad 30)); IOp (Insert (heap_quad 40)); IOp (Insert (heap_quad 41));
     IRemoveGraph (Some 41); IOp (Remove (heap_quad 41))] xs) = 2.
Proof.
  do 2 eexists; split.
  { do 3 eexists; split; [vm_compute; reflexivity|]; split; vm_compute; reflexivity. }
  split; [vm_compute; reflexivity|]; split; [vm_compute; lia|]; split; vm_compute; reflexivity.
Qed.

(** A name of a graph may be kept by an empty dataset. *)
Example c66_ex_kept_name : exists xs d,
  id_reached Nat.compare true []
    [IOp (Insert (Quad 1 2 3 (Some 4))); IOp (Insert (Quad 4 2 3 None));
     IOp (Remove (Quad 1 2 3 (Some 4))); IOp (Remove (Quad 4 2 3 None))] xs d /\
  slen (id_quads d) = 0 /\ id_ng d = [3].
Proof.
  do 2 eexists; split.
  { do 3 eexists; split; [vm_compute; reflexivity|]; split; vm_compute; reflexivity. }
  split; vm_compute; reflexivity.
Qed.

(** ** [IndexedBTreeGraph] *)

Theorem c66_indexed_graph_slots : forall {R} {cmp : R -> R -> comparison}, ord_laws cmp ->
  forall keep ops0 ops (g : @igraph R),
  ig_reached cmp keep ops0 ops g ->
  let l := set_log (triple_cmp cmp) [] (ops0 ++ ops) in
  let s := spec_set (triple_cmp cmp) (ops0 ++ ops) in
  slots (ig_triples g) = peak (triple_cmp cmp) (@length (triple R)) [] l /\
  slots (ig_resources g) <= peak (triple_cmp cmp) (weight (@triple_comps R)) [] l /\
  length (ig_ti g) = length s /\
  slen (ig_resources g) <= weight (@triple_comps R) s /\ length (ig_ri g) <= slen (ig_resources g) /\
  marks (ig_resources g) <= weight (@triple_comps R) s /\
  length (ig_s g) <= length s /\ length (ig_p g) <= length s /\ length (ig_o g) <= length s.
Proof. exact @ig_heap. Qed.
Print Assumptions c66_indexed_graph_slots.

Theorem c66_indexed_graph_memory : forall {R} {cmp : R -> R -> comparison}, ord_laws cmp ->
  forall keep ops0 ops (g : @igraph R) N,
  ig_reached cmp keep ops0 ops g ->
  (forall k, length (spec_set (triple_cmp cmp) (firstn k (ops0 ++ ops))) <= N) ->
  ig_memory g <= 14 * N.
Proof. exact @ig_memory_bounded. Qed.
Print Assumptions c66_indexed_graph_memory.

Example c66_ex_indexed_graph : exists g,
  ig_reached Nat.compare true heap_tops [Remove (heap_triple 20); Insert (heap_triple 21)] g /\
  slots (ig_triples g) = 1 /\ slots (ig_resources g) = 3 /\ marks (ig_resources g) = 3 /\
  ig_memory g = 13.
Proof.
  eexists; split.
  { do 4 eexists; split; [vm_compute; reflexivity|]; split; vm_compute; reflexivity. }
  repeat split; vm_compute; reflexivity.
Qed.
