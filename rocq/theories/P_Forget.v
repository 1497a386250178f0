(** C100: removing all that mentions a resource. *)
From Coq Require Import List Arith.
Import ListNotations.
From Verif Require Import Base TripleModel TriplePatternModel QuadPatternModel SetSpec ContainerSpec IndexedSpec Machine
  IndexedDatasetModel IndexedGraphModel CopyModel ForgetModel ForgetProofs.

(** C100: on a copy made with [iter] and [collect] of any dataset, the program removes
    all the quads that mention the resource and no others, and reports how many they
    are. *)
Theorem c100_dataset_copy : forall R (cmp : R -> R -> comparison), ord_laws cmp ->
  forall keep ops0 ops xs d l spare r,
  id_reached cmp keep ops0 ops xs d -> id_iter d = Some l ->
  exists c n d' l', id_copy cmp keep d = Some c /\
    forget (fun d => id_pattern_matching cmp d spare) (id_insert cmp keep) (id_remove cmp) c (quad_mentions r) =
      Some (n, d') /\
    id_iter d' = Some l' /\ n + length l' = length l /\
    forall q, In q l' <-> In q l /\ ~ In r (quad_comps q).
Proof. exact @id_forget_copy. Qed.
Print Assumptions c100_dataset_copy.

(** C100: the same for graphs. *)
Theorem c100_graph_copy : forall R (cmp : R -> R -> comparison), ord_laws cmp ->
  forall keep ops0 ops g l spare r,
  ig_reached cmp keep ops0 ops g -> ig_iter g = Some l ->
  exists c n g' l', ig_copy cmp keep g = Some c /\
    forget (fun g => ig_pattern_matching cmp g spare) (ig_insert cmp keep) (ig_remove cmp) c (triple_mentions r) =
      Some (n, g') /\
    ig_iter g' = Some l' /\ n + length l' = length l /\
    forall t, In t l' <-> In t l /\ ~ In r (triple_comps t).
Proof. exact @ig_forget_copy. Qed.
Print Assumptions c100_graph_copy.

(** C100: on the dataset itself, whatever was done to it before, the program returns,
    removes no quad that does not mention the resource, and reports how many it
    removes. *)
Theorem c100_dataset : forall R (cmp : R -> R -> comparison), ord_laws cmp ->
  forall keep ops0 ops xs d l spare r,
  id_reached cmp keep ops0 ops xs d -> id_iter d = Some l ->
  exists n d' l',
    forget (fun d => id_pattern_matching cmp d spare) (id_insert cmp keep) (id_remove cmp) d (quad_mentions r) =
      Some (n, d') /\
    id_iter d' = Some l' /\ n + length l' = length l /\
    (forall q, In q l' -> In q l) /\ (forall q, In q l -> ~ In r (quad_comps q) -> In q l').
Proof. exact @id_forget. Qed.
Print Assumptions c100_dataset.

(** C100: the same for graphs. *)
Theorem c100_graph : forall R (cmp : R -> R -> comparison), ord_laws cmp ->
  forall keep ops0 ops g l spare r,
  ig_reached cmp keep ops0 ops g -> ig_iter g = Some l ->
  exists n g' l',
    forget (fun g => ig_pattern_matching cmp g spare) (ig_insert cmp keep) (ig_remove cmp) g (triple_mentions r) =
      Some (n, g') /\
    ig_iter g' = Some l' /\ n + length l' = length l /\
    (forall t, In t l' -> In t l) /\ (forall t, In t l -> ~ In r (triple_comps t) -> In t l').
Proof. exact @ig_forget. Qed.
Print Assumptions c100_graph.

(** C100: but quads that mention the resource can be left there: after a removal, those
    that do not have it as subject. *)
Theorem c100_dataset_left : forall keep, exists ops xs d r q,
  id_reached Nat.compare keep [] ops xs d /\ In r (quad_comps q) /\
  forall spare, exists d' l',
    forget (fun d => id_pattern_matching Nat.compare d spare) (id_insert Nat.compare keep) (id_remove Nat.compare) d
      (quad_mentions r) = Some (0, d') /\
    id_iter d' = Some l' /\ In q l'.
Proof.
  intros keep. exists [IOp (Extend [Quad 0 8 9 None; Quad 1 2 3 None]); IOp (Remove (Quad 0 8 9 None))].
  do 2 eexists. exists 2, (Quad 1 2 3 None).
  split; [exists []; do 2 eexists; destruct keep; vm_compute; repeat split|].
  split; [cbn; tauto|]. intros spare. do 2 eexists.
  split; [destruct keep; vm_compute; reflexivity|]. split; [destruct keep; vm_compute; reflexivity|]. now left.
Qed.
Print Assumptions c100_dataset_left.

(** C100: the same for graphs. *)
Theorem c100_graph_left : forall keep, exists ops g r t,
  ig_reached Nat.compare keep [] ops g /\ In r (triple_comps t) /\
  forall spare, exists g' l',
    forget (fun g => ig_pattern_matching Nat.compare g spare) (ig_insert Nat.compare keep) (ig_remove Nat.compare) g
      (triple_mentions r) = Some (0, g') /\
    ig_iter g' = Some l' /\ In t l'.
Proof.
  intros keep. exists [Extend [Triple 0 8 9; Triple 1 2 3]; Remove (Triple 0 8 9)].
  eexists. exists 2, (Triple 1 2 3).
  split; [exists []; do 3 eexists; destruct keep; vm_compute; repeat split|].
  split; [cbn; tauto|]. intros spare. do 2 eexists.
  split; [destruct keep; vm_compute; reflexivity|]. split; [destruct keep; vm_compute; reflexivity|]. now left.
Qed.
Print Assumptions c100_graph_left.

(** [<2>] is twice in the quad that brings it in, and in all positions of others; the
    copy has none of these quads any more. *)
Definition f_ops := [IOp (Extend [Quad 0 8 9 None; Quad 1 2 3 None; Quad 2 5 2 (Some 2); Quad 4 5 6 (Some 2);
                                  Quad 4 5 6 None; Quad 7 7 2 None]);
                     IOp (Remove (Quad 0 8 9 None)); IOp (Remove (Quad 1 2 3 None)); IOp (Insert (Quad 1 2 3 None))].
Example c100_dataset_ex : exists xs d c d',
  id_reached Nat.compare true [] f_ops xs d /\ id_copy Nat.compare true d = Some c /\
  forget (fun d => id_pattern_matching Nat.compare d 3) (id_insert Nat.compare true) (id_remove Nat.compare) c
    (quad_mentions 2) = Some (4, d') /\
  id_iter d' = Some [Quad 4 5 6 None].
Proof.
  do 4 eexists. split; [exists []; do 2 eexists; vm_compute; repeat split|].
  repeat (split; [vm_compute; reflexivity|]). vm_compute; reflexivity.
Qed.
Definition f_ops3 := [Extend [Triple 0 8 9; Triple 1 2 3; Triple 2 5 2; Triple 4 5 6]; Remove (Triple 0 8 9)].
Example c100_graph_ex : exists g c g',
  ig_reached Nat.compare false [] f_ops3 g /\ ig_copy Nat.compare false g = Some c /\
  forget (fun g => ig_pattern_matching Nat.compare g 0) (ig_insert Nat.compare false) (ig_remove Nat.compare) c
    (triple_mentions 2) = Some (2, g') /\
  ig_iter g' = Some [Triple 4 5 6].
Proof.
  do 3 eexists. split; [exists []; do 3 eexists; vm_compute; repeat split|].
  repeat (split; [vm_compute; reflexivity|]). vm_compute; reflexivity.
Qed.
