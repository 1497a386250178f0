(** What the queries of an indexed container return after interruptions: only
    elements of a given list, or components of them. *)
From Coq Require Import List.
From Verif Require Import TripleModel CrashSpec IndexedDatasetModel IndexedGraphModel.

Section Spec.
  Context {R : Type} (cmp : R -> R -> comparison).

  (** The queries return, and no quad more often than it is in [all]. *)
  Definition id_queries_within (d : @idataset R) (all : list (quad R)) : Prop :=
    forall spare,
      (forall c, exists l, id_pattern_matching cmp d spare c = Some l /\ among l all) /\
      (forall c, exists l, id_multi_pattern_matching cmp d spare c = Some l /\ among l all) /\
      (exists l, id_subjects d = Some l /\ forall v, In v l -> exists q, In q all /\ q_s q = v) /\
      (exists l, id_predicates d = Some l /\ forall v, In v l -> exists q, In q all /\ q_p q = v) /\
      (exists l, id_objects d = Some l /\ forall v, In v l -> exists q, In q all /\ q_o q = v).

  Definition ig_queries_within (g : @igraph R) (all : list (triple R)) : Prop :=
    forall spare,
      (forall c, exists l, ig_pattern_matching cmp g spare c = Some l /\ among l all) /\
      (exists l, ig_subjects g = Some l /\ forall v, In v l -> exists t, In t all /\ t_s t = v) /\
      (exists l, ig_predicates g = Some l /\ forall v, In v l -> exists t, In t all /\ t_p t = v) /\
      (exists l, ig_objects g = Some l /\ forall v, In v l -> exists t, In t all /\ t_o t = v).
End Spec.
