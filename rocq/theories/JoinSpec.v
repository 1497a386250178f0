(** Solutions of several triple patterns together. *)
From Coq Require Import List.
Import ListNotations.
From Verif Require Import TripleModel TriplePatternModel ContainerSpec PatternSpec.

Section Spec.
  Context {R X : Type}.

  (** An assignment of resources to variables solves the patterns in a set of
      triples. *)
  Definition solves (s : list (triple R)) (ps : list (triple_pattern R X)) (a : X -> R) : Prop :=
    forall p, In p ps -> In (Triple (assigned a (t_s p)) (assigned a (t_p p)) (assigned a (t_o p))) s.

  (** [x] is a variable of the patterns. *)
  Definition variable_of (ps : list (triple_pattern R X)) (x : X) : Prop :=
    exists p, In p ps /\ In (Var x) (triple_comps p).

  (** The subject of each pattern is a resource, or a variable that is known or
      occurs in an earlier pattern. *)
  Fixpoint anchored (known : X -> Prop) (ps : list (triple_pattern R X)) : Prop :=
    match ps with
    | [] => True
    | p :: ps =>
        match t_s p with Res _ => True | Var x => known x end /\
        anchored (fun x => known x \/ In (Var x) (triple_comps p)) ps
    end.

  (** An assignment gives the variables these values. *)
  Definition gives (b : list (X * R)) (a : X -> R) : Prop := forall x v, In (x, v) b -> a x = v.
End Spec.
