(** What a user sees of an indexed dataset whose operations may all panic: a set of quads, and the
    quads that were lost on the way and may come back. *)
From Coq Require Import List Permutation.
Import ListNotations.
From Verif Require Import TripleModel TriplePatternModel QuadPatternModel SetSpec ContainerSpec PatternSpec IndexedSpec CrashSpec ExtractCrashSpec.

(** Operations, with the number of calls of the user's code before it panics; an extraction is the
    making of the iterator and any number of calls of [next]. *)
Inductive xop (R : Type) :=
| XOp (o : op (quad R)) (n : nat)
| XRemoveGraph (g : option R) (n : nat)
| XExtract (c : cqp R) (spare n : nat) (calls : list nat).
Arguments XOp {R} _ _.
Arguments XRemoveGraph {R} _ _.
Arguments XExtract {R} _ _ _ _.
Inductive xout (R : Type) :=
| XDone (x : out (quad R))
| XNoGraph
| XGraph (ts : list (triple R))
| XQuads (ys : list (option (option (quad R)))) (* [None]: the call was interrupted *)
| XInterrupted  (* by a panic of the user's code *)
| XFailed.      (* by a panic of the dataset itself *)
Arguments XDone {R} _.
Arguments XNoGraph {R}.
Arguments XGraph {R} _.
Arguments XQuads {R} _.
Arguments XInterrupted {R}.
Arguments XFailed {R}.

Section Spec.
  Context {X : Type} (cmp : X -> X -> comparison).
  (** Something is taken out: of the set if it is there, else it is one of those that were lost. *)
  Definition one_out (x : X) (s lost s' lost' : list X) : Prop :=
    In x s /\ s' = del cmp x s /\ Permutation lost lost' \/
    ~ In x s /\ s' = s /\ Permutation lost (x :: lost').
  Inductive taken_out : list X -> list X -> list X -> list X -> list X -> Prop :=
  | out_nil s lost : taken_out [] s lost s lost
  | out_cons x l s lost s1 lost1 s' lost' :
      one_out x s lost s1 lost1 -> taken_out l s1 lost1 s' lost' -> taken_out (x :: l) s lost s' lost'.
End Spec.

Section Survives.
  Context {R : Type} (cmp : R -> R -> comparison).
  Notation qcmp := (quad_cmp cmp).
  (** What an operation of a set leaves when it is interrupted ([left_over] of CrashSpec.v, or [cut] of
      DropSpec.v). *)
  Context (stops : list (quad R) -> list (quad R) -> op (quad R) -> list (quad R) -> list (quad R) -> Prop).

  (** From the set [s] and the losses [lost] the operations return these results, and leave the set
      [s'] and the losses [lost'].  [clean] tells that nothing was interrupted yet: then nothing panics
      by itself. *)
  Inductive survives : bool -> list (quad R) -> list (quad R) -> list (xop R) -> list (xout R) ->
      list (quad R) -> list (quad R) -> Prop :=
  | sv_nil clean s lost : survives clean s lost [] [] s lost
  | sv_done clean s lost o n l ys s' lost' :
      survives clean (snd (spec_step qcmp s o)) lost l ys s' lost' ->
      survives clean s lost (XOp o n :: l) (XDone (answer qcmp s lost o) :: ys) s' lost'
  | sv_interrupted clean s lost o n l ys s1 lost1 s' lost' :
      stops s lost o s1 lost1 -> survives false s1 lost1 l ys s' lost' ->
      survives clean s lost (XOp o n :: l) (XInterrupted :: ys) s' lost'
  | sv_no_graph clean s lost g n l ys s' lost' :
      g <> None -> survives clean s lost l ys s' lost' ->
      survives clean s lost (XRemoveGraph g n :: l) (XNoGraph :: ys) s' lost'
  (** The triples returned are those of the quads taken. *)
  | sv_graph clean s lost g n l ts qs ys s1 lost1 s' lost' :
      taken_out qcmp qs s lost s1 lost1 -> increasing (triple_cmp cmp) ts ->
      (forall t, In t ts <-> exists q, In q qs /\ Triple (q_s q) (q_p q) (q_o q) = t) ->
      (clean = true -> NoDup qs /\ (forall q, In q qs -> In q s /\ q_g q = g) /\
         (g = None -> forall q, In q s -> q_g q = None -> In q qs)) ->
      survives clean s1 lost1 l ys s' lost' ->
      survives clean s lost (XRemoveGraph g n :: l) (XGraph ts :: ys) s' lost'
  | sv_graph_interrupted clean s lost g n l qs ys s1 lost1 s' lost' :
      taken_out qcmp qs s lost s1 lost1 ->
      (clean = true -> NoDup qs /\ forall q, In q qs -> In q s /\ q_g q = g) ->
      survives false s1 lost1 l ys s' lost' ->
      survives clean s lost (XRemoveGraph g n :: l) (XInterrupted :: ys) s' lost'
  | sv_graph_failed s lost g n l qs ys s1 lost1 s' lost' :
      taken_out qcmp qs s lost s1 lost1 -> survives false s1 lost1 l ys s' lost' ->
      survives false s lost (XRemoveGraph g n :: l) (XFailed :: ys) s' lost'
  (** The calls of [next] go through quads of the set and losses, none more often than it is there. *)
  | sv_extract clean clean1 s lost c spare n ns l qs ys1 taken ys s1 lost1 s' lost' :
      among qs (s ++ lost) -> drained qs ys1 taken -> taken_out qcmp taken s lost s1 lost1 ->
      length ys1 = length ns ->
      (clean = true -> forall q, In q qs -> cq_matches c q) ->
      (clean1 = true -> clean = true /\ ~ In None ys1) -> (clean = true -> ~ In None ys1 -> clean1 = true) ->
      survives clean1 s1 lost1 l ys s' lost' ->
      survives clean s lost (XExtract c spare n ns :: l) (XQuads ys1 :: ys) s' lost'
  | sv_extract_interrupted clean s lost c spare n ns l ys s' lost' :
      survives clean s lost l ys s' lost' ->
      survives clean s lost (XExtract c spare n ns :: l) (XInterrupted :: ys) s' lost'.
End Survives.

(** A panic of the user's code. *)
Definition interrupted {R : Type} (y : xout R) : bool :=
  match y with
  | XInterrupted => true
  | XQuads ys => existsb (fun y => match y with None => true | Some _ => false end) ys
  | _ => false
  end.

(** The same operations without panics (IndexedSpec.v), and with [n] calls of the user's code each. *)
Definition plain {R : Type} (o : xop R) : iop R :=
  match o with
  | XOp o _ => IOp o
  | XRemoveGraph g _ => IRemoveGraph g
  | XExtract c spare _ ns => IExtract c (length ns) spare
  end.
Definition within {R : Type} (n : nat) (o : iop R) : xop R :=
  match o with
  | IOp o => XOp o n
  | IRemoveGraph g => XRemoveGraph g n
  | IExtract c k spare => XExtract c spare n (repeat n k)
  end.
Definition same_out {R : Type} (y : xout R) (z : iout R) : Prop :=
  match z with
  | IOut x => y = XDone x
  | IGraph None => y = XNoGraph
  | IGraph (Some ts) => y = XGraph ts
  | IQuads l => exists ys, y = XQuads ys /\ ~ In None ys /\ items ys = l
  end.
