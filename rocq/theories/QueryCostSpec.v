(** How many elements of a container share the components that a query gives. *)
From Coq Require Import List Arith.
Import ListNotations.
From Verif Require Import Base TripleModel TriplePatternModel QuadPatternModel SetSpec.

Section Spec.
  Context {R : Type} (cmp : R -> R -> comparison).

  Definition same_graph (x y : option R) : bool :=
    match x, y with
    | Some x, Some y => same cmp x y
    | None, None => true
    | _, _ => false
    end.

  Section Number.
    Context {X : Type}.
    Definition number (has : X -> bool) (s : list X) : nat := length (filter has s).

    (** The number of elements of [s] that have the component given, if one is
        given. *)
    Definition s_share (f : X -> R) (s : list X) (c : pat_s R) : option nat :=
      match c with PS_Given r => Some (number (fun x => same cmp (f x) r) s) | _ => None end.
    Definition p_share (f : X -> R) (s : list X) (c : pat_p R) : option nat :=
      match c with PP_Given r => Some (number (fun x => same cmp (f x) r) s) | _ => None end.
    Definition o_share (f : X -> R) (s : list X) (c : pat_o R) : option nat :=
      match c with PO_Given r => Some (number (fun x => same cmp (f x) r) s) | _ => None end.
    Definition g_share (f : X -> option R) (s : list X) (c : pat_g R) : option nat :=
      match c with PG_Given r => Some (number (fun x => same_graph (f x) r) s) | _ => None end.
  End Number.

  (** The shares of a pattern, in the order subject, predicate, object, graph. *)
  Definition quad_shares (s : list (quad R)) (c : cqp R) : list (option nat) :=
    [s_share q_s s (cq_subject c); p_share q_p s (cq_predicate c);
     o_share q_o s (cq_object c); g_share q_g s (cq_graph c)].
  Definition triple_shares (s : list (triple R)) (c : ctp R) : list (option nat) :=
    [s_share t_s s (ct_subject c); p_share t_p s (ct_predicate c);
     o_share t_o s (ct_object c)].
End Spec.

Definition total (l : list (option nat)) : nat :=
  list_sum (map (fun x => match x with Some n => n | None => 0 end) l).
