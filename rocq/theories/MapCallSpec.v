(** What calling a function with a state on a list of arguments means, and the
    components a mapping function has to treat. *)
From Coq Require Import List.
Import ListNotations.
From Verif Require Import TripleModel TriplePatternModel QuadPatternModel.

Section Feed.
  Context {T U St : Type}.

  (** The results of calling [f] on the elements of [l] from left to right, once
      each, and its state afterwards. *)
  Fixpoint feed (f : T -> St -> U * St) (l : list T) (st : St) : list U * St :=
    match l with
    | [] => ([], st)
    | x :: r =>
        let (u, st1) := f x st in
        let (us, st2) := feed f r st1 in (u :: us, st2)
    end.

  (** The components of a triple, of a quad. *)
  Definition triple_comps (t : triple T) : list T := [t_s t; t_p t; t_o t].
  Definition quad_comps (q : quad T) : list T :=
    [q_s q; q_p q; q_o q] ++ match q_g q with Some g => [g] | None => [] end.

  (** The resources given by a pattern: subject, predicate, object, graph. *)
  Definition given_s (s : pat_s T) := match s with PS_Given x => [x] | _ => [] end.
  Definition given_p (p : pat_p T) := match p with PP_Given x => [x] | _ => [] end.
  Definition given_o (o : pat_o T) := match o with PO_Given x => [x] | _ => [] end.
  Definition given_g (g : pat_g T) := match g with PG_Given (Some x) => [x] | _ => [] end.
  Definition givens (c : cqp T) : list T :=
    given_s (cq_subject c) ++ given_p (cq_predicate c) ++ given_o (cq_object c) ++
    given_g (cq_graph c).

  (** The same pattern without its resources. *)
  Definition kind_s (s : pat_s T) : pat_s unit :=
    match s with PS_Any => PS_Any | PS_Given _ => PS_Given tt end.
  Definition kind_p (p : pat_p T) : pat_p unit :=
    match p with PP_Any => PP_Any | PP_SameS => PP_SameS | PP_Given _ => PP_Given tt end.
  Definition kind_o (o : pat_o T) : pat_o unit :=
    match o with
    | PO_Any => PO_Any | PO_SameS => PO_SameS | PO_SameP => PO_SameP | PO_Given _ => PO_Given tt
    end.
  Definition kind_g (g : pat_g T) : pat_g unit :=
    match g with
    | PG_Any => PG_Any | PG_SameS => PG_SameS | PG_SameP => PG_SameP | PG_SameO => PG_SameO
    | PG_Given None => PG_Given None
    | PG_Given (Some _) => PG_Given (Some tt)
    end.
  Definition kinds (c : cqp T) :=
    (kind_s (cq_subject c), kind_p (cq_predicate c), kind_o (cq_object c), kind_g (cq_graph c)).
End Feed.
