(** What the queries of the indexed containers find, for every history: the
    walk of ScanSpec.v, over elements whose components carry what the account of
    their resource (LedgerSpec.v) says of them.

    A component is found by a query that gives its resource only if the resource
    is reported and the element is filed under the last number.  In a marked
    element, only one of the components that are this resource is found: the
    first one, or the last one, depending on what a B-tree does with an item
    equal to another one ([keep]).  No two components of a marked element are the
    same for a query that demands equal components. *)
From Coq Require Import List Bool Arith.
Import ListNotations.
From Verif Require Import TripleModel TriplePatternModel QuadPatternModel SetSpec ContainerSpec IndexedSpec
  ScanSpec LedgerSpec.

Section Labels.
  Context {X R : Type} (xcmp : X -> X -> comparison) (cmp : R -> R -> comparison).
  Context (comps : X -> list R) (keep : bool) (log : list (change X)).

  (** The [i]-th of the components [l], which is [r], is the first one, or the
      last one, that is [r]. *)
  Definition chosen (r : R) (i : nat) (l : list R) : bool :=
    negb (existsb (same cmp r) (if keep then firstn i l else skipn (S i) l)).

  (** A resource, whether it is found there, and what tells it from the other
      components of the same element that are this resource: 0 if nothing does. *)
  Definition label (x : X) (i : nat) (r : R) : R * (bool * nat) :=
    let a := account xcmp cmp comps r log in
    match find (fun m => same xcmp x (fst m)) (filed a) with
    | Some (_, (n, marked)) =>
        (r, (reported a && (n =? number a) && (negb marked || chosen r i (comps x)),
             if marked then S i else 0))
    | None => (r, (false, 0))
    end.
End Labels.

Section Sight.
  Context {R : Type} (cmp : R -> R -> comparison) (keep : bool).
  Notation label_of := (R * (bool * nat))%type.

  Definition label_cmp (x y : label_of) : comparison :=
    match cmp (fst x) (fst y) with
    | Eq => Nat.compare (snd (snd x)) (snd (snd y))
    | c => c
    end.
  (** A given resource, or one of several. *)
  Definition finds (a : R) (x : label_of) : bool := same cmp a (fst x) && fst (snd x).
  Definition finds_one (l : list R) (x : label_of) : bool := mem cmp (fst x) l && fst (snd x).

  Definition label_quad (log : list (change (quad R))) (q : quad R) : quad label_of :=
    let lab := label (quad_cmp cmp) cmp quad_comps keep log q in
    Quad (lab 0 (q_s q)) (lab 1 (q_p q)) (lab 2 (q_o q)) (option_map (lab 3) (q_g q)).
  Definition bare (q : quad label_of) : quad R :=
    Quad (fst (q_s q)) (fst (q_p q)) (fst (q_o q)) (option_map fst (q_g q)).

  (** What queries find: [log] is the list of changes, [s] the places. *)
  Definition sight (log : list (change (quad R))) (c : cqp R) (s : list (option (quad R)))
    : list (quad R) :=
    map bare (query label_cmp finds c (map (option_map (label_quad log)) s)).
  Definition multi_sight (log : list (change (quad R))) (c : cqp (list R))
      (s : list (option (quad R))) : list (quad R) :=
    map bare (query label_cmp finds_one c (map (option_map (label_quad log)) s)).

  Definition label_triple (log : list (change (triple R))) (t : triple R) : triple label_of :=
    let lab := label (triple_cmp cmp) cmp triple_comps keep log t in
    Triple (lab 0 (t_s t)) (lab 1 (t_p t)) (lab 2 (t_o t)).
  Definition bare_triple (t : triple label_of) : triple R :=
    Triple (fst (t_s t)) (fst (t_p t)) (fst (t_o t)).
  Definition triple_sight (log : list (change (triple R))) (c : ctp R)
      (s : list (option (triple R))) : list (triple R) :=
    map bare_triple (triple_query label_cmp finds c (map (option_map (label_triple log)) s)).
End Sight.
