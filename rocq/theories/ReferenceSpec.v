(** A reference for the indexed dataset: a machine that determines everything an
    [IndexedBTreeDataset] returns, from a row of quads (ScanSpec.v) and a shelf of
    resources (ShelfSpec.v).  Nothing here uses the functions of the model. *)
From Coq Require Import List Bool Arith.
Import ListNotations.
From Verif Require Import TripleModel TriplePatternModel QuadPatternModel SetSpec ContainerSpec
  IndexedSpec ScanSpec ShelfSpec.

(** The different elements of a list, in increasing order. *)
Definition in_order {X} (cmp : X -> X -> comparison) (l : list X) : list X :=
  sorted_elements cmp (fold_right (add cmp) [] l).

(** ** Places of components
    Each component of an element comes with its place on the shelf.  For a query, a
    given resource stands for the place where it is shown; components are equal
    when they have the same place. *)
Section Seats.
  Context {X R : Type} (xcmp : X -> X -> comparison) (cmp : R -> R -> comparison).

  Definition seat_of (sh : shelf X R) (x : X) (i : nat) : nat :=
    match find (fun e => same xcmp x (fst e)) (held sh) with
    | Some (_, ks) => nth i ks 0
    | None => 0
    end.
  Definition seat_cmp (x y : R * nat) : comparison := Nat.compare (snd x) (snd y).
  Definition shown_at (sh : shelf X R) (a : R) (x : R * nat) : bool :=
    match shown sh a with Some k => k =? snd x | None => false end.

  (** The resources that are shown: one place for each. *)
  Definition shown_resources (sh : shelf X R) : list R :=
    in_order cmp
      (flat_map (fun k => match nth_error (fst (seats sh)) k with
                          | Some (Some r) => if shown_at sh r (r, k) then [r] else []
                          | _ => []
                          end) (seq 0 (length (fst (seats sh))))).
End Seats.

Section Reference.
  Context {R : Type} (cmp : R -> R -> comparison) (keep : bool).
  Notation qcmp := (quad_cmp cmp).
  Notation shift := (shift qcmp cmp quad_comps keep).

  Record reference := Reference {
    row : @places (quad R);        (* the quads and their places *)
    desk : shelf (quad R) R        (* the resources and their places *)
  }.

  (** The indexed dataset made from a [BTreeDataset] with the history [ops0]. *)
  Definition ref_start (ops0 : list (op (quad R))) : reference :=
    Reference (place_ops qcmp ops0) (reshelve (fold_left shift (set_log qcmp [] ops0) shelf_new)).

  (** ** Queries *)
  Definition seated (sh : shelf (quad R) R) (q : quad R) : quad (R * nat) :=
    let at_ i r := (r, seat_of qcmp sh q i) in
    Quad (at_ 0 (q_s q)) (at_ 1 (q_p q)) (at_ 2 (q_o q)) (option_map (at_ 3) (q_g q)).
  Definition unseated (q : quad (R * nat)) : quad R :=
    Quad (fst (q_s q)) (fst (q_p q)) (fst (q_o q)) (option_map fst (q_g q)).
  Definition ref_query (st : reference) (c : cqp R) : list (quad R) :=
    map unseated (query seat_cmp (shown_at (desk st)) c
                        (map (option_map (seated (desk st))) (fst (row st)))).
  Definition ref_multi_query (st : reference) (c : cqp (list R)) : list (quad R) :=
    map unseated (query seat_cmp (fun l x => existsb (fun a => shown_at (desk st) a x) l) c
                        (map (option_map (seated (desk st))) (fst (row st)))).

  (** ** Operations *)
  Definition quads_of (st : reference) : list (quad R) := present (fst (row st)).
  Definition ref_graph (st : reference) (g : option R) : option (list (triple R)) :=
    let triples l := in_order (triple_cmp cmp) (map (fun q => Triple (q_s q) (q_p q) (q_o q)) l) in
    match g with
    | None => Some (triples (filter (fun q => match q_g q with None => true | Some _ => false end) (quads_of st)))
    | Some g => option_map triples (graph_of (desk st) g)
    end.
  Definition ref_out (st : reference) (o : iop R) : iout R :=
    match o with
    | IOp o => IOut (fst (spec_step qcmp (quads_of st) o))
    | IRemoveGraph g => IGraph (ref_graph st g)
    | IExtract c n _ => IQuads (firstn n (ref_query st c))
    end.
  Definition ref_step (st : reference) (o : iop R) : iout R * reference :=
    let x := ref_out st o in
    (x, Reference (place_iop cmp (row st) o x)
                  (fold_left shift (placed_changes cmp (row st) o x) (desk st))).
  Fixpoint ref_run (st : reference) (ops : list (iop R)) : list (iout R) * reference :=
    match ops with
    | [] => ([], st)
    | o :: ops =>
        let (x, st) := ref_step st o in
        let (xs, st) := ref_run st ops in
        (x :: xs, st)
    end.
End Reference.

(** ** Graphs
    The operations of an indexed graph are those of a set (C31); here are the
    queries, for the triples [s] at their places. *)
Section TripleReference.
  Context {R : Type} (cmp : R -> R -> comparison).

  Definition triple_seated (sh : shelf (triple R) R) (t : triple R) : triple (R * nat) :=
    let at_ i r := (r, seat_of (triple_cmp cmp) sh t i) in
    Triple (at_ 0 (t_s t)) (at_ 1 (t_p t)) (at_ 2 (t_o t)).
  Definition triple_unseated (t : triple (R * nat)) : triple R :=
    Triple (fst (t_s t)) (fst (t_p t)) (fst (t_o t)).
  Definition ref_triple_query (sh : shelf (triple R) R) (c : ctp R) (s : list (option (triple R)))
    : list (triple R) :=
    map triple_unseated (triple_query seat_cmp (shown_at sh) c (map (option_map (triple_seated sh)) s)).
End TripleReference.
