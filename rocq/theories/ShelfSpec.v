(** Where the containers keep the resources of their elements, and which of them
    they list as subjects, predicates, objects or names of graphs: a shelf, kept
    from the changes made to the set.  Nothing here uses the functions of the
    model.

    Each resource is kept at a place of a row (the places of ScanSpec.v).  An
    element is held with the places of its components.  A component that is shown
    when the element arrives is found at the place where it is shown; any other
    takes a place, even if it repeats another component of the same element.  A
    resource that is at several places is shown at one of them: [keep] says whether
    a B-tree keeps an item when an equal one is inserted.  When an element leaves,
    the places that nothing else uses are cleared, one after the other; a resource
    of which a place is cleared is no longer shown, even if it has another place.
    A place is marked when it becomes that of a subject, and unmarked when any
    quad of which it is the place of the subject leaves; the same for predicates
    and objects.  The place of the name of a graph is unmarked only if it is
    cleared when a quad of the graph leaves. *)
From Coq Require Import List Bool Arith.
Import ListNotations.
From Verif Require Import TripleModel SetSpec ContainerSpec IndexedSpec ScanSpec.

Section Shelf.
  Context {X R : Type} (xcmp : X -> X -> comparison) (cmp : R -> R -> comparison).
  Context (comps : X -> list R) (keep : bool).

  Record shelf := Shelf {
    seats : @places R;
    held : list (X * list nat);   (* elements, with the places of their components *)
    shown : R -> option nat;      (* where a resource is shown *)
    marked : nat -> nat -> bool   (* marked i k: the place k is marked for component i *)
  }.
  Definition shelf_new : shelf := Shelf ([], []) [] (fun _ => None) (fun _ _ => false).

  (** [k] is the [i]-th of [ks]; [k] is a place of one of the elements [m]. *)
  Definition nth_is (ks : list nat) (i k : nat) : bool :=
    match nth_error ks i with Some j => j =? k | None => false end.
  Definition used (m : list (X * list nat)) (k : nat) : bool :=
    existsb (fun e => existsb (Nat.eqb k) (snd e)) m.

  (** The place that [put] takes. *)
  Definition spot (st : @places R) : nat :=
    match snd st with k :: _ => k | [] => length (fst st) end.

  (** [known] says where resources were shown before the element arrived. *)
  Fixpoint seat (known : R -> option nat) (l : list R) (st : @places R) (show : R -> option nat)
    : list nat * (@places R * (R -> option nat)) :=
    match l with
    | [] => ([], (st, show))
    | r :: l =>
        match known r with
        | Some k => let (ks, e) := seat known l st show in (k :: ks, e)
        | None =>
            let k := spot st in
            let (ks, e) := seat known l (put r st)
              (fun w => if same cmp r w
                        then match show w with Some j => Some (if keep then j else k) | None => Some k end
                        else show w) in
            (k :: ks, e)
        end
    end.

  Definition arrive (x : X) (sh : shelf) : shelf :=
    let '(ks, (st, show)) := seat (shown sh) (comps x) (seats sh) (shown sh) in
    Shelf st ((x, ks) :: held sh) show (fun i k => marked sh i k || nth_is ks i k).

  Definition clear (k : nat) (st : @places R) : @places R :=
    (firstn k (fst st) ++ None :: skipn (S k) (fst st), k :: snd st).
  (** Is [r] at place [k]? *)
  Definition sits (st : @places R) (k : nat) (r : R) : bool :=
    match nth_error (fst st) k with Some (Some v) => same cmp v r | _ => false end.

  (** The places [ks] are given back; [rest] are the elements that remain. *)
  Fixpoint unseat (rest : list (X * list nat)) (ks : list nat) (st : @places R)
      (show : R -> option nat) : @places R * (R -> option nat) :=
    match ks with
    | [] => (st, show)
    | k :: ks =>
        if existsb (Nat.eqb k) ks || used rest k then unseat rest ks st show
        else unseat rest ks (clear k st) (fun w => if sits st k w then None else show w)
    end.

  Definition depart (x : X) (sh : shelf) : shelf :=
    match find (fun e => same xcmp x (fst e)) (held sh) with
    | None => sh
    | Some (_, ks) =>
        let rest := filter (fun e => negb (same xcmp x (fst e))) (held sh) in
        let (st, show) := unseat rest ks (seats sh) (shown sh) in
        Shelf st rest show
          (fun i k => marked sh i k && negb (nth_is ks i k && ((i <? 3) || negb (used rest k))))
    end.

  Definition shift (sh : shelf) (c : change X) : shelf :=
    if fst c then arrive (snd c) sh else depart (snd c) sh.

  (** Making an indexed container from one that is not: the vacant places at the
      end are dropped, the last of the others comes first, and the marks are made
      anew. *)
  Fixpoint trim (s : list (option R)) : list (option R) :=
    match s with
    | [] => []
    | None :: s => match trim s with [] => [] | s => None :: s end
    | Some r :: s => Some r :: trim s
    end.
  Fixpoint vacancies_from (n : nat) (s : list (option R)) : list nat :=
    match s with
    | [] => []
    | None :: s => vacancies_from (S n) s ++ [n]
    | Some _ :: s => vacancies_from (S n) s
    end.
  Definition reshelve (sh : shelf) : shelf :=
    let s := trim (fst (seats sh)) in
    Shelf (s, vacancies_from 0 s) (held sh) (shown sh)
      (fun i k => existsb (fun e => nth_is (snd e) i k) (held sh)).

  (** What is at the marked places, in order; [None] (a panic) if one of them is
      vacant. *)
  Fixpoint listing (mark : nat -> bool) (s : list (option R)) : option (list R) :=
    match s with
    | [] => Some []
    | e :: s =>
        match mark 0, e, listing (fun k => mark (S k)) s with
        | true, Some r, Some l => Some (r :: l)
        | true, None, _ => None
        | false, _, l => l
        | _, _, None => None
        end
    end.
  (** How many places are marked. *)
  Definition tally (mark : nat -> bool) (s : list (option R)) : nat :=
    length (filter mark (seq 0 (length s))).
End Shelf.
Arguments shelf : clear implicits.

Section QuadShelf.
  Context {R : Type} (cmp : R -> R -> comparison) (keep : bool).
  Notation qcmp := (quad_cmp cmp).

  (** The changes made by the operations, given what they returned; the quads of a
      graph are removed in the order of their places. *)
  Definition placed_changes (st : @places (quad R)) (o : iop R) (x : iout R) : list (change (quad R)) :=
    match o, x with
    | IOp o, _ => set_changes qcmp (present (fst st)) o
    | IRemoveGraph g, IGraph (Some ts) =>
        map (fun q => (false, q))
          (filter (fun q => mem qcmp q (map (fun t => Quad (t_s t) (t_p t) (t_o t) g) ts))
             (present (fst st)))
    | IExtract _ _ _, IQuads l => map (fun q => (false, q)) l
    | _, _ => []
    end.
  Fixpoint placed_log (st : @places (quad R)) (ops : list (iop R)) (xs : list (iout R))
    : list (change (quad R)) :=
    match ops, xs with
    | o :: ops, x :: xs => placed_changes st o x ++ placed_log (place_iop cmp st o x) ops xs
    | _, _ => []
    end.

  Notation shift := (shift qcmp cmp quad_comps keep).
  (** The shelf after the history [ops0] of a [BTreeDataset] followed by the
      history [ops] of the indexed dataset made from it, which returned [xs]. *)
  Definition shelf_after (ops0 : list (op (quad R))) (ops : list (iop R)) (xs : list (iout R))
    : shelf (quad R) R :=
    fold_left shift (placed_log (place_ops qcmp ops0) ops xs)
      (reshelve (fold_left shift (set_log qcmp [] ops0) shelf_new)).

  (** What removing the graph named [g] takes out; nothing is returned if the name
      is not shown, or its place is not marked. *)
  Definition graph_of (sh : shelf (quad R) R) (g : R) : option (list (quad R)) :=
    match shown sh g with
    | Some k =>
        if marked sh 3 k then Some (map fst (filter (fun e => nth_is (snd e) 3 k) (held sh)))
        else None
    | None => None
    end.
End QuadShelf.

(** The same for an indexed graph. *)
Definition triple_shelf {R} (cmp : R -> R -> comparison) (keep : bool)
    (ops0 ops : list (op (triple R))) : shelf (triple R) R :=
  let tcmp := triple_cmp cmp in
  let shift := shift tcmp cmp triple_comps keep in
  fold_left shift (set_log tcmp (spec_set tcmp ops0) ops)
    (reshelve (fold_left shift (set_log tcmp [] ops0) shelf_new)).
