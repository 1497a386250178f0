(** The work of a query on an indexed container
    (/repo/src/dataset/impl/indexed_btree_dataset.rs, "ds", and
    /repo/src/dataset/graph/impl/indexed_btree_graph.rs, "gr"): the iterators of
    IndexedDatasetModel.v and IndexedGraphModel.v, counting as they go.

    Counted: the rounds of the loop of [next], each of which looks at one quad at
    most, and the calls of [indexes.next()], each of which passes over one entry
    of the index of a resource.  Simplification: not counted are the search of the
    resources of the pattern in the tree of resources (ds 925-933, gr 647-655), and
    the reading of the resources of an item found. *)
From Coq Require Import List Bool Arith.
Import ListNotations.
From Verif Require Import Base SlabModel TripleModel TriplePatternModel QuadPatternModel
  IResourceModel IndexedDatasetModel IndexedGraphModel.
Open Scope panic_scope.

Record work := Work { looked : nat; passed : nat }.
Definition no_work : work := Work 0 0.
Definition also (a b : work) : work := Work (looked a + looked b) (passed a + passed b).

(** ds 985-991, 1082-1090 and so on, gr 662-668, 707-715, 763-771:
    [while let Some(j) = indexes.peek() { ...; indexes.next(); }] *)
Fixpoint drop_lt_counted (i : nat) (l : list nat) : list nat * nat :=
  match l with
  | [] => ([], 0)
  | j :: r =>
      if j <? i then let '(r, n) := drop_lt_counted i r in (r, S n) else (l, 0)
  end.

Section Next.
  Context {Q : Type}.

  (** ds 981-999, gr 657-673 [SubjectConstraints::next] *)
  Definition s_next_counted (c : constraint Q) (i : nat) : option nat * constraint Q * nat :=
    match c with
    | CNone => (None, c, 0)
    | CAny => (Some i, c, 0)
    | CSame _ => (None, c, 0)
    | CFixed l =>
        let '(l', n) := drop_lt_counted i l in
        (match l' with [] => None | j :: _ => Some j end, CFixed l', n)
    end.

  (** ds 1068-1095, 1168-1202, 1300-1341, gr 695-720, 744-776: [next] of the
      other constraints *)
  Definition c_next_counted (c : constraint Q) (i : nat) (q : Q) : next * constraint Q * nat :=
    match c with
    | CNone => (NErr None, c, 0)
    | CAny => (NOk, c, 0)
    | CSame t => (if t q then NOk else NErr (Some (S i)), c, 0)
    | CFixed l =>
        let '(l', n) := drop_lt_counted i l in
        (match l' with [] => NErr None | j :: _ => if j =? i then NOk else NErr (Some j) end,
         CFixed l', n)
    end.
End Next.

(** ds 817-837 [PatternMatching::next].  The outer [None] means that [fuel] ran
    out. *)
Fixpoint pm_next_counted (fuel cap : nat) (qs : slab (quad nat)) (m : pm)
  : option (option (nat * quad nat * pm) * work) :=
  match fuel with
  | 0 => None
  | S fuel =>
      if pm_i m <? cap then
        let '(r, cs, n) := s_next_counted (pm_s m) (pm_i m) in
        match r with
        | None => Some (None, Work 1 n)
        | Some i =>
            match sget qs i with
            | None => Some (None, Work 1 n)
            | Some q =>
                let '(a, cp, n') := c_next_counted (pm_p m) i q in
                let n := n + n' in
                match a with
                | NErr None => Some (None, Work 1 n)
                | NErr (Some j) =>
                    '(x, w) <- pm_next_counted fuel cap qs (PM cs cp (pm_o m) (pm_g m) j) ;;
                    Some (x, also (Work 1 n) w)
                | NOk =>
                    let '(a, co, n') := c_next_counted (pm_o m) i q in
                    let n := n + n' in
                    match a with
                    | NErr None => Some (None, Work 1 n)
                    | NErr (Some j) =>
                        '(x, w) <- pm_next_counted fuel cap qs (PM cs cp co (pm_g m) j) ;;
                        Some (x, also (Work 1 n) w)
                    | NOk =>
                        let '(a, cg, n') := c_next_counted (pm_g m) i q in
                        let n := n + n' in
                        match a with
                        | NErr None => Some (None, Work 1 n)
                        | NErr (Some j) =>
                            '(x, w) <- pm_next_counted fuel cap qs (PM cs cp co cg j) ;;
                            Some (x, also (Work 1 n) w)
                        | NOk => Some (Some (i, q, PM cs cp co cg (S i)), Work 1 n)
                        end
                    end
                end
            end
        end
      else Some (None, no_work)
  end.

(** gr 620-637 [PatternMatching::next] *)
Fixpoint gm_next_counted (fuel cap : nat) (ts : slab (triple nat)) (m : gm)
  : option (option (nat * triple nat * gm) * work) :=
  match fuel with
  | 0 => None
  | S fuel =>
      if gm_i m <? cap then
        let '(r, cs, n) := s_next_counted (gm_s m) (gm_i m) in
        match r with
        | None => Some (None, Work 1 n)
        | Some i =>
            match sget ts i with
            | None => Some (None, Work 1 n)
            | Some t =>
                let '(a, cp, n') := c_next_counted (gm_p m) i t in
                let n := n + n' in
                match a with
                | NErr None => Some (None, Work 1 n)
                | NErr (Some j) =>
                    '(x, w) <- gm_next_counted fuel cap ts (GM cs cp (gm_o m) j) ;;
                    Some (x, also (Work 1 n) w)
                | NOk =>
                    let '(a, co, n') := c_next_counted (gm_o m) i t in
                    let n := n + n' in
                    match a with
                    | NErr None => Some (None, Work 1 n)
                    | NErr (Some j) =>
                        '(x, w) <- gm_next_counted fuel cap ts (GM cs cp co j) ;;
                        Some (x, also (Work 1 n) w)
                    | NOk => Some (Some (i, t, GM cs cp co (S i)), Work 1 n)
                    end
                end
            end
        end
      else Some (None, no_work)
  end.

Section Collect.
  Context {R : Type} (cmp : R -> R -> comparison).

  (** All that the iterator yields, and the work of all the calls of [next], the
      last of which returns [None]. *)
  Fixpoint pm_collect_counted (fuel cap : nat) (d : @idataset R) (m : pm)
    : option (list (quad R) * work) :=
    match fuel with
    | 0 => None
    | S fuel =>
        '(r, w) <- pm_next_counted (S cap) cap (id_quads d) m ;;
        match r with
        | None => Some ([], w)
        | Some (_, q, m) =>
            x <- i_quad_with_resources (id_resources d) q ;;
            '(l, w') <- pm_collect_counted fuel cap d m ;;
            Some (x :: l, also w w')
        end
    end.
  (** ds 434-444 [pattern_matching], run to the end *)
  Definition id_pattern_matching_counted (d : @idataset R) (spare : nat) (c : cqp R)
    : option (list (quad R) * work) :=
    m <- pm_new cmp d c ;;
    pm_collect_counted (S (capacity d spare)) (capacity d spare) d m.

  Fixpoint gm_collect_counted (fuel cap : nat) (g : @igraph R) (m : gm)
    : option (list (triple R) * work) :=
    match fuel with
    | 0 => None
    | S fuel =>
        '(r, w) <- gm_next_counted (S cap) cap (ig_triples g) m ;;
        match r with
        | None => Some ([], w)
        | Some (_, t, m) =>
            x <- i_triple_with_resources (ig_resources g) t ;;
            '(l, w') <- gm_collect_counted fuel cap g m ;;
            Some (x :: l, also w w')
        end
    end.
  (** gr 330-339 [pattern_matching], run to the end *)
  Definition ig_pattern_matching_counted (g : @igraph R) (spare : nat) (c : ctp R)
    : option (list (triple R) * work) :=
    m <- gm_new cmp g c ;;
    gm_collect_counted (S (gcapacity g spare)) (gcapacity g spare) g m.
End Collect.
