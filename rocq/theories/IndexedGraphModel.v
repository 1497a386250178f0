(** [IndexedBTreeGraph] (/repo/src/dataset/graph/impl/indexed_btree_graph.rs).
    Functions return [option]: [None] is a panic.  The table of resources and
    the constraints are in IResourceModel.v. *)
From Coq Require Import List Bool Arith.
Import ListNotations.
From Verif Require Import Base SlabModel TripleModel TriplePatternModel SetSpec Machine
  BResourceModel BTreeGraphModel IResourceModel.
Open Scope panic_scope.

Section Model.
  Context {R : Type} (cmp : R -> R -> comparison).
  (** behaviour of [RawBTree::insert] on equal items (see SlabModel.v) *)
  Context (keep : bool).

  (** 59-68 *)
  Record igraph := IGraphS {
    ig_resources : slab (iresource R);
    ig_triples : slab (triple nat);
    ig_ri : list nat; (* resources_indexes *)
    ig_ti : list nat; (* triples_indexes *)
    ig_s : list nat;  (* subjects *)
    ig_p : list nat;  (* predicates *)
    ig_o : list nat   (* objects *)
  }.

  (** 70-88 [default], [new] *)
  Definition ig_new : igraph := IGraphS slab_new slab_new [] [] [] [] [].

  (** 30-39 [triple_with_resources] *)
  Definition i_triple_with_resources (rs : slab (iresource R)) (t : triple nat)
    : option (triple R) :=
    s <- ir_val rs (t_s t) ;;
    p <- ir_val rs (t_p t) ;;
    o <- ir_val rs (t_o t) ;;
    Some (Triple s p o).

  (** [triple_with_resources(resources, triples[i])] *)
  Definition i_triple_at (rs : slab (iresource R)) (ts : slab (triple nat)) (i : nat)
    : option (triple R) :=
    t <- sget ts i ;; i_triple_with_resources rs t.

  (** 41-46 [triple_cmp] *)
  Definition i_triple_cmp (rs : slab (iresource R)) (ts : slab (triple nat)) (i : nat)
      (t : triple R) : option comparison :=
    x <- i_triple_at rs ts i ;; Some (triple_cmp cmp x t).

  (** 48-56 [triple_index_cmp] *)
  Definition i_triple_index_cmp (rs : slab (iresource R)) (ts : slab (triple nat)) (i j : nat)
    : option comparison :=
    x <- i_triple_at rs ts i ;; y <- i_triple_at rs ts j ;; Some (triple_cmp cmp x y).

  (** [resources[k].as_...insert(i)] *)
  Definition ig_use (rs : slab (iresource R)) (p : pos) (k i : nat)
    : option (slab (iresource R)) :=
    r <- sget rs k ;; Some (sset rs k (ir_upd p (ns_insert i) r)).

  (** 111-122: the loop of [from_non_indexed] *)
  Fixpoint ig_index (idx : list nat) (g : igraph) : option igraph :=
    match idx with
    | [] => Some g
    | i :: idx =>
        t <- sget (ig_triples g) i ;;
        rs <- ig_use (ig_resources g) PosS (t_s t) i ;;
        rs <- ig_use rs PosP (t_p t) i ;;
        rs <- ig_use rs PosO (t_o t) i ;;
        ig_index idx
          (IGraphS rs (ig_triples g) (ig_ri g) (ig_ti g)
             (ns_insert (t_s t) (ig_s g)) (ns_insert (t_p t) (ig_p g)) (ns_insert (t_o t) (ig_o g)))
    end.

  (** 91-133 [from_non_indexed]; 342-346 [From], btree_graph.rs 108-110
      [into_indexed] *)
  Definition ig_from_non_indexed (b : @bgraph R) : option igraph :=
    let rs := scollect (map (fun '(i, r) => (i, IRes (br_value r) [] [] [] []))
                            (spairs (bg_resources b))) in
    ig_index (bg_ti b) (IGraphS rs (bg_triples b) (bg_ri b) (bg_ti b) [] [] []).

  (** 136-143 [len], [is_empty] *)
  Definition ig_len (g : igraph) : nat := slen (ig_triples g).
  Definition ig_is_empty (g : igraph) : bool := ig_len g =? 0.

  (** 146-152, 477-485 [iter]: all that [Triples] yields (also 374-376 [triples],
      504-511 [(&g).into_iter]) *)
  Definition ig_iter (g : igraph) : option (list (triple R)) :=
    mapM (i_triple_at (ig_resources g) (ig_triples g)) (ig_ti g).

  (** 487-502, 513-524 [into_iter] *)
  Fixpoint ig_into_triples (rs : slab (iresource R)) (ts : slab (triple nat)) (idx : list nat)
    : option (list (triple R)) :=
    match idx with
    | [] => Some []
    | i :: r =>
        '(t, ts') <- sremove ts i ;;
        x <- i_triple_with_resources rs t ;;
        l <- ig_into_triples rs ts' r ;;
        Some (x :: l)
    end.
  Definition ig_into_iter (g : igraph) : option (list (triple R)) :=
    ig_into_triples (ig_resources g) (ig_triples g) (ig_ti g).

  (** 155-184, 526-576: all that [resources], [subjects], [predicates] and
      [objects] yield *)
  Definition ig_values (g : igraph) (l : list nat) : option (list R) :=
    mapM (ir_val (ig_resources g)) l.
  Definition ig_resources_iter (g : igraph) := ig_values g (ig_ri g).
  Definition ig_subjects (g : igraph) := ig_values g (ig_s g).
  Definition ig_predicates (g : igraph) := ig_values g (ig_p g).
  Definition ig_objects (g : igraph) := ig_values g (ig_o g).
  (** 389-391, 404-406, 419-421, 434-436 *)
  Definition ig_resource_count (g : igraph) : nat := slen (ig_resources g).
  Definition ig_subject_count (g : igraph) : nat := length (ig_s g).
  Definition ig_predicate_count (g : igraph) : nat := length (ig_p g).
  Definition ig_object_count (g : igraph) : nat := length (ig_o g).

  (** 199-203 [index_of_triple] *)
  Definition ig_index_of_triple (g : igraph) (t : triple R) : option (option nat) :=
    bt_get (i_triple_cmp (ig_resources g) (ig_triples g)) t (ig_ti g).

  (** 206-208 [contains_resource], 211-213 [contains] (also 463-465
      [contains_triple]) *)
  Definition ig_contains_resource (g : igraph) (r : R) : option bool :=
    i <- i_index_of_resource cmp (ig_resources g) (ig_ri g) r ;; Some (is_some i).
  Definition ig_contains (g : igraph) (t : triple R) : option bool :=
    i <- ig_index_of_triple g t ;; Some (is_some i).

  (** 219-280 [insert] *)
  Definition ig_insert (g : igraph) (t : triple R) : option (bool * igraph) :=
    c <- ig_contains g t ;;
    if c then Some (false, g)
    else
      let rs := ig_resources g in
      let ri := ig_ri g in
      fs <- i_index_of_resource cmp rs ri (t_s t) ;;
      fp <- i_index_of_resource cmp rs ri (t_p t) ;;
      fo <- i_index_of_resource cmp rs ri (t_o t) ;;
      let i := vacant_key (ig_triples g) in
      '(s_i, rs, ri) <- i_acquire cmp keep rs ri PosS i (t_s t) fs ;;
      '(p_i, rs, ri) <- i_acquire cmp keep rs ri PosP i (t_p t) fp ;;
      '(o_i, rs, ri) <- i_acquire cmp keep rs ri PosO i (t_o t) fo ;;
      let ts := sinsert (ig_triples g) (Triple s_i p_i o_i) in
      ti <- bt_insert keep (i_triple_index_cmp rs ts) i (ig_ti g) ;;
      Some (true, IGraphS rs ts ri ti (ns_insert s_i (ig_s g)) (ns_insert p_i (ig_p g))
                    (ns_insert o_i (ig_o g))).

  (** 286-326 [remove] *)
  Definition ig_remove (g : igraph) (t : triple R) : option (bool * igraph) :=
    '(found, ti) <- bt_remove (i_triple_cmp (ig_resources g) (ig_triples g)) t (ig_ti g) ;;
    match found with
    | None =>
        Some (false, IGraphS (ig_resources g) (ig_triples g) (ig_ri g) ti
                       (ig_s g) (ig_p g) (ig_o g))
    | Some i =>
        '(x, ts) <- sremove (ig_triples g) i ;;
        let ss := ns_remove (t_s x) (ig_s g) in
        let ps := ns_remove (t_p x) (ig_p g) in
        let os := ns_remove (t_o x) (ig_o g) in
        let rel := i_release (i_resource_cmp cmp) in
        '(rs, ri, _) <- rel (ig_resources g) (ig_ri g) PosS i (t_s x) (t_s t) ;;
        '(rs, ri, _) <- rel rs ri PosP i (t_p x) (t_p t) ;;
        '(rs, ri, _) <- rel rs ri PosO i (t_o x) (t_o t) ;;
        Some (true, IGraphS rs ts ri ti ss ps os)
    end.

  (** 356-362 [extend]; 348-354 [from_iter]; 863-875 the deserializer's
      [visit_seq] is the same loop. *)
  Fixpoint ig_extend (g : igraph) (l : list (triple R)) : option igraph :=
    match l with
    | [] => Some g
    | t :: r => '(_, g') <- ig_insert g t ;; ig_extend g' r
    end.
  Definition ig_from_iter (l : list (triple R)) : option igraph := ig_extend ig_new l.

  (** ** Pattern matching *)

  (** 684-693 [PredicateConstraints::new]; 699-705 the test of [SameAsSubject] *)
  Definition gp_constraint (g : igraph) (c : pat_p R) : option (constraint (triple nat)) :=
    match c with
    | PP_Any => Some CAny
    | PP_SameS => Some (CSame (fun t => t_s t =? t_p t))
    | PP_Given r => given_constraint cmp (ig_resources g) (ig_ri g) PosP r
    end.

  (** 732-742 [ObjectConstraints::new]; 748-761 *)
  Definition go_constraint (g : igraph) (c : pat_o R) : option (constraint (triple nat)) :=
    match c with
    | PO_Any => Some CAny
    | PO_SameS => Some (CSame (fun t => t_s t =? t_o t))
    | PO_SameP => Some (CSame (fun t => t_p t =? t_o t))
    | PO_Given r => given_constraint cmp (ig_resources g) (ig_ri g) PosO r
    end.

  (** 608-615: the state of the iterator, without the graph *)
  Record gm := GM {
    gm_s : constraint (triple nat); gm_p : constraint (triple nat);
    gm_o : constraint (triple nat); gm_i : nat
  }.

  (** 330-339 [pattern_matching] (also 456-461 [triple_pattern_matching]) *)
  Definition gm_new (g : igraph) (c : ctp R) : option gm :=
    s <- s_constraint cmp (ig_resources g) (ig_ri g) (ct_subject c) ;;
    p <- gp_constraint g (ct_predicate c) ;;
    o <- go_constraint g (ct_object c) ;;
    Some (GM s p o 0).

  (** 620-637 [PatternMatching::next], up to the triple found: its index, the
      triple of indexes, and the next state.  [cap] is the capacity of the slab.
      The outer [None] means that [fuel] ran out; [S cap] is enough
      (IndexedGraphProofs.v). *)
  Fixpoint gm_next (fuel cap : nat) (ts : slab (triple nat)) (m : gm)
    : option (option (nat * triple nat * gm)) :=
    match fuel with
    | 0 => None
    | S fuel =>
        if gm_i m <? cap then
          let '(r, cs) := s_next (gm_s m) (gm_i m) in
          match r with
          | None => Some None
          | Some i =>
              match sget ts i with
              | None => Some None
              | Some t =>
                  let '(n, cp) := c_next (gm_p m) i t in
                  match n with
                  | NErr None => Some None
                  | NErr (Some j) => gm_next fuel cap ts (GM cs cp (gm_o m) j)
                  | NOk =>
                      let '(n, co) := c_next (gm_o m) i t in
                      match n with
                      | NErr None => Some None
                      | NErr (Some j) => gm_next fuel cap ts (GM cs cp co j)
                      | NOk => Some (Some (i, t, GM cs cp co (S i)))
                      end
                  end
              end
          end
        else Some None
    end.

  (** The capacity of the slab is at least the number of its entries; [spare]
      is the rest. *)
  Definition gcapacity (g : igraph) (spare : nat) : nat := length (ents (ig_triples g)) + spare.

  (** All that the iterator yields. *)
  Fixpoint gm_collect (fuel cap : nat) (g : igraph) (m : gm) : option (list (triple R)) :=
    match fuel with
    | 0 => None
    | S fuel =>
        r <- gm_next (S cap) cap (ig_triples g) m ;;
        match r with
        | None => Some []
        | Some (_, t, m) =>
            x <- i_triple_with_resources (ig_resources g) t ;;
            l <- gm_collect fuel cap g m ;;
            Some (x :: l)
        end
    end.
  Definition ig_pattern_matching (g : igraph) (spare : nat) (c : ctp R)
    : option (list (triple R)) :=
    m <- gm_new g c ;;
    gm_collect (S (gcapacity g spare)) (gcapacity g spare) g m.

  (** 578-582 [eq] *)
  Definition ig_eqb (eqb : R -> R -> bool) (a b : igraph) : option bool :=
    if ig_len a =? ig_len b then
      x <- ig_iter a ;; y <- ig_iter b ;;
      Some (forallb (fun '(u, v) => triple_eqb eqb eqb eqb u v) (combine x y))
    else Some false.

  (** 586-596 [partial_cmp], [cmp] *)
  Definition ig_cmp (a b : igraph) : option comparison :=
    x <- ig_iter a ;; y <- ig_iter b ;; Some (list_cmp (triple_cmp cmp) x y).

  (** 598-605 [hash]: what is written to the hasher *)
  Definition ig_hash_input (g : igraph) : option (nat * list (triple R)) :=
    x <- ig_iter g ;; Some (ig_len g, x).

  (** 838-847 [serialize]: announced length and elements *)
  Definition ig_serialize (g : igraph) : option (nat * list (triple R)) :=
    x <- ig_iter g ;; Some (ig_len g, x).

  (** One operation of a user (SetSpec.v). *)
  Definition ig_step (g : igraph) (o : op (triple R)) : option (out (triple R) * igraph) :=
    match o with
    | Insert t => '(b, g') <- ig_insert g t ;; Some (OBool b, g')
    | Remove t => '(b, g') <- ig_remove g t ;; Some (OBool b, g')
    | Extend l => g' <- ig_extend g l ;; Some (OUnit, g')
    | Contains t => b <- ig_contains g t ;; Some (OBool b, g)
    | Len => Some (ONat (ig_len g), g)
    | IsEmpty => Some (OBool (ig_is_empty g), g)
    | Iter => l <- ig_iter g ;; Some (OList l, g)
    | IntoIter => l <- ig_into_iter g ;; Some (OList l, g)
    end.

  (** [g] is what one gets from a new [BTreeGraph] by the operations [ops0], the
      conversion, and the operations [ops]. *)
  Definition ig_reached (ops0 ops : list (op (triple R))) (g : igraph) : Prop :=
    exists xs0 b g0 xs, run (bg_step cmp keep) bg_new ops0 = Some (xs0, b) /\
      ig_from_non_indexed b = Some g0 /\ run ig_step g0 ops = Some (xs, g).
End Model.
