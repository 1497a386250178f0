(** [IndexedBTreeDataset] (/repo/src/dataset/impl/indexed_btree_dataset.rs).
    Functions return [option]: [None] is a panic. *)
From Coq Require Import List Bool Arith.
Import ListNotations.
From Verif Require Import Base SlabModel TripleModel TriplePatternModel QuadPatternModel
  SetSpec IndexedSpec Machine BResourceModel BTreeDatasetModel BTreeGraphModel IResourceModel.
Open Scope panic_scope.

Section Model.
  Context {R : Type} (cmp : R -> R -> comparison).
  (** behaviour of [RawBTree::insert] on equal items (see SlabModel.v) *)
  Context (keep : bool).

  (** 62-72 *)
  Record idataset := IDataset {
    id_resources : slab (iresource R);
    id_quads : slab (quad nat);
    id_ri : list nat; (* resources_indexes *)
    id_qi : list nat; (* quads_indexes *)
    id_s : list nat;  (* subjects *)
    id_p : list nat;  (* predicates *)
    id_o : list nat;  (* objects *)
    id_dg : list nat; (* default_graph *)
    id_ng : list nat  (* named_graphs *)
  }.

  (** 74-94 [new] *)
  Definition id_new : idataset := IDataset slab_new slab_new [] [] [] [] [] [] [].

  (** 34-44 [quad_with_resources] *)
  Definition i_quad_with_resources (rs : slab (iresource R)) (q : quad nat) : option (quad R) :=
    s <- ir_val rs (q_s q) ;;
    p <- ir_val rs (q_p q) ;;
    o <- ir_val rs (q_o q) ;;
    match q_g q with
    | None => Some (Quad s p o None)
    | Some g => g <- ir_val rs g ;; Some (Quad s p o (Some g))
    end.

  (** [quad_with_resources(resources, quads[i])] *)
  Definition i_quad_at (rs : slab (iresource R)) (qs : slab (quad nat)) (i : nat)
    : option (quad R) :=
    q <- sget qs i ;; i_quad_with_resources rs q.

  (** 46-51 [quad_cmp] *)
  Definition i_quad_cmp (rs : slab (iresource R)) (qs : slab (quad nat)) (i : nat) (q : quad R)
    : option comparison :=
    x <- i_quad_at rs qs i ;; Some (quad_cmp cmp x q).

  (** 53-58 [quad_index_cmp] *)
  Definition i_quad_index_cmp (rs : slab (iresource R)) (qs : slab (quad nat)) (i j : nat)
    : option comparison :=
    x <- i_quad_at rs qs i ;; y <- i_quad_at rs qs j ;; Some (quad_cmp cmp x y).

  (** [resources[k].as_...insert(i)] *)
  Definition i_use (rs : slab (iresource R)) (p : pos) (k i : nat) : option (slab (iresource R)) :=
    r <- sget rs k ;; Some (sset rs k (ir_upd p (ns_insert i) r)).

  (** 120-141: the loop of [from_non_indexed] *)
  Fixpoint id_index (idx : list nat) (d : idataset) : option idataset :=
    match idx with
    | [] => Some d
    | i :: idx =>
        q <- sget (id_quads d) i ;;
        rs <- i_use (id_resources d) PosS (q_s q) i ;;
        rs <- i_use rs PosP (q_p q) i ;;
        rs <- i_use rs PosO (q_o q) i ;;
        rs <- match q_g q with Some g => i_use rs PosG g i | None => Some rs end ;;
        id_index idx
          (IDataset rs (id_quads d) (id_ri d) (id_qi d)
             (ns_insert (q_s q) (id_s d)) (ns_insert (q_p q) (id_p d)) (ns_insert (q_o q) (id_o d))
             (match q_g q with Some _ => id_dg d | None => ns_insert i (id_dg d) end)
             (match q_g q with Some g => ns_insert g (id_ng d) | None => id_ng d end))
    end.

  (** 97-154 [from_non_indexed]; 491-495 [From], btree_dataset.rs 106-108
      [into_indexed] *)
  Definition id_from_non_indexed (b : @bdataset R) : option idataset :=
    let rs := scollect (map (fun '(i, r) => (i, IRes (br_value r) [] [] [] []))
                            (spairs (bd_resources b))) in
    id_index (bd_qi b) (IDataset rs (bd_quads b) (bd_ri b) (bd_qi b) [] [] [] [] []).

  (** 157-164 [len], [is_empty] *)
  Definition id_len (d : idataset) : nat := slen (id_quads d).
  Definition id_is_empty (d : idataset) : bool := id_len d =? 0.

  (** 167-173, 660-668 [iter]: all that [Quads] yields (also 523-525 [quads],
      687-694 [(&d).into_iter]) *)
  Definition id_iter (d : idataset) : option (list (quad R)) :=
    mapM (i_quad_at (id_resources d) (id_quads d)) (id_qi d).

  (** 677-685, 696-707 [into_iter] *)
  Fixpoint i_into_iter (rs : slab (iresource R)) (qs : slab (quad nat)) (idx : list nat)
    : option (list (quad R)) :=
    match idx with
    | [] => Some []
    | i :: r =>
        '(q, qs') <- sremove qs i ;;
        x <- i_quad_with_resources rs q ;;
        l <- i_into_iter rs qs' r ;;
        Some (x :: l)
    end.
  Definition id_into_iter (d : idataset) : option (list (quad R)) :=
    i_into_iter (id_resources d) (id_quads d) (id_qi d).

  (** 176-213, 709-772: all that [resources], [subjects], [predicates],
      [objects] and [named_graphs] yield *)
  Definition id_values (d : idataset) (l : list nat) : option (list R) :=
    mapM (ir_val (id_resources d)) l.
  Definition id_resources_iter (d : idataset) := id_values d (id_ri d).
  Definition id_subjects (d : idataset) := id_values d (id_s d).
  Definition id_predicates (d : idataset) := id_values d (id_p d).
  Definition id_objects (d : idataset) := id_values d (id_o d).
  Definition id_named_graphs (d : idataset) := id_values d (id_ng d).
  (** 538-540, 553-555, 568-570, 583-585, 598-600 *)
  Definition id_resource_count (d : idataset) : nat := slen (id_resources d).
  Definition id_subject_count (d : idataset) : nat := length (id_s d).
  Definition id_predicate_count (d : idataset) : nat := length (id_p d).
  Definition id_object_count (d : idataset) : nat := length (id_o d).
  Definition id_named_graph_count (d : idataset) : nat := length (id_ng d).

  (** 228-232 [index_of_quad] *)
  Definition id_index_of_quad (d : idataset) (q : quad R) : option (option nat) :=
    bt_get (i_quad_cmp (id_resources d) (id_quads d)) q (id_qi d).

  (** 235-237 [contains_resource], 240-242 [contains] *)
  Definition id_contains_resource (d : idataset) (r : R) : option bool :=
    i <- i_index_of_resource cmp (id_resources d) (id_ri d) r ;; Some (is_some i).
  Definition id_contains (d : idataset) (q : quad R) : option bool :=
    i <- id_index_of_quad d q ;; Some (is_some i).

  (** 248-333 [insert] *)
  Definition id_insert (d : idataset) (q : quad R) : option (bool * idataset) :=
    c <- id_contains d q ;;
    if c then Some (false, d)
    else
      let rs := id_resources d in
      let ri := id_ri d in
      fs <- i_index_of_resource cmp rs ri (q_s q) ;;
      fp <- i_index_of_resource cmp rs ri (q_p q) ;;
      fo <- i_index_of_resource cmp rs ri (q_o q) ;;
      fg <- match q_g q with
            | Some g => f <- i_index_of_resource cmp rs ri g ;; Some (Some (g, f))
            | None => Some None
            end ;;
      let i := vacant_key (id_quads d) in
      '(s_i, rs, ri) <- i_acquire cmp keep rs ri PosS i (q_s q) fs ;;
      '(p_i, rs, ri) <- i_acquire cmp keep rs ri PosP i (q_p q) fp ;;
      '(o_i, rs, ri) <- i_acquire cmp keep rs ri PosO i (q_o q) fo ;;
      '(g_i, rs, ri) <- match fg with
                        | Some (g, f) =>
                            '(g_i, rs, ri) <- i_acquire cmp keep rs ri PosG i g f ;;
                            Some (Some g_i, rs, ri)
                        | None => Some (None, rs, ri)
                        end ;;
      let dg := match g_i with Some _ => id_dg d | None => ns_insert i (id_dg d) end in
      let ng := match g_i with Some g => ns_insert g (id_ng d) | None => id_ng d end in
      let qs := sinsert (id_quads d) (Quad s_i p_i o_i g_i) in
      qi <- bt_insert keep (i_quad_index_cmp rs qs) i (id_qi d) ;;
      Some (true, IDataset rs qs ri qi (ns_insert s_i (id_s d)) (ns_insert p_i (id_p d))
                    (ns_insert o_i (id_o d)) dg ng).

  (** 379-430 [remove_by_index] *)
  Definition id_remove_by_index (d : idataset) (i : nat) (remove_index : bool)
    : option idataset :=
    qi <- (if remove_index then
             '(_, qi) <- bt_remove (i_quad_index_cmp (id_resources d) (id_quads d)) i (id_qi d) ;;
             Some qi
           else Some (id_qi d)) ;;
    '(x, qs) <- sremove (id_quads d) i ;;
    let ss := ns_remove (q_s x) (id_s d) in
    let ps := ns_remove (q_p x) (id_p d) in
    let os := ns_remove (q_o x) (id_o d) in
    let rel := i_release (i_resource_index_cmp cmp) in
    '(rs, ri, _) <- rel (id_resources d) (id_ri d) PosS i (q_s x) (q_s x) ;;
    '(rs, ri, _) <- rel rs ri PosP i (q_p x) (q_p x) ;;
    '(rs, ri, _) <- rel rs ri PosO i (q_o x) (q_o x) ;;
    match q_g x with
    | Some g =>
        '(rs, ri, dropped) <- rel rs ri PosG i g g ;;
        Some (IDataset rs qs ri qi ss ps os (id_dg d)
                (if dropped then ns_remove g (id_ng d) else id_ng d))
    | None => Some (IDataset rs qs ri qi ss ps os (ns_remove i (id_dg d)) (id_ng d))
    end.

  (** 339-350 [remove] *)
  Definition id_remove (d : idataset) (q : quad R) : option (bool * idataset) :=
    '(found, qi) <- bt_remove (i_quad_cmp (id_resources d) (id_quads d)) q (id_qi d) ;;
    let d := IDataset (id_resources d) (id_quads d) (id_ri d) qi
               (id_s d) (id_p d) (id_o d) (id_dg d) (id_ng d) in
    match found with
    | None => Some (false, d)
    | Some i => d <- id_remove_by_index d i false ;; Some (true, d)
    end.

  (** 369-374: the loop of [remove_graph] *)
  Fixpoint id_remove_all (idx : list nat) (d : idataset) (g : @bgraph R)
    : option (@bgraph R * idataset) :=
    match idx with
    | [] => Some (g, d)
    | i :: idx =>
        q <- i_quad_at (id_resources d) (id_quads d) i ;;
        d <- id_remove_by_index d i true ;;
        '(_, g) <- bg_insert cmp keep g (fst (into_triple q)) ;;
        id_remove_all idx d g
    end.

  (** 353-377 [remove_graph] *)
  Definition id_remove_graph (d : idataset) (graph : option R)
    : option (option (@bgraph R) * idataset) :=
    idx <- match graph with
           | Some g =>
               f <- i_index_of_resource cmp (id_resources d) (id_ri d) g ;;
               match f with
               | None => Some None
               | Some k =>
                   if ns_mem k (id_ng d) then
                     r <- sget (id_resources d) k ;; Some (Some (ir_g r))
                   else Some None
               end
           | None => Some (Some (id_dg d))
           end ;;
    match idx with
    | None => Some (None, d)
    | Some idx => '(g, d) <- id_remove_all idx d bg_new ;; Some (Some g, d)
    end.

  (** 505-511 [extend]; 497-503 [from_iter]; 1445-1457 the deserializer's
      [visit_seq] is the same loop. *)
  Fixpoint id_extend (d : idataset) (l : list (quad R)) : option idataset :=
    match l with
    | [] => Some d
    | q :: r => '(_, d') <- id_insert d q ;; id_extend d' r
    end.
  Definition id_from_iter (l : list (quad R)) : option idataset := id_extend id_new l.

  (** ** Pattern matching *)

  (** 1008-1019, 1022-1039 [PredicateConstraints::new], [new_owned]; 1073-1079
      the test of [SameAsSubject] *)
  Definition p_constraint (d : idataset) (c : pat_p R) : option (constraint (quad nat)) :=
    match c with
    | PP_Any => Some CAny
    | PP_SameS => Some (CSame (fun q => q_s q =? q_p q))
    | PP_Given r => given_constraint cmp (id_resources d) (id_ri d) PosP r
    end.

  (** 1105-1117, 1120-1138 [ObjectConstraints::new], [new_owned]; 1173-1186 *)
  Definition o_constraint (d : idataset) (c : pat_o R) : option (constraint (quad nat)) :=
    match c with
    | PO_Any => Some CAny
    | PO_SameS => Some (CSame (fun q => q_s q =? q_o q))
    | PO_SameP => Some (CSame (fun q => q_p q =? q_o q))
    | PO_Given r => given_constraint cmp (id_resources d) (id_ri d) PosO r
    end.

  (** [Some(k) == quad.3] *)
  Definition is_graph (k : nat) (g : option nat) : bool :=
    match g with Some j => k =? j | None => false end.

  (** 1213-1229, 1232-1260 [GraphConstraints::new], [new_owned]; 1305-1325 *)
  Definition g_constraint (d : idataset) (c : pat_g R) : option (constraint (quad nat)) :=
    match c with
    | PG_Any => Some CAny
    | PG_SameS => Some (CSame (fun q => is_graph (q_s q) (q_g q)))
    | PG_SameP => Some (CSame (fun q => is_graph (q_p q) (q_g q)))
    | PG_SameO => Some (CSame (fun q => is_graph (q_o q) (q_g q)))
    | PG_Given (Some r) => given_constraint cmp (id_resources d) (id_ri d) PosG r
    | PG_Given None => Some (CFixed (id_dg d))
    end.

  (** 804-812, 841-849, 878-885: the state of the three iterators, without the
      dataset *)
  Record pm := PM {
    pm_s : constraint (quad nat); pm_p : constraint (quad nat);
    pm_o : constraint (quad nat); pm_g : constraint (quad nat); pm_i : nat
  }.

  (** 434-444 [pattern_matching]; 475-478 the constraints of
      [extract_pattern_matching] *)
  Definition pm_new (d : idataset) (c : cqp R) : option pm :=
    s <- s_constraint cmp (id_resources d) (id_ri d) (cq_subject c) ;;
    p <- p_constraint d (cq_predicate c) ;;
    o <- o_constraint d (cq_object c) ;;
    g <- g_constraint d (cq_graph c) ;;
    Some (PM s p o g 0).

  (** 448-467 [multi_pattern_matching], 960-977, 1046-1064, 1145-1164,
      1267-1296 [new_multi].  A list stands for the [IntoIterator]. *)
  Definition pm_new_multi (d : idataset) (c : cqp (list R)) : option pm :=
    let '(s, p, o, g) := cq_into_parts c in
    let multi := multi_constraint cmp (id_resources d) (id_ri d) in
    s <- match s with
         | PS_Any => Some CAny
         | PS_Given l => multi PosS l
         end ;;
    p <- match p with
         | PP_Any => Some CAny
         | PP_SameS => Some (CSame (fun q => q_s q =? q_p q))
         | PP_Given l => multi PosP l
         end ;;
    o <- match o with
         | PO_Any => Some CAny
         | PO_SameS => Some (CSame (fun q => q_s q =? q_o q))
         | PO_SameP => Some (CSame (fun q => q_p q =? q_o q))
         | PO_Given l => multi PosO l
         end ;;
    g <- match g with
         | PG_Any => Some CAny
         | PG_SameS => Some (CSame (fun q => is_graph (q_s q) (q_g q)))
         | PG_SameP => Some (CSame (fun q => is_graph (q_p q) (q_g q)))
         | PG_SameO => Some (CSame (fun q => is_graph (q_o q) (q_g q)))
         | PG_Given (Some l) => multi PosG l
         | PG_Given None => Some (CFixed (id_dg d))
         end ;;
    Some (PM s p o g 0).

  (** 817-837 [PatternMatching::next], 854-874 [MultiPatternMatching::next],
      890-912 [ExtractPatternMatching::next], up to the quad found: its index,
      the quad of indexes, and the next state.  [cap] is the capacity of the
      slab.  The outer [None] means that [fuel] ran out; [S cap] is enough
      (IndexedDatasetProofs.v). *)
  Fixpoint pm_next (fuel cap : nat) (qs : slab (quad nat)) (m : pm)
    : option (option (nat * quad nat * pm)) :=
    match fuel with
    | 0 => None
    | S fuel =>
        if pm_i m <? cap then
          let '(r, cs) := s_next (pm_s m) (pm_i m) in
          match r with
          | None => Some None
          | Some i =>
              match sget qs i with
              | None => Some None
              | Some q =>
                  let '(n, cp) := c_next (pm_p m) i q in
                  match n with
                  | NErr None => Some None
                  | NErr (Some j) => pm_next fuel cap qs (PM cs cp (pm_o m) (pm_g m) j)
                  | NOk =>
                      let '(n, co) := c_next (pm_o m) i q in
                      match n with
                      | NErr None => Some None
                      | NErr (Some j) => pm_next fuel cap qs (PM cs cp co (pm_g m) j)
                      | NOk =>
                          let '(n, cg) := c_next (pm_g m) i q in
                          match n with
                          | NErr None => Some None
                          | NErr (Some j) => pm_next fuel cap qs (PM cs cp co cg j)
                          | NOk => Some (Some (i, q, PM cs cp co cg (S i)))
                          end
                      end
                  end
              end
          end
        else Some None
    end.

  (** The capacity of the slab is at least the number of its entries; [spare]
      is the rest. *)
  Definition capacity (d : idataset) (spare : nat) : nat := length (ents (id_quads d)) + spare.

  (** All that the iterator yields. *)
  Fixpoint pm_collect (fuel cap : nat) (d : idataset) (m : pm) : option (list (quad R)) :=
    match fuel with
    | 0 => None
    | S fuel =>
        r <- pm_next (S cap) cap (id_quads d) m ;;
        match r with
        | None => Some []
        | Some (_, q, m) =>
            x <- i_quad_with_resources (id_resources d) q ;;
            l <- pm_collect fuel cap d m ;;
            Some (x :: l)
        end
    end.
  Definition id_pattern_matching (d : idataset) (spare : nat) (c : cqp R)
    : option (list (quad R)) :=
    m <- pm_new d c ;;
    pm_collect (S (capacity d spare)) (capacity d spare) d m.
  Definition id_multi_pattern_matching (d : idataset) (spare : nat) (c : cqp (list R))
    : option (list (quad R)) :=
    m <- pm_new_multi d c ;;
    pm_collect (S (capacity d spare)) (capacity d spare) d m.

  (** The first [n] items of [extract_pattern_matching] (471-488, 890-912), and
      the dataset once they are taken. *)
  Fixpoint pm_extract (n cap : nat) (d : idataset) (m : pm)
    : option (list (quad R) * idataset) :=
    match n with
    | 0 => Some ([], d)
    | S n =>
        r <- pm_next (S cap) cap (id_quads d) m ;;
        match r with
        | None => Some ([], d)
        | Some (i, q, m) =>
            x <- i_quad_with_resources (id_resources d) q ;;
            d <- id_remove_by_index d i true ;;
            '(l, d) <- pm_extract n cap d m ;;
            Some (x :: l, d)
        end
    end.
  Definition id_extract (d : idataset) (spare : nat) (c : cqp R) (n : nat)
    : option (list (quad R) * idataset) :=
    m <- pm_new d c ;;
    pm_extract n (capacity d spare) d m.

  (** 782-792 [partial_cmp], [cmp] *)
  Definition id_cmp (a b : idataset) : option comparison :=
    x <- id_iter a ;; y <- id_iter b ;; Some (list_cmp (quad_cmp cmp) x y).

  (** 794-801 [hash]: what is written to the hasher *)
  Definition id_hash_input (d : idataset) : option (nat * list (quad R)) :=
    x <- id_iter d ;; Some (id_len d, x).

  (** 1418-1429 [serialize]: announced length and elements. *)
  Definition id_serialize (d : idataset) : option (nat * list (quad R)) :=
    x <- id_iter d ;; Some (id_len d, x).

  (** One operation of a user (IndexedSpec.v). *)
  Definition id_step (d : idataset) (o : iop R) : option (iout R * idataset) :=
    match o with
    | IOp (Insert q) => '(b, d') <- id_insert d q ;; Some (IOut (OBool b), d')
    | IOp (Remove q) => '(b, d') <- id_remove d q ;; Some (IOut (OBool b), d')
    | IOp (Extend l) => d' <- id_extend d l ;; Some (IOut OUnit, d')
    | IOp (Contains q) => b <- id_contains d q ;; Some (IOut (OBool b), d)
    | IOp Len => Some (IOut (ONat (id_len d)), d)
    | IOp IsEmpty => Some (IOut (OBool (id_is_empty d)), d)
    | IOp Iter => l <- id_iter d ;; Some (IOut (OList l), d)
    | IOp IntoIter => l <- id_into_iter d ;; Some (IOut (OList l), d)
    | IRemoveGraph g =>
        '(r, d') <- id_remove_graph d g ;;
        match r with
        | None => Some (IGraph None, d')
        | Some b => l <- bg_iter b ;; Some (IGraph (Some l), d')
        end
    | IExtract c n spare => '(l, d') <- id_extract d spare c n ;; Some (IQuads l, d')
    end.

  (** [d] is what one gets from a new [BTreeDataset] by the operations [ops0], the
      conversion, and the operations [ops], which returned [xs]. *)
  Definition id_reached (ops0 : list (op (quad R))) (ops : list (iop R)) (xs : list (iout R))
      (d : idataset) : Prop :=
    exists xs0 b d0, run (bd_step cmp keep) bd_new ops0 = Some (xs0, b) /\
      id_from_non_indexed b = Some d0 /\ run id_step d0 ops = Some (xs, d).
End Model.

(** 774-778 [eq] *)
Definition id_eqb {A : Type} (eqb : A -> A -> bool) (a b : @idataset A) : option bool :=
  if id_len a =? id_len b then
    x <- id_iter a ;; y <- id_iter b ;;
    Some (forallb (fun '(u, v) => quad_eqb eqb eqb eqb eqb u v) (combine x y))
  else Some false.
