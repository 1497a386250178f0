(** [BTreeGraph] (/repo/src/dataset/graph/impl/btree_graph.rs).
    Functions return [option]: [None] is a panic. *)
From Coq Require Import List Bool Arith.
Import ListNotations.
From Verif Require Import Base SlabModel TripleModel BResourceModel SetSpec.
Open Scope panic_scope.

Section Model.
  Context {R : Type} (cmp : R -> R -> comparison).
  (** behaviour of [RawBTree::insert] on equal items (see SlabModel.v) *)
  Context (keep : bool).

  (** 52-58 *)
  Record bgraph := BGraph {
    bg_resources : slab (bresource R);
    bg_triples : slab (triple nat);
    bg_ri : list nat; (* resources_indexes *)
    bg_ti : list nat  (* triples_indexes *)
  }.

  (** 60-75 [new] *)
  Definition bg_new : bgraph := BGraph slab_new slab_new [] [].

  (** 23-32 [triple_with_resources] *)
  Definition b_triple_with_resources (rs : slab (bresource R)) (t : triple nat)
    : option (triple R) :=
    s <- br_val rs (t_s t) ;;
    p <- br_val rs (t_p t) ;;
    o <- br_val rs (t_o t) ;;
    Some (Triple s p o).

  (** [triple_with_resources(resources, triples[i])] *)
  Definition b_triple_at (rs : slab (bresource R)) (ts : slab (triple nat)) (i : nat)
    : option (triple R) :=
    t <- sget ts i ;; b_triple_with_resources rs t.

  (** 34-39 [triple_cmp] *)
  Definition b_triple_cmp (rs : slab (bresource R)) (ts : slab (triple nat)) (i : nat)
      (t : triple R) : option comparison :=
    x <- b_triple_at rs ts i ;; Some (triple_cmp cmp x t).

  (** 41-49 [triple_index_cmp] *)
  Definition b_triple_index_cmp (rs : slab (bresource R)) (ts : slab (triple nat)) (i j : nat)
    : option comparison :=
    x <- b_triple_at rs ts i ;; y <- b_triple_at rs ts j ;; Some (triple_cmp cmp x y).

  (** 78-85 [len], [is_empty] *)
  Definition bg_len (g : bgraph) : nat := slen (bg_triples g).
  Definition bg_is_empty (g : bgraph) : bool := bg_len g =? 0.

  (** 88-94, 304-312 [iter] (also [triples] 269-271, [(&g).into_iter] 335-337). *)
  Definition bg_iter (g : bgraph) : option (list (triple R)) :=
    mapM (b_triple_at (bg_resources g) (bg_triples g)) (bg_ti g).

  (** 97-102, 358-364 [resources] (also [graph_resources] 280-282). *)
  Definition bg_resources_iter (g : bgraph) : option (list R) :=
    mapM (br_val (bg_resources g)) (bg_ri g).

  (** 315-329, 344-350 [into_iter]. *)
  Fixpoint b_into_triples (rs : slab (bresource R)) (ts : slab (triple nat)) (idx : list nat)
    : option (list (triple R)) :=
    match idx with
    | [] => Some []
    | i :: r =>
        '(t, ts') <- sremove ts i ;;
        x <- b_triple_with_resources rs t ;;
        l <- b_into_triples rs ts' r ;;
        Some (x :: l)
    end.
  Definition bg_into_iter (g : bgraph) : option (list (triple R)) :=
    b_into_triples (bg_resources g) (bg_triples g) (bg_ti g).

  (** 121-125 [index_of_triple] *)
  Definition bg_index_of_triple (g : bgraph) (t : triple R) : option (option nat) :=
    bt_get (b_triple_cmp (bg_resources g) (bg_triples g)) t (bg_ti g).

  (** 128-130 [contains_resource] *)
  Definition bg_contains_resource (g : bgraph) (r : R) : option bool :=
    i <- b_index_of_resource cmp (bg_resources g) (bg_ri g) r ;; Some (is_some i).

  (** 133-135 [contains] *)
  Definition bg_contains (g : bgraph) (t : triple R) : option bool :=
    i <- bg_index_of_triple g t ;; Some (is_some i).

  (** 141-198 [insert] *)
  Definition bg_insert (g : bgraph) (t : triple R) : option (bool * bgraph) :=
    c <- bg_contains g t ;;
    if c then Some (false, g)
    else
      let rs := bg_resources g in
      let ri := bg_ri g in
      fs <- b_index_of_resource cmp rs ri (t_s t) ;;
      fp <- b_index_of_resource cmp rs ri (t_p t) ;;
      fo <- b_index_of_resource cmp rs ri (t_o t) ;;
      let i := vacant_key (bg_triples g) in
      '(s_i, rs, ri) <- b_acquire cmp keep rs ri (t_s t) fs ;;
      '(p_i, rs, ri) <- b_acquire cmp keep rs ri (t_p t) fp ;;
      '(o_i, rs, ri) <- b_acquire cmp keep rs ri (t_o t) fo ;;
      let ts := sinsert (bg_triples g) (Triple s_i p_i o_i) in
      ti <- bt_insert keep (b_triple_index_cmp rs ts) i (bg_ti g) ;;
      Some (true, BGraph rs ts ri ti).

  (** 204-240 [remove] *)
  Definition bg_remove (g : bgraph) (t : triple R) : option (bool * bgraph) :=
    '(found, ti) <- bt_remove (b_triple_cmp (bg_resources g) (bg_triples g)) t (bg_ti g) ;;
    match found with
    | None => Some (false, BGraph (bg_resources g) (bg_triples g) (bg_ri g) ti)
    | Some i =>
        '(x, ts) <- sremove (bg_triples g) i ;;
        '(rs, ri) <- b_release (b_resource_cmp cmp) (bg_resources g) (bg_ri g) (t_s x) (t_s t) ;;
        '(rs, ri) <- b_release (b_resource_cmp cmp) rs ri (t_p x) (t_p t) ;;
        '(rs, ri) <- b_release (b_resource_cmp cmp) rs ri (t_o x) (t_o t) ;;
        Some (true, BGraph rs ts ri ti)
    end.

  (** 251-257 [extend]; 243-249 [from_iter]; 456-467 the deserializer's
      [visit_seq] is the same loop. *)
  Fixpoint bg_extend (g : bgraph) (l : list (triple R)) : option bgraph :=
    match l with
    | [] => Some g
    | t :: r => '(_, g') <- bg_insert g t ;; bg_extend g' r
    end.
  Definition bg_from_iter (l : list (triple R)) : option bgraph := bg_extend bg_new l.

  (** 366-370 [eq] *)
  Definition bg_eqb (eqb : R -> R -> bool) (a b : bgraph) : option bool :=
    if bg_len a =? bg_len b then
      x <- bg_iter a ;; y <- bg_iter b ;;
      Some (forallb (fun '(u, v) => triple_eqb eqb eqb eqb u v) (combine x y))
    else Some false.

  (** 380-384 [cmp], 374-378 [partial_cmp] *)
  Definition bg_cmp (a b : bgraph) : option comparison :=
    x <- bg_iter a ;; y <- bg_iter b ;; Some (list_cmp (triple_cmp cmp) x y).

  (** 386-393 [hash]: what is written to the hasher. *)
  Definition bg_hash_input (g : bgraph) : option (nat * list (triple R)) :=
    x <- bg_iter g ;; Some (bg_len g, x).

  (** 431-442 [serialize]: announced length and elements. *)
  Definition bg_serialize (g : bgraph) : option (nat * list (triple R)) :=
    x <- bg_iter g ;; Some (bg_len g, x).

  (** One operation of a user (SetSpec.v). *)
  Definition bg_step (g : bgraph) (o : op (triple R)) : option (out (triple R) * bgraph) :=
    match o with
    | Insert t => '(b, g') <- bg_insert g t ;; Some (OBool b, g')
    | Remove t => '(b, g') <- bg_remove g t ;; Some (OBool b, g')
    | Extend l => g' <- bg_extend g l ;; Some (OUnit, g')
    | Contains t => b <- bg_contains g t ;; Some (OBool b, g)
    | Len => Some (ONat (bg_len g), g)
    | IsEmpty => Some (OBool (bg_is_empty g), g)
    | Iter => l <- bg_iter g ;; Some (OList l, g)
    | IntoIter => l <- bg_into_iter g ;; Some (OList l, g)
    end.
End Model.
