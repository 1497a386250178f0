(** [BTreeDataset] (/repo/src/dataset/impl/btree_dataset.rs).
    Functions return [option]: [None] is a panic. *)
From Coq Require Import List Bool Arith.
Import ListNotations.
From Verif Require Import Base SlabModel TripleModel BResourceModel SetSpec.
Open Scope panic_scope.

Section Model.
  Context {R : Type} (cmp : R -> R -> comparison).
  (** behaviour of [RawBTree::insert] on equal items (see SlabModel.v) *)
  Context (keep : bool).

  (** 51-56 *)
  Record bdataset := BDataset {
    bd_resources : slab (bresource R);
    bd_quads : slab (quad nat);
    bd_ri : list nat; (* resources_indexes *)
    bd_qi : list nat  (* quads_indexes *)
  }.

  (** 58-73 [new] *)
  Definition bd_new : bdataset := BDataset slab_new slab_new [] [].

  (** 23-33 [quad_with_resources] *)
  Definition b_quad_with_resources (rs : slab (bresource R)) (q : quad nat) : option (quad R) :=
    s <- br_val rs (q_s q) ;;
    p <- br_val rs (q_p q) ;;
    o <- br_val rs (q_o q) ;;
    match q_g q with
    | None => Some (Quad s p o None)
    | Some g => g <- br_val rs g ;; Some (Quad s p o (Some g))
    end.

  (** [quad_with_resources(resources, quads[i])] *)
  Definition b_quad_at (rs : slab (bresource R)) (qs : slab (quad nat)) (i : nat)
    : option (quad R) :=
    q <- sget qs i ;; b_quad_with_resources rs q.

  (** 35-40 [quad_cmp] *)
  Definition b_quad_cmp (rs : slab (bresource R)) (qs : slab (quad nat)) (i : nat) (q : quad R)
    : option comparison :=
    x <- b_quad_at rs qs i ;; Some (quad_cmp cmp x q).

  (** 42-47 [quad_index_cmp] *)
  Definition b_quad_index_cmp (rs : slab (bresource R)) (qs : slab (quad nat)) (i j : nat)
    : option comparison :=
    x <- b_quad_at rs qs i ;; y <- b_quad_at rs qs j ;; Some (quad_cmp cmp x y).

  (** 76-83 [len], [is_empty] *)
  Definition bd_len (d : bdataset) : nat := slen (bd_quads d).
  Definition bd_is_empty (d : bdataset) : bool := bd_len d =? 0.

  (** 86-92, 330-338 [iter]: all that [Quads] yields (also [quads] 295-297
      and [(&d).into_iter] 357-364). *)
  Definition bd_iter (d : bdataset) : option (list (quad R)) :=
    mapM (b_quad_at (bd_resources d) (bd_quads d)) (bd_qi d).

  (** 95-100, 384-390 [resources]: all that [Resources] yields. *)
  Definition bd_resources_iter (d : bdataset) : option (list R) :=
    mapM (br_val (bd_resources d)) (bd_ri d).

  (** 340-377 [into_iter]: [IntoTriples::next] removes each quad from the slab
      before reading its resources. *)
  Fixpoint b_into_iter (rs : slab (bresource R)) (qs : slab (quad nat)) (idx : list nat)
    : option (list (quad R)) :=
    match idx with
    | [] => Some []
    | i :: r =>
        '(q, qs') <- sremove qs i ;;
        x <- b_quad_with_resources rs q ;;
        l <- b_into_iter rs qs' r ;;
        Some (x :: l)
    end.
  Definition bd_into_iter (d : bdataset) : option (list (quad R)) :=
    b_into_iter (bd_resources d) (bd_quads d) (bd_qi d).

  (** 119-123 [index_of_quad] *)
  Definition bd_index_of_quad (d : bdataset) (q : quad R) : option (option nat) :=
    bt_get (b_quad_cmp (bd_resources d) (bd_quads d)) q (bd_qi d).

  (** 126-128 [contains_resource] *)
  Definition bd_contains_resource (d : bdataset) (r : R) : option bool :=
    i <- b_index_of_resource cmp (bd_resources d) (bd_ri d) r ;; Some (is_some i).

  (** 131-133 [contains] *)
  Definition bd_contains (d : bdataset) (q : quad R) : option bool :=
    i <- bd_index_of_quad d q ;; Some (is_some i).

  (** 139-214 [insert] *)
  Definition bd_insert (d : bdataset) (q : quad R) : option (bool * bdataset) :=
    c <- bd_contains d q ;;
    if c then Some (false, d)
    else
      let rs := bd_resources d in
      let ri := bd_ri d in
      fs <- b_index_of_resource cmp rs ri (q_s q) ;;
      fp <- b_index_of_resource cmp rs ri (q_p q) ;;
      fo <- b_index_of_resource cmp rs ri (q_o q) ;;
      fg <- match q_g q with
            | Some g => f <- b_index_of_resource cmp rs ri g ;; Some (Some (g, f))
            | None => Some None
            end ;;
      let i := vacant_key (bd_quads d) in
      '(s_i, rs, ri) <- b_acquire cmp keep rs ri (q_s q) fs ;;
      '(p_i, rs, ri) <- b_acquire cmp keep rs ri (q_p q) fp ;;
      '(o_i, rs, ri) <- b_acquire cmp keep rs ri (q_o q) fo ;;
      '(g_i, rs, ri) <- match fg with
                        | Some (g, f) =>
                            '(g_i, rs, ri) <- b_acquire cmp keep rs ri g f ;; Some (Some g_i, rs, ri)
                        | None => Some (None, rs, ri)
                        end ;;
      let qs := sinsert (bd_quads d) (Quad s_i p_i o_i g_i) in
      qi <- bt_insert keep (b_quad_index_cmp rs qs) i (bd_qi d) ;;
      Some (true, BDataset rs qs ri qi).

  (** 220-266 [remove] *)
  Definition bd_remove (d : bdataset) (q : quad R) : option (bool * bdataset) :=
    '(found, qi) <- bt_remove (b_quad_cmp (bd_resources d) (bd_quads d)) q (bd_qi d) ;;
    match found with
    | None => Some (false, BDataset (bd_resources d) (bd_quads d) (bd_ri d) qi)
    | Some i =>
        '(x, qs) <- sremove (bd_quads d) i ;;
        '(rs, ri) <- b_release (b_resource_cmp cmp) (bd_resources d) (bd_ri d) (q_s x) (q_s q) ;;
        '(rs, ri) <- b_release (b_resource_cmp cmp) rs ri (q_p x) (q_p q) ;;
        '(rs, ri) <- b_release (b_resource_cmp cmp) rs ri (q_o x) (q_o q) ;;
        '(rs, ri) <- match q_g x with
                     | Some g_i => b_release (b_resource_index_cmp cmp) rs ri g_i g_i
                     | None => Some (rs, ri)
                     end ;;
        Some (true, BDataset rs qs ri qi)
    end.

  (** 277-283 [extend]; 269-275 [from_iter]; 482-493 the deserializer's
      [visit_seq] is the same loop. *)
  Fixpoint bd_extend (d : bdataset) (l : list (quad R)) : option bdataset :=
    match l with
    | [] => Some d
    | q :: r => '(_, d') <- bd_insert d q ;; bd_extend d' r
    end.
  Definition bd_from_iter (l : list (quad R)) : option bdataset := bd_extend bd_new l.

  (** 406-410 [cmp], 400-404 [partial_cmp] *)
  Definition bd_cmp (a b : bdataset) : option comparison :=
    x <- bd_iter a ;; y <- bd_iter b ;; Some (list_cmp (quad_cmp cmp) x y).

  (** 412-419 [hash]: what is written to the hasher: the length, then the
      quads in order. *)
  Definition bd_hash_input (d : bdataset) : option (nat * list (quad R)) :=
    x <- bd_iter d ;; Some (bd_len d, x).

  (** 456-468 [serialize]: announced length and elements. *)
  Definition bd_serialize (d : bdataset) : option (nat * list (quad R)) :=
    x <- bd_iter d ;; Some (bd_len d, x).
End Model.

(** 392-396 [eq] (heterogeneous): lengths, then pairwise comparison of the
    zipped iterators. *)
Definition bd_eqb {A B : Type} (eqb : A -> B -> bool)
    (a : @bdataset A) (b : @bdataset B) : option bool :=
  if bd_len a =? bd_len b then
    x <- bd_iter a ;; y <- bd_iter b ;;
    Some (forallb (fun '(u, v) => quad_eqb eqb eqb eqb eqb u v) (combine x y))
  else Some false.

(** One operation of a user on a [BTreeDataset] (the operations of SetSpec.v). *)
Definition bd_step {R : Type} (cmp : R -> R -> comparison) (keep : bool)
    (d : @bdataset R) (o : op (quad R)) : option (out (quad R) * @bdataset R) :=
  match o with
  | Insert q => '(b, d') <- bd_insert cmp keep d q ;; Some (OBool b, d')
  | Remove q => '(b, d') <- bd_remove cmp d q ;; Some (OBool b, d')
  | Extend l => d' <- bd_extend cmp keep d l ;; Some (OUnit, d')
  | Contains q => b <- bd_contains cmp d q ;; Some (OBool b, d)
  | Len => Some (ONat (bd_len d), d)
  | IsEmpty => Some (OBool (bd_is_empty d), d)
  | Iter => l <- bd_iter d ;; Some (OList l, d)
  | IntoIter => l <- bd_into_iter d ;; Some (OList l, d)
  end.
