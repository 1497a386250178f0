(** [IndexedBTreeDataset] and [IndexedBTreeGraph] when the comparison of
    resources (or their [Clone]) may panic: the operations of IndexedDatasetModel.v and
    IndexedGraphModel.v as sequences of changes of the state (see CrashModel.v).

    ds = dataset/impl/indexed_btree_dataset.rs,
    gr = dataset/graph/impl/indexed_btree_graph.rs

    Changes with no comparison between them are made at once. *)
From Coq Require Import List Bool Arith.
Import ListNotations.
From Verif Require Import Base SlabModel TripleModel SetSpec BResourceModel BTreeDatasetModel
  BTreeGraphModel IResourceModel IndexedDatasetModel IndexedGraphModel CrashModel.
Open Scope act_scope.

(** An action on a value that is not part of the state: when the action is
    interrupted, the value is dropped. *)
Definition local {St T A : Type} (a : act T A) (t : T) : act St (A * T) :=
  fun n s =>
    match a n t with
    | Done x m t' => Done (x, t') m s
    | Interrupted _ => Interrupted s
    | Failed _ => Failed s
    end.

(** quad.rs 31-44 [cloned]: three or four calls of [R::clone], each of which may
    panic as the comparison may. *)
Definition m_cloned {St R : Type} (q : quad R) : act St (quad R) :=
  s <- called (q_s q) ;; p <- called (q_p q) ;; o <- called (q_o q) ;;
  g <- match q_g q with Some g => g <- called g ;; ret (Some g) | None => ret None end ;;
  ret (Quad s p o g).

Section Model.
  Context {R : Type} (cmp : R -> R -> comparison).
  (** behaviour of [RawBTree::insert] on equal items (see SlabModel.v) *)
  Context (keep : bool).

  (** ** The table of resources *)

  (** [resources] and [resources_indexes] *)
  Definition itable : Type := slab (iresource R) * list nat.

  (** ds 217-221, gr 188-192 [index_of_resource] *)
  Definition m_i_index_of_resource (r : R) : act itable (option nat) :=
    '(rs, ri) <- get ;; m_get (m_resource_cmp cmp (ir_val rs)) r ri.

  (** ds 263-274 (and 276-287, 289-300, 303-312), gr 230-241 (and 243-254,
      256-267): the resource is in the slab, with the index of the quad, before
      it is looked for in the tree. *)
  Definition m_i_acquire (p : pos) (i : nat) (v : R) (found : option nat) : act itable nat :=
    '(rs, ri) <- get ;;
    match found with
    | Some k =>
        r <- need (sget rs k) ;;
        _ <- put (sset rs k (ir_upd p (ns_insert i) r), ri) ;;
        ret k
    | None =>
        let k := vacant_key rs in
        let rs := sinsert rs (ir_single p v i) in
        _ <- put (rs, ri) ;;
        ri <- m_insert keep (m_resource_index_cmp cmp (ir_val rs)) k ri ;;
        _ <- put (rs, ri) ;;
        ret k
    end.

  (** ds 391-397 (and 399-405, 407-413, 417-424), gr 298-304 (and 306-312,
      314-320): the index of the quad is removed from the resource before the
      resource is looked for in the tree. *)
  Definition m_i_release {K} (rcmp : (nat -> option R) -> nat -> K -> act itable comparison)
      (p : pos) (i k : nat) (key : K) : act itable bool :=
    '(rs, ri) <- get ;;
    r <- need (sget rs k) ;;
    let r := ir_upd p (ns_remove i) r in
    let rs := sset rs k r in
    _ <- put (rs, ri) ;;
    if ir_is_empty r then
      '(_, ri) <- m_remove (rcmp (ir_val rs)) key ri ;;
      _ <- put (rs, ri) ;;
      '(_, rs) <- need (sremove rs k) ;;
      _ <- put (rs, ri) ;;
      ret true
    else ret false.

  (** ** [IndexedBTreeDataset] *)

  Definition m_id_table {A} (a : act itable A) : act (@idataset R) A :=
    zoom (fun d => (id_resources d, id_ri d))
         (fun '(rs, ri) d => IDataset rs (id_quads d) ri (id_qi d)
                               (id_s d) (id_p d) (id_o d) (id_dg d) (id_ng d)) a.

  (** ds 228-232 [index_of_quad], 240-242 [contains] *)
  Definition m_id_contains (q : quad R) : act (@idataset R) bool :=
    d <- get ;;
    i <- m_get (m_quad_at_cmp cmp (i_quad_at (id_resources d) (id_quads d))) q (id_qi d) ;;
    ret (is_some i).

  (** ds 248-333 [insert] *)
  Definition m_id_insert (q : quad R) : act (@idataset R) bool :=
    c <- m_id_contains q ;;
    if c then ret false
    else
      fs <- m_id_table (m_i_index_of_resource (q_s q)) ;;
      fp <- m_id_table (m_i_index_of_resource (q_p q)) ;;
      fo <- m_id_table (m_i_index_of_resource (q_o q)) ;;
      fg <- match q_g q with
            | Some g => f <- m_id_table (m_i_index_of_resource g) ;; ret (Some (g, f))
            | None => ret None
            end ;;
      d <- get ;;
      let i := vacant_key (id_quads d) in
      s_i <- m_id_table (m_i_acquire PosS i (q_s q) fs) ;;
      p_i <- m_id_table (m_i_acquire PosP i (q_p q) fp) ;;
      o_i <- m_id_table (m_i_acquire PosO i (q_o q) fo) ;;
      g_i <- match fg with
             | Some (g, f) => g_i <- m_id_table (m_i_acquire PosG i g f) ;; ret (Some g_i)
             | None => ret None
             end ;;
      d <- get ;;
      let dg := match g_i with Some _ => id_dg d | None => ns_insert i (id_dg d) end in
      let ng := match g_i with Some g => ns_insert g (id_ng d) | None => id_ng d end in
      let qs := sinsert (id_quads d) (Quad s_i p_i o_i g_i) in
      let d qi := IDataset (id_resources d) qs (id_ri d) qi (ns_insert s_i (id_s d))
                    (ns_insert p_i (id_p d)) (ns_insert o_i (id_o d)) dg ng in
      d0 <- get ;;
      _ <- put (d (id_qi d0)) ;;
      qi <- m_insert keep (m_quad_index_cmp cmp (i_quad_at (id_resources d0) qs)) i (id_qi d0) ;;
      _ <- put (d qi) ;;
      ret true.

  (** ds 379-430 [remove_by_index] *)
  Definition m_id_remove_by_index (i : nat) (remove_index : bool) : act (@idataset R) unit :=
    d <- get ;;
    _ <- (if remove_index then
            '(_, qi) <- m_remove (m_quad_index_cmp cmp (i_quad_at (id_resources d) (id_quads d)))
                          i (id_qi d) ;;
            put (IDataset (id_resources d) (id_quads d) (id_ri d) qi
                   (id_s d) (id_p d) (id_o d) (id_dg d) (id_ng d))
          else ret tt) ;;
    d <- get ;;
    '(x, qs) <- need (sremove (id_quads d) i) ;;
    _ <- put (IDataset (id_resources d) qs (id_ri d) (id_qi d)
                (ns_remove (q_s x) (id_s d)) (ns_remove (q_p x) (id_p d))
                (ns_remove (q_o x) (id_o d)) (id_dg d) (id_ng d)) ;;
    _ <- m_id_table (m_i_release (m_resource_index_cmp cmp) PosS i (q_s x) (q_s x)) ;;
    _ <- m_id_table (m_i_release (m_resource_index_cmp cmp) PosP i (q_p x) (q_p x)) ;;
    _ <- m_id_table (m_i_release (m_resource_index_cmp cmp) PosO i (q_o x) (q_o x)) ;;
    match q_g x with
    | Some g =>
        dropped <- m_id_table (m_i_release (m_resource_index_cmp cmp) PosG i g g) ;;
        d <- get ;;
        put (IDataset (id_resources d) (id_quads d) (id_ri d) (id_qi d)
               (id_s d) (id_p d) (id_o d) (id_dg d)
               (if dropped then ns_remove g (id_ng d) else id_ng d))
    | None =>
        d <- get ;;
        put (IDataset (id_resources d) (id_quads d) (id_ri d) (id_qi d)
               (id_s d) (id_p d) (id_o d) (ns_remove i (id_dg d)) (id_ng d))
    end.

  (** ds 339-350 [remove] *)
  Definition m_id_remove (q : quad R) : act (@idataset R) bool :=
    d <- get ;;
    '(found, qi) <- m_remove (m_quad_at_cmp cmp (i_quad_at (id_resources d) (id_quads d))) q (id_qi d) ;;
    _ <- put (IDataset (id_resources d) (id_quads d) (id_ri d) qi
                (id_s d) (id_p d) (id_o d) (id_dg d) (id_ng d)) ;;
    match found with
    | None => ret false
    | Some i => _ <- m_id_remove_by_index i false ;; ret true
    end.

  (** ds 369-374: the loop of [remove_graph]; the graph made so far is dropped
      when the loop is interrupted. *)
  Fixpoint m_id_remove_all (idx : list nat) (g : @bgraph R) : act (@idataset R) (@bgraph R) :=
    match idx with
    | [] => ret g
    | i :: idx =>
        d <- get ;;
        q <- need (i_quad_at (id_resources d) (id_quads d) i) ;;
        q <- m_cloned q ;;
        _ <- m_id_remove_by_index i true ;;
        '(_, g) <- local (m_bg_insert cmp keep (fst (into_triple q))) g ;;
        m_id_remove_all idx g
    end.

  (** ds 353-377 [remove_graph] *)
  Definition m_id_remove_graph (graph : option R) : act (@idataset R) (option (@bgraph R)) :=
    idx <- match graph with
           | Some g =>
               f <- m_id_table (m_i_index_of_resource g) ;;
               d <- get ;;
               match f with
               | None => ret None
               | Some k =>
                   if ns_mem k (id_ng d) then
                     r <- need (sget (id_resources d) k) ;; ret (Some (ir_g r))
                   else ret None
               end
           | None => d <- get ;; ret (Some (id_dg d))
           end ;;
    match idx with
    | None => ret None
    | Some idx => g <- m_id_remove_all idx bg_new ;; ret (Some g)
    end.

  (** ds 505-511 [extend] *)
  Fixpoint m_id_extend (l : list (quad R)) : act (@idataset R) unit :=
    match l with
    | [] => ret tt
    | q :: r => _ <- m_id_insert q ;; m_id_extend r
    end.

  (** One operation of a user (SetSpec.v); the others do not compare. *)
  Definition m_id_step (o : op (quad R)) : act (@idataset R) (out (quad R)) :=
    match o with
    | Insert q => b <- m_id_insert q ;; ret (OBool b)
    | Remove q => b <- m_id_remove q ;; ret (OBool b)
    | Extend l => _ <- m_id_extend l ;; ret OUnit
    | Contains q => b <- m_id_contains q ;; ret (OBool b)
    | Len => d <- get ;; ret (ONat (id_len d))
    | IsEmpty => d <- get ;; ret (OBool (id_is_empty d))
    | Iter => d <- get ;; l <- need (id_iter d) ;; ret (OList l)
    | IntoIter => d <- get ;; l <- need (id_into_iter d) ;; ret (OList l)
    end.

  (** ** [IndexedBTreeGraph] *)

  Definition m_ig_table {A} (a : act itable A) : act (@igraph R) A :=
    zoom (fun g => (ig_resources g, ig_ri g))
         (fun '(rs, ri) g => IGraphS rs (ig_triples g) ri (ig_ti g) (ig_s g) (ig_p g) (ig_o g)) a.

  (** gr 199-203 [index_of_triple], 211-213 [contains] *)
  Definition m_ig_contains (t : triple R) : act (@igraph R) bool :=
    g <- get ;;
    i <- m_get (m_triple_at_cmp cmp (i_triple_at (ig_resources g) (ig_triples g))) t (ig_ti g) ;;
    ret (is_some i).

  (** gr 219-280 [insert] *)
  Definition m_ig_insert (t : triple R) : act (@igraph R) bool :=
    c <- m_ig_contains t ;;
    if c then ret false
    else
      fs <- m_ig_table (m_i_index_of_resource (t_s t)) ;;
      fp <- m_ig_table (m_i_index_of_resource (t_p t)) ;;
      fo <- m_ig_table (m_i_index_of_resource (t_o t)) ;;
      g <- get ;;
      let i := vacant_key (ig_triples g) in
      s_i <- m_ig_table (m_i_acquire PosS i (t_s t) fs) ;;
      p_i <- m_ig_table (m_i_acquire PosP i (t_p t) fp) ;;
      o_i <- m_ig_table (m_i_acquire PosO i (t_o t) fo) ;;
      g <- get ;;
      let ts := sinsert (ig_triples g) (Triple s_i p_i o_i) in
      let g ti := IGraphS (ig_resources g) ts (ig_ri g) ti (ns_insert s_i (ig_s g))
                    (ns_insert p_i (ig_p g)) (ns_insert o_i (ig_o g)) in
      g0 <- get ;;
      _ <- put (g (ig_ti g0)) ;;
      ti <- m_insert keep (m_triple_index_cmp cmp (i_triple_at (ig_resources g0) ts)) i (ig_ti g0) ;;
      _ <- put (g ti) ;;
      ret true.

  (** gr 286-326 [remove]: the resources are looked for by value. *)
  Definition m_ig_remove (t : triple R) : act (@igraph R) bool :=
    g <- get ;;
    '(found, ti) <- m_remove (m_triple_at_cmp cmp (i_triple_at (ig_resources g) (ig_triples g))) t (ig_ti g) ;;
    _ <- put (IGraphS (ig_resources g) (ig_triples g) (ig_ri g) ti (ig_s g) (ig_p g) (ig_o g)) ;;
    match found with
    | None => ret false
    | Some i =>
        '(x, ts) <- need (sremove (ig_triples g) i) ;;
        _ <- put (IGraphS (ig_resources g) ts (ig_ri g) ti (ns_remove (t_s x) (ig_s g))
                    (ns_remove (t_p x) (ig_p g)) (ns_remove (t_o x) (ig_o g))) ;;
        _ <- m_ig_table (m_i_release (m_resource_cmp cmp) PosS i (t_s x) (t_s t)) ;;
        _ <- m_ig_table (m_i_release (m_resource_cmp cmp) PosP i (t_p x) (t_p t)) ;;
        _ <- m_ig_table (m_i_release (m_resource_cmp cmp) PosO i (t_o x) (t_o t)) ;;
        ret true
    end.

  (** gr 356-362 [extend] *)
  Fixpoint m_ig_extend (l : list (triple R)) : act (@igraph R) unit :=
    match l with
    | [] => ret tt
    | t :: r => _ <- m_ig_insert t ;; m_ig_extend r
    end.

  Definition m_ig_step (o : op (triple R)) : act (@igraph R) (out (triple R)) :=
    match o with
    | Insert t => b <- m_ig_insert t ;; ret (OBool b)
    | Remove t => b <- m_ig_remove t ;; ret (OBool b)
    | Extend l => _ <- m_ig_extend l ;; ret OUnit
    | Contains t => b <- m_ig_contains t ;; ret (OBool b)
    | Len => g <- get ;; ret (ONat (ig_len g))
    | IsEmpty => g <- get ;; ret (OBool (ig_is_empty g))
    | Iter => g <- get ;; l <- need (ig_iter g) ;; ret (OList l)
    | IntoIter => g <- get ;; l <- need (ig_into_iter g) ;; ret (OList l)
    end.
End Model.
