(** Containers whose resources may panic when they are compared, cloned or dropped.

    The operations of CrashModel.v and ICrashModel.v, with the calls of the destructor of resources
    ([Drop] for [R]): at the end of an insertion, for the components that were not stored; in a removal,
    when a resource that is no longer used leaves the slab.

    ds = dataset/impl/indexed_btree_dataset.rs,
    gr = dataset/graph/impl/indexed_btree_graph.rs

    Simplifications: as in CrashModel.v.  When the destructor of a value panics, the values next to it are
    dropped while the panic unwinds, and a second panic would abort the program: only the first counts.
    The destructor of a whole container, and the resources that an interrupted operation drops while it
    unwinds, are not modelled. *)
From Coq Require Import List Bool Arith.
Import ListNotations.
From Verif Require Import Base SlabModel TripleModel SetSpec BResourceModel BTreeDatasetModel
  BTreeGraphModel IResourceModel IndexedDatasetModel IndexedGraphModel CrashModel ICrashModel.
Open Scope act_scope.

(** [k] values are dropped. *)
Fixpoint drops {St : Type} (k : nat) : act St unit :=
  match k with 0 => ret tt | S k => _ <- called tt ;; drops k end.

(** The values that a quad or a triple owns. *)
Definition quad_owns {R : Type} (q : quad R) : list R :=
  q_s q :: q_p q :: q_o q :: match q_g q with Some g => [g] | None => [] end.
Definition triple_owns {R : Type} (t : triple R) : list R := [t_s t; t_p t; t_o t].

(** The values among [l] that an insertion does not store: all of them if the element was there
    ([inserted] is false), or those whose resource was found.  They are dropped when the method returns. *)
Definition not_stored {R : Type} (index_of : R -> option (option nat)) (inserted : bool) (l : list R) : nat :=
  if inserted then length (filter (fun v => match index_of v with Some (Some _) => true | _ => false end) l)
  else length l.

Section Model.
  Context {R : Type} (cmp : R -> R -> comparison).
  (** behaviour of [RawBTree::insert] on equal items (see SlabModel.v) *)
  Context (keep : bool).

  (** ** [BTreeDataset] (btree_dataset.rs) *)

  (** 139-214 [insert] *)
  Definition d_bd_insert (q : quad R) : act (@bdataset R) bool :=
    d <- get ;;
    b <- m_bd_insert cmp keep q ;;
    _ <- drops (not_stored (b_index_of_resource cmp (bd_resources d) (bd_ri d)) b (quad_owns q)) ;;
    ret b.

  (** 228-234 (and 236-260): [resources.remove(i)] drops the resource, if the slot is vacant then. *)
  Definition d_bd_release {K} (rcmp : (nat -> option R) -> nat -> K -> act (@btable R) comparison)
      (i : nat) (k : K) : act (@bdataset R) unit :=
    _ <- m_bd_table (m_b_release rcmp i k) ;;
    d <- get ;;
    match sget (bd_resources d) i with None => called tt | Some _ => ret tt end.

  (** 220-266 [remove] *)
  Definition d_bd_remove (q : quad R) : act (@bdataset R) bool :=
    d <- get ;;
    '(found, qi) <- m_remove (m_quad_at_cmp cmp (b_quad_at (bd_resources d) (bd_quads d))) q (bd_qi d) ;;
    _ <- put (BDataset (bd_resources d) (bd_quads d) (bd_ri d) qi) ;;
    match found with
    | None => ret false
    | Some i =>
        '(x, qs) <- need (sremove (bd_quads d) i) ;;
        _ <- put (BDataset (bd_resources d) qs (bd_ri d) qi) ;;
        _ <- d_bd_release (m_resource_cmp cmp) (q_s x) (q_s q) ;;
        _ <- d_bd_release (m_resource_cmp cmp) (q_p x) (q_p q) ;;
        _ <- d_bd_release (m_resource_cmp cmp) (q_o x) (q_o q) ;;
        _ <- match q_g x with
             | Some g_i => d_bd_release (m_resource_index_cmp cmp) g_i g_i
             | None => ret tt
             end ;;
        ret true
    end.

  (** 277-283 [extend] *)
  Fixpoint d_bd_extend (l : list (quad R)) : act (@bdataset R) unit :=
    match l with
    | [] => ret tt
    | q :: r => _ <- d_bd_insert q ;; d_bd_extend r
    end.

  (** One operation of a user (SetSpec.v); the others drop nothing. *)
  Definition d_bd_step (o : op (quad R)) : act (@bdataset R) (out (quad R)) :=
    match o with
    | Insert q => b <- d_bd_insert q ;; ret (OBool b)
    | Remove q => b <- d_bd_remove q ;; ret (OBool b)
    | Extend l => _ <- d_bd_extend l ;; ret OUnit
    | o => m_bd_step cmp keep o
    end.

  (** ** [BTreeGraph] (btree_graph.rs) *)

  (** 141-198 [insert] *)
  Definition d_bg_insert (t : triple R) : act (@bgraph R) bool :=
    g <- get ;;
    b <- m_bg_insert cmp keep t ;;
    _ <- drops (not_stored (b_index_of_resource cmp (bg_resources g) (bg_ri g)) b (triple_owns t)) ;;
    ret b.

  (** 212-218 (and 220-234) *)
  Definition d_bg_release (i : nat) (v : R) : act (@bgraph R) unit :=
    _ <- m_bg_table (m_b_release (m_resource_cmp cmp) i v) ;;
    g <- get ;;
    match sget (bg_resources g) i with None => called tt | Some _ => ret tt end.

  (** 204-240 [remove] *)
  Definition d_bg_remove (t : triple R) : act (@bgraph R) bool :=
    g <- get ;;
    '(found, ti) <- m_remove (m_triple_at_cmp cmp (b_triple_at (bg_resources g) (bg_triples g))) t (bg_ti g) ;;
    _ <- put (BGraph (bg_resources g) (bg_triples g) (bg_ri g) ti) ;;
    match found with
    | None => ret false
    | Some i =>
        '(x, ts) <- need (sremove (bg_triples g) i) ;;
        _ <- put (BGraph (bg_resources g) ts (bg_ri g) ti) ;;
        _ <- d_bg_release (t_s x) (t_s t) ;;
        _ <- d_bg_release (t_p x) (t_p t) ;;
        _ <- d_bg_release (t_o x) (t_o t) ;;
        ret true
    end.

  (** 251-257 [extend] *)
  Fixpoint d_bg_extend (l : list (triple R)) : act (@bgraph R) unit :=
    match l with
    | [] => ret tt
    | t :: r => _ <- d_bg_insert t ;; d_bg_extend r
    end.

  Definition d_bg_step (o : op (triple R)) : act (@bgraph R) (out (triple R)) :=
    match o with
    | Insert t => b <- d_bg_insert t ;; ret (OBool b)
    | Remove t => b <- d_bg_remove t ;; ret (OBool b)
    | Extend l => _ <- d_bg_extend l ;; ret OUnit
    | o => m_bg_step cmp keep o
    end.

  (** ** [IndexedBTreeDataset] *)

  (** ds 248-333 [insert] *)
  Definition d_id_insert (q : quad R) : act (@idataset R) bool :=
    d <- get ;;
    b <- m_id_insert cmp keep q ;;
    _ <- drops (not_stored (i_index_of_resource cmp (id_resources d) (id_ri d)) b (quad_owns q)) ;;
    ret b.

  (** ds 391-397 (and 399-405, 407-413, 417-422): [resources.remove(k)] drops the resource. *)
  Definition d_id_release (p : pos) (i k : nat) : act (@idataset R) bool :=
    gone <- m_id_table (m_i_release (m_resource_index_cmp cmp) p i k k) ;;
    _ <- (if gone then called tt else ret tt) ;;
    ret gone.

  (** ds 379-430 [remove_by_index]: the graph is taken from the named graphs after its resource was
      dropped. *)
  Definition d_id_remove_by_index (i : nat) (remove_index : bool) : act (@idataset R) unit :=
    d <- get ;;
    _ <- (if remove_index then
            '(_, qi) <- m_remove (m_quad_index_cmp cmp (i_quad_at (id_resources d) (id_quads d)))
                          i (id_qi d) ;;
            put (IDataset (id_resources d) (id_quads d) (id_ri d) qi
                   (id_s d) (id_p d) (id_o d) (id_dg d) (id_ng d))
          else ret tt) ;;
    d <- get ;;
    '(x, qs) <- need (sremove (id_quads d) i) ;;
    _ <- put (IDataset (id_resources d) qs (id_ri d) (id_qi d)
                (ns_remove (q_s x) (id_s d)) (ns_remove (q_p x) (id_p d))
                (ns_remove (q_o x) (id_o d)) (id_dg d) (id_ng d)) ;;
    _ <- d_id_release PosS i (q_s x) ;;
    _ <- d_id_release PosP i (q_p x) ;;
    _ <- d_id_release PosO i (q_o x) ;;
    match q_g x with
    | Some g =>
        gone <- d_id_release PosG i g ;;
        d <- get ;;
        put (IDataset (id_resources d) (id_quads d) (id_ri d) (id_qi d)
               (id_s d) (id_p d) (id_o d) (id_dg d)
               (if gone then ns_remove g (id_ng d) else id_ng d))
    | None =>
        d <- get ;;
        put (IDataset (id_resources d) (id_quads d) (id_ri d) (id_qi d)
               (id_s d) (id_p d) (id_o d) (ns_remove i (id_dg d)) (id_ng d))
    end.

  (** ds 339-350 [remove] *)
  Definition d_id_remove (q : quad R) : act (@idataset R) bool :=
    d <- get ;;
    '(found, qi) <- m_remove (m_quad_at_cmp cmp (i_quad_at (id_resources d) (id_quads d))) q (id_qi d) ;;
    _ <- put (IDataset (id_resources d) (id_quads d) (id_ri d) qi
                (id_s d) (id_p d) (id_o d) (id_dg d) (id_ng d)) ;;
    match found with
    | None => ret false
    | Some i => _ <- d_id_remove_by_index i false ;; ret true
    end.

  (** ds 505-511 [extend] *)
  Fixpoint d_id_extend (l : list (quad R)) : act (@idataset R) unit :=
    match l with
    | [] => ret tt
    | q :: r => _ <- d_id_insert q ;; d_id_extend r
    end.

  Definition d_id_step (o : op (quad R)) : act (@idataset R) (out (quad R)) :=
    match o with
    | Insert q => b <- d_id_insert q ;; ret (OBool b)
    | Remove q => b <- d_id_remove q ;; ret (OBool b)
    | Extend l => _ <- d_id_extend l ;; ret OUnit
    | o => m_id_step cmp keep o
    end.

  (** ** [IndexedBTreeGraph] *)

  (** gr 219-280 [insert] *)
  Definition d_ig_insert (t : triple R) : act (@igraph R) bool :=
    g <- get ;;
    b <- m_ig_insert cmp keep t ;;
    _ <- drops (not_stored (i_index_of_resource cmp (ig_resources g) (ig_ri g)) b (triple_owns t)) ;;
    ret b.

  (** gr 298-304 (and 306-312, 314-320) *)
  Definition d_ig_release (p : pos) (i k : nat) (v : R) : act (@igraph R) bool :=
    gone <- m_ig_table (m_i_release (m_resource_cmp cmp) p i k v) ;;
    _ <- (if gone then called tt else ret tt) ;;
    ret gone.

  (** gr 286-326 [remove] *)
  Definition d_ig_remove (t : triple R) : act (@igraph R) bool :=
    g <- get ;;
    '(found, ti) <- m_remove (m_triple_at_cmp cmp (i_triple_at (ig_resources g) (ig_triples g))) t (ig_ti g) ;;
    _ <- put (IGraphS (ig_resources g) (ig_triples g) (ig_ri g) ti (ig_s g) (ig_p g) (ig_o g)) ;;
    match found with
    | None => ret false
    | Some i =>
        '(x, ts) <- need (sremove (ig_triples g) i) ;;
        _ <- put (IGraphS (ig_resources g) ts (ig_ri g) ti (ns_remove (t_s x) (ig_s g))
                    (ns_remove (t_p x) (ig_p g)) (ns_remove (t_o x) (ig_o g))) ;;
        _ <- d_ig_release PosS i (t_s x) (t_s t) ;;
        _ <- d_ig_release PosP i (t_p x) (t_p t) ;;
        _ <- d_ig_release PosO i (t_o x) (t_o t) ;;
        ret true
    end.

  (** gr 356-362 [extend] *)
  Fixpoint d_ig_extend (l : list (triple R)) : act (@igraph R) unit :=
    match l with
    | [] => ret tt
    | t :: r => _ <- d_ig_insert t ;; d_ig_extend r
    end.

  Definition d_ig_step (o : op (triple R)) : act (@igraph R) (out (triple R)) :=
    match o with
    | Insert t => b <- d_ig_insert t ;; ret (OBool b)
    | Remove t => b <- d_ig_remove t ;; ret (OBool b)
    | Extend l => _ <- d_ig_extend l ;; ret OUnit
    | o => m_ig_step cmp keep o
    end.
End Model.
