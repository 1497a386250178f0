(** Containers whose comparison of resources may panic.

    The comparison is the user's ([Ord] for [R]); here it panics at some call
    chosen in advance, the panic unwinds through the operation of the container,
    and the program goes on using the container (after [catch_unwind], in a
    destructor, or behind a poisoned mutex).  What matters is then the state in
    which the operation leaves the container, so operations are written here as
    sequences of changes of the state, in the order of the code: the functions
    of BTreeDatasetModel.v, BTreeGraphModel.v, IndexedDatasetModel.v and
    IndexedGraphModel.v return the final state only.  The two agree when nothing
    panics (P_Crash.v).

    Simplifications: the tree functions of [raw_btree] search with the comparison
    first and change the tree afterwards, without comparing (trusted, see
    DESIGN.md); the number of comparisons they make is not that of the real tree,
    which is why everything is stated for every number.  Panics of [Clone] count as
    panics of the comparison (ICrashModel.v, [m_cloned]); for panics of
    [Drop] see DropModel.v. *)
From Coq Require Import List Bool Arith.
Import ListNotations.
From Verif Require Import Base SlabModel TripleModel SetSpec BResourceModel BTreeDatasetModel
  BTreeGraphModel IResourceModel IndexedDatasetModel IndexedGraphModel.

(** ** Operations that may be interrupted *)

(** How an operation ends: normally, with a value and the number of comparisons
    that may still be made before one panics; by a panic of the comparison; by a
    panic of its own (vacant slab index, underflow).  The state is what the
    operation leaves in all three cases. *)
Inductive ending (St A : Type) :=
| Done (x : A) (more : nat) (s : St)
| Interrupted (s : St)
| Failed (s : St).
Arguments Done {St A} _ _ _.
Arguments Interrupted {St A} _.
Arguments Failed {St A} _.

Definition act (St A : Type) : Type := nat -> St -> ending St A.

Section Act.
  Context {St : Type}.
  Definition ret {A} (x : A) : act St A := fun n s => Done x n s.
  Definition andthen {A B} (a : act St A) (f : A -> act St B) : act St B :=
    fun n s =>
      match a n s with
      | Done x m s' => f x m s'
      | Interrupted s' => Interrupted s'
      | Failed s' => Failed s'
      end.
  Definition get : act St St := fun n s => Done s n s.
  Definition put (s : St) : act St unit := fun n _ => Done tt n s.
  (** A value that must be there, or the code panics. *)
  Definition need {A} (x : option A) : act St A :=
    fun n s => match x with Some x => Done x n s | None => Failed s end.
  (** One call of the user's comparison, which returns [x] unless it panics. *)
  Definition called {A} (x : A) : act St A :=
    fun n s => match n with 0 => Interrupted s | S m => Done x m s end.
  (** An action on a part of the state. *)
  Definition zoom {T A} (view : St -> T) (update : T -> St -> St) (a : act T A) : act St A :=
    fun n s =>
      match a n (view s) with
      | Done x m t => Done x m (update t s)
      | Interrupted t => Interrupted (update t s)
      | Failed t => Failed (update t s)
      end.
End Act.

Declare Scope act_scope.
Delimit Scope act_scope with act.
Notation "x <- a ;; b" := (andthen a (fun x => b))
  (at level 61, a at next level, right associativity) : act_scope.
Notation "' p <- a ;; b" := (andthen a (fun p => b))
  (at level 61, p pattern, a at next level, right associativity) : act_scope.
Open Scope act_scope.

(** ** [RawBTree] (see SlabModel.v): the tree is an argument and a result; the
    caller stores it. *)
Section Tree.
  Context {St : Type}.

  Fixpoint m_get {K} (cmp : nat -> K -> act St comparison) (k : K) (l : list nat)
    : act St (option nat) :=
    match l with
    | [] => ret None
    | i :: r =>
        c <- cmp i k ;;
        match c with
        | Lt => m_get cmp k r
        | Eq => ret (Some i)
        | Gt => ret None
        end
    end.

  Fixpoint m_insert (keep : bool) (cmp : nat -> nat -> act St comparison) (x : nat) (l : list nat)
    : act St (list nat) :=
    match l with
    | [] => ret [x]
    | i :: r =>
        c <- cmp i x ;;
        match c with
        | Lt => r' <- m_insert keep cmp x r ;; ret (i :: r')
        | Eq => ret ((if keep then i else x) :: r)
        | Gt => ret (x :: i :: r)
        end
    end.

  Fixpoint m_remove {K} (cmp : nat -> K -> act St comparison) (k : K) (l : list nat)
    : act St (option nat * list nat) :=
    match l with
    | [] => ret (None, [])
    | i :: r =>
        c <- cmp i k ;;
        match c with
        | Lt => '(x, r') <- m_remove cmp k r ;; ret (x, i :: r')
        | Eq => ret (Some i, r)
        | Gt => ret (None, i :: r)
        end
    end.
End Tree.

Section Model.
  Context {R : Type} (cmp : R -> R -> comparison).
  (** behaviour of [RawBTree::insert] on equal items (see SlabModel.v) *)
  Context (keep : bool).

  (** ** Comparisons *)
  Section Comparisons.
    Context {St : Type}.
    (** The derived [Ord] of triples and quads (triple.rs 12, quad.rs 14): the
        components in order, up to the first difference; a graph is compared if
        there are two. *)
    Definition m_then (a b : act St comparison) : act St comparison :=
      c <- a ;; match c with Eq => b | _ => ret c end.
    Definition m_triple_cmp (a b : triple R) : act St comparison :=
      m_then (called (cmp (t_s a) (t_s b)))
        (m_then (called (cmp (t_p a) (t_p b))) (called (cmp (t_o a) (t_o b)))).
    Definition m_quad_cmp (a b : quad R) : act St comparison :=
      m_then (called (cmp (q_s a) (q_s b)))
        (m_then (called (cmp (q_p a) (q_p b)))
           (m_then (called (cmp (q_o a) (q_o b)))
              (match q_g a, q_g b with
               | Some g, Some h => called (cmp g h)
               | g, h => ret (option_cmp cmp g h)
               end))).

    (** btree_dataset.rs, btree_graph.rs 13-15 [resource_cmp], 17-21
        [resource_index_cmp]; the same in the indexed containers
        (IResourceModel.v).  [val i] is [resources[i].value]. *)
    Definition m_resource_cmp (val : nat -> option R) (i : nat) (r : R) : act St comparison :=
      v <- need (val i) ;; called (cmp v r).
    Definition m_resource_index_cmp (val : nat -> option R) (i j : nat) : act St comparison :=
      v <- need (val i) ;; w <- need (val j) ;; called (cmp v w).
    (** btree_dataset.rs 35-40 [quad_cmp], 42-47 [quad_index_cmp];
        indexed_btree_dataset.rs 46-58.  [at_ i] is the quad of index [i]. *)
    Definition m_quad_at_cmp (at_ : nat -> option (quad R)) (i : nat) (q : quad R)
      : act St comparison := x <- need (at_ i) ;; m_quad_cmp x q.
    Definition m_quad_index_cmp (at_ : nat -> option (quad R)) (i j : nat) : act St comparison :=
      x <- need (at_ i) ;; y <- need (at_ j) ;; m_quad_cmp x y.
    (** btree_graph.rs 34-49, indexed_btree_graph.rs 41-56 *)
    Definition m_triple_at_cmp (at_ : nat -> option (triple R)) (i : nat) (t : triple R)
      : act St comparison := x <- need (at_ i) ;; m_triple_cmp x t.
    Definition m_triple_index_cmp (at_ : nat -> option (triple R)) (i j : nat)
      : act St comparison := x <- need (at_ i) ;; y <- need (at_ j) ;; m_triple_cmp x y.
  End Comparisons.

  (** ** The table of resources of [BTreeDataset] and [BTreeGraph] *)

  (** [resources] and [resources_indexes] *)
  Definition btable : Type := slab (bresource R) * list nat.

  (** btree_dataset.rs 112-116, btree_graph.rs 114-118 [index_of_resource] *)
  Definition m_b_index_of_resource (r : R) : act btable (option nat) :=
    '(rs, ri) <- get ;; m_get (m_resource_cmp (br_val rs)) r ri.

  (** btree_dataset.rs 154-165 (and 167-205), btree_graph.rs 152-163 (and
      165-189): the resource is in the slab before it is looked for in the tree. *)
  Definition m_b_acquire (v : R) (found : option nat) : act btable nat :=
    '(rs, ri) <- get ;;
    match found with
    | Some i =>
        r <- need (sget rs i) ;;
        _ <- put (sset rs i (BRes (br_value r) (S (br_occ r))), ri) ;;
        ret i
    | None =>
        let i := vacant_key rs in
        let rs := sinsert rs (BRes v 1) in
        _ <- put (rs, ri) ;;
        ri <- m_insert keep (m_resource_index_cmp (br_val rs)) i ri ;;
        _ <- put (rs, ri) ;;
        ret i
    end.

  (** btree_dataset.rs 228-234 (and 236-260), btree_graph.rs 212-218 (and
      220-234): the counter is decremented before the resource is looked for in
      the tree. *)
  Definition m_b_release {K} (rcmp : (nat -> option R) -> nat -> K -> act btable comparison)
      (i : nat) (k : K) : act btable unit :=
    '(rs, ri) <- get ;;
    r <- need (sget rs i) ;;
    match br_occ r with
    | 0 => need None (* arithmetic underflow *)
    | S n =>
        let rs := sset rs i (BRes (br_value r) n) in
        _ <- put (rs, ri) ;;
        if n =? 0 then
          '(_, ri) <- m_remove (rcmp (br_val rs)) k ri ;;
          _ <- put (rs, ri) ;;
          '(_, rs) <- need (sremove rs i) ;;
          put (rs, ri)
        else ret tt
    end.

  (** ** [BTreeDataset] (btree_dataset.rs) *)

  Definition m_bd_table {A} (a : act btable A) : act (@bdataset R) A :=
    zoom (fun d => (bd_resources d, bd_ri d))
         (fun '(rs, ri) d => BDataset rs (bd_quads d) ri (bd_qi d)) a.

  (** 119-133 [index_of_quad], [contains] *)
  Definition m_bd_contains (q : quad R) : act (@bdataset R) bool :=
    d <- get ;;
    i <- m_get (m_quad_at_cmp (b_quad_at (bd_resources d) (bd_quads d))) q (bd_qi d) ;;
    ret (is_some i).

  (** 139-214 [insert] *)
  Definition m_bd_insert (q : quad R) : act (@bdataset R) bool :=
    c <- m_bd_contains q ;;
    if c then ret false
    else
      fs <- m_bd_table (m_b_index_of_resource (q_s q)) ;;
      fp <- m_bd_table (m_b_index_of_resource (q_p q)) ;;
      fo <- m_bd_table (m_b_index_of_resource (q_o q)) ;;
      fg <- match q_g q with
            | Some g => f <- m_bd_table (m_b_index_of_resource g) ;; ret (Some (g, f))
            | None => ret None
            end ;;
      d <- get ;;
      let i := vacant_key (bd_quads d) in
      s_i <- m_bd_table (m_b_acquire (q_s q) fs) ;;
      p_i <- m_bd_table (m_b_acquire (q_p q) fp) ;;
      o_i <- m_bd_table (m_b_acquire (q_o q) fo) ;;
      g_i <- match fg with
             | Some (g, f) => g_i <- m_bd_table (m_b_acquire g f) ;; ret (Some g_i)
             | None => ret None
             end ;;
      d <- get ;;
      let qs := sinsert (bd_quads d) (Quad s_i p_i o_i g_i) in
      _ <- put (BDataset (bd_resources d) qs (bd_ri d) (bd_qi d)) ;;
      qi <- m_insert keep (m_quad_index_cmp (b_quad_at (bd_resources d) qs)) i (bd_qi d) ;;
      _ <- put (BDataset (bd_resources d) qs (bd_ri d) qi) ;;
      ret true.

  (** 220-266 [remove] *)
  Definition m_bd_remove (q : quad R) : act (@bdataset R) bool :=
    d <- get ;;
    '(found, qi) <- m_remove (m_quad_at_cmp (b_quad_at (bd_resources d) (bd_quads d))) q (bd_qi d) ;;
    _ <- put (BDataset (bd_resources d) (bd_quads d) (bd_ri d) qi) ;;
    match found with
    | None => ret false
    | Some i =>
        '(x, qs) <- need (sremove (bd_quads d) i) ;;
        _ <- put (BDataset (bd_resources d) qs (bd_ri d) qi) ;;
        _ <- m_bd_table (m_b_release m_resource_cmp (q_s x) (q_s q)) ;;
        _ <- m_bd_table (m_b_release m_resource_cmp (q_p x) (q_p q)) ;;
        _ <- m_bd_table (m_b_release m_resource_cmp (q_o x) (q_o q)) ;;
        _ <- match q_g x with
             | Some g_i => m_bd_table (m_b_release m_resource_index_cmp g_i g_i)
             | None => ret tt
             end ;;
        ret true
    end.

  (** 277-283 [extend] *)
  Fixpoint m_bd_extend (l : list (quad R)) : act (@bdataset R) unit :=
    match l with
    | [] => ret tt
    | q :: r => _ <- m_bd_insert q ;; m_bd_extend r
    end.

  (** One operation of a user (SetSpec.v); the others do not compare. *)
  Definition m_bd_step (o : op (quad R)) : act (@bdataset R) (out (quad R)) :=
    match o with
    | Insert q => b <- m_bd_insert q ;; ret (OBool b)
    | Remove q => b <- m_bd_remove q ;; ret (OBool b)
    | Extend l => _ <- m_bd_extend l ;; ret OUnit
    | Contains q => b <- m_bd_contains q ;; ret (OBool b)
    | Len => d <- get ;; ret (ONat (bd_len d))
    | IsEmpty => d <- get ;; ret (OBool (bd_is_empty d))
    | Iter => d <- get ;; l <- need (bd_iter d) ;; ret (OList l)
    | IntoIter => d <- get ;; l <- need (bd_into_iter d) ;; ret (OList l)
    end.

  (** ** [BTreeGraph] (btree_graph.rs) *)

  Definition m_bg_table {A} (a : act btable A) : act (@bgraph R) A :=
    zoom (fun g => (bg_resources g, bg_ri g))
         (fun '(rs, ri) g => BGraph rs (bg_triples g) ri (bg_ti g)) a.

  (** 121-135 [index_of_triple], [contains] *)
  Definition m_bg_contains (t : triple R) : act (@bgraph R) bool :=
    g <- get ;;
    i <- m_get (m_triple_at_cmp (b_triple_at (bg_resources g) (bg_triples g))) t (bg_ti g) ;;
    ret (is_some i).

  (** 141-198 [insert] *)
  Definition m_bg_insert (t : triple R) : act (@bgraph R) bool :=
    c <- m_bg_contains t ;;
    if c then ret false
    else
      fs <- m_bg_table (m_b_index_of_resource (t_s t)) ;;
      fp <- m_bg_table (m_b_index_of_resource (t_p t)) ;;
      fo <- m_bg_table (m_b_index_of_resource (t_o t)) ;;
      g <- get ;;
      let i := vacant_key (bg_triples g) in
      s_i <- m_bg_table (m_b_acquire (t_s t) fs) ;;
      p_i <- m_bg_table (m_b_acquire (t_p t) fp) ;;
      o_i <- m_bg_table (m_b_acquire (t_o t) fo) ;;
      g <- get ;;
      let ts := sinsert (bg_triples g) (Triple s_i p_i o_i) in
      _ <- put (BGraph (bg_resources g) ts (bg_ri g) (bg_ti g)) ;;
      ti <- m_insert keep (m_triple_index_cmp (b_triple_at (bg_resources g) ts)) i (bg_ti g) ;;
      _ <- put (BGraph (bg_resources g) ts (bg_ri g) ti) ;;
      ret true.

  (** 204-240 [remove] *)
  Definition m_bg_remove (t : triple R) : act (@bgraph R) bool :=
    g <- get ;;
    '(found, ti) <- m_remove (m_triple_at_cmp (b_triple_at (bg_resources g) (bg_triples g))) t (bg_ti g) ;;
    _ <- put (BGraph (bg_resources g) (bg_triples g) (bg_ri g) ti) ;;
    match found with
    | None => ret false
    | Some i =>
        '(x, ts) <- need (sremove (bg_triples g) i) ;;
        _ <- put (BGraph (bg_resources g) ts (bg_ri g) ti) ;;
        _ <- m_bg_table (m_b_release m_resource_cmp (t_s x) (t_s t)) ;;
        _ <- m_bg_table (m_b_release m_resource_cmp (t_p x) (t_p t)) ;;
        _ <- m_bg_table (m_b_release m_resource_cmp (t_o x) (t_o t)) ;;
        ret true
    end.

  (** 251-257 [extend] *)
  Fixpoint m_bg_extend (l : list (triple R)) : act (@bgraph R) unit :=
    match l with
    | [] => ret tt
    | t :: r => _ <- m_bg_insert t ;; m_bg_extend r
    end.

  Definition m_bg_step (o : op (triple R)) : act (@bgraph R) (out (triple R)) :=
    match o with
    | Insert t => b <- m_bg_insert t ;; ret (OBool b)
    | Remove t => b <- m_bg_remove t ;; ret (OBool b)
    | Extend l => _ <- m_bg_extend l ;; ret OUnit
    | Contains t => b <- m_bg_contains t ;; ret (OBool b)
    | Len => g <- get ;; ret (ONat (bg_len g))
    | IsEmpty => g <- get ;; ret (OBool (bg_is_empty g))
    | Iter => g <- get ;; l <- need (bg_iter g) ;; ret (OList l)
    | IntoIter => g <- get ;; l <- need (bg_into_iter g) ;; ret (OList l)
    end.
End Model.

(** ** Histories: a number of comparisons with each operation.  An operation that
    is interrupted returns nothing ([None]); a panic of the code itself stops the
    history ([None] for all). *)
Fixpoint m_run {St O X : Type} (step : O -> act St X) (s : St) (l : list (O * nat))
  : option (list (option X) * St) :=
  match l with
  | [] => Some ([], s)
  | (o, n) :: r =>
      match step o n s with
      | Failed _ => None
      | Done x _ s' =>
          match m_run step s' r with
          | Some (xs, s'') => Some (Some x :: xs, s'')
          | None => None
          end
      | Interrupted s' =>
          match m_run step s' r with
          | Some (xs, s'') => Some (None :: xs, s'')
          | None => None
          end
      end
  end.
