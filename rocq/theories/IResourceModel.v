(** What [IndexedBTreeDataset] (/repo/src/dataset/impl/indexed_btree_dataset.rs,
    "ds") and [IndexedBTreeGraph]
    (/repo/src/dataset/graph/impl/indexed_btree_graph.rs, "gr") share: the
    table of resources and the constraints used by pattern matching.
    Functions return [option]: [None] is a panic. *)
From Coq Require Import List Bool Arith.
Import ListNotations.
From Verif Require Import Base SlabModel TripleModel TriplePatternModel.
Open Scope panic_scope.

(** The four positions of a resource in a quad. *)
Inductive pos := PosS | PosP | PosO | PosG.

(** ds 1343-1350, gr 779-785: a resource and, for each position, the indexes
    of the quads that use it there.  The graph version has no [as_graph]; there
    the last set is always empty. *)
Record iresource (R : Type) := IRes {
  ir_value : R; ir_s : list nat; ir_p : list nat; ir_o : list nat; ir_g : list nat
}.
Arguments IRes {R} _ _ _ _ _.
Arguments ir_value {R} _.
Arguments ir_s {R} _.
Arguments ir_p {R} _.
Arguments ir_o {R} _.
Arguments ir_g {R} _.

Definition ir_at {R} (p : pos) (x : iresource R) : list nat :=
  match p with PosS => ir_s x | PosP => ir_p x | PosO => ir_o x | PosG => ir_g x end.

(** Replace the set of one position. *)
Definition ir_upd {R} (p : pos) (f : list nat -> list nat) (x : iresource R) : iresource R :=
  match p with
  | PosS => IRes (ir_value x) (f (ir_s x)) (ir_p x) (ir_o x) (ir_g x)
  | PosP => IRes (ir_value x) (ir_s x) (f (ir_p x)) (ir_o x) (ir_g x)
  | PosO => IRes (ir_value x) (ir_s x) (ir_p x) (f (ir_o x)) (ir_g x)
  | PosG => IRes (ir_value x) (ir_s x) (ir_p x) (ir_o x) (f (ir_g x))
  end.

(** ds 1353-1391, gr 788-813: [Resource::subject], [predicate], [object],
    [graph]. *)
Definition ir_single {R} (p : pos) (v : R) (i : nat) : iresource R :=
  match p with
  | PosS => IRes v [i] [] [] []
  | PosP => IRes v [] [i] [] []
  | PosO => IRes v [] [] [i] []
  | PosG => IRes v [] [] [] [i]
  end.

(** ds 1393-1398, gr 815-817: [is_empty] *)
Definition is_nil {A} (l : list A) : bool := match l with [] => true | _ => false end.
Definition ir_is_empty {R} (x : iresource R) : bool :=
  is_nil (ir_s x) && is_nil (ir_p x) && is_nil (ir_o x) && is_nil (ir_g x).

Section Model.
  Context {R : Type} (cmp : R -> R -> comparison).
  (** behaviour of [RawBTree::insert] on equal items (see SlabModel.v) *)
  Context (keep : bool).

  (** [resources[i].value] *)
  Definition ir_val (rs : slab (iresource R)) (i : nat) : option R :=
    r <- sget rs i ;; Some (ir_value r).

  (** ds 24-26, gr 20-22 [resource_cmp] *)
  Definition i_resource_cmp (rs : slab (iresource R)) (i : nat) (r : R) : option comparison :=
    v <- ir_val rs i ;; Some (cmp v r).

  (** ds 28-32, gr 24-28 [resource_index_cmp] *)
  Definition i_resource_index_cmp (rs : slab (iresource R)) (i j : nat) : option comparison :=
    v <- ir_val rs i ;; w <- ir_val rs j ;; Some (cmp v w).

  (** ds 217-221, gr 188-192 [index_of_resource] *)
  Definition i_index_of_resource (rs : slab (iresource R)) (ri : list nat) (r : R)
    : option (option nat) := bt_get (i_resource_cmp rs) r ri.

  (** ds 223-225, gr 194-196 [get_resource] *)
  Definition i_get_resource (rs : slab (iresource R)) (ri : list nat) (r : R)
    : option (option (iresource R)) :=
    f <- i_index_of_resource rs ri r ;;
    match f with None => Some None | Some k => Some (sget rs k) end.

  (** ds 263-274 (and 276-287, 289-300, 303-312), gr 230-241 (and 243-254,
      256-267): the component [v] at position [p] of the new quad [i], given the
      index found for it beforehand. *)
  Definition i_acquire (rs : slab (iresource R)) (ri : list nat) (p : pos) (i : nat) (v : R)
      (found : option nat) : option (nat * slab (iresource R) * list nat) :=
    match found with
    | Some k =>
        r <- sget rs k ;;
        Some (k, sset rs k (ir_upd p (ns_insert i) r), ri)
    | None =>
        let k := vacant_key rs in
        let rs' := sinsert rs (ir_single p v i) in
        ri' <- bt_insert keep (i_resource_index_cmp rs') k ri ;;
        Some (k, rs', ri')
    end.

  (** ds 391-397 (and 399-405, 407-413, 417-424), gr 298-304 (and 306-312,
      314-320): the quad [i] no longer uses resource [k] at position [p].
      [rcmp] is the comparison used to find it in the index: by index in ds, by
      value in gr.  Also returns whether the resource was dropped. *)
  Definition i_release {K} (rcmp : slab (iresource R) -> nat -> K -> option comparison)
      (rs : slab (iresource R)) (ri : list nat) (p : pos) (i k : nat) (key : K)
    : option (slab (iresource R) * list nat * bool) :=
    r <- sget rs k ;;
    let r := ir_upd p (ns_remove i) r in
    let rs := sset rs k r in
    if ir_is_empty r then
      '(_, ri) <- bt_remove (rcmp rs) key ri ;;
      '(_, rs) <- sremove rs k ;;
      Some (rs, ri, true)
    else Some (rs, ri, false).

  (** ** Constraints
      ds 918-922 [SubjectConstraints], 1001-1006 [PredicateConstraints],
      1097-1103 [ObjectConstraints], 1204-1211 [GraphConstraints]; gr 640-644,
      676-681, 723-729.  The variants [SameAs...] are [CSame] with the test that
      [next] makes on the quad of indexes; [Fixed] holds what remains of the
      iterator. *)
  Context {Q : Type}. (* a quad or triple of indexes *)
  Inductive constraint := CNone | CAny | CSame (test : Q -> bool) | CFixed (l : list nat).

  (** [while let Some(j) = indexes.peek() { if j >= i ...; indexes.next(); }] *)
  Fixpoint drop_lt (i : nat) (l : list nat) : list nat :=
    match l with
    | [] => []
    | j :: r => if j <? i then drop_lt i r else l
    end.

  (** ds 981-999, gr 657-673 [SubjectConstraints::next]; the new state comes
      second.  ([CSame] is never used for the subject.) *)
  Definition s_next (c : constraint) (i : nat) : option nat * constraint :=
    match c with
    | CNone => (None, c)
    | CAny => (Some i, c)
    | CSame _ => (None, c)
    | CFixed l =>
        let l' := drop_lt i l in
        (match l' with [] => None | j :: _ => Some j end, CFixed l')
    end.

  (** ds 1068-1095, 1168-1202, 1300-1341, gr 695-720, 744-776: [next] of the
      other constraints.  [NOk] is [Ok(())], [NErr j] is [Err(j)].
      Simplification: [i.checked_add(1)] never overflows, [i] being smaller than
      the capacity of a [Vec]. *)
  Inductive next := NOk | NErr (j : option nat).
  Definition c_next (c : constraint) (i : nat) (q : Q) : next * constraint :=
    match c with
    | CNone => (NErr None, c)
    | CAny => (NOk, c)
    | CSame t => (if t q then NOk else NErr (Some (S i)), c)
    | CFixed l =>
        let l' := drop_lt i l in
        (match l' with [] => NErr None | j :: _ => if j =? i then NOk else NErr (Some j) end,
         CFixed l')
    end.

  (** ds 925-933 and 937-953, gr 647-655: [SubjectConstraints::new], [new_owned]. *)
  Definition s_constraint (rs : slab (iresource R)) (ri : list nat) (c : pat_s R)
    : option constraint :=
    match c with
    | PS_Any => Some CAny
    | PS_Given r =>
        f <- i_get_resource rs ri r ;;
        Some (match f with Some x => CFixed (ir_s x) | None => CNone end)
    end.
  (** The [Given] case of the others: ds 1013-1016 and 1026-1037, 1111-1114 and
      1125-1136, 1220-1223 and 1238-1249, gr 688-691, 737-740. *)
  Definition given_constraint (rs : slab (iresource R)) (ri : list nat) (p : pos) (r : R)
    : option constraint :=
    f <- i_get_resource rs ri r ;;
    Some (match f with Some x => CFixed (ir_at p x) | None => CNone end).

  (** [new_multi], the [Given] case: ds 962-976, 1049-1063, 1149-1163,
      1272-1286: the indexes of all the resources listed, sorted. *)
  Fixpoint nplace (x : nat) (l : list nat) : list nat :=
    match l with
    | [] => [x]
    | y :: r => if x <=? y then x :: l else y :: nplace x r
    end.
  Definition nsort (l : list nat) : list nat := fold_right nplace [] l.
  Fixpoint multi_indexes (rs : slab (iresource R)) (ri : list nat) (p : pos) (l : list R)
    : option (list nat) :=
    match l with
    | [] => Some []
    | r :: l =>
        f <- i_get_resource rs ri r ;;
        m <- multi_indexes rs ri p l ;;
        Some ((match f with Some x => ir_at p x | None => [] end) ++ m)
    end.
  Definition multi_constraint (rs : slab (iresource R)) (ri : list nat) (p : pos) (l : list R)
    : option constraint :=
    m <- multi_indexes rs ri p l ;;
    Some (match m with [] => CNone | _ => CFixed (nsort m) end).
End Model.
Arguments constraint : clear implicits.
