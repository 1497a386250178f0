(** The resource table shared by [BTreeDataset] and [BTreeGraph]
    (/repo/src/dataset/impl/btree_dataset.rs,
    /repo/src/dataset/graph/impl/btree_graph.rs): the two files hold the same code,
    cited below as "ds" and "gr".  Functions return [option]: [None] is a panic. *)
From Coq Require Import List Bool Arith.
Import ListNotations.
From Verif Require Import Base SlabModel TripleModel.
Open Scope panic_scope.

(** ds 421-438, gr 395-412: a stored resource and its number of uses. *)
Record bresource (R : Type) := BRes { br_value : R; br_occ : nat }.
Arguments BRes {R} _ _.
Arguments br_value {R} _.
Arguments br_occ {R} _.

Definition is_some {A} (x : option A) : bool :=
  match x with Some _ => true | None => false end.

Section Model.
  Context {R : Type} (cmp : R -> R -> comparison).
  (** behaviour of [RawBTree::insert] on equal items (see SlabModel.v) *)
  Context (keep : bool).

  (** [resources[i].value] *)
  Definition br_val (rs : slab (bresource R)) (i : nat) : option R :=
    r <- sget rs i ;; Some (br_value r).

  (** ds/gr 13-15 [resource_cmp] *)
  Definition b_resource_cmp (rs : slab (bresource R)) (i : nat) (r : R) : option comparison :=
    v <- br_val rs i ;; Some (cmp v r).

  (** ds/gr 17-21 [resource_index_cmp] *)
  Definition b_resource_index_cmp (rs : slab (bresource R)) (i j : nat) : option comparison :=
    v <- br_val rs i ;; w <- br_val rs j ;; Some (cmp v w).

  (** ds 112-116, gr 114-118 [index_of_resource] *)
  Definition b_index_of_resource (rs : slab (bresource R)) (ri : list nat) (r : R)
    : option (option nat) := bt_get (b_resource_cmp rs) r ri.

  (** ds 154-165 (and 167-178, 180-191, 193-205), gr 152-163 (and 165-176,
      178-189): one component of the inserted quad, given the index found for it
      beforehand. *)
  Definition b_acquire (rs : slab (bresource R)) (ri : list nat) (v : R) (found : option nat)
    : option (nat * slab (bresource R) * list nat) :=
    match found with
    | Some i =>
        r <- sget rs i ;;
        Some (i, sset rs i (BRes (br_value r) (S (br_occ r))), ri)
    | None =>
        let i := vacant_key rs in
        let rs' := sinsert rs (BRes v 1) in
        ri' <- bt_insert keep (b_resource_index_cmp rs') i ri ;;
        Some (i, rs', ri')
    end.

  (** ds 228-234 (and 236-242, 244-250, 252-260), gr 212-218 (and 220-226,
      228-234): give back one use of resource [i].  [rcmp] is the comparison used to
      find it in the index: by value, or by index (ds 257). *)
  Definition b_release {K} (rcmp : slab (bresource R) -> nat -> K -> option comparison)
      (rs : slab (bresource R)) (ri : list nat) (i : nat) (k : K)
    : option (slab (bresource R) * list nat) :=
    r <- sget rs i ;;
    match br_occ r with
    | 0 => None (* arithmetic underflow *)
    | S n =>
        let rs := sset rs i (BRes (br_value r) n) in
        if n =? 0 then
          '(_, ri) <- bt_remove (rcmp rs) k ri ;;
          '(_, rs) <- sremove rs i ;;
          Some (rs, ri)
        else Some (rs, ri)
    end.
End Model.
