(** The containers given to any [serde::Serializer], and read from any
    [serde::de::SeqAccess], each call of which may fail (feature [serde]).
    SerdeModel.v and BinModel.v fix a format; here it is arbitrary.

    Simplifications: the serializer, what [serialize_seq] returns and all that they
    can change are one state [W]; the value given to [serialize_element] is the
    element; [next_element] includes the [Deserialize] of the element.  A
    deserializer that returns an error instead of calling [visit_seq] does not
    reach this code. *)
From Coq Require Import List.
Import ListNotations.
From Verif Require Import Base TripleModel BTreeDatasetModel BTreeGraphModel IndexedDatasetModel
  IndexedGraphModel.
Open Scope panic_scope.

Section Serialize.
  (** [Result<Ok, Error>] is [Ok + Error]. *)
  Context {W X Ok Err : Type}.
  (** [Serializer::serialize_seq], [SerializeSeq::serialize_element],
      [SerializeSeq::end] *)
  Context (serialize_seq : W -> option nat -> W * (unit + Err))
    (serialize_element : W -> X -> W * (unit + Err)) (end_ : W -> W * (Ok + Err)).

  (** [for x in self { seq.serialize_element(&x)?; } seq.end()] *)
  Fixpoint ser_each (w : W) (l : list X) : W * (Ok + Err) :=
    match l with
    | [] => end_ w
    | x :: l =>
        let '(w, r) := serialize_element w x in
        match r with inl _ => ser_each w l | inr e => (w, inr e) end
    end.
  (** The four [serialize]: [self.len()], and the elements.  [None] is a panic. *)
  Definition ser_into (c : option (nat * list X)) (w : W) : option (W * (Ok + Err)) :=
    '(n, l) <- c ;;
    Some (let '(w, r) := serialize_seq w (Some n) in
          match r with inl _ => ser_each w l | inr e => (w, inr e) end).
End Serialize.

Section Deserialize.
  Context {W C X Err : Type}.
  (** [SeqAccess::next_element] *)
  Context (next_element : W -> W * (option X + Err)).
  Context (insert : C -> X -> option (bool * C)).

  (** The loop of [visit_seq].  The outer [None] is a panic; the inner one means that
      the loop still runs after [fuel] calls of [next_element]. *)
  Fixpoint de_from (fuel : nat) (c : C) (w : W) : option (option (W * (C + Err))) :=
    match fuel with
    | 0 => Some None
    | S fuel =>
        let '(w, r) := next_element w in
        match r with
        | inr e => Some (Some (w, inr e))
        | inl None => Some (Some (w, inl c))
        | inl (Some x) => '(_, c) <- insert c x ;; de_from fuel c w
        end
    end.
End Deserialize.

Section Containers.
  Context {R : Type} (cmp : R -> R -> comparison) (keep : bool) {W Ok Err : Type}.

  Section Quads.
    Context (serialize_seq : W -> option nat -> W * (unit + Err))
      (serialize_element : W -> quad R -> W * (unit + Err)) (end_ : W -> W * (Ok + Err)).
    Context (next_element : W -> W * (option (quad R) + Err)).

    (** btree_dataset.rs 457-468, 471-498 *)
    Definition bd_ser_into (d : bdataset) (w : W) :=
      ser_into serialize_seq serialize_element end_ (bd_serialize d) w.
    Definition bd_de_from (fuel : nat) (w : W) :=
      de_from next_element (bd_insert cmp keep) fuel bd_new w.
    (** indexed_btree_dataset.rs 1418-1429, 1432-1461 *)
    Definition id_ser_into (d : idataset) (w : W) :=
      ser_into serialize_seq serialize_element end_ (id_serialize d) w.
    Definition id_de_from (fuel : nat) (w : W) :=
      de_from next_element (id_insert cmp keep) fuel id_new w.
  End Quads.

  Section Triples.
    Context (serialize_seq : W -> option nat -> W * (unit + Err))
      (serialize_element : W -> triple R -> W * (unit + Err)) (end_ : W -> W * (Ok + Err)).
    Context (next_element : W -> W * (option (triple R) + Err)).

    (** btree_graph.rs 431-442, 445-472 *)
    Definition bg_ser_into (g : bgraph) (w : W) :=
      ser_into serialize_seq serialize_element end_ (bg_serialize g) w.
    Definition bg_de_from (fuel : nat) (w : W) :=
      de_from next_element (bg_insert cmp keep) fuel bg_new w.
    (** indexed_btree_graph.rs 837-848, 851-880 *)
    Definition ig_ser_into (g : igraph) (w : W) :=
      ser_into serialize_seq serialize_element end_ (ig_serialize g) w.
    Definition ig_de_from (fuel : nat) (w : W) :=
      de_from next_element (ig_insert cmp keep) fuel ig_new w.
  End Triples.
End Containers.
