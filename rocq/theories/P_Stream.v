(** Property C71: containers given to any serializer, and read from any source.

    [given … l w w' r] (StreamSpec.v): the calls made are [serialize_seq] with the
    number of the elements [l], [serialize_element] for each of them in order, and
    [end]; they stop at the first error, which is the result, and otherwise the
    result is that of [end].  [reads … n w res]: what [n] calls of [next_element]
    lead to.  The outer [Some] says that nothing panics. *)
From Coq Require Import List Arith.
Import ListNotations.
From Verif Require Import Base TripleModel SetSpec ContainerSpec Machine BaseProofs BTreeDatasetModel
  BTreeGraphModel IndexedDatasetModel IndexedGraphModel StreamModel StreamSpec StreamProofs.

(** ** Serializers *)

Theorem c71_btree_dataset_given :
  forall R (cmp : R -> R -> comparison), ord_laws cmp ->
  forall keep W Ok Err (begin : W -> option nat -> W * (unit + Err))
    (elem : W -> quad R -> W * (unit + Err)) (fin : W -> W * (Ok + Err)) ops xs d (w : W),
    run (bd_step cmp keep) bd_new ops = Some (xs, d) ->
    exists l w' r, bd_iter d = Some l /\ bd_ser_into begin elem fin d w = Some (w', r) /\
      given begin elem fin l w w' r.
Proof. exact @bd_into. Qed.
Print Assumptions c71_btree_dataset_given.

Theorem c71_indexed_dataset_given :
  forall R (cmp : R -> R -> comparison), ord_laws cmp ->
  forall keep W Ok Err (begin : W -> option nat -> W * (unit + Err))
    (elem : W -> quad R -> W * (unit + Err)) (fin : W -> W * (Ok + Err)) ops0 ops xs d (w : W),
    id_reached cmp keep ops0 ops xs d ->
    exists l w' r, id_iter d = Some l /\ id_ser_into begin elem fin d w = Some (w', r) /\
      given begin elem fin l w w' r.
Proof. exact @id_into. Qed.
Print Assumptions c71_indexed_dataset_given.

Theorem c71_btree_graph_given :
  forall R (cmp : R -> R -> comparison), ord_laws cmp ->
  forall keep W Ok Err (begin : W -> option nat -> W * (unit + Err))
    (elem : W -> triple R -> W * (unit + Err)) (fin : W -> W * (Ok + Err)) ops xs g (w : W),
    run (bg_step cmp keep) bg_new ops = Some (xs, g) ->
    exists l w' r, bg_iter g = Some l /\ bg_ser_into begin elem fin g w = Some (w', r) /\
      given begin elem fin l w w' r.
Proof. exact @bg_into. Qed.
Print Assumptions c71_btree_graph_given.

Theorem c71_indexed_graph_given :
  forall R (cmp : R -> R -> comparison), ord_laws cmp ->
  forall keep W Ok Err (begin : W -> option nat -> W * (unit + Err))
    (elem : W -> triple R -> W * (unit + Err)) (fin : W -> W * (Ok + Err)) ops0 ops g (w : W),
    ig_reached cmp keep ops0 ops g ->
    exists l w' r, ig_iter g = Some l /\ ig_ser_into begin elem fin g w = Some (w', r) /\
      given begin elem fin l w w' r.
Proof. exact @ig_into. Qed.
Print Assumptions c71_indexed_graph_given.

(** ** Sources *)

Theorem c71_btree_dataset_read :
  forall R (cmp : R -> R -> comparison), ord_laws cmp ->
  forall keep W Err (next : W -> W * (option (quad R) + Err)) n (w : W),
    exists res, bd_de_from cmp keep next n w = Some res /\
      reads next (fun l d => exists m, bd_iter d = Some m /\ increasing (quad_cmp cmp) m /\
                                    forall t, In t m <-> In t l) n w res.
Proof. exact @bd_from. Qed.
Print Assumptions c71_btree_dataset_read.

Theorem c71_indexed_dataset_read :
  forall R (cmp : R -> R -> comparison), ord_laws cmp ->
  forall keep W Err (next : W -> W * (option (quad R) + Err)) n (w : W),
    exists res, id_de_from cmp keep next n w = Some res /\
      reads next (fun l d => exists m, id_iter d = Some m /\ increasing (quad_cmp cmp) m /\
                                    forall t, In t m <-> In t l) n w res.
Proof. exact @id_from. Qed.
Print Assumptions c71_indexed_dataset_read.

Theorem c71_btree_graph_read :
  forall R (cmp : R -> R -> comparison), ord_laws cmp ->
  forall keep W Err (next : W -> W * (option (triple R) + Err)) n (w : W),
    exists res, bg_de_from cmp keep next n w = Some res /\
      reads next (fun l g => exists m, bg_iter g = Some m /\ increasing (triple_cmp cmp) m /\
                                    forall t, In t m <-> In t l) n w res.
Proof. exact @bg_from. Qed.
Print Assumptions c71_btree_graph_read.

Theorem c71_indexed_graph_read :
  forall R (cmp : R -> R -> comparison), ord_laws cmp ->
  forall keep W Err (next : W -> W * (option (triple R) + Err)) n (w : W),
    exists res, ig_de_from cmp keep next n w = Some res /\
      reads next (fun l g => exists m, ig_iter g = Some m /\ increasing (triple_cmp cmp) m /\
                                    forall t, In t m <-> In t l) n w res.
Proof. exact @ig_from. Qed.
Print Assumptions c71_indexed_graph_read.

(** ** What this means *)

(** A source has one beginning of each length, and one end: what [reads] says is
    not ambiguous. *)
Theorem c71_one_reading :
  forall W X Err (next : W -> W * (option X + Err)) w l1 w1 l2 w2,
    gives next w l1 w1 -> gives next w l2 w2 ->
    (forall x, snd (next w1) <> inl (Some x)) -> (forall x, snd (next w2) <> inl (Some x)) ->
    l1 = l2 /\ w1 = w2.
Proof. exact @gives_one. Qed.
Print Assumptions c71_one_reading.

(** A reader that waits long enough gets to the end, or to the error, if there is
    one; otherwise it never returns. *)
Theorem c71_reader_ends :
  forall W X Err C (next : W -> W * (option X + Err)) (built : list X -> C -> Prop) w l w1,
    gives next w l w1 -> (forall x, snd (next w1) <> inl (Some x)) ->
    forall n res, length l < n -> reads next built n w res ->
      (exists e, next w1 = (fst (next w1), inr e) /\ res = Some (fst (next w1), inr e)) \/
      (exists c, next w1 = (fst (next w1), inl None) /\ built l c /\
                 res = Some (fst (next w1), inl c)).
Proof. exact @reads_ends. Qed.
Print Assumptions c71_reader_ends.

Theorem c71_endless_source :
  forall W X Err C (next : W -> W * (option X + Err)) (built : list X -> C -> Prop) w,
    (forall l w1, gives next w l w1 -> exists x, snd (next w1) = inl (Some x)) ->
    forall n res, reads next built n w res -> res = None.
Proof. exact @reads_endless. Qed.
Print Assumptions c71_endless_source.

(** The result of a serialization is that of a serializer without errors exactly
    when it was given everything. *)
Theorem c71_no_partial_success :
  forall W X Ok Err (begin : W -> option nat -> W * (unit + Err))
    (elem : W -> X -> W * (unit + Err)) (fin : W -> W * (Ok + Err)) l w w' o,
    given begin elem fin l w w' (inl o) ->
    exists w0 w1, begin w (Some (length l)) = (w0, inl tt) /\ accepts elem w0 l w1 /\
      fin w1 = (w', inl o).
Proof. exact @given_ok. Qed.
Print Assumptions c71_no_partial_success.

(** ** Examples *)

(** A serializer with room for [n] elements, which returns what it was given. *)
Definition ex_room (n : nat) :
    (list (quad nat) -> option nat -> list (quad nat) * (unit + nat)) *
    (list (quad nat) -> quad nat -> list (quad nat) * (unit + nat)) *
    (list (quad nat) -> list (quad nat) * (list (quad nat) + nat)) :=
  (fun w k => (w, inl tt),
   fun w q => if length w <? n then (w ++ [q], inl tt) else (w, inr n),
   fun w => (w, inl w)).
(** A source of the elements of a list, which fails at 9. *)
Definition ex_source (w : list (quad nat)) : list (quad nat) * (option (quad nat) + nat) :=
  match w with
  | [] => ([], inl None)
  | q :: r => if q_s q =? 9 then (r, inr 9) else (r, inl (Some q))
  end.

Example c71_ex :
  let q s : quad nat := Quad s 1 s None in
  forall keep,
    (exists xs d, run (bd_step Nat.compare keep) bd_new [Insert (q 2); Insert (q 1); Insert (q 3)]
                    = Some (xs, d) /\
       (let '(b, e, f) := ex_room 3 in bd_ser_into b e f d []) = Some ([q 1; q 2; q 3], inl [q 1; q 2; q 3]) /\
       (let '(b, e, f) := ex_room 2 in bd_ser_into b e f d []) = Some ([q 1; q 2], inr 2)) /\
    id_de_from Nat.compare keep ex_source 5 [q 2; q 9; q 1] = Some (Some ([q 1], inr 9)) /\
    id_de_from Nat.compare keep ex_source 2 [q 2; q 1; q 2] = Some None /\
    (exists d, id_de_from Nat.compare keep ex_source 4 [q 2; q 1; q 2] = Some (Some ([], inl d)) /\
       id_iter d = Some [q 1; q 2]) /\
    gives ex_source [q 2; q 9; q 1] [q 2] [q 9; q 1].
Proof.
  intros q []; (split; [do 2 eexists; (split; [vm_compute; reflexivity|]); (split; vm_compute; reflexivity)|]);
    (do 2 (split; [vm_compute; reflexivity|])); (split; [eexists; (split; vm_compute; reflexivity)|]);
    econstructor; [reflexivity|constructor|reflexivity|constructor].
Qed.
(** A source without end. *)
Example c71_ex_endless :
  let next (w : nat) : nat * (option (quad nat) + nat) := (S w, inl (Some (Quad w w w None))) in
  forall w l w1, gives next w l w1 -> exists x, snd (next w1) = inl (Some x).
Proof. intros next w l w1 _; eexists; reflexivity. Qed.
