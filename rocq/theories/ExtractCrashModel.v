(** [extract_pattern_matching] of [IndexedBTreeDataset] when the comparison or
    the [Clone] of the resources may panic: the iterator and the dataset it
    borrows as one state, changed step by step (see CrashModel.v), so that the
    iterator can be polled again after a panic.

    ds = dataset/impl/indexed_btree_dataset.rs

    The budget counts the calls of the comparison and of [clone]. *)
From Coq Require Import List Bool Arith.
Import ListNotations.
From Verif Require Import Base SlabModel TripleModel TriplePatternModel QuadPatternModel BResourceModel
  IResourceModel IndexedDatasetModel CrashModel ICrashModel.
Open Scope act_scope.

Section Model.
  Context {R : Type} (cmp : R -> R -> comparison).

  (** ds 223-225 [get_resource] *)
  Definition m_id_get_resource (r : R) : act (@idataset R) (option (iresource R)) :=
    f <- m_id_table (m_i_index_of_resource cmp r) ;;
    d <- get ;;
    ret (match f with None => None | Some k => sget (id_resources d) k end).

  (** ds 937-953, 1022-1039, 1120-1138, 1232-1260 [new_owned], the [Given] case *)
  Definition m_given_constraint (p : pos) (r : R) : act (@idataset R) (constraint (quad nat)) :=
    f <- m_id_get_resource r ;;
    ret (match f with Some x => CFixed (ir_at p x) | None => CNone end).

  (** ds 475-478: the constraints of [extract_pattern_matching], in that order *)
  Definition m_pm_new (c : cqp R) : act (@idataset R) pm :=
    s <- match cq_subject c with
         | PS_Any => ret CAny
         | PS_Given r => m_given_constraint PosS r
         end ;;
    p <- match cq_predicate c with
         | PP_Any => ret CAny
         | PP_SameS => ret (CSame (fun q => q_s q =? q_p q))
         | PP_Given r => m_given_constraint PosP r
         end ;;
    o <- match cq_object c with
         | PO_Any => ret CAny
         | PO_SameS => ret (CSame (fun q => q_s q =? q_o q))
         | PO_SameP => ret (CSame (fun q => q_p q =? q_o q))
         | PO_Given r => m_given_constraint PosO r
         end ;;
    g <- match cq_graph c with
         | PG_Any => ret CAny
         | PG_SameS => ret (CSame (fun q => is_graph (q_s q) (q_g q)))
         | PG_SameP => ret (CSame (fun q => is_graph (q_p q) (q_g q)))
         | PG_SameO => ret (CSame (fun q => is_graph (q_o q) (q_g q)))
         | PG_Given (Some r) => m_given_constraint PosG r
         | PG_Given None => d <- get ;; ret (CFixed (id_dg d))
         end ;;
    ret (PM s p o g 0).

  (** ds 891-897, 903-911: [next] up to the quad found, and the state of the
      iterator at that time: [self.i] is changed by 903-907 only, the assignment
      of 900 comes later.  [fuel] as for [pm_next] (IndexedDatasetModel.v). *)
  Fixpoint pm_seek (fuel cap : nat) (qs : slab (quad nat)) (m : pm)
    : option (option (nat * quad nat) * pm) :=
    match fuel with
    | 0 => None
    | S fuel =>
        if pm_i m <? cap then
          let '(r, cs) := s_next (pm_s m) (pm_i m) in
          match r with
          | None => Some (None, PM cs (pm_p m) (pm_o m) (pm_g m) (pm_i m))
          | Some i =>
              match sget qs i with
              | None => Some (None, PM cs (pm_p m) (pm_o m) (pm_g m) (pm_i m))
              | Some q =>
                  let '(n, cp) := c_next (pm_p m) i q in
                  match n with
                  | NErr None => Some (None, PM cs cp (pm_o m) (pm_g m) (pm_i m))
                  | NErr (Some j) => pm_seek fuel cap qs (PM cs cp (pm_o m) (pm_g m) j)
                  | NOk =>
                      let '(n, co) := c_next (pm_o m) i q in
                      match n with
                      | NErr None => Some (None, PM cs cp co (pm_g m) (pm_i m))
                      | NErr (Some j) => pm_seek fuel cap qs (PM cs cp co (pm_g m) j)
                      | NOk =>
                          let '(n, cg) := c_next (pm_g m) i q in
                          match n with
                          | NErr None => Some (None, PM cs cp co cg (pm_i m))
                          | NErr (Some j) => pm_seek fuel cap qs (PM cs cp co cg j)
                          | NOk => Some (Some (i, q), PM cs cp co cg (pm_i m))
                          end
                      end
                  end
              end
          end
        else Some (None, m)
    end.

  (** ds 890-912 [ExtractPatternMatching::next].  [cap] is the capacity of the
      slab of the quads, which removals do not change. *)
  Definition m_extract_call (cap : nat) : act (@idataset R * pm) (option (quad R)) :=
    '(d, m) <- get ;;
    '(f, m) <- need (pm_seek (S cap) cap (id_quads d) m) ;;
    _ <- put (d, m) ;;
    match f with
    | None => ret None
    | Some (i, x) =>
        q <- need (i_quad_with_resources (id_resources d) x) ;;
        v <- m_cloned q ;;
        _ <- zoom fst (fun d s => (d, snd s)) (m_id_remove_by_index cmp i true) ;;
        '(d, m) <- get ;;
        _ <- put (d, PM (pm_s m) (pm_p m) (pm_o m) (pm_g m) (S i)) ;;
        ret (Some v)
    end.
End Model.
