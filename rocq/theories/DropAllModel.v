(** All the operations of an indexed dataset whose resources may panic when they are compared, cloned or
    dropped: [remove_graph] and the extraction, with the calls of the destructor of resources, and the
    operations of DropModel.v, one after the other.

    ds = dataset/impl/indexed_btree_dataset.rs

    Simplifications: as in DropModel.v. *)
From Coq Require Import List Bool Arith.
Import ListNotations.
From Verif Require Import Base SlabModel TripleModel SetSpec BTreeGraphModel IResourceModel IndexedDatasetModel
  CrashModel ICrashModel ExtractCrashModel SurviveSpec DropModel.
Open Scope act_scope.

Section Model.
  Context {R : Type} (cmp : R -> R -> comparison) (keep : bool).

  (** ds 369-373, the loop of [remove_graph]: the graph name of the quad is dropped at the end of the
      statement 372, when its triple was inserted. *)
  Fixpoint d_id_remove_all (idx : list nat) (g : @bgraph R) : act (@idataset R) (@bgraph R) :=
    match idx with
    | [] => ret g
    | i :: idx =>
        d <- get ;;
        q <- need (i_quad_at (id_resources d) (id_quads d) i) ;;
        q <- m_cloned q ;;
        _ <- d_id_remove_by_index cmp i true ;;
        '(_, g) <- local (d_bg_insert cmp keep (fst (into_triple q))) g ;;
        _ <- drops (match snd (into_triple q) with Some _ => 1 | None => 0 end) ;;
        d_id_remove_all idx g
    end.

  (** ds 353-377 [remove_graph] *)
  Definition d_id_remove_graph (graph : option R) : act (@idataset R) (option (@bgraph R)) :=
    idx <- match graph with
           | Some g =>
               f <- m_id_table (m_i_index_of_resource cmp g) ;;
               d <- get ;;
               match f with
               | None => ret None
               | Some k =>
                   if ns_mem k (id_ng d) then
                     r <- need (sget (id_resources d) k) ;; ret (Some (ir_g r))
                   else ret None
               end
           | None => d <- get ;; ret (Some (id_dg d))
           end ;;
    match idx with
    | None => ret None
    | Some idx => g <- d_id_remove_all idx bg_new ;; ret (Some g)
    end.

  (** ds 890-912 [ExtractPatternMatching::next] (compare [m_extract_call], ExtractCrashModel.v) *)
  Definition d_extract_call (cap : nat) : act (@idataset R * pm) (option (quad R)) :=
    '(d, m) <- get ;;
    '(f, m) <- need (pm_seek (S cap) cap (id_quads d) m) ;;
    _ <- put (d, m) ;;
    match f with
    | None => ret None
    | Some (i, x) =>
        q <- need (i_quad_with_resources (id_resources d) x) ;;
        v <- m_cloned q ;;
        _ <- zoom fst (fun d s => (d, snd s)) (d_id_remove_by_index cmp i true) ;;
        '(d, m) <- get ;;
        _ <- put (d, PM (pm_s m) (pm_p m) (pm_o m) (pm_g m) (S i)) ;;
        ret (Some v)
    end.

  (** The operations one after the other, as in SurviveModel.v. *)
  Fixpoint dx_calls (cap : nat) (ns : list nat) (st : @idataset R * pm)
    : list (option (option (quad R))) * bool * (@idataset R * pm) :=
    match ns with
    | [] => ([], false, st)
    | n :: ns =>
        match d_extract_call cap n st with
        | Done y _ st => let '(ys, failed, st) := dx_calls cap ns st in (Some y :: ys, failed, st)
        | Interrupted st => let '(ys, failed, st) := dx_calls cap ns st in (None :: ys, failed, st)
        | Failed st => ([], true, st)
        end
    end.

  Definition dx_step (d : @idataset R) (o : xop R) : xout R * @idataset R :=
    match o with
    | XOp o n =>
        match d_id_step cmp keep o n d with
        | Done x _ d => (XDone x, d)
        | Interrupted d => (XInterrupted, d)
        | Failed d => (XFailed, d)
        end
    | XRemoveGraph g n =>
        match d_id_remove_graph g n d with
        | Done None _ d => (XNoGraph, d)
        | Done (Some b) _ d => match bg_iter b with Some ts => (XGraph ts, d) | None => (XFailed, d) end
        | Interrupted d => (XInterrupted, d)
        | Failed d => (XFailed, d)
        end
    | XExtract c spare n ns =>
        match m_pm_new cmp c n d with
        | Done m _ d =>
            let '(ys, failed, (d, _)) := dx_calls (capacity d spare) ns (d, m) in
            (if failed then XFailed else XQuads ys, d)
        | Interrupted d => (XInterrupted, d)
        | Failed d => (XFailed, d)
        end
    end.

  Fixpoint dx_run (d : @idataset R) (l : list (xop R)) : list (xout R) * @idataset R :=
    match l with
    | [] => ([], d)
    | o :: l => let '(y, d) := dx_step d o in let '(ys, d) := dx_run d l in (y :: ys, d)
    end.
End Model.
