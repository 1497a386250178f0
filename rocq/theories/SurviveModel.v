(** All the operations of an indexed dataset, each of which may panic, one after the other: the program
    catches the panic and goes on, whether it comes from the comparison or the [Clone] of the resources
    or from the operation itself.

    ds = dataset/impl/indexed_btree_dataset.rs *)
From Coq Require Import List Bool Arith.
Import ListNotations.
From Verif Require Import Base TripleModel SetSpec BTreeGraphModel IndexedDatasetModel CrashModel ICrashModel
  ExtractCrashModel SurviveSpec.

Section Model.
  Context {R : Type} (cmp : R -> R -> comparison) (keep : bool).

  (** Calls of [ExtractPatternMatching::next] (ds 890-912), each with its number of calls of the user's
      code before the panic.  An interrupted call returns nothing; no call is made after one that panics
      by itself. *)
  Fixpoint x_calls (cap : nat) (ns : list nat) (st : @idataset R * pm)
    : list (option (option (quad R))) * bool * (@idataset R * pm) :=
    match ns with
    | [] => ([], false, st)
    | n :: ns =>
        match m_extract_call cmp cap n st with
        | Done y _ st => let '(ys, failed, st) := x_calls cap ns st in (Some y :: ys, failed, st)
        | Interrupted st => let '(ys, failed, st) := x_calls cap ns st in (None :: ys, failed, st)
        | Failed st => ([], true, st)
        end
    end.

  (** One operation: those of [m_id_step] (ICrashModel.v), [remove_graph] (ds 353-377), the graph it
      returns being iterated over, or [extract_pattern_matching] (ds 470-482) and calls of [next]. *)
  Definition x_step (d : @idataset R) (o : xop R) : xout R * @idataset R :=
    match o with
    | XOp o n =>
        match m_id_step cmp keep o n d with
        | Done x _ d => (XDone x, d)
        | Interrupted d => (XInterrupted, d)
        | Failed d => (XFailed, d)
        end
    | XRemoveGraph g n =>
        match m_id_remove_graph cmp keep g n d with
        | Done None _ d => (XNoGraph, d)
        | Done (Some b) _ d => match bg_iter b with Some ts => (XGraph ts, d) | None => (XFailed, d) end
        | Interrupted d => (XInterrupted, d)
        | Failed d => (XFailed, d)
        end
    | XExtract c spare n ns =>
        match m_pm_new cmp c n d with
        | Done m _ d =>
            let '(ys, failed, (d, _)) := x_calls (capacity d spare) ns (d, m) in
            (if failed then XFailed else XQuads ys, d)
        | Interrupted d => (XInterrupted, d)
        | Failed d => (XFailed, d)
        end
    end.

  Fixpoint x_run (d : @idataset R) (l : list (xop R)) : list (xout R) * @idataset R :=
    match l with
    | [] => ([], d)
    | o :: l => let '(y, d) := x_step d o in let '(ys, d) := x_run d l in (y :: ys, d)
    end.
End Model.
