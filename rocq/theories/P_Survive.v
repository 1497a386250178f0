(** C83: any history of the operations of an indexed dataset, each of which may be interrupted by a
    panic of the user's code, or panic by itself after such a panic. *)
From Coq Require Import List Bool Arith.
Import ListNotations.
From Verif Require Import Base TripleModel TriplePatternModel QuadPatternModel SetSpec ContainerSpec PatternSpec
  IndexedSpec Machine BaseProofs BTreeDatasetModel IndexedDatasetModel
  CrashModel CrashSpec ICrashSpec ICrashModel ExtractCrashModel ExtractCrashSpec
  SurviveSpec SurviveModel SurviveProofs RecoverProofs.

(** Whatever the operations, and wherever each is interrupted, the dataset remains a set of quads, with
    some that were lost: the results and the set are as [survives] says, [iter] gives the set in order,
    [len] counts the losses too, and the queries answer without panic from the set and the losses, none
    more often than it is there. *)
Theorem c83_history :
  forall R (cmp : R -> R -> comparison), ord_laws cmp ->
  forall keep ops0 ops xs d0 l,
    id_reached cmp keep ops0 ops xs d0 ->
    exists ys d s lost, x_run cmp keep d0 l = (ys, d) /\
      survives cmp (left_over (quad_cmp cmp)) true (final_set cmp ops0 ops xs) [] l ys s lost /\ NoDup s /\
      id_len d = length s + length lost /\ id_iter d = Some (sorted_elements (quad_cmp cmp) s) /\
      (exists vs, id_resources_iter d = Some vs /\ increasing cmp vs /\
         forall v, id_contains_resource cmp d v = Some (mem cmp v vs)) /\
      id_queries_within cmp d (s ++ lost).
Proof. exact @x_reads. Qed.
Print Assumptions c83_history.

(** Every operation returns.  There are no more losses than interrupted operations, and an operation
    panics by itself after an interrupted one only. *)
Theorem c83_bounds :
  forall R (cmp : R -> R -> comparison), ord_laws cmp ->
  forall keep ops0 ops xs d0 l ys d,
    id_reached cmp keep ops0 ops xs d0 -> x_run cmp keep d0 l = (ys, d) ->
    length ys = length l /\
    (exists n, id_iter d = Some n /\ length n <= id_len d <= length n + length (filter interrupted ys)) /\
    forall before after, ys = before ++ XFailed :: after -> exists y, In y before /\ interrupted y = true.
Proof. exact @x_bounds. Qed.
Print Assumptions c83_bounds.

(** After any such history an extraction goes through the answer that the query would give, in its
    order; [len] goes down by the number of quads returned, and one more at most, if a call was
    interrupted. *)
Theorem c83_extract :
  forall R (cmp : R -> R -> comparison), ord_laws cmp ->
  forall keep ops0 ops xs d0 l ys d spare c n,
    id_reached cmp keep ops0 ops xs d0 -> x_run cmp keep d0 l = (ys, d) ->
    exists qs, id_pattern_matching cmp d spare c = Some qs /\
    match m_pm_new cmp c n d with
    | Failed _ => False
    | Interrupted d' => d' = d
    | Done m _ d' => d' = d /\
        forall ns, exists zs d' m' k lost,
          x_calls cmp (capacity d spare) ns (d, m) = (zs, false, (d', m')) /\ length zs = length ns /\
          drained qs zs (firstn (k + lost) qs) /\ items zs = firstn k qs /\
          k + lost <= length qs /\ lost <= 1 /\ (lost = 1 -> In None zs) /\
          id_len d' + k + lost = id_len d
    end.
Proof. exact @x_extract_after. Qed.
Print Assumptions c83_extract.

(** Operations of which none is interrupted are those of the model without panics (C26-C30) ... *)
Theorem c83_same :
  forall R (cmp : R -> R -> comparison), ord_laws cmp ->
  forall keep l ops0 ops xs d0 ys d,
    id_reached cmp keep ops0 ops xs d0 -> x_run cmp keep d0 l = (ys, d) ->
    (forall y, In y ys -> interrupted y = false) ->
    exists zs, run (id_step cmp keep) d0 (map plain l) = Some (zs, d) /\ Forall2 same_out ys zs.
Proof. exact @x_run_plain. Qed.
Print Assumptions c83_same.

(** ... and none is when the user's code does not panic early enough. *)
Theorem c83_enough :
  forall R (cmp : R -> R -> comparison), ord_laws cmp ->
  forall keep l ops0 ops xs d0 zs d,
    id_reached cmp keep ops0 ops xs d0 -> run (id_step cmp keep) d0 l = Some (zs, d) ->
    exists k, forall n, k <= n -> exists ys,
      x_run cmp keep d0 (map (within n) l) = (ys, d) /\ Forall2 same_out ys zs.
Proof. exact @x_run_enough. Qed.
Print Assumptions c83_enough.

(** The dataset stays usable: after any such history, an operation during which the user's code does
    not panic is not interrupted, and only the removal of a graph may panic by itself. *)
Theorem c83_recovers :
  forall R (cmp : R -> R -> comparison), ord_laws cmp ->
  forall keep ops0 ops xs d0 l ys d,
    id_reached cmp keep ops0 ops xs d0 -> x_run cmp keep d0 l = (ys, d) ->
    forall o, exists k, forall n, k <= n -> exists y d', x_step cmp keep d (within n o) = (y, d') /\
      interrupted y = false /\ (y = XFailed -> exists g, o = IRemoveGraph g).
Proof. exact @x_recovers. Qed.
Print Assumptions c83_recovers.

(** The limits of [survives] are met.  The [remove_graph] of the default graph may take a quad of a
    named graph, and return its triple, when a removal from the default graph was interrupted before. *)
Theorem c83_wrong_graph :
  forall keep, exists ys d,
    x_run Nat.compare keep id_new
      [XOp (Insert (Quad 1 2 3 None)) 100; XOp (Remove (Quad 1 2 3 None)) 3;
       XOp (Insert (Quad 4 5 6 (Some 7))) 100; XRemoveGraph None 100] = (ys, d) /\
    ys = [XDone (OBool true); XInterrupted; XDone (OBool true); XGraph [Triple 4 5 6]] /\
    id_iter d = Some [].
Proof. intros []; do 2 eexists; (split; [vm_compute; reflexivity|]); split; reflexivity. Qed.
Print Assumptions c83_wrong_graph.

(** Or it panics by itself. *)
Theorem c83_own_panic :
  forall keep, exists ys d,
    x_run Nat.compare keep id_new
      [XOp (Insert (Quad 1 2 3 None)) 100; XOp (Remove (Quad 1 2 3 None)) 3; XRemoveGraph None 100] = (ys, d) /\
    ys = [XDone (OBool true); XInterrupted; XFailed].
Proof. intros []; do 2 eexists; (split; [vm_compute; reflexivity|]); reflexivity. Qed.
Print Assumptions c83_own_panic.

(** An extraction may take a quad that does not match its pattern, here one of a named graph when
    those of the default graph are asked for. *)
Theorem c83_wrong_extraction :
  let c := CQ_AnyS (QA_AnyP (QAA_Any (QAAA_Given None))) in
  ~ cq_matches c (Quad 4 5 6 (Some 7)) /\
  forall keep, exists ys d,
    x_run Nat.compare keep id_new
      [XOp (Insert (Quad 1 2 3 None)) 100; XOp (Remove (Quad 1 2 3 None)) 3;
       XOp (Insert (Quad 4 5 6 (Some 7))) 100; XExtract c 0 100 [100; 100]] = (ys, d) /\
    ys = [XDone (OBool true); XInterrupted; XDone (OBool true);
          XQuads [Some (Some (Quad 4 5 6 (Some 7))); Some None]] /\
    id_iter d = Some [].
Proof.
  split; [vm_compute; intuition discriminate|].
  intros []; do 2 eexists; (split; [vm_compute; reflexivity|]); split; reflexivity.
Qed.
Print Assumptions c83_wrong_extraction.

(** And it may return a quad twice, when an insertion of it was interrupted before. *)
Theorem c83_twice :
  forall keep, exists ys d,
    x_run Nat.compare keep id_new
      [XOp (Insert (Quad 4 5 6 (Some 7))) 100; XOp (Insert (Quad 1 2 3 None)) 10;
       XOp (Insert (Quad 1 2 3 None)) 100; XExtract (CQ_AnyS (QA_AnyP (QAA_Any QAAA_Any))) 0 100 [100; 100; 100]] = (ys, d) /\
    ys = [XDone (OBool true); XInterrupted; XDone (OBool true);
          XQuads [Some (Some (Quad 4 5 6 (Some 7))); Some (Some (Quad 1 2 3 None)); Some (Some (Quad 1 2 3 None))]].
Proof. intros []; do 2 eexists; (split; [vm_compute; reflexivity|]); reflexivity. Qed.
Print Assumptions c83_twice.

(** The hypotheses are met: an interrupted insertion, an extraction of which a call is interrupted, and a
    graph removed. *)
Example c83_met :
  id_reached Nat.compare true [] [] [] id_new /\
  exists d, x_run Nat.compare true id_new
    [XOp (Extend [Quad 4 5 6 (Some 7); Quad 4 5 8 (Some 7); Quad 1 2 3 (Some 7)]) 200;
     XOp (Insert (Quad 9 2 3 None)) 5;
     XExtract (CQ_GivenS 4 (QG_AnyP (QGA_Any QGAA_Any))) 0 100 [100; 2; 100; 100];
     XRemoveGraph (Some 7) 100; XOp Len 0] =
    ([XDone OUnit; XInterrupted;
      XQuads [Some (Some (Quad 4 5 6 (Some 7))); None; Some (Some (Quad 4 5 8 (Some 7))); Some None];
      XGraph [Triple 1 2 3]; XDone (ONat 0)], d) /\ id_iter d = Some [].
Proof.
  split; [exists [], bd_new, id_new; auto|].
  eexists; split; [vm_compute; reflexivity|reflexivity].
Qed.
