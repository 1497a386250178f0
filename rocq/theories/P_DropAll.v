(** C86: any history of the operations of an indexed dataset, each of which may be interrupted by a
    panic of the comparison, the [Clone] or the destructor of the resources, or panic by itself after
    such a panic. *)
From Coq Require Import List Bool Arith.
Import ListNotations.
From Verif Require Import Base SlabModel TripleModel BTreeGraphModel TriplePatternModel QuadPatternModel SetSpec ContainerSpec PatternSpec
  IndexedSpec Machine BaseProofs BTreeDatasetModel IndexedDatasetModel
  CrashModel CrashSpec ICrashSpec ICrashModel ExtractCrashModel ExtractCrashSpec
  SurviveSpec SurviveModel DropSpec DropModel IterModel DropAllModel DropAllProofs DropAllCountProofs RecoverProofs.

(** Whatever the operations, and wherever each is interrupted, the dataset remains a set of quads, with
    some that were lost: the results and the set are as [survives] says, [iter] gives the set in order,
    [len] counts the losses too, and the queries answer without panic from the set and the losses, none
    more often than it is there. *)
Theorem c86_history :
  forall R (cmp : R -> R -> comparison), ord_laws cmp ->
  forall keep ops0 ops xs d0 l,
    id_reached cmp keep ops0 ops xs d0 ->
    exists ys d s lost, dx_run cmp keep d0 l = (ys, d) /\
      survives cmp (cut (quad_cmp cmp)) true (final_set cmp ops0 ops xs) [] l ys s lost /\ NoDup s /\
      id_len d = length s + length lost /\ id_iter d = Some (sorted_elements (quad_cmp cmp) s) /\
      (exists vs, id_resources_iter d = Some vs /\ increasing cmp vs /\
         forall v, id_contains_resource cmp d v = Some (mem cmp v vs)) /\
      id_queries_within cmp d (s ++ lost).
Proof. exact @d_x_reads. Qed.
Print Assumptions c86_history.

(** Every operation returns.  There are no more losses than interrupted operations, and an operation
    panics by itself after an interrupted one only. *)
Theorem c86_bounds :
  forall R (cmp : R -> R -> comparison), ord_laws cmp ->
  forall keep ops0 ops xs d0 l ys d,
    id_reached cmp keep ops0 ops xs d0 -> dx_run cmp keep d0 l = (ys, d) ->
    length ys = length l /\
    (exists n, id_iter d = Some n /\ length n <= id_len d <= length n + length (filter interrupted ys)) /\
    forall before after, ys = before ++ XFailed :: after -> exists y, In y before /\ interrupted y = true.
Proof. exact @d_x_bounds. Qed.
Print Assumptions c86_bounds.

(** After any such history an extraction goes through the answer that the query would give, in its
    order; [len] goes down by the number of quads returned, and one more at most, if a call was
    interrupted. *)
Theorem c86_extract :
  forall R (cmp : R -> R -> comparison), ord_laws cmp ->
  forall keep ops0 ops xs d0 l ys d spare c n,
    id_reached cmp keep ops0 ops xs d0 -> dx_run cmp keep d0 l = (ys, d) ->
    exists qs, id_pattern_matching cmp d spare c = Some qs /\
    match m_pm_new cmp c n d with
    | Failed _ => False
    | Interrupted d' => d' = d
    | Done m _ d' => d' = d /\
        forall ns, exists zs d' m' k lost,
          dx_calls cmp (capacity d spare) ns (d, m) = (zs, false, (d', m')) /\ length zs = length ns /\
          drained qs zs (firstn (k + lost) qs) /\ items zs = firstn k qs /\
          k + lost <= length qs /\ lost <= 1 /\ (lost = 1 -> In None zs) /\
          id_len d' + k + lost = id_len d
    end.
Proof. exact @d_x_extract_after. Qed.
Print Assumptions c86_extract.

(** Operations of which none is interrupted are those of the model without panics (C26-C30) ... *)
Theorem c86_same :
  forall R (cmp : R -> R -> comparison), ord_laws cmp ->
  forall keep l ops0 ops xs d0 ys d,
    id_reached cmp keep ops0 ops xs d0 -> dx_run cmp keep d0 l = (ys, d) ->
    (forall y, In y ys -> interrupted y = false) ->
    exists zs, run (id_step cmp keep) d0 (map plain l) = Some (zs, d) /\ Forall2 same_out ys zs.
Proof. exact @d_x_run_plain. Qed.
Print Assumptions c86_same.

(** ... and none is when the user's code does not panic early enough. *)
Theorem c86_enough :
  forall R (cmp : R -> R -> comparison), ord_laws cmp ->
  forall keep l ops0 ops xs d0 zs d,
    id_reached cmp keep ops0 ops xs d0 -> run (id_step cmp keep) d0 l = Some (zs, d) ->
    exists k, forall n, k <= n -> exists ys,
      dx_run cmp keep d0 (map (within n) l) = (ys, d) /\ Forall2 same_out ys zs.
Proof. exact @d_x_run_enough. Qed.
Print Assumptions c86_enough.

(** The dataset stays usable: after any such history, an operation during which the user's code does
    not panic is not interrupted, and only the removal of a graph may panic by itself. *)
Theorem c86_recovers :
  forall R (cmp : R -> R -> comparison), ord_laws cmp ->
  forall keep ops0 ops xs d0 l ys d,
    id_reached cmp keep ops0 ops xs d0 -> dx_run cmp keep d0 l = (ys, d) ->
    forall o, exists k, forall n, k <= n -> exists y d', dx_step cmp keep d (within n o) = (y, d') /\
      interrupted y = false /\ (y = XFailed -> exists g, o = IRemoveGraph g).
Proof. exact @d_x_recovers. Qed.
Print Assumptions c86_recovers.

(** If nothing panics, [remove_graph] calls the destructors once for each value: the resources that no quad
    uses any more and the clones of the values of the quads it takes are dropped, except for those
    that the graph returned stores. *)
Theorem c86_counted_graph :
  forall R (cmp : R -> R -> comparison), ord_laws cmp ->
  forall keep ops0 ops xs d g b d' l l',
    id_reached cmp keep ops0 ops xs d -> id_remove_graph cmp keep d g = Some (Some b, d') ->
    id_iter d = Some l -> id_iter d' = Some l' ->
    exists qs k j, NoDup qs /\ (forall q, In q qs <-> In q l /\ ~ In q l') /\
      costs (m_id_remove_graph cmp keep g) d k (Some b) d' /\
      costs (d_id_remove_graph cmp keep g) d (k + j) (Some b) d' /\
      j + slen (id_resources d') + slen (bg_resources b) =
        fold_right (fun q n => quad_values q + n) 0 qs + slen (id_resources d).
Proof. exact @remove_graph_counted. Qed.
Print Assumptions c86_counted_graph.

(** Calls of [next] of an extraction drop the resources that no quad uses any more; the values returned
    are not dropped. *)
Theorem c86_counted_extract :
  forall R (cmp : R -> R -> comparison), ord_laws cmp ->
  forall keep ops0 ops xs d cap m n ys d' m',
    id_reached cmp keep ops0 ops xs d ->
    run (fun s (_ : unit) => extract_call cmp cap s) (d, m) (repeat tt n) = Some (ys, (d', m')) ->
    exists k j,
      costs (all_of (fun _ => m_extract_call cmp cap) (repeat tt n)) (d, m) k ys (d', m') /\
      costs (all_of (fun _ => d_extract_call cmp cap) (repeat tt n)) (d, m) (k + j) ys (d', m') /\
      j + slen (id_resources d') = slen (id_resources d).
Proof. exact @extract_counted. Qed.
Print Assumptions c86_counted_extract.

(** A destructor that panics at the end of [remove_graph], where nothing else does, takes the graph from
    the dataset and from the caller. *)
Theorem c86_graph_lost :
  forall keep,
    let l := [XOp (Insert (Quad 4 5 6 (Some 7))) 100; XRemoveGraph (Some 7) 22] in
    fst (x_run Nat.compare keep id_new l) = [XDone (OBool true); XGraph [Triple 4 5 6]] /\
    exists ys d, dx_run Nat.compare keep id_new l = (ys, d) /\
      ys = [XDone (OBool true); XInterrupted] /\ id_iter d = Some [] /\ id_len d = 0.
Proof.
  intros []; (split; [vm_compute; reflexivity|]);
    do 2 eexists; (split; [vm_compute; reflexivity|]); repeat split; reflexivity.
Qed.
Print Assumptions c86_graph_lost.

(** One that panics in a call of [next] of an extraction takes the quad from the dataset and from the
    caller, and the extraction ends there although other quads match. *)
Theorem c86_quad_lost :
  forall keep,
    let l := [XOp (Extend [Quad 4 5 6 (Some 7); Quad 1 2 3 None]) 100;
              XExtract (CQ_AnyS (QA_AnyP (QAA_Any QAAA_Any))) 0 100 [27; 100; 100]] in
    fst (x_run Nat.compare keep id_new l) =
      [XDone OUnit; XQuads [Some (Some (Quad 4 5 6 (Some 7))); Some (Some (Quad 1 2 3 None)); Some None]] /\
    exists ys d, dx_run Nat.compare keep id_new l = (ys, d) /\
      ys = [XDone OUnit; XQuads [None; Some None; Some None]] /\ id_iter d = Some [Quad 1 2 3 None].
Proof.
  intros []; (split; [vm_compute; reflexivity|]);
    do 2 eexists; (split; [vm_compute; reflexivity|]); repeat split; reflexivity.
Qed.
Print Assumptions c86_quad_lost.

(** After one that panics in the removal of a quad of the default graph, [remove_graph] of the default
    graph panics by itself ... *)
Theorem c86_own_panic :
  forall keep,
    let l := [XOp (Insert (Quad 1 2 3 None)) 100; XOp (Remove (Quad 1 2 3 None)) 8; XRemoveGraph None 100] in
    fst (x_run Nat.compare keep id_new l) = [XDone (OBool true); XDone (OBool true); XGraph []] /\
    fst (dx_run Nat.compare keep id_new l) = [XDone (OBool true); XInterrupted; XFailed].
Proof. intros []; split; vm_compute; reflexivity. Qed.
Print Assumptions c86_own_panic.

(** ... or takes a quad of a named graph that was inserted since. *)
Theorem c86_wrong_graph :
  forall keep, exists ys d,
    dx_run Nat.compare keep id_new
      [XOp (Insert (Quad 1 2 3 None)) 100; XOp (Remove (Quad 1 2 3 None)) 8;
       XOp (Insert (Quad 4 5 6 (Some 7))) 100; XRemoveGraph None 100] = (ys, d) /\
    ys = [XDone (OBool true); XInterrupted; XDone (OBool true); XGraph [Triple 4 5 6]] /\
    id_iter d = Some [].
Proof. intros []; do 2 eexists; (split; [vm_compute; reflexivity|]); split; reflexivity. Qed.
Print Assumptions c86_wrong_graph.

(** The hypotheses are met: an insertion, a call of an extraction and the removal of a graph are interrupted
    by destructors. *)
Example c86_met :
  id_reached Nat.compare true [] [] [] id_new /\
  exists d, dx_run Nat.compare true id_new
    [XOp (Extend [Quad 4 5 6 (Some 7); Quad 4 5 8 (Some 7); Quad 1 2 3 (Some 7)]) 200;
     XOp (Insert (Quad 4 5 8 (Some 7))) 10;
     XExtract (CQ_GivenS 4 (QG_AnyP (QGA_Any QGAA_Any))) 0 100 [100; 2; 100; 100];
     XRemoveGraph (Some 7) 21; XOp Len 0] =
    ([XDone OUnit; XInterrupted;
      XQuads [Some (Some (Quad 4 5 6 (Some 7))); None; Some (Some (Quad 4 5 8 (Some 7))); Some None];
      XInterrupted; XDone (ONat 0)], d) /\ id_iter d = Some [].
Proof.
  split; [exists [], bd_new, id_new; auto|].
  eexists; split; [vm_compute; reflexivity|reflexivity].
Qed.

(** Of the counts: two quads with four resources are taken from a dataset with six. *)
Example c86_counted_met :
  exists ys d b d',
    id_reached Nat.compare true [] [IOp (Extend [Quad 4 5 6 (Some 7); Quad 4 5 8 (Some 7); Quad 1 4 5 None])] ys d /\
    id_remove_graph Nat.compare true d (Some 7) = Some (Some b, d') /\
    slen (id_resources d) = 6 /\ slen (id_resources d') = 3 /\ slen (bg_resources b) = 4 /\
    exists m ys d2 m2, pm_new Nat.compare d (CQ_GivenS 4 (QG_AnyP (QGA_Any QGAA_Any))) = Some m /\
      run (fun s (_ : unit) => extract_call Nat.compare 3 s) (d, m) (repeat tt 3) = Some (ys, (d2, m2)) /\
      ys = [Some (Quad 4 5 6 (Some 7)); Some (Quad 4 5 8 (Some 7)); None] /\ slen (id_resources d2) = 3.
Proof.
  do 4 eexists; split; [exists [], bd_new, id_new; split; [reflexivity|split; [reflexivity|vm_compute; reflexivity]]|].
  repeat (split; [vm_compute; reflexivity|]).
  do 4 eexists; repeat (split; [vm_compute; reflexivity|]); vm_compute; reflexivity.
Qed.
