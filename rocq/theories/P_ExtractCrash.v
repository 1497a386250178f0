(** C67: an extraction interrupted by a panic of the user's code loses at most
    one quad. *)
From Coq Require Import List Bool Arith.
Import ListNotations.
From Verif Require Import Base SlabModel TripleModel TriplePatternModel QuadPatternModel SetSpec ContainerSpec
  IndexedSpec Machine BaseProofs BTreeDatasetModel IndexedDatasetModel IterModel IterSpec
  CrashModel CrashSpec ICrashSpec ICrashModel ExtractCrashModel ExtractCrashSpec ExtractCrashProofs.

(** [extract_pattern_matching] on any dataset, with any pattern: making the iterator
    never changes the dataset.  However often [next] is then called, and wherever the
    calls are interrupted by a panic of the comparison or of [Clone] ([calls] gives for
    each the number of calls of the user's code before the panic), no call panics by
    itself, the calls go through the answer of the query as [drained] says, and the
    dataset loses the quads taken, no other.  It can then be used as after any
    interrupted operation (C64). *)
Theorem c67_interrupted :
  forall R (cmp : R -> R -> comparison), ord_laws cmp ->
  forall keep ops0 ops xs d spare c n,
    id_reached cmp keep ops0 ops xs d ->
    exists qs, id_pattern_matching cmp d spare c = Some qs /\
    match m_pm_new cmp c n d with
    | Failed _ => False
    | Interrupted d' => d' = d
    | Done m _ d' => d' = d /\
        forall calls, exists ys d' m' taken s0,
          m_run (fun _ : unit => m_extract_call cmp (capacity d spare)) (d, m) calls = Some (ys, (d', m')) /\
          drained qs ys taken /\ NoDup s0 /\
          (forall q, In q s0 <-> In q (final_set cmp ops0 ops xs) /\ ~ In q taken) /\
          id_iter d' = Some (sorted_elements (quad_cmp cmp) s0) /\ id_len d' = length s0 /\
          forall l, exists ys d2 s lost,
            m_run (m_id_step cmp keep) d' l = Some (ys, d2) /\
            history (quad_cmp cmp) s0 [] (map fst l) ys s lost /\
            id_len d2 = length s + length lost /\ id_iter d2 = Some (sorted_elements (quad_cmp cmp) s) /\
            id_queries_within cmp d2 (s ++ lost)
    end.
Proof. exact @id_extract_interrupted. Qed.
Print Assumptions c67_interrupted.

(** The quads returned are the first of the query, in its order and each once; the
    dataset has lost these, and at most one other, if a call was interrupted. *)
Theorem c67_one_lost :
  forall R (cmp : R -> R -> comparison), ord_laws cmp ->
  forall keep ops0 ops xs d spare c n m e d1 calls,
    id_reached cmp keep ops0 ops xs d ->
    m_pm_new cmp c n d = Done m e d1 ->
    exists qs ys d' m' k lost,
      id_pattern_matching cmp d spare c = Some qs /\
      m_run (fun _ : unit => m_extract_call cmp (capacity d spare)) (d1, m) calls = Some (ys, (d', m')) /\
      k + lost <= length qs /\ lost <= 1 /\ items ys = firstn k qs /\
      (lost = 1 -> In None ys) /\ (In (Some None) ys -> lost = 1 \/ k = length qs) /\
      id_len d' + k + lost = id_len d /\
      forall q, id_contains cmp d' q =
        Some (mem (quad_cmp cmp) q (final_set cmp ops0 ops xs) &&
              negb (mem (quad_cmp cmp) q (firstn (k + lost) qs))).
Proof. exact @id_extract_lost. Qed.
Print Assumptions c67_one_lost.

(** The calls are those of the other properties (C57): with enough calls of the user's
    code they return the same and leave the same state, and so do those of which none
    was interrupted. *)
Theorem c67_same :
  forall R (cmp : R -> R -> comparison) d c m cap j ys s,
    pm_new cmp d c = Some m -> calls (extract_call cmp cap) j (d, m) = Some (ys, s) ->
    exists k, forall n, k <= n ->
      (exists e, m_pm_new cmp c n d = Done m e d) /\
      m_run (fun _ : unit => m_extract_call cmp cap) (d, m) (repeat (tt, n) j) = Some (map Some ys, s).
Proof. exact @id_extract_enough. Qed.
Print Assumptions c67_same.

Theorem c67_same_done :
  forall R (cmp : R -> R -> comparison) d c m cap n e d' l ys s,
    m_pm_new cmp c n d = Done m e d' ->
    m_run (fun _ : unit => m_extract_call cmp cap) (d', m) l = Some (map Some ys, s) ->
    d' = d /\ pm_new cmp d c = Some m /\ calls (extract_call cmp cap) (length l) (d, m) = Some (ys, s).
Proof. exact @id_extract_all_done. Qed.
Print Assumptions c67_same_done.

(** A quad may be lost indeed.  The first call is interrupted by [Clone] and the second
    returns the quad; the third is interrupted by a comparison once the quad is removed,
    and the iterator ends before the last quad. *)
Theorem c67_lost :
  exists ops xs d c, forall keep,
    id_reached Nat.compare keep [] ops xs (d keep) /\
    id_iter (d keep) = Some [Quad 1 2 3 None; Quad 4 5 6 (Some 9); Quad 7 8 9 None] /\
    exists m e d' m', m_pm_new Nat.compare c 0 (d keep) = Done m e (d keep) /\
      m_run (fun _ : unit => m_extract_call Nat.compare (capacity (d keep) 0)) (d keep, m)
        [(tt, 2); (tt, 60); (tt, 9); (tt, 60)] =
        Some ([None; Some (Some (Quad 1 2 3 None)); None; Some None], (d', m')) /\
      id_iter d' = Some [Quad 7 8 9 None].
Proof.
  pose (ops := map IOp [Insert (Quad 1 2 3 None); Insert (Quad 4 5 6 (Some 9)); Insert (Quad 7 8 9 None)]).
  exists ops, (map IOut [OBool true; OBool true; OBool true]).
  exists (fun keep => match run (id_step Nat.compare keep) id_new ops with
                      | Some (_, d) => d | None => id_new end).
  exists (CQ_AnyS (QA_AnyP (QAA_Any QAAA_Any))).
  intros []; (split; [exists [], bd_new, id_new; split; [reflexivity|]; split;
                        [reflexivity|vm_compute; reflexivity]|]);
    (split; [vm_compute; reflexivity|]); do 4 eexists; (split; [vm_compute; reflexivity|]);
    (split; vm_compute; reflexivity).
Qed.
Print Assumptions c67_lost.

(** The laws of the order hold for numbers, and a pattern with resources needs
    comparisons, of which any may be interrupted. *)
Example c67_ex : ord_laws Nat.compare.
Proof. exact nat_compare_laws. Qed.

Example c67_ex_interrupted :
  exists ops xs d c, forall keep,
    id_reached Nat.compare keep [] ops xs (d keep) /\
    m_pm_new Nat.compare c 3 (d keep) = Interrupted (d keep) /\
    exists m e, m_pm_new Nat.compare c 60 (d keep) = Done m e (d keep) /\
      exists s, m_run (fun _ : unit => m_extract_call Nat.compare (capacity (d keep) 0)) (d keep, m)
        [(tt, 0); (tt, 60); (tt, 60)] = Some ([None; Some (Some (Quad 4 2 6 None)); Some None], s).
Proof.
  pose (ops := map IOp [Insert (Quad 1 2 3 None); Insert (Quad 4 2 6 None); Insert (Quad 7 8 9 None)]).
  exists ops, (map IOut [OBool true; OBool true; OBool true]).
  exists (fun keep => match run (id_step Nat.compare keep) id_new ops with
                      | Some (_, d) => d | None => id_new end).
  exists (CQ_AnyS (QA_GivenP 2 (QAG_Given 6 QAGG_Any))).
  intros []; (split; [exists [], bd_new, id_new; split; [reflexivity|]; split;
                        [reflexivity|vm_compute; reflexivity]|]);
    (split; [vm_compute; reflexivity|]); do 2 eexists; (split; [vm_compute; reflexivity|]);
    eexists; vm_compute; reflexivity.
Qed.
