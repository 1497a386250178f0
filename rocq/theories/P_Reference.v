(** Property C62: an indexed dataset is a deterministic machine whose state is a row
    of quads and a shelf of resources (ReferenceSpec.v).  From a history alone, the
    reference computes what every operation returns and every answer afterwards.

    C29, C56, C60 and C61 take what earlier operations returned as given; here
    nothing but the operations is given. *)
From Coq Require Import List Bool Arith.
Import ListNotations.
From Verif Require Import Base TripleModel TriplePatternModel QuadPatternModel SetSpec ContainerSpec
  IndexedSpec Machine BResourceModel BTreeDatasetModel BTreeGraphModel IResourceModel
  IndexedDatasetModel IndexedGraphModel ScanSpec ShelfSpec ReferenceSpec ReferenceProofs.

(** No history panics, and the operations return what the reference returns. *)
Theorem c62_dataset_runs :
  forall R (cmp : R -> R -> comparison), ord_laws cmp ->
  forall keep ops0 ops,
    exists d, id_reached cmp keep ops0 ops (fst (ref_run cmp keep (ref_start cmp keep ops0) ops)) d.
Proof. exact @id_reference. Qed.
Print Assumptions c62_dataset_runs.

(** What a dataset with this history answers: to any next operation, and to every
    call that only reads it. *)
Theorem c62_dataset_answers :
  forall R (cmp : R -> R -> comparison), ord_laws cmp ->
  forall keep ops0 ops xs d,
    id_reached cmp keep ops0 ops xs d ->
    let (ys, st) := ref_run cmp keep (ref_start cmp keep ops0) ops in
    let sh := desk st in
    let s := fst (seats sh) in
    xs = ys /\
    (forall o, option_map fst (id_step cmp keep d o) = Some (ref_out cmp st o)) /\
    (id_iter d = Some (sorted_elements (quad_cmp cmp) (quads_of st)) /\
     id_into_iter d = Some (sorted_elements (quad_cmp cmp) (quads_of st)) /\
     id_len d = length (quads_of st) /\
     (id_is_empty d = true <-> quads_of st = []) /\
     forall q, id_contains cmp d q = Some (mem (quad_cmp cmp) q (quads_of st))) /\
    (id_resources_iter d = Some (shown_resources cmp sh) /\
     (forall r, id_contains_resource cmp d r = Some (if shown sh r then true else false)) /\
     id_resource_count d = length (present s)) /\
    (id_subjects d = listing (marked sh 0) s /\
     id_predicates d = listing (marked sh 1) s /\
     id_objects d = listing (marked sh 2) s /\
     id_named_graphs d = listing (marked sh 3) s) /\
    (id_subject_count d = tally (marked sh 0) s /\
     id_predicate_count d = tally (marked sh 1) s /\
     id_object_count d = tally (marked sh 2) s /\
     id_named_graph_count d = tally (marked sh 3) s) /\
    (forall spare c, id_pattern_matching cmp d spare c = Some (ref_query cmp st c)) /\
    (forall spare c, id_multi_pattern_matching cmp d spare c = Some (ref_multi_query cmp st c)).
Proof. exact @id_observed. Qed.
Print Assumptions c62_dataset_answers.

Theorem c62_graph_answers :
  forall R (cmp : R -> R -> comparison), ord_laws cmp ->
  forall keep ops0 ops g,
    ig_reached cmp keep ops0 ops g ->
    let sh := triple_shelf cmp keep ops0 ops in
    let s := fst (place_ops (triple_cmp cmp) (ops0 ++ ops)) in
    (forall spare c, ig_pattern_matching cmp g spare c = Some (ref_triple_query cmp sh c s)) /\
    ig_resources_iter g = Some (shown_resources cmp sh).
Proof. exact @ig_reference. Qed.
Print Assumptions c62_graph_answers.

(** A history with a repeated new resource, two extractions and the removal of two
    graphs.  The quad [1 1 2] is found by its subject or not, depending on the tree,
    and never by a query for equal components; the resource [3] has two places, and
    what is removed with the graph [3] depends on which of them is shown. *)
Example c62_dataset_ex :
  let q := Quad 1 1 2 None in
  let ops := [IOp (Insert q); IOp (Insert (Quad 3 4 5 (Some 3))); IOp (Insert (Quad 5 4 3 (Some 3)));
              IExtract (CQ_AnyS (QA_SameS (QAG_Any QAGA_Any))) 5 0;
              IExtract (CQ_GivenS 1 (QG_AnyP (QGA_Any QGAA_Any))) 1 0;
              IRemoveGraph (Some 3); IOp Iter; IRemoveGraph None; IOp Iter] in
  let r keep := fst (ref_run Nat.compare keep (ref_start Nat.compare keep []) ops) in
  let b := IOut (OBool true) in
  r true = [b; b; b; IQuads []; IQuads [q]; IGraph (Some [Triple 5 4 3]);
            IOut (OList [Quad 3 4 5 (Some 3)]); IGraph (Some []);
            IOut (OList [Quad 3 4 5 (Some 3)])] /\
  r false = [b; b; b; IQuads []; IQuads []; IGraph (Some [Triple 3 4 5; Triple 5 4 3]);
             IOut (OList [q]); IGraph (Some [Triple 1 1 2]); IOut (OList [])] /\
  forall keep, option_map fst (run (id_step Nat.compare keep) id_new ops) = Some (r keep).
Proof.
  intros q ops r b; split; [|split; [|intros []]]; vm_compute; reflexivity.
Qed.

(** The hypothesis of [c62_dataset_answers] is met.  After the history of C30 the
    place of the graph [4] is vacant but marked; the next resource takes it, and is
    listed as a named graph of a dataset without named graphs. *)
Example c62_answers_ex :
  let ops := [IOp (Insert (Quad 1 2 3 (Some 4))); IOp (Insert (Quad 4 2 3 None));
              IOp (Remove (Quad 1 2 3 (Some 4))); IOp (Remove (Quad 4 2 3 None));
              IOp (Insert (Quad 7 7 9 None))] in
  forall keep,
    let st := snd (ref_run Nat.compare keep (ref_start Nat.compare keep []) ops) in
    listing (marked (desk st) 3) (fst (seats (desk st))) = Some [9] /\
    shown_resources Nat.compare (desk st) = [7; 9] /\
    ref_query Nat.compare st (CQ_AnyS (QA_AnyP (QAA_Any QAAA_Any))) = [] /\
    ref_query Nat.compare st (CQ_GivenS 7 (QG_AnyP (QGA_Any QGAA_Any))) =
      (if keep then [Quad 7 7 9 None] else []) /\
    match run (id_step Nat.compare keep) id_new ops with
    | Some (ys, d) => id_reached Nat.compare keep [] ops ys d /\
        id_resources_iter d = Some [7; 9] /\ id_named_graphs d = Some [9]
    | None => False
    end.
Proof.
  intros ops keep st.
  split; [destruct keep; vm_compute; reflexivity|].
  split; [destruct keep; vm_compute; reflexivity|].
  split; [destruct keep; vm_compute; reflexivity|].
  split; [destruct keep; vm_compute; reflexivity|].
  destruct (run _ _ _) as [[ys d]|] eqn:E.
  - assert (id_reached Nat.compare keep [] ops ys d) by
      (exists [], bd_new, id_new; split; [reflexivity|split; [reflexivity|exact E]]).
    split; [assumption|]; destruct keep; vm_compute in E; injection E as <- <-; split; reflexivity.
  - destruct keep; vm_compute in E; discriminate.
Qed.

Example c62_graph_ex :
  let ops := [Insert (Triple 1 1 2); Insert (Triple 1 3 4); Insert (Triple 5 6 7); Remove (Triple 1 3 4)] in
  let ask keep c := ref_triple_query Nat.compare (triple_shelf Nat.compare keep [] ops) c
                      (fst (place_ops (triple_cmp Nat.compare) ops)) in
  (forall keep, ask keep (CT_AnyS (TA_AnyP TAA_Any)) = [Triple 1 1 2]) /\
  (forall keep, ask keep (CT_GivenS 1 (TG_AnyP TGA_Any)) = if keep then [Triple 1 1 2] else []) /\
  forall keep,
    match run (ig_step Nat.compare keep) ig_new ops with
    | Some (_, g) => ig_reached Nat.compare keep [] ops g /\
        ig_pattern_matching Nat.compare g 0 (CT_GivenS 1 (TG_AnyP TGA_Any)) =
        Some (ask keep (CT_GivenS 1 (TG_AnyP TGA_Any)))
    | None => False
    end.
Proof.
  split; [intros []; reflexivity|]. split; [intros []; reflexivity|].
  intros keep. destruct (run _ _ _) as [[ys g]|] eqn:E.
  - split.
    + exists [], bg_new, ig_new, ys; split; [reflexivity|split; [reflexivity|exact E]].
    + destruct keep; vm_compute in E; injection E as <- <-; reflexivity.
  - destruct keep; vm_compute in E; discriminate.
Qed.
