(** Property C61: what an indexed dataset or graph lists as subjects, predicates,
    objects and named graphs, how many of each it counts, and what [remove_graph]
    takes out, for every history.

    [shelf_after] and [triple_shelf] (ShelfSpec.v) keep the places of the resources
    from the changes made to the set.  C29, C30, C31 and C35 say when the answers
    are those expected; here nothing is assumed about the history, and a panic of
    [named_graphs] is predicted too ([None]). *)
From Coq Require Import List Bool Arith.
Import ListNotations.
From Verif Require Import Base TripleModel SetSpec ContainerSpec
  IndexedSpec Machine BResourceModel BTreeDatasetModel BTreeGraphModel IResourceModel
  IndexedDatasetModel IndexedGraphModel ScanSpec ShelfSpec IShelfProofs.

Theorem c61_dataset_listings :
  forall R (cmp : R -> R -> comparison), ord_laws cmp ->
  forall keep ops0 ops xs d,
    id_reached cmp keep ops0 ops xs d ->
    let sh := shelf_after cmp keep ops0 ops xs in
    let s := fst (seats sh) in
    id_subjects d = listing (marked sh 0) s /\
    id_predicates d = listing (marked sh 1) s /\
    id_objects d = listing (marked sh 2) s /\
    id_named_graphs d = listing (marked sh 3) s /\
    id_subject_count d = tally (marked sh 0) s /\
    id_predicate_count d = tally (marked sh 1) s /\
    id_object_count d = tally (marked sh 2) s /\
    id_named_graph_count d = tally (marked sh 3) s /\
    id_resource_count d = length (present s) /\
    forall r, id_contains_resource cmp d r = Some (if shown sh r then true else false).
Proof. exact @id_listings_shelf. Qed.
Print Assumptions c61_dataset_listings.

Theorem c61_remove_named_graph :
  forall R (cmp : R -> R -> comparison), ord_laws cmp ->
  forall keep ops0 ops xs d g,
    id_reached cmp keep ops0 ops xs d ->
    match graph_of (shelf_after cmp keep ops0 ops xs) g with
    | None => id_remove_graph cmp keep d (Some g) = Some (None, d)
    | Some l =>
        exists b d' ts,
          id_remove_graph cmp keep d (Some g) = Some (Some b, d') /\ bg_iter b = Some ts /\
          increasing (triple_cmp cmp) ts /\
          forall t, In t ts <-> In (Quad (t_s t) (t_p t) (t_o t) (Some g)) l
    end.
Proof. exact @id_graph_shelf. Qed.
Print Assumptions c61_remove_named_graph.

Theorem c61_graph_listings :
  forall R (cmp : R -> R -> comparison), ord_laws cmp ->
  forall keep ops0 ops g,
    ig_reached cmp keep ops0 ops g ->
    let sh := triple_shelf cmp keep ops0 ops in
    let s := fst (seats sh) in
    ig_subjects g = listing (marked sh 0) s /\
    ig_predicates g = listing (marked sh 1) s /\
    ig_objects g = listing (marked sh 2) s /\
    ig_subject_count g = tally (marked sh 0) s /\
    ig_predicate_count g = tally (marked sh 1) s /\
    ig_object_count g = tally (marked sh 2) s /\
    ig_resource_count g = length (present s) /\
    forall r, ig_contains_resource cmp g r = Some (if shown sh r then true else false).
Proof. exact @ig_listings_shelf. Qed.
Print Assumptions c61_graph_listings.

(** The histories of C29 and C30.  After one removal the graph [4] has no quad
    left and is listed; after the second, its place is vacant but marked. *)
Example c61_panic_ex :
  let ops := [IOp (Insert (Quad 1 2 3 (Some 4))); IOp (Insert (Quad 4 2 3 None));
              IOp (Remove (Quad 1 2 3 (Some 4))); IOp (Remove (Quad 4 2 3 None))] in
  let xs := repeat (IOut (OBool true)) 4 in
  forall keep,
    (let sh := shelf_after Nat.compare keep [] (firstn 3 ops) xs in
     listing (marked sh 3) (fst (seats sh)) = Some [4] /\
     listing (marked sh 0) (fst (seats sh)) = Some [4] /\ graph_of sh 4 = Some []) /\
    (let sh := shelf_after Nat.compare keep [] ops xs in
     listing (marked sh 3) (fst (seats sh)) = None /\ tally (marked sh 3) (fst (seats sh)) = 1) /\
    match run (id_step Nat.compare keep) id_new ops with
    | Some (ys, d) =>
        ys = xs /\ id_reached Nat.compare keep [] ops ys d /\ id_named_graphs d = None
    | None => False
    end.
Proof.
  intros ops xs keep; split; [|split].
  - destruct keep; vm_compute; auto.
  - destruct keep; vm_compute; auto.
  - destruct (run _ _ _) as [[ys d]|] eqn:E.
    + assert (id_reached Nat.compare keep [] ops ys d) by
        (exists [], bd_new, id_new; split; [reflexivity|split; [reflexivity|exact E]]).
      split; [|split; [assumption|]]; destruct keep; vm_compute in E; injection E as <- <-; reflexivity.
    + destruct keep; vm_compute in E; discriminate.
Qed.

(** The resource [1] has two places: it is listed twice as a subject if the tree
    of resources shows the second of them. *)
Example c61_twice_ex :
  let ops := [Insert (Triple 1 1 2); Insert (Triple 1 3 4)] in
  let subjects keep :=
    let sh := triple_shelf Nat.compare keep [] ops in listing (marked sh 0) (fst (seats sh)) in
  subjects true = Some [1] /\ subjects false = Some [1; 1] /\
  forall keep,
    match run (ig_step Nat.compare keep) ig_new ops with
    | Some (_, g) => ig_reached Nat.compare keep [] ops g /\ ig_subjects g = subjects keep
    | None => False
    end.
Proof.
  split; [reflexivity|]. split; [reflexivity|].
  intros keep. destruct (run _ _ _) as [[ys g]|] eqn:E.
  - split.
    + exists [], bg_new, ig_new, ys; split; [reflexivity|split; [reflexivity|exact E]].
    + destruct keep; vm_compute in E; injection E as <- <-; reflexivity.
  - destruct keep; vm_compute in E; discriminate.
Qed.
