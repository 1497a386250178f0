(** Property C59: which resources a container reports, for every history.

    [account ... r l] (LedgerSpec.v) is an account of the resource [r] kept from
    the list [l] of the changes made to the set; it does not mention slots,
    counters or trees.  [rep r] says whether [r] is reported according to it.
    C21, C25 and C29 say when this agrees with being in use; here nothing is
    assumed about the history. *)
From Coq Require Import List Bool Arith.
Import ListNotations.
From Verif Require Import Base TripleModel TriplePatternModel QuadPatternModel SetSpec ContainerSpec
  IndexedSpec Machine BResourceModel BTreeDatasetModel BTreeGraphModel IResourceModel
  IndexedDatasetModel IndexedGraphModel LedgerSpec ILedgerProofs.

Theorem c59_btree_dataset_resources :
  forall R (cmp : R -> R -> comparison), ord_laws cmp ->
  forall keep ops xs d,
    run (bd_step cmp keep) bd_new ops = Some (xs, d) ->
    let rep r := reported (account (quad_cmp cmp) cmp quad_comps r (set_log (quad_cmp cmp) [] ops)) in
    exists l, bd_resources_iter d = Some l /\ increasing cmp l /\
      (forall r, bd_contains_resource cmp d r = Some (rep r)) /\
      (forall r, In r l <-> rep r = true).
Proof. exact @bd_resource_report. Qed.
Print Assumptions c59_btree_dataset_resources.

Theorem c59_btree_graph_resources :
  forall R (cmp : R -> R -> comparison), ord_laws cmp ->
  forall keep ops xs g,
    run (bg_step cmp keep) bg_new ops = Some (xs, g) ->
    let rep r := reported (account (triple_cmp cmp) cmp triple_comps r (set_log (triple_cmp cmp) [] ops)) in
    exists l, bg_resources_iter g = Some l /\ increasing cmp l /\
      (forall r, bg_contains_resource cmp g r = Some (rep r)) /\
      (forall r, In r l <-> rep r = true).
Proof. exact @bg_resource_report. Qed.
Print Assumptions c59_btree_graph_resources.

(** Also through the conversion, extractions and removals of graphs. *)
Theorem c59_indexed_dataset_resources :
  forall R (cmp : R -> R -> comparison), ord_laws cmp ->
  forall keep ops0 ops xs d,
    id_reached cmp keep ops0 ops xs d ->
    let rep r := reported (account (quad_cmp cmp) cmp quad_comps r (full_log cmp ops0 ops xs)) in
    exists l, id_resources_iter d = Some l /\ increasing cmp l /\
      (forall r, id_contains_resource cmp d r = Some (rep r)) /\
      (forall r, In r l <-> rep r = true).
Proof. exact @id_resource_report. Qed.
Print Assumptions c59_indexed_dataset_resources.

Theorem c59_indexed_graph_resources :
  forall R (cmp : R -> R -> comparison), ord_laws cmp ->
  forall keep ops0 ops g,
    ig_reached cmp keep ops0 ops g ->
    let rep r := reported (account (triple_cmp cmp) cmp triple_comps r
                             (set_log (triple_cmp cmp) [] (ops0 ++ ops))) in
    exists l, ig_resources_iter g = Some l /\ increasing cmp l /\
      (forall r, ig_contains_resource cmp g r = Some (rep r)) /\
      (forall r, In r l <-> rep r = true).
Proof. exact @ig_resource_report. Qed.
Print Assumptions c59_indexed_graph_resources.

(** Hence the two kinds of containers report the same after the same changes,
    whatever the B-trees do with equal items. *)
Theorem c59_same_changes_same_resources :
  forall R (cmp : R -> R -> comparison), ord_laws cmp ->
  forall keep keep' ops1 xs1 b ops0 ops xs d,
    run (bd_step cmp keep) bd_new ops1 = Some (xs1, b) ->
    id_reached cmp keep' ops0 ops xs d ->
    set_log (quad_cmp cmp) [] ops1 = full_log cmp ops0 ops xs ->
    id_resources_iter d = bd_resources_iter b /\
    forall r, id_contains_resource cmp d r = bd_contains_resource cmp b r.
Proof. exact @same_changes_dataset. Qed.
Print Assumptions c59_same_changes_same_resources.

Theorem c59_same_changes_same_graph_resources :
  forall R (cmp : R -> R -> comparison), ord_laws cmp ->
  forall keep keep' ops1 xs1 b ops0 ops g,
    run (bg_step cmp keep) bg_new ops1 = Some (xs1, b) ->
    ig_reached cmp keep' ops0 ops g ->
    set_log (triple_cmp cmp) [] ops1 = set_log (triple_cmp cmp) [] (ops0 ++ ops) ->
    ig_resources_iter g = bg_resources_iter b /\
    forall r, ig_contains_resource cmp g r = bg_contains_resource cmp b r.
Proof. exact @same_changes_graph. Qed.
Print Assumptions c59_same_changes_same_graph_resources.

(** Resource 1 comes in twice with the first triple: it is lost with it, although
    the second triple uses it; a third triple brings it back. *)
Example c59_ex :
  let ops := [Insert (Triple 1 1 2); Insert (Triple 3 1 4); Remove (Triple 1 1 2)] in
  let rep ops r := reported (account (triple_cmp Nat.compare) Nat.compare triple_comps r
                               (set_log (triple_cmp Nat.compare) [] ops)) in
  (forall keep, match run (bg_step Nat.compare keep) bg_new ops with
                | Some (_, g) => bg_resources_iter g = Some [3; 4]
                | None => False
                end) /\
  map (rep ops) [1; 2; 3; 4] = [false; false; true; true] /\
  map (rep (ops ++ [Insert (Triple 5 1 5)])) [1; 2; 3; 4; 5] = [true; false; true; true; true] /\
  map (rep (ops ++ [Insert (Triple 5 1 5); Remove (Triple 3 1 4)])) [1; 3; 4; 5] =
    [false; false; false; true].
Proof. repeat split; try (intros []); vm_compute; reflexivity. Qed.

(** The same with an extraction in the place of the removal. *)
Example c59_extract_ex :
  let ops := [IOp (Insert (Quad 1 1 2 None)); IOp (Insert (Quad 3 1 4 (Some 1)));
              IExtract (CQ_AnyS (QA_AnyP (QAA_Given 2 QAAG_Any))) 5 0] in
  forall keep,
    match run (id_step Nat.compare keep) id_new ops with
    | Some (xs, d) =>
        id_resources_iter d = Some [3; 4] /\ id_len d = 1 /\
        id_reached Nat.compare keep [] ops xs d /\
        full_log Nat.compare [] ops xs =
          set_log (quad_cmp Nat.compare) []
            [Insert (Quad 1 1 2 None); Insert (Quad 3 1 4 (Some 1)); Remove (Quad 1 1 2 None)]
    | None => False
    end.
Proof.
  intros ops [].
  - split; [reflexivity|]; split; [reflexivity|]; split; [|reflexivity].
    exists [], bd_new, id_new; repeat split.
  - split; [reflexivity|]; split; [reflexivity|]; split; [|reflexivity].
    exists [], bd_new, id_new; repeat split.
Qed.
