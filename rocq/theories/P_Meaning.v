(** C93: what renamed, merged and isomorphic datasets state. *)
From Coq Require Import List Bool Arith NArith Ascii String.
Import ListNotations.
From Verif Require Import Base TextModel DisplayModel TermModel TripleModel BlankIdModel SetSpec ContainerSpec
  Machine BTreeDatasetModel IsoModel IsoSpec RelabelModel RelabelSpec MergeModel MeaningSpec TermProofs IsoTopProofs
  MeaningProofs.
Open Scope list_scope.

(** C93: a dataset whose blank nodes get new names states what it did. *)
Theorem c93_renamed : forall iri_cmp tag_cmp, ord_laws iri_cmp -> ord_laws tag_cmp ->
  forall max checked keep ops xs d l p offset d' g' names,
  let cmp := local_cmp iri_cmp tag_cmp in
  run (bd_step cmp keep) bd_new ops = Some (xs, d) -> bd_iter d = Some l ->
  (offset <= max)%N -> checked = true \/ (N.of_nat (List.length (met l)) <= max + 1)%N ->
  relabel max checked cmp keep d (gen_full p offset) = Some (d', g', names) ->
  exists l', bd_iter d' = Some l' /\ same_meaning l l'.
Proof. exact (fun _ _ LI LT => renamed_meaning LI LT str_eqb_spec str_eqb_spec). Qed.
Print Assumptions c93_renamed.

(** C93: the merge of two datasets states what the two state; its blank nodes are
    the identifiers that the generator gave. *)
Theorem c93_merged : forall iri_cmp tag_cmp, ord_laws iri_cmp -> ord_laws tag_cmp ->
  forall max checked keep ops1 xs1 d1 l1 ops2 xs2 d2 l2 p offset d g,
  let cmp := local_cmp iri_cmp tag_cmp in
  run (bd_step cmp keep) bd_new ops1 = Some (xs1, d1) -> bd_iter d1 = Some l1 ->
  run (bd_step cmp keep) bd_new ops2 = Some (xs2, d2) -> bd_iter d2 = Some l2 ->
  (offset <= max)%N ->
  checked = true \/ (N.of_nat (List.length (met l1) + List.length (met l2)) <= max + 1)%N ->
  merge max checked cmp keep d1 d2 (gen_full p offset) = Some (d, g) ->
  exists l ids, bd_iter d = Some l /\
    generate max checked (List.length (met l1) + List.length (met l2)) (gen_full p offset) = Some (ids, g) /\
    (forall x, blank_of local_is_anonymous l x <-> exists i, In i ids /\ x = Anonymous i) /\
    forall W, true_in W l <-> true_in W l1 /\ true_in W l2.
Proof. exact (fun _ _ LI LT => merged_meaning LI LT str_eqb_spec str_eqb_spec). Qed.
Print Assumptions c93_merged.

(** C93: the merge panics only if overflows are checked and the generator has fewer
    identifiers left than there are blank nodes. *)
Theorem c93_returns : forall iri_cmp tag_cmp, ord_laws iri_cmp -> ord_laws tag_cmp ->
  forall max checked keep ops1 xs1 d1 l1 ops2 xs2 d2 l2 p offset,
  let cmp := local_cmp iri_cmp tag_cmp in
  run (bd_step cmp keep) bd_new ops1 = Some (xs1, d1) -> bd_iter d1 = Some l1 ->
  run (bd_step cmp keep) bd_new ops2 = Some (xs2, d2) -> bd_iter d2 = Some l2 ->
  (offset <= max)%N ->
  (merge max checked cmp keep d1 d2 (gen_full p offset) <> None <->
   checked = false \/ (N.of_nat (List.length (met l1) + List.length (met l2)) <= max - offset)%N).
Proof. exact (fun _ _ LI LT => merge_returns LI LT str_eqb_spec str_eqb_spec). Qed.
Print Assumptions c93_returns.

(** C93: quads added as they are state at least what they stated, and no more if
    no blank node is common. *)
Theorem c93_added : forall iri_cmp tag_cmp, ord_laws iri_cmp -> ord_laws tag_cmp ->
  forall keep ops xs d l l2,
  let cmp := local_cmp iri_cmp tag_cmp in
  run (bd_step cmp keep) bd_new ops = Some (xs, d) -> bd_iter d = Some l ->
  exists d' l', bd_extend cmp keep d l2 = Some d' /\ bd_iter d' = Some l' /\
    (forall W, true_in W l' -> true_in W l /\ true_in W l2) /\
    ((forall x, blank_of local_is_anonymous l x -> blank_of local_is_anonymous l2 x -> False) ->
     forall W, true_in W l /\ true_in W l2 -> true_in W l').
Proof. exact (fun _ _ LI LT => added_meaning LI LT str_eqb_spec str_eqb_spec). Qed.
Print Assumptions c93_added.

(** With a common blank node they may state more. *)
Theorem c93_added_mixed : exists W a b, true_in W a /\ true_in W b /\ ~ true_in W (a ++ b).
Proof. exact added_mixed. Qed.
Print Assumptions c93_added_mixed.

(** C93: datasets recognised as isomorphic state the same, if they have the same
    quads without blank nodes and the quads with several blank nodes are
    identifiable by one of them. *)
Theorem c93_recognised : forall iri_eqb tag_eqb iri_cmp tag_cmp,
  ord_laws iri_cmp -> ord_laws tag_cmp ->
  (forall x y, iri_eqb x y = true <-> x = y) -> (forall x y, tag_eqb x y = true <-> x = y) ->
  forall a b, NoDup a -> NoDup b ->
  (forall q, In q a -> has_blank local_is_anonymous q = false -> In q b) ->
  identifiable local_is_anonymous a ->
  are_isomorphic iri_eqb tag_eqb iri_cmp tag_cmp a b = Some true -> same_meaning a b.
Proof. exact @recognised_meaning. Qed.
Print Assumptions c93_recognised.

(** Otherwise they may not. *)
Theorem c93_recognised_differ : exists a b, NoDup a /\ NoDup b /\
  are_isomorphic str_eqb str_eqb str_cmp str_cmp a b = Some true /\ ~ same_meaning a b.
Proof. exact (ex_intro _ w_ring_a (ex_intro _ w_ring_b ring_meaning)). Qed.
Print Assumptions c93_recognised_differ.

(** Someone who knows someone, in two datasets with the same names of blank nodes. *)
Definition e_cmp := local_cmp str_cmp str_cmp.
Definition e_knows := Named (TIri (chars "ex:knows")).
Definition e_blank (s : string) := Anonymous (chars s).
Definition e_ops1 : list (op (quad local_term)) := [Insert (Quad (e_blank "_:x") e_knows (e_blank "_:y") None)].
Definition e_ops2 : list (op (quad local_term)) :=
  [Insert (Quad (e_blank "_:y") e_knows (e_blank "_:x") None); Insert (Quad e_knows e_knows e_knows (Some (e_blank "_:y")))].
Definition e_after (ops : list (op (quad local_term))) : @bdataset local_term :=
  match run (bd_step e_cmp true) bd_new ops with Some (_, d) => d | None => bd_new end.
Example c93_case :
  (exists xs, run (bd_step e_cmp true) bd_new e_ops1 = Some (xs, e_after e_ops1)) /\
  (exists xs, run (bd_step e_cmp true) bd_new e_ops2 = Some (xs, e_after e_ops2)) /\
  exists d g, merge (2 ^ 64 - 1) true e_cmp true (e_after e_ops1) (e_after e_ops2) (gen_full (chars "b") 0) = Some (d, g) /\
    bd_iter d = Some [Quad (e_blank "_:b0") e_knows (e_blank "_:b1") None;
                      Quad (e_blank "_:b2") e_knows (e_blank "_:b3") None;
                      Quad e_knows e_knows e_knows (Some (e_blank "_:b2"))].
Proof.
  split; [eexists; vm_compute; reflexivity|]. split; [eexists; vm_compute; reflexivity|].
  do 2 eexists. split; vm_compute; reflexivity.
Qed.
