(** Properties C45 to C47: isomorphism of datasets.

    A dataset is the list of its quads, without repetition.  The generic theorems
    are about every type of resources, every interpretation and every total order of
    resources; the others are about local terms and the interpretation [()]. *)
From Coq Require Import List Bool NArith.
Import ListNotations.
From Verif Require Import Base TextModel DisplayModel TermModel TripleModel InterpretationModel
  SetSpec ContainerSpec IndexedSpec Machine BTreeDatasetModel IndexedDatasetModel IsoModel IsoSpec TermProofs
  IsoTopProofs IsoClassProofs IsoHistoryProofs.

(** ** C45: isomorphic datasets are recognised *)
Theorem c45_recognised : forall iri_eqb tag_eqb iri_cmp tag_cmp,
  ord_laws iri_cmp -> ord_laws tag_cmp ->
  (forall x y, iri_eqb x y = true <-> x = y) -> (forall x y, tag_eqb x y = true <-> x = y) ->
  forall a b h, NoDup a -> NoDup b -> isomorphism local_is_anonymous a b h ->
  (exists f, find_bijection iri_eqb tag_eqb iri_cmp tag_cmp a b = Some (Some f)) /\
  are_isomorphic iri_eqb tag_eqb iri_cmp tag_cmp a b = Some true.
Proof. exact @loc_complete. Qed.
Print Assumptions c45_recognised.

(** For any interpretation in which no two resources have the same term. *)
Theorem c45_recognised_with : forall {R St} (cmp : R -> R -> comparison), ord_laws cmp ->
  forall iri_eqb tag_eqb (I : interp_rev St R) (st : St),
  (forall t, iri_eqb t t = true) -> (forall t, tag_eqb t t = true) ->
  terms_apart iri_eqb (literal_cow_eqb iri_eqb tag_eqb) I st ->
  forall a b h, NoDup a -> NoDup b -> isomorphism (nameless I st) a b h ->
  exists f, find_bijection_with cmp iri_eqb tag_eqb I st a b = Some (Some f).
Proof. exact @gen_complete. Qed.
Print Assumptions c45_recognised_with.

(** The search never panics, whatever the interpretation. *)
Theorem c45_never_panics : forall {R St} (cmp : R -> R -> comparison), ord_laws cmp ->
  forall iri_eqb tag_eqb (I : interp_rev St R) (st : St) a b,
  exists r, find_bijection_with cmp iri_eqb tag_eqb I st a b = Some r.
Proof. exact @gen_total. Qed.
Print Assumptions c45_never_panics.

Theorem c45_are_isomorphic_with : forall {R St} (cmp : R -> R -> comparison)
    iri_eqb tag_eqb (I : interp_rev St R) (st : St) a b,
  are_isomorphic_with cmp iri_eqb tag_eqb I st a b = Some true <->
  exists f, find_bijection_with cmp iri_eqb tag_eqb I st a b = Some (Some f).
Proof. exact @gen_are. Qed.
Print Assumptions c45_are_isomorphic_with.

(** The hypotheses hold for two datasets with two blank nodes. *)
Example c45_case : NoDup x_a /\ NoDup x_b /\ isomorphism local_is_anonymous x_a x_b x_h /\
  find_bijection str_eqb str_eqb str_cmp str_cmp x_a x_b =
  Some (Some (Bijection [(w_n0, w_n1); (w_n1, w_n2)] [(w_n1, w_n0); (w_n2, w_n1)])).
Proof.
  split; [apply x_iso|]. split; [apply x_iso|]. split; [apply x_iso|]. vm_compute. reflexivity.
Qed.

(** ** C46: a returned mapping is a bijection of blank nodes *)
Theorem c46_bijection : forall iri_eqb tag_eqb iri_cmp tag_cmp,
  ord_laws iri_cmp -> ord_laws tag_cmp ->
  (forall x y, iri_eqb x y = true <-> x = y) -> (forall x y, tag_eqb x y = true <-> x = y) ->
  forall a b f, find_bijection iri_eqb tag_eqb iri_cmp tag_cmp a b = Some (Some f) ->
  let cmp := local_cmp iri_cmp tag_cmp in
  blank_bijection local_is_anonymous a b (as_function cmp (forward f)) /\
  increasing cmp (map fst (forward f)) /\ increasing cmp (map fst (backward f)) /\
  (forall x, In x (map fst (forward f)) <-> blank_of local_is_anonymous a x) /\
  (forall y, In y (map fst (backward f)) <-> blank_of local_is_anonymous b y) /\
  (forall x y, In (x, y) (forward f) <-> In (y, x) (backward f)).
Proof. exact @loc_bijection. Qed.
Print Assumptions c46_bijection.

(** The same for any interpretation at all. *)
Theorem c46_bijection_with : forall {R St} (cmp : R -> R -> comparison), ord_laws cmp ->
  forall iri_eqb tag_eqb (I : interp_rev St R) (st : St) a b f,
  find_bijection_with cmp iri_eqb tag_eqb I st a b = Some (Some f) ->
  blank_bijection (nameless I st) a b (as_function cmp (forward f)) /\
  increasing cmp (map fst (forward f)) /\ increasing cmp (map fst (backward f)) /\
  (forall x, In x (map fst (forward f)) <-> blank_of (nameless I st) a x) /\
  (forall y, In y (map fst (backward f)) <-> blank_of (nameless I st) b y) /\
  (forall x y, In (x, y) (forward f) <-> In (y, x) (backward f)).
Proof. exact @gen_bijection. Qed.
Print Assumptions c46_bijection_with.

Example c46_case : exists f, find_bijection str_eqb str_eqb str_cmp str_cmp w_ring_a w_ring_b = Some (Some f) /\
  length (forward f) = 4.
Proof. eexists. split; vm_compute; reflexivity. Qed.

(** ** C47: recognised datasets are isomorphic
    The code violates it: quads without blank nodes are never compared, *)
Theorem c47_ground_quads_refuted : exists a b : list (quad local_term), NoDup a /\ NoDup b /\
  are_isomorphic str_eqb str_eqb str_cmp str_cmp a b = Some true /\
  ~ exists h, isomorphism local_is_anonymous a b h.
Proof. exact (ex_intro _ w_ground_a (ex_intro _ w_ground_b w_ground_refutes)). Qed.
Print Assumptions c47_ground_quads_refuted.

(** and even when every quad has blank nodes, the search compares the blank nodes
    of quads without comparing their other resources. *)
Theorem c47_blank_quads_refuted : exists a b : list (quad local_term), NoDup a /\ NoDup b /\
  (forall q, In q a -> has_blank local_is_anonymous q = true) /\
  (forall q, In q b -> has_blank local_is_anonymous q = true) /\
  are_isomorphic str_eqb str_eqb str_cmp str_cmp a b = Some true /\
  ~ exists h, isomorphism local_is_anonymous a b h.
Proof. exact (ex_intro _ w_ring_a (ex_intro _ w_ring_b w_ring_refutes)). Qed.
Print Assumptions c47_blank_quads_refuted.

(** What the answer means exactly: some bijection of blank nodes respects, apart
    from each other, the blank nodes and the other resources of the quads. *)
Theorem c47_exact_partial : forall iri_eqb tag_eqb iri_cmp tag_cmp,
  ord_laws iri_cmp -> ord_laws tag_cmp ->
  (forall x y, iri_eqb x y = true <-> x = y) -> (forall x y, tag_eqb x y = true <-> x = y) ->
  forall a b, are_isomorphic iri_eqb tag_eqb iri_cmp tag_cmp a b = Some true <->
  exists h, half_isomorphism (local_cmp iri_cmp tag_cmp) local_is_anonymous a b h.
Proof. exact @loc_exact. Qed.
Print Assumptions c47_exact_partial.

Theorem c47_exact_with_partial : forall {R St} (cmp : R -> R -> comparison), ord_laws cmp ->
  forall iri_eqb tag_eqb (I : interp_rev St R) (st : St),
  (forall t, iri_eqb t t = true) -> (forall t, tag_eqb t t = true) ->
  terms_apart iri_eqb (literal_cow_eqb iri_eqb tag_eqb) I st ->
  forall a b, are_isomorphic_with cmp iri_eqb tag_eqb I st a b = Some true <->
  exists h, half_isomorphism cmp (nameless I st) a b h.
Proof. exact @gen_are_exact. Qed.
Print Assumptions c47_exact_with_partial.

(** The returned mapping is such a bijection. *)
Theorem c47_found_partial : forall iri_eqb tag_eqb iri_cmp tag_cmp,
  ord_laws iri_cmp -> ord_laws tag_cmp ->
  (forall x y, iri_eqb x y = true <-> x = y) -> (forall x y, tag_eqb x y = true <-> x = y) ->
  forall a b f, find_bijection iri_eqb tag_eqb iri_cmp tag_cmp a b = Some (Some f) ->
  half_isomorphism (local_cmp iri_cmp tag_cmp) local_is_anonymous a b
    (as_function (local_cmp iri_cmp tag_cmp) (forward f)).
Proof. exact @loc_half. Qed.
Print Assumptions c47_found_partial.

(** The property holds when [b] has the quads of [a] without blank nodes and the
    quads of [a] with several blank nodes are identifiable by one of them. *)
Theorem c47_isomorphic_partial : forall iri_eqb tag_eqb iri_cmp tag_cmp,
  ord_laws iri_cmp -> ord_laws tag_cmp ->
  (forall x y, iri_eqb x y = true <-> x = y) -> (forall x y, tag_eqb x y = true <-> x = y) ->
  forall a b, NoDup a -> NoDup b ->
  (forall q, In q a -> has_blank local_is_anonymous q = false -> In q b) ->
  identifiable local_is_anonymous a ->
  are_isomorphic iri_eqb tag_eqb iri_cmp tag_cmp a b = Some true <->
  exists h, isomorphism local_is_anonymous a b h.
Proof. exact @loc_iff. Qed.
Print Assumptions c47_isomorphic_partial.

(** Then the returned mapping is the isomorphism. *)
Theorem c47_mapping_partial : forall iri_eqb tag_eqb iri_cmp tag_cmp,
  ord_laws iri_cmp -> ord_laws tag_cmp ->
  (forall x y, iri_eqb x y = true <-> x = y) -> (forall x y, tag_eqb x y = true <-> x = y) ->
  forall a b f, NoDup a -> NoDup b ->
  (forall q, In q a -> has_blank local_is_anonymous q = false -> In q b) ->
  identifiable local_is_anonymous a ->
  find_bijection iri_eqb tag_eqb iri_cmp tag_cmp a b = Some (Some f) ->
  isomorphism local_is_anonymous a b (as_function (local_cmp iri_cmp tag_cmp) (forward f)).
Proof. exact @loc_sound. Qed.
Print Assumptions c47_mapping_partial.

Theorem c47_isomorphic_with_partial : forall {R St} (cmp : R -> R -> comparison), ord_laws cmp ->
  forall iri_eqb tag_eqb (I : interp_rev St R) (st : St),
  (forall t, iri_eqb t t = true) -> (forall t, tag_eqb t t = true) ->
  terms_apart iri_eqb (literal_cow_eqb iri_eqb tag_eqb) I st ->
  forall a b, NoDup a -> NoDup b ->
  (forall q, In q a -> has_blank (nameless I st) q = false -> In q b) ->
  identifiable (nameless I st) a ->
  are_isomorphic_with cmp iri_eqb tag_eqb I st a b = Some true <->
  exists h, isomorphism (nameless I st) a b h.
Proof. exact @gen_are_iff. Qed.
Print Assumptions c47_isomorphic_with_partial.

Example c47_case : NoDup x_a /\ NoDup x_b /\
  (forall q, In q x_a -> has_blank local_is_anonymous q = false -> In q x_b) /\
  identifiable local_is_anonymous x_a /\
  are_isomorphic str_eqb str_eqb str_cmp str_cmp x_a x_b = Some true.
Proof.
  split; [apply x_iso|]. split; [apply x_iso|]. split; [apply x_iso|]. split; [apply x_iso|].
  vm_compute. reflexivity.
Qed.
(** The orders and equalities of texts satisfy the hypotheses. *)
Example c47_orders : ord_laws str_cmp /\ (forall x y, str_eqb x y = true <-> x = y).
Proof. split; [exact str_cmp_laws|exact str_eqb_spec]. Qed.

(** ** Terms that compare equal without being the same
    When IRIs and language tags are compared by their normal forms [ki] and [kt]
    (tags are, whatever their case), all of this holds of the normal forms of the
    datasets.  Blank nodes are their own normal forms. *)
Theorem c45_recognised_normal : forall iri_eqb tag_eqb iri_cmp tag_cmp ki kt ci ct,
  ord_laws ci -> ord_laws ct ->
  (forall x y, iri_cmp x y = ci (ki x) (ki y)) -> (forall x y, tag_cmp x y = ct (kt x) (kt y)) ->
  (forall x y, iri_eqb x y = true <-> ki x = ki y) -> (forall x y, tag_eqb x y = true <-> kt x = kt y) ->
  let normal := map (qmap (normal_term ki kt)) in
  forall a b h, NoDup (normal a) -> NoDup (normal b) ->
  isomorphism local_is_anonymous (normal a) (normal b) h ->
  (exists f, find_bijection iri_eqb tag_eqb iri_cmp tag_cmp a b = Some (Some f)) /\
  are_isomorphic iri_eqb tag_eqb iri_cmp tag_cmp a b = Some true.
Proof. exact @cls_complete. Qed.
Print Assumptions c45_recognised_normal.

Theorem c46_bijection_normal : forall iri_eqb tag_eqb iri_cmp tag_cmp ki kt ci ct,
  ord_laws ci -> ord_laws ct ->
  (forall x y, iri_cmp x y = ci (ki x) (ki y)) -> (forall x y, tag_cmp x y = ct (kt x) (kt y)) ->
  (forall x y, iri_eqb x y = true <-> ki x = ki y) -> (forall x y, tag_eqb x y = true <-> kt x = kt y) ->
  forall a b f, find_bijection iri_eqb tag_eqb iri_cmp tag_cmp a b = Some (Some f) ->
  let cmp := local_cmp ci ct in
  blank_bijection local_is_anonymous a b (as_function cmp (forward f)) /\
  increasing cmp (map fst (forward f)) /\ increasing cmp (map fst (backward f)) /\
  (forall x, In x (map fst (forward f)) <-> blank_of local_is_anonymous a x) /\
  (forall y, In y (map fst (backward f)) <-> blank_of local_is_anonymous b y) /\
  (forall x y, In (x, y) (forward f) <-> In (y, x) (backward f)).
Proof. exact @cls_bijection. Qed.
Print Assumptions c46_bijection_normal.

Theorem c47_exact_normal_partial : forall iri_eqb tag_eqb iri_cmp tag_cmp ki kt ci ct,
  ord_laws ci -> ord_laws ct ->
  (forall x y, iri_cmp x y = ci (ki x) (ki y)) -> (forall x y, tag_cmp x y = ct (kt x) (kt y)) ->
  (forall x y, iri_eqb x y = true <-> ki x = ki y) -> (forall x y, tag_eqb x y = true <-> kt x = kt y) ->
  let normal := map (qmap (normal_term ki kt)) in
  forall a b, are_isomorphic iri_eqb tag_eqb iri_cmp tag_cmp a b = Some true <->
  exists h, half_isomorphism (local_cmp ci ct) local_is_anonymous (normal a) (normal b) h.
Proof. exact @cls_exact. Qed.
Print Assumptions c47_exact_normal_partial.

Theorem c47_isomorphic_normal_partial : forall iri_eqb tag_eqb iri_cmp tag_cmp ki kt ci ct,
  ord_laws ci -> ord_laws ct ->
  (forall x y, iri_cmp x y = ci (ki x) (ki y)) -> (forall x y, tag_cmp x y = ct (kt x) (kt y)) ->
  (forall x y, iri_eqb x y = true <-> ki x = ki y) -> (forall x y, tag_eqb x y = true <-> kt x = kt y) ->
  let normal := map (qmap (normal_term ki kt)) in
  forall a b, NoDup (normal a) -> NoDup (normal b) ->
  (forall q, In q (normal a) -> has_blank local_is_anonymous q = false -> In q (normal b)) ->
  identifiable local_is_anonymous (normal a) ->
  are_isomorphic iri_eqb tag_eqb iri_cmp tag_cmp a b = Some true <->
  exists h, isomorphism local_is_anonymous (normal a) (normal b) h.
Proof. exact @cls_iff. Qed.
Print Assumptions c47_isomorphic_normal_partial.

Theorem c47_mapping_normal_partial : forall iri_eqb tag_eqb iri_cmp tag_cmp ki kt ci ct,
  ord_laws ci -> ord_laws ct ->
  (forall x y, iri_cmp x y = ci (ki x) (ki y)) -> (forall x y, tag_cmp x y = ct (kt x) (kt y)) ->
  (forall x y, iri_eqb x y = true <-> ki x = ki y) -> (forall x y, tag_eqb x y = true <-> kt x = kt y) ->
  let normal := map (qmap (normal_term ki kt)) in
  forall a b f, NoDup (normal a) -> NoDup (normal b) ->
  (forall q, In q (normal a) -> has_blank local_is_anonymous q = false -> In q (normal b)) ->
  identifiable local_is_anonymous (normal a) ->
  find_bijection iri_eqb tag_eqb iri_cmp tag_cmp a b = Some (Some f) ->
  isomorphism local_is_anonymous (normal a) (normal b) (as_function (local_cmp ci ct) (forward f)).
Proof. exact @cls_sound. Qed.
Print Assumptions c47_mapping_normal_partial.

(** For any resources and interpretation: the answer only depends on the order of
    resources, on which of them are blank and on which have terms in common. *)
Theorem c45_normal_with : forall {R T St Su} (cr : R -> R -> comparison) (ct : T -> T -> comparison)
    (f : R -> T) iri_eqb tag_eqb iri_eqb' tag_eqb' (I : interp_rev St R) st (J : interp_rev Su T) su,
  (forall x y, ct (f x) (f y) = cr x y) ->
  (forall x, nameless J su (f x) = nameless I st x) ->
  (forall x y, common_term iri_eqb' (literal_cow_eqb iri_eqb' tag_eqb') J su (f x) (f y) <->
               common_term iri_eqb (literal_cow_eqb iri_eqb tag_eqb) I st x y) ->
  forall a b, are_isomorphic_with ct iri_eqb' tag_eqb' J su (map (qmap f) a) (map (qmap f) b) =
              are_isomorphic_with cr iri_eqb tag_eqb I st a b.
Proof. exact @are_isomorphic_with_map. Qed.
Print Assumptions c45_normal_with.

(** Tags that differ in case only. *)
Example c47_normal_case :
  (forall x y, tag_eqb_ci x y = true <-> lower x = lower y) /\
  NoDup (y_norm y_a) /\ NoDup (y_norm y_b) /\
  isomorphism local_is_anonymous (y_norm y_a) (y_norm y_b) y_h /\
  (forall q, In q (y_norm y_a) -> has_blank local_is_anonymous q = false -> In q (y_norm y_b)) /\
  identifiable local_is_anonymous (y_norm y_a) /\
  are_isomorphic str_eqb tag_eqb_ci str_cmp tag_cmp_ci y_a y_b = Some true /\
  are_isomorphic str_eqb str_eqb str_cmp str_cmp y_a y_b = Some false.
Proof.
  split; [intros x y; apply str_eqb_spec|]. split; [apply y_iso|]. split; [apply y_iso|].
  split; [apply y_iso|]. split; [apply y_iso|]. split; [apply y_iso|]. split; vm_compute; reflexivity.
Qed.

(** ** Datasets built by programs
    Whatever histories lead to two tree datasets, the function answers on what they
    enumerate according to the sets of quads the histories stand for. *)
Theorem c45_btree_datasets : forall iri_eqb tag_eqb iri_cmp tag_cmp,
  ord_laws iri_cmp -> ord_laws tag_cmp ->
  (forall x y, iri_eqb x y = true <-> x = y) -> (forall x y, tag_eqb x y = true <-> x = y) ->
  let cmp := local_cmp iri_cmp tag_cmp in
  forall keep ops1 xs1 d1 ops2 xs2 d2 h,
  run (bd_step cmp keep) bd_new ops1 = Some (xs1, d1) ->
  run (bd_step cmp keep) bd_new ops2 = Some (xs2, d2) ->
  isomorphism local_is_anonymous (spec_set (quad_cmp cmp) ops1) (spec_set (quad_cmp cmp) ops2) h ->
  exists a b, bd_iter d1 = Some a /\ bd_iter d2 = Some b /\
    are_isomorphic iri_eqb tag_eqb iri_cmp tag_cmp a b = Some true.
Proof. exact @bd_recognised. Qed.
Print Assumptions c45_btree_datasets.

Theorem c45_indexed_datasets : forall iri_eqb tag_eqb iri_cmp tag_cmp,
  ord_laws iri_cmp -> ord_laws tag_cmp ->
  (forall x y, iri_eqb x y = true <-> x = y) -> (forall x y, tag_eqb x y = true <-> x = y) ->
  let cmp := local_cmp iri_cmp tag_cmp in
  forall keep ops0 ops1 xs1 d1 ops0' ops2 xs2 d2 h,
  id_reached cmp keep ops0 ops1 xs1 d1 -> id_reached cmp keep ops0' ops2 xs2 d2 ->
  isomorphism local_is_anonymous (final_set cmp ops0 ops1 xs1) (final_set cmp ops0' ops2 xs2) h ->
  exists a b, id_iter d1 = Some a /\ id_iter d2 = Some b /\
    are_isomorphic iri_eqb tag_eqb iri_cmp tag_cmp a b = Some true.
Proof. exact @id_recognised. Qed.
Print Assumptions c45_indexed_datasets.

Theorem c47_btree_datasets_partial : forall iri_eqb tag_eqb iri_cmp tag_cmp,
  ord_laws iri_cmp -> ord_laws tag_cmp ->
  (forall x y, iri_eqb x y = true <-> x = y) -> (forall x y, tag_eqb x y = true <-> x = y) ->
  let cmp := local_cmp iri_cmp tag_cmp in
  forall keep ops1 xs1 d1 ops2 xs2 d2,
  run (bd_step cmp keep) bd_new ops1 = Some (xs1, d1) ->
  run (bd_step cmp keep) bd_new ops2 = Some (xs2, d2) ->
  let s := spec_set (quad_cmp cmp) ops1 in let t := spec_set (quad_cmp cmp) ops2 in
  (forall q, In q s -> has_blank local_is_anonymous q = false -> In q t) ->
  identifiable local_is_anonymous s ->
  exists a b, bd_iter d1 = Some a /\ bd_iter d2 = Some b /\
    (are_isomorphic iri_eqb tag_eqb iri_cmp tag_cmp a b = Some true <->
     exists h, isomorphism local_is_anonymous s t h).
Proof. exact @bd_recognition. Qed.
Print Assumptions c47_btree_datasets_partial.

Theorem c47_indexed_datasets_partial : forall iri_eqb tag_eqb iri_cmp tag_cmp,
  ord_laws iri_cmp -> ord_laws tag_cmp ->
  (forall x y, iri_eqb x y = true <-> x = y) -> (forall x y, tag_eqb x y = true <-> x = y) ->
  let cmp := local_cmp iri_cmp tag_cmp in
  forall keep ops0 ops1 xs1 d1 ops0' ops2 xs2 d2,
  id_reached cmp keep ops0 ops1 xs1 d1 -> id_reached cmp keep ops0' ops2 xs2 d2 ->
  let s := final_set cmp ops0 ops1 xs1 in let t := final_set cmp ops0' ops2 xs2 in
  (forall q, In q s -> has_blank local_is_anonymous q = false -> In q t) ->
  identifiable local_is_anonymous s ->
  exists a b, id_iter d1 = Some a /\ id_iter d2 = Some b /\
    (are_isomorphic iri_eqb tag_eqb iri_cmp tag_cmp a b = Some true <->
     exists h, isomorphism local_is_anonymous s t h).
Proof. exact @id_recognition. Qed.
Print Assumptions c47_indexed_datasets_partial.

(** Two such histories, the second one removing everything midway. *)
Example c47_histories_case : forall keep, exists xs1 d1 xs2 d2,
  let cmp := local_cmp str_cmp str_cmp in
  run (bd_step cmp keep) bd_new x_ops_a = Some (xs1, d1) /\
  run (bd_step cmp keep) bd_new x_ops_b = Some (xs2, d2) /\
  isomorphism local_is_anonymous (spec_set (quad_cmp cmp) x_ops_a) (spec_set (quad_cmp cmp) x_ops_b) x_h /\
  (forall q, In q (spec_set (quad_cmp cmp) x_ops_a) -> has_blank local_is_anonymous q = false ->
     In q (spec_set (quad_cmp cmp) x_ops_b)) /\
  identifiable local_is_anonymous (spec_set (quad_cmp cmp) x_ops_a).
Proof. exact x_ops_iso. Qed.
