(** The provided methods of the traits on the indexed containers. *)
From Coq Require Import List Bool Arith.
Import ListNotations.
From Verif Require Import Base SlabModel TripleModel TriplePatternModel QuadPatternModel
  PatternSpec SetSpec ContainerSpec IndexedSpec Machine BaseProofs BResourceModel
  BTreeDatasetModel BTreeGraphModel IResourceModel IndexedDatasetModel IndexedGraphModel
  IndexedRunProofs IndexedGraphRunProofs TraitSpec TraitModel TraitInstModel TraitProofs.

Lemma id_start_exact {R} (cmp : R -> R -> comparison) :
  ord_laws cmp -> forall keep ops0 ops xs d spare c,
  id_reached cmp keep ops0 ops xs d ->
  known_log (quad_cmp cmp) quad_comps any_resource [] (full_log cmp ops0 ops xs) ->
  subject_given c \/ vacancies 0 (full_log cmp ops0 ops xs) = 0 ->
  exact_quads_at list_next (id_start cmp d spare) (final_set cmp ops0 ops xs) c.
Proof.
  intros L keep ops0 ops xs d spare c Hr Hk Hv.
  destruct (id_pattern_exact L keep ops0 ops xs d spare c Hr Hk Hv) as (l & E & N & H).
  exists l. unfold id_start. rewrite E. split; [apply yields_list|]. now split.
Qed.

Lemma ig_start_exact {R} (cmp : R -> R -> comparison) :
  ord_laws cmp -> forall keep ops0 ops g spare c,
  ig_reached cmp keep ops0 ops g ->
  known_log (triple_cmp cmp) triple_comps any_resource [] (set_log (triple_cmp cmp) [] (ops0 ++ ops)) ->
  t_subject_given c \/ vacancies 0 (set_log (triple_cmp cmp) [] (ops0 ++ ops)) = 0 ->
  exact_triples_at list_next (ig_start cmp g spare) (spec_set (triple_cmp cmp) (ops0 ++ ops)) c.
Proof.
  intros L keep ops0 ops g spare c Hr Hk Hv.
  destruct (ig_pattern_exact L keep ops0 ops g spare c Hr Hk Hv) as (l & E & N & H).
  exists l. unfold ig_start. rewrite E. split; [apply yields_list|]. now split.
Qed.

(** What the indexed dataset answers. *)
Lemma id_trait_queries {R} (cmp : R -> R -> comparison) :
  ord_laws cmp -> forall keep ops0 ops xs d spare,
  id_reached cmp keep ops0 ops xs d ->
  known_log (quad_cmp cmp) quad_comps any_resource [] (full_log cmp ops0 ops xs) ->
  let s := final_set cmp ops0 ops xs in
  (forall r, contains_quad_subject list_next (id_start cmp d spare) r = true <->
     exists q, In q s /\ q_s q = r) /\
  (forall g r p, exists l,
     yields (quad_objects_next list_next) (quad_objects (id_start cmp d spare) g r p) l /\ NoDup l /\
     forall o, In o l <-> In (Quad r p o g) s) /\
  (vacancies 0 (full_log cmp ops0 ops xs) = 0 ->
   exact_quads list_next (id_start cmp d spare) s).
Proof.
  intros L keep ops0 ops xs d spare Hr Hk s. split; [|split].
  - intros r. unfold contains_quad_subject. rewrite (found_exact _ _ s).
    + split; intros (q & A & B); exists q; cbn in *; tauto.
    + apply (id_start_exact cmp L keep ops0 ops xs d spare _ Hr Hk). now left.
  - intros g r p. apply ds_objects.
    apply (id_start_exact cmp L keep ops0 ops xs d spare _ Hr Hk). now left.
  - intros Hv c. apply (id_start_exact cmp L keep ops0 ops xs d spare _ Hr Hk). now right.
Qed.

Lemma ig_trait_queries {R} (cmp : R -> R -> comparison) :
  ord_laws cmp -> forall keep ops0 ops g spare,
  ig_reached cmp keep ops0 ops g ->
  known_log (triple_cmp cmp) triple_comps any_resource [] (set_log (triple_cmp cmp) [] (ops0 ++ ops)) ->
  let s := spec_set (triple_cmp cmp) (ops0 ++ ops) in
  (forall r, contains_triple_subject list_next (ig_start cmp g spare) r = true <->
     exists t, In t s /\ t_s t = r) /\
  (forall r p, exists l,
     yields (triple_objects_next list_next) (triple_objects (ig_start cmp g spare) r p) l /\ NoDup l /\
     forall o, In o l <-> In (Triple r p o) s) /\
  (vacancies 0 (set_log (triple_cmp cmp) [] (ops0 ++ ops)) = 0 ->
   exact_triples list_next (ig_start cmp g spare) s).
Proof.
  intros L keep ops0 ops g spare Hr Hk s. split; [|split].
  - intros r. unfold contains_triple_subject. rewrite (tfound_exact _ _ s).
    + split; intros (q & A & B); exists q; cbn in *; tauto.
    + apply (ig_start_exact cmp L keep ops0 ops g spare _ Hr Hk). now left.
  - intros r p. apply gr_objects.
    apply (ig_start_exact cmp L keep ops0 ops g spare _ Hr Hk). now left.
  - intros Hv c. apply (ig_start_exact cmp L keep ops0 ops g spare _ Hr Hk). now right.
Qed.

(** After a removal, [contains_quad_predicate], [contains_quad_object] and
    [contains_named_graph] of an indexed dataset deny what it contains. *)
Lemma id_trait_counterexample :
  exists ops xs d q g, forall keep,
    id_reached Nat.compare keep [] ops xs (d keep) /\
    known_log (quad_cmp Nat.compare) quad_comps any_resource [] (full_log Nat.compare [] ops xs) /\
    In q (final_set Nat.compare [] ops xs) /\ q_g q = Some g /\
    forall spare,
      contains_quad_predicate list_next (id_start Nat.compare (d keep) spare) (q_p q) = false /\
      contains_quad_object list_next (id_start Nat.compare (d keep) spare) (q_o q) = false /\
      contains_named_graph list_next (id_start Nat.compare (d keep) spare) g = false.
Proof.
  set (ops := [IOp (Insert (Quad 1 2 3 None)); IOp (Insert (Quad 4 5 6 (Some 7)));
               IOp (Remove (Quad 1 2 3 None))]).
  exists ops, [IOut (OBool true); IOut (OBool true); IOut (OBool true)], (after ops),
    (Quad 4 5 6 (Some 7)), 7.
  intros keep; split; [reach|]; split; [known|].
  split; [vm_compute; auto|]; split; [reflexivity|].
  intros spare; destruct keep, spare; vm_compute; auto.
Qed.

(** The predicates of an indexed graph are not all listed after a removal: the
    objects of a subject are then not all found. *)
Lemma ig_trait_counterexample :
  exists ops g t, forall keep,
    ig_reached Nat.compare keep [] ops (g keep) /\
    known_log (triple_cmp Nat.compare) triple_comps any_resource [] (set_log (triple_cmp Nat.compare) [] ops) /\
    In t (spec_set (triple_cmp Nat.compare) ops) /\
    forall spare, exists ps, ig_predicates (g keep) = Some ps /\
      fst (triple_predicates_objects_next list_next (ig_start Nat.compare (g keep) spare) (t_s t) ps)
      = None /\
      contains_triple_predicate list_next (ig_start Nat.compare (g keep) spare) (t_p t) = false.
Proof.
  set (ops := [Insert (Triple 1 2 3); Insert (Triple 1 2 4); Remove (Triple 1 2 3)]).
  exists ops, (gafter ops), (Triple 1 2 4).
  intros keep; split; [greach|]; split; [known|]; split; [vm_compute; auto|].
  intros spare; exists []; destruct keep, spare; vm_compute; auto.
Qed.
