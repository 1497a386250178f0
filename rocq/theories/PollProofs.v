(** [named_graphs] of the indexed dataset, called again after a panic (P_Consume.v). *)
From Coq Require Import List Bool Arith Lia.
Import ListNotations.
From Verif Require Import Base SlabModel TripleModel SetSpec ContainerSpec IndexedSpec Machine
  BaseProofs IResourceModel IndexedDatasetModel IndexedDatasetProofs ShelfSpec ShelfProofs
  PlaceProofs IShelfProofs IterSpec ConsumeModel ConsumeSpec.

Lemma polls_slots {X} (at_ : nat -> option X) n : forall idx,
  polls (slots_poll at_) n idx =
  map (fun k => match nth_error (map at_ idx) k with Some e => option_map Some e | None => Some None end)
      (seq 0 n).
Proof.
  induction n as [|n IH]; intros idx; [reflexivity|].
  cbn [polls seq map]; rewrite IH, <- seq_shift, map_map; destruct idx as [|i r]; cbn.
  - f_equal; apply map_ext; intros []; reflexivity.
  - reflexivity.
Qed.

Lemma calls_polls {X} (at_ : nat -> option X) n : forall idx,
  calls (slots_next at_) n idx = None <-> In None (polls (slots_poll at_) n idx).
Proof.
  induction n as [|n IH]; intros idx; [split; [discriminate|intros []]|].
  cbn [polls calls In]; unfold slots_next at 1.
  destruct (slots_poll at_ idx) as [[x|] r]; cbn; [|tauto].
  rewrite <- (IH r); destruct (calls (slots_next at_) n r) as [[l j]|]; cbn; intuition discriminate.
Qed.

Lemma glimpses_filter {R} (s : list (option R)) : forall mark,
  glimpses mark s = map (pget s) (filter mark (seq 0 (length s))).
Proof.
  induction s as [|e s IH]; intros mark; [reflexivity|].
  cbn [glimpses length seq filter]; rewrite IH, <- seq_shift, filter_map_S.
  destruct (mark 0); cbn [app map]; rewrite map_map; [destruct e; reflexivity|reflexivity].
Qed.

Lemma mapM_none {X Y} (f : X -> option Y) l : mapM f l = None <-> In None (map f l).
Proof.
  induction l as [|x l IH]; cbn; [split; [discriminate|tauto]|].
  rewrite <- IH; destruct (f x) as [y|], (mapM f l); cbn; intuition congruence.
Qed.

Section Polls.
  Context {R : Type} {cmp : R -> R -> comparison} (L : ord_laws cmp).

  Lemma named_graphs_polls keep ops0 ops xs d :
    id_reached cmp keep ops0 ops xs d ->
    let sh := shelf_after cmp keep ops0 ops xs in
    let l := glimpses (marked sh 3) (fst (seats sh)) in
    (forall n, polls (id_values_poll d) n (id_ng d) =
       map (fun k => match nth_error l k with Some e => option_map Some e | None => Some None end)
           (seq 0 n)) /\
    (id_named_graphs d = None <-> In None l) /\
    (forall n, calls (id_values_next d) n (id_ng d) = None <->
       In None (polls (id_values_poll d) n (id_ng d))) /\
    (forall n, In None (polls (id_values_poll d) n (id_ng d)) -> id_named_graphs d = None) /\
    (id_named_graphs d = None ->
       In None (polls (id_values_poll d) (id_named_graph_count d) (id_ng d))).
  Proof.
    intros H sh l; pose proof (i_shelf_reached L keep _ _ _ _ H) as B; fold sh in B.
    assert (E : map (ir_val (id_resources d)) (id_ng d) = l).
    { unfold l; rewrite glimpses_filter.
      rewrite <- (marks_filter _ _ _ (sh_ns _ _ B) (sh_ng _ _ B) (sh_lt _ _ B)).
      apply map_ext; intros i; apply (sh_kept _ _ B). }
    assert (P : forall n, polls (id_values_poll d) n (id_ng d) =
       map (fun k => match nth_error l k with Some e => option_map Some e | None => Some None end)
           (seq 0 n)) by (intros n; unfold id_values_poll; now rewrite polls_slots, E).
    assert (N : id_named_graphs d = None <-> In None l)
      by (unfold id_named_graphs, id_values; now rewrite mapM_none, E).
    split; [exact P|]; split; [exact N|]; split; [intros n; apply calls_polls|]; split.
    - intros n; rewrite P, in_map_iff, N; intros (k & Hk & _).
      destruct (nth_error l k) as [[x|]|] eqn:F; try discriminate; now apply nth_error_In in F.
    - rewrite N, P, in_map_iff; intros Hn; apply In_nth_error in Hn as [k Hk]; exists k.
      rewrite Hk; split; [reflexivity|]; apply in_seq; split; [lia|].
      unfold id_named_graph_count; rewrite <- (map_length (ir_val (id_resources d))), E.
      cbn; apply nth_error_Some; congruence.
  Qed.
End Polls.
