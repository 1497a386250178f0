(** C92: telling whether a graph entails another, by pattern queries. *)
From Coq Require Import List Bool Arith Ascii String.
Import ListNotations.
From Verif Require Import Base TextModel DisplayModel TermModel TripleModel SetSpec ContainerSpec IndexedSpec Machine
  BTreeGraphModel IndexedGraphModel MeaningSpec EntailModel EntailProofs.
Open Scope list_scope.

(** C92: the program returns, and when it says that [g] entails [h], the triples
    of [h] are true whenever those of [g] are. *)
Theorem c92_sound : forall cmp, ord_laws cmp ->
  forall keep keep' ops0 ops g spare hops hxs h,
  ig_reached cmp keep ops0 ops g -> run (bg_step cmp keep') bg_new hops = Some (hxs, h) ->
  exists x, entails cmp spare g h = Some x /\
    (x = true -> follows (spec_set (triple_cmp cmp) (ops0 ++ ops)) (spec_set (triple_cmp cmp) hops)).
Proof. exact @entails_sound. Qed.
Print Assumptions c92_sound.

(** C92: it decides entailment if no insertion in [g] repeats a term that is new,
    and either no slot of [g] is vacant or [h] has no blank node as a subject. *)
Theorem c92_exact : forall cmp, ord_laws cmp ->
  forall keep keep' ops0 ops g spare hops hxs h,
  ig_reached cmp keep ops0 ops g -> run (bg_step cmp keep') bg_new hops = Some (hxs, h) ->
  known_log (triple_cmp cmp) triple_comps any_resource [] (set_log (triple_cmp cmp) [] (ops0 ++ ops)) ->
  vacancies 0 (set_log (triple_cmp cmp) [] (ops0 ++ ops)) = 0 \/
    (forall t, In t (spec_set (triple_cmp cmp) hops) -> exists n, t_s t = Named n) ->
  exists x, entails cmp spare g h = Some x /\
    (x = true <-> follows (spec_set (triple_cmp cmp) (ops0 ++ ops)) (spec_set (triple_cmp cmp) hops)).
Proof. exact @entails_exact. Qed.
Print Assumptions c92_exact.

(** C92: on a copy of [g] it decides entailment if no triple of [g] has a term
    twice, whatever the history of [g]. *)
Theorem c92_rebuilt : forall cmp, ord_laws cmp ->
  forall keep keep' keep'' ops0 ops g spare hops hxs h,
  ig_reached cmp keep ops0 ops g -> run (bg_step cmp keep') bg_new hops = Some (hxs, h) ->
  exists x, entails_rebuilt cmp spare keep'' g h = Some x /\
    (x = true -> follows (spec_set (triple_cmp cmp) (ops0 ++ ops)) (spec_set (triple_cmp cmp) hops)) /\
    ((forall t, In t (spec_set (triple_cmp cmp) (ops0 ++ ops)) -> NoDup (triple_comps t)) ->
     follows (spec_set (triple_cmp cmp) (ops0 ++ ops)) (spec_set (triple_cmp cmp) hops) -> x = true).
Proof. exact @rebuilt_exact. Qed.
Print Assumptions c92_rebuilt.

(** Otherwise it may answer no although [g] entails [h]: when a triple has a term
    twice a graph may not entail itself, even copied, *)
Theorem c92_repeat_missed :
  exists ops g hxs h, forall keep spare keep',
    ig_reached n_cmp keep [] ops (g keep) /\ run (bg_step n_cmp true) bg_new ops = Some (hxs, h) /\
    vacancies 0 (set_log (triple_cmp n_cmp) [] ops) = 0 /\
    follows (spec_set (triple_cmp n_cmp) ops) (spec_set (triple_cmp n_cmp) ops) /\
    entails n_cmp spare (g keep) h = Some false /\ entails_rebuilt n_cmp spare keep' (g keep) h = Some false.
Proof. exact entails_repeat_missed. Qed.
Print Assumptions c92_repeat_missed.

(** and after a removal the answer may be wrong until one copies the graph. *)
Theorem c92_removal_missed :
  exists ops g hops hxs h, forall keep spare keep',
    ig_reached n_cmp keep [] ops (g keep) /\ run (bg_step n_cmp true) bg_new hops = Some (hxs, h) /\
    (forall t, In t (spec_set (triple_cmp n_cmp) ops) -> NoDup (triple_comps t)) /\
    follows (spec_set (triple_cmp n_cmp) ops) (spec_set (triple_cmp n_cmp) hops) /\
    entails n_cmp spare (g keep) h = Some false /\ entails_rebuilt n_cmp spare keep' (g keep) h = Some true.
Proof. exact entails_removal_missed. Qed.
Print Assumptions c92_removal_missed.

(** Someone known by someone: a graph that entails another with more triples, and
    one that it does not entail. *)
Definition e_knows := n_iri "ex:knows".
Definition e_g : list (op (triple local_term)) :=
  [Insert (Triple (n_iri "ex:ann") e_knows (n_blank "_:b")); Insert (Triple (n_blank "_:b") e_knows (n_iri "ex:ann"))].
Definition e_yes : list (op (triple local_term)) :=
  [Insert (Triple (n_blank "_:x") e_knows (n_blank "_:y")); Insert (Triple (n_blank "_:y") e_knows (n_blank "_:z"));
   Insert (Triple (n_blank "_:z") e_knows (n_blank "_:y"))].
Definition e_no : list (op (triple local_term)) := [Insert (Triple (n_blank "_:x") e_knows (n_blank "_:x"))].
Example c92_case :
  ig_reached n_cmp true [] e_g (n_graph e_g true) /\
  known_log (triple_cmp n_cmp) triple_comps any_resource [] (set_log (triple_cmp n_cmp) [] e_g) /\
  vacancies 0 (set_log (triple_cmp n_cmp) [] e_g) = 0 /\
  entails n_cmp 0 (n_graph e_g true) (n_bgraph e_yes) = Some true /\
  entails n_cmp 0 (n_graph e_g true) (n_bgraph e_no) = Some false /\
  entails_rebuilt n_cmp 0 true (n_graph e_g true) (n_bgraph e_yes) = Some true.
Proof.
  split; [eapply n_reached; vm_compute; reflexivity|]. split.
  { apply known_nodup. intros b t H. vm_compute in H. repeat destruct H as [H|H]; try contradiction;
      injection H as <- <-; repeat constructor; cbn; intuition discriminate. }
  repeat split; vm_compute; reflexivity.
Qed.
