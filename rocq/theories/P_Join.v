(** C89: solving several triple patterns together on an indexed graph. *)
From Coq Require Import List Bool Arith.
Import ListNotations.
From Verif Require Import Base TripleModel TriplePatternModel SetSpec ContainerSpec PatternSpec IndexedSpec
  IndexedGraphModel IndexedRunProofs IndexedGraphRunProofs JoinModel JoinSpec JoinProofs.

(** C89: for every graph and all patterns the program returns; what it returns are
    solutions, on the variables of the patterns, each once. *)
Theorem c89_sound :
  forall R X (cmp : R -> R -> comparison), ord_laws cmp ->
  forall xeqb : X -> X -> bool, (forall x y, xeqb x y = true <-> x = y) ->
  forall keep ops0 ops g spare (ps : list (triple_pattern R X)),
    ig_reached cmp keep ops0 ops g ->
    exists out vs, solve cmp xeqb g spare ps [] = Some out /\ NoDup out /\ NoDup vs /\
      (out <> [] -> forall x, In x vs <-> variable_of ps x) /\
      forall b, In b out -> map fst b = vs /\
        forall a, gives b a -> solves (spec_set (triple_cmp cmp) (ops0 ++ ops)) ps a.
Proof. exact @join_sound. Qed.
Print Assumptions c89_sound.

(** C89: it returns all solutions if no insertion repeats a resource that is new,
    and either all slots are filled, or the subject of each pattern is a resource
    or a variable of an earlier pattern. *)
Theorem c89_complete :
  forall R X (cmp : R -> R -> comparison), ord_laws cmp ->
  forall xeqb : X -> X -> bool, (forall x y, xeqb x y = true <-> x = y) ->
  forall keep ops0 ops g spare (ps : list (triple_pattern R X)),
    ig_reached cmp keep ops0 ops g ->
    known_log (triple_cmp cmp) triple_comps any_resource [] (set_log (triple_cmp cmp) [] (ops0 ++ ops)) ->
    anchored (fun _ => False) ps \/ vacancies 0 (set_log (triple_cmp cmp) [] (ops0 ++ ops)) = 0 ->
    exists out, solve cmp xeqb g spare ps [] = Some out /\
      forall a, solves (spec_set (triple_cmp cmp) (ops0 ++ ops)) ps a <-> exists b, In b out /\ gives b a.
Proof. exact @join_complete. Qed.
Print Assumptions c89_complete.

(** Otherwise a removal may make it miss solutions, and the order of the patterns
    matters. *)
Theorem c89_missed :
  exists ops g (ps : list (triple_pattern nat nat)) a, forall keep spare,
    ig_reached Nat.compare keep [] ops (g keep) /\
    known_log (triple_cmp Nat.compare) triple_comps any_resource [] (set_log (triple_cmp Nat.compare) [] ops) /\
    solves (spec_set (triple_cmp Nat.compare) ops) ps a /\
    solve Nat.compare Nat.eqb (g keep) spare ps [] = Some [] /\
    exists b, solve Nat.compare Nat.eqb (g keep) spare (rev ps) [] = Some [b] /\ gives b a.
Proof. exact join_missed. Qed.
Print Assumptions c89_missed.

(** [1 ?0 ?1 . ?1 ?0 ?2] in a graph with a vacant slot. *)
Definition e_ops : list (op (triple nat)) :=
  [Insert (Triple 7 8 9); Insert (Triple 1 5 2); Insert (Triple 2 5 3); Insert (Triple 2 5 4);
   Insert (Triple 2 6 4); Insert (Triple 1 6 3); Remove (Triple 7 8 9)].
Definition e_ps : list (triple_pattern nat nat) :=
  [Triple (Res 1) (Var 0) (Var 1); Triple (Var 1) (Var 0) (Var 2)].
Example c89_case :
  anchored (fun _ => False) e_ps /\
  known_log (triple_cmp Nat.compare) triple_comps any_resource [] (set_log (triple_cmp Nat.compare) [] e_ops) /\
  vacancies 0 (set_log (triple_cmp Nat.compare) [] e_ops) = 1 /\
  solve Nat.compare Nat.eqb (gafter e_ops true) 3 e_ps [] =
    Some [[(0, 5); (1, 2); (2, 3)]; [(0, 5); (1, 2); (2, 4)]].
Proof.
  split; [cbn; intuition auto 10|]. split; [known|]. split; vm_compute; reflexivity.
Qed.
