(** C58: mapping functions call the given function once per component, in order. *)
From Coq Require Import List Arith.
Import ListNotations.
From Verif Require Import TripleModel TriplePatternModel QuadPatternModel MapCallModel MapCallSpec MapCallProofs.

(** C58: [Triple::map] calls the function on the subject, the predicate and the
    object in this order, and puts the results in the same places. *)
Theorem c58_triple_map :
  forall T U St (f : T -> St -> U * St) t st t' st',
    triple_mapm f t st = (t', st') -> feed f (triple_comps t) st = (triple_comps t', st').
Proof. exact @triple_mapm_feed. Qed.
Print Assumptions c58_triple_map.

(** C58: [Quad::map]; the graph is mapped last, if there is one. *)
Theorem c58_quad_map :
  forall T U St (f : T -> St -> U * St) q st q' st',
    quad_mapm f q st = (q', st') ->
    feed f (quad_comps q) st = (quad_comps q', st') /\ (q_g q' = None <-> q_g q = None).
Proof. exact @quad_mapm_feed. Qed.
Print Assumptions c58_quad_map.

(** C58: [map] on patterns calls the function on the given resources only, in the
    order subject, predicate, object, graph, and changes nothing else. *)
Theorem c58_pattern_map :
  forall T U St (f : T -> St -> U * St) c st c' st',
    cq_mapm f c st = (c', st') ->
    feed f (givens c) st = (givens c', st') /\ kinds c' = kinds c.
Proof. exact @cq_mapm_feed. Qed.
Print Assumptions c58_pattern_map.

(** C58: [map2] calls the function as often, and sends the first results to the
    first pattern, the second results to the second. *)
Theorem c58_pattern_map2 :
  forall T U V St (f : T -> St -> U * V * St) c st cu cv st',
    cq_map2m f c st = (cu, cv, st') ->
    exists l, feed f (givens c) st = (l, st') /\
              givens cu = map fst l /\ givens cv = map snd l /\ kinds cu = kinds c /\ kinds cv = kinds c.
Proof. exact @cq_map2m_feed. Qed.
Print Assumptions c58_pattern_map2.

(** C58: a pattern is determined by its given resources and its shape, so the
    two theorems above fix the result. *)
Theorem c58_pattern_determined :
  forall T (c c' : cqp T), givens c = givens c' -> kinds c = kinds c' -> c = c'.
Proof. exact @pattern_determined. Qed.
Print Assumptions c58_pattern_determined.

(** C58: the calls made, as recorded by the function itself. *)
Theorem c58_triple_calls :
  forall T U (h : T -> U) t st,
    triple_mapm (fun x s => (h x, s ++ [x])) t st = (triple_map h t, st ++ triple_comps t).
Proof. exact @triple_mapm_log. Qed.
Print Assumptions c58_triple_calls.
Theorem c58_quad_calls :
  forall T U (h : T -> U) q st,
    quad_mapm (fun x s => (h x, s ++ [x])) q st = (quad_map h q, st ++ quad_comps q).
Proof. exact @quad_mapm_log. Qed.
Print Assumptions c58_quad_calls.
Theorem c58_pattern_calls :
  forall T U (h : T -> U) c st,
    cq_mapm (fun x s => (h x, s ++ [x])) c st = (cq_map h c, st ++ givens c).
Proof. exact @cq_mapm_log. Qed.
Print Assumptions c58_pattern_calls.
Theorem c58_pattern_calls2 :
  forall T U V (h : T -> U * V) c st,
    cq_map2m (fun x s => (h x, s ++ [x])) c st =
    (cq_map (fun x => fst (h x)) c, cq_map (fun x => snd (h x)) c, st ++ givens c).
Proof. exact @cq_map2m_log. Qed.
Print Assumptions c58_pattern_calls2.

(** Numbering the resources in order of appearance. *)
Example c58_ex_number :
  let f := fun (x : nat) n => ((n, x), S n) in
  quad_mapm f (Quad 7 8 9 (Some 7)) 0 = (Quad (0, 7) (1, 8) (2, 9) (Some (3, 7)), 4) /\
  cq_mapm f (CQ_AnyS (QA_GivenP 8 (QAG_SameS (QAGG_Given (Some 5))))) 0 =
  (CQ_AnyS (QA_GivenP (0, 8) (QAG_SameS (QAGG_Given (Some (1, 5))))), 2) /\
  cq_map2m f (CQ_GivenS 8 (QG_AnyP (QGA_Given 4 (QGAG_Given None)))) 3 =
  (CQ_GivenS 3 (QG_AnyP (QGA_Given 4 (QGAG_Given None))),
   CQ_GivenS 8 (QG_AnyP (QGA_Given 4 (QGAG_Given None))), 5).
Proof. repeat split. Qed.
