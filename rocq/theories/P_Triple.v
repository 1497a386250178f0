(** Properties C15 and C16: triples and quads. *)
From Coq Require Import List NArith Bool.
Import ListNotations.
From Verif Require Import Base TextModel TripleModel DisplayModel TermModel TermSpec TermProofs
  TripleConvModel TripleProofs.

(** ** C15 *)

(** Lexicographic: subject, predicate, object, then the graph, none first. *)
Theorem c15_lexicographic : forall {R} (cmp : R -> R -> comparison),
  (forall a b : triple R,
     triple_cmp cmp a b = list_cmp cmp [t_s a; t_p a; t_o a] [t_s b; t_p b; t_o b]) /\
  (forall a b : quad R,
     quad_cmp cmp a b =
     list_cmp (option_cmp cmp) [Some (q_s a); Some (q_p a); Some (q_o a); q_g a]
       [Some (q_s b); Some (q_p b); Some (q_o b); q_g b]) /\
  (forall s p o g, (forall x, cmp x x = Eq) ->
     quad_cmp cmp (Quad s p o None) (Quad s p o (Some g)) = Lt).
Proof. exact @lexicographic. Qed.
Print Assumptions c15_lexicographic.

(** Total orders that agree with [==], if those of the components are; the
    components may have different types. *)
Theorem c15_total_orders : forall {S P O G} (es : S -> S -> bool) (ep : P -> P -> bool)
    (eo : O -> O -> bool) (eg : G -> G -> bool) (cs : S -> S -> comparison)
    (cp : P -> P -> comparison) (co : O -> O -> comparison) (cg : G -> G -> comparison),
  lawful es cs -> lawful ep cp -> lawful eo co -> lawful eg cg ->
  lawful (triple_eqb es ep eo) (gtriple_cmp cs cp co) /\
  lawful (quad_eqb es ep eo eg) (gquad_cmp cs cp co cg).
Proof. exact @total_orders. Qed.
Print Assumptions c15_total_orders.

(** [partial_cmp] is [Some] of [cmp]. *)
Theorem c15_partial_cmp : forall {S P O G} (cs : S -> S -> comparison)
    (cp : P -> P -> comparison) (co : O -> O -> comparison) (cg : G -> G -> comparison),
  (forall a b, triple_partial_cmp (fun x y => Some (cs x y)) (fun x y => Some (cp x y))
     (fun x y => Some (co x y)) a b = Some (gtriple_cmp cs cp co a b)) /\
  (forall a b, quad_partial_cmp (fun x y => Some (cs x y)) (fun x y => Some (cp x y))
     (fun x y => Some (co x y)) (fun x y => Some (cg x y)) a b = Some (gquad_cmp cs cp co cg a b)).
Proof. exact @partial_cmp_same. Qed.
Print Assumptions c15_partial_cmp.

(** Different types: if a component of the left type compares with one of the
    right type as the value [f] makes of it, so do triples and quads. *)
Theorem c15_mixed_equality : forall {S1 P1 O1 G1 S2 P2 O2 G2}
    (fs : S1 -> S2) (fp : P1 -> P2) (fo : O1 -> O2) (fg : G1 -> G2) es ep eo eg hs hp ho hg,
  (forall x y, es x y = hs (fs x) y) -> (forall x y, ep x y = hp (fp x) y) ->
  (forall x y, eo x y = ho (fo x) y) -> (forall x y, eg x y = hg (fg x) y) ->
  (forall (a : gtriple S1 P1 O1) (b : gtriple S2 P2 O2), triple_eqb es ep eo a b =
     triple_eqb hs hp ho (Triple (fs (t_s a)) (fp (t_p a)) (fo (t_o a))) b) /\
  (forall (a : gquad S1 P1 O1 G1) (b : gquad S2 P2 O2 G2), quad_eqb es ep eo eg a b =
     quad_eqb hs hp ho hg (Quad (fs (q_s a)) (fp (q_p a)) (fo (q_o a)) (option_map fg (q_g a))) b).
Proof. exact @mixed_equality. Qed.
Print Assumptions c15_mixed_equality.

Theorem c15_mixed_order : forall {S1 P1 O1 G1 S2 P2 O2 G2}
    (fs : S1 -> S2) (fp : P1 -> P2) (fo : O1 -> O2) (fg : G1 -> G2) ps pp po pg cs cp co cg,
  (forall x y, ps x y = Some (cs (fs x) y)) -> (forall x y, pp x y = Some (cp (fp x) y)) ->
  (forall x y, po x y = Some (co (fo x) y)) -> (forall x y, pg x y = Some (cg (fg x) y)) ->
  (forall (a : gtriple S1 P1 O1) (b : gtriple S2 P2 O2), triple_partial_cmp ps pp po a b =
     Some (gtriple_cmp cs cp co (Triple (fs (t_s a)) (fp (t_p a)) (fo (t_o a))) b)) /\
  (forall (a : gquad S1 P1 O1 G1) (b : gquad S2 P2 O2 G2), quad_partial_cmp ps pp po pg a b =
     Some (gquad_cmp cs cp co cg
             (Quad (fs (q_s a)) (fp (q_p a)) (fo (q_o a)) (option_map fg (q_g a))) b)).
Proof. exact @mixed_order. Qed.
Print Assumptions c15_mixed_order.

(** For instance, a quad of borrowed terms compares with a quad of terms. *)
Example c15_ex_mixed : forall iri_cmp tag_cmp
    (a : gquad local_ref local_ref local_ref local_ref) (b : quad local_term),
  let pc := local_ref_partial_cmp iri_cmp tag_cmp in
  let c := local_cmp iri_cmp tag_cmp in
  let o := local_ref_to_owned in
  quad_partial_cmp pc pc pc pc a b =
  Some (gquad_cmp c c c c (Quad (o (q_s a)) (o (q_p a)) (o (q_o a)) (option_map o (q_g a))) b).
Proof. intros *. apply (c15_mixed_order local_ref_to_owned local_ref_to_owned local_ref_to_owned
  local_ref_to_owned); apply local_ref_cmp_owned. Qed.
Example c15_ex_lawful : lawful (local_eqb str_eqb str_eqb) (local_cmp str_cmp str_cmp).
Proof. exact (local_lawful str_lawful str_lawful). Qed.
Example c15_ex : quad_cmp Nat.compare (Quad 1 2 3 (Some 0)) (Quad 1 2 4 None) = Lt /\
  quad_cmp Nat.compare (Quad 1 2 3 (Some 0)) (Quad 1 2 3 None) = Gt.
Proof. now split. Qed.

(** ** C16 *)

(** Triple to quad and back, and conversely. *)
Theorem c16_round_trips : forall {S P O G : Type},
  (forall (t : gtriple S P O) (g : option G), into_triple (into_quad t g) = (t, g)) /\
  (forall q : gquad S P O G, let (t, g) := into_triple q in into_quad t g = q) /\
  (forall t : gtriple S P O, let '(s, p, o) := triple_into_parts t in Triple s p o = t) /\
  (forall q : gquad S P O G, let '(s, p, o, g) := quad_into_parts q in Quad s p o g = q).
Proof. exact @round_trips. Qed.
Print Assumptions c16_round_trips.

(** Borrowing the components then cloning or copying them. *)
Theorem c16_references : forall {S P O G : Type} (ks : S -> S) (kp : P -> P) (ko : O -> O) (kg : G -> G),
  (forall x, ks x = x) -> (forall x, kp x = x) -> (forall x, ko x = x) -> (forall x, kg x = x) ->
  (forall t : gtriple S P O, triple_cloned ks kp ko (triple_as_ref t) = t /\
                             triple_copied (triple_as_ref t) = t) /\
  (forall q : gquad S P O G, quad_cloned ks kp ko kg (quad_as_ref q) = q /\
                             quad_copied (quad_as_ref q) = q).
Proof. exact @references. Qed.
Print Assumptions c16_references.

Theorem c16_lexical_references :
  (forall t, lexical_triple_into_owned (as_lexical_triple_ref t) = t) /\
  (forall q, lexical_quad_into_owned (as_lexical_quad_ref q) = q).
Proof. exact (conj lexical_triple_round lexical_quad_round). Qed.
Print Assumptions c16_lexical_references.

(** The [map_*] functions and assignments through [*_mut] touch the component
    they name and no other; [map] and [map_all] touch each with its function. *)
Theorem c16_triple_components : forall {S P O : Type} (t : gtriple S P O),
  (forall U (f : S -> U), triple_into_parts (triple_map_subject f t) = (f (t_s t), t_p t, t_o t)) /\
  (forall U (f : P -> U), triple_into_parts (triple_map_predicate f t) = (t_s t, f (t_p t), t_o t)) /\
  (forall U (f : O -> U), triple_into_parts (triple_map_object f t) = (t_s t, t_p t, f (t_o t))) /\
  (forall x, triple_into_parts (triple_set_subject x t) = (x, t_p t, t_o t)) /\
  (forall x, triple_into_parts (triple_set_predicate x t) = (t_s t, x, t_o t)) /\
  (forall x, triple_into_parts (triple_set_object x t) = (t_s t, t_p t, x)).
Proof. exact @triple_components. Qed.
Print Assumptions c16_triple_components.

Theorem c16_quad_components : forall {S P O G : Type} (q : gquad S P O G),
  (forall U (f : S -> U), quad_into_parts (quad_map_subject f q) = (f (q_s q), q_p q, q_o q, q_g q)) /\
  (forall U (f : P -> U), quad_into_parts (quad_map_predicate f q) = (q_s q, f (q_p q), q_o q, q_g q)) /\
  (forall U (f : O -> U), quad_into_parts (quad_map_object f q) = (q_s q, q_p q, f (q_o q), q_g q)) /\
  (forall U (f : option G -> option U),
     quad_into_parts (quad_map_graph f q) = (q_s q, q_p q, q_o q, f (q_g q))) /\
  (forall g, quad_into_parts (quad_with_graph g q) = (q_s q, q_p q, q_o q, g)) /\
  (forall S' P' O' G' (fs : S -> S') (fp : P -> P') (fo : O -> O') (fg : option G -> option G'),
     quad_into_parts (quad_map_all fs fp fo fg q) = (fs (q_s q), fp (q_p q), fo (q_o q), fg (q_g q))) /\
  (forall x, quad_into_parts (quad_set_subject x q) = (x, q_p q, q_o q, q_g q)) /\
  (forall x, quad_into_parts (quad_set_predicate x q) = (q_s q, x, q_o q, q_g q)) /\
  (forall x, quad_into_parts (quad_set_object x q) = (q_s q, q_p q, x, q_g q)) /\
  (forall x, quad_into_parts (quad_set_graph x q) =
             (q_s q, q_p q, q_o q, option_map (fun _ => x) (q_g q))).
Proof. exact @quad_components. Qed.
Print Assumptions c16_quad_components.

(** [map] is a functor and commutes with the conversions. *)
Theorem c16_map : forall {T U : Type} (f : T -> U),
  (forall (t : triple T) (g : option T),
     into_quad (triple_map f t) (option_map f g) = quad_map f (into_quad t g)) /\
  (forall q : quad T, into_triple (quad_map f q) =
     (triple_map f (fst (into_triple q)), option_map f (snd (into_triple q)))) /\
  (forall V (h : U -> V) (q : quad T), quad_map h (quad_map f q) = quad_map (fun x => h (f x)) q) /\
  (forall q : quad T, (forall x y, f x = f y -> x = y) ->
     forall r, quad_map f q = quad_map f r -> q = r).
Proof. exact @map_facts. Qed.
Print Assumptions c16_map.

Example c16_ex : into_triple (quad_map_object (fun x => x + 1) (Quad 1 2 3 (Some 4))) =
  (Triple 1 2 4, Some 4) /\ quad_set_graph 9 (Quad 1 2 3 None) = Quad 1 2 3 None.
Proof. now split. Qed.
