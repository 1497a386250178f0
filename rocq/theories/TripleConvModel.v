(** More of /repo/src/triple.rs and /repo/src/quad.rs: derived orders with
    different component types, accessors, borrowing and cloning, lexical triples
    and quads. *)
From Coq Require Import List Bool.
Import ListNotations.
From Verif Require Import Base TextModel TripleModel DisplayModel TermModel.

(** ** triple.rs 12, quad.rs 14: derived [Ord], component by component. *)
Definition gtriple_cmp {S P O} (cs : S -> S -> comparison) (cp : P -> P -> comparison)
    (co : O -> O -> comparison) (a b : gtriple S P O) : comparison :=
  then_cmp (cs (t_s a) (t_s b)) (then_cmp (cp (t_p a) (t_p b)) (co (t_o a) (t_o b))).
Definition gquad_cmp {S P O G} (cs : S -> S -> comparison) (cp : P -> P -> comparison)
    (co : O -> O -> comparison) (cg : G -> G -> comparison) (a b : gquad S P O G) : comparison :=
  then_cmp (cs (q_s a) (q_s b))
    (then_cmp (cp (q_p a) (q_p b))
       (then_cmp (co (q_o a) (q_o b)) (option_cmp cg (q_g a) (q_g b)))).

(** ** Assigning through [subject_mut] (triple.rs 52-54, quad.rs 120-122),
    [predicate_mut] (70-72, 138-140), [object_mut] (88-90, 156-158) and [graph_mut]
    (quad.rs 174-176, which gives access to the graph only if there is one). *)
Definition triple_set_subject {S P O} (x : S) (t : gtriple S P O) := Triple x (t_p t) (t_o t).
Definition triple_set_predicate {S P O} (x : P) (t : gtriple S P O) := Triple (t_s t) x (t_o t).
Definition triple_set_object {S P O} (x : O) (t : gtriple S P O) := Triple (t_s t) (t_p t) x.
Definition quad_set_subject {S P O G} (x : S) (q : gquad S P O G) := Quad x (q_p q) (q_o q) (q_g q).
Definition quad_set_predicate {S P O G} (x : P) (q : gquad S P O G) := Quad (q_s q) x (q_o q) (q_g q).
Definition quad_set_object {S P O G} (x : O) (q : gquad S P O G) := Quad (q_s q) (q_p q) x (q_g q).
Definition quad_set_graph {S P O G} (x : G) (q : gquad S P O G) :=
  Quad (q_s q) (q_p q) (q_o q) (match q_g q with Some _ => Some x | None => None end).

(** ** References
    [ref A] is a reference to a value of type [A]. *)
Record ref (A : Type) := Ref { deref : A }.
Arguments Ref {A} _.
Arguments deref {A} _.

(** triple.rs 124-126, quad.rs 25-27 (and 20-22). *)
Definition triple_as_ref {S P O} (t : gtriple S P O) : gtriple (ref S) (ref P) (ref O) :=
  Triple (Ref (t_s t)) (Ref (t_p t)) (Ref (t_o t)).
Definition quad_as_ref {S P O G} (q : gquad S P O G) : gquad (ref S) (ref P) (ref O) (ref G) :=
  Quad (Ref (q_s q)) (Ref (q_p q)) (Ref (q_o q)) (option_map Ref (q_g q)).

Section Clone.
  (** The components' [Clone]. *)
  Context {S P O G : Type} (ks : S -> S) (kp : P -> P) (ko : O -> O) (kg : G -> G).
  (** triple.rs 130-137 [cloned], 139-146 [into_cloned]. *)
  Definition triple_cloned (t : gtriple (ref S) (ref P) (ref O)) : gtriple S P O :=
    Triple (ks (deref (t_s t))) (kp (deref (t_p t))) (ko (deref (t_o t))).
  (** quad.rs 31-44 [cloned], 46-59 [into_cloned]. *)
  Definition quad_cloned (q : gquad (ref S) (ref P) (ref O) (ref G)) : gquad S P O G :=
    Quad (ks (deref (q_s q))) (kp (deref (q_p q))) (ko (deref (q_o q)))
      (option_map (fun r => kg (deref r)) (q_g q)).
End Clone.
(** triple.rs 150-157, 159-166; quad.rs 63-71, 73-81. *)
Definition triple_copied {S P O} (t : gtriple (ref S) (ref P) (ref O)) : gtriple S P O :=
  Triple (deref (t_s t)) (deref (t_p t)) (deref (t_o t)).
Definition quad_copied {S P O G} (q : gquad (ref S) (ref P) (ref O) (ref G)) : gquad S P O G :=
  Quad (deref (q_s q)) (deref (q_p q)) (deref (q_o q)) (option_map deref (q_g q)).

(** ** Lexical triples (triple.rs 6-9) and quads (quad.rs 8-11). *)
Definition lexical_triple := gtriple rdf_id text local_term.
Definition lexical_triple_ref := gtriple id_ref text local_ref.
Definition rdf_quad := gquad rdf_id text local_term rdf_id.
Definition rdf_quad_ref := gquad id_ref text local_ref id_ref.
(** triple.rs 177-179, 183-185 *)
Definition as_lexical_triple_ref (t : lexical_triple) : lexical_triple_ref :=
  Triple (id_as_ref (t_s t)) (t_p t) (local_as_ref (t_o t)).
Definition lexical_triple_into_owned (t : lexical_triple_ref) : lexical_triple :=
  Triple (id_ref_into_owned (t_s t)) (t_p t) (local_ref_to_owned (t_o t)).
(** quad.rs 85-92, 96-103 *)
Definition as_lexical_quad_ref (q : rdf_quad) : rdf_quad_ref :=
  Quad (id_as_ref (q_s q)) (q_p q) (local_as_ref (q_o q)) (option_map id_as_ref (q_g q)).
Definition lexical_quad_into_owned (q : rdf_quad_ref) : rdf_quad :=
  Quad (id_ref_into_owned (q_s q)) (q_p q) (local_ref_to_owned (q_o q))
    (option_map id_ref_into_owned (q_g q)).
