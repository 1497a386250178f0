(** Triples and quads (/repo/src/triple.rs, /repo/src/quad.rs). *)
From Coq Require Import List Bool.
Import ListNotations.
From Verif Require Import Base.

(** triple.rs 14 (struct [Triple]). *)
Record gtriple (S P O : Type) := Triple { t_s : S; t_p : P; t_o : O }.
Arguments Triple {S P O} _ _ _.
Arguments t_s {S P O} _.
Arguments t_p {S P O} _.
Arguments t_o {S P O} _.

(** quad.rs 16 (struct [Quad]): the graph component is optional. *)
Record gquad (S P O G : Type) := Quad { q_s : S; q_p : P; q_o : O; q_g : option G }.
Arguments Quad {S P O G} _ _ _ _.
Arguments q_s {S P O G} _.
Arguments q_p {S P O G} _.
Arguments q_o {S P O G} _.
Arguments q_g {S P O G} _.

(** The default type parameters [P = S, O = S, G = S]. *)
Definition triple (R : Type) := gtriple R R R.
Definition quad (R : Type) := gquad R R R R.

Section Cmp.
  Context {S1 P1 O1 G1 S2 P2 O2 G2 : Type}.

  (** triple.rs 16-22 (heterogeneous [PartialEq]); the arguments are the
      components' [PartialEq]. *)
  Definition triple_eqb (es : S1 -> S2 -> bool) (ep : P1 -> P2 -> bool) (eo : O1 -> O2 -> bool)
      (a : gtriple S1 P1 O1) (b : gtriple S2 P2 O2) : bool :=
    es (t_s a) (t_s b) && ep (t_p a) (t_p b) && eo (t_o a) (t_o b).

  (** triple.rs 24-36 (heterogeneous [PartialOrd]). *)
  Definition triple_partial_cmp
      (cs : S1 -> S2 -> option comparison) (cp : P1 -> P2 -> option comparison)
      (co : O1 -> O2 -> option comparison)
      (a : gtriple S1 P1 O1) (b : gtriple S2 P2 O2) : option comparison :=
    match cs (t_s a) (t_s b) with
    | Some Eq =>
        match cp (t_p a) (t_p b) with
        | Some Eq => co (t_o a) (t_o b)
        | c => c
        end
    | c => c
    end.

  (** quad.rs 263-284 (heterogeneous [PartialEq]). *)
  Definition quad_eqb (es : S1 -> S2 -> bool) (ep : P1 -> P2 -> bool) (eo : O1 -> O2 -> bool)
      (eg : G1 -> G2 -> bool) (a : gquad S1 P1 O1 G1) (b : gquad S2 P2 O2 G2) : bool :=
    es (q_s a) (q_s b) && ep (q_p a) (q_p b) && eo (q_o a) (q_o b) &&
    match q_g a, q_g b with
    | Some x, Some y => eg x y
    | None, None => true
    | _, _ => false
    end.

  (** quad.rs 286-314 (heterogeneous [PartialOrd]). *)
  Definition quad_partial_cmp
      (cs : S1 -> S2 -> option comparison) (cp : P1 -> P2 -> option comparison)
      (co : O1 -> O2 -> option comparison) (cg : G1 -> G2 -> option comparison)
      (a : gquad S1 P1 O1 G1) (b : gquad S2 P2 O2 G2) : option comparison :=
    match cs (q_s a) (q_s b) with
    | Some Eq =>
        match cp (q_p a) (q_p b) with
        | Some Eq =>
            match co (q_o a) (q_o b) with
            | Some Eq =>
                match q_g a, q_g b with
                | Some x, Some y => cg x y
                | Some _, None => Some Gt
                | None, Some _ => Some Lt
                | None, None => Some Eq
                end
            | c => c
            end
        | c => c
        end
    | c => c
    end.

End Cmp.

(** triple.rs 12: [#[derive(Ord)]] compares the components in order. *)
Definition triple_cmp {R} (cmp : R -> R -> comparison) (a b : triple R) : comparison :=
  then_cmp (cmp (t_s a) (t_s b))
    (then_cmp (cmp (t_p a) (t_p b)) (cmp (t_o a) (t_o b))).

(** quad.rs 14: [#[derive(Ord)]], the graph with [Option]'s order. *)
Definition quad_cmp {R} (cmp : R -> R -> comparison) (a b : quad R) : comparison :=
  then_cmp (cmp (q_s a) (q_s b))
    (then_cmp (cmp (q_p a) (q_p b))
       (then_cmp (cmp (q_o a) (q_o b)) (option_cmp cmp (q_g a) (q_g b)))).

(** triple.rs 99-101 / quad.rs 184-186 [into_parts]. *)
Definition triple_into_parts {S P O} (t : gtriple S P O) : S * P * O := (t_s t, t_p t, t_o t).
Definition quad_into_parts {S P O G} (q : gquad S P O G) : S * P * O * option G :=
  (q_s q, q_p q, q_o q, q_g q).

(** triple.rs 104-106 [into_quad]. *)
Definition into_quad {S P O G} (t : gtriple S P O) (g : option G) : gquad S P O G :=
  Quad (t_s t) (t_p t) (t_o t) g.

(** quad.rs 189-191 [into_triple]. *)
Definition into_triple {S P O G} (q : gquad S P O G) : gtriple S P O * option G :=
  (Triple (q_s q) (q_p q) (q_o q), q_g q).

(** triple.rs 109-121 [map_subject], [map_predicate], [map_object]; 171-173 [map]. *)
Definition triple_map_subject {S P O U} (f : S -> U) (t : gtriple S P O) : gtriple U P O :=
  Triple (f (t_s t)) (t_p t) (t_o t).
Definition triple_map_predicate {S P O U} (f : P -> U) (t : gtriple S P O) : gtriple S U O :=
  Triple (t_s t) (f (t_p t)) (t_o t).
Definition triple_map_object {S P O U} (f : O -> U) (t : gtriple S P O) : gtriple S P U :=
  Triple (t_s t) (t_p t) (f (t_o t)).
Definition triple_map {T U} (f : T -> U) (t : triple T) : triple U :=
  Triple (f (t_s t)) (f (t_p t)) (f (t_o t)).

(** quad.rs 194-211 [map_subject] .. [map_graph], 213-215 [with_graph],
    219-227 [map_all], 232-234 [map]. *)
Definition quad_map_subject {S P O G U} (f : S -> U) (q : gquad S P O G) : gquad U P O G :=
  Quad (f (q_s q)) (q_p q) (q_o q) (q_g q).
Definition quad_map_predicate {S P O G U} (f : P -> U) (q : gquad S P O G) : gquad S U O G :=
  Quad (q_s q) (f (q_p q)) (q_o q) (q_g q).
Definition quad_map_object {S P O G U} (f : O -> U) (q : gquad S P O G) : gquad S P U G :=
  Quad (q_s q) (q_p q) (f (q_o q)) (q_g q).
Definition quad_map_graph {S P O G U} (f : option G -> option U) (q : gquad S P O G)
  : gquad S P O U := Quad (q_s q) (q_p q) (q_o q) (f (q_g q)).
Definition quad_with_graph {S P O G} (g : option G) (q : gquad S P O G) : gquad S P O G :=
  Quad (q_s q) (q_p q) (q_o q) g.
Definition quad_map_all {S P O G S' P' O' G'} (fs : S -> S') (fp : P -> P') (fo : O -> O')
    (fg : option G -> option G') (q : gquad S P O G) : gquad S' P' O' G' :=
  Quad (fs (q_s q)) (fp (q_p q)) (fo (q_o q)) (fg (q_g q)).
Definition quad_map {T U} (f : T -> U) (q : quad T) : quad U :=
  Quad (f (q_s q)) (f (q_p q)) (f (q_o q)) (option_map f (q_g q)).
