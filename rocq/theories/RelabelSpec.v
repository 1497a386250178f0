(** The names of the blank nodes of a list of quads, in the order in which one
    meets them. *)
From Coq Require Import List NArith.
Import ListNotations.
From Verif Require Import TextModel DisplayModel TripleModel ContainerSpec.

(** The elements of a list, each at its first place. *)
Definition firsts (l : list text) : list text :=
  fold_left (fun seen b => if in_dec (list_eq_dec N.eq_dec) b seen then seen else seen ++ [b]) l [].

(** All occurrences of blank nodes. *)
Definition blank_names (ts : list local_term) : list text :=
  flat_map (fun t => match t with Anonymous b => [b] | Named _ => [] end) ts.

(** The blank nodes of the quads: subject, predicate, object and graph of the
    first quad, then those of the second, ... *)
Definition met (l : list (quad local_term)) : list text :=
  firsts (blank_names (flat_map quad_comps l)).
