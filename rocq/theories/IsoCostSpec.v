(** Blank nodes that cannot be told apart by the quads around them. *)
From Coq Require Import List Permutation.
Import ListNotations.
From Verif Require Import TripleModel ContainerSpec IsoSpec.

(** The quads of [a] around [x] and those of [b] around [y] are the same when blank
    nodes are forgotten. *)
Definition look_alike {R} (cmp : R -> R -> comparison) (blank : R -> bool) (a b : list (quad R)) (x y : R) : Prop :=
  Permutation (map (named_part blank) (around cmp a x)) (map (named_part blank) (around cmp b y)).
