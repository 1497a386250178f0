(** Vocabulary of the container properties, independent of the containers. *)
From Coq Require Import List Sorted.
Import ListNotations.
From Verif Require Import TripleModel.

(** The resources a quad or triple is made of. *)
Definition quad_comps {R} (q : quad R) : list R :=
  q_s q :: q_p q :: q_o q :: match q_g q with Some g => [g] | None => [] end.
Definition triple_comps {R} (t : triple R) : list R := [t_s t; t_p t; t_o t].

(** Strictly increasing. *)
Definition increasing {X} (cmp : X -> X -> comparison) : list X -> Prop :=
  StronglySorted (fun x y => cmp x y = Lt).
