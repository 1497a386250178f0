(** In which order elements can be collected. *)
From Coq Require Import List.
Import ListNotations.
From Verif Require Import SetSpec.

(** A resource that is twice in an element is in an element before it. *)
Definition introduced {X R} (comps : X -> list R) (l : list X) : Prop :=
  forall before x after, l = before ++ x :: after -> repeats_known comps any_resource before x.
