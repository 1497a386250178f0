(** What a reader of N-Triples (NTriplesSpec.v) finds in texts that were not
    written as they should. *)
From Coq Require Import List NArith Bool.
Import ListNotations.
From Verif Require Import TripleModel DisplayModel NTriplesSpec.
Local Open Scope N_scope.

(** Blank nodes are taken for strings with the same characters. *)
Definition seen (t : local_term) : term :=
  match t with
  | Anonymous b => TLit (Literal b (LAny xsd_string))
  | Named t => t
  end.
Definition seen_quad (q : quad local_term) : quad term :=
  Quad (seen (q_s q)) (seen (q_p q)) (seen (q_o q))
    match q_g q with Some g => Some (seen g) | None => None end.
Definition seen_triple (t : triple local_term) : quad term :=
  Quad (seen (t_s t)) (seen (t_p t)) (seen (t_o t)) None.

(** A character of a string that is not escaped is erased by the precision 0 and
    followed by spaces up to the width. *)
Definition stretched (width : nat) (precision : option nat) (c : N) : list N :=
  if (c =? 0x22) || (c =? 0x5C) || (c =? 0x0A) || (c =? 0x0D) then [c]
  else match precision with
       | Some O => repeat 0x20 width
       | _ => c :: repeat 0x20 (width - 1)
       end.
