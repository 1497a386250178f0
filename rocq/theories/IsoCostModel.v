(** The search of /repo/src/dataset/isomorphism.rs again, as in [IsoModel], counting
    the calls of [find_from_candidates] and the depth of their nesting, that is of
    the stack.

    Simplifications: those of [IsoModel]. *)
From Coq Require Import List Bool Arith.
Import ListNotations.
From Verif Require Import Base TextModel DisplayModel TermModel TripleModel InterpretationModel IsoModel.

(** The number of calls, and how many of them are nested at most. *)
Record cost := Cost { calls : nat; depth : nat }.
Definition no_cost : cost := Cost 0 0.
(** One after the other. *)
Definition then_cost (c d : cost) : cost := Cost (calls c + calls d) (max (depth c) (depth d)).
(** Inside a call. *)
Definition inside_call (c : cost) : cost := Cost (S (calls c)) (S (depth c)).

Section Search.
  Context {R St : Type} (cmp : R -> R -> comparison).
  Context (iri_eqb tag_eqb : text -> text -> bool).
  Context (I : interp_rev St R) (st : St).
  Local Notation signatures := (list (R * list (quad R))).

  (** 347-389 [find_from_candidates]; the recursive call is 371-376. *)
  Fixpoint find_counted (s : bijection R) (cands : list (R * list R)) (am bm : signatures)
    : option (option (bijection R)) * cost :=
    match cands with
    | [] => (Some (Some s), inside_call no_cost)
    | (a, bs) :: cands =>
        let '(r, c) :=
          (fix try (bs : list R) : option (option (bijection R)) * cost :=
             match bs with
             | [] => (Some None, no_cost)
             | b :: bs =>
                 if m_contains cmp b (backward s) then try bs
                 else
                   let s' := bij_insert cmp a b s in
                   match m_get cmp a am, m_get cmp b bm with
                   | Some sa, Some sb =>
                       if sig_matches_with cmp iri_eqb tag_eqb I st s' sa sb then
                         let '(r, c) := find_counted s' cands am bm in
                         match r with
                         | None => (None, c)
                         | Some (Some f) => (Some (Some f), c)
                         | Some None => let '(r, d) := try bs in (r, then_cost c d)
                         end
                       else try bs
                   | _, _ => (None, no_cost)
                   end
             end) bs in
        (r, inside_call c)
    end.

  (** 49-124 [find_bijection_with]. *)
  Definition find_bijection_counted (a b : list (quad R)) : option (option (bijection R)) * cost :=
    if negb (length a =? length b) then (Some None, no_cost)
    else if negb (total_blank_count I st a =? total_blank_count I st b) then (Some None, no_cost)
    else
      let am := collect_signatures cmp I st a in
      let bm := collect_signatures cmp I st b in
      if negb (length am =? length bm) then (Some None, no_cost)
      else
        let ag := split_by_size cmp am in
        let bg := split_by_size cmp bm in
        if negb (length ag =? length bg) then (Some None, no_cost)
        else if negb (forallb (fun '(n, _) => m_contains Nat.compare n bg) ag) then (Some None, no_cost)
        else
          match candidates cmp iri_eqb tag_eqb I st ag bg [] with
          | None => (None, no_cost)
          | Some None => (Some None, no_cost)
          | Some (Some c) => find_counted bij_new c am bm
          end.
End Search.

(** 25-33 and 12-18 [are_isomorphic] on [LocalTerm], with the interpretation [()]:
    its answer and cost. *)
Definition are_isomorphic_counted (iri_eqb tag_eqb : text -> text -> bool) (iri_cmp tag_cmp : text -> text -> comparison)
    (a b : list (quad local_term)) : option bool * cost :=
  let '(r, c) := find_bijection_counted (local_cmp iri_cmp tag_cmp) iri_eqb tag_eqb unit_rev tt a b in
  (option_map (fun o => match o with Some _ => true | None => false end) r, c).
