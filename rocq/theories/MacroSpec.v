(** The notation that the macros of the crate read, and its meaning (C54): from the
    documentation and the N-Triples syntax it imitates. *)
From Coq Require Import List NArith Ascii String.
Import ListNotations.
From Verif Require Import TextModel BlankIdSpec DisplayModel TripleModel TriplePatternModel MacroModel.

(** A term as the user writes it: [x], [<"iri">], [_:"label"], ["v"^^"type"], ["v"],
    and the last two with a character. *)
Inductive item :=
| IVar (x : N) | IIri (i : text) | IBlank (s : text) | ITyped (v ty : text) | IPlain (v : text)
| ICharTyped (c : char) (ty : text) | IChar (c : char).

Definition written (i : item) : list token :=
  match i with
  | IVar x => [KIdent x]
  | IIri i => [KLt; KStr i; KGt]
  | IBlank s => [KUnder; KColon; KStr s]
  | ITyped v ty => [KStr v; KCaret; KCaret; KStr ty]
  | IPlain v => [KStr v]
  | ICharTyped c ty => [KChar c; KCaret; KCaret; KStr ty]
  | IChar c => [KChar c]
  end.
(** The variables named. *)
Definition names (i : item) : list N := match i with IVar x => [x] | _ => [] end.
Definition written_all (l : list item) : list token := flat_map written l.
(** Statements ended by dots. *)
Definition written_statements (l : list (list item)) : list token :=
  flat_map (fun s => written_all s ++ [KDot]) l.

(** A component of a pattern: [?x] or a term. *)
Inductive pitem := PVar (x : N) | PTerm (i : item).
Definition pwritten (i : pitem) : list token :=
  match i with PVar x => [KQuestion; KIdent x] | PTerm i => written i end.
Definition pnames (i : pitem) : list N := match i with PVar x => [x] | PTerm i => names i end.
Definition pwritten_all (l : list pitem) : list token := flat_map pwritten l.
(** Written without IRI, blank node or literal. *)
Definition no_constant (i : pitem) : Prop :=
  match i with PVar _ | PTerm (IVar _) => True | PTerm _ => False end.

Section Meaning.
  Context (env : N -> option rust_value) (iri_ok : text -> bool).

  (** The term held by a variable. *)
  Inductive holds : rust_value -> local_term -> Prop :=
  | HIri i : holds (RvIri i) (Named (TIri i))
  | HLit l : holds (RvLiteral l) (Named (TLit l))
  | HTerm t : holds (RvTerm t) (Named t)
  | HBlank b : holds (RvBlank b) (Anonymous b)
  | HLocal t : holds (RvLocal t) t
  | HCopy t : holds (RvCopy t) t.

  (** Values that can be used more than once. *)
  Definition copied (v : rust_value) : Prop :=
    match v with RvCopy _ | RvOther _ => True | _ => False end.
  (** Among these names, no variable is used after it was moved. *)
  Definition moved_once (xs : list N) : Prop :=
    forall x v, env x = Some v -> ~ copied v -> count_occ N.eq_dec xs x <= 1.

  Inductive means : item -> local_term -> Prop :=
  | MVar x v t : env x = Some v -> holds v t -> means (IVar x) t
  | MIri i : iri_ok i = true -> means (IIri i) (Named (TIri i))
  | MBlank s : BLANK_NODE_LABEL (chars "_:" ++ s) -> ~ In DOT s ->
      means (IBlank s) (Anonymous (chars "_:" ++ s))
  | MTyped v ty : iri_ok ty = true -> means (ITyped v ty) (Named (TLit (Literal v (LAny ty))))
  | MPlain v :
      means (IPlain v)
        (Named (TLit (Literal v (LAny (chars "http://www.w3.org/2001/XMLSchema#string")))))
  | MCharTyped c ty : iri_ok ty = true ->
      means (ICharTyped c ty) (Named (TLit (Literal [c] (LAny ty))))
  | MChar c :
      means (IChar c)
        (Named (TLit (Literal [c] (LAny (chars "http://www.w3.org/2001/XMLSchema#string"))))).

  (** Written correctly but for the label of a blank node. *)
  Definition almost (i : item) : Prop := (exists t, means i t) \/ exists s, i = IBlank s.

  Inductive triple_means : list item -> triple local_term -> Prop :=
  | MTriple a b c s p o : means a s -> means b p -> means c o ->
      triple_means [a; b; c] (Triple s p o).
  Inductive quad_means : list item -> quad local_term -> Prop :=
  | MQuad3 a b c s p o : means a s -> means b p -> means c o ->
      quad_means [a; b; c] (Quad s p o None)
  | MQuad4 a b c d s p o g : means a s -> means b p -> means c o -> means d g ->
      quad_means [a; b; c; d] (Quad s p o (Some g)).

  (** A pattern of [Term]s, as documented. *)
  Inductive pmeans : pitem -> res_or_var term N -> Prop :=
  | PMVar x n : env x = Some (RvOther n) -> pmeans (PVar x) (Var n)
  | PMIdent x t : env x = Some (RvTerm t) -> pmeans (PTerm (IVar x)) (Res t)
  | PMIri i : iri_ok i = true -> pmeans (PTerm (IIri i)) (Res (TIri i))
  | PMTyped v ty : iri_ok ty = true ->
      pmeans (PTerm (ITyped v ty)) (Res (TLit (Literal v (LAny ty))))
  | PMPlain v :
      pmeans (PTerm (IPlain v))
        (Res (TLit (Literal v (LAny (chars "http://www.w3.org/2001/XMLSchema#string")))))
  | PMCharTyped c ty : iri_ok ty = true ->
      pmeans (PTerm (ICharTyped c ty)) (Res (TLit (Literal [c] (LAny ty))))
  | PMChar c :
      pmeans (PTerm (IChar c))
        (Res (TLit (Literal [c] (LAny (chars "http://www.w3.org/2001/XMLSchema#string"))))).
  Inductive pattern_means : list pitem -> quad (res_or_var term N) -> Prop :=
  | PMQuad3 a b c s p o : pmeans a s -> pmeans b p -> pmeans c o ->
      pattern_means [a; b; c] (Quad s p o None)
  | PMQuad4 a b c d s p o g : pmeans a s -> pmeans b p -> pmeans c o -> pmeans d g ->
      pattern_means [a; b; c; d] (Quad s p o (Some g)).
End Meaning.
