(** The macros of /repo/src/macro.rs: rules matched in order against a sequence of
    tokens, then compilation and evaluation of what they expand to.

    Simplifications: a token is what the rules tell apart; [^^] is two [^]
    tokens, as in Rust; literals that are neither strings nor characters are
    [KOther] (they do not type check).  [iri!] is a compile time check.  The
    compiler of Rust is reduced to the three questions the expansions raise:
    which types convert to [LocalTerm] and to [String], how many arguments [new]
    takes, and which variables are moved. *)
From Coq Require Import List NArith Bool.
Import ListNotations.
From Verif Require Import Base TextModel BlankIdModel DisplayModel TermModel TripleModel
  TriplePatternModel.

(** Tokens: identifiers, [<], [>], [_], [:], [^], [.], [?], string literals,
    character literals, others. *)
Inductive token :=
| KIdent (x : N) | KLt | KGt | KUnder | KColon | KCaret | KDot | KQuestion | KStr (s : text)
| KChar (c : char) | KOther.

(** A Rust variable in scope: its type and value.  [RvCopy]: a value of a [Copy]
    type of the user, and what its conversion to [LocalTerm] returns.  [RvOther]:
    a number, which has no such conversion. *)
Inductive rust_value :=
| RvIri (i : text) | RvLiteral (l : literal) | RvTerm (t : term) | RvBlank (b : text)
| RvLocal (t : local_term) | RvCopy (t : local_term) | RvOther (n : N).
(** The types of the crate and of iref are not [Copy]. *)
Definition is_copy (v : rust_value) : bool :=
  match v with RvCopy _ | RvOther _ => true | _ => false end.

(** What happens to the invocation of a macro: the program does not compile, it
    panics when it gets there, or the value. *)
Inductive outcome (A : Type) := NoCompile | Panics | Value (a : A).
Arguments NoCompile {A}. Arguments Panics {A}. Arguments Value {A}.

(** The expressions accumulated by [@from]. *)
Inductive expr :=
| EIdent (x : N)                       (* 14: LocalTerm::from($id) *)
| EIri (i : text)                      (* 19: LocalTerm::iri(iri!($iri).to_owned()) *)
| EBlank (s : text)                    (* 24: BlankIdBuf::from_suffix($id).unwrap() *)
| ETyped (v ty : text)                 (* 29-34 *)
| EPlain (v : text)                    (* 39-44 *)
| EVar (x : N).                        (* 213: ResourceOrVar::Var($id) *)

(** 11-55 the [@from] rules of [grdf_triple], 142-191 of [grdf_quad]: [None] is
    [unexpected_token!].  [$value:literal] may be a character: [String] is
    [From<char>].  [iri!] and [from_suffix] want strings. *)
Fixpoint from (acc : list expr) (ts : list token) : option (list expr) :=
  match ts with
  | KIdent x :: r => from (acc ++ [EIdent x]) r
  | KLt :: KStr i :: KGt :: r => from (acc ++ [EIri i]) r
  | KUnder :: KColon :: KStr s :: r => from (acc ++ [EBlank s]) r
  | KStr v :: KCaret :: KCaret :: KStr ty :: r => from (acc ++ [ETyped v ty]) r
  | KStr v :: r => from (acc ++ [EPlain v]) r
  | KChar c :: KCaret :: KCaret :: KStr ty :: r => from (acc ++ [ETyped [c] ty]) r
  | KChar c :: r => from (acc ++ [EPlain [c]]) r
  | [] => Some acc
  | _ => None
  end.
(** 210-264 the [@from] rules of [grdf_quad_pattern]. *)
Fixpoint from_pattern (acc : list expr) (ts : list token) : option (list expr) :=
  match ts with
  | KQuestion :: KIdent x :: r => from_pattern (acc ++ [EVar x]) r
  | KIdent x :: r => from_pattern (acc ++ [EIdent x]) r
  | KLt :: KStr i :: KGt :: r => from_pattern (acc ++ [EIri i]) r
  | KUnder :: KColon :: KStr s :: r => from_pattern (acc ++ [EBlank s]) r
  | KStr v :: KCaret :: KCaret :: KStr ty :: r => from_pattern (acc ++ [ETyped v ty]) r
  | KStr v :: r => from_pattern (acc ++ [EPlain v]) r
  | KChar c :: KCaret :: KCaret :: KStr ty :: r => from_pattern (acc ++ [ETyped [c] ty]) r
  | KChar c :: r => from_pattern (acc ++ [EPlain [c]]) r
  | [] => Some acc
  | _ => None
  end.

(** 68-117 [@tokenize] of [grdf_triples], 277-326 of [grdf_quads]. *)
Fixpoint tokenize (acc : list (list token)) (current : list token) (ts : list token)
  : option (list (list token)) :=
  match ts with
  | KDot :: r => tokenize (acc ++ [current]) [] r
  | (KIdent _ | KLt | KGt | KUnder | KColon | KCaret | KStr _ | KChar _) as t :: r =>
      tokenize acc (current ++ [t]) r
  | [] => match current with [] => Some acc | _ :: _ => None end
  | (KQuestion | KOther) :: _ => None
  end.

Section Macros.
  (** The variables in scope, and the texts that [iri!] accepts. *)
  Context (env : N -> option rust_value) (iri_ok : text -> bool).

  (** term/local/mod.rs 88-110 ([From<LocalTerm>] is the identity of the
      standard library). *)
  Definition local_from (v : rust_value) : option local_term :=
    match v with
    | RvIri i => Some (local_iri i)
    | RvLiteral l => Some (local_literal l)
    | RvTerm t => Some (local_from_term t)
    | RvBlank b => Some (local_from_blank b)
    | RvLocal t => Some t
    | RvCopy t => Some t
    | RvOther _ => None
    end.

  (** Does an expression compile (as a [LocalTerm])? *)
  Definition compiles (e : expr) : bool :=
    match e with
    | EIdent x => match env x with
                  | Some v => match local_from v with Some _ => true | None => false end
                  | None => false
                  end
    | EIri i => iri_ok i
    | EBlank _ => true
    | ETyped _ ty => iri_ok ty
    | EPlain _ => true
    | EVar _ => false
    end.
  (** Its evaluation; [None] is a panic ([unwrap] of an error).  The first case
      is only used when the expression compiles. *)
  Definition eval (e : expr) : option local_term :=
    match e with
    | EIdent x => match env x with Some v => local_from v | None => None end
    | EIri i => Some (local_iri i)
    | EBlank s => option_map Anonymous (blank_from_suffix s)
    | ETyped v ty => Some (local_literal (Literal v (LAny ty)))
    | EPlain v => Some (local_literal (Literal v (LAny XSD_STRING)))
    | EVar _ => None
    end.

  Definition outcome_of {A} (a : option A) : outcome A :=
    match a with Some a => Value a | None => Panics end.

  (** 47-49 the end of [grdf_triple]: a call of [Triple::new]. *)
  Definition triple_expr (es : list expr) : option (option (triple local_term)) :=
    match es with
    | [s; p; o] =>
        if compiles s && compiles p && compiles o then
          Some (match eval s, eval p, eval o with
                | Some s, Some p, Some o => Some (Triple s p o)
                | _, _, _ => None
                end)
        else None
    | _ => None
    end.
  (** 177-186 the end of [grdf_quad]. *)
  Definition quad_expr (es : list expr) : option (option (quad local_term)) :=
    match es with
    | [s; p; o] =>
        if compiles s && compiles p && compiles o then
          Some (match eval s, eval p, eval o with
                | Some s, Some p, Some o => Some (Quad s p o None)
                | _, _, _ => None
                end)
        else None
    | [s; p; o; g] =>
        if compiles s && compiles p && compiles o && compiles g then
          Some (match eval s, eval p, eval o, eval g with
                | Some s, Some p, Some o, Some g => Some (Quad s p o (Some g))
                | _, _, _, _ => None
                end)
        else None
    | _ => None
    end.

  (** An invocation: outer [None] does not compile, inner [None] panics. *)
  Definition triple_code (ts : list token) : option (option (triple local_term)) :=
    match from [] ts with Some es => triple_expr es | None => None end.
  Definition quad_code (ts : list token) : option (option (quad local_term)) :=
    match from [] ts with Some es => quad_expr es | None => None end.

  (** 118-128 [@triples_from], 327-337 [@quads_from]: an array expression. *)
  Fixpoint array_code {A} (code : list token -> option (option A)) (l : list (list token))
    : option (option (list A)) :=
    match l with
    | [] => Some (Some [])
    | ts :: r =>
        match code ts, array_code code r with
        | Some (Some a), Some (Some k) => Some (Some (a :: k))
        | Some _, Some _ => Some None
        | _, _ => None
        end
    end.

  Definition run_code {A} (c : option (option A)) : outcome A :=
    match c with None => NoCompile | Some a => outcome_of a end.

  (** The borrow checker: an identifier is passed by value (14, 145, 213, 218), so a
      variable whose type is not [Copy] can be used once in an invocation. *)
  Definition idents (ts : list token) : list N :=
    flat_map (fun t => match t with KIdent x => [x] | _ => [] end) ts.
  Definition moved (ts : list token) : list N :=
    filter (fun x => match env x with Some v => negb (is_copy v) | None => false end) (idents ts).
  Fixpoint distinct (l : list N) : bool :=
    match l with [] => true | x :: r => negb (existsb (N.eqb x) r) && distinct r end.
  Definition checked {A} (ts : list token) (o : outcome A) : outcome A :=
    if distinct (moved ts) then o else NoCompile.

  (** 8-62, 139-198, 65-136, 274-345. *)
  Definition grdf_triple (ts : list token) : outcome (triple local_term) :=
    checked ts (run_code (triple_code ts)).
  Definition grdf_quad (ts : list token) : outcome (quad local_term) :=
    checked ts (run_code (quad_code ts)).
  Definition grdf_triples (ts : list token) : outcome (list (triple local_term)) :=
    checked ts
      (run_code (match tokenize [] [] ts with Some l => array_code triple_code l | None => None end)).
  Definition grdf_quads (ts : list token) : outcome (list (quad local_term)) :=
    checked ts
      (run_code (match tokenize [] [] ts with Some l => array_code quad_code l | None => None end)).

  (** 207-271 [grdf_quad_pattern]: the components must have the type
      [ResourceOrVar<Term, _>] (253, 258).  The IRIs go through
      [$crate::static_iref], which lib.rs does not export, and all constants are
      [LocalTerm]s: none of them compiles.  Variables are numbers here, and the context fixes
      their type. *)
  Definition pattern_component (e : expr) : option (res_or_var term N) :=
    match e with
    | EVar x => match env x with Some (RvOther n) => Some (Var n) | _ => None end
    | EIdent x => match env x with Some (RvTerm t) => Some (Res t) | _ => None end
    | EIri _ | EBlank _ | ETyped _ _ | EPlain _ => None
    end.
  Definition grdf_quad_pattern (ts : list token) : outcome (quad (res_or_var term N)) :=
    checked ts
    match from_pattern [] ts with
    | Some [s; p; o] =>
        match pattern_component s, pattern_component p, pattern_component o with
        | Some s, Some p, Some o => Value (Quad s p o None)
        | _, _, _ => NoCompile
        end
    | Some [s; p; o; g] =>
        match pattern_component s, pattern_component p, pattern_component o, pattern_component g with
        | Some s, Some p, Some o, Some g => Value (Quad s p o (Some g))
        | _, _, _, _ => NoCompile
        end
    | _ => NoCompile
    end.
End Macros.
