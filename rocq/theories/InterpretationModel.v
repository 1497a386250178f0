(** Interpretations: /repo/src/interpretation and
    /repo/src/term/generator/interpretation.rs.

    Simplifications: a trait is the record of its required methods, over a type
    [St] of implementors and a type [R] of resources; a method taking [&mut self]
    returns the new state; an iterator returned by a required method is the list
    of what it yields; [None] is a panic where a method can panic (only that of
    the generator can). *)
From Coq Require Import List NArith Bool.
Import ListNotations.
From Verif Require Import Base TextModel DisplayModel TermModel BlankIdModel.

(** ** interpretation/mod.rs, required methods *)

(** 17-30 [Interpretation] *)
Record interp (St R : Type) := Interp {
  i_iri : St -> text -> option R;
  i_literal : St -> literal_ref -> option R
}.
(** 60-71 [InterpretationMut] *)
Record interp_mut (St R : Type) := InterpMut {
  i_insert_iri : St -> cow -> R * St;
  i_insert_literal : St -> literal_cow -> R * St
}.
(** 74-96 [ReverseInterpretation] *)
Record interp_rev (St R : Type) := InterpRev {
  i_iris_of : St -> R -> list cow;
  i_literals_of : St -> R -> list literal_cow
}.
(** 114-130 [LocalInterpretation], 132-148 [LocalInterpretationMut], 150-163
    [ReverseLocalInterpretation] *)
Record interp_local (St R : Type) := InterpLocal { i_blank_id : St -> text -> option R }.
Record interp_local_mut (St R : Type) := InterpLocalMut { i_insert_blank_id : St -> cow -> R * St }.
Record interp_rev_local (St R : Type) := InterpRevLocal { i_blank_ids_of : St -> R -> list cow }.
Arguments Interp {St R} _ _.
Arguments InterpMut {St R} _ _.
Arguments InterpRev {St R} _ _.
Arguments InterpLocal {St R} _.
Arguments InterpLocalMut {St R} _.
Arguments InterpRevLocal {St R} _.
Arguments i_iri {St R} _ _ _.
Arguments i_literal {St R} _ _ _.
Arguments i_insert_iri {St R} _ _ _.
Arguments i_insert_literal {St R} _ _ _.
Arguments i_iris_of {St R} _ _ _.
Arguments i_literals_of {St R} _ _ _.
Arguments i_blank_id {St R} _ _ _.
Arguments i_insert_blank_id {St R} _ _ _.
Arguments i_blank_ids_of {St R} _ _ _.

(** ** interpretation/mod.rs, provided methods *)
Section Provided.
  Context {St R : Type}.

  (** 24-29 *)
  Definition i_term (I : interp St R) (st : St) (t : term_ref) : option R :=
    match t with RIri i => i_iri I st i | RLit l => i_literal I st l end.
  (** 65-70 *)
  Definition i_insert_term (I : interp_mut St R) (st : St) (t : term_cow) : R * St :=
    match t with CIri i => i_insert_iri I st i | CLit l => i_insert_literal I st l end.
  (** 117-122, 124-129 *)
  Definition i_local_term (I : interp St R) (L : interp_local St R) (st : St) (t : local_ref)
    : option R :=
    match t with RAnonymous b => i_blank_id L st b | RNamed t => i_term I st t end.
  Definition i_id (I : interp St R) (L : interp_local St R) (st : St) (i : id_ref) : option R :=
    match i with RIBlank b => i_blank_id L st b | RIIri i => i_iri I st i end.
  (** 135-140, 142-147 *)
  Definition i_insert_local_term (I : interp_mut St R) (L : interp_local_mut St R) (st : St)
      (t : local_cow) : R * St :=
    match t with
    | CAnonymous b => i_insert_blank_id L st b
    | CNamed t => i_insert_term I st t
    end.
  Definition i_insert_id (I : interp_mut St R) (L : interp_local_mut St R) (st : St) (i : id_cow)
    : R * St :=
    match i with CIBlank b => i_insert_blank_id L st b | CIIri i => i_insert_iri I st i end.

  (** [Iterator::next] of an iterator that yields a list. *)
  Definition list_next {A} (l : list A) : option (A * list A) :=
    match l with x :: r => Some (x, r) | [] => None end.

  (** 98-101 [TermsOf] and 103-112 its [next]. *)
  Definition terms_iter : Type := list cow * list literal_cow.
  Definition terms_next (it : terms_iter) : option (term_cow * terms_iter) :=
    match list_next (fst it) with
    | Some (i, is) => Some (CIri i, (is, snd it))
    | None =>
        match list_next (snd it) with
        | Some (l, ls) => Some (CLit l, (fst it, ls))
        | None => None
        end
    end.
  (** 86-91 [terms_of], 93-95 [is_anonymous]. *)
  Definition i_terms_of (I : interp_rev St R) (st : St) (r : R) : terms_iter :=
    (i_iris_of I st r, i_literals_of I st r).
  Definition i_is_anonymous (I : interp_rev St R) (st : St) (r : R) : bool :=
    match terms_next (i_terms_of I st r) with None => true | Some _ => false end.

  (** 165-168 [LocalTermsOf] and 170-179 its [next]; 157-162 [local_terms_of]. *)
  Definition local_terms_iter : Type := terms_iter * list cow.
  Definition local_terms_next (it : local_terms_iter) : option (local_cow * local_terms_iter) :=
    match terms_next (fst it) with
    | Some (t, ts) => Some (CNamed t, (ts, snd it))
    | None =>
        match list_next (snd it) with
        | Some (b, bs) => Some (CAnonymous b, (fst it, bs))
        | None => None
        end
    end.
  Definition i_local_terms_of (I : interp_rev St R) (L : interp_rev_local St R) (st : St) (r : R)
    : local_terms_iter := (i_terms_of I st r, i_blank_ids_of L st r).
End Provided.

(** [n] calls of [next], stopping at the first [None]. *)
Fixpoint take_next {It A} (next : It -> option (A * It)) (n : nat) (it : It) : list A :=
  match n with
  | O => []
  | S n => match next it with Some (x, it) => x :: take_next next n it | None => [] end
  end.

(** ** interpretation/impl/none.rs: [()] *)

(** 10-20 *)
Definition unit_interp : interp unit local_term :=
  Interp (fun _ i => Some (local_iri i)) (fun _ l => Some (local_literal (literal_ref_to_owned l))).
(** 22-30 *)
Definition unit_mut : interp_mut unit local_term :=
  InterpMut (fun st i => (local_iri (cow_text i), st))
            (fun st l => (local_literal (literal_cow_into_owned l), st)).
(** 32-49 *)
Definition unit_rev : interp_rev unit local_term :=
  InterpRev (fun _ r => match r with Named (TIri i) => [Borrowed i] | _ => [] end)
            (fun _ r => match r with Named (TLit l) => [literal_as_cow l] | _ => [] end).

(** ** term/generator/interpretation.rs: [LocalGeneratorInterpretation]
    The state is that of the generator; the borrow of the [RefCell] ends before the
    method returns (GenCrashModel.v models it). *)

(** 27-37 ([From] conversions into [LocalTerm]) *)
Definition lgi_interp {G} : interp G local_term :=
  Interp (fun _ i => Some (local_from_iri i))
         (fun _ l => Some (local_from_literal (literal_ref_to_owned l))).
(** 39-43 *)
Definition lgi_local {G} : interp_local G local_term :=
  InterpLocal (fun _ b => Some (local_from_blank b)).
(** 45-53 *)
Definition lgi_mut {G} : interp_mut G local_term :=
  InterpMut (fun st i => (local_from_iri (cow_text i), st))
            (fun st l => (local_from_literal (literal_cow_into_owned l), st)).
(** 55-72 *)
Definition lgi_rev {G} : interp_rev G local_term :=
  InterpRev (fun _ r => match local_as_iri r with Some i => [Borrowed i] | None => [] end)
            (fun _ r => match local_as_literal r with
                        | Some l => [literal_ref_into_cow l]
                        | None => []
                        end).
(** 74-83 *)
Definition lgi_rev_local {G} : interp_rev_local G local_term :=
  InterpRevLocal (fun _ r => match local_as_anonymous r with Some b => [Borrowed b] | None => [] end).
(** 85-90 [new_resource]: a generator is its [next_local_term]. *)
Definition lgi_new_resource {G} (next : G -> option (local_term * G)) (g : G)
  : option (local_term * G) := next g.

(** generator/blank.rs 68-72: [LocalGenerator] for [Blank]. *)
Definition blank_next_local_term (max : N) (checked : bool) (g : generator)
  : option (local_term * generator) :=
  bind (next_blank_id max checked g) (fun '(b, g) => Some (Anonymous b, g)).

(** ** interpretation/impl/with_generator.rs
    [WithGenerator] (33-36) and [WithLocalGenerator] (123-126): an interpretation
    and a generator. *)
Section With.
  Context {St R G : Type}.
  Definition with_st : Type := St * G.

  (** 75-85, 165-175 *)
  Definition wg_interp (I : interp St R) : interp with_st R :=
    Interp (fun w i => i_iri I (fst w) i) (fun w l => i_literal I (fst w) l).
  (** 177-181 *)
  Definition wg_local (L : interp_local St R) : interp_local with_st R :=
    InterpLocal (fun w b => i_blank_id L (fst w) b).
  (** 87-95, 183-191 *)
  Definition lift (f : R * St) (g : G) : R * with_st := (fst f, (snd f, g)).
  Definition wg_mut (I : interp_mut St R) : interp_mut with_st R :=
    InterpMut (fun w i => lift (i_insert_iri I (fst w) i) (snd w))
              (fun w l => lift (i_insert_literal I (fst w) l) (snd w)).
  (** 193-197 *)
  Definition wg_local_mut (L : interp_local_mut St R) : interp_local_mut with_st R :=
    InterpLocalMut (fun w b => lift (i_insert_blank_id L (fst w) b) (snd w)).
  (** 97-114, 199-216 *)
  Definition wg_rev (I : interp_rev St R) : interp_rev with_st R :=
    InterpRev (fun w r => i_iris_of I (fst w) r) (fun w r => i_literals_of I (fst w) r).
  (** 218-227 *)
  Definition wg_rev_local (L : interp_rev_local St R) : interp_rev_local with_st R :=
    InterpRevLocal (fun w r => i_blank_ids_of L (fst w) r).

  (** 116-121 [WithGenerator::new_resource]: the generator's [next_term], then
      [insert_term] ([From<Term> for CowTerm]). *)
  Definition wg_new_resource (I : interp_mut St R) (next : G -> option (term * G)) (w : with_st)
    : option (R * with_st) :=
    bind (next (snd w)) (fun '(t, g) =>
      Some (lift (i_insert_term I (fst w) (term_cow_from t)) g)).
  (** 229-236 [WithLocalGenerator::new_resource] *)
  Definition wlg_new_resource (I : interp_mut St R) (L : interp_local_mut St R)
      (next : G -> option (local_term * G)) (w : with_st) : option (R * with_st) :=
    bind (next (snd w)) (fun '(t, g) =>
      Some (lift (i_insert_local_term I L (fst w) (local_cow_from t)) g)).
End With.

(** interpretation/fallible.rs 37-41: [try_new_resource] is [Ok] of
    [new_resource]; 22-31 with utils.rs 5-13: [try_resources] yields [Ok] of what
    [resources] yields.  The left injection is [Ok]. *)
Definition try_new_resource {R St E : Type} (r : option (R * St)) : option ((R + E) * St) :=
  bind r (fun '(x, st) => Some (inl x, st)).
Definition try_resources {R E : Type} (l : list R) : list (R + E) := map inl l.

(** ** Histories
    Any sequence of insertions and of calls of [new_resource]; [label] is the
    term the generator is about to produce.  The result pairs each term with the
    resource that was returned for it. *)
Inductive call (T : Type) := Insert (t : T) | New.
Arguments Insert {T} _.
Arguments New {T}.
Section Calls.
  Context {W R T : Type} (insert : W -> T -> R * W) (new : W -> option (R * W)) (label : W -> option T).
  Fixpoint run_calls (w : W) (calls : list (call T)) : option (list (T * R) * W) :=
    match calls with
    | [] => Some ([], w)
    | Insert t :: calls =>
        let (r, w) := insert w t in
        bind (run_calls w calls) (fun '(l, w) => Some ((t, r) :: l, w))
    | New :: calls =>
        bind (label w) (fun t =>
        bind (new w) (fun '(r, w) =>
        bind (run_calls w calls) (fun '(l, w) => Some ((t, r) :: l, w))))
    end.
End Calls.
Definition wg_run {St R G} (M : interp_mut St R) (next : G -> option (term * G)) :=
  run_calls (fun w t => i_insert_term (wg_mut M) w (term_into_cow t)) (wg_new_resource M next)
    (fun w => option_map fst (next (snd w))).
Definition wlg_run {St R G} (M : interp_mut St R) (L : interp_local_mut St R)
    (next : G -> option (local_term * G)) :=
  run_calls (fun w t => i_insert_local_term (wg_mut M) (wg_local_mut L) w (local_into_cow t))
    (wlg_new_resource M L next) (fun w => option_map fst (next (snd w))).
(** [n] calls of [LocalGeneratorInterpretation::new_resource]. *)
Fixpoint lgi_run {G} (next : G -> option (local_term * G)) (n : nat) (g : G)
  : option (list local_term * G) :=
  match n with
  | O => Some ([], g)
  | S n => bind (lgi_new_resource next g) (fun '(r, g) =>
           bind (lgi_run next n g) (fun '(l, g) => Some (r :: l, g)))
  end.
