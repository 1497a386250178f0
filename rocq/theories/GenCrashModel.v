(** New resources when the generator or the interpretation panics, and the program catches the panic and
    goes on.

    Simplifications: as in InterpretationModel.v, except that a method that panics leaves a state too. *)
From Coq Require Import List NArith Bool Ascii String.
Import ListNotations.
From Verif Require Import Base TextModel DisplayModel TermModel BlankIdModel InterpretationModel GenCrashSpec.

(** interpretation/mod.rs 60-71 [InterpretationMut] and 132-148 [LocalInterpretationMut], the required
    methods *)
Record p_interp_mut (St R : Type) := PInterpMut {
  p_insert_iri : St -> cow -> result R * St;
  p_insert_literal : St -> literal_cow -> result R * St
}.
Record p_interp_local_mut (St R : Type) := PInterpLocalMut {
  p_insert_blank_id : St -> cow -> result R * St
}.
Arguments PInterpMut {St R} _ _.
Arguments PInterpLocalMut {St R} _.
Arguments p_insert_iri {St R} _ _ _.
Arguments p_insert_literal {St R} _ _ _.
Arguments p_insert_blank_id {St R} _ _ _.

(** interpretation/mod.rs 65-70 [insert_term], 135-140 [insert_local_term] *)
Definition p_insert_term {St R} (M : p_interp_mut St R) (st : St) (t : term_cow) : result R * St :=
  match t with CIri i => p_insert_iri M st i | CLit l => p_insert_literal M st l end.
Definition p_insert_local_term {St R} (M : p_interp_mut St R) (L : p_interp_local_mut St R) (st : St)
    (t : local_cow) : result R * St :=
  match t with
  | CAnonymous b => p_insert_blank_id L st b
  | CNamed t => p_insert_term M st t
  end.

(** ** interpretation/impl/with_generator.rs *)
Section With.
  Context {St R G : Type}.

  Definition p_lift (f : result R * St) (g : G) : result R * (St * G) := (fst f, (snd f, g)).
  (** 87-95, 183-191 *)
  Definition p_wg_mut (M : p_interp_mut St R) : p_interp_mut (St * G) R :=
    PInterpMut (fun w i => p_lift (p_insert_iri M (fst w) i) (snd w))
               (fun w l => p_lift (p_insert_literal M (fst w) l) (snd w)).
  (** 193-197 *)
  Definition p_wg_local_mut (L : p_interp_local_mut St R) : p_interp_local_mut (St * G) R :=
    PInterpLocalMut (fun w b => p_lift (p_insert_blank_id L (fst w) b) (snd w)).

  (** 116-121 [WithGenerator::new_resource] *)
  Definition p_wg_new_resource (M : p_interp_mut St R) (next : G -> result term * G) (w : St * G)
    : result R * (St * G) :=
    let '(t, g) := next (snd w) in
    match t with
    | Returned t => p_lift (p_insert_term M (fst w) (term_cow_from t)) g
    | Panicked => (Panicked, (fst w, g))
    end.
  (** 229-236 [WithLocalGenerator::new_resource] *)
  Definition p_wlg_new_resource (M : p_interp_mut St R) (L : p_interp_local_mut St R)
      (next : G -> result local_term * G) (w : St * G) : result R * (St * G) :=
    let '(t, g) := next (snd w) in
    match t with
    | Returned t => p_lift (p_insert_local_term M L (fst w) (local_cow_from t)) g
    | Panicked => (Panicked, (fst w, g))
    end.
End With.

(** Any sequence of insertions and of calls of [new_resource], each of which may panic. *)
Fixpoint p_run_calls {W R T} (insert : W -> T -> result R * W) (new : W -> result R * W) (w : W)
    (calls : list (call T)) : list (result R) * W :=
  match calls with
  | [] => ([], w)
  | c :: calls =>
      let '(y, w) := match c with Insert t => insert w t | New => new w end in
      let '(ys, w) := p_run_calls insert new w calls in (y :: ys, w)
  end.
Definition p_wg_run {St R G} (M : p_interp_mut St R) (next : G -> result term * G) :=
  p_run_calls (fun w t => p_insert_term (p_wg_mut M) w (term_into_cow t)) (p_wg_new_resource M next).
Definition p_wlg_run {St R G} (M : p_interp_mut St R) (L : p_interp_local_mut St R)
    (next : G -> result local_term * G) :=
  p_run_calls (fun w t => p_insert_local_term (p_wg_mut M) (p_wg_local_mut L) w (local_into_cow t))
    (p_wlg_new_resource M L next).

(** ** term/generator/blank.rs *)

(** 61-65 [next_blank_id] and 68-72 [next_local_term]: the increment panics after the identifier is
    made, and leaves the counter as it is. *)
Definition p_blank_next (max : N) (checked : bool) (g : generator) : result local_term * generator :=
  let id := chars "_:" ++ g_prefix g ++ dec (g_count g) in
  if (g_count g <? max)%N then (Returned (Anonymous id), Generator (g_prefix g) (g_count g + 1))
  else if checked then (Panicked, g)
  else (Returned (Anonymous id), Generator (g_prefix g) 0).

(** ** term/generator/interpretation.rs: [LocalGeneratorInterpretation] *)

(** 15 [RefCell<G>]: the value, and whether it is borrowed. *)
Record cell (G : Type) := Cell { c_borrowed : bool; c_value : G }.
Arguments Cell {G} _ _.
Arguments c_borrowed {G} _.
Arguments c_value {G} _.

(** [RefCell::borrow_mut]: panics ([None]) if it is borrowed. *)
Definition borrow_mut {G} (c : cell G) : option (cell G) :=
  if c_borrowed c then None else Some (Cell true (c_value c)).
(** The guard is dropped, at the end of the method or when a panic unwinds. *)
Definition release {G} (c : cell G) : cell G := Cell false (c_value c).

Section Cell.
  Context {G T : Type} (b : G -> behaviour G T).

  (** The generator at work; [new] is the method it may call. *)
  Fixpoint work (new : cell G -> result T * cell G) (c : cell G) (p : behaviour G T)
    : result T * cell G :=
    match p with
    | Ends r g => (r, Cell (c_borrowed c) g)
    | Calls g k => let '(r, c) := new (Cell (c_borrowed c) g) in work new c (k r (c_value c))
    end.

  (** 85-90 [new_resource]; [depth] is how often it may be called within itself, beyond which a call is
      taken to panic (GenCrashProofs.v: it makes no difference). *)
  Fixpoint cell_new_resource (depth : nat) (c : cell G) : result T * cell G :=
    match depth with
    | 0 => (Panicked, c)
    | S depth =>
        match borrow_mut c with
        | None => (Panicked, c)
        | Some c =>
            let '(r, c) := work (cell_new_resource depth) c (b (c_value c)) in (r, release c)
        end
    end.

  (** [n] calls, one after the other. *)
  Fixpoint cell_run (depth n : nat) (c : cell G) : list (result T) * cell G :=
    match n with
    | 0 => ([], c)
    | S n =>
        let '(y, c) := cell_new_resource depth c in
        let '(ys, c) := cell_run depth n c in (y :: ys, c)
    end.
End Cell.

(** 18-20 [new], 22-24 [into_generator] *)
Definition cell_new {G} (g : G) : cell G := Cell false g.
Definition cell_into_inner {G} (c : cell G) : G := c_value c.
