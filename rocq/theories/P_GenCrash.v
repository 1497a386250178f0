(** Property C84: making new resources when the generator or the interpretation panics, and the program
    catches the panic and goes on.

    [terms next g calls] are the terms the calls are about: those the program inserts, and those the
    generator returns, [Panicked] where it panics; [draw] is a generator called alone (GenCrashSpec.v).
    [p_wg_run] and [p_wlg_run] are histories of [WithGenerator] and [WithLocalGenerator]
    (GenCrashModel.v). *)
From Coq Require Import List NArith Bool Ascii String.
Import ListNotations.
From Verif Require Import Base TextModel DisplayModel TermModel BlankIdModel BlankIdSpec
  InterpretationModel InterpretationSpec InterpretationProofs GenCrashSpec GenCrashModel GenCrashProofs.

(** Whatever panics, the interpretation is asked to insert exactly these terms, in this order, each once;
    nothing is inserted where the generator panics.  The generator is called once for each new resource:
    what it returns does not depend on the insertions and their panics. *)
Theorem c84_with_generator :
  forall {St R G} (M : p_interp_mut St R) (next : G -> result term * G) calls w ts g ys st,
  terms next (snd w) calls = (ts, g) ->
  insert_each (fun st => give (p_insert_iri M st) (p_insert_literal M st)) (fst w) ts = (ys, st) ->
  p_wg_run M next w calls = (ys, (st, g)) /\
  draw next (news calls) (snd w) = (to_new calls ts, g).
Proof. exact @wg_crash. Qed.
Print Assumptions c84_with_generator.

Theorem c84_with_local_generator :
  forall {St R G} (M : p_interp_mut St R) (L : p_interp_local_mut St R)
    (next : G -> result local_term * G) calls w ts g ys st,
  terms next (snd w) calls = (ts, g) ->
  insert_each (fun st => give_local (p_insert_iri M st) (p_insert_literal M st) (p_insert_blank_id L st)) (fst w) ts = (ys, st) ->
  p_wlg_run M L next w calls = (ys, (st, g)) /\
  draw next (news calls) (snd w) = (to_new calls ts, g).
Proof. exact @wlg_crash. Qed.
Print Assumptions c84_with_local_generator.

(** Over an interpretation whose panics do not change what terms denote: each resource returned is what
    its term denotes at the end of the history, what terms denoted before they still do, and, if the
    interpretation keeps terms apart, a generator that never returns a term twice never gives the same
    new resource twice. *)
Theorem c84_means :
  forall {St R G} (M : p_interp_mut St R) (I : interp St R) (next : G -> result term * G),
  let look st t := i_term I st (term_as_ref t) in
  survives look (fun st => give (p_insert_iri M st) (p_insert_literal M st)) ->
  forall calls w ys w', p_wg_run M next w calls = (ys, w') ->
    (forall i r, nth_error ys i = Some (Returned r) -> exists t,
       nth_error (fst (terms next (snd w) calls)) i = Some (Returned t) /\
       i_term (wg_interp I) w' (term_as_ref t) = Some r) /\
    (forall t r, i_term (wg_interp I) w (term_as_ref t) = Some r ->
                 i_term (wg_interp I) w' (term_as_ref t) = Some r) /\
    (separate look (fst w') -> NoDup (returned (fst (draw next (news calls) (snd w)))) ->
       NoDup (returned (to_new calls ys))).
Proof. exact @wg_means. Qed.
Print Assumptions c84_means.

Theorem c84_local_means :
  forall {St R G} (M : p_interp_mut St R) (L : p_interp_local_mut St R) (I : interp St R)
    (IL : interp_local St R) (next : G -> result local_term * G),
  let look st t := i_local_term I IL st (local_as_ref t) in
  survives look (fun st => give_local (p_insert_iri M st) (p_insert_literal M st) (p_insert_blank_id L st)) ->
  forall calls w ys w', p_wlg_run M L next w calls = (ys, w') ->
    (forall i r, nth_error ys i = Some (Returned r) -> exists t,
       nth_error (fst (terms next (snd w) calls)) i = Some (Returned t) /\
       i_local_term (wg_interp I) (wg_local IL) w' (local_as_ref t) = Some r) /\
    (forall t r, i_local_term (wg_interp I) (wg_local IL) w (local_as_ref t) = Some r ->
                 i_local_term (wg_interp I) (wg_local IL) w' (local_as_ref t) = Some r) /\
    (separate look (fst w') -> NoDup (returned (fst (draw next (news calls) (snd w)))) ->
       NoDup (returned (to_new calls ys))).
Proof. exact @wlg_means. Qed.
Print Assumptions c84_local_means.

(** The generator of blank node identifiers, with overflow checks, called any number of times: the
    identifiers are numbered from [o] to [max - 1]; after that each call panics. *)
Theorem c84_blank_checked : forall max n p o, (o <= max)%N ->
  let '(l, g) := draw (p_blank_next max true) n (gen_full p o) in
  List.length l = n /\
  (forall i, i < n -> (o + N.of_nat i < max)%N -> exists d,
     nth_error l i = Some (Returned (Anonymous ([0x5F; 0x3A] ++ p ++ d)%N)) /\ numeral d /\
     dec_value d = (o + N.of_nat i)%N) /\
  (forall i, i < n -> (max <= o + N.of_nat i)%N -> nth_error l i = Some Panicked).
Proof. exact blank_checked. Qed.
Print Assumptions c84_blank_checked.

(** It never returns an identifier twice, and neither, through [WithLocalGenerator], is a new resource
    made twice, whatever panics. *)
Theorem c84_blank_never_repeats : forall max checked n p o,
  (o <= max)%N -> checked = true \/ (N.of_nat n <= max + 1)%N ->
  NoDup (returned (fst (draw (p_blank_next max checked) n (gen_full p o)))).
Proof. exact blank_never_repeats. Qed.
Print Assumptions c84_blank_never_repeats.

Theorem c84_distinct :
  forall {St R} (M : p_interp_mut St R) (L : p_interp_local_mut St R) (I : interp St R)
    (IL : interp_local St R) max checked,
  let look st t := i_local_term I IL st (local_as_ref t) in
  survives look (fun st => give_local (p_insert_iri M st) (p_insert_literal M st) (p_insert_blank_id L st)) ->
  forall calls st p o ys w',
  p_wlg_run M L (p_blank_next max checked) (st, gen_full p o) calls = (ys, w') ->
  (o <= max)%N -> checked = true \/ (N.of_nat (List.length calls) <= max + 1)%N ->
  separate look (fst w') -> NoDup (returned (to_new calls ys)).
Proof. exact @wlg_blank_distinct. Qed.
Print Assumptions c84_distinct.

(** [LocalGeneratorInterpretation]: a generator that calls the interpretation that holds it gets a panic
    from each such call, and nothing else happens; and whether the generator returns or panics, the
    interpretation can be used again: the history is that of the generator alone. *)
Theorem c84_cell : forall {G T} (b : G -> behaviour G T) depth n g,
  let '(l, g') := draw (fun g => alone (b g)) n g in
  cell_run b (S depth) n (cell_new g) = (l, cell_new g') /\
  cell_into_inner (snd (cell_run b (S depth) n (cell_new g))) = g'.
Proof. exact @cell_facts. Qed.
Print Assumptions c84_cell.

Theorem c84_cell_within : forall {G T} (b : G -> behaviour G T) depth c,
  c_borrowed c = true -> cell_new_resource b depth c = (Panicked, c).
Proof. exact @cell_borrowed. Qed.
Print Assumptions c84_cell_within.

(** The hypotheses are met: the interpretation [pn_mut] numbers the terms and panics on [_:1]. *)
Example c84_met :
  survives (fun st t => i_local_term num_interp num_local st (local_as_ref t))
           (fun st => give_local (p_insert_iri pn_mut st) (p_insert_literal pn_mut st) (p_insert_blank_id pn_local_mut st)) /\
  (forall st, separate (fun st t => i_local_term num_interp num_local st (local_as_ref t)) st).
Proof. exact (conj pn_survives num_separate). Qed.

(** The identifier [_:1] is lost when its insertion panics; at the third the generator panics. *)
Example c84_ex :
  p_wlg_run pn_mut pn_local_mut (p_blank_next 3 true) ([], gen_new)
    [New; New; Insert (Anonymous (chars "_:9")); New; New; Insert (Anonymous (chars "_:0"))] =
  ([Returned 0; Panicked; Returned 1; Returned 2; Panicked; Returned 0],
   ([Anonymous (chars "_:0"); Anonymous (chars "_:9"); Anonymous (chars "_:2")], Generator [] 3)).
Proof. vm_compute. reflexivity. Qed.

Example c84_cell_ex : cell_run nested 5 3 (cell_new 0) =
  ([Returned 1; Returned 2; Returned 3], cell_new 3).
Proof. reflexivity. Qed.
