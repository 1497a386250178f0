(** C88: loading quads of terms into a dataset of resources, and reading them back. *)
From Coq Require Import List NArith Ascii String.
Import ListNotations.
From Verif Require Import Base TextModel DisplayModel TermModel TripleModel InterpretationModel
  InterpretationSpec SetSpec ContainerSpec Machine BTreeDatasetModel IsoSpec LoadModel TermProofs
  InterpretationProofs LoadProofs.

(** C88: with an interpretation whose insertions are faithful, loading any quads
    into any dataset never panics and adds what they denote; what terms denoted
    before, they still do.  If different terms denote different resources, no two
    quads become one. *)
Theorem c88_loaded : forall {St R} {I : interp St R} {L : interp_local St R}
    {M : interp_mut St R} {LM : interp_local_mut St R} {cmp : R -> R -> comparison}, ord_laws cmp ->
  let den st t := i_local_term I L st (local_as_ref t) in
  forall keep ops xs d0 l0,
  faithful den (fun st t => i_insert_local_term M LM st (local_into_cow t)) ->
  run (bd_step cmp keep) bd_new ops = Some (xs, d0) -> bd_iter d0 = Some l0 ->
  forall l st, exists d st' l', load M LM cmp keep l st d0 = Some (d, st') /\ bd_iter d = Some l' /\
    (forall t r, den st t = Some r -> den st' t = Some r) /\
    (forall q, In q l -> exists q', qmap (den st') q = qmap Some q') /\
    (forall q', In q' l' <-> In q' l0 \/ exists q, In q l /\ qmap (den st') q = qmap Some q') /\
    (separate den st' -> NoDup l -> l0 = [] -> List.length l' = List.length l).
Proof. exact @loaded. Qed.
Print Assumptions c88_loaded.

(** C88: reading back what was loaded into an empty dataset, if the terms of a
    resource are those that denote it: the quads read denote what the quads loaded
    denote; if different terms denote different resources, they are the quads
    loaded. *)
Theorem c88_round_trip : forall {St R} {I : interp St R} {L : interp_local St R}
    {M : interp_mut St R} {LM : interp_local_mut St R} {V : interp_rev St R} {LV : interp_rev_local St R}
    {cmp : R -> R -> comparison}, ord_laws cmp ->
  forall {tcmp : local_term -> local_term -> comparison}, ord_laws tcmp ->
  let den st t := i_local_term I L st (local_as_ref t) in
  forall keep,
  faithful den (fun st t => i_insert_local_term M LM st (local_into_cow t)) ->
  forall l st, exists d st', load M LM cmp keep l st bd_new = Some (d, st') /\
  ((forall r t, In t (map local_cow_value
        (map CNamed (map CIri (i_iris_of V st' r) ++ map CLit (i_literals_of V st' r)) ++
         map CAnonymous (i_blank_ids_of LV st' r))) <-> den st' t = Some r) ->
   exists d' l', export V LV st' tcmp keep d = Some d' /\ bd_iter d' = Some l' /\
     (forall q, In q l -> exists q', In q' l' /\ qmap (den st') q' = qmap (den st') q) /\
     (forall q', In q' l' -> exists q, In q l /\ qmap (den st') q' = qmap (den st') q) /\
     (separate den st' -> forall q, In q l' <-> In q l)).
Proof. exact @round_trip. Qed.
Print Assumptions c88_round_trip.

(** C88: reading any dataset succeeds exactly if each of its resources has a term;
    the quads read are names of the quads of the dataset, and each has one. *)
Theorem c88_exported : forall {St R} {I : interp St R} {L : interp_local St R}
    {V : interp_rev St R} {LV : interp_rev_local St R}
    {cmp : R -> R -> comparison} {tcmp : local_term -> local_term -> comparison}, ord_laws tcmp ->
  let den st t := i_local_term I L st (local_as_ref t) in
  forall keep ops xs d l st,
  run (bd_step cmp keep) bd_new ops = Some (xs, d) -> bd_iter d = Some l ->
  (forall r t, In t (map local_cow_value
        (map CNamed (map CIri (i_iris_of V st r) ++ map CLit (i_literals_of V st r)) ++
         map CAnonymous (i_blank_ids_of LV st r))) <-> den st t = Some r) ->
  (export V LV st tcmp keep d <> None <->
   forall q r, In q l -> In r (quad_comps q) -> exists t, den st t = Some r) /\
  forall d', export V LV st tcmp keep d = Some d' -> exists l', bd_iter d' = Some l' /\
    (forall q, In q l' -> exists q', In q' l /\ qmap (den st) q = qmap Some q') /\
    (forall q', In q' l -> exists q, In q l' /\ qmap (den st) q = qmap Some q').
Proof. exact @exported. Qed.
Print Assumptions c88_exported.

(** The numbering of terms (C48) meets the hypotheses. *)
Definition e_iri (s : string) := Named (TIri (chars s)).
Definition e_quads : list (quad local_term) :=
  [Quad (Anonymous (chars "_:x")) (e_iri "ex:knows") (e_iri "ex:ann") None;
   Quad (e_iri "ex:ann") (e_iri "ex:knows") (Anonymous (chars "_:x")) (Some (e_iri "ex:g"));
   Quad (Anonymous (chars "_:x")) (e_iri "ex:knows") (e_iri "ex:ann") None].
Example c88_met :
  faithful (fun st t => i_local_term num_interp num_local st (local_as_ref t))
    (fun st t => i_insert_local_term num_mut num_local_mut st (local_into_cow t)) /\
  (forall st, separate (fun st t => i_local_term num_interp num_local st (local_as_ref t)) st) /\
  (forall st r t, In t (map local_cow_value
     (map CNamed (map CIri (i_iris_of num_rev st r) ++ map CLit (i_literals_of num_rev st r)) ++
      map CAnonymous (i_blank_ids_of num_rev_local st r))) <->
    i_local_term num_interp num_local st (local_as_ref t) = Some r) /\
  exists d st, load num_mut num_local_mut Nat.compare true e_quads [] bd_new = Some (d, st) /\
    bd_iter d = Some [Quad 0 1 2 None; Quad 2 1 0 (Some 3)] /\
    option_map bd_iter (export num_rev num_rev_local st (local_cmp str_cmp str_cmp) true d) =
      Some (Some [nth 0 e_quads (Quad (e_iri "") (e_iri "") (e_iri "") None);
                  nth 1 e_quads (Quad (e_iri "") (e_iri "") (e_iri "") None)]).
Proof.
  split; [exact num_faithful|]. split; [exact num_separate|]. split; [exact num_back|].
  do 2 eexists. split; [vm_compute; reflexivity|]. split; vm_compute; reflexivity.
Qed.
