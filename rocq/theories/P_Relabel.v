(** C87: giving new names to the blank nodes of a dataset with a generator. *)
From Coq Require Import List NArith Ascii String.
Import ListNotations.
From Verif Require Import Base TextModel DisplayModel TermModel TripleModel BlankIdModel SetSpec
  Machine BTreeDatasetModel IsoModel IsoSpec RelabelModel RelabelSpec TermProofs RelabelProofs.

(** C87: the program returns a dataset isomorphic to the given one, recognised as
    such, of the same size, whose blank nodes are the identifiers that the
    generator gives, one for each blank node and in the order in which iteration
    meets them. *)
Theorem c87_relabelled : forall iri_eqb tag_eqb iri_cmp tag_cmp,
  ord_laws iri_cmp -> ord_laws tag_cmp ->
  (forall x y, iri_eqb x y = true <-> x = y) -> (forall x y, tag_eqb x y = true <-> x = y) ->
  forall max checked keep ops xs d l p offset d' g' names,
  let cmp := local_cmp iri_cmp tag_cmp in
  run (bd_step cmp keep) bd_new ops = Some (xs, d) -> bd_iter d = Some l ->
  (offset <= max)%N -> checked = true \/ (N.of_nat (List.length (met l)) <= max + 1)%N ->
  relabel max checked cmp keep d (gen_full p offset) = Some (d', g', names) ->
  exists l' ids h,
    bd_iter d' = Some l' /\ isomorphism local_is_anonymous l l' h /\
    are_isomorphic iri_eqb tag_eqb iri_cmp tag_cmp l l' = Some true /\ List.length l' = List.length l /\
    generate max checked (List.length (met l)) (gen_full p offset) = Some (ids, g') /\
    names = combine (met l) ids /\
    (forall n b i, nth_error (met l) n = Some b -> nth_error ids n = Some i ->
       h (Anonymous b) = Anonymous i) /\
    (forall x, blank_of local_is_anonymous l' x <-> exists i, In i ids /\ x = Anonymous i).
Proof. exact @relabelled. Qed.
Print Assumptions c87_relabelled.

(** [met] lists the blank nodes of the dataset, each once. *)
Theorem c87_met : forall l,
  NoDup (met l) /\ forall b, In b (met l) <-> blank_of local_is_anonymous l (Anonymous b).
Proof. exact (fun l => conj (firsts_nodup _) (met_in l)). Qed.
Print Assumptions c87_met.

(** C87: it panics only if overflows are checked and the generator has fewer
    identifiers left than the dataset has blank nodes. *)
Theorem c87_returns : forall iri_cmp tag_cmp, ord_laws iri_cmp -> ord_laws tag_cmp ->
  forall max checked keep ops xs d l p offset,
  let cmp := local_cmp iri_cmp tag_cmp in
  run (bd_step cmp keep) bd_new ops = Some (xs, d) -> bd_iter d = Some l -> (offset <= max)%N ->
  (relabel max checked cmp keep d (gen_full p offset) <> None <->
   checked = false \/ (N.of_nat (List.length (met l)) <= max - offset)%N).
Proof. exact (fun _ _ LI LT => relabel_capacity LI LT str_eqb_spec str_eqb_spec). Qed.
Print Assumptions c87_returns.

(** C87: two datasets given new names by the same generator, one after the other,
    have no blank node in common, and the second can be added to the first. *)
Theorem c87_merge : forall iri_cmp tag_cmp, ord_laws iri_cmp -> ord_laws tag_cmp ->
  forall max checked keep ops1 xs1 d1 l1 ops2 xs2 d2 l2 p offset d1' g1 names1 d2' g2 names2,
  let cmp := local_cmp iri_cmp tag_cmp in
  run (bd_step cmp keep) bd_new ops1 = Some (xs1, d1) -> bd_iter d1 = Some l1 ->
  run (bd_step cmp keep) bd_new ops2 = Some (xs2, d2) -> bd_iter d2 = Some l2 ->
  (offset <= max)%N ->
  checked = true \/ (N.of_nat (List.length (met l1) + List.length (met l2)) <= max + 1)%N ->
  relabel max checked cmp keep d1 (gen_full p offset) = Some (d1', g1, names1) ->
  relabel max checked cmp keep d2 g1 = Some (d2', g2, names2) ->
  exists l1' l2' h1 h2 d l,
    bd_iter d1' = Some l1' /\ isomorphism local_is_anonymous l1 l1' h1 /\
    bd_iter d2' = Some l2' /\ isomorphism local_is_anonymous l2 l2' h2 /\
    (forall x, blank_of local_is_anonymous l1' x -> blank_of local_is_anonymous l2' x -> False) /\
    bd_extend cmp keep d1' l2' = Some d /\ bd_iter d = Some l /\
    (forall q, In q l <-> In q l1' \/ In q l2').
Proof. exact (fun _ _ LI LT => relabel_merge LI LT str_eqb_spec str_eqb_spec). Qed.
Print Assumptions c87_merge.

(** C87: the result depends on the quads of the dataset only, not on how it was
    built. *)
Theorem c87_content : forall iri_cmp tag_cmp, ord_laws iri_cmp -> ord_laws tag_cmp ->
  forall max checked keep ops xs d ops' xs' d' g,
  let cmp := local_cmp iri_cmp tag_cmp in
  run (bd_step cmp keep) bd_new ops = Some (xs, d) ->
  run (bd_step cmp keep) bd_new ops' = Some (xs', d') ->
  (forall q, In q (spec_set (quad_cmp cmp) ops) <-> In q (spec_set (quad_cmp cmp) ops')) ->
  relabel max checked cmp keep d g = relabel max checked cmp keep d' g.
Proof. exact (fun _ _ LI LT => relabel_content LI LT str_eqb_spec str_eqb_spec). Qed.
Print Assumptions c87_content.

(** Two people of one dataset, and someone else of another, with the same names of
    blank nodes. *)
Definition e_knows := Named (TIri (chars "ex:knows")).
Definition e_blank (s : string) := Anonymous (chars s).
Definition e_ops1 : list (op (quad local_term)) := [Insert (Quad (e_blank "_:x") e_knows (e_blank "_:y") None);
                      Insert (Quad (e_blank "_:y") e_knows (e_blank "_:y") (Some (e_blank "_:x")))].
Definition e_ops2 : list (op (quad local_term)) := [Insert (Quad (e_blank "_:x") e_knows (e_blank "_:y") None);
                      Insert (Quad e_knows e_knows e_knows None)].
Definition e_cmp := local_cmp str_cmp str_cmp.
Definition e_relabel (ops : list (op (quad local_term))) (g : generator) :=
  match run (bd_step e_cmp true) bd_new ops with
  | Some (_, d) => relabel (2 ^ 64 - 1) true e_cmp true d g
  | None => None
  end.
Definition e_content (o : option (@bdataset local_term)) :=
  match o with Some d => bd_iter d | None => None end.

Example c87_case :
  (exists d1 g1 d2 g2 n2,
    e_relabel e_ops1 (gen_full (chars "b") 7) =
      Some (d1, g1, [(chars "_:x", chars "_:b7"); (chars "_:y", chars "_:b8")]) /\
    e_relabel e_ops2 g1 = Some (d2, g2, n2) /\
    bd_iter d1 = Some [Quad (e_blank "_:b7") e_knows (e_blank "_:b8") None;
                       Quad (e_blank "_:b8") e_knows (e_blank "_:b8") (Some (e_blank "_:b7"))] /\
    bd_iter d2 = Some [Quad (e_blank "_:b9") e_knows (e_blank "_:b10") None;
                       Quad e_knows e_knows e_knows None]) /\
  (* added without new names, a quad of the second dataset disappears *)
  option_map (@List.length _) (e_content (option_map snd (run (bd_step e_cmp true) bd_new (e_ops1 ++ e_ops2)))) =
    Some 3%nat.
Proof.
  split; [|vm_compute; reflexivity]. do 5 eexists.
  split; [vm_compute; reflexivity|]. split; [vm_compute; reflexivity|]. split; vm_compute; reflexivity.
Qed.
