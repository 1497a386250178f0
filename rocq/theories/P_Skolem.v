(** C96: replacing the blank nodes of a dataset by IRIs, and the way back.

    [md5] and [sha1] are the hash functions of the crate [uuid], [random] the random
    bytes of each call of the generator [g]. *)
From Coq Require Import List Arith NArith Ascii String.
Import ListNotations.
From Verif Require Import Base TextModel DisplayModel TermModel TripleModel UuidModel UuidSpec SetSpec ContainerSpec
  Machine BTreeDatasetModel IsoSpec RelabelSpec MeaningSpec SkolemModel TermProofs SkolemProofs.
Open Scope list_scope.
Open Scope nat_scope.

(** C96: the program always returns.  Each blank node is replaced by the IRI that
    the generator gave for it, at the place where iteration first meets it; nothing
    else changes, no blank node is left, and the result states at least what the
    dataset stated. *)
Theorem c96_skolemised : forall iri_cmp tag_cmp, ord_laws iri_cmp -> ord_laws tag_cmp ->
  forall md5 sha1, (forall b, is_uuid (md5 b)) -> (forall b, is_uuid (firstn 16 (sha1 b))) ->
  forall g random, (forall n, is_uuid (random n)) ->
  forall keep ops xs d l,
  let cmp := local_cmp iri_cmp tag_cmp in
  run (bd_step cmp keep) bd_new ops = Some (xs, d) -> bd_iter d = Some l ->
  exists d' names l' h,
    skolemise md5 sha1 g random cmp keep d = Some (d', names) /\ bd_iter d' = Some l' /\
    map fst names = met l /\
    (forall n b i, nth_error names n = Some (b, i) -> uuid_next_term md5 sha1 g (random n) = Some i) /\
    (forall b i, In (b, i) names -> h (Anonymous b) = Named i) /\ (forall t, h (Named t) = Named t) /\
    (forall q, In q l' <-> exists p, In p l /\ q = qmap h p) /\
    (forall x, ~ blank_of local_is_anonymous l' x) /\
    (forall W, true_in W l' -> true_in W l).
Proof. exact (fun _ _ LI LT _ _ M S g _ R keep => skolemised LI LT str_eqb_spec str_eqb_spec M S R (g := g) (keep := keep)). Qed.
Print Assumptions c96_skolemised.

(** C96: if the IRIs are different and none is in the dataset, no quad is lost, the
    dataset can be had back, and the result states nothing more than the dataset
    but what the new IRIs stand for. *)
Theorem c96_restored : forall iri_eqb tag_eqb iri_cmp tag_cmp, ord_laws iri_cmp -> ord_laws tag_cmp ->
  (forall x y, iri_eqb x y = true <-> x = y) -> (forall x y, tag_eqb x y = true <-> x = y) ->
  forall md5 sha1, (forall b, is_uuid (md5 b)) -> (forall b, is_uuid (firstn 16 (sha1 b))) ->
  forall g random, (forall n, is_uuid (random n)) ->
  forall keep ops xs d l d' names,
  let cmp := local_cmp iri_cmp tag_cmp in
  run (bd_step cmp keep) bd_new ops = Some (xs, d) -> bd_iter d = Some l ->
  skolemise md5 sha1 g random cmp keep d = Some (d', names) ->
  NoDup (map snd names) ->
  (forall i q, In i (map snd names) -> In q l -> ~ In (Named i) (quad_comps q)) ->
  exists l' d'', bd_iter d' = Some l' /\ List.length l' = List.length l /\
    restore cmp keep iri_eqb tag_eqb d' names = Some d'' /\ bd_iter d'' = Some l /\
    forall W, true_in W l -> exists den,
      (forall t, ~ In t (map snd names) -> den t = denotes W t) /\
      true_in (World (thing W) den (holds W)) l'.
Proof. exact (fun _ _ _ _ LI LT EI ET _ _ M S g _ R keep => skolem_restored LI LT EI ET M S R (g := g) (keep := keep)). Qed.
Print Assumptions c96_restored.

(** C96: the IRIs are those of successive calls, one for each blank node.  Those of a
    random generator are different if and only if the random bits used are; any
    other generator gives one IRI to all the blank nodes. *)
Theorem c96_names : forall iri_cmp tag_cmp, ord_laws iri_cmp -> ord_laws tag_cmp ->
  forall md5 sha1, (forall b, is_uuid (md5 b)) -> (forall b, is_uuid (firstn 16 (sha1 b))) ->
  forall g random, (forall n, is_uuid (random n)) ->
  forall keep ops xs d l d' names,
  let cmp := local_cmp iri_cmp tag_cmp in
  run (bd_step cmp keep) bd_new ops = Some (xs, d) -> bd_iter d = Some l ->
  skolemise md5 sha1 g random cmp keep d = Some (d', names) ->
  uuid_terms md5 sha1 g (map random (seq 0 (List.length (met l)))) = Some (map snd names) /\
  (g = V4 -> (NoDup (map snd names) <-> NoDup (map free_bits (map random (seq 0 (List.length (met l))))))) /\
  (g <> V4 -> exists t, map snd names = repeat t (List.length (met l))).
Proof. exact (fun _ _ LI LT _ _ M S g _ R keep => skolem_names LI LT str_eqb_spec str_eqb_spec M S R (g := g) (keep := keep)). Qed.
Print Assumptions c96_names.

(** C96: with such a generator quads can be lost, and the result can state more
    than the dataset, whatever the new IRI stands for. *)
Theorem c96_one_iri : forall iri_cmp tag_cmp, ord_laws iri_cmp -> ord_laws tag_cmp ->
  forall md5 sha1, (forall b, is_uuid (md5 b)) -> (forall b, is_uuid (firstn 16 (sha1 b))) ->
  forall g random, (forall n, is_uuid (random n)) ->
  forall keep,
  let cmp := local_cmp iri_cmp tag_cmp in
  g <> V4 ->
  exists ops xs d l d' names l',
    run (bd_step cmp keep) bd_new ops = Some (xs, d) /\ bd_iter d = Some l /\
    skolemise md5 sha1 g random cmp keep d = Some (d', names) /\ bd_iter d' = Some l' /\
    List.length l' < List.length l /\
    exists W, true_in W l /\ forall den, (forall t, ~ In t (map snd names) -> den t = denotes W t) ->
      ~ true_in (World (thing W) den (holds W)) l'.
Proof. exact (fun _ _ LI LT _ _ M S g _ R keep => skolem_collapse LI LT str_eqb_spec str_eqb_spec M S R (g := g) (keep := keep)). Qed.
Print Assumptions c96_one_iri.

(** Two people who know each other, one of them also the name of a graph. *)
Definition k_knows := Named (TIri (chars "ex:knows")).
Definition k_blank (s : string) := Anonymous (chars s).
Definition k_ops : list (op (quad local_term)) :=
  [Insert (Quad (k_blank "_:y") k_knows (k_blank "_:x") None);
   Insert (Quad (k_blank "_:x") k_knows (k_blank "_:y") (Some (k_blank "_:x")))].
Definition k_cmp := local_cmp str_cmp str_cmp.
Definition k_hash (b : bytes) : bytes := repeat 7%N 16.
Definition k_random (n : nat) : bytes := repeat (N.of_nat n mod 256)%N 16.

Example c96_bytes_ex : (forall b, is_uuid (k_hash b)) /\ (forall b, is_uuid (firstn 16 (k_hash b))) /\
  forall n, is_uuid (k_random n).
Proof.
  split; [|split]; intros; (split; [reflexivity|]); repeat (constructor; [easy || now apply N.mod_lt|]); constructor.
Qed.

(** With random IRIs, there and back. *)
Example c96_random_ex : exists xs d l d' names l' d'' a b,
  run (bd_step k_cmp true) bd_new k_ops = Some (xs, d) /\ bd_iter d = Some l /\
  skolemise k_hash k_hash V4 k_random k_cmp true d = Some (d', names) /\ bd_iter d' = Some l' /\
  a = TIri (chars "urn:uuid:00000000-0000-4000-8000-000000000000") /\
  b = TIri (chars "urn:uuid:01010101-0101-4101-8101-010101010101") /\
  names = [(chars "_:x", a); (chars "_:y", b)] /\ NoDup (map snd names) /\
  l' = [Quad (Named a) k_knows (Named b) (Some (Named a)); Quad (Named b) k_knows (Named a) None] /\
  (forall i q, In i (map snd names) -> In q l -> ~ In (Named i) (quad_comps q)) /\
  restore k_cmp true str_eqb str_eqb d' names = Some d'' /\ bd_iter d'' = Some l /\ List.length l = 2.
Proof.
  do 9 eexists. repeat (split; [vm_compute; reflexivity|]).
  split; [repeat (constructor; [cbn; intuition discriminate|]); constructor|].
  split; [vm_compute; reflexivity|].
  split; [|repeat (split; [vm_compute; reflexivity|]); reflexivity].
  intros i q Hi Hq Hn. cbn in Hi, Hq.
  destruct Hi as [<-|[<-|[]]], Hq as [<-|[<-|[]]]; cbn in Hn; intuition discriminate.
Qed.

(** With the hash of a name, one IRI. *)
Example c96_named_ex : exists xs d d' names a,
  run (bd_step k_cmp true) bd_new k_ops = Some (xs, d) /\
  skolemise k_hash k_hash (V5 [1%N] [2%N]) k_random k_cmp true d = Some (d', names) /\
  names = [(chars "_:x", a); (chars "_:y", a)] /\
  bd_iter d' = Some [Quad (Named a) k_knows (Named a) None; Quad (Named a) k_knows (Named a) (Some (Named a))].
Proof. do 5 eexists. repeat (split; [vm_compute; reflexivity|]); vm_compute; reflexivity. Qed.
