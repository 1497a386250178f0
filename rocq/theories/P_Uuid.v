(** Property C68: UUID generators.

    [md5] and [sha1] are the hash functions of the crate [uuid]; only the number of
    bytes of their results is assumed.  [rs] are the random bytes that successive
    calls draw. *)
From Coq Require Import List Arith NArith Bool String Lia.
Import ListNotations.
From Verif Require Import Base TextModel DisplayModel NTriplesSpec UuidModel UuidSpec UuidProofs.
Open Scope N_scope.

(** Every call returns an IRI, the URN of a UUID of the version of the generator, all
    other bits of which are those of the hash or the random ones.  Missing for the full
    property: the IRI need not be new. *)
Theorem c68_valid_partial : forall md5 sha1,
  (forall b, is_uuid (md5 b)) -> (forall b, is_uuid (firstn 16 (sha1 b))) ->
  forall g r, is_uuid r ->
    exists t u, uuid_next_term md5 sha1 g r = Some (TIri t) /\ read_urn t = Some u /\ is_uuid u /\
      version u = match g with V3 _ _ => 3 | V4 => 4 | V5 _ _ => 5 end /\ variant u = 2 /\
      free_bits u = free_bits (match g with
                               | V3 ns name => md5 (ns ++ name)
                               | V4 => r
                               | V5 ns name => firstn 16 (sha1 (ns ++ name))
                               end) /\
      List.length t = 45%nat /\ Forall (fun c => iri_char c = true) t.
Proof. exact next_term_ok. Qed.
Print Assumptions c68_valid_partial.

(** The IRIs of a random generator are different if and only if the random bits that
    it uses are. *)
Theorem c68_random_fresh_partial : forall md5 sha1,
  (forall b, is_uuid (md5 b)) -> (forall b, is_uuid (firstn 16 (sha1 b))) ->
  forall rs, Forall is_uuid rs ->
    exists ts, uuid_terms md5 sha1 V4 rs = Some ts /\ (NoDup ts <-> NoDup (map free_bits rs)).
Proof. exact random_fresh. Qed.
Print Assumptions c68_random_fresh_partial.

(** The other generators return the same IRI at every call, whatever it is. *)
Theorem c68_named_refuted : forall md5 sha1,
  (forall b, is_uuid (md5 b)) -> (forall b, is_uuid (firstn 16 (sha1 b))) ->
  forall g rs, g <> V4 -> Forall is_uuid rs ->
    exists t, uuid_terms md5 sha1 g rs = Some (repeat t (List.length rs)).
Proof. exact named_same. Qed.
Print Assumptions c68_named_refuted.

Theorem c68_fresh_refuted : forall md5 sha1,
  (forall b, is_uuid (md5 b)) -> (forall b, is_uuid (firstn 16 (sha1 b))) ->
  exists g rs ts, Forall is_uuid rs /\ uuid_terms md5 sha1 g rs = Some ts /\ ~ NoDup ts.
Proof. exact not_fresh. Qed.
Print Assumptions c68_fresh_refuted.

(** Two generators of one version and of names whose hashes differ in the bits that are
    used return different IRIs, and conversely. *)
Theorem c68_names_partial : forall md5 sha1,
  (forall b, is_uuid (md5 b)) -> (forall b, is_uuid (firstn 16 (sha1 b))) ->
  forall ns name ns' name' r r', is_uuid r -> is_uuid r' ->
    (uuid_next_term md5 sha1 (V3 ns name) r = uuid_next_term md5 sha1 (V3 ns' name') r' <->
     free_bits (md5 (ns ++ name)) = free_bits (md5 (ns' ++ name'))) /\
    (uuid_next_term md5 sha1 (V5 ns name) r = uuid_next_term md5 sha1 (V5 ns' name') r' <->
     free_bits (firstn 16 (sha1 (ns ++ name))) = free_bits (firstn 16 (sha1 (ns' ++ name')))).
Proof. exact names_differ. Qed.
Print Assumptions c68_names_partial.

(** The test of uuid.rs 101-112, with the bytes of its namespace as a hash; and
    functions that satisfy the hypotheses. *)
Example c68_ex :
  let b := [0x93; 0x6d; 0xa0; 0x1f; 0x9a; 0xbd; 0x4d; 0x9d; 0x80; 0xc7; 0x02; 0xaf; 0x85; 0xc8; 0x22; 0xa8] in
  (forall x : bytes, is_uuid ((fun _ => b) x)) /\ (forall x : bytes, is_uuid (firstn 16 ((fun _ => b) x))) /\
  uuid_next_term (fun _ => b) (fun _ => b) (V3 b (chars "test")) [] =
    Some (TIri (chars "urn:uuid:936da01f-9abd-3d9d-80c7-02af85c822a8")) /\
  uuid_next_term (fun _ => b) (fun _ => b) V4 b =
    Some (TIri (chars "urn:uuid:936da01f-9abd-4d9d-80c7-02af85c822a8")).
Proof.
  intros b.
  assert (H : is_uuid b) by (split; [reflexivity|repeat constructor]).
  repeat split; try reflexivity; exact (proj2 H).
Qed.
