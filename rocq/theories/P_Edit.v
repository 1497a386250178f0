(** C98: editing a dataset by way of a copy without blank nodes.

    [md5] and [sha1] are the hash functions of the crate [uuid], [random] the random
    bytes of each call of the generator [g]. *)
From Coq Require Import List Arith NArith Ascii String.
Import ListNotations.
From Verif Require Import Base TextModel DisplayModel TermModel TripleModel UuidModel UuidSpec SetSpec ContainerSpec
  Machine BTreeDatasetModel IsoSpec SkolemModel PatchModel EditModel EditProofs.
Open Scope list_scope.
Open Scope nat_scope.

(** C98: if the IRIs are different and none is in the dataset or the edit, the edit
    of the copy makes as many changes as that of the dataset, and the restored copy
    has the quads of the edited dataset: those that were not removed, and those
    added. *)
Theorem c98_edited : forall iri_eqb tag_eqb iri_cmp tag_cmp, ord_laws iri_cmp -> ord_laws tag_cmp ->
  (forall x y, iri_eqb x y = true <-> x = y) -> (forall x y, tag_eqb x y = true <-> x = y) ->
  forall md5 sha1, (forall b, is_uuid (md5 b)) -> (forall b, is_uuid (firstn 16 (sha1 b))) ->
  forall g random, (forall n, is_uuid (random n)) ->
  forall keep ops xs d l copy names removed added,
  let cmp := local_cmp iri_cmp tag_cmp in
  run (bd_step cmp keep) bd_new ops = Some (xs, d) -> bd_iter d = Some l ->
  skolemise md5 sha1 g random cmp keep d = Some (copy, names) ->
  NoDup (map snd names) ->
  (forall i q, In i (map snd names) -> In q (l ++ removed ++ added) -> ~ In (Named i) (quad_comps q)) ->
  exists n e e',
    patch (bd_insert cmp keep) (bd_remove cmp) d removed added = Some (n, e) /\
    edit md5 sha1 g random cmp keep iri_eqb tag_eqb d removed added = Some (n, e') /\ bd_iter e' = bd_iter e /\
    exists l', bd_iter e' = Some l' /\ forall q, In q l' <-> In q l /\ ~ In q removed \/ In q added.
Proof. exact (fun _ _ _ _ LI LT EI ET _ _ M S g _ R keep => edited LI LT EI ET M S R (g := g) (keep := keep)). Qed.
Print Assumptions c98_edited.

(** Two people who know each other, one of them also the name of a graph. *)
Definition e_knows := Named (TIri (chars "ex:knows")).
Definition e_blank (s : string) := Anonymous (chars s).
Definition e_xy : quad local_term := Quad (e_blank "_:x") e_knows (e_blank "_:y") (Some (e_blank "_:x")).
Definition e_yx : quad local_term := Quad (e_blank "_:y") e_knows (e_blank "_:x") None.
Definition e_xz : quad local_term := Quad (e_blank "_:x") e_knows (e_blank "_:z") None.
Definition e_cmp := local_cmp str_cmp str_cmp.
Definition e_hash (b : bytes) : bytes := repeat 7%N 16.
Definition e_random (n : nat) : bytes := repeat (N.of_nat n mod 256)%N 16.
(** The IRI given to the first blank node. *)
Definition e_first := Named (TIri (chars "urn:uuid:00000000-0000-4000-8000-000000000000")).

(** C98: an edit that has one of the new IRIs does something else: the IRI comes back
    as the blank node. *)
Theorem c98_new_iri : exists ops xs d l copy names q n m e e',
  run (bd_step e_cmp true) bd_new ops = Some (xs, d) /\ bd_iter d = Some l /\
  skolemise e_hash e_hash V4 e_random e_cmp true d = Some (copy, names) /\ NoDup (map snd names) /\
  (forall i p, In i (map snd names) -> In p l -> ~ In (Named i) (quad_comps p)) /\
  patch (bd_insert e_cmp true) (bd_remove e_cmp) d [] [q] = Some (n, e) /\
  edit e_hash e_hash V4 e_random e_cmp true str_eqb str_eqb d [] [q] = Some (m, e') /\
  n = 1 /\ m = 0 /\ bd_iter e' = bd_iter d /\ bd_iter e <> bd_iter d.
Proof.
  exists [Insert (Quad (e_blank "_:x") e_knows e_knows None)].
  do 5 eexists. exists (Quad e_first e_knows e_knows None). do 4 eexists.
  do 3 (split; [vm_compute; reflexivity|]).
  split; [repeat (constructor; [cbn; intuition discriminate|]); constructor|].
  split; [|repeat (split; [vm_compute; reflexivity|]); vm_compute; discriminate].
  intros i q Hi Hq Hn. cbn in Hi, Hq. destruct Hi as [<-|[]], Hq as [<-|[]]; cbn in Hn; intuition discriminate.
Qed.
Print Assumptions c98_new_iri.

Example c98_bytes_ex : (forall b, is_uuid (e_hash b)) /\ (forall b, is_uuid (firstn 16 (e_hash b))) /\
  forall n, is_uuid (e_random n).
Proof.
  split; [|split]; intros; (split; [reflexivity|]); repeat (constructor; [easy || now apply N.mod_lt|]); constructor.
Qed.

(** One quad is removed, and one added with a blank node that the dataset does not
    have; the removal of a quad that is not there changes nothing. *)
Example c98_edited_ex : exists xs d l copy names e e',
  run (bd_step e_cmp true) bd_new [Insert e_yx; Insert e_xy] = Some (xs, d) /\ bd_iter d = Some l /\
  skolemise e_hash e_hash V4 e_random e_cmp true d = Some (copy, names) /\ NoDup (map snd names) /\
  (forall i q, In i (map snd names) -> In q (l ++ [e_xy; e_xz] ++ [e_xz]) -> ~ In (Named i) (quad_comps q)) /\
  patch (bd_insert e_cmp true) (bd_remove e_cmp) d [e_xy; e_xz] [e_xz] = Some (2, e) /\
  edit e_hash e_hash V4 e_random e_cmp true str_eqb str_eqb d [e_xy; e_xz] [e_xz] = Some (2, e') /\
  bd_iter e' = Some [e_xz; e_yx] /\ bd_iter e = Some [e_xz; e_yx].
Proof.
  do 7 eexists. do 3 (split; [vm_compute; reflexivity|]).
  split; [repeat (constructor; [cbn; intuition discriminate|]); constructor|].
  split; [|repeat (split; [vm_compute; reflexivity|]); vm_compute; reflexivity].
  intros i q Hi Hq Hn. cbn in Hi, Hq.
  destruct Hi as [<-|[<-|[]]], Hq as [<-|[<-|[<-|[<-|[<-|[]]]]]]; cbn in Hn; intuition discriminate.
Qed.
