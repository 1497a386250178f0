(** Editing a dataset by way of a copy without blank nodes. *)
From Coq Require Import List Arith NArith Bool Lia.
Import ListNotations.
From Verif Require Import Base TextModel DisplayModel TermModel TripleModel UuidModel UuidSpec
  SetSpec ContainerSpec Machine BaseProofs BTreeDatasetModel BTreeDatasetProofs
  TermProofs IsoSpec IsoTopProofs RelabelSpec RelabelProofs SkolemModel SkolemProofs PatchModel PatchProofs EditModel.
Open Scope list_scope.
Open Scope nat_scope.

Lemma publish_named m t : publish m t = named m t.
Proof. destruct t as [b|t]; cbn; [|reflexivity]. now destruct (iri_of b m). Qed.
Lemma publish_quads m l : map (quad_map (publish m)) l = map (qmap (named m)) l.
Proof.
  apply map_ext. intros [s p o [gr|]]; unfold quad_map, qmap; cbn; now rewrite !publish_named.
Qed.

Section Edit.
  Context {iri_eqb tag_eqb : text -> text -> bool} {iri_cmp tag_cmp : text -> text -> comparison}.
  Context (LI : ord_laws iri_cmp) (LT : ord_laws tag_cmp).
  Context (EI : forall x y, iri_eqb x y = true <-> x = y) (ET : forall x y, tag_eqb x y = true <-> x = y).
  Notation cmp := (local_cmp iri_cmp tag_cmp).
  Notation LO := (local_ord LI LT EI ET).
  Notation qcmp := (quad_cmp cmp).
  Let LQ : ord_laws qcmp := quad_cmp_laws cmp LO.
  Context {keep : bool}.
  Notation ins := (bd_insert cmp keep).
  Notation del := (bd_remove cmp).

  Section Names.
    Context (m : list (text * term)) (N : NoDup (map snd m)).
    Notation H := (qmap (named m)).
    Notation back := (qmap (restore_term iri_eqb tag_eqb m)).

    (** No new IRI. *)
    Definition old_quad (q : quad local_term) : Prop := forall i, In i (map snd m) -> ~ In (Named i) (quad_comps q).

    Lemma back_term q t : old_quad q -> In t (quad_comps q) -> restore_term iri_eqb tag_eqb m (named m t) = t.
    Proof.
      intros O Ht. destruct t as [b|t]; cbn.
      - destruct (iri_of b m) as [i|] eqn:E; [|reflexivity]. cbn.
        now rewrite (blank_for_known m N EI ET b i (iri_of_in _ _ _ E)).
      - destruct (blank_for iri_eqb tag_eqb t m) as [b|] eqn:E; [|reflexivity].
        exfalso. apply (blank_for_in EI ET), (in_map snd) in E. exact (O _ E Ht).
    Qed.
    Lemma back_quad q : old_quad q -> back (H q) = q.
    Proof.
      intros O. rewrite qmap_comp. transitivity (qmap (fun x => x) q); [|apply qmap_id].
      apply qmap_same. intros t Ht. now apply back_term with (q := q).
    Qed.
    Lemma image_inj p q : old_quad p -> old_quad q -> H p = H q -> p = q.
    Proof. intros A B E. rewrite <- (back_quad p A), <- (back_quad q B). now rewrite E. Qed.

    (** The copy has the images of the quads. *)
    Definition copied (s s' : list (quad local_term)) : Prop :=
      (forall q, In q s -> old_quad q) /\ forall p, In p s' <-> exists q, In q s /\ p = H q.

    Lemma copied_mem s s' q : copied s s' -> old_quad q -> mem qcmp (H q) s' = mem qcmp q s.
    Proof.
      intros [O I] Q. destruct (mem qcmp q s) eqn:E.
      - apply (mem_true LQ) in E. apply (mem_true LQ), I. eauto.
      - apply (mem_false LQ) in E. apply (mem_false LQ). rewrite I. intros (p & Hp & X). apply E.
        now rewrite (image_inj q p Q (O p Hp) X).
    Qed.
    Lemma copied_add s s' q : copied s s' -> old_quad q -> copied (add qcmp q s) (add qcmp (H q) s').
    Proof.
      intros [O I] Q. split.
      - intros p Hp. apply (in_add LQ) in Hp as [->|Hp]; auto.
      - intros p. rewrite (in_add LQ), I. split.
        + intros [->|(r & Hr & ->)]; [exists q|exists r]; (split; [apply (in_add LQ); tauto|reflexivity]).
        + intros (r & Hr & ->). apply (in_add LQ) in Hr as [->|Hr]; [now left|right; eauto].
    Qed.
    Lemma copied_del s s' q : copied s s' -> old_quad q -> copied (SetSpec.del qcmp q s) (SetSpec.del qcmp (H q) s').
    Proof.
      intros [O I] Q. split.
      - intros p Hp. apply (in_del LQ) in Hp as [_ Hp]; auto.
      - intros p. rewrite (in_del LQ), I. split.
        + intros [X (r & Hr & ->)]. exists r. split; [|reflexivity]. apply (in_del LQ). split; [congruence|exact Hr].
        + intros (r & Hr & ->). apply (in_del LQ) in Hr as [X Hr]. split; [|eauto].
          intros E. apply X. exact (image_inj r q (O r Hr) Q E).
    Qed.

    Lemma each_insert_copied l : forall n d s d' s', Forall old_quad l ->
      bd_rep (cmp:=cmp) d s -> bd_rep (cmp:=cmp) d' s' -> copied s s' ->
      exists k e t e' t', each ins l n d = Some (k, e) /\ each ins (map H l) n d' = Some (k, e') /\
        bd_rep (cmp:=cmp) e t /\ bd_rep (cmp:=cmp) e' t' /\ copied t t'.
    Proof.
      induction l as [|q l IH]; intros n d s d' s' F R R' C; cbn [each map].
      - exists n, d, s, d', s'. auto.
      - inversion F as [|? ? Q F']; subst.
        destruct (bd_insert_rep LO keep _ _ q R) as (d1 & -> & R1).
        destruct (bd_insert_rep LO keep _ _ (H q) R') as (d1' & -> & R1').
        rewrite (copied_mem s s' q C Q). eapply IH; [exact F'|exact R1|exact R1'|now apply copied_add].
    Qed.
    Lemma each_remove_copied l : forall n d s d' s', Forall old_quad l ->
      bd_rep (cmp:=cmp) d s -> bd_rep (cmp:=cmp) d' s' -> copied s s' ->
      exists k e t e' t', each del l n d = Some (k, e) /\ each del (map H l) n d' = Some (k, e') /\
        bd_rep (cmp:=cmp) e t /\ bd_rep (cmp:=cmp) e' t' /\ copied t t'.
    Proof.
      induction l as [|q l IH]; intros n d s d' s' F R R' C; cbn [each map].
      - exists n, d, s, d', s'. auto.
      - inversion F as [|? ? Q F']; subst.
        destruct (bd_remove_rep LO _ _ q R) as (d1 & -> & R1).
        destruct (bd_remove_rep LO _ _ (H q) R') as (d1' & -> & R1').
        rewrite (copied_mem s s' q C Q). eapply IH; [exact F'|exact R1|exact R1'|now apply copied_del].
    Qed.
    Lemma patch_copied r u d s d' s' : Forall old_quad r -> Forall old_quad u ->
      bd_rep (cmp:=cmp) d s -> bd_rep (cmp:=cmp) d' s' -> copied s s' ->
      exists k e t e' t', patch ins del d r u = Some (k, e) /\ patch ins del d' (map H r) (map H u) = Some (k, e') /\
        bd_rep (cmp:=cmp) e t /\ bd_rep (cmp:=cmp) e' t' /\ copied t t'.
    Proof.
      intros Fr Fu R R' C. unfold patch.
      destruct (each_remove_copied r 0 _ _ _ _ Fr R R' C) as (k & e & t & e' & t' & -> & -> & R1 & R1' & C1).
      exact (each_insert_copied u k _ _ _ _ Fu R1 R1' C1).
    Qed.

    Lemma restore_copied d s d' s' : bd_rep (cmp:=cmp) d s -> bd_rep (cmp:=cmp) d' s' -> copied s s' ->
      exists e, restore cmp keep iri_eqb tag_eqb d' m = Some e /\ bd_iter e = bd_iter d.
    Proof.
      intros R R' [O I].
      destruct (restore_into_rep LO keep (iri_eqb:=iri_eqb) (tag_eqb:=tag_eqb) m (sorted_elements qcmp s')
                  bd_new [] (bd_rep_new (cmp:=cmp))) as (e & X & Re).
      exists e. unfold restore. rewrite (bd_iter_rep _ _ R'). split; [exact X|].
      rewrite (bd_iter_rep _ _ Re), (bd_iter_rep _ _ R). f_equal. apply (ssorted_ext LQ).
      - apply (sorted_elements_sorted LQ), Re.
      - apply (sorted_elements_sorted LQ), R.
      - intros q. rewrite !in_sorted_elements, (in_fold_add LO), in_map_iff. cbn [In]. split.
        + intros [[]|(p & <- & Hp)]. apply in_sorted_elements, I in Hp as (r & Hr & ->).
          now rewrite (back_quad r (O r Hr)).
        + intros Hq. right. exists (H q). split; [exact (back_quad q (O q Hq))|].
          apply in_sorted_elements, I. eauto.
    Qed.
  End Names.

  Context {md5 sha1 : bytes -> bytes}.
  Context (Hmd5 : forall b, is_uuid (md5 b)) (Hsha1 : forall b, is_uuid (firstn 16 (sha1 b))).
  Context {g : uuid_generator} {random : nat -> bytes} (Hr : forall n, is_uuid (random n)).

  Lemma edited ops xs d l copy m r u :
    run (bd_step cmp keep) bd_new ops = Some (xs, d) -> bd_iter d = Some l ->
    skolemise md5 sha1 g random cmp keep d = Some (copy, m) ->
    NoDup (map snd m) ->
    (forall i q, In i (map snd m) -> In q (l ++ r ++ u) -> ~ In (Named i) (quad_comps q)) ->
    exists n e e', patch ins del d r u = Some (n, e) /\
      edit md5 sha1 g random cmp keep iri_eqb tag_eqb d r u = Some (n, e') /\ bd_iter e' = bd_iter e /\
      exists l', bd_iter e' = Some l' /\ forall q, In q l' <-> In q l /\ ~ In q r \/ In q u.
  Proof.
    intros Hd Hl E N O. pose proof (bd_run_rep_new LO keep ops xs d Hd) as R.
    assert (Rl : forall q, In q l <-> In q (spec_set qcmp ops)).
    { rewrite (bd_iter_rep _ _ R) in Hl. inv Hl. intros q. apply in_sorted_elements. }
    unfold edit. rewrite E. unfold skolemise in E. rewrite Hl in E.
    assert (G : given_iris (md5:=md5) (sha1:=sha1) g (random:=random) [] [])
      by (split; [reflexivity|]; intros [|n] ? ? X; discriminate).
    destruct (into_skolem Hmd5 Hsha1 g Hr LO keep l _ _ _ _ G (bd_rep_new (cmp:=cmp))) as (d' & m' & E' & _ & _ & R').
    rewrite E in E'. inv E'. rewrite !publish_quads.
    assert (C : copied m' (spec_set qcmp ops) (fold_left (fun s q => add qcmp q s) (map (qmap (named m')) l) [])).
    { split.
      - intros q Hq i Hi. apply O; [exact Hi|]. apply in_app_iff. left. now apply Rl.
      - intros p. rewrite (in_fold_add LO), in_map_iff. cbn [In]. split.
        + intros [[]|(q & <- & Hq)]. exists q. split; [now apply Rl|reflexivity].
        + intros (q & Hq & ->). right. exists q. split; [reflexivity|now apply Rl]. }
    assert (Fr : Forall (old_quad m') r).
    { apply Forall_forall. intros q Hq i Hi. apply O; [exact Hi|]. rewrite !in_app_iff. tauto. }
    assert (Fu : Forall (old_quad m') u).
    { apply Forall_forall. intros q Hq i Hi. apply O; [exact Hi|]. rewrite !in_app_iff. tauto. }
    destruct (patch_copied m' N r u _ _ _ _ Fr Fu R R' C) as (n & e & t & e' & t' & P & -> & R1 & R1' & C1).
    destruct (restore_copied m' N _ _ _ _ R1 R1' C1) as (f & -> & F).
    exists n, e, f. rewrite P, F. do 3 (split; [reflexivity|]).
    destruct (patch_rep LQ (bd_insert_rep LO keep) (bd_remove_rep LO) _ _ r u R) as (n2 & e2 & s2 & P2 & R2 & I2 & _).
    rewrite P in P2. inv P2. exists (sorted_elements qcmp s2). split; [exact (bd_iter_rep _ _ R2)|].
    intros q. now rewrite in_sorted_elements, I2, Rl.
  Qed.
End Edit.
