(** Isomorphism of the datasets that programs build. *)
From Coq Require Import List Bool.
Import ListNotations.
From Verif Require Import Base TextModel DisplayModel TermModel TripleModel InterpretationModel
  SetSpec ContainerSpec IndexedSpec Machine BaseProofs BTreeDatasetModel BTreeDatasetProofs
  IndexedDatasetModel IndexedRunProofs IsoModel IsoSpec TermSpec TermProofs IsoTopProofs.

(** Isomorphism only depends on which quads there are. *)
Section Members.
  Context {R : Type} (blank : R -> bool) (a b c d : list (quad R)).
  Context (Ha : forall q, In q a <-> In q c) (Hb : forall q, In q b <-> In q d).
  Lemma blank_of_members (l m : list (quad R)) x : (forall q, In q l <-> In q m) ->
    blank_of blank l x -> blank_of blank m x.
  Proof. intros H [B (q & Hq & Hx)]. split; [exact B|]. exists q. split; [now apply H|exact Hx]. Qed.
  Lemma isomorphism_members h : isomorphism blank a b h -> isomorphism blank c d h.
  Proof.
    intros ([A B C] & I & M). split; [split|split].
    - intros x Hx. apply (blank_of_members b d _ Hb), A.
      apply (blank_of_members c a); [|exact Hx]. intros q. symmetry. apply Ha.
    - intros x y Hx Hy. apply B.
      + apply (blank_of_members c a); [|exact Hx]. intros q. symmetry. apply Ha.
      + apply (blank_of_members c a); [|exact Hy]. intros q. symmetry. apply Ha.
    - intros y Hy. destruct (C y) as [x [Hx E]].
      + apply (blank_of_members d b); [|exact Hy]. intros q. symmetry. apply Hb.
      + exists x. split; [exact (blank_of_members a c _ Ha Hx)|exact E].
    - exact I.
    - intros q. rewrite <- Hb, M. split; intros (p & Hp & E); exists p; (split; [now apply Ha|exact E]).
  Qed.
  Lemma identifiable_members : identifiable blank a -> identifiable blank c.
  Proof.
    intros H p Hp Hb2. destruct (H p (proj2 (Ha p) Hp) Hb2) as (x & B & Hx & U).
    exists x. split; [exact B|]. split; [exact Hx|]. intros q Hq. apply U. now apply Ha.
  Qed.
End Members.

Section Local.
  Context {iri_eqb tag_eqb : text -> text -> bool} {iri_cmp tag_cmp : text -> text -> comparison}.
  Context (LI : ord_laws iri_cmp) (LT : ord_laws tag_cmp).
  Context (EI : forall x y, iri_eqb x y = true <-> x = y) (ET : forall x y, tag_eqb x y = true <-> x = y).
  Notation cmp := (local_cmp iri_cmp tag_cmp).
  Notation LO := (local_ord LI LT EI ET).
  Notation are := (are_isomorphic iri_eqb tag_eqb iri_cmp tag_cmp).
  Notation anon := local_is_anonymous.

  (** Two lists without repetition and the sets they enumerate. *)
  Lemma enumerated a b s t :
    NoDup a -> NoDup b -> (forall q, In q a <-> In q s) -> (forall q, In q b <-> In q t) ->
    (forall h, isomorphism anon s t h -> are a b = Some true) /\
    ((forall q, In q s -> has_blank anon q = false -> In q t) -> identifiable anon s ->
     are a b = Some true <-> exists h, isomorphism anon s t h).
  Proof.
    intros Na Nb Ha Hb.
    assert (Ha' : forall q, In q s <-> In q a) by (intros q; symmetry; apply Ha).
    assert (Hb' : forall q, In q t <-> In q b) by (intros q; symmetry; apply Hb).
    assert (P : forall h, isomorphism anon s t h -> are a b = Some true).
    { intros h H. apply (isomorphism_members anon s t a b Ha' Hb') in H.
      exact (proj2 (loc_complete LI LT EI ET a b h Na Nb H)). }
    split; [exact P|]. intros G D. split.
    - intros H. apply (loc_iff LI LT EI ET a b Na Nb) in H.
      + destruct H as [h H]. exists h. exact (isomorphism_members anon a b s t Ha Hb h H).
      + intros q Hq E. apply Hb, G; [now apply Ha|exact E].
      + exact (identifiable_members anon s a Ha' D).
    - intros [h H]. exact (P h H).
  Qed.

  Lemma bd_histories keep ops1 xs1 d1 ops2 xs2 d2 :
    run (bd_step cmp keep) bd_new ops1 = Some (xs1, d1) ->
    run (bd_step cmp keep) bd_new ops2 = Some (xs2, d2) ->
    exists a b, bd_iter d1 = Some a /\ bd_iter d2 = Some b /\
      let s := spec_set (quad_cmp cmp) ops1 in let t := spec_set (quad_cmp cmp) ops2 in
      (forall h, isomorphism anon s t h -> are a b = Some true) /\
      ((forall q, In q s -> has_blank anon q = false -> In q t) -> identifiable anon s ->
       are a b = Some true <-> exists h, isomorphism anon s t h).
  Proof.
    intros H1 H2.
    destruct (bd_iteration LO _ _ _ _ H1) as (a & A1 & _ & A2 & A3).
    destruct (bd_iteration LO _ _ _ _ H2) as (b & B1 & _ & B2 & B3).
    exists a, b. split; [exact A1|]. split; [exact B1|]. cbv zeta.
    apply enumerated; try assumption; apply (ssorted_nodup (quad_cmp_laws _ LO)); assumption.
  Qed.
  Lemma id_histories keep ops0 ops1 xs1 d1 ops0' ops2 xs2 d2 :
    id_reached cmp keep ops0 ops1 xs1 d1 -> id_reached cmp keep ops0' ops2 xs2 d2 ->
    exists a b, id_iter d1 = Some a /\ id_iter d2 = Some b /\
      let s := final_set cmp ops0 ops1 xs1 in let t := final_set cmp ops0' ops2 xs2 in
      (forall h, isomorphism anon s t h -> are a b = Some true) /\
      ((forall q, In q s -> has_blank anon q = false -> In q t) -> identifiable anon s ->
       are a b = Some true <-> exists h, isomorphism anon s t h).
  Proof.
    intros H1 H2.
    destruct (id_contents LO _ _ _ _ _ H1) as (a & A1 & _ & A2 & A3 & _).
    destruct (id_contents LO _ _ _ _ _ H2) as (b & B1 & _ & B2 & B3 & _).
    exists a, b. split; [exact A1|]. split; [exact B1|]. cbv zeta.
    apply enumerated; try assumption; apply (ssorted_nodup (quad_cmp_laws _ LO)); assumption.
  Qed.

  Lemma bd_recognised keep ops1 xs1 d1 ops2 xs2 d2 h :
    run (bd_step cmp keep) bd_new ops1 = Some (xs1, d1) ->
    run (bd_step cmp keep) bd_new ops2 = Some (xs2, d2) ->
    isomorphism anon (spec_set (quad_cmp cmp) ops1) (spec_set (quad_cmp cmp) ops2) h ->
    exists a b, bd_iter d1 = Some a /\ bd_iter d2 = Some b /\ are a b = Some true.
  Proof.
    intros H1 H2 H. destruct (bd_histories _ _ _ _ _ _ _ H1 H2) as (a & b & A & B & C & _).
    exists a, b. split; [exact A|]. split; [exact B|]. exact (C h H).
  Qed.
  Lemma bd_recognition keep ops1 xs1 d1 ops2 xs2 d2 :
    run (bd_step cmp keep) bd_new ops1 = Some (xs1, d1) ->
    run (bd_step cmp keep) bd_new ops2 = Some (xs2, d2) ->
    let s := spec_set (quad_cmp cmp) ops1 in let t := spec_set (quad_cmp cmp) ops2 in
    (forall q, In q s -> has_blank anon q = false -> In q t) -> identifiable anon s ->
    exists a b, bd_iter d1 = Some a /\ bd_iter d2 = Some b /\
      (are a b = Some true <-> exists h, isomorphism anon s t h).
  Proof.
    intros H1 H2 s t G D. destruct (bd_histories _ _ _ _ _ _ _ H1 H2) as (a & b & A & B & _ & C).
    exists a, b. split; [exact A|]. split; [exact B|]. exact (C G D).
  Qed.
  Lemma id_recognised keep ops0 ops1 xs1 d1 ops0' ops2 xs2 d2 h :
    id_reached cmp keep ops0 ops1 xs1 d1 -> id_reached cmp keep ops0' ops2 xs2 d2 ->
    isomorphism anon (final_set cmp ops0 ops1 xs1) (final_set cmp ops0' ops2 xs2) h ->
    exists a b, id_iter d1 = Some a /\ id_iter d2 = Some b /\ are a b = Some true.
  Proof.
    intros H1 H2 H. destruct (id_histories _ _ _ _ _ _ _ _ _ H1 H2) as (a & b & A & B & C & _).
    exists a, b. split; [exact A|]. split; [exact B|]. exact (C h H).
  Qed.
  Lemma id_recognition keep ops0 ops1 xs1 d1 ops0' ops2 xs2 d2 :
    id_reached cmp keep ops0 ops1 xs1 d1 -> id_reached cmp keep ops0' ops2 xs2 d2 ->
    let s := final_set cmp ops0 ops1 xs1 in let t := final_set cmp ops0' ops2 xs2 in
    (forall q, In q s -> has_blank anon q = false -> In q t) -> identifiable anon s ->
    exists a b, id_iter d1 = Some a /\ id_iter d2 = Some b /\
      (are a b = Some true <-> exists h, isomorphism anon s t h).
  Proof.
    intros H1 H2 s t G D. destruct (id_histories _ _ _ _ _ _ _ _ _ H1 H2) as (a & b & A & B & _ & C).
    exists a, b. split; [exact A|]. split; [exact B|]. exact (C G D).
  Qed.
End Local.

(** The datasets of IsoTopProofs.v, built quad by quad, the second after removals. *)
Definition x_ops_a := map Insert x_a.
Definition x_ops_b := map Insert x_a ++ map Remove x_a ++ map Insert (rev x_b).
Lemma x_ops_iso keep : exists xs1 d1 xs2 d2,
  run (bd_step (local_cmp str_cmp str_cmp) keep) bd_new x_ops_a = Some (xs1, d1) /\
  run (bd_step (local_cmp str_cmp str_cmp) keep) bd_new x_ops_b = Some (xs2, d2) /\
  isomorphism local_is_anonymous (spec_set (quad_cmp (local_cmp str_cmp str_cmp)) x_ops_a)
    (spec_set (quad_cmp (local_cmp str_cmp str_cmp)) x_ops_b) x_h /\
  (forall q, In q (spec_set (quad_cmp (local_cmp str_cmp str_cmp)) x_ops_a) ->
     has_blank local_is_anonymous q = false ->
     In q (spec_set (quad_cmp (local_cmp str_cmp str_cmp)) x_ops_b)) /\
  identifiable local_is_anonymous (spec_set (quad_cmp (local_cmp str_cmp str_cmp)) x_ops_a).
Proof.
  assert (A : forall q, In q x_a <-> In q (spec_set (quad_cmp (local_cmp str_cmp str_cmp)) x_ops_a)).
  { intros q. vm_compute. tauto. }
  assert (B : forall q, In q x_b <-> In q (spec_set (quad_cmp (local_cmp str_cmp str_cmp)) x_ops_b)).
  { intros q. vm_compute. tauto. }
  destruct x_iso as (_ & _ & I & G & D).
  destruct (bd_run_ok (local_ord str_cmp_laws str_cmp_laws str_eqb_spec str_eqb_spec) keep x_ops_a) as (d1 & H1).
  destruct (bd_run_ok (local_ord str_cmp_laws str_cmp_laws str_eqb_spec str_eqb_spec) keep x_ops_b) as (d2 & H2).
  eexists _, d1, _, d2. split; [exact H1|]. split; [exact H2|].
  split; [exact (isomorphism_members _ _ _ _ _ A B _ I)|].
  split; [intros q Hq E; apply B, G; [now apply A|exact E]|].
  exact (identifiable_members _ _ _ A D).
Qed.
