(** Isomorphism when different terms may compare equal: everything happens as with
    the normal forms of the terms. *)
From Coq Require Import List Bool NArith Ascii String Lia.
Import ListNotations.
From Verif Require Import Base TextModel DisplayModel TermModel TripleModel InterpretationModel
  SetSpec ContainerSpec IsoModel IsoSpec TermSpec TermProofs IsoTopProofs IsoRenameProofs.

(** ** Any resources *)
Section Classes.
  Context {R T St Su : Type} (cr : R -> R -> comparison) (ct : T -> T -> comparison) (f : R -> T).
  Context (ie te ie' te' : text -> text -> bool).
  Context (I : interp_rev St R) (st : St) (J : interp_rev Su T) (su : Su).
  Context (Hc : forall x y, ct (f x) (f y) = cr x y).
  Context (Ha : forall x, nameless J su (f x) = nameless I st x).
  Context (Hs : forall x y, common_term ie' (literal_cow_eqb ie' te') J su (f x) (f y) <->
                            common_term ie (literal_cow_eqb ie te) I st x y).

  Lemma shares_common {S0 R0} (e l : text -> text -> bool) (K : interp_rev S0 R0) s x y :
    shares_term e l K s x y = true <-> common_term e (literal_cow_eqb e l) K s x y.
  Proof.
    unfold shares_term, common_term. rewrite orb_true_iff, !existsb_exists.
    split; (intros [H|H]; [left|right]).
    - destruct H as (i & Hi & H). apply existsb_exists in H. destruct H as (j & Hj & H). now exists i, j.
    - destruct H as (i & Hi & H). apply existsb_exists in H. destruct H as (j & Hj & H). now exists i, j.
    - destruct H as (i & j & Hi & Hj & H). exists i. split; [exact Hi|]. apply existsb_exists. now exists j.
    - destruct H as (i & j & Hi & Hj & H). exists i. split; [exact Hi|]. apply existsb_exists. now exists j.
  Qed.
  Lemma anonymous_nameless {S0 R0} (K : interp_rev S0 R0) s x : i_is_anonymous K s x = nameless K s x.
  Proof.
    unfold i_is_anonymous, nameless, i_terms_of. cbn.
    destruct (i_iris_of K s x); [|reflexivity]. now destruct (i_literals_of K s x).
  Qed.
  Lemma are_isomorphic_with_map a b :
    are_isomorphic_with ct ie' te' J su (map (qmap f) a) (map (qmap f) b) =
    are_isomorphic_with cr ie te I st a b.
  Proof.
    unfold are_isomorphic_with. rewrite (find_bijection_with_map cr ct f ie te ie' te' I st J su Hc).
    - now destruct (find_bijection_with cr ie te I st a b) as [[x|]|].
    - intros x. rewrite !anonymous_nameless. apply Ha.
    - intros x y. apply eq_true_iff_eq. rewrite !shares_common. apply Hs.
  Qed.
End Classes.

(** ** Local terms *)
Section Local.
  Context {ie te : text -> text -> bool} {ic tc : text -> text -> comparison}.
  Context {ki kt : text -> text} {ci cg : text -> text -> comparison}.
  Context (LI : ord_laws ci) (LT : ord_laws cg).
  Context (CI : forall x y, ic x y = ci (ki x) (ki y)) (CT : forall x y, tc x y = cg (kt x) (kt y)).
  Context (EI : forall x y, ie x y = true <-> ki x = ki y) (ET : forall x y, te x y = true <-> kt x = kt y).
  Notation nf := (normal_term ki kt).
  Notation cmp := (local_cmp ci cg).
  Notation anon := local_is_anonymous.
  Notation find := (find_bijection ie te ic tc).
  Notation are := (are_isomorphic ie te ic tc).
  Notation norm := (map (qmap nf)).
  Let ES : forall x y, str_eqb x y = true <-> x = y := str_eqb_spec.

  Lemma nf_cmp x y : cmp (nf x) (nf y) = local_cmp ic tc x y.
  Proof.
    destruct x as [x|[x|[x [k|k]]]], y as [y|[y|[y [l|l]]]]; cbn; try reflexivity.
    - now rewrite CI.
    - unfold literal_cmp. cbn. now rewrite CI.
    - unfold literal_cmp. cbn. now rewrite CT.
  Qed.
  Lemma eqb_key (e : text -> text -> bool) (k : text -> text) x y :
    (e x y = true <-> k x = k y) -> str_eqb (k x) (k y) = e x y.
  Proof.
    intros H. apply eq_true_iff_eq. now rewrite ES, H.
  Qed.
  Lemma nf_shares x y :
    shares_term str_eqb str_eqb unit_rev tt (nf x) (nf y) = shares_term ie te unit_rev tt x y.
  Proof.
    destruct x as [x|[x|[x [k|k]]]], y as [y|[y|[y [l|l]]]]; try reflexivity; cbn;
      unfold shares_term; cbn; unfold cow_iri_eqb, literal_cow_eqb; cbn.
    - now rewrite (eqb_key ie ki x y (EI x y)).
    - now rewrite (eqb_key ie ki k l (EI k l)).
    - now rewrite (eqb_key te kt k l (ET k l)).
  Qed.
  Lemma nf_anon x : i_is_anonymous unit_rev tt (nf x) = i_is_anonymous unit_rev tt x.
  Proof. now destruct x as [x|[x|[x [k|k]]]]. Qed.
  Lemma find_norm a b : find_bijection str_eqb str_eqb ci cg (norm a) (norm b) =
    option_map (option_map (bmap nf)) (find a b).
  Proof. apply find_bijection_with_map; [exact nf_cmp|exact nf_anon|exact nf_shares]. Qed.
  Lemma are_norm a b : are_isomorphic str_eqb str_eqb ci cg (norm a) (norm b) = are a b.
  Proof.
    unfold are_isomorphic, are_isomorphic_with.
    change (find_bijection_with (local_cmp ci cg) str_eqb str_eqb unit_rev tt (norm a) (norm b)) with
      (find_bijection str_eqb str_eqb ci cg (norm a) (norm b)).
    rewrite find_norm. unfold find_bijection.
    now destruct (find_bijection_with (local_cmp ic tc) ie te unit_rev tt a b) as [[x|]|].
  Qed.

  Lemma cls_complete a b h : NoDup (norm a) -> NoDup (norm b) ->
    isomorphism anon (norm a) (norm b) h ->
    (exists f, find a b = Some (Some f)) /\ are a b = Some true.
  Proof.
    intros Na Nb H. destruct (loc_complete LI LT ES ES _ _ _ Na Nb H) as [[f F] A].
    rewrite are_norm in A. split; [|exact A]. rewrite find_norm in F.
    destruct (find a b) as [[g|]|]; try discriminate. now exists g.
  Qed.
  Lemma cls_exact a b : are a b = Some true <->
    exists h, half_isomorphism cmp anon (norm a) (norm b) h.
  Proof. rewrite <- are_norm. apply (loc_exact LI LT ES ES). Qed.
  Lemma cls_iff a b : NoDup (norm a) -> NoDup (norm b) ->
    (forall q, In q (norm a) -> has_blank anon q = false -> In q (norm b)) ->
    identifiable anon (norm a) ->
    are a b = Some true <-> exists h, isomorphism anon (norm a) (norm b) h.
  Proof. rewrite <- are_norm. apply (loc_iff LI LT ES ES). Qed.

  (** Blank nodes are their own normal forms. *)
  Lemma nf_blank x : anon (nf x) = true -> nf x = x.
  Proof. now destruct x as [x|[x|[x [k|k]]]]. Qed.
  Lemma nf_anon' x : anon (nf x) = anon x.
  Proof. now destruct x as [x|[x|[x [k|k]]]]. Qed.
  Lemma comps_norm q : quad_comps (qmap nf q) = map nf (quad_comps q).
  Proof. now destruct q as [s p o [g|]]. Qed.
  Lemma blank_of_norm a x : blank_of anon (norm a) x <-> blank_of anon a x.
  Proof.
    split; intros [B (q & Hq & Hx)]; (split; [exact B|]).
    - apply in_map_iff in Hq. destruct Hq as [p [<- Hp]]. exists p. split; [exact Hp|].
      rewrite comps_norm in Hx. apply in_map_iff in Hx. destruct Hx as [y [<- Hy]].
      now rewrite (nf_blank y B).
    - exists (qmap nf q). split; [now apply in_map|]. rewrite comps_norm.
      apply in_map_iff. exists x. split; [|exact Hx]. apply nf_blank. now rewrite nf_anon'.
  Qed.
  Lemma blank_bijection_norm a b h : blank_bijection anon (norm a) (norm b) h <-> blank_bijection anon a b h.
  Proof.
    split; intros [A B C]; split.
    - intros x Hx. apply blank_of_norm, A, blank_of_norm, Hx.
    - intros x y Hx Hy. apply B; now apply blank_of_norm.
    - intros y Hy. apply (proj2 (blank_of_norm _ _)) in Hy. destruct (C y Hy) as [x [H E]]. exists x.
      split; [now apply blank_of_norm|exact E].
    - intros x Hx. apply blank_of_norm, A, blank_of_norm, Hx.
    - intros x y Hx Hy. apply B; now apply blank_of_norm.
    - intros y Hy. apply (proj1 (blank_of_norm _ _)) in Hy. destruct (C y Hy) as [x [H E]]. exists x.
      split; [now apply blank_of_norm|exact E].
  Qed.
  Lemma mm_blank (m : list (local_term * local_term)) :
    (forall x, In x (mm nf nf m) -> anon (fst x) = true /\ anon (snd x) = true) -> mm nf nf m = m.
  Proof.
    induction m as [|[x y] m IH]; intros H; [reflexivity|]. cbn.
    destruct (H (nf x, nf y)) as [H1 H2]; [now left|]. cbn in H1, H2.
    rewrite (nf_blank x H1), (nf_blank y H2). f_equal. apply IH. intros z Hz. apply H. now right.
  Qed.
  Lemma find_norm_same a b f : find a b = Some (Some f) ->
    find_bijection str_eqb str_eqb ci cg (norm a) (norm b) = Some (Some f).
  Proof.
    intros H. pose proof (find_norm a b) as F. rewrite H in F. cbn in F.
    destruct (loc_bijection LI LT ES ES _ _ _ F) as (_ & _ & _ & H4 & H5 & H6). rewrite F.
    do 2 f_equal. destruct f as [fw bw]. unfold bmap in *. cbn in *.
    f_equal; apply mm_blank; intros [x y] Hxy; cbn.
    - split; [apply H4, (in_map fst _ _ Hxy)|]. apply H6 in Hxy. apply H5, (in_map fst _ _ Hxy).
    - split; [apply H5, (in_map fst _ _ Hxy)|]. apply H6 in Hxy. apply H4, (in_map fst _ _ Hxy).
  Qed.
  Lemma cls_bijection a b f : find a b = Some (Some f) ->
    blank_bijection anon a b (as_function cmp (forward f)) /\
    increasing cmp (map fst (forward f)) /\ increasing cmp (map fst (backward f)) /\
    (forall x, In x (map fst (forward f)) <-> blank_of anon a x) /\
    (forall y, In y (map fst (backward f)) <-> blank_of anon b y) /\
    (forall x y, In (x, y) (forward f) <-> In (y, x) (backward f)).
  Proof.
    intros H. apply find_norm_same in H.
    destruct (loc_bijection LI LT ES ES _ _ _ H) as (H1 & H2 & H3 & H4 & H5 & H6).
    split; [now apply blank_bijection_norm|]. split; [exact H2|]. split; [exact H3|].
    split; [intros x; rewrite H4; apply blank_of_norm|].
    split; [intros x; rewrite H5; apply blank_of_norm|exact H6].
  Qed.
  Lemma cls_sound a b f : NoDup (norm a) -> NoDup (norm b) ->
    (forall q, In q (norm a) -> has_blank anon q = false -> In q (norm b)) ->
    identifiable anon (norm a) ->
    find a b = Some (Some f) -> isomorphism anon (norm a) (norm b) (as_function cmp (forward f)).
  Proof.
    intros Na Nb G ID H. apply find_norm_same in H. exact (loc_sound LI LT ES ES _ _ _ Na Nb G ID H).
  Qed.
End Local.

(** ** Example: language tags compared without regard to case *)
Definition lower (t : text) : text :=
  map (fun c => if ((65 <=? c) && (c <=? 90))%N then (c + 32)%N else c) t.
Definition tag_cmp_ci (x y : text) : comparison := str_cmp (lower x) (lower y).
Definition tag_eqb_ci (x y : text) : bool := str_eqb (lower x) (lower y).
Definition y_lit (tag : string) : local_term := Named (TLit (Literal (chars "Ann") (LLang (chars tag)))).
Definition y_a := [w_triple w_n0 x_name (y_lit "en"); w_triple w_n0 x_knows w_n1].
Definition y_b := [w_triple w_n2 x_knows w_n1; w_triple w_n2 x_name (y_lit "EN")].
Definition y_h : local_term -> local_term := as_function (local_cmp str_cmp str_cmp) [(w_n0, w_n2); (w_n1, w_n1)].
Definition y_norm : list (quad local_term) -> list (quad local_term) := map (qmap (normal_term (fun i => i) lower)).
Lemma y_norm_a : y_norm y_a = y_a.
Proof. reflexivity. Qed.
Lemma y_norm_b : y_norm y_b = [w_triple w_n2 x_knows w_n1; w_triple w_n2 x_name (y_lit "en")].
Proof. reflexivity. Qed.
Lemma y_iso : NoDup (y_norm y_a) /\ NoDup (y_norm y_b) /\
  isomorphism local_is_anonymous (y_norm y_a) (y_norm y_b) y_h /\
  (forall q, In q (y_norm y_a) -> has_blank local_is_anonymous q = false -> In q (y_norm y_b)) /\
  identifiable local_is_anonymous (y_norm y_a).
Proof.
  rewrite y_norm_a, y_norm_b.
  split; [now apply x_nodup|]. split; [now apply x_nodup|].
  assert (BA : forall x, blank_of local_is_anonymous y_a x <-> x = w_n0 \/ x = w_n1).
  { intros x. split.
    - intros [A (q & Hq & Hx)]. unfold y_a in Hq. all_in Hq; cbn in Hx; all_in Hx; try discriminate A; tauto.
    - intros [->| ->]; (split; [reflexivity|]); exists (w_triple w_n0 x_knows w_n1); cbn; tauto. }
  set (b := [w_triple w_n2 x_knows w_n1; w_triple w_n2 x_name (y_lit "en")]).
  assert (BB : forall x, blank_of local_is_anonymous b x <-> x = w_n2 \/ x = w_n1).
  { intros x. split.
    - intros [A (q & Hq & Hx)]. unfold b in Hq. all_in Hq; cbn in Hx; all_in Hx; try discriminate A; tauto.
    - intros [->| ->]; (split; [reflexivity|]); exists (w_triple w_n2 x_knows w_n1); cbn; tauto. }
  split.
  { split; [split|split].
    - intros x Hx. apply BA in Hx. apply BB. destruct Hx as [->| ->]; [left|right]; reflexivity.
    - intros x y Hx Hy E. apply BA in Hx, Hy.
      destruct Hx as [->| ->], Hy as [->| ->]; try reflexivity; discriminate E.
    - intros y Hy. apply BB in Hy. destruct Hy as [->| ->].
      + exists w_n0. split; [apply BA; tauto|reflexivity].
      + exists w_n1. split; [apply BA; tauto|reflexivity].
    - intros x Hx. destruct x as [|]; [discriminate|]. reflexivity.
    - intros q. split.
      + intros Hq. unfold b in Hq. all_in Hq.
        * exists (w_triple w_n0 x_knows w_n1). cbn. split; [tauto|reflexivity].
        * exists (w_triple w_n0 x_name (y_lit "en")). cbn. split; [tauto|reflexivity].
      + intros (p & Hp & <-). unfold y_a in Hp. all_in Hp; vm_compute; tauto. }
  split.
  { intros q Hq E. unfold y_a in Hq. all_in Hq; discriminate E. }
  intros p Hp H2. unfold y_a in Hp.
  all_in Hp; try (unfold blanks in H2; cbn in H2; lia).
  exists w_n0. split; [reflexivity|]. split; [now left|].
  intros q Hq Hx S. unfold y_a in Hq. all_in Hq; try reflexivity; discriminate S.
Qed.
