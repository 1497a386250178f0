(** Laws of the comparison, hashing and conversion of terms. *)
From Coq Require Import List NArith Bool Lia.
Import ListNotations.
From Verif Require Import Base BaseProofs TextModel DisplayModel TermModel TermSpec.

(** ** Generic *)
Section Lawful.
  Context {A : Type} {eqb : A -> A -> bool} {cmp : A -> A -> comparison} (L : lawful eqb cmp).

  Lemma lawful_refl x : cmp x x = Eq.
  Proof. pose proof (law_sym _ _ L x x) as H. now destruct (cmp x x). Qed.
  Lemma lawful_eqb_refl x : eqb x x = true.
  Proof. apply (law_eq _ _ L), lawful_refl. Qed.
  Lemma lawful_eqb_sym x y : eqb x y = eqb y x.
  Proof.
    apply eq_true_iff_eq. rewrite <- !(law_eq _ _ L), (law_sym _ _ L x y).
    destruct (cmp x y); cbn; split; congruence.
  Qed.
  (** Equal values compare alike. *)
  Lemma lawful_cong x x' y : cmp x x' = Eq -> cmp x y = cmp x' y.
  Proof.
    intros E. assert (E' : cmp x' x = Eq) by (rewrite (law_sym _ _ L x x'); now rewrite E).
    pose proof (law_trans _ _ L x' x y) as T1. pose proof (law_trans _ _ L x x' y) as T2.
    pose proof (law_trans _ _ L y x x') as T3. pose proof (law_trans _ _ L y x' x) as T4.
    rewrite ?E, ?E', (law_sym _ _ L x y), (law_sym _ _ L x' y) in *.
    destruct (cmp x y), (cmp x' y); cbn in *; try reflexivity; exfalso;
      try (apply T1; discriminate); try (apply T2; discriminate);
      try (apply T3; discriminate); try (apply T4; discriminate);
      try (apply T1; [discriminate|discriminate|reflexivity]);
      try (apply T2; [discriminate|discriminate|reflexivity]);
      try (apply T3; [discriminate|discriminate|reflexivity]);
      try (apply T4; [discriminate|discriminate|reflexivity]).
  Qed.
  Lemma lawful_lt_trans x y z : cmp x y = Lt -> cmp y z = Lt -> cmp x z = Lt.
  Proof.
    intros H1 H2. destruct (cmp x z) eqn:E; [|reflexivity|].
    - pose proof (lawful_cong x z y E) as C. rewrite H1 in C.
      rewrite (law_sym _ _ L y z), H2 in C. discriminate.
    - exfalso. apply (law_trans _ _ L x y z); congruence.
  Qed.
End Lawful.

Lemma lawful_via {A B} (f : A -> B) eqb cmp eqb' cmp' : @lawful B eqb cmp ->
  (forall x y, eqb' x y = eqb (f x) (f y)) -> (forall x y, cmp' x y = cmp (f x) (f y)) ->
  @lawful A eqb' cmp'.
Proof.
  intros L E C. split; intros *; rewrite ?E, ?C.
  - apply (law_eq _ _ L).
  - apply (law_sym _ _ L).
  - apply (law_trans _ _ L).
Qed.

(** The orders that [derive] builds: alternatives in order of declaration, and
    fields lexicographically. *)
Definition sum_eqb {A B} (ea : A -> A -> bool) (eb : B -> B -> bool) (x y : A + B) : bool :=
  match x, y with inl a, inl b => ea a b | inr a, inr b => eb a b | _, _ => false end.
Definition sum_cmp {A B} (ca : A -> A -> comparison) (cb : B -> B -> comparison) (x y : A + B) :=
  match x, y with
  | inl a, inl b => ca a b | inr a, inr b => cb a b | inl _, inr _ => Lt | inr _, inl _ => Gt
  end.
Definition pair_eqb {A B} (ea : A -> A -> bool) (eb : B -> B -> bool) (x y : A * B) : bool :=
  ea (fst x) (fst y) && eb (snd x) (snd y).
Definition pair_cmp {A B} (ca : A -> A -> comparison) (cb : B -> B -> comparison) (x y : A * B) :=
  match ca (fst x) (fst y) with Eq => cb (snd x) (snd y) | c => c end.

Lemma lawful_sum {A B} ea ca eb cb : @lawful A ea ca -> @lawful B eb cb ->
  lawful (sum_eqb ea eb) (sum_cmp ca cb).
Proof.
  intros L M. split.
  - intros [x|x] [y|y]; cbn; try apply (law_eq _ _ L); try apply (law_eq _ _ M);
      split; discriminate.
  - intros [x|x] [y|y]; cbn; try apply (law_sym _ _ L); try apply (law_sym _ _ M); reflexivity.
  - intros [x|x] [y|y] [z|z]; cbn; try apply (law_trans _ _ L); try apply (law_trans _ _ M);
      congruence.
Qed.
Lemma lawful_pair {A B} ea ca eb cb : @lawful A ea ca -> @lawful B eb cb ->
  lawful (pair_eqb ea eb) (pair_cmp ca cb).
Proof.
  intros L M. split.
  - intros [a b] [a' b']; unfold pair_cmp, pair_eqb; cbn. rewrite andb_true_iff.
    rewrite <- (law_eq _ _ L), <- (law_eq _ _ M). destruct (ca a a'); intuition congruence.
  - intros [a b] [a' b']; unfold pair_cmp; cbn. rewrite (law_sym _ _ L a a').
    destruct (ca a a'); cbn; try reflexivity. apply (law_sym _ _ M).
  - intros [a b] [a' b'] [a'' b'']; unfold pair_cmp; cbn. intros H1 H2.
    destruct (ca a a') eqn:E1; [|destruct (ca a' a'') eqn:E2|congruence].
    + rewrite (lawful_cong L a a' a'' E1).
      destruct (ca a' a''); try congruence. now apply (law_trans _ _ M b b' b'').
    + assert (E3 : ca a a'' = Lt). {
        destruct (ca a a'') eqn:E3; [|reflexivity|].
        - pose proof (lawful_cong L a a'' a' E3) as C. rewrite E1 in C.
          rewrite (law_sym _ _ L a' a''), E2 in C. discriminate.
        - exfalso. apply (law_trans _ _ L a a' a''); congruence. }
      rewrite E3. discriminate.
    + now rewrite (lawful_lt_trans L a a' a'' E1 E2).
    + congruence.
Qed.

(** A total order in the sense of the containers, whose equality is identity. *)
Lemma lawful_of_ord {A} (cmp : A -> A -> comparison) eqb : ord_laws cmp ->
  (forall x y, eqb x y = true <-> x = y) -> lawful eqb cmp.
Proof.
  intros L E. split.
  - intros x y. rewrite E. apply (ord_eq _ L).
  - apply (ord_sym _ L).
  - intros x y z H1 H2. destruct (cmp x y) eqn:E1; [|destruct (cmp y z) eqn:E2|congruence].
    + apply (ord_eq _ L) in E1. now subst.
    + apply (ord_eq _ L) in E2. subst. congruence.
    + rewrite (ord_trans _ L x y z E1 E2). discriminate.
    + congruence.
Qed.
Lemma ord_of_lawful {A} (cmp : A -> A -> comparison) eqb : lawful eqb cmp ->
  (forall x y, eqb x y = true <-> x = y) -> ord_laws cmp.
Proof.
  intros L E. split.
  - intros x y. rewrite <- E. apply (law_eq _ _ L).
  - apply (law_sym _ _ L).
  - intros x y z. apply (lawful_lt_trans L).
Qed.

Lemma N_compare_laws : ord_laws N.compare.
Proof.
  split.
  - intros. apply N.compare_eq_iff.
  - intros. symmetry. now rewrite <- N.compare_antisym.
  - intros x y z H1 H2. rewrite N.compare_lt_iff in *. lia.
Qed.
Lemma str_eqb_spec a b : str_eqb a b = true <-> a = b.
Proof. unfold str_eqb. destruct (list_eq_dec N.eq_dec a b); split; congruence. Qed.
Lemma str_cmp_laws : ord_laws str_cmp.
Proof. apply (list_cmp_laws N_compare_laws). Qed.
Lemma str_lawful : lawful str_eqb str_cmp.
Proof. apply lawful_of_ord; [apply str_cmp_laws|apply str_eqb_spec]. Qed.

(** ** Terms *)
Section Terms.
  Context {iri_eqb tag_eqb : text -> text -> bool} {iri_cmp tag_cmp : text -> text -> comparison}.
  Context (LI : lawful iri_eqb iri_cmp) (LT : lawful tag_eqb tag_cmp).

  Lemma ltype_lawful : lawful (ltype_eqb iri_eqb tag_eqb) (ltype_cmp iri_cmp tag_cmp).
  Proof.
    apply (lawful_via (fun t => match t with LAny i => inl i | LLang l => inr l end) _ _ _ _
             (lawful_sum _ _ _ _ LI LT)); now intros [i|i] [j|j].
  Qed.
  Lemma literal_lawful : lawful (literal_eqb iri_eqb tag_eqb) (literal_cmp iri_cmp tag_cmp).
  Proof.
    now apply (lawful_via literal_into_parts _ _ _ _ (lawful_pair _ _ _ _ str_lawful ltype_lawful)).
  Qed.
  Lemma term_lawful : lawful (term_eqb iri_eqb tag_eqb) (term_cmp iri_cmp tag_cmp).
  Proof.
    apply (lawful_via (fun t => match t with TIri i => inl i | TLit l => inr l end) _ _ _ _
             (lawful_sum _ _ _ _ LI literal_lawful)); now intros [i|i] [j|j].
  Qed.
  Lemma local_lawful : lawful (local_eqb iri_eqb tag_eqb) (local_cmp iri_cmp tag_cmp).
  Proof.
    apply (lawful_via (fun t => match t with Anonymous i => inl i | Named l => inr l end) _ _ _ _
             (lawful_sum _ _ _ _ str_lawful term_lawful)); now intros [i|i] [j|j].
  Qed.
  Lemma id_ref_lawful : lawful (id_ref_eqb iri_eqb) (id_ref_cmp iri_cmp).
  Proof.
    apply (lawful_via (fun t => match t with RIBlank i => inl i | RIIri l => inr l end) _ _ _ _
             (lawful_sum _ _ _ _ str_lawful LI)); now intros [i|i] [j|j].
  Qed.
End Terms.

Section Cross.
  Context (ie te : text -> text -> bool) (ic tc : text -> text -> comparison).

  (** Mixed comparisons are those of the owned values. *)
  Lemma ltype_ref_eq_owned a b : ltype_ref_eq ie te a b = ltype_eqb ie te (ltype_ref_into_owned a) b.
  Proof. now destruct a, b. Qed.
  Lemma ltype_eq_ref_owned a b : ltype_eq_ref ie te a b = ltype_eqb ie te a (ltype_ref_into_owned b).
  Proof. now destruct a, b. Qed.
  Lemma ltype_ref_cmp_owned a b :
    ltype_ref_partial_cmp ic tc a b = Some (ltype_cmp ic tc (ltype_ref_into_owned a) b).
  Proof. now destruct a, b. Qed.
  Lemma ltype_cmp_ref_owned a b :
    ltype_partial_cmp_ref ic tc a b = Some (ltype_cmp ic tc a (ltype_ref_into_owned b)).
  Proof. now destruct a, b. Qed.

  Lemma literal_eq_ref_owned a b :
    literal_eq_ref ie te a b = literal_eqb ie te a (literal_ref_to_owned b).
  Proof.
    unfold literal_eq_ref, literal_eqb. rewrite ltype_eq_ref_owned. cbn. apply andb_comm.
  Qed.
  Lemma literal_ref_eq_owned a b :
    literal_ref_eq ie te a b = literal_eqb ie te (literal_ref_to_owned a) b.
  Proof.
    unfold literal_ref_eq, literal_eqb. rewrite ltype_ref_eq_owned. cbn. apply andb_comm.
  Qed.
  Lemma literal_cmp_ref_owned a b :
    literal_partial_cmp_ref ic tc a b = Some (literal_cmp ic tc a (literal_ref_to_owned b)).
  Proof.
    unfold literal_partial_cmp_ref, literal_cmp. rewrite ltype_cmp_ref_owned.
    cbn [bind literal_ref_to_owned literal_new l_value l_type]. unfold then_cmp.
    now destruct (str_cmp _ _).
  Qed.
  Lemma literal_ref_cmp_owned a b :
    literal_ref_partial_cmp ic tc a b = Some (literal_cmp ic tc (literal_ref_to_owned a) b).
  Proof.
    unfold literal_ref_partial_cmp, literal_cmp. rewrite ltype_ref_cmp_owned.
    cbn [bind literal_ref_to_owned literal_new l_value l_type]. unfold then_cmp.
    now destruct (str_cmp _ _).
  Qed.

  Lemma term_ref_eq_owned a b : term_ref_eq ie te a b = term_eqb ie te (term_ref_to_owned a) b.
  Proof. destruct a, b; cbn; try reflexivity. apply literal_ref_eq_owned. Qed.
  Lemma term_ref_cmp_owned a b :
    term_ref_partial_cmp ic tc a b = Some (term_cmp ic tc (term_ref_to_owned a) b).
  Proof. destruct a, b; cbn; try reflexivity. apply literal_ref_cmp_owned. Qed.
  Lemma local_ref_eq_owned a b : local_ref_eq ie te a b = local_eqb ie te (local_ref_to_owned a) b.
  Proof. destruct a, b; cbn; try reflexivity. apply term_ref_eq_owned. Qed.
  Lemma local_ref_cmp_owned a b :
    local_ref_partial_cmp ic tc a b = Some (local_cmp ic tc (local_ref_to_owned a) b).
  Proof. destruct a, b; cbn; try reflexivity. apply term_ref_cmp_owned. Qed.

  (** The borrowed types are ordered like the owned ones. *)
  Lemma ltype_refs_cmp a b : ltype_ref_cmp ic tc (ltype_as_ref a) (ltype_as_ref b) = ltype_cmp ic tc a b.
  Proof. now destruct a, b. Qed.
  Lemma literal_refs_cmp a b :
    literal_ref_cmp ic tc (literal_as_ref a) (literal_as_ref b) = literal_cmp ic tc a b.
  Proof. unfold literal_ref_cmp, literal_cmp. cbn [literal_as_ref lr_value lr_type]. now rewrite ltype_refs_cmp. Qed.
  Lemma term_refs_cmp a b : term_ref_cmp ic tc (term_as_ref a) (term_as_ref b) = term_cmp ic tc a b.
  Proof. destruct a, b; cbn; try reflexivity. apply literal_refs_cmp. Qed.
  Lemma local_refs_cmp a b : local_ref_cmp ic tc (local_as_ref a) (local_as_ref b) = local_cmp ic tc a b.
  Proof. destruct a, b; cbn; try reflexivity. apply term_refs_cmp. Qed.
End Cross.

(** Round trips. *)
Lemma ltype_ref_round t : ltype_ref_into_owned (ltype_as_ref t) = t.
Proof. now destruct t. Qed.
Lemma ltype_cow_round t : ltype_cow_into_owned (ltype_as_cow t) = t.
Proof. now destruct t. Qed.
Lemma ltype_into_cow_round t : ltype_cow_into_owned (ltype_into_cow t) = t.
Proof. now destruct t. Qed.
Lemma ltype_cow_from_ref_round r : ltype_cow_as_ref (ltype_cow_from_ref r) = r.
Proof. now destruct r. Qed.
Lemma literal_ref_round l : literal_ref_to_owned (literal_as_ref l) = l.
Proof. destruct l as [v t]. unfold literal_ref_to_owned. cbn. now rewrite ltype_ref_round. Qed.
Lemma literal_cow_round l : literal_cow_into_owned (literal_as_cow l) = l.
Proof. destruct l as [v t]. unfold literal_cow_into_owned. cbn. now rewrite ltype_cow_round. Qed.
Lemma literal_into_cow_round l : literal_cow_into_owned (literal_into_cow l) = l.
Proof. destruct l as [v t]. unfold literal_cow_into_owned. cbn. now rewrite ltype_into_cow_round. Qed.
Lemma literal_cow_from_round l : literal_cow_into_owned (literal_cow_from l) = l.
Proof. now destruct l as [v [i|t]]. Qed.
Lemma literal_ref_cow_round r : literal_cow_as_ref (literal_ref_into_cow r) = r.
Proof. now destruct r as [v [i|t]]. Qed.
Lemma term_ref_round t : term_ref_to_owned (term_as_ref t) = t.
Proof. destruct t as [i|l]; cbn; [reflexivity|]. now rewrite literal_ref_round. Qed.
Lemma term_cow_round t : term_cow_into_owned (term_as_cow t) = t.
Proof. destruct t as [i|l]; cbn; [reflexivity|]. now rewrite literal_cow_round. Qed.
Lemma term_into_cow_round t : term_cow_into_owned (term_into_cow t) = t.
Proof. destruct t as [i|l]; cbn; [reflexivity|]. now rewrite literal_into_cow_round. Qed.
Lemma local_ref_round t : local_ref_to_owned (local_as_ref t) = t.
Proof. destruct t as [i|l]; cbn; [reflexivity|]. now rewrite term_ref_round. Qed.
Lemma id_ref_round i : id_ref_into_owned (id_as_ref i) = i.
Proof. now destruct i. Qed.

(** The references have the same contents as the owned values. *)
Lemma literal_ref_round' r : literal_as_ref (literal_ref_to_owned r) = r.
Proof. now destruct r as [v [i|t]]. Qed.
Lemma term_ref_round' r : term_as_ref (term_ref_to_owned r) = r.
Proof. destruct r as [i|l]; cbn; [reflexivity|]. now rewrite literal_ref_round'. Qed.
Lemma local_ref_round' r : local_as_ref (local_ref_to_owned r) = r.
Proof. destruct r as [i|l]; cbn; [reflexivity|]. now rewrite term_ref_round'. Qed.
Lemma id_ref_round' r : id_as_ref (id_ref_into_owned r) = r.
Proof. now destruct r. Qed.

(** Hashing *)
Section Hash.
  Context {ie te : text -> text -> bool} {ih th : text -> list token}.
  Context (HI : hash_agrees ie ih) (HT : hash_agrees te th).

  Lemma ltype_hash_agrees : hash_agrees (ltype_eqb ie te) (ltype_hash ih th).
  Proof. intros [i|i] [j|j]; cbn; intros H; try discriminate; f_equal; auto. Qed.
  Lemma literal_hash_agrees : hash_agrees (literal_eqb ie te) (literal_hash ih th).
  Proof.
    intros a b H. apply andb_prop in H. destruct H as [H1 H2]. unfold literal_hash.
    apply str_eqb_spec in H1. rewrite H1. f_equal. now apply ltype_hash_agrees.
  Qed.
  Lemma term_hash_agrees : hash_agrees (term_eqb ie te) (term_hash ih th).
  Proof.
    intros [i|i] [j|j]; cbn; intros H; try discriminate; [now apply HI|now apply literal_hash_agrees].
  Qed.
  Lemma local_hash_agrees : hash_agrees (local_eqb ie te) (local_hash ih th).
  Proof.
    intros [i|i] [j|j]; cbn; intros H; try discriminate; [|now apply term_hash_agrees].
    apply str_eqb_spec in H. now subst.
  Qed.
  Lemma literal_ref_hash_owned l : literal_ref_hash ih th (literal_as_ref l) = literal_hash ih th l.
  Proof. now destruct l as [v [i|t]]. Qed.
  (** A borrowed literal finds an owned key: what is equivalent hashes alike. *)
  Lemma literal_equivalent_hash r key : literal_ref_equivalent ie te r key = true ->
    literal_ref_hash ih th r = literal_hash ih th key.
  Proof.
    unfold literal_ref_equivalent. rewrite literal_ref_eq_owned. intros H.
    apply literal_hash_agrees in H. rewrite <- H, <- literal_ref_hash_owned.
    now rewrite literal_ref_round'.
  Qed.
End Hash.

(** Borrowing as a string: the literal's order refines that of the strings. *)
Section Borrow.
  Context (ie te : text -> text -> bool) (ic tc : text -> text -> comparison).
  Lemma borrow_eq_sound a b : literal_eqb ie te a b = true ->
    str_eqb (literal_borrow a) (literal_borrow b) = true.
  Proof. intros H. now apply andb_prop in H. Qed.
  Lemma borrow_cmp_refines a b : str_cmp (literal_borrow a) (literal_borrow b) <> Eq ->
    literal_cmp ic tc a b = str_cmp (literal_borrow a) (literal_borrow b).
  Proof. unfold literal_borrow, literal_cmp. now destruct (str_cmp _ _). Qed.
  Lemma borrow_same_type a b : lawful ie ic -> lawful te tc -> l_type a = l_type b ->
    literal_eqb ie te a b = str_eqb (literal_borrow a) (literal_borrow b) /\
    literal_cmp ic tc a b = str_cmp (literal_borrow a) (literal_borrow b).
  Proof.
    intros LI LT E. unfold literal_eqb, literal_cmp, literal_borrow. rewrite E.
    rewrite (lawful_eqb_refl (ltype_lawful LI LT)), (lawful_refl (ltype_lawful LI LT)).
    rewrite andb_true_r. split; [reflexivity|]. now destruct (str_cmp _ _).
  Qed.
End Borrow.

(** ** The order of strings is that of their bytes. *)
Local Open Scope N_scope.
Section Utf8.
  Let bcmp := list_cmp N.compare.

  Lemma bcmp_lt x y l m : x < y -> bcmp (x :: l) (y :: m) = Lt.
  Proof. intros H. unfold bcmp; cbn. now rewrite (proj2 (N.compare_lt_iff x y) H). Qed.
  Lemma bcmp_le x y l m : x < y \/ (x = y /\ bcmp l m = Lt) -> bcmp (x :: l) (y :: m) = Lt.
  Proof.
    intros [H|[-> H]]; [now apply bcmp_lt|]. unfold bcmp; cbn. now rewrite N.compare_refl.
  Qed.

  Lemma utf8_char_lt c d l m : c < d -> d < 0x110000 ->
    bcmp (utf8_char c ++ l) (utf8_char d ++ m) = Lt.
  Proof.
    intros H B. unfold utf8_char.
    assert (Q : forall x y k, k <> 0 -> x < y -> x / k < y / k \/ (x / k = y / k /\ x mod k < y mod k)). {
      intros x y k K L. pose proof (N.div_mod x k K) as E1. pose proof (N.div_mod y k K) as E2.
      pose proof (N.mod_lt x k K). pose proof (N.mod_lt y k K).
      pose proof (N.div_le_mono x y k K ltac:(lia)) as D.
      destruct (N.eq_dec (x / k) (y / k)) as [E|E]; [right|left; lia].
      split; [assumption|]. rewrite E in E1. lia. }
    assert (Q2 : forall x, x / 0x1000 = x / 0x40 / 0x40)
      by (intros x; rewrite N.div_div by discriminate; reflexivity).
    assert (Q3 : forall x, x / 0x40000 = x / 0x40 / 0x40 / 0x40)
      by (intros x; rewrite !N.div_div by discriminate; reflexivity).
    assert (U : forall x, x < 0x110000 -> x / 0x40000 < 8)
      by (intros x X; apply N.div_lt_upper_bound; [discriminate|lia]).
    assert (U2 : forall x, x < 0x800 -> x / 0x40 < 0x20)
      by (intros x X; apply N.div_lt_upper_bound; [discriminate|lia]).
    assert (U3 : forall x, x < 0x10000 -> x / 0x1000 < 0x10)
      by (intros x X; apply N.div_lt_upper_bound; [discriminate|lia]).
    destruct (N.ltb_spec c 0x80) as [C1|C1]; [|destruct (N.ltb_spec c 0x800) as [C2|C2];
      [|destruct (N.ltb_spec c 0x10000) as [C3|C3]]];
    (destruct (N.ltb_spec d 0x80) as [E1|E1]; [|destruct (N.ltb_spec d 0x800) as [E2|E2];
      [|destruct (N.ltb_spec d 0x10000) as [E3|E3]]]); try lia; cbn [app].
    - now apply bcmp_lt.
    - apply bcmp_lt. generalize (d / 0x40). lia.
    - apply bcmp_lt. generalize (d / 0x1000). lia.
    - apply bcmp_lt. generalize (d / 0x40000). lia.
    - apply bcmp_le. destruct (Q c d 0x40 ltac:(discriminate) H) as [A|[A A']];
        [left; revert A; generalize (c / 0x40) (d / 0x40); lia|].
      right. split; [now rewrite A|]. apply bcmp_lt.
      revert A'. generalize (c mod 0x40) (d mod 0x40). lia.
    - apply bcmp_lt. specialize (U2 c C2). revert U2. generalize (c / 0x40) (d / 0x1000). lia.
    - apply bcmp_lt. specialize (U2 c C2). revert U2. generalize (c / 0x40) (d / 0x40000). lia.
    - apply bcmp_le. rewrite !Q2.
      destruct (Q c d 0x40 ltac:(discriminate) H) as [A|[A A']].
      + destruct (Q (c / 0x40) (d / 0x40) 0x40 ltac:(discriminate) A) as [F|[F F']].
        * left. revert F. generalize (c / 0x40 / 0x40) (d / 0x40 / 0x40). lia.
        * right. split; [now rewrite F|]. apply bcmp_lt. revert F'.
          generalize ((c / 0x40) mod 0x40) ((d / 0x40) mod 0x40). lia.
      + right. rewrite A. split; [reflexivity|]. apply bcmp_le. right. split; [reflexivity|].
        apply bcmp_lt. revert A'. generalize (c mod 0x40) (d mod 0x40). lia.
    - apply bcmp_lt. specialize (U3 c C3). revert U3. generalize (c / 0x1000) (d / 0x40000). lia.
    - apply bcmp_le.
      rewrite !Q3, !Q2.
      destruct (Q c d 0x40 ltac:(discriminate) H) as [A|[A A']].
      + destruct (Q (c / 0x40) (d / 0x40) 0x40 ltac:(discriminate) A) as [F|[F F']].
        * destruct (Q (c / 0x40 / 0x40) (d / 0x40 / 0x40) 0x40 ltac:(discriminate) F) as [G|[G G']].
          -- left. revert G. generalize (c / 0x40 / 0x40 / 0x40) (d / 0x40 / 0x40 / 0x40). lia.
          -- right. split; [now rewrite G|]. apply bcmp_lt. revert G'.
             generalize ((c / 0x40 / 0x40) mod 0x40) ((d / 0x40 / 0x40) mod 0x40). lia.
        * right. split; [now rewrite F|]. apply bcmp_le. right. split; [now rewrite F|].
          apply bcmp_lt. revert F'. generalize ((c / 0x40) mod 0x40) ((d / 0x40) mod 0x40). lia.
      + rewrite A. right. split; [reflexivity|]. apply bcmp_le. right. split; [reflexivity|].
        apply bcmp_le. right. split; [reflexivity|].
        apply bcmp_lt. revert A'. generalize (c mod 0x40) (d mod 0x40). lia.
  Qed.

  Lemma bcmp_prefix p l m : bcmp (p ++ l) (p ++ m) = bcmp l m.
  Proof.
    unfold bcmp. induction p as [|x p IH]; cbn; [reflexivity|]. now rewrite N.compare_refl.
  Qed.

  Lemma utf8_order a : forall b, Forall (fun c => c < 0x110000) a -> Forall (fun c => c < 0x110000) b ->
    str_cmp a b = bcmp (utf8 a) (utf8 b).
  Proof.
    assert (NE : forall c, exists x l, utf8_char c = x :: l).
    { intros c. unfold utf8_char. destruct (c <? 0x80), (c <? 0x800), (c <? 0x10000); eauto. }
    induction a as [|c a IH]; intros [|d b] HA HB.
    - reflexivity.
    - cbn. destruct (NE d) as (x & l & ->). reflexivity.
    - cbn. destruct (NE c) as (x & l & ->). reflexivity.
    - inv HA. inv HB. cbn [utf8 flat_map]. fold (utf8 a) (utf8 b).
      unfold str_cmp in *. cbn [list_cmp]. destruct (N.compare_spec c d) as [->|L|L].
      + rewrite bcmp_prefix. now apply IH.
      + symmetry. now apply utf8_char_lt.
      + pose proof (ord_sym _ (list_cmp_laws N_compare_laws) (utf8_char d ++ utf8 b)
                      (utf8_char c ++ utf8 a)) as S.
        fold bcmp in S. rewrite (utf8_char_lt d c) in S by assumption. symmetry. exact S.
  Qed.
End Utf8.

(** ** Summaries *)
Lemma all_lawful iri_eqb iri_cmp tag_eqb tag_cmp : lawful iri_eqb iri_cmp -> lawful tag_eqb tag_cmp ->
  lawful (ltype_eqb iri_eqb tag_eqb) (ltype_cmp iri_cmp tag_cmp) /\
  lawful (literal_eqb iri_eqb tag_eqb) (literal_cmp iri_cmp tag_cmp) /\
  lawful (term_eqb iri_eqb tag_eqb) (term_cmp iri_cmp tag_cmp) /\
  lawful (local_eqb iri_eqb tag_eqb) (local_cmp iri_cmp tag_cmp) /\
  lawful (id_ref_eqb iri_eqb) (id_ref_cmp iri_cmp).
Proof.
  intros A B.
  exact (conj (ltype_lawful A B) (conj (literal_lawful A B) (conj (term_lawful A B)
    (conj (local_lawful A B) (id_ref_lawful A))))).
Qed.

Lemma mixed_eq iri_eqb tag_eqb :
  (forall a b, ltype_ref_eq iri_eqb tag_eqb (ltype_as_ref a) b = ltype_eqb iri_eqb tag_eqb a b) /\
  (forall a b, ltype_eq_ref iri_eqb tag_eqb a (ltype_as_ref b) = ltype_eqb iri_eqb tag_eqb a b) /\
  (forall a b, literal_ref_eq iri_eqb tag_eqb (literal_as_ref a) b = literal_eqb iri_eqb tag_eqb a b) /\
  (forall a b, literal_eq_ref iri_eqb tag_eqb a (literal_as_ref b) = literal_eqb iri_eqb tag_eqb a b) /\
  (forall a b, literal_ref_equivalent iri_eqb tag_eqb (literal_as_ref a) b =
               literal_eqb iri_eqb tag_eqb a b) /\
  (forall a b, term_ref_eq iri_eqb tag_eqb (term_as_ref a) b = term_eqb iri_eqb tag_eqb a b) /\
  (forall a b, local_ref_eq iri_eqb tag_eqb (local_as_ref a) b = local_eqb iri_eqb tag_eqb a b).
Proof.
  repeat apply conj; intros a b;
    rewrite ?ltype_ref_eq_owned, ?ltype_eq_ref_owned, ?literal_ref_eq_owned, ?literal_eq_ref_owned,
      ?term_ref_eq_owned, ?local_ref_eq_owned, ?ltype_ref_round, ?literal_ref_round, ?term_ref_round,
      ?local_ref_round; reflexivity.
Qed.

Lemma mixed_cmp iri_cmp tag_cmp :
  (forall a b, ltype_ref_partial_cmp iri_cmp tag_cmp (ltype_as_ref a) b =
               Some (ltype_cmp iri_cmp tag_cmp a b)) /\
  (forall a b, ltype_partial_cmp_ref iri_cmp tag_cmp a (ltype_as_ref b) =
               Some (ltype_cmp iri_cmp tag_cmp a b)) /\
  (forall a b, literal_ref_partial_cmp iri_cmp tag_cmp (literal_as_ref a) b =
               Some (literal_cmp iri_cmp tag_cmp a b)) /\
  (forall a b, literal_partial_cmp_ref iri_cmp tag_cmp a (literal_as_ref b) =
               Some (literal_cmp iri_cmp tag_cmp a b)) /\
  (forall a b, term_ref_partial_cmp iri_cmp tag_cmp (term_as_ref a) b =
               Some (term_cmp iri_cmp tag_cmp a b)) /\
  (forall a b, local_ref_partial_cmp iri_cmp tag_cmp (local_as_ref a) b =
               Some (local_cmp iri_cmp tag_cmp a b)).
Proof.
  repeat apply conj; intros a b;
    rewrite ?ltype_ref_cmp_owned, ?ltype_cmp_ref_owned, ?literal_ref_cmp_owned, ?literal_cmp_ref_owned,
      ?term_ref_cmp_owned, ?local_ref_cmp_owned, ?ltype_ref_round, ?literal_ref_round, ?term_ref_round,
      ?local_ref_round; reflexivity.
Qed.

Lemma borrowed_cmp iri_cmp tag_cmp :
  (forall a b, ltype_ref_cmp iri_cmp tag_cmp (ltype_as_ref a) (ltype_as_ref b) =
               ltype_cmp iri_cmp tag_cmp a b) /\
  (forall a b, literal_ref_cmp iri_cmp tag_cmp (literal_as_ref a) (literal_as_ref b) =
               literal_cmp iri_cmp tag_cmp a b) /\
  (forall a b, term_ref_cmp iri_cmp tag_cmp (term_as_ref a) (term_as_ref b) =
               term_cmp iri_cmp tag_cmp a b) /\
  (forall a b, local_ref_cmp iri_cmp tag_cmp (local_as_ref a) (local_as_ref b) =
               local_cmp iri_cmp tag_cmp a b).
Proof.
  exact (conj (ltype_refs_cmp _ _) (conj (literal_refs_cmp _ _)
    (conj (term_refs_cmp _ _) (local_refs_cmp _ _)))).
Qed.

(** Borrowed values as owned ones. *)
Lemma borrowed_eq iri_eqb tag_eqb :
  (forall a b, ltype_ref_eqb iri_eqb tag_eqb (ltype_as_ref a) (ltype_as_ref b) =
               ltype_eqb iri_eqb tag_eqb a b) /\
  (forall a b, literal_ref_eqb iri_eqb tag_eqb (literal_as_ref a) (literal_as_ref b) =
               literal_eqb iri_eqb tag_eqb a b) /\
  (forall a b, term_ref_eqb iri_eqb tag_eqb (term_as_ref a) (term_as_ref b) =
               term_eqb iri_eqb tag_eqb a b) /\
  (forall a b, local_ref_eqb iri_eqb tag_eqb (local_as_ref a) (local_as_ref b) =
               local_eqb iri_eqb tag_eqb a b).
Proof.
  assert (A : forall a b, ltype_ref_eqb iri_eqb tag_eqb (ltype_as_ref a) (ltype_as_ref b) =
                          ltype_eqb iri_eqb tag_eqb a b) by (intros [|] [|]; reflexivity).
  assert (B : forall a b, literal_ref_eqb iri_eqb tag_eqb (literal_as_ref a) (literal_as_ref b) =
                          literal_eqb iri_eqb tag_eqb a b)
    by (intros [v t] [w u]; unfold literal_ref_eqb, literal_eqb; cbn; now rewrite A).
  assert (C : forall a b, term_ref_eqb iri_eqb tag_eqb (term_as_ref a) (term_as_ref b) =
                          term_eqb iri_eqb tag_eqb a b)
    by (intros [|] [|]; cbn -[literal_ref_eqb literal_eqb]; auto; apply B).
  repeat split; auto.
  intros [|] [|]; cbn -[term_ref_eqb term_eqb]; auto; apply C.
Qed.

(** Copy-on-write literals compare and hash as the owned ones. *)
Lemma cow_as_owned iri_eqb iri_cmp tag_eqb tag_cmp iri_hash tag_hash :
  (forall a b, ltype_cow_eqb iri_eqb tag_eqb a b =
               ltype_eqb iri_eqb tag_eqb (ltype_cow_into_owned a) (ltype_cow_into_owned b)) /\
  (forall a b, ltype_cow_cmp iri_cmp tag_cmp a b =
               ltype_cmp iri_cmp tag_cmp (ltype_cow_into_owned a) (ltype_cow_into_owned b)) /\
  (forall a, ltype_cow_hash iri_hash tag_hash a = ltype_hash iri_hash tag_hash (ltype_cow_into_owned a)) /\
  (forall a b, literal_cow_eqb iri_eqb tag_eqb a b =
               literal_eqb iri_eqb tag_eqb (literal_cow_into_owned a) (literal_cow_into_owned b)) /\
  (forall a b, literal_cow_cmp iri_cmp tag_cmp a b =
               literal_cmp iri_cmp tag_cmp (literal_cow_into_owned a) (literal_cow_into_owned b)) /\
  (forall a, literal_cow_hash iri_hash tag_hash a =
             literal_hash iri_hash tag_hash (literal_cow_into_owned a)).
Proof.
  assert (A : forall a b, ltype_cow_eqb iri_eqb tag_eqb a b =
               ltype_eqb iri_eqb tag_eqb (ltype_cow_into_owned a) (ltype_cow_into_owned b))
    by (intros [|] [|]; reflexivity).
  assert (B : forall a b, ltype_cow_cmp iri_cmp tag_cmp a b =
               ltype_cmp iri_cmp tag_cmp (ltype_cow_into_owned a) (ltype_cow_into_owned b))
    by (intros [|] [|]; reflexivity).
  assert (C : forall a, ltype_cow_hash iri_hash tag_hash a =
               ltype_hash iri_hash tag_hash (ltype_cow_into_owned a)) by (intros [|]; reflexivity).
  repeat split; auto.
  - intros [v t] [w u]; unfold literal_cow_eqb, literal_eqb; cbn; now rewrite A.
  - intros [v t] [w u]; unfold literal_cow_cmp, literal_cmp; cbn; now rewrite B.
  - intros [v t]; unfold literal_cow_hash, literal_hash; cbn; now rewrite C.
Qed.

Lemma all_hash_agree iri_eqb iri_hash tag_eqb tag_hash :
  hash_agrees iri_eqb iri_hash -> hash_agrees tag_eqb tag_hash ->
  hash_agrees (ltype_eqb iri_eqb tag_eqb) (ltype_hash iri_hash tag_hash) /\
  hash_agrees (literal_eqb iri_eqb tag_eqb) (literal_hash iri_hash tag_hash) /\
  hash_agrees (term_eqb iri_eqb tag_eqb) (term_hash iri_hash tag_hash) /\
  hash_agrees (local_eqb iri_eqb tag_eqb) (local_hash iri_hash tag_hash) /\
  (forall r key, literal_ref_equivalent iri_eqb tag_eqb r key = true ->
     literal_ref_hash iri_hash tag_hash r = literal_hash iri_hash tag_hash key).
Proof.
  intros A B.
  exact (conj (ltype_hash_agrees A B) (conj (literal_hash_agrees A B) (conj (term_hash_agrees A B)
    (conj (local_hash_agrees A B) (literal_equivalent_hash A B))))).
Qed.

Lemma ltype_rounds t :
  ltype_ref_into_owned (ltype_as_ref t) = t /\ ltype_cow_into_owned (ltype_as_cow t) = t /\
  ltype_cow_into_owned (ltype_into_cow t) = t /\
  ltype_cow_into_owned (ltype_cow_from_ref (ltype_as_ref t)) = t /\
  ltype_cow_as_ref (ltype_as_cow t) = ltype_as_ref t.
Proof. destruct t; repeat split. Qed.
Lemma literal_rounds l :
  literal_ref_to_owned (literal_as_ref l) = l /\ literal_cow_into_owned (literal_as_cow l) = l /\
  literal_cow_into_owned (literal_into_cow l) = l /\ literal_cow_into_owned (literal_cow_from l) = l /\
  literal_cow_into_owned (literal_ref_into_cow (literal_as_ref l)) = l /\
  literal_cow_as_ref (literal_as_cow l) = literal_as_ref l /\
  (let (v, t) := literal_into_parts l in literal_new v t) = l.
Proof. destruct l as [v [i|t]]; repeat split. Qed.
Lemma term_rounds t :
  term_ref_to_owned (term_as_ref t) = t /\ term_cow_into_owned (term_as_cow t) = t /\
  term_cow_into_owned (term_into_cow t) = t /\ term_cow_into_owned (term_cow_from t) = t.
Proof. destruct t as [i|[v [i|t]]]; repeat split. Qed.

Lemma no_loss :
  (forall s t, local_as_ref s = local_as_ref t -> s = t) /\
  (forall s t, local_as_cow s = local_as_cow t -> s = t) /\
  (forall s t, local_into_cow s = local_into_cow t -> s = t) /\
  (forall i j, id_as_ref i = id_as_ref j -> i = j) /\
  (forall i j, id_as_cow i = id_as_cow j -> i = j).
Proof.
  repeat apply conj.
  - intros s t H. rewrite <- (local_ref_round s), H. apply local_ref_round.
  - intros [b|s] [c|t]; cbn; intros H; try discriminate; injection H as H; [now subst|].
    now rewrite <- (term_cow_round s), H, term_cow_round.
  - intros [b|s] [c|t]; cbn; intros H; try discriminate; injection H as H; [now subst|].
    now rewrite <- (term_into_cow_round s), H, term_into_cow_round.
  - intros i j H. rewrite <- (id_ref_round i), H. apply id_ref_round.
  - intros [b|s] [c|t]; cbn; congruence.
Qed.

Lemma from_facts :
  (forall i, local_as_iri (local_from_iri i) = Some i /\ local_as_literal (local_from_iri i) = None /\
             local_as_anonymous (local_from_iri i) = None) /\
  (forall l, local_as_literal (local_from_literal l) = Some (literal_as_ref l) /\
             local_as_iri (local_from_literal l) = None /\
             local_as_anonymous (local_from_literal l) = None) /\
  (forall b, local_as_anonymous (local_from_blank b) = Some b /\
             local_as_iri (local_from_blank b) = None /\
             local_as_literal (local_from_blank b) = None) /\
  (forall t, local_from_term t = match term_try_into_iri t with
                                 | inl i => local_from_iri i
                                 | inr _ => match term_into_literal t with
                                            | Some l => local_from_literal l
                                            | None => local_from_term t
                                            end
                                 end).
Proof. repeat split. now intros [i|l]. Qed.

Lemma try_into_facts :
  (forall t i, term_try_into_iri t = inl i <-> t = TIri i) /\
  (forall t u, term_try_into_iri t = inr u <-> u = t /\ term_is_literal t = true) /\
  (forall t l, term_try_into_literal t = inl l <-> t = TLit l) /\
  (forall t i, term_try_into_literal t = inr i <-> t = TIri i) /\
  (forall t l, term_into_literal t = Some l <-> t = TLit l) /\
  (forall t i, term_into_iri t = Some i <-> t = TIri i) /\
  (forall t i, term_as_iri t = Some i <-> t = TIri i) /\
  (forall t l, term_as_literal t = Some (literal_as_ref l) <-> t = TLit l).
Proof.
  repeat apply conj; intros [i|m] x; unfold term_into_iri, term_try_into_iri, term_try_into_literal,
    term_into_literal, term_as_iri, term_as_literal, term_is_literal;
    split; intros H; try discriminate; try congruence; try tauto;
    try (destruct H; congruence); try (split; congruence).
  injection H as H1 H2. rewrite <- (literal_ref_round m), <- (literal_ref_round x).
  unfold literal_as_ref. rewrite H1, H2. reflexivity.
Qed.

Lemma borrow_facts iri_eqb iri_cmp tag_eqb tag_cmp :
  lawful iri_eqb iri_cmp -> lawful tag_eqb tag_cmp -> forall a b,
    (literal_eqb iri_eqb tag_eqb a b = true ->
       str_eqb (literal_borrow a) (literal_borrow b) = true) /\
    (str_cmp (literal_borrow a) (literal_borrow b) <> Eq ->
       literal_cmp iri_cmp tag_cmp a b = str_cmp (literal_borrow a) (literal_borrow b)) /\
    (l_type a = l_type b ->
       literal_eqb iri_eqb tag_eqb a b = str_eqb (literal_borrow a) (literal_borrow b) /\
       literal_cmp iri_cmp tag_cmp a b = str_cmp (literal_borrow a) (literal_borrow b)).
Proof.
  intros A B a b. split; [apply borrow_eq_sound|]. split; [apply borrow_cmp_refines|].
  now apply borrow_same_type.
Qed.
Lemma borrow_eq_fails iri_eqb tag_eqb : exists a b,
  str_eqb (literal_borrow a) (literal_borrow b) = true /\ literal_eqb iri_eqb tag_eqb a b = false.
Proof. now exists (Literal [97] (LAny XSD_STRING)), (Literal [97] (LLang [101; 110])). Qed.
Lemma borrow_cmp_fails iri_cmp tag_cmp : exists a b,
  str_cmp (literal_borrow a) (literal_borrow b) = Eq /\ literal_cmp iri_cmp tag_cmp a b = Lt.
Proof. now exists (Literal [97] (LAny XSD_STRING)), (Literal [97] (LLang [101; 110])). Qed.
Lemma borrow_hash_fails iri_hash tag_hash l : literal_hash iri_hash tag_hash l <> str_hash (literal_borrow l).
Proof. now destruct l as [v [i|t]]. Qed.

(** ** Queries of literal types, terms and identifiers *)
Lemma type_queries :
  (forall t l, ltype_lang_tag t = Some l <-> t = LLang l) /\
  (forall t, ltype_is_lang_string t = true <-> exists l, t = LLang l) /\
  (forall i, ltype_cow_into_owned (ltype_cow_from_iri i) = LAny (cow_text i)) /\
  (forall l, ltype_cow_into_owned (ltype_cow_from_tag l) = LLang (cow_text l)) /\
  (forall t, term_is_iri t = true <-> exists i, t = TIri i) /\
  (forall t, term_is_literal t = true <-> exists l, t = TLit l) /\
  (forall t, local_is_anonymous t = true <-> exists b, t = Anonymous b) /\
  (forall i j, id_as_iri i = Some j <-> i = IIri j).
Proof.
  repeat split; try (destruct t); try (destruct i); cbn; intros H; try discriminate; try reflexivity;
    try (eexists; reflexivity); try (injection H as ->; reflexivity);
    destruct H as (x & H); discriminate.
Qed.
