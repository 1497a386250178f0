(** [{:?}] and [{:#?}] of strings and terms. *)
From Coq Require Import List Arith NArith Bool Ascii String Lia.
Import ListNotations.
From Verif Require Import Base TextModel TextProofs TripleModel DisplayModel TermModel
  WriteModel WriteSpec WriteProofs DebugModel DebugSpec DebugProofs DebugReadProofs.
Local Open Scope N_scope.

(** ** Hexadecimal numbers *)
Lemma hex_number_app s : forall t acc, hex_number acc (s ++ t) =
  match hex_number acc s with Some v => hex_number v t | None => None end.
Proof.
  induction s as [|c s IH]; intros t acc; cbn [app hex_number]; [reflexivity|].
  destruct (hex_value c); [apply IH|reflexivity].
Qed.
Lemma hex_digit_value n : n < 16 -> hex_value (hex_digit n) = Some n.
Proof.
  intros H. unfold hex_digit. destruct (N.ltb_spec n 10) as [L|L]; unfold hex_value, range.
  - replace (48 <=? 48 + n) with true by (symmetry; apply N.leb_le; lia).
    replace (48 + n <=? 57) with true by (symmetry; apply N.leb_le; lia). cbn [andb]. f_equal. lia.
  - replace (48 <=? 87 + n) with true by (symmetry; apply N.leb_le; lia).
    replace (87 + n <=? 57) with false by (symmetry; apply N.leb_gt; lia).
    replace (97 <=? 87 + n) with true by (symmetry; apply N.leb_le; lia).
    replace (87 + n <=? 102) with true by (symmetry; apply N.leb_le; lia). cbn [andb]. f_equal. lia.
Qed.
Lemma hex_loop_spec fuel : forall n acc, n < 2 ^ N.of_nat fuel ->
  exists s, hex_loop fuel n acc = s ++ acc /\ is_hex n s.
Proof.
  induction fuel as [|fuel IH]; intros n acc B; cbn [hex_loop].
  - cbn in B. assert (n = 0) as -> by lia. exists (chars "0"). split; [reflexivity|].
    split; [reflexivity|now left].
  - assert (M : n mod 16 < 16) by now apply N.mod_lt.
    assert (Q : n = 16 * (n / 16) + n mod 16) by now apply N.div_mod.
    destruct (N.eqb_spec (n / 16) 0) as [Z|Z].
    + exists [hex_digit (n mod 16)]. split; [reflexivity|]. rewrite Z in Q.
      unfold is_hex. cbn [hex_number]. rewrite hex_digit_value by exact M. split; [f_equal; lia|].
      destruct (N.eq_dec (n mod 16) 0) as [D|D]; [left; now rewrite D|]. right.
      exists (hex_digit (n mod 16)), []. split; [reflexivity|].
      unfold hex_digit. destruct (N.ltb_spec (n mod 16) 10); lia.
    + destruct (IH (n / 16) (hex_digit (n mod 16) :: acc)) as (s & E & V & F).
      { rewrite Nat2N.inj_succ, N.pow_succ_r' in B. apply N.div_lt_upper_bound; lia. }
      exists (s ++ [hex_digit (n mod 16)]). split; [now rewrite E, <- app_assoc|].
      unfold is_hex. rewrite hex_number_app, V. cbn [hex_number].
      rewrite hex_digit_value by exact M. split; [f_equal; lia|]. right.
      destruct F as [->|(c & r & -> & F)]; [|now exists c, (r ++ [hex_digit (n mod 16)])].
      cbn in V. injection V as V. lia.
Qed.
Lemma hex_is_hex n : is_hex n (hex n).
Proof.
  destruct (hex_loop_spec (N.to_nat (N.size n)) n [] (size_bound n)) as (s & E & H).
  unfold hex. now rewrite E, app_nil_r.
Qed.
Lemma hex_chars s : forall acc v, hex_number acc s = Some v -> Forall (fun c => hex_value c <> None) s.
Proof.
  induction s as [|c s IH]; intros acc v H; constructor; cbn in H.
  - intros E. now rewrite E in H.
  - destruct (hex_value c); [now apply (IH _ _ H)|discriminate].
Qed.
Lemma hex_split s : forall t x y, Forall (fun c => hex_value c <> None) s ->
  Forall (fun c => hex_value c <> None) t ->
  s ++ 125 :: x = t ++ 125 :: y -> s = t /\ x = y.
Proof.
  induction s as [|c s IH]; intros [|d t] x y F G E; cbn in E.
  - now injection E.
  - injection E as <- _. now apply Forall_inv in G.
  - injection E as -> _. now apply Forall_inv in F.
  - injection E as -> E. apply Forall_inv_tail in F, G. destruct (IH t x y F G E) as [-> ->]. easy.
Qed.
Lemma hex_read m n x y : hex m ++ 125 :: x = hex n ++ 125 :: y -> m = n /\ x = y.
Proof.
  destruct (hex_is_hex m) as [M _], (hex_is_hex n) as [N _]. intros E.
  apply hex_split in E; [|exact (hex_chars _ _ _ M)|exact (hex_chars _ _ _ N)].
  destruct E as [E ->]. rewrite E in M. split; congruence.
Qed.

Section Strings.
  Context (special : char -> bool).
  Notation escape := (escape_debug special).
  Definition str_text (s : text) : text := [34] ++ flat_map escape s ++ [34].

  Lemma escape_plain c : List.length (escape c) = 1%nat -> escape c = [c].
  Proof.
    unfold escape_debug.
    do 6 match goal with |- context [if ?b then _ else _] => destruct b; [discriminate|] end.
    destruct (_ || _); [|reflexivity].
    cbn. destruct (hex c ++ [125]); discriminate.
  Qed.
  Lemma wr_chars s : forall run p, writes (sh (d_chars special run s) p) (run ++ flat_map escape s).
  Proof.
    induction s as [|c s IH]; intros run p; unfold sh; cbn [d_chars flat_map].
    - rewrite app_nil_r. apply wr_str.
    - destruct (Nat.eqb_spec (List.length (escape c)) 1) as [E|E].
      + rewrite (escape_plain c E), app_assoc. apply IH.
      + apply (wr_try (fun W wr => w_str wr run)); [apply wr_str|].
        apply (wr_try (fun W wr => w_str wr (escape c))); [apply wr_str|]. apply (IH []).
  Qed.
  Lemma shows_text s : shows (d_text special s) (fun _ => str_text s).
  Proof.
    intros p. apply (wr_try (fun W wr => w_str wr [34])); [apply wr_str|].
    apply (wr_try (fun W wr => d_chars special [] s W wr p)); [|apply wr_str].
    apply (wr_chars s []).
  Qed.

  Lemma escape_spec c : char_text special c (escape c).
  Proof.
    unfold escape_debug.
    destruct (N.eqb_spec c 0) as [->|N0]; [constructor|].
    destruct (N.eqb_spec c 9) as [->|N9]; [constructor|].
    destruct (N.eqb_spec c 13) as [->|N13]; [constructor|].
    destruct (N.eqb_spec c 10) as [->|N10]; [constructor|].
    destruct (N.eqb_spec c 92) as [->|N92]; [apply (CT_backslash special)|].
    destruct (N.eqb_spec c 34) as [->|N34]; [constructor|].
    destruct (N.ltb_spec c 32) as [L|L];
      [apply (CT_number special c (hex c)); auto using hex_is_hex|].
    destruct (N.eqb_spec c 127) as [D|D];
      [apply (CT_number special c (hex c)); auto using hex_is_hex|].
    destruct (N.ltb_spec 127 c) as [H|H]; cbn [orb andb].
    - destruct (special c) eqn:S; [apply (CT_number special c (hex c)); auto using hex_is_hex|].
      apply CT_plain; auto.
    - apply CT_plain; auto; lia.
  Qed.
  Lemma str_quoted s : quoted special s (str_text s).
  Proof.
    exists (map escape s). split; [|now rewrite <- flat_map_concat_map].
    induction s; cbn; constructor; auto using escape_spec.
  Qed.

  (** A character of the text, then the rest. *)
  Lemma escape_head c : exists d r, escape c = d :: r /\ d <> 34.
  Proof.
    destruct (escape_spec c); try (do 2 eexists; split; [reflexivity|discriminate]).
    exists c, []. now split.
  Qed.
  Lemma escape_read c d x y : escape c ++ x = escape d ++ y -> c = d /\ x = y.
  Proof.
    unfold escape_debug. intros E.
    repeat match type of E with context [if ?a =? ?b then _ else _] =>
      destruct (N.eqb_spec a b); [subst|] end;
    repeat match type of E with context [if ?b then _ else _] => destruct b end;
    try discriminate E; try (now injection E); try (now split; injection E);
    try (exfalso; injection E; intros; subst; congruence).
    rewrite <- !app_assoc in E. apply app_inv_head in E. now apply hex_read in E.
  Qed.
  Lemma str_read s t x y : str_text s ++ x = str_text t ++ y -> s = t /\ x = y.
  Proof.
    unfold str_text. rewrite <- !app_assoc. intros E. apply app_inv_head in E. revert t E.
    induction s as [|c s IH]; intros [|d t] E; cbn [flat_map app] in E.
    - split; [easy|]. now injection E.
    - exfalso. destruct (escape_head d) as (e & r & S & N). rewrite S in E. cbn in E. congruence.
    - exfalso. destruct (escape_head c) as (e & r & S & N). rewrite S in E. cbn in E. congruence.
    - rewrite <- !app_assoc in E. apply escape_read in E. destruct E as [-> E].
      destruct (IH t E) as [-> ->]. easy.
  Qed.
End Strings.

Lemma hex_digits_ascii s : forall acc v, hex_number acc s = Some v -> forallb (range 32 126) s = true.
Proof.
  intros acc v H. apply forallb_forall. intros c I.
  apply hex_chars in H. rewrite Forall_forall in H. specialize (H c I).
  unfold hex_value, range in *.
  destruct (48 <=? c) eqn:A; destruct (c <=? 57) eqn:B; destruct (97 <=? c) eqn:D; destruct (c <=? 102) eqn:E;
    cbn in H; try congruence; apply andb_true_iff; rewrite ?N.leb_le, ?N.leb_gt in *; lia.
Qed.
Lemma good_str special class : has_ascii class ->
  (forall c, 127 < c -> special c = false -> class c) ->
  good class (d_text special) (fun s => Leaf (fun _ => str_text special s)).
Proof.
  intros C S. split.
  - intros s. apply shows_text.
  - intros p s t x y _ _ E. cbn [shown] in E. now apply str_read in E.
  - intros s. cbn [shown]. unfold str_text.
    apply all_app; [now apply all_ascii|]. apply all_app; [|now apply all_ascii].
    intros c I. apply in_flat_map in I. destruct I as (d & _ & I). revert c I.
    change (all_in class (escape_debug special d)).
    destruct (escape_spec special d) as [ | | | | | |d L N1 N2 N3 P|d h _ _ _ _ _ [H _]];
      try (now apply all_ascii).
    + intros c [<-|[]]. destruct (N.ltb_spec 127 d); [auto|]. apply C. lia.
    + apply all_app; [now apply all_ascii|]. apply all_app; [|now apply all_ascii].
      apply all_ascii; [exact C|]. exact (hex_digits_ascii _ _ _ H).
Qed.

(** ** Terms *)
Section Terms.
  Context (special : char -> bool) (class : char -> Prop) (C : has_ascii class)
    (S : forall c, 127 < c -> special c = false -> class c)
    (d_iri d_tag : text -> dval) (iri tag : text -> tree)
    (GI : good class d_iri iri) (GT : good class d_tag tag).
  Let str (s : text) : tree := Leaf (fun _ => str_text special s).
  Let GS : good class (d_text special) str := good_str special class C S.

  Lemma good_ltype : good class (d_ltype d_iri d_tag) (ltype_tree iri tag).
  Proof. good_enum C. Qed.
  Lemma shows_literal l : shows (d_literal special d_iri d_tag l)
    (fun p => shown p (literal_tree str iri tag "Literal" l)).
  Proof.
    apply shows_struct; [discriminate|].
    repeat constructor; [apply (g_shows GS)|apply (g_shows good_ltype)].
  Qed.
  Lemma reads_literal name p a b : tree_agree p (literal_tree str iri tag name a)
    (literal_tree str iri tag name b) (a = b).
  Proof.
    destruct a, b. eapply agree_imp; [apply agree_struct|].
    - apply (g_reads GS).
    - apply (g_reads good_ltype).
    - cbn. intros [-> ->]. reflexivity.
  Qed.
  Lemma class_literal name a : forallb (range 32 126) (chars name) = true ->
    all_in class (shown false (literal_tree str iri tag name a)).
  Proof.
    intros N. apply all_struct; [exact C|exact N|].
    intros f [<-|[<-|[]]]; (split; [reflexivity|]); [apply (g_class GS)|apply (g_class good_ltype)].
  Qed.
  Lemma good_literal : good class (d_literal special d_iri d_tag) (literal_tree str iri tag "Literal").
  Proof. split; [exact shows_literal|apply reads_literal|intros a; now apply class_literal]. Qed.
  Lemma good_term : good class (d_term special d_iri d_tag) (term_tree str iri tag "Literal").
  Proof. pose proof good_literal. good_enum C. Qed.
  Lemma good_local : good class (d_local special d_iri d_tag) (local_tree str iri tag "Literal").
  Proof. pose proof good_term. good_enum C. Qed.

  (** Borrowed forms. *)
  Lemma good_ltype_ref : good class (d_ltype_ref d_iri d_tag)
    (fun t => ltype_tree iri tag (ltype_ref_into_owned t)).
  Proof. good_enum C. Qed.
  Lemma good_literal_ref : good class (d_literal_ref special d_iri d_tag)
    (fun l => literal_tree str iri tag "LiteralRef" (literal_ref_to_owned l)).
  Proof.
    split.
    - intros l. apply shows_struct; [discriminate|].
      repeat constructor; [apply (g_shows GS)|apply (g_shows good_ltype_ref)].
    - intros p a b. eapply agree_imp; [apply reads_literal|]. destruct a as [v [i|i]], b as [w [j|j]];
        unfold literal_ref_to_owned, literal_new; cbn; intros E; congruence.
    - intros a. now apply class_literal.
  Qed.
  Lemma good_term_ref : good class (d_term_ref special d_iri d_tag)
    (fun t => term_tree str iri tag "LiteralRef" (term_ref_to_owned t)).
  Proof. pose proof good_literal_ref as GL. pose proof (g_shows GL). pose proof (g_reads GL).
    pose proof (g_class GL). good_enum C. Qed.
  Lemma good_local_ref : good class (d_local_ref special d_iri d_tag)
    (fun t => local_tree str iri tag "LiteralRef" (local_ref_to_owned t)).
  Proof. pose proof good_term_ref as GL. pose proof (g_shows GL). pose proof (g_reads GL).
    pose proof (g_class GL). good_enum C. Qed.
  Lemma good_id_ref : good class (d_id_ref special d_iri) (fun i => id_tree str iri (id_ref_into_owned i)).
  Proof. good_enum C. Qed.

  (** Copy-on-write forms. *)
  Lemma shows_ltype_cow t : shows (d_ltype_cow d_iri d_tag t)
    (fun p => shown p (ltype_tree iri tag (ltype_cow_into_owned t))).
  Proof. destruct t; good_shows. Qed.
  Lemma shows_literal_cow l : shows (d_literal_cow special d_iri d_tag l)
    (fun p => shown p (literal_tree str iri tag "CowLiteral" (literal_cow_into_owned l))).
  Proof.
    apply shows_struct; [discriminate|].
    repeat constructor; [apply (g_shows GS)|apply shows_ltype_cow].
  Qed.
End Terms.

(** ** There is one text for each string *)
Lemma hex_value_inj c d v : hex_value c = Some v -> hex_value d = Some v -> c = d.
Proof.
  unfold hex_value, range. intros A B.
  repeat match goal with H : context [?a <=? ?b] |- _ => destruct (N.leb_spec a b) end;
    cbn in A, B; try discriminate; injection A as A; injection B as B; lia.
Qed.
Lemma hex_value_bound c v : hex_value c = Some v -> v < 16.
Proof.
  unfold hex_value, range. intros A.
  repeat match goal with H : context [?a <=? ?b] |- _ => destruct (N.leb_spec a b) end;
    cbn in A; try discriminate; injection A as A; lia.
Qed.
Lemma hex_number_inj s : forall t a b v, hex_number a s = Some v -> hex_number b t = Some v ->
  List.length s = List.length t -> a = b /\ s = t.
Proof.
  induction s as [|c s IH] using rev_ind; intros t a b v A B E.
  - destruct t; [|discriminate]. cbn in A, B. split; congruence.
  - destruct t as [|d t _] using rev_ind; [rewrite app_length in E; cbn in E; lia|].
    rewrite !app_length in E. cbn in E.
    rewrite hex_number_app in A, B. cbn [hex_number] in A, B.
    destruct (hex_number a s) as [u|] eqn:U; [|discriminate].
    destruct (hex_number b t) as [w|] eqn:V; [|discriminate].
    destruct (hex_value c) as [x|] eqn:X; [|discriminate].
    destruct (hex_value d) as [y|] eqn:Y; [|discriminate].
    pose proof (hex_value_bound _ _ X). pose proof (hex_value_bound _ _ Y).
    assert (A' : 16 * u + x = v) by congruence. assert (B' : 16 * w + y = v) by congruence.
    assert (u = w) by lia. assert (x = y) by lia. subst w y.
    destruct (IH t a b u U V) as [-> ->]; [lia|].
    split; [easy|]. now rewrite (hex_value_inj c d x X Y).
Qed.
(** A number of [n] digits that does not begin with zero. *)
Lemma hex_number_bounds s : forall a v, hex_number a s = Some v ->
  a * 16 ^ N.of_nat (List.length s) <= v < (a + 1) * 16 ^ N.of_nat (List.length s).
Proof.
  induction s as [|c s IH]; intros a v H; cbn [hex_number] in H.
  - injection H as <-. cbn. lia.
  - destruct (hex_value c) as [x|] eqn:X; [|discriminate]. apply hex_value_bound in X.
    apply IH in H. cbn [List.length]. rewrite Nat2N.inj_succ, N.pow_succ_r'.
    set (k := 16 ^ N.of_nat (List.length s)) in *. nia.
Qed.
Lemma is_hex_length n s : is_hex n s -> n = 0 /\ s = chars "0" \/
  exists k, List.length s = Datatypes.S k /\ 16 ^ N.of_nat k <= n < 16 ^ N.of_nat (Datatypes.S k).
Proof.
  intros [V [->|(c & r & -> & N0)]]; [left; cbn in V; split; congruence|]. right.
  exists (List.length r). split; [reflexivity|]. cbn [hex_number] in V.
  destruct (hex_value c) as [x|] eqn:X; [|discriminate].
  assert (x <> 0). { intros ->. apply N0. now apply (hex_value_inj c 48 0). }
  pose proof (hex_value_bound _ _ X). apply hex_number_bounds in V.
  rewrite Nat2N.inj_succ, N.pow_succ_r'. set (k := 16 ^ N.of_nat (List.length r)) in *. nia.
Qed.
Lemma is_hex_unique n s t : is_hex n s -> is_hex n t -> s = t.
Proof.
  intros S T. destruct (is_hex_length _ _ S) as [[-> ->]|(k & Ls & Bs)],
    (is_hex_length _ _ T) as [[Z ->]|(j & Lt & Bt)]; try reflexivity.
  - exfalso. assert (0 < 16 ^ N.of_nat j) by (apply N.neq_0_lt_0, N.pow_nonzero; lia). lia.
  - exfalso. subst n. assert (0 < 16 ^ N.of_nat k) by (apply N.neq_0_lt_0, N.pow_nonzero; lia). lia.
  - assert (K : k = j).
    { destruct (Nat.lt_trichotomy k j) as [H|[H|H]]; [exfalso|exact H|exfalso].
      - assert (16 ^ N.of_nat (Datatypes.S k) <= 16 ^ N.of_nat j) by (apply N.pow_le_mono_r; lia). lia.
      - assert (16 ^ N.of_nat (Datatypes.S j) <= 16 ^ N.of_nat k) by (apply N.pow_le_mono_r; lia). lia. }
    subst j. apply (fun E => proj2 (hex_number_inj s t 0 0 n (proj1 S) (proj1 T) E)). congruence.
Qed.
Lemma char_text_unique special c s t : char_text special c s -> char_text special c t -> s = t.
Proof.
  intros S T. inversion S; subst; clear S; inversion T; subst; clear T; try reflexivity; try congruence; try lia;
    try (exfalso; solve [intuition (congruence || lia)]).
  apply (f_equal (app (chars "\u{"))), (f_equal (fun h => h ++ chars "}")).
  match goal with H : is_hex ?n ?a, K : is_hex ?n ?b |- ?a = ?b => exact (is_hex_unique n a b H K) end.
Qed.
Lemma quoted_unique special s t u : quoted special s t -> quoted special s u -> t = u.
Proof.
  intros (ts & F & ->) (us & G & ->). do 2 f_equal. f_equal. revert us G.
  induction F as [|c t s ts H F IH]; intros us G; inversion G; subst; [reflexivity|].
  f_equal; [now apply (char_text_unique special c)|now apply IH].
Qed.
