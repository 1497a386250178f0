(** Proofs about blank node identifiers and their generator. *)
From Coq Require Import List NArith Bool Lia FinFun Ascii String.
Import ListNotations.
From Verif Require Import TextModel BlankIdModel BlankIdSpec TextProofs.
Local Open Scope N_scope.

(** ** Character classes *)
Lemma pn_base c : is_pn_char_base c = true <-> PN_CHARS_BASE c.
Proof.
  unfold is_pn_char_base, PN_CHARS_BASE. rewrite !orb_true_iff, !range_between. tauto.
Qed.
Lemma pn_u c : is_pn_char_u c = true <-> PN_CHARS_U c.
Proof. unfold is_pn_char_u, PN_CHARS_U. rewrite !orb_true_iff, pn_base, !N.eqb_eq. tauto. Qed.
Lemma ascii_digit c : is_ascii_digit c = true <-> DIGIT c.
Proof. apply range_between. Qed.
Lemma pn_char c : is_pn_char c = true <-> PN_CHARS c.
Proof.
  unfold is_pn_char, PN_CHARS. rewrite !orb_true_iff, pn_u, !range_between, !N.eqb_eq.
  unfold DIGIT. tauto.
Qed.
Lemma pn_not_dot c : PN_CHARS c -> c <> DOT.
Proof.
  intros H ->. unfold PN_CHARS, PN_CHARS_U, PN_CHARS_BASE, DIGIT, between, DOT in H. lia.
Qed.
Lemma digit_pn c : DIGIT c -> PN_CHARS c.
Proof. unfold PN_CHARS. tauto. Qed.
Lemma digit_not_u c : DIGIT c -> ~ PN_CHARS_U c.
Proof. unfold PN_CHARS_U, PN_CHARS_BASE, DIGIT, between. lia. Qed.

(** ** The checker *)
Definition head_ok (c : N) : Prop := PN_CHARS_U c \/ DIGIT c.

Lemma check_iff s : check s = true <->
  exists c rest, s = [0x5F; 0x3A; c] ++ rest /\ head_ok c /\ Forall PN_CHARS rest.
Proof.
  unfold check. split.
  - destruct s as [|c0 [|c1 [|c rest]]]; try discriminate;
      try (destruct (c0 =? 95); discriminate).
    { destruct (c0 =? 95); [|discriminate]. destruct (c1 =? 58); discriminate. }
    destruct (N.eqb_spec c0 95) as [->|]; [|discriminate].
    destruct (N.eqb_spec c1 58) as [->|]; [|discriminate].
    destruct (is_ascii_digit c || is_pn_char_u c) eqn:E; [|discriminate]. intros F.
    exists c, rest. split; [reflexivity|]. split.
    + apply orb_true_iff in E. rewrite ascii_digit, pn_u in E. unfold head_ok. tauto.
    + rewrite forallb_forall in F. apply Forall_forall. intros x X. now apply pn_char, F.
  - intros (c & rest & -> & H & F). cbn [app].
    assert (E : is_ascii_digit c || is_pn_char_u c = true).
    { apply orb_true_iff. rewrite ascii_digit, pn_u. unfold head_ok in H. tauto. }
    cbn [N.eqb Pos.eqb]. rewrite E. apply forallb_forall. intros x X. apply pn_char.
    rewrite Forall_forall in F. now apply F.
Qed.

(** A label of the grammar is accepted exactly when it has no dot. *)
Lemma check_grammar s : check s = true <-> BLANK_NODE_LABEL s /\ ~ In DOT s.
Proof.
  rewrite check_iff. split.
  - intros (c & rest & -> & H & F). split.
    + exists c, rest. split; [reflexivity|]. split; [exact H|].
      destruct rest as [|x rest] using rev_ind; [now left|right].
      apply Forall_app in F as [F1 F2]. exists rest, x. split; [reflexivity|]. split.
      * eapply Forall_impl; [|exact F1]. now left.
      * now inversion F2.
    + intros I. apply in_app_or in I as [I|I].
      * cbn in I. destruct I as [I|[I|[I|[]]]]; try discriminate. subst c.
        destruct H as [H|H]; [|unfold DIGIT, between, DOT in H; lia].
        apply (pn_not_dot DOT); [|reflexivity]. unfold PN_CHARS. tauto.
      * rewrite Forall_forall in F. now apply (pn_not_dot DOT); [apply F|].
  - intros [(c & rest & -> & H & R) D]. exists c, rest. split; [reflexivity|]. split; [exact H|].
    destruct R as [->|(mid & last & -> & F & L)]; [constructor|].
    apply Forall_app. split; [|constructor; [exact L|constructor]].
    rewrite Forall_forall in F |- *. intros x X. destruct (F x X) as [P| ->]; [exact P|].
    exfalso. apply D. apply in_or_app. right. apply in_or_app. now left.
Qed.

(** ** C01, C02 *)
Lemma new_some s b : blank_new s = Some b <-> b = s /\ check s = true.
Proof.
  unfold blank_new. destruct (check s); split; try easy.
  - intros E. injection E as <-. easy.
  - intros [-> _]. reflexivity.
Qed.

Lemma accepted_valid s b :
  (blank_new s = Some b -> b = s /\ BLANK_NODE_LABEL b) /\
  (blank_from_suffix s = Some b -> b = [0x5F; 0x3A] ++ s /\ BLANK_NODE_LABEL b).
Proof.
  split; intros H; apply new_some in H as [-> H]; apply check_grammar in H; split; try tauto; reflexivity.
Qed.

Lemma new_exact s : blank_new s = Some s <-> BLANK_NODE_LABEL s /\ ~ In DOT s.
Proof. rewrite new_some, check_grammar. tauto. Qed.

Lemma valid_accepted s : BLANK_NODE_LABEL s -> ~ In DOT s -> blank_new s = Some s.
Proof. intros. now apply new_exact. Qed.

Lemma dotted_rejected :
  exists s, BLANK_NODE_LABEL s /\ blank_new s = None.
Proof.
  exists (chars "_:a.b"). split; [|reflexivity].
  exists 97, [46; 98]. split; [reflexivity|]. split.
  - left. left. right. left. unfold between. lia.
  - right. exists [46], 98. split; [reflexivity|]. split.
    + constructor; [now right|constructor].
    + left. left. right. left. unfold between. lia.
Qed.

(** ** C03 *)
Lemma new_keeps s b : blank_new s = Some b -> b = s.
Proof. intros H. now apply new_some in H. Qed.

Lemma suffix_of_valid b : check b = true -> exists s, b = [0x5F; 0x3A] ++ s /\ s <> [] /\
  blank_suffix b = Some s.
Proof.
  intros H. apply check_iff in H as (c & rest & -> & _). exists (c :: rest).
  split; [reflexivity|]. split; [discriminate|reflexivity].
Qed.

Lemma from_suffix_spec s :
  blank_from_suffix s = blank_new ([0x5F; 0x3A] ++ s) /\
  forall b, blank_from_suffix s = Some b -> blank_suffix b = Some s.
Proof.
  split; [reflexivity|]. intros b H. apply new_some in H as [-> _]. cbn. now destruct s.
Qed.

Lemma suffix_spec s b : blank_new s = Some b ->
  exists t, blank_suffix b = Some t /\ t <> [] /\ s = [0x5F; 0x3A] ++ t /\
    blank_from_suffix t = Some b.
Proof.
  intros H. apply new_some in H as [-> H]. destruct (suffix_of_valid s H) as (t & E & N & S).
  exists t. split; [exact S|]. split; [exact N|]. split; [exact E|].
  unfold blank_from_suffix. change (chars "_:" ++ t) with ([0x5F; 0x3A] ++ t). rewrite <- E.
  now apply new_some.
Qed.

Lemma numeral_head s : numeral s -> exists c r, s = c :: r /\ DIGIT c /\ Forall DIGIT r.
Proof.
  intros (F & N & _). destruct s as [|c r]; [easy|]. inversion F; subst. eauto.
Qed.

Lemma from_int_valid n :
  blank_new (blank_from_int n) = Some (blank_from_int n) /\ blank_suffix (blank_from_int n) = Some (dec n) /\
  numeral (dec n) /\ dec_value (dec n) = n.
Proof.
  destruct (numeral_head _ (dec_numeral n)) as (c & r & E & D & F).
  split; [|split; [|split; [apply dec_numeral|apply dec_value_dec]]].
  - apply new_some. split; [reflexivity|]. apply check_iff. exists c, r. unfold blank_from_int.
    rewrite E. split; [reflexivity|]. split; [now right|].
    eapply Forall_impl; [|exact F]. apply digit_pn.
  - unfold blank_from_int. cbn. now destruct (dec n).
Qed.

Lemma from_int_inj m n : blank_from_int m = blank_from_int n -> m = n.
Proof. unfold blank_from_int. intros E. apply app_inv_head in E. now apply dec_inj. Qed.

(** ** The generator *)
Definition gen_id (p : text) (n : N) : text := chars "_:" ++ p ++ dec n.

Lemma gen_id_inj p m n : gen_id p m = gen_id p n -> m = n.
Proof. unfold gen_id. intros E. do 2 apply app_inv_head in E. now apply dec_inj. Qed.

(** The numbers used by [n] successive calls. *)
Fixpoint numbers (max : N) (n : nat) (c : N) : list N :=
  match n with
  | O => []
  | S n => c :: numbers max n (if c <? max then c + 1 else 0)
  end.

Lemma generate_numbers max checked n : forall g l g',
  generate max checked n g = Some (l, g') ->
  l = map (gen_id (g_prefix g)) (numbers max n (g_count g)) /\ g_prefix g' = g_prefix g.
Proof.
  induction n as [|n IH]; intros g l g' H; cbn in H |- *.
  - injection H as <- <-. now split.
  - unfold next_blank_id in H. destruct (g_count g <? max) eqn:E.
    + destruct (generate max checked n _) as [[l1 g1]|] eqn:G; [|discriminate].
      injection H as <- <-. apply IH in G as [-> G2]. cbn in G2. split; [reflexivity|exact G2].
    + destruct checked; [discriminate|].
      destruct (generate max false n _) as [[l1 g1]|] eqn:G; [|discriminate].
      injection H as <- <-. apply IH in G as [-> G2]. cbn in G2. split; [reflexivity|exact G2].
Qed.

(** Numbers before the first wrap are increasing; after it they start again
    from zero. *)
Lemma numbers_in max n : forall c, c <= max -> N.of_nat n <= max + 1 ->
  forall x, In x (numbers max n c) ->
    (c <= x <= max /\ x < c + N.of_nat n) \/ (x <= max /\ x + (max + 1) < c + N.of_nat n).
Proof.
  induction n as [|n IH]; intros c Hc Hn x; cbn [numbers]; [intros []|].
  intros [<-|I].
  - left. lia.
  - destruct (N.ltb_spec c max) as [L|L].
    + apply IH in I; [|lia|lia]. lia.
    + apply IH in I; [|lia|lia]. lia.
Qed.

Lemma numbers_nodup max n : forall c, c <= max -> N.of_nat n <= max + 1 -> NoDup (numbers max n c).
Proof.
  induction n as [|n IH]; intros c Hc Hn; cbn [numbers]; [constructor|].
  constructor.
  - intros I. destruct (N.ltb_spec c max) as [L|L].
    + apply numbers_in in I; [|lia|lia]. lia.
    + apply numbers_in in I; [|lia|lia]. lia.
  - apply IH; [|lia]. destruct (N.ltb_spec c max); lia.
Qed.

Lemma generate_checked max n : forall g l g',
  generate max true n g = Some (l, g') -> g_count g' = g_count g + N.of_nat n /\
  (n <> O -> g_count g + N.of_nat n <= max).
Proof.
  induction n as [|n IH]; intros g l g' H; cbn [generate] in H.
  - injection H as <- <-. split; [lia|easy].
  - unfold next_blank_id in H. destruct (N.ltb_spec (g_count g) max) as [E|E]; [|discriminate].
    destruct (generate max true n _) as [[l1 g1]|] eqn:G; [|discriminate]. injection H as <- <-.
    apply IH in G as [A B]. cbn in A, B. split; [lia|]. intros _. destruct n; [cbn|]; [lia|].
    specialize (B ltac:(discriminate)). lia.
Qed.

Lemma generate_succeeds max n : forall g, g_count g + N.of_nat n <= max ->
  exists l g', generate max true n g = Some (l, g').
Proof.
  induction n as [|n IH]; intros g H; cbn [generate]; [eauto|].
  unfold next_blank_id. destruct (N.ltb_spec (g_count g) max) as [E|E]; [|lia].
  destruct (IH (Generator (g_prefix g) (g_count g + 1))) as (l & g' & G); [cbn; lia|].
  rewrite G. eauto.
Qed.

Lemma generate_unchecked max n : forall g, exists l g', generate max false n g = Some (l, g').
Proof.
  induction n as [|n IH]; intros g; cbn [generate]; [eauto|].
  unfold next_blank_id. destruct (g_count g <? max).
  - destruct (IH (Generator (g_prefix g) (g_count g + 1))) as (l & g' & G). rewrite G. eauto.
  - destruct (IH (Generator (g_prefix g) 0)) as (l & g' & G). rewrite G. eauto.
Qed.

(** The numbers until the overflow. *)
Lemma numbers_nth max n : forall c i, c + N.of_nat n <= max + 1 -> (i < n)%nat ->
  nth_error (numbers max n c) i = Some (c + N.of_nat i).
Proof.
  induction n as [|n IH]; intros c i H L; [lia|]. cbn [numbers].
  destruct i as [|i]; [cbn; f_equal; lia|]. cbn [nth_error].
  destruct (N.ltb_spec c max) as [E|E].
  - rewrite IH; [f_equal; lia|lia|lia].
  - lia.
Qed.

(** What each constructor's generator gives. *)
Lemma generate_counts max checked n q k g p o l g' :
  In (g, p, o) [(gen_new, [], 0); (gen_with_offset k, [], k); (gen_with_prefix q, q, 0);
                (gen_full q k, q, k)] ->
  o + N.of_nat n <= max + 1 ->
  generate max checked n g = Some (l, g') ->
  forall i, (i < n)%nat ->
    exists d, nth_error l i = Some ([0x5F; 0x3A] ++ p ++ d) /\ numeral d /\
      dec_value d = o + N.of_nat i.
Proof.
  intros I H G i L. apply generate_numbers in G as [-> _].
  assert (E : g_prefix g = p /\ g_count g = o)
    by (destruct I as [I|[I|[I|[I|[]]]]]; injection I as <- <- <-; split; reflexivity).
  destruct E as [-> ->]. exists (dec (o + N.of_nat i)). split; [|split].
  - now rewrite (map_nth_error _ _ _ (numbers_nth max n o i H L)).
  - apply dec_numeral.
  - apply dec_value_dec.
Qed.

(** C04 *)
Lemma generate_distinct max checked n p offset l g' :
  offset <= max -> checked = true \/ N.of_nat n <= max + 1 ->
  generate max checked n (gen_full p offset) = Some (l, g') ->
  NoDup l /\ List.length l = n.
Proof.
  intros Ho Hn H. assert (B : N.of_nat n <= max + 1).
  { destruct Hn as [->|]; [|assumption]. pose proof (generate_checked _ _ _ _ _ H) as [_ B].
    destruct n; [lia|]. specialize (B ltac:(discriminate)). lia. }
  apply generate_numbers in H as [-> _]. split.
  - apply FinFun.Injective_map_NoDup; [intros m k; apply gen_id_inj|]. now apply numbers_nodup.
  - rewrite map_length. clear. generalize (g_count (gen_full p offset)).
    induction n; intros c; cbn; [reflexivity|]. f_equal. apply IHn.
Qed.

(** The documented capacity, with overflow checks. *)
Lemma generate_capacity max n p offset : offset <= max ->
  generate max true n (gen_full p offset) <> None <-> N.of_nat n <= max - offset.
Proof.
  intros Ho. split.
  - intros H. destruct (generate max true n _) as [[l g]|] eqn:E; [|easy].
    apply generate_checked in E as [_ E]. destruct n; [lia|].
    specialize (E ltac:(discriminate)). cbn in E. lia.
  - intros H. destruct (generate_succeeds max n (gen_full p offset)) as (l & g & ->); [cbn; lia|].
    discriminate.
Qed.

(** C05 *)
Lemma gen_id_valid p n : check (gen_id p n) = true <-> good_prefix p.
Proof.
  unfold gen_id. destruct (numeral_head _ (dec_numeral n)) as (c & r & E & D & F).
  rewrite check_iff, E. split.
  - intros (x & rest & Q & H & G). destruct p as [|y p]; [exact I|].
    cbn in Q. injection Q as <- <-. split; [exact H|]. now apply Forall_app in G.
  - intros H. destruct p as [|y p]; cbn [app].
    + exists c, r. split; [reflexivity|]. split; [now right|].
      eapply Forall_impl; [|exact F]. apply digit_pn.
    + exists y, (p ++ c :: r). split; [reflexivity|]. destruct H as [H1 H2]. split; [exact H1|].
      apply Forall_app. split; [exact H2|]. constructor; [now apply digit_pn|].
      eapply Forall_impl; [|exact F]. apply digit_pn.
Qed.

Lemma generated_valid max checked n p offset l g' :
  generate max checked n (gen_full p offset) = Some (l, g') ->
  (good_prefix p -> forall b, In b l -> blank_new b = Some b) /\
  (~ good_prefix p -> forall b, In b l -> blank_new b = None).
Proof.
  intros H. apply generate_numbers in H as [-> _]. cbn [g_prefix gen_full].
  split; intros P b B; apply in_map_iff in B as (k & <- & _); unfold blank_new;
    pose proof (gen_id_valid p k) as V.
  - now rewrite (proj2 V P).
  - destruct (check (gen_id p k)); [|reflexivity]. exfalso. now apply P, V.
Qed.

Lemma generated_invalid :
  exists p b g', next_blank_id (2 ^ 64 - 1) true (gen_with_prefix p) = Some (b, g') /\
    ~ BLANK_NODE_LABEL b.
Proof.
  exists (chars "a b"), (chars "_:a b0"), (Generator (chars "a b") 1). split; [reflexivity|].
  intros (c & rest & E & _ & R). cbn in E. injection E as <- <-.
  destruct R as [R|(mid & last & E & F & _)]; [discriminate|].
  destruct mid as [|x mid]; [discriminate|]. cbn in E. injection E as <- E.
  inversion F as [|? ? H _]; subst.
  destruct H as [H|H]; [|discriminate].
  unfold PN_CHARS, PN_CHARS_U, PN_CHARS_BASE, DIGIT, between in H. lia.
Qed.

(** C06 *)
Lemma app_split {A} (a b c d : list A) : a ++ b = c ++ d ->
  exists x, (c = a ++ x /\ b = x ++ d) \/ (a = c ++ x /\ d = x ++ b).
Proof.
  revert c. induction a as [|y a IH]; intros c E; cbn in E.
  - exists c. now left.
  - destruct c as [|z c]; cbn in E.
    + exists (y :: a). right. now split.
    + injection E as -> E. destruct (IH _ E) as (x & [[-> ->]|[-> ->]]); exists x; [left|right]; now split.
Qed.

Lemma extends_half p q m n : p <> q -> (exists x, q = p ++ x /\ dec m = x ++ dec n) -> extends p q.
Proof.
  intros N (x & -> & E). assert (X : x <> []).
  { intros ->. apply N. now rewrite app_nil_r. }
  exists x. split; [reflexivity|]. split; [exact X|]. destruct (dec_numeral m) as (F & _ & Z).
  rewrite E in F, Z. apply Forall_app in F as [F _]. split; [exact F|]. intros H.
  destruct x as [|c x]; [easy|]. cbn in H. subst c. specialize (Z eq_refl). injection Z as Z.
  destruct (numeral_head _ (dec_numeral n)) as (c & r & E2 & _). rewrite E2 in Z. now destruct x.
Qed.

Lemma collision_iff p q : p <> q ->
  ((exists m n, gen_id p m = gen_id q n) <-> extends p q \/ extends q p).
Proof.
  intros N. split.
  - intros (m & n & E). unfold gen_id in E. apply app_inv_head in E. apply app_split in E as (x & [[A B]|[A B]]).
    + left. apply (extends_half p q m n N). eauto.
    + right. apply (extends_half q p n m); [congruence|eauto].
  - assert (H : forall p q, extends p q -> exists m n, gen_id p m = gen_id q n).
    { clear. intros p q (d & -> & D & F & Z). exists (dec_value (d ++ dec 0)), 0. unfold gen_id.
      rewrite dec_dec_value; [now rewrite <- app_assoc|]. split.
      - apply Forall_app. split; [exact F|]. apply dec_numeral.
      - split; [now destruct d|]. intros E. exfalso. destruct d; [easy|]. now cbn in E. }
    intros [E|E].
    + now apply H.
    + destruct (H _ _ E) as (m & n & Q). exists n, m. now symmetry.
Qed.

Lemma generators_disjoint max1 checked1 max2 checked2 n1 n2 p1 p2 o1 o2 l1 l2 g1 g2 :
  p1 <> p2 -> ~ extends p1 p2 -> ~ extends p2 p1 ->
  generate max1 checked1 n1 (gen_full p1 o1) = Some (l1, g1) ->
  generate max2 checked2 n2 (gen_full p2 o2) = Some (l2, g2) ->
  forall b, In b l1 -> ~ In b l2.
Proof.
  intros N E1 E2 H1 H2 b B1 B2. apply generate_numbers in H1 as [-> _], H2 as [-> _].
  apply in_map_iff in B1 as (m & <- & _), B2 as (n & E & _). cbn in E.
  assert (C : extends p1 p2 \/ extends p2 p1) by (apply collision_iff; [exact N|]; exists m, n; now symmetry).
  tauto.
Qed.

(** In particular when no prefix ends with a digit. *)
Lemma no_digit_no_extends p q : (forall r c, q = r ++ [c] -> ~ DIGIT c) -> ~ extends p q.
Proof.
  intros H (d & -> & D & F & _). destruct (exists_last D) as (d' & c & ->).
  apply (H (p ++ d') c); [apply app_assoc|]. apply Forall_app in F as [_ F]. now inversion F.
Qed.

Lemma generators_disjoint_no_digit max1 checked1 max2 checked2 n1 n2 p1 p2 o1 o2 l1 l2 g1 g2 :
  p1 <> p2 -> (forall r c, p1 = r ++ [c] -> ~ DIGIT c) -> (forall r c, p2 = r ++ [c] -> ~ DIGIT c) ->
  generate max1 checked1 n1 (gen_full p1 o1) = Some (l1, g1) ->
  generate max2 checked2 n2 (gen_full p2 o2) = Some (l2, g2) ->
  forall b, In b l1 -> ~ In b l2.
Proof.
  intros N D1 D2. apply generators_disjoint; [exact N| |]; now apply no_digit_no_extends.
Qed.

Lemma generators_collide :
  exists p1 p2 n l1 l2 g1 g2 b, p1 <> p2 /\
    generate (2 ^ 64 - 1) true n (gen_with_prefix p1) = Some (l1, g1) /\
    generate (2 ^ 64 - 1) true n (gen_with_prefix p2) = Some (l2, g2) /\
    In b l1 /\ In b l2.
Proof.
  exists [], (chars "1"), 12%nat. do 4 eexists. exists (chars "_:10").
  split; [discriminate|]. split; [vm_compute; reflexivity|]. split; [vm_compute; reflexivity|].
  split; vm_compute; tauto.
Qed.
