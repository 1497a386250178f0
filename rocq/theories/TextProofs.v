(** Proofs about texts and decimal numerals. *)
From Coq Require Import List NArith Bool Lia Ascii String.
Import ListNotations.
From Verif Require Import TextModel BlankIdSpec.
Local Open Scope N_scope.

Lemma range_between lo hi c : range lo hi c = true <-> between lo hi c.
Proof. unfold range, between. rewrite andb_true_iff, !N.leb_le. reflexivity. Qed.

Lemma dec_value_snoc s c : dec_value (s ++ [c]) = 10 * dec_value s + (c - 0x30).
Proof. unfold dec_value. now rewrite fold_left_app. Qed.

Lemma dec_value_pos s : Forall DIGIT s -> s <> [] -> hd 0 s <> 0x30 -> 0 < dec_value s.
Proof.
  induction s as [|c s IH] using rev_ind; [easy|]. intros F _ H.
  apply Forall_app in F as [F1 F2]. inversion F2 as [|? ? D _]; subst.
  rewrite dec_value_snoc. destruct s as [|d s].
  - cbn in H. unfold DIGIT, between in D. change (dec_value []) with 0. lia.
  - assert (0 < dec_value (d :: s)) by (apply IH; [exact F1|discriminate|exact H]). lia.
Qed.

(** Without its last digit, a numeral of several digits is a positive numeral. *)
Lemma numeral_init s c : numeral (s ++ [c]) -> s <> [] -> numeral s /\ 0 < dec_value s.
Proof.
  intros (F & _ & Z) N. apply Forall_app in F as [F _].
  assert (H : hd 0 s <> 0x30).
  { intros E. destruct s as [|d s]; [easy|]. cbn in Z, E. specialize (Z E).
    injection Z as _ Z. now destruct s. }
  split; [|now apply dec_value_pos]. split; [exact F|]. split; [exact N|]. intros E. easy.
Qed.

Lemma numeral_unique s : forall t, numeral s -> numeral t -> dec_value s = dec_value t -> s = t.
Proof.
  induction s as [|c s IH] using rev_ind; intros t Ns Nt E.
  - now destruct Ns as (_ & Ns & _).
  - destruct (exists_last (proj1 (proj2 Nt))) as (t' & d & ->).
    assert (Dc : DIGIT c) by (destruct Ns as (F & _); apply Forall_app in F as [_ F]; now inversion F).
    assert (Dd : DIGIT d) by (destruct Nt as (F & _); apply Forall_app in F as [_ F]; now inversion F).
    rewrite !dec_value_snoc in E. unfold DIGIT, between in Dc, Dd.
    assert (c = d /\ dec_value s = dec_value t') as [-> E'] by lia.
    f_equal. destruct s as [|x s], t' as [|y t'].
    + reflexivity.
    + destruct (numeral_init _ _ Nt) as (_ & P); [discriminate|]. change (dec_value []) with 0 in E'. lia.
    + destruct (numeral_init _ _ Ns) as (_ & P); [discriminate|]. change (dec_value []) with 0 in E'. lia.
    + apply IH; [| |exact E'].
      * now apply (numeral_init _ _ Ns).
      * now apply (numeral_init _ _ Nt).
Qed.

Lemma digit_mod n : DIGIT (48 + n mod 10).
Proof.
  unfold DIGIT, between. assert (H : n mod 10 < 10) by now apply N.mod_lt.
  revert H. generalize (n mod 10). intros m H. split; lia.
Qed.

Lemma dec_loop_spec fuel : forall n acc, n < 2 ^ N.of_nat fuel ->
  exists s, dec_loop fuel n acc = s ++ acc /\ numeral s /\ dec_value s = n.
Proof.
  induction fuel as [|fuel IH]; intros n acc B; cbn [dec_loop].
  - cbn in B. assert (n = 0) as -> by lia. exists [48]. cbn. split; [reflexivity|]. split; [|reflexivity].
    split; [|split; [discriminate|reflexivity]].
    constructor; [unfold DIGIT, between; lia|constructor].
  - destruct (N.eqb_spec (n / 10) 0) as [Z|Z].
    + exists [48 + n mod 10]. cbn [app]. split; [reflexivity|]. split.
      * split; [constructor; [apply digit_mod|constructor]|]. split; [discriminate|]. cbn [hd]. intros Q. now rewrite Q.
      * unfold dec_value. cbn [fold_left]. assert (n = 10 * (n / 10) + n mod 10) by now apply N.div_mod. lia.
    + destruct (IH (n / 10) ((48 + n mod 10) :: acc)) as (s & E & Ns & V).
      { rewrite Nat2N.inj_succ, N.pow_succ_r' in B.
        apply N.div_lt_upper_bound; lia. }
      exists (s ++ [48 + n mod 10]). split; [now rewrite E, <- app_assoc|]. split.
      * destruct Ns as (F & N0 & H). split.
        { apply Forall_app. split; [exact F|]. constructor; [apply digit_mod|constructor]. }
        split; [now destruct s|]. intros E1. exfalso.
        destruct s as [|x s]; [easy|]. cbn in E1. subst x. specialize (H eq_refl).
        injection H as ->. cbn in V. lia.
      * rewrite dec_value_snoc, V. assert (Q : n = 10 * (n / 10) + n mod 10) by now apply N.div_mod.
        replace (48 + n mod 10 - 0x30) with (n mod 10) by (generalize (n mod 10); lia).
        now symmetry.
Qed.

Lemma size_bound n : n < 2 ^ N.of_nat (N.to_nat (N.size n)).
Proof. rewrite N2Nat.id. apply N.size_gt. Qed.

(** Reading what is written, and conversely. *)
Lemma dec_numeral n : numeral (dec n).
Proof.
  destruct (dec_loop_spec (N.to_nat (N.size n)) n [] (size_bound n)) as (s & E & H & _).
  unfold dec. now rewrite E, app_nil_r.
Qed.
Lemma dec_value_dec n : dec_value (dec n) = n.
Proof.
  destruct (dec_loop_spec (N.to_nat (N.size n)) n [] (size_bound n)) as (s & E & _ & H).
  unfold dec. now rewrite E, app_nil_r.
Qed.
Lemma dec_dec_value s : numeral s -> dec (dec_value s) = s.
Proof. intros H. apply numeral_unique; [apply dec_numeral|exact H|apply dec_value_dec]. Qed.
Lemma dec_inj m n : dec m = dec n -> m = n.
Proof. intros E. rewrite <- (dec_value_dec m), <- (dec_value_dec n). now rewrite E. Qed.
