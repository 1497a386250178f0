(** UUID generators: their terms can be read back. *)
From Coq Require Import List Arith NArith Bool String Lia.
Import ListNotations.
From Verif Require Import Base TextModel DisplayModel NTriplesSpec UuidModel UuidSpec.
Open Scope N_scope.

(** Facts about all bytes, by computation. *)
Definition all_bytes : list N := map N.of_nat (seq 0 256).
Lemma in_all_bytes b : b < 256 -> In b all_bytes.
Proof.
  intros H; apply in_map_iff; exists (N.to_nat b); split; [apply N2Nat.id|]; apply in_seq; lia.
Qed.
Lemma by_bytes (P : N -> bool) : forallb P all_bytes = true -> forall b, b < 256 -> P b = true.
Proof. intros H b Hb; rewrite forallb_forall in H; now apply H, in_all_bytes. Qed.

Definition reads_back (b : N) : bool :=
  match lower_value (lower_digit (b / 16)), lower_value (lower_digit (b mod 16)) with
  | Some h, Some l => (16 * h + l =? b) && iri_char (lower_digit (b / 16)) && iri_char (lower_digit (b mod 16))
  | _, _ => false
  end.
Lemma hex_reads_back b : b < 256 ->
  (exists h l, lower_value (lower_digit (b / 16)) = Some h /\ lower_value (lower_digit (b mod 16)) = Some l /\
     16 * h + l = b) /\
  iri_char (lower_digit (b / 16)) = true /\ iri_char (lower_digit (b mod 16)) = true.
Proof.
  intros H; assert (E : reads_back b = true) by (revert b H; apply by_bytes; vm_compute; reflexivity).
  unfold reads_back in E.
  destruct (lower_value (lower_digit (b / 16))) as [h|]; [|discriminate].
  destruct (lower_value (lower_digit (b mod 16))) as [l|]; [|discriminate].
  apply andb_true_iff in E as [E E3]; apply andb_true_iff in E as [E1 E2]; apply N.eqb_eq in E1; eauto 8.
Qed.

Lemma read_bytes_hex b : forall rest, Forall (fun x => x < 256) b ->
  read_bytes (List.length b) (flat_map lower_hex b ++ rest) = Some (b, rest).
Proof.
  induction b as [|x b IH]; intros rest H; [reflexivity|]; inversion H as [|? ? Hx Hb]; subst.
  cbn [flat_map lower_hex app List.length read_bytes].
  destruct (hex_reads_back x Hx) as [(h & l & -> & -> & E) _].
  rewrite IH by assumption; now rewrite E.
Qed.

Lemma hex_iri_chars b : Forall (fun x => x < 256) b -> Forall (fun c => iri_char c = true) (flat_map lower_hex b).
Proof.
  induction b as [|x b IH]; intros H; [constructor|]; inversion H as [|? ? Hx Hb]; subst.
  destruct (hex_reads_back x Hx) as (_ & E1 & E2); cbn; auto.
Qed.

Lemma is_uuid_cases b : is_uuid b ->
  exists b0 b1 b2 b3 b4 b5 b6 b7 b8 b9 b10 b11 b12 b13 b14 b15,
    b = [b0; b1; b2; b3; b4; b5; b6; b7; b8; b9; b10; b11; b12; b13; b14; b15].
Proof.
  intros [H _]; do 16 (destruct b as [|? b]; [discriminate|]); destruct b; [|discriminate].
  repeat eexists.
Qed.

Lemma read_encode u : is_uuid u -> read_urn (encode_urn u) = Some u.
Proof.
  intros H; destruct (is_uuid_cases u H) as (b0&b1&b2&b3&b4&b5&b6&b7&b8&b9&b10&b11&b12&b13&b14&b15&->).
  destruct H as [_ H].
  repeat match goal with H : Forall _ (_ :: _) |- _ => inversion H; clear H; subst end.
  unfold encode_urn, read_urn; cbn [firstn skipn].
  assert (A : forall b rest, Forall (fun x => x < 256) b ->
    read_bytes (List.length b) (flat_map lower_hex b ++ rest) = Some (b, rest)) by apply read_bytes_hex.
  assert (W : forall w rest, read_word w (w ++ rest) = Some rest).
  { induction w; intros; cbn; [reflexivity|]; now rewrite N.eqb_refl. }
  rewrite W; unfold read_groups.
  rewrite (A [b0; b1; b2; b3]) by auto; cbv beta iota; rewrite W.
  rewrite (A [b4; b5]) by auto; cbv beta iota; rewrite W.
  rewrite (A [b6; b7]) by auto; cbv beta iota; rewrite W.
  rewrite (A [b8; b9]) by auto; cbv beta iota; rewrite W.
  rewrite <- (app_nil_r (flat_map lower_hex [b10; b11; b12; b13; b14; b15])).
  rewrite (A [b10; b11; b12; b13; b14; b15]) by auto 10.
  reflexivity.
Qed.

Lemma encode_length u : is_uuid u -> List.length (encode_urn u) = urn_length.
Proof.
  intros H; destruct (is_uuid_cases u H) as (b0&b1&b2&b3&b4&b5&b6&b7&b8&b9&b10&b11&b12&b13&b14&b15&->).
  reflexivity.
Qed.

Lemma forall_firstn {A} (P : A -> Prop) n : forall l, Forall P l -> Forall P (firstn n l).
Proof. induction n; intros [|x l] H; cbn; auto; inversion H; subst; auto. Qed.
Lemma forall_skipn {A} (P : A -> Prop) n : forall l, Forall P l -> Forall P (skipn n l).
Proof. induction n; intros [|x l] H; cbn; auto; inversion H; subst; auto. Qed.

Lemma encode_iri u : is_uuid u -> Forall (fun c => iri_char c = true) (encode_urn u).
Proof.
  intros [_ H]; unfold encode_urn.
  repeat (apply Forall_app; split); try (apply hex_iri_chars; auto using forall_firstn, forall_skipn);
    repeat constructor.
Qed.

(** ** Version and variant *)
Lemma set_version_ok v b : v < 16 -> is_uuid b ->
  is_uuid (set_version v b) /\ version (set_version v b) = v /\ variant (set_version v b) = 2 /\
  free_bits (set_version v b) = free_bits b.
Proof.
  intros Hv H; destruct (is_uuid_cases b H) as (b0&b1&b2&b3&b4&b5&b6&b7&b8&b9&b10&b11&b12&b13&b14&b15&->).
  destruct H as [_ H].
  repeat match goal with H : Forall _ (_ :: _) |- _ => inversion H; clear H; subst end.
  assert (P6 : forall b, b < 256 ->
    N.lor (N.land b 15) (N.shiftl v 4) < 256 /\ N.lor (N.land b 15) (N.shiftl v 4) / 16 = v /\
    N.lor (N.land b 15) (N.shiftl v 4) mod 16 = b mod 16).
  { assert (In v (map N.of_nat (seq 0 16))) as Iv.
    { apply in_map_iff; exists (N.to_nat v); split; [apply N2Nat.id|]; apply in_seq; lia. }
    assert (E : forallb (fun v => forallb (fun b =>
      (N.lor (N.land b 15) (N.shiftl v 4) <? 256) && (N.lor (N.land b 15) (N.shiftl v 4) / 16 =? v) &&
      (N.lor (N.land b 15) (N.shiftl v 4) mod 16 =? b mod 16)) all_bytes) (map N.of_nat (seq 0 16)) = true)
      by (vm_compute; reflexivity).
    rewrite forallb_forall in E; specialize (E v Iv); intros b Hb.
    apply (by_bytes _ E) in Hb; apply andb_true_iff in Hb as [Hb Q3]; apply andb_true_iff in Hb as [Q1 Q2].
    apply N.ltb_lt in Q1; apply N.eqb_eq in Q2; apply N.eqb_eq in Q3; auto. }
  assert (P8 : forall b, b < 256 ->
    N.lor (N.land b 63) 128 < 256 /\ N.lor (N.land b 63) 128 / 64 = 2 /\ N.lor (N.land b 63) 128 mod 64 = b mod 64).
  { assert (E : forallb (fun b => (N.lor (N.land b 63) 128 <? 256) && (N.lor (N.land b 63) 128 / 64 =? 2) &&
      (N.lor (N.land b 63) 128 mod 64 =? b mod 64)) all_bytes = true) by (vm_compute; reflexivity).
    intros b Hb; apply (by_bytes _ E) in Hb; apply andb_true_iff in Hb as [Hb Q3]; apply andb_true_iff in Hb as [Q1 Q2].
    apply N.ltb_lt in Q1; apply N.eqb_eq in Q2; apply N.eqb_eq in Q3; auto. }
  destruct (P6 b6) as (A1 & A2 & A3); [assumption|]; destruct (P8 b8) as (B1 & B2 & B3); [assumption|].
  unfold set_version, version, variant, free_bits, is_uuid; cbn [nth firstn skipn app].
  split; [split; [reflexivity|repeat constructor; assumption]|].
  rewrite A2, A3, B2, B3; auto.
Qed.

(** ** The generator *)
Section Gen.
  Context (md5 sha1 : bytes -> bytes).
  Hypothesis (Hmd5 : forall b, is_uuid (md5 b)).
  Hypothesis (Hsha1 : forall b, is_uuid (firstn 16 (sha1 b))).

  (** The bytes a generator starts from, and its version. *)
  Definition raw (g : uuid_generator) (r : bytes) : bytes :=
    match g with
    | V3 ns name => md5 (ns ++ name)
    | V4 => r
    | V5 ns name => firstn 16 (sha1 (ns ++ name))
    end.
  Definition ver (g : uuid_generator) : N := match g with V3 _ _ => 3 | V4 => 4 | V5 _ _ => 5 end.

  Lemma raw_uuid g r : is_uuid r -> is_uuid (raw g r).
  Proof. destruct g; intros H; [apply Hmd5|exact H|apply Hsha1]. Qed.
  Lemma next_uuid_raw g r : next_uuid md5 sha1 g r = set_version (ver g) (raw g r).
  Proof. destruct g; reflexivity. Qed.
  Lemma ver_small g : ver g < 16.
  Proof. destruct g; cbn; lia. Qed.

  Lemma next_ok g r : is_uuid r -> is_uuid (next_uuid md5 sha1 g r).
  Proof. intros H; rewrite next_uuid_raw; apply set_version_ok; [apply ver_small|now apply raw_uuid]. Qed.

  Lemma next_term_text g r : is_uuid r ->
    uuid_next_term md5 sha1 g r = Some (TIri (encode_urn (next_uuid md5 sha1 g r))).
  Proof.
    intros H; apply (next_ok g) in H; unfold uuid_next_term; rewrite (encode_length _ H).
    unfold urn_length; rewrite repeat_length, Nat.ltb_irrefl; cbn [skipn repeat].
    rewrite app_nil_r; change 45%nat with urn_length; now rewrite <- (encode_length _ H), firstn_all.
  Qed.

  Lemma next_term_ok g r : is_uuid r ->
    exists t u, uuid_next_term md5 sha1 g r = Some (TIri t) /\ read_urn t = Some u /\ is_uuid u /\
      version u = ver g /\ variant u = 2 /\ free_bits u = free_bits (raw g r) /\
      List.length t = 45%nat /\ Forall (fun c => iri_char c = true) t.
  Proof.
    intros H; destruct (set_version_ok (ver g) (raw g r) (ver_small g) (raw_uuid g r H)) as (A & B & C & D).
    exists (encode_urn (next_uuid md5 sha1 g r)), (next_uuid md5 sha1 g r); rewrite next_uuid_raw.
    split; [now rewrite <- next_uuid_raw; apply next_term_text|].
    split; [now apply read_encode|]; split; [exact A|]; split; [exact B|]; split; [exact C|]; split; [exact D|].
    split; [now apply encode_length|now apply encode_iri].
  Qed.

  (** What determines the text. *)
  Lemma version_free a b : is_uuid a -> is_uuid b ->
    version a = version b -> variant a = variant b -> free_bits a = free_bits b -> a = b.
  Proof.
    intros Ha Hb.
    destruct (is_uuid_cases a Ha) as (a0&a1&a2&a3&a4&a5&a6&a7&a8&a9&a10&a11&a12&a13&a14&a15&->).
    destruct (is_uuid_cases b Hb) as (b0&b1&b2&b3&b4&b5&b6&b7&b8&b9&b10&b11&b12&b13&b14&b15&->).
    unfold version, variant, free_bits; cbn [nth firstn skipn app]; intros E1 E2 E3.
    assert (a6 = b6).
    { rewrite (N.div_mod a6 16), (N.div_mod b6 16) by lia; rewrite E1; f_equal; congruence. }
    assert (a8 = b8).
    { rewrite (N.div_mod a8 64), (N.div_mod b8 64) by lia; rewrite E2; f_equal; congruence. }
    congruence.
  Qed.

  Lemma next_term_eq g h r r' : is_uuid r -> is_uuid r' -> ver g = ver h ->
    uuid_next_term md5 sha1 g r = uuid_next_term md5 sha1 h r' <-> free_bits (raw g r) = free_bits (raw h r').
  Proof.
    intros Hr Hr' Hv.
    destruct (next_term_ok g r Hr) as (t & u & E & Et & Hu & V & W & X & _).
    destruct (next_term_ok h r' Hr') as (t' & u' & E' & Et' & Hu' & V' & W' & X' & _).
    split.
    - intros A; rewrite E, E' in A; injection A as ->; congruence.
    - intros A; rewrite (next_term_text g r Hr), (next_term_text h r' Hr'); do 3 f_equal.
      rewrite !next_uuid_raw, <- Hv.
      pose proof (set_version_ok (ver g) _ (ver_small g) (raw_uuid g r Hr)) as (P1 & P2 & P3 & P4).
      pose proof (set_version_ok (ver g) _ (ver_small g) (raw_uuid h r' Hr')) as (Q1 & Q2 & Q3 & Q4).
      apply version_free; congruence || assumption.
  Qed.

  Lemma terms_map g rs : Forall is_uuid rs ->
    uuid_terms md5 sha1 g rs = Some (map (fun r => TIri (encode_urn (next_uuid md5 sha1 g r))) rs).
  Proof.
    induction 1 as [|r rs Hr _ IH]; [reflexivity|]; cbn [uuid_terms map].
    now rewrite next_term_text, IH.
  Qed.

  (** [V4]: fresh as far as the random bits are. *)
  Lemma random_fresh rs : Forall is_uuid rs ->
    exists ts, uuid_terms md5 sha1 V4 rs = Some ts /\ (NoDup ts <-> NoDup (map free_bits rs)).
  Proof.
    intros H; eexists; split; [now apply terms_map|].
    assert (A : forall r r', In r rs -> In r' rs ->
      TIri (encode_urn (next_uuid md5 sha1 V4 r)) = TIri (encode_urn (next_uuid md5 sha1 V4 r')) <->
      free_bits r = free_bits r').
    { rewrite Forall_forall in H; intros r r' Hr Hr'.
      rewrite <- (next_term_eq V4 V4 r r') by auto; rewrite !next_term_text by auto.
      generalize (TIri (encode_urn (next_uuid md5 sha1 V4 r))) (TIri (encode_urn (next_uuid md5 sha1 V4 r'))).
      intros x y; split; congruence. }
    clear H; induction rs as [|r rs IH]; cbn [map]; [split; constructor|].
    rewrite !NoDup_cons_iff, IH by (intros; apply A; now right); rewrite !in_map_iff.
    split; intros [N1 N2]; split; auto; intros (r' & E & Hr'); apply N1; exists r'; split; auto;
      apply A; (now left) || (now right) || auto.
  Qed.

  (** [V3] and [V5]: the same term at every call. *)
  Lemma named_same g rs : g <> V4 -> Forall is_uuid rs ->
    exists t, uuid_terms md5 sha1 g rs = Some (repeat t (List.length rs)).
  Proof.
    intros Hg H; exists (TIri (encode_urn (next_uuid md5 sha1 g []))); rewrite terms_map by assumption.
    f_equal; clear H; induction rs; cbn [map repeat List.length]; [reflexivity|]; rewrite IHrs.
    destruct g; congruence || reflexivity.
  Qed.
End Gen.

Lemma uuid_zero : is_uuid (repeat 0 16).
Proof. split; [reflexivity|]; repeat constructor. Qed.

Lemma not_fresh md5 sha1 :
  (forall b, is_uuid (md5 b)) -> (forall b, is_uuid (firstn 16 (sha1 b))) ->
  exists g rs ts, Forall is_uuid rs /\ uuid_terms md5 sha1 g rs = Some ts /\ ~ NoDup ts.
Proof.
  intros H1 H2.
  assert (H : Forall is_uuid [repeat 0 16; repeat 0 16]) by (repeat constructor; apply uuid_zero).
  destruct (named_same md5 sha1 H1 H2 (V5 [] []) _ ltac:(discriminate) H) as [t E].
  exists (V5 [] []), [repeat 0 16; repeat 0 16], [t; t]; split; [exact H|]; split; [exact E|].
  intros N; inversion N as [|? ? Hn _]; apply Hn; now left.
Qed.

Lemma names_differ md5 sha1 :
  (forall b, is_uuid (md5 b)) -> (forall b, is_uuid (firstn 16 (sha1 b))) ->
  forall ns name ns' name' r r', is_uuid r -> is_uuid r' ->
    (uuid_next_term md5 sha1 (V3 ns name) r = uuid_next_term md5 sha1 (V3 ns' name') r' <->
     free_bits (md5 (ns ++ name)) = free_bits (md5 (ns' ++ name'))) /\
    (uuid_next_term md5 sha1 (V5 ns name) r = uuid_next_term md5 sha1 (V5 ns' name') r' <->
     free_bits (firstn 16 (sha1 (ns ++ name))) = free_bits (firstn 16 (sha1 (ns' ++ name')))).
Proof.
  intros H1 H2 ns name ns' name' r r' Hr Hr'; split.
  - exact (next_term_eq md5 sha1 H1 H2 (V3 ns name) (V3 ns' name') r r' Hr Hr' eq_refl).
  - exact (next_term_eq md5 sha1 H1 H2 (V5 ns name) (V5 ns' name') r r' Hr Hr' eq_refl).
Qed.
