(** Proofs about interrupted calls of pattern maps. *)
From Coq Require Import List Bool Arith Lia Permutation.
Import ListNotations.
From Verif Require Import Base TripleModel TriplePatternModel PatternSpec PatternMapModel BaseProofs
  PatternMapSpec PatternMapProofs PatternDebugModel PatternCrashModel PatternCrashSpec.

Section Maps.
  Context {V T : Type} (veqb : V -> V -> bool) (teqb : T -> T -> bool)
    (veqb_spec : forall x y, veqb x y = true <-> x = y)
    (teqb_spec : forall x y, teqb x y = true <-> x = y).

  (** ** The laws of an insertion that may be interrupted *)
  Record claws {P M} (ins : P -> V -> M -> bool * M) (at_ : nat -> P -> V -> M -> option bool * M)
      (D : M -> P -> V -> Prop) (inv : M -> Prop) (S : M -> P -> Prop) (sk : P -> P -> Prop)
      (cost : P -> nat) : Prop := {
    c_done : forall n c v m b, fst (at_ n c v m) = Some b -> ins c v m = (b, snd (at_ n c v m));
    c_cost : forall n c v m, fst (at_ n c v m) = None <-> n < cost c;
    c_inv : forall n c v m, inv m -> fst (at_ n c v m) = None -> inv (snd (at_ n c v m));
    c_D : forall n c v m, inv m -> fst (at_ n c v m) = None ->
      forall c' v', D (snd (at_ n c v m)) c' v' <-> D m c' v';
    c_S : forall n c v m c', S (snd (at_ n c v m)) c' <-> S m c' \/ (1 <= n /\ sk c c')
  }.

  Definition atU (n : nat) (c : unit) (v : V) (s : list V) := hs_insert_at veqb n v s.
  Lemma clawsU : claws (insU veqb) atU DU (@NoDup V) (fun _ _ => False) (fun _ _ => False) (fun _ => 1).
  Proof.
    split; unfold atU, insU, hs_insert_at; intros [|n] c v m; cbn; try (destruct (hs_insert veqb v m) as [b s]; cbn);
      try (intros; tauto); try (intros; discriminate); try (intros; congruence).
    - split; [lia|reflexivity].
    - split; [discriminate|lia].
  Qed.

  Lemma clawsH {P M} mt d ins get D inv (L : @laws V T P M mt d ins get D inv) at_ S sk cost
      (C : claws ins at_ D inv S sk cost) :
    claws (fun kc v h => hm_entry teqb d (fst kc) (ins (snd kc) v) h)
      (fun n kc v h => hm_entry_at teqb n d (fst kc) (fun n => at_ n (snd kc) v) h)
      (DH teqb D) (invH teqb inv) (fun h kc => hm_get teqb (fst kc) h <> None)
      (fun kc kc' => fst kc = fst kc') (fun kc => Datatypes.S (cost (snd kc))).
  Proof.
    destruct L as [Ld Le _ _ _ _]. destruct C as [Cd Cc Ci CD _].
    assert (A : forall k h, invH teqb inv h ->
      inv match hm_get teqb k h with Some a => a | None => d end).
    { intros k h [_ H]. destruct (hm_get teqb k h) as [a|] eqn:E; [exact (H _ _ E)|exact Ld]. }
    split; intros [|n] [k c] v h; cbn [fst snd hm_entry_at];
      try (set (a := match hm_get teqb k h with Some a => a | None => d end);
           specialize (Cd n c v a); specialize (Cc n c v a); specialize (Ci n c v a);
           specialize (CD n c v a); destruct (at_ n c v a) as [r a'] eqn:E; cbn [fst snd] in *).
    - discriminate.
    - intros b F. unfold hm_entry. fold a. rewrite (Cd b F). reflexivity.
    - split; [lia|reflexivity].
    - rewrite Cc. lia.
    - auto.
    - intros I F. destruct I as [N I]. split; [apply hm_set_nodup; assumption|].
      intros k' b. rewrite (hm_get_set teqb teqb_spec).
      destruct (teqb k' k); [|apply I]. intros G. injection G as <-. apply Ci; [|exact F].
      apply A. split; assumption.
    - tauto.
    - intros I F [k' c'] v'. unfold DH. cbn [fst snd]. rewrite (hm_get_set teqb teqb_spec).
      destruct (teqb_cases teqb teqb_spec k' k) as [[-> ->]|[-> N]]; [|tauto].
      assert (B : inv a) by (apply A; exact I). specialize (CD B F c' v').
      split.
      + intros (x & G & H). injection G as <-. apply CD in H. subst a.
        destruct (hm_get teqb k h) as [y|]; [eauto|]. destruct (Le _ _ H).
      + intros (x & G & H). exists a'. split; [reflexivity|]. apply CD. subst a. rewrite G. exact H.
    - intros [k' c']. cbn [fst]. split; [auto|]. intros [H|[H _]]; [exact H|lia].
    - intros [k' c']. cbn [fst]. rewrite (hm_get_set teqb teqb_spec).
      destruct (teqb_cases teqb teqb_spec k' k) as [[-> ->]|[-> N]].
      + split; [intros _; right; split; [lia|reflexivity]|discriminate].
      + split; [auto|]. intros [H|[_ H]]; [exact H|congruence].
  Qed.

  Definition atS {P1 P2 M1 M2} (a1 : nat -> P1 -> V -> M1 -> option bool * M1)
      (a2 : nat -> P2 -> V -> M2 -> option bool * M2) (n : nat)
      (c : P1 + P2) (v : V) (m : M1 * M2) : option bool * (M1 * M2) :=
    match c with
    | inl c => let (b, x) := a1 n c v (fst m) in (b, (x, snd m))
    | inr c => let (b, x) := a2 n c v (snd m) in (b, (fst m, x))
    end.
  Lemma clawsPlus {P1 P2 M1 M2} i1 i2 a1 a2 D1 D2 inv1 inv2 S1 S2 k1 k2 c1 c2 :
    @claws P1 M1 i1 a1 D1 inv1 S1 k1 c1 -> @claws P2 M2 i2 a2 D2 inv2 S2 k2 c2 ->
    claws (insS i1 i2) (atS a1 a2)
      (fun m => sumP (D1 (fst m)) (D2 (snd m))) (fun m => inv1 (fst m) /\ inv2 (snd m))
      (fun m => sumP (S1 (fst m)) (S2 (snd m)))
      (fun c c' => match c, c' with inl c, inl c' => k1 c c' | inr c, inr c' => k2 c c' | _, _ => False end)
      (sumP c1 c2).
  Proof.
    intros [Ad Ac Ai AD AS] [Bd Bc Bi BD BS].
    split; intros n [c|c] v [m1 m2]; cbn;
      [specialize (Ad n c v m1)|specialize (Bd n c v m2)|specialize (Ac n c v m1)|specialize (Bc n c v m2)
      |specialize (Ai n c v m1)|specialize (Bi n c v m2)|specialize (AD n c v m1)|specialize (BD n c v m2)
      |specialize (AS n c v m1)|specialize (BS n c v m2)];
      [destruct (a1 n c v m1) as [b x]|destruct (a2 n c v m2) as [b x]
      |destruct (a1 n c v m1) as [b x]|destruct (a2 n c v m2) as [b x]
      |destruct (a1 n c v m1) as [b x]|destruct (a2 n c v m2) as [b x]
      |destruct (a1 n c v m1) as [b x]|destruct (a2 n c v m2) as [b x]
      |destruct (a1 n c v m1) as [b x]|destruct (a2 n c v m2) as [b x]]; cbn [fst snd] in *.
    - intros b' F. rewrite (Ad b' F). reflexivity.
    - intros b' F. rewrite (Bd b' F). reflexivity.
    - exact Ac.
    - exact Bc.
    - intros [X Y] F. auto.
    - intros [X Y] F. auto.
    - intros [X Y] F [c'|c'] v'; cbn; [apply AD; assumption|tauto].
    - intros [X Y] F [c'|c'] v'; cbn; [tauto|apply BD; assumption].
    - intros [c'|c']; cbn; [apply AS|tauto].
    - intros [c'|c']; cbn; [tauto|apply BS].
  Qed.

  Lemma clawsIso {P M P' M'} i a D inv S sk cost (eP : P' -> P) (eM : M' -> M) i' a' sk' cost' :
    @claws P M i a D inv S sk cost ->
    (forall m n, eM m = eM n -> m = n) ->
    (forall m c v, (fst (i' c v m), eM (snd (i' c v m))) = i (eP c) v (eM m)) ->
    (forall n m c v, (fst (a' n c v m), eM (snd (a' n c v m))) = a n (eP c) v (eM m)) ->
    (forall c c', sk' c c' <-> sk (eP c) (eP c')) ->
    (forall c, cost' c = cost (eP c)) ->
    @claws P' M' i' a' (fun m c v => D (eM m) (eP c) v) (fun m => inv (eM m))
      (fun m c => S (eM m) (eP c)) sk' cost'.
  Proof.
    intros [Cd Cc Ci CD CS] EJ Ei Ea Ek Ec.
    assert (E1 : forall n c v m, fst (a' n c v m) = fst (a n (eP c) v (eM m))) by
      (intros n c v m; rewrite <- Ea; reflexivity).
    assert (E2 : forall n c v m, eM (snd (a' n c v m)) = snd (a n (eP c) v (eM m))) by
      (intros n c v m; rewrite <- Ea; reflexivity).
    split; intros n c v m.
    - intros b F. rewrite E1 in F. specialize (Cd _ _ _ _ _ F). rewrite <- E2, <- Ei in Cd.
      destruct (i' c v m) as [b' m']. cbn in *. injection Cd as -> G. apply EJ in G. congruence.
    - rewrite E1, Ec. apply Cc.
    - intros I F. rewrite E2. rewrite E1 in F. auto.
    - intros I F c' v'. rewrite E2. rewrite E1 in F. auto.
    - intros c'. rewrite E2, CS, Ek. reflexivity.
  Qed.

  Definition atO (n : nat) (k : T) (v : V) (h : list (T * list V)) :=
    hm_entry_at teqb n [] k (fun n => hs_insert_at veqb n v) h.
  Lemma clawsO : claws (insO veqb teqb) atO (fun h k v => DH teqb DU h (k, tt) v) (invH teqb (@NoDup V))
    (fun h k => hm_get teqb k h <> None) (fun k k' => k = k') (fun _ => 2).
  Proof.
    refine (clawsIso _ _ _ _ _ _ _ (fun k => (k, tt)) (fun h => h) _ _ _ _
      (clawsH _ _ _ _ _ _ (lawsU (T := T) veqb veqb_spec) _ _ _ _ clawsU) _ _ _ _ _).
    - auto.
    - intros m c v. unfold insO, insU, hm_entry. cbn.
      destruct (hs_insert veqb v match hm_get teqb c m with Some a => a | None => [] end); reflexivity.
    - intros n m c v. unfold atO, atU. cbn.
      destruct (hm_entry_at teqb n [] c (fun n => hs_insert_at veqb n v) m). reflexivity.
    - cbn. tauto.
    - reflexivity.
  Qed.

  (** ** The laws of a union that may be interrupted *)
  Record tlaws {P M} (d : M) (un : M -> M -> M) (at_ : nat -> M -> M -> option nat * M)
      (D : M -> P -> V -> Prop) (inv : M -> Prop) (S : M -> P -> Prop) (sk : P -> P -> Prop)
      (size : M -> nat) (rank : P -> nat) : Prop := {
    t_zero : size d = 0;
    t_size : forall n m o, fst (at_ n m o) = if size o <=? n then Some (n - size o) else None;
    t_id : forall m, un m d = m;
    t_done : forall n m o k, fst (at_ n m o) = Some k -> snd (at_ n m o) = un m o;
    t_part : forall n m o, inv o -> exists o', inv o' /\ snd (at_ n m o) = un m o' /\
      (forall c v, D o' c v -> D o c v) /\ (forall c, S o' c -> S o c) /\
      (forall c v, S o' c -> D o c v -> D o' c v) /\
      (forall c c', sk c' c -> S o' c -> S o' c') /\
      (forall c c' v, D o' c v -> sk c c' -> S o' c') /\
      size o' = Nat.min n (size o) /\
      (size o <= n -> (forall c v, D o c v -> D o' c v) /\ (forall c, S o c -> S o' c)) /\
      (forall c c', S o' c \/ (exists v, D o' c v) -> rank c' < rank c ->
        (forall v, D o c' v -> D o' c' v) /\ (S o c' -> S o' c'))
  }.

  Lemma hs_extend_at_spec n l : forall s,
    snd (hs_extend_at veqb n s l) = hs_extend veqb s (firstn n l) /\
    (fst (hs_extend_at veqb n s l) <> None -> firstn n l = l).
  Proof.
    revert n. induction l as [|v r IH]; intros [|n] s; cbn; try (split; [reflexivity|tauto]).
    destruct (IH n (snd (hs_insert veqb v s))) as [A B]. split; [exact A|].
    intros F. rewrite (B F). reflexivity.
  Qed.
  Lemma hm_extend_at_spec {A} n (l : list (T * A)) : forall s,
    snd (hm_extend_at teqb n s l) = hm_extend teqb s (firstn n l) /\
    (fst (hm_extend_at teqb n s l) <> None -> firstn n l = l).
  Proof.
    revert n. induction l as [|[k a] r IH]; intros [|n] s; cbn; try (split; [reflexivity|tauto]).
    destruct (IH n (hm_set teqb k a s)) as [B C]. split; [exact B|].
    intros F. rewrite (C F). reflexivity.
  Qed.
  Lemma hs_extend_at_size n l : forall s,
    fst (hs_extend_at veqb n s l) = if length l <=? n then Some (n - length l) else None.
  Proof.
    revert n. induction l as [|v r IH]; intros [|n] s; try reflexivity. cbn. apply IH.
  Qed.
  Lemma hm_extend_at_size {A} n (l : list (T * A)) : forall s,
    fst (hm_extend_at teqb n s l) = if length l <=? n then Some (n - length l) else None.
  Proof.
    revert n. induction l as [|[k a] r IH]; intros [|n] s; try reflexivity. cbn. apply IH.
  Qed.
  Lemma firstn_nodup {A} n (l : list A) : NoDup l -> NoDup (firstn n l).
  Proof.
    revert n. induction l as [|x l IH]; intros [|n] N; cbn; try constructor; inv N.
    - intros H. apply H1. rewrite <- (firstn_skipn n l). apply in_or_app. auto.
    - apply IH. assumption.
  Qed.
  Lemma firstn_in {A} n (l : list A) x : In x (firstn n l) -> In x l.
  Proof. intros H. rewrite <- (firstn_skipn n l). apply in_or_app. auto. Qed.
  Lemma hm_get_firstn {A} n (l : list (T * A)) k a :
    hm_get teqb k (firstn n l) = Some a -> hm_get teqb k l = Some a.
  Proof.
    revert n. induction l as [|[x b] r IH]; intros [|n]; cbn; try discriminate.
    destruct (teqb k x); [auto|apply IH].
  Qed.

  Lemma tlawsU : tlaws [] (hs_extend veqb) (hs_extend_at veqb) DU (@NoDup V)
    (fun _ _ => False) (fun _ _ => False) (@length V) (fun _ => 0).
  Proof.
    split.
    - reflexivity.
    - intros n m o. apply hs_extend_at_size.
    - reflexivity.
    - intros n m o k F. destruct (hs_extend_at_spec n o m) as [A B]. rewrite A, B; congruence.
    - intros n m o N. destruct (hs_extend_at_spec n o m) as [A _]. exists (firstn n o).
      repeat split; try tauto; try lia.
      + apply firstn_nodup. exact N.
      + intros c v. apply firstn_in.
      + apply firstn_length.
      + intros c v. now rewrite firstn_all2.
  Qed.

  Lemma tlawsH {P M} (D : M -> P -> V -> Prop) (inv : M -> Prop) :
    tlaws [] (hm_extend teqb) (hm_extend_at teqb)
      (DH teqb D) (invH teqb inv) (fun h kc => hm_get teqb (fst kc) h <> None)
      (fun kc kc' => fst kc = fst kc') (@length (T * M)) (fun _ => 0).
  Proof.
    split.
    - reflexivity.
    - intros n m o. apply hm_extend_at_size.
    - reflexivity.
    - intros n m o k F. destruct (hm_extend_at_spec n o m) as [A B]. rewrite A, B; congruence.
    - intros n m o [N I]. destruct (hm_extend_at_spec n o m) as [A _]. exists (firstn n o).
      split; [|split; [exact A|split; [|split; [|split; [|split; [|split; [|split; [|split]]]]]]]].
      + split; [rewrite <- firstn_map; apply firstn_nodup; exact N|].
        intros k a H. exact (I _ _ (hm_get_firstn _ _ _ _ H)).
      + intros [k c] v (a & E & H). exists a. split; [|exact H]. exact (hm_get_firstn _ _ _ _ E).
      + intros [k c]. cbn. destruct (hm_get teqb k (firstn n o)) as [a|] eqn:E; [|tauto].
        rewrite (hm_get_firstn _ _ _ _ E). discriminate.
      + intros [k c] v. unfold DH. cbn. destruct (hm_get teqb k (firstn n o)) as [a|] eqn:E; [|tauto].
        intros _ (b & F & H). rewrite (hm_get_firstn _ _ _ _ E) in F. injection F as <-. eauto.
      + intros [k c] [k' c']. cbn. intros ->. auto.
      + intros [k c] [k' c'] v (a & E & _). cbn in *. intros <-. congruence.
      + apply firstn_length.
      + intros F. rewrite firstn_all2 by exact F. auto.
      + intros c c' _ F. lia.
  Qed.

  Definition uatS {M1 M2} (a1 : nat -> M1 -> M1 -> option nat * M1) (a2 : nat -> M2 -> M2 -> option nat * M2)
      (n : nat) (m o : M1 * M2) : option nat * (M1 * M2) :=
    then_at (fun n => a1 n (fst m) (fst o)) (snd m) (fun n => a2 n (snd m) (snd o)) n.

  Definition rankS {P1 P2} (B : nat) (r1 : P1 -> nat) (r2 : P2 -> nat) (c : P1 + P2) : nat :=
    match c with inl c => r1 c | inr c => B + r2 c end.

  Lemma tlawsPlus {P1 P2 M1 M2} B mt2 d1 d2 i2 g2 u1 u2 a1 a2 D1 D2 inv1 inv2 S1 S2 k1 k2 z1 z2 r1 r2 :
    (forall c, r1 c < B) ->
    @laws V T P2 M2 mt2 d2 i2 g2 D2 inv2 -> ulaws d2 i2 u2 D2 inv2 S2 k2 ->
    @tlaws P1 M1 d1 u1 a1 D1 inv1 S1 k1 z1 r1 -> @tlaws P2 M2 d2 u2 a2 D2 inv2 S2 k2 z2 r2 ->
    tlaws (d1, d2) (fun m n => (u1 (fst m) (fst n), u2 (snd m) (snd n))) (uatS a1 a2)
      (fun m => sumP (D1 (fst m)) (D2 (snd m))) (fun m => inv1 (fst m) /\ inv2 (snd m))
      (fun m => sumP (S1 (fst m)) (S2 (snd m)))
      (fun c c' => match c, c' with inl c, inl c' => k1 c c' | inr c, inr c' => k2 c c' | _, _ => False end)
      (fun m => z1 (fst m) + z2 (snd m)) (rankS B r1 r2).
  Proof.
    intros RB [Ld Le _ _ _ _] [_ _ Ud _] [A0 Az Ai Ad Ap] [B0 Bz Bi Bd Bp]. split.
    - cbn. lia.
    - intros n [m1 m2] [o1 o2]. unfold uatS, then_at. cbn.
      specialize (Az n m1 o1). destruct (a1 n m1 o1) as [r x]. cbn in Az. subst r.
      destruct (Nat.leb_spec (z1 o1) n) as [H|H].
      + specialize (Bz (n - z1 o1) m2 o2). destruct (a2 (n - z1 o1) m2 o2) as [r y]. cbn in *. subst r.
        destruct (Nat.leb_spec (z2 o2) (n - z1 o1)), (Nat.leb_spec (z1 o1 + z2 o2) n); try lia; f_equal; lia.
      + destruct (Nat.leb_spec (z1 o1 + z2 o2) n); [lia|reflexivity].
    - intros [m1 m2]. cbn. rewrite Ai, Bi. reflexivity.
    - intros n [m1 m2] [o1 o2] k. unfold uatS, then_at. cbn.
      specialize (Ad n m1 o1). destruct (a1 n m1 o1) as [[n'|] x]; cbn in *; [|discriminate].
      specialize (Bd n' m2 o2 k). destruct (a2 n' m2 o2) as [r y]; cbn in *.
      intros F. rewrite (Ad _ eq_refl), (Bd F). reflexivity.
    - intros n [m1 m2] [o1 o2] [I1 I2]. unfold uatS, then_at. cbn in *.
      destruct (Ap n m1 o1 I1) as (p1 & J1 & E1 & F1 & G1 & H1 & K1 & Q1 & X1 & Y1 & Z1).
      specialize (Az n m1 o1). destruct (a1 n m1 o1) as [[n'|] x]; cbn in *.
      + destruct (Nat.leb_spec (z1 o1) n) as [N|N]; [|discriminate]. injection Az as Az.
        destruct (Y1 N) as [Y1a Y1b].
        destruct (Bp n' m2 o2 I2) as (p2 & J2 & E2 & F2 & G2 & H2 & K2 & Q2 & X2 & Y2 & Z2).
        destruct (a2 n' m2 o2) as [r y]; cbn in *. exists (p1, p2). cbn.
        split; [auto|]. split; [congruence|]. split; [|split; [|split; [|split; [|split; [|split; [|split]]]]]].
        * intros [c|c] v; cbn; auto.
        * intros [c|c]; cbn; auto.
        * intros [c|c] v; cbn; auto.
        * intros [c|c] [c'|c']; cbn; eauto; tauto.
        * intros [c|c] [c'|c'] v; cbn; eauto; tauto.
        * lia.
        * intros W. assert (W2 : z2 o2 <= n') by lia. destruct (Y2 W2) as [Y2a Y2b]. split.
          -- intros [c|c] v; cbn; auto.
          -- intros [c|c]; cbn; auto.
        * intros [c|c] [c'|c']; cbn; intros F W.
          -- exact (Z1 c c' F W).
          -- specialize (RB c). lia.
          -- auto.
          -- apply (Z2 c c' F). lia.
      + destruct (Nat.leb_spec (z1 o1) n) as [N|N]; [discriminate|].
        exists (p1, d2). cbn. split; [auto|]. split; [rewrite Bi; congruence|].
        split; [|split; [|split; [|split; [|split; [|split; [|split]]]]]].
        * intros [c|c] v; cbn; [auto|]. intros H. destruct (Le _ _ H).
        * intros [c|c]; cbn; [auto|]. intros H. destruct (Ud _ H).
        * intros [c|c] v; cbn; [auto|]. intros H. destruct (Ud _ H).
        * intros [c|c] [c'|c']; cbn; eauto; try tauto. intros _ H. destruct (Ud _ H).
        * intros [c|c] [c'|c'] v; cbn; eauto; try tauto. intros H. destruct (Le _ _ H).
        * lia.
        * lia.
        * intros [c|c] [c'|c']; cbn; intros F W.
          -- exact (Z1 c c' F W).
          -- specialize (RB c). lia.
          -- destruct F as [F|[v F]]; [destruct (Ud _ F)|destruct (Le _ _ F)].
          -- destruct F as [F|[v F]]; [destruct (Ud _ F)|destruct (Le _ _ F)].
  Qed.

  Lemma tlawsIso {P M P' M'} d u a D inv S sk size rank (eP : P' -> P) (eM : M' -> M) (eM' : M -> M')
      d' u' a' sk' size' rank' :
    @tlaws P M d u a D inv S sk size rank ->
    (forall m, eM' (eM m) = m) -> (forall m, eM (eM' m) = m) ->
    eM d' = d ->
    (forall m n, eM (u' m n) = u (eM m) (eM n)) ->
    (forall n m o, (fst (a' n m o), eM (snd (a' n m o))) = a n (eM m) (eM o)) ->
    (forall c c', sk' c c' <-> sk (eP c) (eP c')) ->
    (forall m, size' m = size (eM m)) ->
    (forall c, rank' c = rank (eP c)) ->
    @tlaws P' M' d' u' a' (fun m c v => D (eM m) (eP c) v) (fun m => inv (eM m))
      (fun m c => S (eM m) (eP c)) sk' size' rank'.
  Proof.
    intros [T0 Tz Ti Td Tp] E1 E2 Ed Eu Ea Ek Ez Er.
    assert (EJ : forall m n, eM m = eM n -> m = n) by (intros m n F; rewrite <- (E1 m), F; apply E1).
    assert (F1 : forall n m o, fst (a' n m o) = fst (a n (eM m) (eM o))) by
      (intros n m o; rewrite <- Ea; reflexivity).
    assert (F2 : forall n m o, eM (snd (a' n m o)) = snd (a n (eM m) (eM o))) by
      (intros n m o; rewrite <- Ea; reflexivity).
    split.
    - rewrite Ez, Ed. exact T0.
    - intros n m o. rewrite F1, Ez. apply Tz.
    - intros m. apply EJ. rewrite Eu, Ed. apply Ti.
    - intros n m o k F. apply EJ. rewrite F1 in F. rewrite F2, Eu. eapply Td. exact F.
    - intros n m o I. destruct (Tp n (eM m) (eM o) I) as (o' & A & B & C & E & F & G & H & X & Y & Z).
      exists (eM' o'). rewrite E2. split; [exact A|]. split.
      { apply EJ. rewrite F2, Eu, E2. exact B. }
      rewrite !Ez, E2. split; [auto|]. split; [auto|]. split; [auto|]. split; [|split; [|split; [exact X|split]]].
      + intros c c' Q. apply Ek in Q. eauto.
      + intros c c' v Q R. apply Ek in R. eauto.
      + intros Q. destruct (Y Q). auto.
      + intros c c' Q R. rewrite !Er in R. destruct (Z (eP c) (eP c') Q R). auto.
  Qed.

  Lemma tlawsO : tlaws [] (hm_extend teqb) (hm_extend_at teqb)
    (fun h k v => DH teqb DU h (k, tt) v) (invH teqb (@NoDup V))
    (fun h k => hm_get teqb k h <> None) (fun k k' => k = k') (@length (T * list V)) (fun _ => 0).
  Proof.
    refine (tlawsIso _ _ _ _ _ _ _ _ _ (fun k => (k, tt)) (fun h => h) (fun h => h) _ _ _ _ _ _
      (tlawsH DU (@NoDup V)) _ _ _ _ _ _ _ _); try reflexivity.
    intros n m o. destruct (hm_extend_at teqb n m o). reflexivity.
  Qed.

  (** ** The same tables in another order *)
  Definition olaws {P M} (order : M -> M -> Prop) (D : M -> P -> V -> Prop) (inv : M -> Prop)
      (S : M -> P -> Prop) : Prop :=
    forall m m', inv m -> order m m' ->
      inv m' /\ (forall c v, D m' c v <-> D m c v) /\ (forall c, S m' c <-> S m c).

  Lemma olawsU : olaws hs_order DU (@NoDup V) (fun _ (_ : unit) => False).
  Proof.
    intros m m' N O. split; [exact (Permutation_NoDup O N)|]. split; [|tauto].
    intros c v. unfold DU. split; apply Permutation_in; [symmetry|]; exact O.
  Qed.

  Lemma hm_get_in {A} (h : list (T * A)) k a : NoDup (map fst h) ->
    (hm_get teqb k h = Some a <-> In (k, a) h).
  Proof.
    induction h as [|[x b] h IH]; cbn; intros N; [split; [discriminate|tauto]|].
    inversion N as [|? ? N1 N2]; subst. destruct (teqb k x) eqn:E.
    - apply teqb_spec in E. subst x. split.
      + intros F. injection F as ->. auto.
      + intros [F|F]; [congruence|]. destruct N1. exact (in_map fst _ _ F).
    - rewrite (IH N2). split; [auto|]. intros [F|F]; [|exact F]. exfalso.
      injection F as -> ->. assert (X : teqb k k = true) by now apply teqb_spec. congruence.
  Qed.
  Lemma hm_get_order {A} (o : A -> A -> Prop) (h h' : list (T * A)) :
    NoDup (map fst h) -> hm_order o h h' -> NoDup (map fst h') /\
    (forall k a', hm_get teqb k h' = Some a' -> exists a, hm_get teqb k h = Some a /\ o a a') /\
    (forall k a, hm_get teqb k h = Some a -> exists a', hm_get teqb k h' = Some a' /\ o a a').
  Proof.
    intros N (h1 & P1 & F).
    assert (E : map fst h1 = map fst h') by (clear - F; induction F as [|x y l l' [E _] _ IH]; cbn; congruence).
    assert (N1 : NoDup (map fst h1)) by exact (Permutation_NoDup (Permutation_map fst P1) N).
    assert (N' : NoDup (map fst h')) by (rewrite <- E; exact N1).
    split; [exact N'|]. clear E N1. split.
    - intros k a' H. apply hm_get_in in H; [|exact N'].
      assert (X : exists a, In (k, a) h1 /\ o a a').
      { clear - F H. induction F as [|[x b] [y b'] l l' [E O] _ IH]; [destruct H|]. cbn in *. subst y.
        destruct H as [H|H].
        - injection H as -> ->. eauto.
        - destruct (IH H) as (a & X & Y). eauto. }
      destruct X as (a & X & Y). exists a. split; [|exact Y]. apply hm_get_in; [exact N|].
      apply Permutation_in with h1; [now symmetry|exact X].
    - intros k a H. apply hm_get_in in H; [|exact N]. apply (Permutation_in _ P1) in H.
      assert (X : exists a', In (k, a') h' /\ o a a').
      { clear - F H. induction F as [|[x b] [y b'] l l' [E O] _ IH]; [destruct H|]. cbn in *. subst y.
        destruct H as [H|H].
        - injection H as -> ->. eauto.
        - destruct (IH H) as (a' & X & Y). eauto. }
      destruct X as (a' & X & Y). exists a'. split; [|exact Y]. apply hm_get_in; [exact N'|exact X].
  Qed.

  Lemma olawsH {P M} (order : M -> M -> Prop) (D : M -> P -> V -> Prop) (inv : M -> Prop) S :
    olaws order D inv S ->
    olaws (hm_order order) (DH teqb D) (invH teqb inv) (fun h kc => hm_get teqb (fst kc) h <> None).
  Proof.
    intros H h h' [N I] O. destruct (hm_get_order _ _ _ N O) as (N' & A & B). split; [|split].
    - split; [exact N'|]. intros k a' G. destruct (A _ _ G) as (a & X & Y). exact (proj1 (H _ _ (I _ _ X) Y)).
    - intros [k c] v. unfold DH. cbn. split.
      + intros (a' & G & X). destruct (A _ _ G) as (a & Y & Z). exists a. split; [exact Y|].
        apply (H _ _ (I _ _ Y) Z). exact X.
      + intros (a & Y & X). destruct (B _ _ Y) as (a' & G & Z). exists a'. split; [exact G|].
        apply (H _ _ (I _ _ Y) Z). exact X.
    - intros [k c]. cbn. destruct (hm_get teqb k h) as [a|] eqn:E.
      + destruct (B _ _ E) as (a' & G & _). rewrite G. split; discriminate.
      + destruct (hm_get teqb k h') as [a'|] eqn:G; [|tauto]. destruct (A _ _ G) as (a & X & _). congruence.
  Qed.

  Lemma olawsPlus {P1 P2 M1 M2} (o1 : M1 -> M1 -> Prop) (o2 : M2 -> M2 -> Prop)
      (D1 : M1 -> P1 -> V -> Prop) (D2 : M2 -> P2 -> V -> Prop) inv1 inv2 S1 S2 :
    olaws o1 D1 inv1 S1 -> olaws o2 D2 inv2 S2 ->
    olaws (fun m m' => o1 (fst m) (fst m') /\ o2 (snd m) (snd m'))
      (fun m => sumP (D1 (fst m)) (D2 (snd m))) (fun m => inv1 (fst m) /\ inv2 (snd m))
      (fun m => sumP (S1 (fst m)) (S2 (snd m))).
  Proof.
    intros A B [m1 m2] [n1 n2] [I1 I2] [O1 O2]. cbn in *.
    destruct (A _ _ I1 O1) as (A1 & A2 & A3), (B _ _ I2 O2) as (B1 & B2 & B3).
    split; [auto|]. split.
    - intros [c|c] v; cbn; auto.
    - intros [c|c]; cbn; auto.
  Qed.

  Lemma olawsIso {P M P' M'} (order : M -> M -> Prop) (D : M -> P -> V -> Prop) inv S (eP : P' -> P) (eM : M' -> M)
      (order' : M' -> M' -> Prop) :
    olaws order D inv S -> (forall m m', order' m m' -> order (eM m) (eM m')) ->
    olaws order' (fun m c v => D (eM m) (eP c) v) (fun m => inv (eM m)) (fun m c => S (eM m) (eP c)).
  Proof.
    intros H E m m' I O. destruct (H _ _ I (E _ _ O)) as (A & B & C). auto.
  Qed.

  Lemma olawsO : olaws (hm_order hs_order)
    (fun h k v => DH teqb DU h (k, tt) v) (invH teqb (@NoDup V)) (fun h k => hm_get teqb k h <> None).
  Proof.
    exact (olawsIso _ _ _ _ (fun k => (k, tt)) (fun h => h) _ (olawsH _ _ _ _ olawsU) (fun _ _ O => O)).
  Qed.

  (** ** The number of entries *)
  Definition slaws {P M} (D : M -> P -> V -> Prop) (inv : M -> Prop) (S : M -> P -> Prop)
      (sk : P -> P -> Prop) (size : M -> nat) : Prop :=
    forall m, inv m -> amount sk (D m) (S m) (size m).

  Lemma fop_app {A} (R : A -> A -> Prop) l1 l2 : ForallOrdPairs R l1 -> ForallOrdPairs R l2 ->
    (forall x y, In x l1 -> In y l2 -> R x y) -> ForallOrdPairs R (l1 ++ l2).
  Proof.
    induction 1 as [|x l F _ IH]; cbn; intros H X; [exact H|]. constructor.
    - apply Forall_app. split; [exact F|]. apply Forall_forall. intros y Y. apply X; auto.
    - apply IH; auto.
  Qed.
  Lemma fop_map {A B} (f : A -> B) (R : A -> A -> Prop) (R' : B -> B -> Prop) l :
    (forall x y, R x y -> R' (f x) (f y)) -> ForallOrdPairs R l -> ForallOrdPairs R' (map f l).
  Proof.
    intros H. induction 1 as [|x l F _ IH]; cbn; constructor; [|exact IH].
    apply Forall_forall. intros y Y. apply in_map_iff in Y. destruct Y as (z & <- & Z).
    apply H. rewrite Forall_forall in F. auto.
  Qed.

  Lemma slawsU : slaws DU (@NoDup V) (fun _ _ => False) (fun _ _ => False) (@length V).
  Proof.
    intros m N. exists (map (pair tt) m), []. split; [|split; [|split; [|split; [|split]]]].
    - apply FinFun.Injective_map_NoDup; [|exact N]. intros x y F. now injection F.
    - intros [] v. unfold DU. rewrite in_map_iff. split.
      + intros (w & F & H). injection F as ->. tauto.
      + intros [H _]. eauto.
    - constructor.
    - intros c [].
    - intros c. split; [tauto|]. intros (c' & [] & _).
    - rewrite map_length. cbn. lia.
  Qed.

  Lemma slawsH {P M} (D : M -> P -> V -> Prop) (inv : M -> Prop) (c0 : P) :
    slaws (DH teqb D) (invH teqb inv) (fun h kc => hm_get teqb (fst kc) h <> None)
      (fun kc kc' => fst kc = fst kc') (@length (T * M)).
  Proof.
    intros h [N _]. exists [], (map (fun e => (fst e, c0)) h). split; [|split; [|split; [|split; [|split]]]].
    - constructor.
    - intros [k c] v. cbn. split; [tauto|]. intros [_ F]. now destruct F.
    - clear - N. induction h as [|[k a] h IH]; cbn in *; constructor; inversion N; subst; auto.
      apply Forall_forall. intros [k' c'] F. apply in_map_iff in F. destruct F as ([k2 a2] & F & G). cbn in F.
      injection F as -> ->. cbn. intros ->. apply H1. exact (in_map fst _ _ G).
    - intros [k c] F. cbn. apply in_map_iff in F. destruct F as ([k2 a2] & F & G). cbn in F. injection F as -> ->.
      apply hm_get_in in G; [|exact N]. congruence.
    - intros [k c]. cbn. split.
      + destruct (hm_get teqb k h) as [a|] eqn:E; [|tauto]. intros _. apply hm_get_in in E; [|exact N].
        exists (k, c0). split; [|reflexivity]. apply in_map_iff. now exists (k, a).
      + intros ([k' c'] & F & G). cbn in G. subst k'. apply in_map_iff in F. destruct F as ([k2 a2] & F & G).
        cbn in F. injection F as -> ->. apply hm_get_in in G; [|exact N]. congruence.
    - rewrite map_length. reflexivity.
  Qed.

  Lemma slawsPlus {P1 P2 M1 M2} (D1 : M1 -> P1 -> V -> Prop) (D2 : M2 -> P2 -> V -> Prop)
      inv1 inv2 S1 S2 k1 k2 z1 z2 :
    slaws D1 inv1 S1 k1 z1 -> slaws D2 inv2 S2 k2 z2 ->
    slaws (fun m => sumP (D1 (fst m)) (D2 (snd m))) (fun m => inv1 (fst m) /\ inv2 (snd m))
      (fun m => sumP (S1 (fst m)) (S2 (snd m)))
      (fun c c' => match c, c' with inl c, inl c' => k1 c c' | inr c, inr c' => k2 c c' | _, _ => False end)
      (fun m => z1 (fst m) + z2 (snd m)).
  Proof.
    intros A B [m1 m2] [I1 I2]. cbn in *.
    destruct (A _ I1) as (v1 & s1 & A1 & A2 & A3 & A4 & A5 & A6).
    destruct (B _ I2) as (v2 & s2 & B1 & B2 & B3 & B4 & B5 & B6).
    exists (map (fun e => (inl (fst e), snd e)) v1 ++ map (fun e => (inr (fst e), snd e)) v2),
      (map inl s1 ++ map inr s2).
    split; [|split; [|split; [|split; [|split]]]].
    - apply NoDup_app_intro.
      + apply FinFun.Injective_map_NoDup; [|exact A1]. intros [x1 x2] [y1 y2] F. cbn in F. congruence.
      + apply FinFun.Injective_map_NoDup; [|exact B1]. intros [x1 x2] [y1 y2] F. cbn in F. congruence.
      + intros x F G. apply in_map_iff in F. apply in_map_iff in G. destruct F as (y & <- & _), G as (z & F & _).
        discriminate.
    - intros [c|c] v; cbn; rewrite in_app_iff, !in_map_iff; split.
      + intros [([x y] & F & G)|([x y] & F & G)]; [|discriminate]. cbn in F. injection F as -> ->. now apply A2.
      + intros F. apply A2 in F. left. now exists (c, v).
      + intros [([x y] & F & G)|([x y] & F & G)]; [discriminate|]. cbn in F. injection F as -> ->. now apply B2.
      + intros F. apply B2 in F. right. now exists (c, v).
    - apply fop_app.
      + eapply fop_map; [|exact A3]. cbn. auto.
      + eapply fop_map; [|exact B3]. cbn. auto.
      + intros x y F G. apply in_map_iff in F. apply in_map_iff in G. destruct F as (f & <- & _), G as (h & <- & _). tauto.
    - intros c. rewrite in_app_iff, !in_map_iff. intros [(x & <- & F)|(x & <- & F)]; cbn; auto.
    - intros [c|c]; cbn; [rewrite A5|rewrite B5]; split.
      + intros (x & F & G). exists (inl x). split; [|exact G]. apply in_or_app. left. now apply in_map.
      + intros ([x|x] & F & G); [|tauto]. exists x. split; [|exact G]. apply in_app_or in F.
        destruct F as [F|F]; apply in_map_iff in F; destruct F as (y & E & F); [congruence|discriminate].
      + intros (x & F & G). exists (inr x). split; [|exact G]. apply in_or_app. right. now apply in_map.
      + intros ([x|x] & F & G); [tauto|]. exists x. split; [|exact G]. apply in_app_or in F.
        destruct F as [F|F]; apply in_map_iff in F; destruct F as (y & E & F); [discriminate|congruence].
    - rewrite !app_length, !map_length. lia.
  Qed.

  Lemma slawsIso {P M P' M'} (D : M -> P -> V -> Prop) inv S sk size (eP : P' -> P) (dP : P -> P') (eM : M' -> M)
      sk' size' :
    slaws D inv S sk size -> (forall c, dP (eP c) = c) -> (forall c, eP (dP c) = c) ->
    (forall c c', sk' c c' <-> sk (eP c) (eP c')) -> (forall m, size' m = size (eM m)) ->
    slaws (fun m c v => D (eM m) (eP c) v) (fun m => inv (eM m)) (fun m c => S (eM m) (eP c)) sk' size'.
  Proof.
    intros H E1 E2 Ek Ez m I. destruct (H _ I) as (vs & ks & A1 & A2 & A3 & A4 & A5 & A6).
    exists (map (fun e => (dP (fst e), snd e)) vs), (map dP ks). split; [|split; [|split; [|split; [|split]]]].
    - apply FinFun.Injective_map_NoDup; [|exact A1]. intros [x1 x2] [y1 y2] F. cbn in F. injection F as F ->.
      f_equal. rewrite <- (E2 x1), <- (E2 y1). now rewrite F.
    - intros c v. rewrite in_map_iff, Ek, <- A2. split.
      + intros ([x y] & F & G). cbn in F. injection F as <- ->. now rewrite E2.
      + intros F. exists (eP c, v). cbn. now rewrite E1.
    - eapply fop_map; [|exact A3]. intros x y F. now rewrite Ek, !E2.
    - intros c F. apply in_map_iff in F. destruct F as (x & <- & F). rewrite E2. auto.
    - intros c. rewrite A5. split.
      + intros (x & F & G). exists (dP x). rewrite Ek, E2. split; [now apply in_map|exact G].
      + intros (x & F & G). apply in_map_iff in F. destruct F as (y & <- & F). rewrite Ek, E2 in G. eauto.
    - rewrite Ez, !map_length. exact A6.
  Qed.

  Lemma slawsO : slaws (fun h k v => DH teqb DU h (k, tt) v) (invH teqb (@NoDup V))
    (fun h k => hm_get teqb k h <> None) (fun k k' => k = k') (@length (T * list V)).
  Proof.
    refine (slawsIso _ _ _ _ _ (fun k => (k, tt)) fst (fun h => h) _ _ (slawsH DU (@NoDup V) tt) _ _ _ _); try reflexivity.
    now intros [k []].
  Qed.

  (** ** Histories *)
  Lemma runs {P M} mt d i g D inv S sk a cost
      (L : @laws V T P M mt d i g D inv)
      (C : claws i a D inv S sk cost) l : forall m, inv m ->
    let (rs, m') := insert_runs a l m in
    inv m' /\ (forall c v, D m' c v <-> D m c v \/ In (c, v) (completed l rs)) /\
    (forall c, S m' c <-> S m c \/ exists n c' v, In (n, (c', v)) l /\ 1 <= n /\ sk c' c).
  Proof.
    induction l as [|[n [c v]] l IH]; intros m I; cbn.
    - split; [exact I|]. split; [tauto|]. intros c. split; [auto|].
      intros [H|(? & ? & ? & [] & _)]; exact H.
    - pose proof (c_done _ _ _ _ _ _ _ C n c v m) as A1.
      pose proof (c_inv _ _ _ _ _ _ _ C n c v m I) as A2.
      pose proof (c_D _ _ _ _ _ _ _ C n c v m I) as A3.
      pose proof (c_S _ _ _ _ _ _ _ C n c v m) as A4.
      pose proof (l_inv _ _ _ _ _ _ L m c v I) as B1.
      pose proof (fun c' v' => l_D _ _ _ _ _ _ L m c v c' v' I) as B2.
      destruct (a n c v m) as [r m1]. cbn [fst snd] in *.
      assert (X : inv m1 /\ forall c' v', D m1 c' v' <->
        D m c' v' \/ (r <> None /\ c' = c /\ v' = v)).
      { destruct r as [b|].
        - rewrite (A1 b eq_refl) in B1, B2. split; [exact B1|]. intros c' v'. rewrite B2.
          split; [|tauto]. intros [H|H]; [auto|]. right. split; [discriminate|exact H].
        - split; [auto|]. intros c' v'. rewrite A3 by reflexivity. tauto. }
      destruct X as [X1 X2]. specialize (IH m1 X1).
      destruct (insert_runs a l m1) as [rs m2]. destruct IH as (I1 & I2 & I3).
      split; [exact I1|]. split.
      + intros c' v'. rewrite I2, X2. destruct r as [b|]; cbn.
        * split.
          -- intros [[H|(_ & -> & ->)]|H]; auto.
          -- intros [H|[H|H]]; auto. injection H as -> ->. left. right. split; [discriminate|auto].
        * split; [|tauto]. intros [[H|(H & _)]|H]; auto. congruence.
      + intros c'. rewrite I3, A4. split.
        * intros [[H|(H & K)]|(n' & x & w & H & K)]; auto.
          -- right. exists n, c, v. auto.
          -- right. exists n', x, w. tauto.
        * intros [H|(n' & x & w & [H|H] & K)]; auto.
          -- injection H as -> -> ->. auto.
          -- right. exists n', x, w. tauto.
  Qed.

  Lemma runs_get {P M} mt d i g D inv S sk a cost
      (L : @laws V T P M mt d i g D inv)
      (C : claws i a D inv S sk cost) l t :
    answers (g (snd (insert_runs a l d)) t)
      (fun c v => In (c, v) (completed l (fst (insert_runs a l d))) /\ mt c t).
  Proof.
    pose proof (runs _ _ _ _ _ _ _ _ _ _ L C l d (l_dinv _ _ _ _ _ _ L)) as H.
    destruct (insert_runs a l d) as [rs m]. destruct H as (A & B & _). cbn [fst snd].
    apply yields_answers. eapply yields_ext; [apply (l_get _ _ _ _ _ _ L); exact A|].
    intros c v. cbn. rewrite B. pose proof (l_dempty _ _ _ _ _ _ L c v). tauto.
  Qed.

  Lemma same_results {P M} mt d i g D inv (L : @laws V T P M mt d i g D inv) c v m n :
    inv m -> inv n -> (forall c v, D m c v <-> D n c v) -> fst (i c v m) = fst (i c v n).
  Proof.
    intros I J E. pose proof (l_new _ _ _ _ _ _ L m c v I) as A.
    pose proof (l_new _ _ _ _ _ _ L n c v J) as B. rewrite <- E in B.
    destruct (fst (i c v m)), (fst (i c v n)); intuition congruence.
  Qed.

  Lemma runs_returned_from {P M} mt d i g D inv S sk a cost
      (L : @laws V T P M mt d i g D inv) (C : claws i a D inv S sk cost) l : forall m n,
    inv m -> inv n -> (forall c v, D m c v <-> D n c v) ->
    returned (fst (insert_runs a l m)) = fst (insert_all i (completed l (fst (insert_runs a l m))) n).
  Proof.
    induction l as [|[k [c v]] l IH]; intros m n I J E; cbn; [reflexivity|].
    pose proof (c_done _ _ _ _ _ _ _ C k c v m) as A1.
    pose proof (c_inv _ _ _ _ _ _ _ C k c v m I) as A2.
    pose proof (c_D _ _ _ _ _ _ _ C k c v m I) as A3.
    destruct (a k c v m) as [r m1]. cbn [fst snd] in *.
    destruct r as [b|].
    - specialize (A1 b eq_refl).
      pose proof (same_results _ _ _ _ _ _ L c v m n I J E) as X. rewrite A1 in X. cbn in X.
      specialize (IH m1 (snd (i c v n))).
      destruct (insert_runs a l m1) as [rs m2]. cbn in *.
      destruct (i c v n) as [b' n1] eqn:F. cbn in *. subst b'.
      destruct (insert_all i (completed l rs) n1) as [bs n2] eqn:G. cbn in *.
      f_equal. apply IH.
      + pose proof (l_inv _ _ _ _ _ _ L m c v I) as Y. rewrite A1 in Y. exact Y.
      + pose proof (l_inv _ _ _ _ _ _ L n c v J) as Y. rewrite F in Y. exact Y.
      + intros c' v'. pose proof (l_D _ _ _ _ _ _ L m c v c' v' I) as Y.
        pose proof (l_D _ _ _ _ _ _ L n c v c' v' J) as Z. rewrite A1 in Y. rewrite F in Z.
        cbn in *. rewrite Y, Z, E. reflexivity.
    - specialize (IH m1 n (A2 eq_refl) J).
      destruct (insert_runs a l m1) as [rs m2]. cbn in *. apply IH.
      intros c' v'. rewrite A3 by reflexivity. apply E.
  Qed.
  Lemma runs_returned {P M} mt d i g D inv S sk a cost
      (L : @laws V T P M mt d i g D inv) (C : claws i a D inv S sk cost) l :
    returned (fst (insert_runs a l d)) = fst (insert_all i (completed l (fst (insert_runs a l d))) d).
  Proof.
    apply (runs_returned_from _ _ _ _ _ _ _ _ _ _ L C); try exact (l_dinv _ _ _ _ _ _ L). tauto.
  Qed.

  Lemma runs_union {P M} mt d i g D inv u S sk a cost
      (L : @laws V T P M mt d i g D inv) (U : ulaws d i u D inv S sk)
      (C : claws i a D inv S sk cost) l1 l2 t :
    answers (g (u (snd (insert_runs a l1 d)) (snd (insert_runs a l2 d))) t)
      (fun c v => (In (c, v) (completed l2 (fst (insert_runs a l2 d))) \/
                   (In (c, v) (completed l1 (fst (insert_runs a l1 d))) /\
                    ~ exists n c' v', In (n, (c', v')) l2 /\ 1 <= n /\ sk c' c)) /\ mt c t).
  Proof.
    pose proof (runs _ _ _ _ _ _ _ _ _ _ L C l1 d (l_dinv _ _ _ _ _ _ L)) as H1.
    pose proof (runs _ _ _ _ _ _ _ _ _ _ L C l2 d (l_dinv _ _ _ _ _ _ L)) as H2.
    destruct (insert_runs a l1 d) as [rs1 m1]. destruct H1 as (A1 & B1 & C1).
    destruct (insert_runs a l2 d) as [rs2 m2]. destruct H2 as (A2 & B2 & C2). cbn [fst snd].
    apply yields_answers.
    eapply yields_ext; [apply (l_get _ _ _ _ _ _ L); apply (u_inv _ _ _ _ _ _ _ U); assumption|].
    intros c v. cbn. rewrite (u_D _ _ _ _ _ _ _ U) by assumption. rewrite B1, B2, C2.
    pose proof (l_dempty _ _ _ _ _ _ L c v). pose proof (u_d _ _ _ _ _ _ _ U c). tauto.
  Qed.

  Lemma part_union {P M} mt d i g D inv u S sk a size
      (L : @laws V T P M mt d i g D inv) (U : ulaws d i u D inv S sk)
      rank (C : tlaws d u a D inv S sk size rank) l1 l2 n :
    let m1 := snd (insert_all i l1 d) in let m2 := snd (insert_all i l2 d) in
    (fst (a n m1 m2) <> None -> snd (a n m1 m2) = u m1 m2) /\
    exists taken : P -> V -> Prop,
      (forall c v, taken c v -> In (c, v) l2) /\
      (forall c v c' v', taken c v -> sk c c' -> In (c', v') l2 -> taken c' v') /\
      forall t, answers (g (snd (a n m1 m2)) t)
        (fun c v => (taken c v \/ (In (c, v) l1 /\ ~ exists c' v', taken c' v' /\ sk c' c)) /\ mt c t).
  Proof.
    intros m1 m2. split.
    { destruct (fst (a n m1 m2)) as [k|] eqn:E; [|tauto]. intros _. exact (t_done _ _ _ _ _ _ _ _ _ C _ _ _ _ E). }
    destruct (history _ _ _ _ _ _ L l1 d (l_dinv _ _ _ _ _ _ L)) as (A1 & A2 & _).
    destruct (history _ _ _ _ _ _ L l2 d (l_dinv _ _ _ _ _ _ L)) as (B1 & B2 & _).
    pose proof (history_keys _ _ _ _ _ _ _ U l2 d) as K. fold m2 in B1, B2, K. fold m1 in A1, A2.
    destruct (t_part _ _ _ _ _ _ _ _ _ C n m1 m2 B1) as (o & O1 & O2 & O3 & O4 & O5 & O6 & O7 & _).
    assert (X : forall c v, D o c v -> In (c, v) l2).
    { intros c v H. apply O3, B2 in H. destruct H as [H|H]; [|exact H].
      destruct (l_dempty _ _ _ _ _ _ L _ _ H). }
    assert (Y : forall c, S o c <-> exists c' v', D o c' v' /\ sk c' c).
    { intros c. split.
      - intros H. destruct (proj1 (K c) (O4 _ H)) as [F|(c' & v' & F & G)].
        { destruct (u_d _ _ _ _ _ _ _ U c F). }
        exists c', v'. split; [|exact G]. apply O5; [exact (O6 _ _ G H)|]. apply B2. auto.
      - intros (c' & v' & F & G). exact (O7 _ _ _ F G). }
    exists (D o). split; [exact X|]. split.
    { intros c v c' v' H G F. apply O5; [exact (O7 _ _ _ H G)|]. apply B2. auto. }
    intros t. rewrite O2. apply yields_answers.
    eapply yields_ext; [apply (l_get _ _ _ _ _ _ L); apply (u_inv _ _ _ _ _ _ _ U); assumption|].
    intros c v. cbn. rewrite (u_D _ _ _ _ _ _ _ U) by assumption. rewrite A2, Y.
    pose proof (l_dempty _ _ _ _ _ _ L c v). tauto.
  Qed.

  (** ** The maps of map.rs *)
  Ltac iso :=
    repeat match goal with
    | |- forall _, _ => intro
    | c : (_ + _)%type |- _ => destruct c
    | c : unit |- _ => destruct c
    | c : (_ * _)%type |- _ => destruct c
    end.
  Ltac ins_eq :=
    let m := fresh in let c := fresh in let v := fresh in
    intros m c v; destruct m, c; unfold insS, insU, insO; cbn;
    repeat match goal with
    | |- context [let (_, _) := ?e in _] => destruct e; cbn
    end; reflexivity.
  Ltac at_eq :=
    let n := fresh in let m := fresh in let c := fresh in let v := fresh in
    intros n m c v; destruct m, c; unfold atS, atU, atO; cbn;
    repeat match goal with
    | |- context [let (_, _) := ?e in _] => destruct e; cbn
    end; reflexivity.
  Ltac un_eq :=
    let n := fresh in let m := fresh in let o := fresh in
    intros n m o; destruct m, o;
    unfold mga_union_at, mgg_union_at, maa_union_at, mag_union_at;
    unfold uatS, then_at, eM_ga, eM_gg, eM_aa, eM_ag, eM_gs, eM_as;
    cbn -[mga_union_at maa_union_at mag_union_at];
    repeat match goal with
    | |- context [hs_extend_at veqb ?n ?s ?l] => destruct (hs_extend_at veqb n s l) as [[?|] ?]; cbn [fst snd]
    | |- context [hm_extend_at teqb ?n ?s ?l] => destruct (hm_extend_at teqb n s l) as [[?|] ?]; cbn [fst snd]
    end; reflexivity.
  Ltac un_eqs :=
    let n := fresh in let m := fresh in let o := fresh in
    intros n m o; destruct m, o;
    unfold mgs_union_at;
    unfold uatS, then_at, eM_ga, eM_gg, eM_aa, eM_ag, eM_gs, eM_as;
    cbn -[mga_union_at maa_union_at mag_union_at];
    repeat match goal with
    | |- context [mga_union_at veqb teqb ?n ?s ?l] =>
        destruct (mga_union_at veqb teqb n s l) as [[?|] ?]; cbn [fst snd]
    | |- context [hm_extend_at teqb ?n ?s ?l] => destruct (hm_extend_at teqb n s l) as [[?|] ?]; cbn [fst snd]
    end; reflexivity.
  Ltac un_eqa :=
    let n := fresh in let m := fresh in let o := fresh in
    intros n m o; destruct m, o;
    unfold mas_union_at;
    unfold uatS, then_at, eM_ga, eM_gg, eM_aa, eM_ag, eM_gs, eM_as;
    cbn -[mga_union_at maa_union_at mag_union_at];
    repeat match goal with
    | |- context [maa_union_at veqb teqb ?n ?s ?l] =>
        destruct (maa_union_at veqb teqb n s l) as [[?|] ?]; cbn [fst snd]
    | |- context [mag_union_at veqb teqb ?n ?s ?l] =>
        destruct (mag_union_at veqb teqb n s l) as [[?|] ?]; cbn [fst snd]
    | |- context [hm_extend_at teqb ?n ?s ?l] => destruct (hm_extend_at teqb n s l) as [[?|] ?]; cbn [fst snd]
    end; reflexivity.
  Ltac isos :=
    first [reflexivity
          | solve [intros []; reflexivity] | solve [intros [] []; reflexivity]
          | solve [iso; reflexivity] | ins_eq | at_eq | un_eqs | un_eqa | un_eq
          | solve [intros [] ?; reflexivity]
          | solve [intros [] []; unfold eM_ga, eM_gg, eM_aa, eM_ag, eM_gs, eM_as, eM_tp; cbn; congruence]
          | solve [intros [] t; cbn; intuition congruence]
          | solve [intros [] []; cbn; intuition congruence]].

  Ltac ord := intros [] [] H; unfold mga_order, mgg_order, maa_order, mag_order, mgs_order, mas_order in H; cbn in *; tauto.

  (** [GivenSubjectAnyPredicateMap]. *)
  Definition dM_ga (x : list V * (list V * (list (T * list V)))) : m_ga V T :=
    let '(x0, (x1, x2)) := x in MGA x0 x1 x2.
  Lemma at_ga : exists D inv S,
    laws (fun c t => tga_m c (t_p t) (t_o t)) mga_default (mga_insert veqb teqb) (mga_get teqb) D inv /\
    ulaws mga_default (mga_insert veqb teqb) (mga_union veqb teqb) D inv S same_key_ga /\
    claws (mga_insert veqb teqb) (mga_insert_at veqb teqb) D inv S same_key_ga (fun c => Datatypes.S (gives_ga c)) /\
    tlaws mga_default (mga_union veqb teqb) (mga_union_at veqb teqb) D inv S same_key_ga entries_ga rank_ga /\
    olaws mga_order D inv S /\
    slaws D inv S same_key_ga entries_ga.
  Proof.
    eexists. eexists. eexists. split; [|split; [|split; [|split; [|split]]]].
    - refine (lawsIso _ _ _ _ _ _ eP_ga dP_ga eM_ga _ _ _ _
        (lawsPlus _ _ _ _ _ _ _ _ _ _ _ _ (lawsU veqb veqb_spec)
        (lawsPlus _ _ _ _ _ _ _ _ _ _ _ _ (lawsIf teqb teqb_spec _ _ _ _ _ _ t_p t_o (lawsU veqb veqb_spec))
        (lawsO veqb teqb veqb_spec teqb_spec))) _ _ _ _ _ _); isos.
    - refine (ulawsIso _ _ _ _ _ _ _ eP_ga eM_ga _ _ _ _
        (ulawsPlus _ _ _ _ _ _ _ _ _ _ _ _ _ _ (ulawsU (T := T) veqb veqb_spec)
        (ulawsPlus _ _ _ _ _ _ _ _ _ _ _ _ _ _ (ulawsU (T := T) veqb veqb_spec)
        (ulawsO veqb teqb veqb_spec teqb_spec))) _ _ _ _); isos.
    - refine (clawsIso _ _ _ _ _ _ _ eP_ga eM_ga _ _ _ _
        (clawsPlus _ _ _ _ _ _ _ _ _ _ _ _ _ _ clawsU
        (clawsPlus _ _ _ _ _ _ _ _ _ _ _ _ _ _ clawsU
        clawsO)) _ _ _ _ _); isos.
    - refine (tlawsIso _ _ _ _ _ _ _ _ _ eP_ga eM_ga dM_ga _ _ _ _ _ _
        (tlawsPlus 1 _ _ _ _ _ _ _ _ _ _ _ _ _ _ _ _ _ _ _ _ _ (fun _ => le_n 1)
        (lawsPlus _ _ _ _ _ _ _ _ _ _ _ _ (lawsIf teqb teqb_spec _ _ _ _ _ _ t_p t_o (lawsU veqb veqb_spec))
        (lawsO veqb teqb veqb_spec teqb_spec))
        (ulawsPlus _ _ _ _ _ _ _ _ _ _ _ _ _ _ (ulawsU (T := T) veqb veqb_spec)
        (ulawsO veqb teqb veqb_spec teqb_spec))
        tlawsU
        (tlawsPlus 1 _ _ _ _ _ _ _ _ _ _ _ _ _ _ _ _ _ _ _ _ _ (fun _ => le_n 1)
        (lawsO veqb teqb veqb_spec teqb_spec)
        (ulawsO veqb teqb veqb_spec teqb_spec)
        tlawsU
        tlawsO)) _ _ _ _ _ _ _ _); isos.
    - refine (olawsIso _ _ _ _ eP_ga eM_ga _
        (olawsPlus _ _ _ _ _ _ _ _ olawsU (olawsPlus _ _ _ _ _ _ _ _ olawsU olawsO)) _).
      ord.
    - refine (slawsIso _ _ _ _ _ eP_ga dP_ga eM_ga _ _
        (slawsPlus _ _ _ _ _ _ _ _ _ _ slawsU (slawsPlus _ _ _ _ _ _ _ _ _ _ slawsU slawsO)) _ _ _ _); isos.
  Qed.

  (** [GivenSubjectGivenPredicateMap]. *)
  Definition dM_gg (x : list V * (list (T * list V))) : m_gg V T :=
    let '(x0, x1) := x in MGG x0 x1.
  Lemma at_gg : exists D inv S,
    laws (fun c t => tgg_m c (t_o t)) mgg_default (mgg_insert veqb teqb) (mgg_get teqb) D inv /\
    ulaws mgg_default (mgg_insert veqb teqb) (mgg_union veqb teqb) D inv S same_key_gg /\
    claws (mgg_insert veqb teqb) (mgg_insert_at veqb teqb) D inv S same_key_gg (fun c => Datatypes.S (gives_gg c)) /\
    tlaws mgg_default (mgg_union veqb teqb) (mgg_union_at veqb teqb) D inv S same_key_gg entries_gg rank_gg /\
    olaws mgg_order D inv S /\
    slaws D inv S same_key_gg entries_gg.
  Proof.
    eexists. eexists. eexists. split; [|split; [|split; [|split; [|split]]]].
    - refine (lawsIso _ _ _ _ _ _ eP_gg dP_gg eM_gg _ _ _ _
        (lawsPlus _ _ _ _ _ _ _ _ _ _ _ _ (lawsU veqb veqb_spec)
        (lawsO veqb teqb veqb_spec teqb_spec)) _ _ _ _ _ _); isos.
    - refine (ulawsIso _ _ _ _ _ _ _ eP_gg eM_gg _ _ _ _
        (ulawsPlus _ _ _ _ _ _ _ _ _ _ _ _ _ _ (ulawsU (T := T) veqb veqb_spec)
        (ulawsO veqb teqb veqb_spec teqb_spec)) _ _ _ _); isos.
    - refine (clawsIso _ _ _ _ _ _ _ eP_gg eM_gg _ _ _ _
        (clawsPlus _ _ _ _ _ _ _ _ _ _ _ _ _ _ clawsU
        clawsO) _ _ _ _ _); isos.
    - refine (tlawsIso _ _ _ _ _ _ _ _ _ eP_gg eM_gg dM_gg _ _ _ _ _ _
        (tlawsPlus 1 _ _ _ _ _ _ _ _ _ _ _ _ _ _ _ _ _ _ _ _ _ (fun _ => le_n 1)
        (lawsO veqb teqb veqb_spec teqb_spec)
        (ulawsO veqb teqb veqb_spec teqb_spec)
        tlawsU
        tlawsO) _ _ _ _ _ _ _ _); isos.
    - refine (olawsIso _ _ _ _ eP_gg eM_gg _
        (olawsPlus _ _ _ _ _ _ _ _ olawsU olawsO) _).
      ord.
    - refine (slawsIso _ _ _ _ _ eP_gg dP_gg eM_gg _ _
        (slawsPlus _ _ _ _ _ _ _ _ _ _ slawsU slawsO) _ _ _ _); isos.
  Qed.

  (** [AnySubjectAnyPredicateMap]. *)
  Definition dM_aa (x : list V * (list V * (list V * (list (T * list V))))) : m_aa V T :=
    let '(x0, (x1, (x2, x3))) := x in MAA x0 x1 x2 x3.
  Lemma at_aa : exists D inv S,
    laws (fun c t => taa_m c (t_s t) (t_p t) (t_o t)) maa_default (maa_insert veqb teqb) (maa_get teqb) D inv /\
    ulaws maa_default (maa_insert veqb teqb) (maa_union veqb teqb) D inv S same_key_aa /\
    claws (maa_insert veqb teqb) (maa_insert_at veqb teqb) D inv S same_key_aa (fun c => Datatypes.S (gives_aa c)) /\
    tlaws maa_default (maa_union veqb teqb) (maa_union_at veqb teqb) D inv S same_key_aa entries_aa rank_aa /\
    olaws maa_order D inv S /\
    slaws D inv S same_key_aa entries_aa.
  Proof.
    eexists. eexists. eexists. split; [|split; [|split; [|split; [|split]]]].
    - refine (lawsIso _ _ _ _ _ _ eP_aa dP_aa eM_aa _ _ _ _
        (lawsPlus _ _ _ _ _ _ _ _ _ _ _ _ (lawsU veqb veqb_spec)
        (lawsPlus _ _ _ _ _ _ _ _ _ _ _ _ (lawsIf teqb teqb_spec _ _ _ _ _ _ t_s t_o (lawsU veqb veqb_spec))
        (lawsPlus _ _ _ _ _ _ _ _ _ _ _ _ (lawsIf teqb teqb_spec _ _ _ _ _ _ t_p t_o (lawsU veqb veqb_spec))
        (lawsO veqb teqb veqb_spec teqb_spec)))) _ _ _ _ _ _); isos.
    - refine (ulawsIso _ _ _ _ _ _ _ eP_aa eM_aa _ _ _ _
        (ulawsPlus _ _ _ _ _ _ _ _ _ _ _ _ _ _ (ulawsU (T := T) veqb veqb_spec)
        (ulawsPlus _ _ _ _ _ _ _ _ _ _ _ _ _ _ (ulawsU (T := T) veqb veqb_spec)
        (ulawsPlus _ _ _ _ _ _ _ _ _ _ _ _ _ _ (ulawsU (T := T) veqb veqb_spec)
        (ulawsO veqb teqb veqb_spec teqb_spec)))) _ _ _ _); isos.
    - refine (clawsIso _ _ _ _ _ _ _ eP_aa eM_aa _ _ _ _
        (clawsPlus _ _ _ _ _ _ _ _ _ _ _ _ _ _ clawsU
        (clawsPlus _ _ _ _ _ _ _ _ _ _ _ _ _ _ clawsU
        (clawsPlus _ _ _ _ _ _ _ _ _ _ _ _ _ _ clawsU
        clawsO))) _ _ _ _ _); isos.
    - refine (tlawsIso _ _ _ _ _ _ _ _ _ eP_aa eM_aa dM_aa _ _ _ _ _ _
        (tlawsPlus 1 _ _ _ _ _ _ _ _ _ _ _ _ _ _ _ _ _ _ _ _ _ (fun _ => le_n 1)
        (lawsPlus _ _ _ _ _ _ _ _ _ _ _ _ (lawsIf teqb teqb_spec _ _ _ _ _ _ t_s t_o (lawsU veqb veqb_spec))
        (lawsPlus _ _ _ _ _ _ _ _ _ _ _ _ (lawsIf teqb teqb_spec _ _ _ _ _ _ t_p t_o (lawsU veqb veqb_spec))
        (lawsO veqb teqb veqb_spec teqb_spec)))
        (ulawsPlus _ _ _ _ _ _ _ _ _ _ _ _ _ _ (ulawsU (T := T) veqb veqb_spec)
        (ulawsPlus _ _ _ _ _ _ _ _ _ _ _ _ _ _ (ulawsU (T := T) veqb veqb_spec)
        (ulawsO veqb teqb veqb_spec teqb_spec)))
        tlawsU
        (tlawsPlus 1 _ _ _ _ _ _ _ _ _ _ _ _ _ _ _ _ _ _ _ _ _ (fun _ => le_n 1)
        (lawsPlus _ _ _ _ _ _ _ _ _ _ _ _ (lawsIf teqb teqb_spec _ _ _ _ _ _ t_p t_o (lawsU veqb veqb_spec))
        (lawsO veqb teqb veqb_spec teqb_spec))
        (ulawsPlus _ _ _ _ _ _ _ _ _ _ _ _ _ _ (ulawsU (T := T) veqb veqb_spec)
        (ulawsO veqb teqb veqb_spec teqb_spec))
        tlawsU
        (tlawsPlus 1 _ _ _ _ _ _ _ _ _ _ _ _ _ _ _ _ _ _ _ _ _ (fun _ => le_n 1)
        (lawsO veqb teqb veqb_spec teqb_spec)
        (ulawsO veqb teqb veqb_spec teqb_spec)
        tlawsU
        tlawsO))) _ _ _ _ _ _ _ _); isos.
    - refine (olawsIso _ _ _ _ eP_aa eM_aa _
        (olawsPlus _ _ _ _ _ _ _ _ olawsU (olawsPlus _ _ _ _ _ _ _ _ olawsU
        (olawsPlus _ _ _ _ _ _ _ _ olawsU olawsO))) _).
      ord.
    - refine (slawsIso _ _ _ _ _ eP_aa dP_aa eM_aa _ _
        (slawsPlus _ _ _ _ _ _ _ _ _ _ slawsU (slawsPlus _ _ _ _ _ _ _ _ _ _ slawsU
        (slawsPlus _ _ _ _ _ _ _ _ _ _ slawsU slawsO))) _ _ _ _); isos.
  Qed.

  (** [AnySubjectGivenPredicateMap]. *)
  Definition dM_ag (x : list V * (list V * (list (T * list V)))) : m_ag V T :=
    let '(x0, (x1, x2)) := x in MAG x0 x1 x2.
  Lemma at_ag : exists D inv S,
    laws (fun c t => tag_m c (t_s t) (t_o t)) mag_default (mag_insert veqb teqb) (mag_get teqb) D inv /\
    ulaws mag_default (mag_insert veqb teqb) (mag_union veqb teqb) D inv S same_key_ag /\
    claws (mag_insert veqb teqb) (mag_insert_at veqb teqb) D inv S same_key_ag (fun c => Datatypes.S (gives_ag c)) /\
    tlaws mag_default (mag_union veqb teqb) (mag_union_at veqb teqb) D inv S same_key_ag entries_ag rank_ag /\
    olaws mag_order D inv S /\
    slaws D inv S same_key_ag entries_ag.
  Proof.
    eexists. eexists. eexists. split; [|split; [|split; [|split; [|split]]]].
    - refine (lawsIso _ _ _ _ _ _ eP_ag dP_ag eM_ag _ _ _ _
        (lawsPlus _ _ _ _ _ _ _ _ _ _ _ _ (lawsU veqb veqb_spec)
        (lawsPlus _ _ _ _ _ _ _ _ _ _ _ _ (lawsIf teqb teqb_spec _ _ _ _ _ _ t_s t_o (lawsU veqb veqb_spec))
        (lawsO veqb teqb veqb_spec teqb_spec))) _ _ _ _ _ _); isos.
    - refine (ulawsIso _ _ _ _ _ _ _ eP_ag eM_ag _ _ _ _
        (ulawsPlus _ _ _ _ _ _ _ _ _ _ _ _ _ _ (ulawsU (T := T) veqb veqb_spec)
        (ulawsPlus _ _ _ _ _ _ _ _ _ _ _ _ _ _ (ulawsU (T := T) veqb veqb_spec)
        (ulawsO veqb teqb veqb_spec teqb_spec))) _ _ _ _); isos.
    - refine (clawsIso _ _ _ _ _ _ _ eP_ag eM_ag _ _ _ _
        (clawsPlus _ _ _ _ _ _ _ _ _ _ _ _ _ _ clawsU
        (clawsPlus _ _ _ _ _ _ _ _ _ _ _ _ _ _ clawsU
        clawsO)) _ _ _ _ _); isos.
    - refine (tlawsIso _ _ _ _ _ _ _ _ _ eP_ag eM_ag dM_ag _ _ _ _ _ _
        (tlawsPlus 1 _ _ _ _ _ _ _ _ _ _ _ _ _ _ _ _ _ _ _ _ _ (fun _ => le_n 1)
        (lawsPlus _ _ _ _ _ _ _ _ _ _ _ _ (lawsIf teqb teqb_spec _ _ _ _ _ _ t_s t_o (lawsU veqb veqb_spec))
        (lawsO veqb teqb veqb_spec teqb_spec))
        (ulawsPlus _ _ _ _ _ _ _ _ _ _ _ _ _ _ (ulawsU (T := T) veqb veqb_spec)
        (ulawsO veqb teqb veqb_spec teqb_spec))
        tlawsU
        (tlawsPlus 1 _ _ _ _ _ _ _ _ _ _ _ _ _ _ _ _ _ _ _ _ _ (fun _ => le_n 1)
        (lawsO veqb teqb veqb_spec teqb_spec)
        (ulawsO veqb teqb veqb_spec teqb_spec)
        tlawsU
        tlawsO)) _ _ _ _ _ _ _ _); isos.
    - refine (olawsIso _ _ _ _ eP_ag eM_ag _
        (olawsPlus _ _ _ _ _ _ _ _ olawsU (olawsPlus _ _ _ _ _ _ _ _ olawsU olawsO)) _).
      ord.
    - refine (slawsIso _ _ _ _ _ eP_ag dP_ag eM_ag _ _
        (slawsPlus _ _ _ _ _ _ _ _ _ _ slawsU (slawsPlus _ _ _ _ _ _ _ _ _ _ slawsU slawsO)) _ _ _ _); isos.
  Qed.

  (** [GivenSubjectMap]. *)
  Definition dM_gs (x : m_ga V T * (list (T * m_gg V T))) : m_gs V T :=
    let '(x0, x1) := x in MGS x0 x1.
  Lemma rank_ga_lt : forall c : t_ga T, rank_ga c < 3.
  Proof. intros []; cbn; lia. Qed.
  Lemma at_gs : exists D inv S,
    laws (fun c t => tgs_m c (t_p t) (t_o t)) mgs_default (mgs_insert veqb teqb) (mgs_get teqb) D inv /\
    ulaws mgs_default (mgs_insert veqb teqb) (mgs_union veqb teqb) D inv S same_key_gs /\
    claws (mgs_insert veqb teqb) (mgs_insert_at veqb teqb) D inv S same_key_gs (fun c => Datatypes.S (gives_gs c)) /\
    tlaws mgs_default (mgs_union veqb teqb) (mgs_union_at veqb teqb) D inv S same_key_gs entries_gs rank_gs /\
    olaws mgs_order D inv S /\
    slaws D inv S same_key_gs entries_gs.
  Proof.
    destruct at_ga as (Dga & Iga & Sga & Lga & Uga & Cga & Wga & Oga & Zga).
    destruct at_gg as (Dgg & Igg & Sgg & Lgg & Ugg & Cgg & Wgg & Ogg & Zgg).
    eexists. eexists. eexists. split; [|split; [|split; [|split; [|split]]]].
    - refine (lawsIso _ _ _ _ _ _ eP_gs dP_gs eM_gs _ _ _ _
        (lawsPlus _ _ _ _ _ _ _ _ _ _ _ _ Lga
        (lawsH teqb teqb_spec _ _ _ _ _ _ Lgg t_p)) _ _ _ _ _ _); isos.
    - refine (ulawsIso _ _ _ _ _ _ _ eP_gs eM_gs _ _ _ _
        (ulawsPlus _ _ _ _ _ _ _ _ _ _ _ _ _ _ Uga
        (ulawsH teqb teqb_spec _ _ _ _ _ _ Lgg)) _ _ _ _); isos.
    - refine (clawsIso _ _ _ _ _ _ _ eP_gs eM_gs _ _ _ _
        (clawsPlus _ _ _ _ _ _ _ _ _ _ _ _ _ _ Cga
        (clawsH _ _ _ _ _ _ Lgg _ _ _ _ Cgg)) _ _ _ _ _); isos.
    - refine (tlawsIso _ _ _ _ _ _ _ _ _ eP_gs eM_gs dM_gs _ _ _ _ _ _
        (tlawsPlus 3 _ _ _ _ _ _ _ _ _ _ _ _ _ _ _ _ _ _ _ _ _ rank_ga_lt
        (lawsH teqb teqb_spec _ _ _ _ _ _ Lgg t_p)
        (ulawsH teqb teqb_spec _ _ _ _ _ _ Lgg)
        Wga
        (tlawsH _ _)) _ _ _ _ _ _ _ _); isos.
    - refine (olawsIso _ _ _ _ eP_gs eM_gs _
        (olawsPlus _ _ _ _ _ _ _ _ Oga (olawsH _ _ _ _ Ogg)) _).
      ord.
    - refine (slawsIso _ _ _ _ _ eP_gs dP_gs eM_gs _ _
        (slawsPlus _ _ _ _ _ _ _ _ _ _ Zga (slawsH Dgg Igg TGG_Any)) _ _ _ _); isos.
  Qed.

  (** [AnySubjectMap]. *)
  Definition dM_as (x : m_aa V T * (m_ag V T * (list (T * m_ag V T)))) : m_as V T :=
    let '(x0, (x1, x2)) := x in MAS x0 x1 x2.
  Lemma rank_aa_lt : forall c : t_aa T, rank_aa c < 4.
  Proof. intros []; cbn; lia. Qed.
  Lemma rank_ag_lt : forall c : t_ag T, rank_ag c < 3.
  Proof. intros []; cbn; lia. Qed.
  Lemma at_as : exists D inv S,
    laws (fun c t => tas_m c (t_s t) (t_p t) (t_o t)) mas_default (mas_insert veqb teqb) (mas_get teqb) D inv /\
    ulaws mas_default (mas_insert veqb teqb) (mas_union veqb teqb) D inv S same_key_as /\
    claws (mas_insert veqb teqb) (mas_insert_at veqb teqb) D inv S same_key_as (fun c => Datatypes.S (gives_as c)) /\
    tlaws mas_default (mas_union veqb teqb) (mas_union_at veqb teqb) D inv S same_key_as entries_as rank_as /\
    olaws mas_order D inv S /\
    slaws D inv S same_key_as entries_as.
  Proof.
    destruct at_aa as (Daa & Iaa & Saa & Laa & Uaa & Caa & Waa & Oaa & Zaa).
    destruct at_ag as (Dag & Iag & Sag & Lag & Uag & Cag & Wag & Oag & Zag).
    eexists. eexists. eexists. split; [|split; [|split; [|split; [|split]]]].
    - refine (lawsIso _ _ _ _ _ _ eP_as dP_as eM_as _ _ _ _
        (lawsPlus _ _ _ _ _ _ _ _ _ _ _ _ Laa
        (lawsPlus _ _ _ _ _ _ _ _ _ _ _ _ (lawsIf teqb teqb_spec _ _ _ _ _ _ t_s t_p Lag)
        (lawsH teqb teqb_spec _ _ _ _ _ _ Lag t_p))) _ _ _ _ _ _); isos.
    - refine (ulawsIso _ _ _ _ _ _ _ eP_as eM_as _ _ _ _
        (ulawsPlus _ _ _ _ _ _ _ _ _ _ _ _ _ _ Uaa
        (ulawsPlus _ _ _ _ _ _ _ _ _ _ _ _ _ _ Uag
        (ulawsH teqb teqb_spec _ _ _ _ _ _ Lag))) _ _ _ _); isos.
    - refine (clawsIso _ _ _ _ _ _ _ eP_as eM_as _ _ _ _
        (clawsPlus _ _ _ _ _ _ _ _ _ _ _ _ _ _ Caa
        (clawsPlus _ _ _ _ _ _ _ _ _ _ _ _ _ _ Cag
        (clawsH _ _ _ _ _ _ Lag _ _ _ _ Cag))) _ _ _ _ _); isos.
    - refine (tlawsIso _ _ _ _ _ _ _ _ _ eP_as eM_as dM_as _ _ _ _ _ _
        (tlawsPlus 4 _ _ _ _ _ _ _ _ _ _ _ _ _ _ _ _ _ _ _ _ _ rank_aa_lt
        (lawsPlus _ _ _ _ _ _ _ _ _ _ _ _ (lawsIf teqb teqb_spec _ _ _ _ _ _ t_s t_p Lag)
        (lawsH teqb teqb_spec _ _ _ _ _ _ Lag t_p))
        (ulawsPlus _ _ _ _ _ _ _ _ _ _ _ _ _ _ Uag
        (ulawsH teqb teqb_spec _ _ _ _ _ _ Lag))
        Waa
        (tlawsPlus 3 _ _ _ _ _ _ _ _ _ _ _ _ _ _ _ _ _ _ _ _ _ rank_ag_lt
        (lawsH teqb teqb_spec _ _ _ _ _ _ Lag t_p)
        (ulawsH teqb teqb_spec _ _ _ _ _ _ Lag)
        Wag
        (tlawsH _ _))) _ _ _ _ _ _ _ _); isos.
    - refine (olawsIso _ _ _ _ eP_as eM_as _
        (olawsPlus _ _ _ _ _ _ _ _ Oaa (olawsPlus _ _ _ _ _ _ _ _ Oag (olawsH _ _ _ _ Oag))) _).
      ord.
    - refine (slawsIso _ _ _ _ _ eP_as dP_as eM_as _ _
        (slawsPlus _ _ _ _ _ _ _ _ _ _ Zaa (slawsPlus _ _ _ _ _ _ _ _ _ _ Zag (slawsH Dag Iag TAG_Any))) _ _ _ _); isos.
  Qed.

  (** [TriplePatternMap]. *)
  Lemma at_tp : exists D inv S sk',
    laws (fun c t => ct_matches c t) tpm_default (tpm_insert veqb teqb) (tpm_get teqb) D inv /\
    claws (tpm_insert veqb teqb) (tpm_insert_at veqb teqb) D inv S sk' (fun c => Datatypes.S (gives c)).
  Proof.
    destruct at_as as (Das & Ias & Sas & Las & Uas & Cas & Was & Oas & Zas).
    destruct at_gs as (Dgs & Igs & Sgs & Lgs & Ugs & Cgs & Wgs & Ogs & Zgs).
    eexists. eexists. eexists.
    exists (fun c c' => match c, c' with
                        | CT_AnyS r, CT_AnyS r' => same_key_as r r'
                        | CT_GivenS k _, CT_GivenS k' _ => k = k'
                        | _, _ => False end). split.
    - refine (lawsIso _ _ _ _ _ _ eP_tp dP_tp eM_tp _ _ _ _
        (lawsPlus _ _ _ _ _ _ _ _ _ _ _ _ Las
        (lawsH teqb teqb_spec _ _ _ _ _ _ Lgs t_s)) _ _ _ _ _ _); isos.
    - refine (clawsIso _ _ _ _ _ _ _ eP_tp eM_tp _ _ _ _
        (clawsPlus _ _ _ _ _ _ _ _ _ _ _ _ _ _ Cas
        (clawsH _ _ _ _ _ _ Lgs _ _ _ _ Cgs)) _ _ _ _ _); isos.
  Qed.

  Lemma interrupted {P M} mt d i g D inv S sk a cost (L : @laws V T P M mt d i g D inv)
      (C : claws i a D inv S sk cost) l n c v t :
    let m := snd (insert_runs a l d) in
    fst (a n c v m) = None -> Permutation (g (snd (a n c v m)) t) (g m t).
  Proof.
    intros m F. pose proof (runs _ _ _ _ _ _ _ _ _ _ L C l d (l_dinv _ _ _ _ _ _ L)) as H.
    subst m. destruct (insert_runs a l d) as [rs m]. cbn [snd] in *. destruct H as (I & _ & _).
    pose proof (c_inv _ _ _ _ _ _ _ C n c v m I F) as J.
    pose proof (c_D _ _ _ _ _ _ _ C n c v m I F) as E.
    destruct (l_get _ _ _ _ _ _ L m t I) as (ps & N1 & I1 & E1).
    destruct (l_get _ _ _ _ _ _ L _ t J) as (qs & N2 & I2 & E2).
    rewrite <- E1, <- E2. apply Permutation_map. apply NoDup_Permutation; [exact N2|exact N1|].
    intros [c' v']. rewrite I1, I2, E. reflexivity.
  Qed.

  Lemma mga_at_lookups : forall n c v m, fst (mga_insert_at veqb teqb n c v m) = None <-> n < 1 + gives_ga c.
  Proof. destruct at_ga as (D & I & S & L & U & C & W & O & Z). exact (c_cost _ _ _ _ _ _ _ C). Qed.

  Lemma mga_at_plain : forall n c v m b, fst (mga_insert_at veqb teqb n c v m) = Some b ->
    mga_insert veqb teqb c v m = (b, snd (mga_insert_at veqb teqb n c v m)).
  Proof. destruct at_ga as (D & I & S & L & U & C & W & O & Z). exact (c_done _ _ _ _ _ _ _ C). Qed.

  Lemma mga_at_get : forall (l : list (nat * (t_ga T * V))) (t : triple T),
    answers (mga_get teqb (snd (insert_runs (mga_insert_at veqb teqb) l mga_default)) t)
      (fun c v => In (c, v) (completed l (fst (insert_runs (mga_insert_at veqb teqb) l mga_default))) /\
                  tga_m c (t_p t) (t_o t)).
  Proof. destruct at_ga as (D & I & S & L & U & C & W & O & Z). exact (runs_get _ _ _ _ _ _ _ _ _ _ L C). Qed.

  Lemma mga_at_returned : forall (l : list (nat * (t_ga T * V))),
    let rs := fst (insert_runs (mga_insert_at veqb teqb) l mga_default) in
    returned rs = fst (insert_all (mga_insert veqb teqb) (completed l rs) mga_default).
  Proof. destruct at_ga as (D & I & S & L & U & C & W & O & Z). exact (runs_returned _ _ _ _ _ _ _ _ _ _ L C). Qed.

  Lemma mga_at_interrupted : forall (l : list (nat * (t_ga T * V))) n c v t,
    let m := snd (insert_runs (mga_insert_at veqb teqb) l mga_default) in
    fst (mga_insert_at veqb teqb n c v m) = None ->
    Permutation (mga_get teqb (snd (mga_insert_at veqb teqb n c v m)) t) (mga_get teqb m t).
  Proof. destruct at_ga as (D & I & S & L & U & C & W & O & Z). exact (interrupted _ _ _ _ _ _ _ _ _ _ L C). Qed.

  Lemma mga_at_union : forall (l1 l2 : list (nat * (t_ga T * V))) (t : triple T),
    answers (mga_get teqb (mga_union veqb teqb
        (snd (insert_runs (mga_insert_at veqb teqb) l1 mga_default))
        (snd (insert_runs (mga_insert_at veqb teqb) l2 mga_default))) t)
      (fun c v => (In (c, v) (completed l2 (fst (insert_runs (mga_insert_at veqb teqb) l2 mga_default))) \/
                   (In (c, v) (completed l1 (fst (insert_runs (mga_insert_at veqb teqb) l1 mga_default))) /\
                    ~ exists n c' v', In (n, (c', v')) l2 /\ 1 <= n /\ same_key_ga c' c)) /\
                  tga_m c (t_p t) (t_o t)).
  Proof. destruct at_ga as (D & I & S & L & U & C & W & O & Z). exact (runs_union _ _ _ _ _ _ _ _ _ _ _ L U C). Qed.

  Lemma mga_at_union_lookups : forall n m o, fst (mga_union_at veqb teqb n m o) = None <-> n < entries_ga o.
  Proof.
    destruct at_ga as (D & I & S & L & U & C & W & O & Z). intros n m o. rewrite (t_size _ _ _ _ _ _ _ _ _ W).
    destruct (Nat.leb_spec (entries_ga o) n); split; try discriminate; try lia; reflexivity.
  Qed.

  Lemma mga_at_union_interrupted : forall (l1 l2 : list (t_ga T * V)) n,
    let m1 := snd (insert_all (mga_insert veqb teqb) l1 mga_default) in
    let m2 := snd (insert_all (mga_insert veqb teqb) l2 mga_default) in
    (fst (mga_union_at veqb teqb n m1 m2) <> None ->
     snd (mga_union_at veqb teqb n m1 m2) = mga_union veqb teqb m1 m2) /\
    exists taken : t_ga T -> V -> Prop,
      (forall c v, taken c v -> In (c, v) l2) /\
      (forall c v c' v', taken c v -> same_key_ga c c' -> In (c', v') l2 -> taken c' v') /\
      forall t, answers (mga_get teqb (snd (mga_union_at veqb teqb n m1 m2)) t)
        (fun c v => (taken c v \/ (In (c, v) l1 /\ ~ exists c' v', taken c' v' /\ same_key_ga c' c)) /\
                    tga_m c (t_p t) (t_o t)).
  Proof. destruct at_ga as (D & I & S & L & U & C & W & O & Z). exact (part_union _ _ _ _ _ _ _ _ _ _ _ L U _ W). Qed.

  Lemma mgg_at_lookups : forall n c v m, fst (mgg_insert_at veqb teqb n c v m) = None <-> n < 1 + gives_gg c.
  Proof. destruct at_gg as (D & I & S & L & U & C & W & O & Z). exact (c_cost _ _ _ _ _ _ _ C). Qed.

  Lemma mgg_at_plain : forall n c v m b, fst (mgg_insert_at veqb teqb n c v m) = Some b ->
    mgg_insert veqb teqb c v m = (b, snd (mgg_insert_at veqb teqb n c v m)).
  Proof. destruct at_gg as (D & I & S & L & U & C & W & O & Z). exact (c_done _ _ _ _ _ _ _ C). Qed.

  Lemma mgg_at_get : forall (l : list (nat * (t_gg T * V))) (t : triple T),
    answers (mgg_get teqb (snd (insert_runs (mgg_insert_at veqb teqb) l mgg_default)) t)
      (fun c v => In (c, v) (completed l (fst (insert_runs (mgg_insert_at veqb teqb) l mgg_default))) /\
                  tgg_m c (t_o t)).
  Proof. destruct at_gg as (D & I & S & L & U & C & W & O & Z). exact (runs_get _ _ _ _ _ _ _ _ _ _ L C). Qed.

  Lemma mgg_at_returned : forall (l : list (nat * (t_gg T * V))),
    let rs := fst (insert_runs (mgg_insert_at veqb teqb) l mgg_default) in
    returned rs = fst (insert_all (mgg_insert veqb teqb) (completed l rs) mgg_default).
  Proof. destruct at_gg as (D & I & S & L & U & C & W & O & Z). exact (runs_returned _ _ _ _ _ _ _ _ _ _ L C). Qed.

  Lemma mgg_at_interrupted : forall (l : list (nat * (t_gg T * V))) n c v t,
    let m := snd (insert_runs (mgg_insert_at veqb teqb) l mgg_default) in
    fst (mgg_insert_at veqb teqb n c v m) = None ->
    Permutation (mgg_get teqb (snd (mgg_insert_at veqb teqb n c v m)) t) (mgg_get teqb m t).
  Proof. destruct at_gg as (D & I & S & L & U & C & W & O & Z). exact (interrupted _ _ _ _ _ _ _ _ _ _ L C). Qed.

  Lemma mgg_at_union : forall (l1 l2 : list (nat * (t_gg T * V))) (t : triple T),
    answers (mgg_get teqb (mgg_union veqb teqb
        (snd (insert_runs (mgg_insert_at veqb teqb) l1 mgg_default))
        (snd (insert_runs (mgg_insert_at veqb teqb) l2 mgg_default))) t)
      (fun c v => (In (c, v) (completed l2 (fst (insert_runs (mgg_insert_at veqb teqb) l2 mgg_default))) \/
                   (In (c, v) (completed l1 (fst (insert_runs (mgg_insert_at veqb teqb) l1 mgg_default))) /\
                    ~ exists n c' v', In (n, (c', v')) l2 /\ 1 <= n /\ same_key_gg c' c)) /\
                  tgg_m c (t_o t)).
  Proof. destruct at_gg as (D & I & S & L & U & C & W & O & Z). exact (runs_union _ _ _ _ _ _ _ _ _ _ _ L U C). Qed.

  Lemma mgg_at_union_lookups : forall n m o, fst (mgg_union_at veqb teqb n m o) = None <-> n < entries_gg o.
  Proof.
    destruct at_gg as (D & I & S & L & U & C & W & O & Z). intros n m o. rewrite (t_size _ _ _ _ _ _ _ _ _ W).
    destruct (Nat.leb_spec (entries_gg o) n); split; try discriminate; try lia; reflexivity.
  Qed.

  Lemma mgg_at_union_interrupted : forall (l1 l2 : list (t_gg T * V)) n,
    let m1 := snd (insert_all (mgg_insert veqb teqb) l1 mgg_default) in
    let m2 := snd (insert_all (mgg_insert veqb teqb) l2 mgg_default) in
    (fst (mgg_union_at veqb teqb n m1 m2) <> None ->
     snd (mgg_union_at veqb teqb n m1 m2) = mgg_union veqb teqb m1 m2) /\
    exists taken : t_gg T -> V -> Prop,
      (forall c v, taken c v -> In (c, v) l2) /\
      (forall c v c' v', taken c v -> same_key_gg c c' -> In (c', v') l2 -> taken c' v') /\
      forall t, answers (mgg_get teqb (snd (mgg_union_at veqb teqb n m1 m2)) t)
        (fun c v => (taken c v \/ (In (c, v) l1 /\ ~ exists c' v', taken c' v' /\ same_key_gg c' c)) /\
                    tgg_m c (t_o t)).
  Proof. destruct at_gg as (D & I & S & L & U & C & W & O & Z). exact (part_union _ _ _ _ _ _ _ _ _ _ _ L U _ W). Qed.

  Lemma maa_at_lookups : forall n c v m, fst (maa_insert_at veqb teqb n c v m) = None <-> n < 1 + gives_aa c.
  Proof. destruct at_aa as (D & I & S & L & U & C & W & O & Z). exact (c_cost _ _ _ _ _ _ _ C). Qed.

  Lemma maa_at_plain : forall n c v m b, fst (maa_insert_at veqb teqb n c v m) = Some b ->
    maa_insert veqb teqb c v m = (b, snd (maa_insert_at veqb teqb n c v m)).
  Proof. destruct at_aa as (D & I & S & L & U & C & W & O & Z). exact (c_done _ _ _ _ _ _ _ C). Qed.

  Lemma maa_at_get : forall (l : list (nat * (t_aa T * V))) (t : triple T),
    answers (maa_get teqb (snd (insert_runs (maa_insert_at veqb teqb) l maa_default)) t)
      (fun c v => In (c, v) (completed l (fst (insert_runs (maa_insert_at veqb teqb) l maa_default))) /\
                  taa_m c (t_s t) (t_p t) (t_o t)).
  Proof. destruct at_aa as (D & I & S & L & U & C & W & O & Z). exact (runs_get _ _ _ _ _ _ _ _ _ _ L C). Qed.

  Lemma maa_at_returned : forall (l : list (nat * (t_aa T * V))),
    let rs := fst (insert_runs (maa_insert_at veqb teqb) l maa_default) in
    returned rs = fst (insert_all (maa_insert veqb teqb) (completed l rs) maa_default).
  Proof. destruct at_aa as (D & I & S & L & U & C & W & O & Z). exact (runs_returned _ _ _ _ _ _ _ _ _ _ L C). Qed.

  Lemma maa_at_interrupted : forall (l : list (nat * (t_aa T * V))) n c v t,
    let m := snd (insert_runs (maa_insert_at veqb teqb) l maa_default) in
    fst (maa_insert_at veqb teqb n c v m) = None ->
    Permutation (maa_get teqb (snd (maa_insert_at veqb teqb n c v m)) t) (maa_get teqb m t).
  Proof. destruct at_aa as (D & I & S & L & U & C & W & O & Z). exact (interrupted _ _ _ _ _ _ _ _ _ _ L C). Qed.

  Lemma maa_at_union : forall (l1 l2 : list (nat * (t_aa T * V))) (t : triple T),
    answers (maa_get teqb (maa_union veqb teqb
        (snd (insert_runs (maa_insert_at veqb teqb) l1 maa_default))
        (snd (insert_runs (maa_insert_at veqb teqb) l2 maa_default))) t)
      (fun c v => (In (c, v) (completed l2 (fst (insert_runs (maa_insert_at veqb teqb) l2 maa_default))) \/
                   (In (c, v) (completed l1 (fst (insert_runs (maa_insert_at veqb teqb) l1 maa_default))) /\
                    ~ exists n c' v', In (n, (c', v')) l2 /\ 1 <= n /\ same_key_aa c' c)) /\
                  taa_m c (t_s t) (t_p t) (t_o t)).
  Proof. destruct at_aa as (D & I & S & L & U & C & W & O & Z). exact (runs_union _ _ _ _ _ _ _ _ _ _ _ L U C). Qed.

  Lemma maa_at_union_lookups : forall n m o, fst (maa_union_at veqb teqb n m o) = None <-> n < entries_aa o.
  Proof.
    destruct at_aa as (D & I & S & L & U & C & W & O & Z). intros n m o. rewrite (t_size _ _ _ _ _ _ _ _ _ W).
    destruct (Nat.leb_spec (entries_aa o) n); split; try discriminate; try lia; reflexivity.
  Qed.

  Lemma maa_at_union_interrupted : forall (l1 l2 : list (t_aa T * V)) n,
    let m1 := snd (insert_all (maa_insert veqb teqb) l1 maa_default) in
    let m2 := snd (insert_all (maa_insert veqb teqb) l2 maa_default) in
    (fst (maa_union_at veqb teqb n m1 m2) <> None ->
     snd (maa_union_at veqb teqb n m1 m2) = maa_union veqb teqb m1 m2) /\
    exists taken : t_aa T -> V -> Prop,
      (forall c v, taken c v -> In (c, v) l2) /\
      (forall c v c' v', taken c v -> same_key_aa c c' -> In (c', v') l2 -> taken c' v') /\
      forall t, answers (maa_get teqb (snd (maa_union_at veqb teqb n m1 m2)) t)
        (fun c v => (taken c v \/ (In (c, v) l1 /\ ~ exists c' v', taken c' v' /\ same_key_aa c' c)) /\
                    taa_m c (t_s t) (t_p t) (t_o t)).
  Proof. destruct at_aa as (D & I & S & L & U & C & W & O & Z). exact (part_union _ _ _ _ _ _ _ _ _ _ _ L U _ W). Qed.

  Lemma mag_at_lookups : forall n c v m, fst (mag_insert_at veqb teqb n c v m) = None <-> n < 1 + gives_ag c.
  Proof. destruct at_ag as (D & I & S & L & U & C & W & O & Z). exact (c_cost _ _ _ _ _ _ _ C). Qed.

  Lemma mag_at_plain : forall n c v m b, fst (mag_insert_at veqb teqb n c v m) = Some b ->
    mag_insert veqb teqb c v m = (b, snd (mag_insert_at veqb teqb n c v m)).
  Proof. destruct at_ag as (D & I & S & L & U & C & W & O & Z). exact (c_done _ _ _ _ _ _ _ C). Qed.

  Lemma mag_at_get : forall (l : list (nat * (t_ag T * V))) (t : triple T),
    answers (mag_get teqb (snd (insert_runs (mag_insert_at veqb teqb) l mag_default)) t)
      (fun c v => In (c, v) (completed l (fst (insert_runs (mag_insert_at veqb teqb) l mag_default))) /\
                  tag_m c (t_s t) (t_o t)).
  Proof. destruct at_ag as (D & I & S & L & U & C & W & O & Z). exact (runs_get _ _ _ _ _ _ _ _ _ _ L C). Qed.

  Lemma mag_at_returned : forall (l : list (nat * (t_ag T * V))),
    let rs := fst (insert_runs (mag_insert_at veqb teqb) l mag_default) in
    returned rs = fst (insert_all (mag_insert veqb teqb) (completed l rs) mag_default).
  Proof. destruct at_ag as (D & I & S & L & U & C & W & O & Z). exact (runs_returned _ _ _ _ _ _ _ _ _ _ L C). Qed.

  Lemma mag_at_interrupted : forall (l : list (nat * (t_ag T * V))) n c v t,
    let m := snd (insert_runs (mag_insert_at veqb teqb) l mag_default) in
    fst (mag_insert_at veqb teqb n c v m) = None ->
    Permutation (mag_get teqb (snd (mag_insert_at veqb teqb n c v m)) t) (mag_get teqb m t).
  Proof. destruct at_ag as (D & I & S & L & U & C & W & O & Z). exact (interrupted _ _ _ _ _ _ _ _ _ _ L C). Qed.

  Lemma mag_at_union : forall (l1 l2 : list (nat * (t_ag T * V))) (t : triple T),
    answers (mag_get teqb (mag_union veqb teqb
        (snd (insert_runs (mag_insert_at veqb teqb) l1 mag_default))
        (snd (insert_runs (mag_insert_at veqb teqb) l2 mag_default))) t)
      (fun c v => (In (c, v) (completed l2 (fst (insert_runs (mag_insert_at veqb teqb) l2 mag_default))) \/
                   (In (c, v) (completed l1 (fst (insert_runs (mag_insert_at veqb teqb) l1 mag_default))) /\
                    ~ exists n c' v', In (n, (c', v')) l2 /\ 1 <= n /\ same_key_ag c' c)) /\
                  tag_m c (t_s t) (t_o t)).
  Proof. destruct at_ag as (D & I & S & L & U & C & W & O & Z). exact (runs_union _ _ _ _ _ _ _ _ _ _ _ L U C). Qed.

  Lemma mag_at_union_lookups : forall n m o, fst (mag_union_at veqb teqb n m o) = None <-> n < entries_ag o.
  Proof.
    destruct at_ag as (D & I & S & L & U & C & W & O & Z). intros n m o. rewrite (t_size _ _ _ _ _ _ _ _ _ W).
    destruct (Nat.leb_spec (entries_ag o) n); split; try discriminate; try lia; reflexivity.
  Qed.

  Lemma mag_at_union_interrupted : forall (l1 l2 : list (t_ag T * V)) n,
    let m1 := snd (insert_all (mag_insert veqb teqb) l1 mag_default) in
    let m2 := snd (insert_all (mag_insert veqb teqb) l2 mag_default) in
    (fst (mag_union_at veqb teqb n m1 m2) <> None ->
     snd (mag_union_at veqb teqb n m1 m2) = mag_union veqb teqb m1 m2) /\
    exists taken : t_ag T -> V -> Prop,
      (forall c v, taken c v -> In (c, v) l2) /\
      (forall c v c' v', taken c v -> same_key_ag c c' -> In (c', v') l2 -> taken c' v') /\
      forall t, answers (mag_get teqb (snd (mag_union_at veqb teqb n m1 m2)) t)
        (fun c v => (taken c v \/ (In (c, v) l1 /\ ~ exists c' v', taken c' v' /\ same_key_ag c' c)) /\
                    tag_m c (t_s t) (t_o t)).
  Proof. destruct at_ag as (D & I & S & L & U & C & W & O & Z). exact (part_union _ _ _ _ _ _ _ _ _ _ _ L U _ W). Qed.

  Lemma mgs_at_lookups : forall n c v m, fst (mgs_insert_at veqb teqb n c v m) = None <-> n < 1 + gives_gs c.
  Proof. destruct at_gs as (D & I & S & L & U & C & W & O & Z). exact (c_cost _ _ _ _ _ _ _ C). Qed.

  Lemma mgs_at_plain : forall n c v m b, fst (mgs_insert_at veqb teqb n c v m) = Some b ->
    mgs_insert veqb teqb c v m = (b, snd (mgs_insert_at veqb teqb n c v m)).
  Proof. destruct at_gs as (D & I & S & L & U & C & W & O & Z). exact (c_done _ _ _ _ _ _ _ C). Qed.

  Lemma mgs_at_get : forall (l : list (nat * (t_gs T * V))) (t : triple T),
    answers (mgs_get teqb (snd (insert_runs (mgs_insert_at veqb teqb) l mgs_default)) t)
      (fun c v => In (c, v) (completed l (fst (insert_runs (mgs_insert_at veqb teqb) l mgs_default))) /\
                  tgs_m c (t_p t) (t_o t)).
  Proof. destruct at_gs as (D & I & S & L & U & C & W & O & Z). exact (runs_get _ _ _ _ _ _ _ _ _ _ L C). Qed.

  Lemma mgs_at_returned : forall (l : list (nat * (t_gs T * V))),
    let rs := fst (insert_runs (mgs_insert_at veqb teqb) l mgs_default) in
    returned rs = fst (insert_all (mgs_insert veqb teqb) (completed l rs) mgs_default).
  Proof. destruct at_gs as (D & I & S & L & U & C & W & O & Z). exact (runs_returned _ _ _ _ _ _ _ _ _ _ L C). Qed.

  Lemma mgs_at_interrupted : forall (l : list (nat * (t_gs T * V))) n c v t,
    let m := snd (insert_runs (mgs_insert_at veqb teqb) l mgs_default) in
    fst (mgs_insert_at veqb teqb n c v m) = None ->
    Permutation (mgs_get teqb (snd (mgs_insert_at veqb teqb n c v m)) t) (mgs_get teqb m t).
  Proof. destruct at_gs as (D & I & S & L & U & C & W & O & Z). exact (interrupted _ _ _ _ _ _ _ _ _ _ L C). Qed.

  Lemma mgs_at_union : forall (l1 l2 : list (nat * (t_gs T * V))) (t : triple T),
    answers (mgs_get teqb (mgs_union veqb teqb
        (snd (insert_runs (mgs_insert_at veqb teqb) l1 mgs_default))
        (snd (insert_runs (mgs_insert_at veqb teqb) l2 mgs_default))) t)
      (fun c v => (In (c, v) (completed l2 (fst (insert_runs (mgs_insert_at veqb teqb) l2 mgs_default))) \/
                   (In (c, v) (completed l1 (fst (insert_runs (mgs_insert_at veqb teqb) l1 mgs_default))) /\
                    ~ exists n c' v', In (n, (c', v')) l2 /\ 1 <= n /\ same_key_gs c' c)) /\
                  tgs_m c (t_p t) (t_o t)).
  Proof. destruct at_gs as (D & I & S & L & U & C & W & O & Z). exact (runs_union _ _ _ _ _ _ _ _ _ _ _ L U C). Qed.

  Lemma mgs_at_union_lookups : forall n m o, fst (mgs_union_at veqb teqb n m o) = None <-> n < entries_gs o.
  Proof.
    destruct at_gs as (D & I & S & L & U & C & W & O & Z). intros n m o. rewrite (t_size _ _ _ _ _ _ _ _ _ W).
    destruct (Nat.leb_spec (entries_gs o) n); split; try discriminate; try lia; reflexivity.
  Qed.

  Lemma mgs_at_union_interrupted : forall (l1 l2 : list (t_gs T * V)) n,
    let m1 := snd (insert_all (mgs_insert veqb teqb) l1 mgs_default) in
    let m2 := snd (insert_all (mgs_insert veqb teqb) l2 mgs_default) in
    (fst (mgs_union_at veqb teqb n m1 m2) <> None ->
     snd (mgs_union_at veqb teqb n m1 m2) = mgs_union veqb teqb m1 m2) /\
    exists taken : t_gs T -> V -> Prop,
      (forall c v, taken c v -> In (c, v) l2) /\
      (forall c v c' v', taken c v -> same_key_gs c c' -> In (c', v') l2 -> taken c' v') /\
      forall t, answers (mgs_get teqb (snd (mgs_union_at veqb teqb n m1 m2)) t)
        (fun c v => (taken c v \/ (In (c, v) l1 /\ ~ exists c' v', taken c' v' /\ same_key_gs c' c)) /\
                    tgs_m c (t_p t) (t_o t)).
  Proof. destruct at_gs as (D & I & S & L & U & C & W & O & Z). exact (part_union _ _ _ _ _ _ _ _ _ _ _ L U _ W). Qed.

  Lemma mas_at_lookups : forall n c v m, fst (mas_insert_at veqb teqb n c v m) = None <-> n < 1 + gives_as c.
  Proof. destruct at_as as (D & I & S & L & U & C & W & O & Z). exact (c_cost _ _ _ _ _ _ _ C). Qed.

  Lemma mas_at_plain : forall n c v m b, fst (mas_insert_at veqb teqb n c v m) = Some b ->
    mas_insert veqb teqb c v m = (b, snd (mas_insert_at veqb teqb n c v m)).
  Proof. destruct at_as as (D & I & S & L & U & C & W & O & Z). exact (c_done _ _ _ _ _ _ _ C). Qed.

  Lemma mas_at_get : forall (l : list (nat * (t_as T * V))) (t : triple T),
    answers (mas_get teqb (snd (insert_runs (mas_insert_at veqb teqb) l mas_default)) t)
      (fun c v => In (c, v) (completed l (fst (insert_runs (mas_insert_at veqb teqb) l mas_default))) /\
                  tas_m c (t_s t) (t_p t) (t_o t)).
  Proof. destruct at_as as (D & I & S & L & U & C & W & O & Z). exact (runs_get _ _ _ _ _ _ _ _ _ _ L C). Qed.

  Lemma mas_at_returned : forall (l : list (nat * (t_as T * V))),
    let rs := fst (insert_runs (mas_insert_at veqb teqb) l mas_default) in
    returned rs = fst (insert_all (mas_insert veqb teqb) (completed l rs) mas_default).
  Proof. destruct at_as as (D & I & S & L & U & C & W & O & Z). exact (runs_returned _ _ _ _ _ _ _ _ _ _ L C). Qed.

  Lemma mas_at_interrupted : forall (l : list (nat * (t_as T * V))) n c v t,
    let m := snd (insert_runs (mas_insert_at veqb teqb) l mas_default) in
    fst (mas_insert_at veqb teqb n c v m) = None ->
    Permutation (mas_get teqb (snd (mas_insert_at veqb teqb n c v m)) t) (mas_get teqb m t).
  Proof. destruct at_as as (D & I & S & L & U & C & W & O & Z). exact (interrupted _ _ _ _ _ _ _ _ _ _ L C). Qed.

  Lemma mas_at_union : forall (l1 l2 : list (nat * (t_as T * V))) (t : triple T),
    answers (mas_get teqb (mas_union veqb teqb
        (snd (insert_runs (mas_insert_at veqb teqb) l1 mas_default))
        (snd (insert_runs (mas_insert_at veqb teqb) l2 mas_default))) t)
      (fun c v => (In (c, v) (completed l2 (fst (insert_runs (mas_insert_at veqb teqb) l2 mas_default))) \/
                   (In (c, v) (completed l1 (fst (insert_runs (mas_insert_at veqb teqb) l1 mas_default))) /\
                    ~ exists n c' v', In (n, (c', v')) l2 /\ 1 <= n /\ same_key_as c' c)) /\
                  tas_m c (t_s t) (t_p t) (t_o t)).
  Proof. destruct at_as as (D & I & S & L & U & C & W & O & Z). exact (runs_union _ _ _ _ _ _ _ _ _ _ _ L U C). Qed.

  Lemma mas_at_union_lookups : forall n m o, fst (mas_union_at veqb teqb n m o) = None <-> n < entries_as o.
  Proof.
    destruct at_as as (D & I & S & L & U & C & W & O & Z). intros n m o. rewrite (t_size _ _ _ _ _ _ _ _ _ W).
    destruct (Nat.leb_spec (entries_as o) n); split; try discriminate; try lia; reflexivity.
  Qed.

  Lemma mas_at_union_interrupted : forall (l1 l2 : list (t_as T * V)) n,
    let m1 := snd (insert_all (mas_insert veqb teqb) l1 mas_default) in
    let m2 := snd (insert_all (mas_insert veqb teqb) l2 mas_default) in
    (fst (mas_union_at veqb teqb n m1 m2) <> None ->
     snd (mas_union_at veqb teqb n m1 m2) = mas_union veqb teqb m1 m2) /\
    exists taken : t_as T -> V -> Prop,
      (forall c v, taken c v -> In (c, v) l2) /\
      (forall c v c' v', taken c v -> same_key_as c c' -> In (c', v') l2 -> taken c' v') /\
      forall t, answers (mas_get teqb (snd (mas_union_at veqb teqb n m1 m2)) t)
        (fun c v => (taken c v \/ (In (c, v) l1 /\ ~ exists c' v', taken c' v' /\ same_key_as c' c)) /\
                    tas_m c (t_s t) (t_p t) (t_o t)).
  Proof. destruct at_as as (D & I & S & L & U & C & W & O & Z). exact (part_union _ _ _ _ _ _ _ _ _ _ _ L U _ W). Qed.

  Lemma tpm_at_lookups : forall n c v m, fst (tpm_insert_at veqb teqb n c v m) = None <-> n < 1 + gives c.
  Proof. destruct at_tp as (D & I & S & K & L & C). exact (c_cost _ _ _ _ _ _ _ C). Qed.

  Lemma tpm_at_plain : forall n c v m b, fst (tpm_insert_at veqb teqb n c v m) = Some b ->
    tpm_insert veqb teqb c v m = (b, snd (tpm_insert_at veqb teqb n c v m)).
  Proof. destruct at_tp as (D & I & S & K & L & C). exact (c_done _ _ _ _ _ _ _ C). Qed.

  Lemma tpm_at_get : forall (l : list (nat * (ctp T * V))) (t : triple T),
    answers (tpm_get teqb (snd (insert_runs (tpm_insert_at veqb teqb) l tpm_default)) t)
      (fun c v => In (c, v) (completed l (fst (insert_runs (tpm_insert_at veqb teqb) l tpm_default))) /\ ct_matches c t).
  Proof. destruct at_tp as (D & I & S & K & L & C). exact (runs_get _ _ _ _ _ _ _ _ _ _ L C). Qed.

  Lemma tpm_at_returned : forall (l : list (nat * (ctp T * V))),
    let rs := fst (insert_runs (tpm_insert_at veqb teqb) l tpm_default) in
    returned rs = fst (insert_all (tpm_insert veqb teqb) (completed l rs) tpm_default).
  Proof. destruct at_tp as (D & I & S & K & L & C). exact (runs_returned _ _ _ _ _ _ _ _ _ _ L C). Qed.

  Lemma tpm_at_interrupted : forall (l : list (nat * (ctp T * V))) n c v t,
    let m := snd (insert_runs (tpm_insert_at veqb teqb) l tpm_default) in
    fst (tpm_insert_at veqb teqb n c v m) = None ->
    Permutation (tpm_get teqb (snd (tpm_insert_at veqb teqb n c v m)) t) (tpm_get teqb m t).
  Proof. destruct at_tp as (D & I & S & K & L & C). exact (interrupted _ _ _ _ _ _ _ _ _ _ L C). Qed.
End Maps.

Lemma mga_trace : exists (l : list (t_ga nat * nat)) n c v t w,
  let m := snd (insert_all (mga_insert Nat.eqb Nat.eqb) l mga_default) in
  let o := snd (mga_insert_at Nat.eqb Nat.eqb n c v mga_default) in
  fst (mga_insert_at Nat.eqb Nat.eqb n c v mga_default) = None /\
  In w (mga_get Nat.eqb (mga_union Nat.eqb Nat.eqb m mga_default) t) /\
  ~ In w (mga_get Nat.eqb (mga_union Nat.eqb Nat.eqb m o) t).
Proof.
  exists [(TGA_Given 1, 7)], 1, (TGA_Given 1), 8, (Triple 1 1 1), 7. vm_compute. split; [reflexivity|]. split; [auto|].
  intros H. exact H.
Qed.

Lemma mgg_trace : exists (l : list (t_gg nat * nat)) n c v t w,
  let m := snd (insert_all (mgg_insert Nat.eqb Nat.eqb) l mgg_default) in
  let o := snd (mgg_insert_at Nat.eqb Nat.eqb n c v mgg_default) in
  fst (mgg_insert_at Nat.eqb Nat.eqb n c v mgg_default) = None /\
  In w (mgg_get Nat.eqb (mgg_union Nat.eqb Nat.eqb m mgg_default) t) /\
  ~ In w (mgg_get Nat.eqb (mgg_union Nat.eqb Nat.eqb m o) t).
Proof.
  exists [(TGG_Given 1, 7)], 1, (TGG_Given 1), 8, (Triple 1 1 1), 7. vm_compute. split; [reflexivity|]. split; [auto|].
  intros H. exact H.
Qed.

Lemma maa_trace : exists (l : list (t_aa nat * nat)) n c v t w,
  let m := snd (insert_all (maa_insert Nat.eqb Nat.eqb) l maa_default) in
  let o := snd (maa_insert_at Nat.eqb Nat.eqb n c v maa_default) in
  fst (maa_insert_at Nat.eqb Nat.eqb n c v maa_default) = None /\
  In w (maa_get Nat.eqb (maa_union Nat.eqb Nat.eqb m maa_default) t) /\
  ~ In w (maa_get Nat.eqb (maa_union Nat.eqb Nat.eqb m o) t).
Proof.
  exists [(TAA_Given 1, 7)], 1, (TAA_Given 1), 8, (Triple 1 1 1), 7. vm_compute. split; [reflexivity|]. split; [auto|].
  intros H. exact H.
Qed.

Lemma mag_trace : exists (l : list (t_ag nat * nat)) n c v t w,
  let m := snd (insert_all (mag_insert Nat.eqb Nat.eqb) l mag_default) in
  let o := snd (mag_insert_at Nat.eqb Nat.eqb n c v mag_default) in
  fst (mag_insert_at Nat.eqb Nat.eqb n c v mag_default) = None /\
  In w (mag_get Nat.eqb (mag_union Nat.eqb Nat.eqb m mag_default) t) /\
  ~ In w (mag_get Nat.eqb (mag_union Nat.eqb Nat.eqb m o) t).
Proof.
  exists [(TAG_Given 1, 7)], 1, (TAG_Given 1), 8, (Triple 1 1 1), 7. vm_compute. split; [reflexivity|]. split; [auto|].
  intros H. exact H.
Qed.

Lemma mgs_trace : exists (l : list (t_gs nat * nat)) n c v t w,
  let m := snd (insert_all (mgs_insert Nat.eqb Nat.eqb) l mgs_default) in
  let o := snd (mgs_insert_at Nat.eqb Nat.eqb n c v mgs_default) in
  fst (mgs_insert_at Nat.eqb Nat.eqb n c v mgs_default) = None /\
  In w (mgs_get Nat.eqb (mgs_union Nat.eqb Nat.eqb m mgs_default) t) /\
  ~ In w (mgs_get Nat.eqb (mgs_union Nat.eqb Nat.eqb m o) t).
Proof.
  exists [(TG_GivenP 1 TGG_Any, 7)], 1, (TG_GivenP 1 TGG_Any), 8, (Triple 1 1 1), 7. vm_compute. split; [reflexivity|]. split; [auto|].
  intros H. exact H.
Qed.

Lemma mas_trace : exists (l : list (t_as nat * nat)) n c v t w,
  let m := snd (insert_all (mas_insert Nat.eqb Nat.eqb) l mas_default) in
  let o := snd (mas_insert_at Nat.eqb Nat.eqb n c v mas_default) in
  fst (mas_insert_at Nat.eqb Nat.eqb n c v mas_default) = None /\
  In w (mas_get Nat.eqb (mas_union Nat.eqb Nat.eqb m mas_default) t) /\
  ~ In w (mas_get Nat.eqb (mas_union Nat.eqb Nat.eqb m o) t).
Proof.
  exists [(TA_GivenP 1 TAG_Any, 7)], 1, (TA_GivenP 1 TAG_Any), 8, (Triple 1 1 1), 7. vm_compute. split; [reflexivity|]. split; [auto|].
  intros H. exact H.
Qed.
