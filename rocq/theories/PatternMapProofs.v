(** Proofs about pattern maps. *)
From Coq Require Import List Bool Permutation.
Import ListNotations.
From Verif Require Import Base TripleModel TriplePatternModel PatternSpec PatternMapModel BaseProofs PatternMapSpec.

Section Maps.
  Context {V T : Type} (veqb : V -> V -> bool) (teqb : T -> T -> bool)
    (veqb_spec : forall x y, veqb x y = true <-> x = y)
    (teqb_spec : forall x y, teqb x y = true <-> x = y).

  Lemma teqb_refl x : teqb x x = true.
  Proof. apply teqb_spec. reflexivity. Qed.

  Lemma teqb_cases x y : (teqb x y = true /\ x = y) \/ (teqb x y = false /\ x <> y).
  Proof.
    destruct (teqb x y) eqn:E.
    - left. split; [reflexivity|]. apply teqb_spec. exact E.
    - right. split; [reflexivity|]. intros H. apply teqb_spec in H. congruence.
  Qed.

  Lemma NoDup_app_intro {A} (l m : list A) :
    NoDup l -> NoDup m -> (forall x, In x l -> In x m -> False) -> NoDup (l ++ m).
  Proof.
    induction l as [|x l IH]; cbn; intros N1 N2 D; [exact N2|]. inv N1. constructor.
    - rewrite in_app_iff. intros [H|H]; [contradiction|]. eapply D; [left; reflexivity|exact H].
    - apply IH; auto. intros y Y1 Y2. eapply D; [right; exact Y1|exact Y2].
  Qed.

  (** ** What a query yields *)
  Definition yields {P} (l : list V) (Q : P -> V -> Prop) : Prop :=
    exists ps : list (P * V),
      NoDup ps /\ (forall c v, In (c, v) ps <-> Q c v) /\ map snd ps = l.

  Lemma yields_ext {P} l (Q Q' : P -> V -> Prop) :
    yields l Q -> (forall c v, Q c v <-> Q' c v) -> yields l Q'.
  Proof.
    intros (ps & N & I & E) H. exists ps. split; [exact N|]. split; [|exact E].
    intros c v. rewrite I. apply H.
  Qed.

  Lemma yields_nil {P} (Q : P -> V -> Prop) : (forall c v, ~ Q c v) -> yields [] Q.
  Proof.
    intros H. exists []. split; [constructor|]. split; [|reflexivity].
    intros c v. split; [intros []|apply H].
  Qed.

  Lemma yields_set (s : list V) : NoDup s -> yields s (fun (_ : unit) v => In v s).
  Proof.
    intros N. exists (map (fun v => (tt, v)) s). split; [|split].
    - apply FinFun.Injective_map_NoDup; [|exact N]. intros x y H. inv H. reflexivity.
    - intros [] v. rewrite in_map_iff. split.
      + intros (x & E & H). inv E. exact H.
      + intros H. exists v. auto.
    - rewrite map_map. cbn. apply map_id.
  Qed.

  Lemma yields_inj {P P'} (f : P -> P') l Q :
    (forall x y, f x = f y -> x = y) -> yields l Q ->
    yields l (fun c v => exists c', c = f c' /\ Q c' v).
  Proof.
    intros F (ps & N & I & E). exists (map (fun cv => (f (fst cv), snd cv)) ps).
    split; [|split].
    - apply FinFun.Injective_map_NoDup; [|exact N]. intros [x u] [y w] H. cbn in H. inv H.
      f_equal. apply F. assumption.
    - intros c v. rewrite in_map_iff. split.
      + intros ([x u] & H & J). cbn in H. inv H. exists x. split; [reflexivity|]. apply I. exact J.
      + intros (x & -> & H). exists (x, v). split; [reflexivity|]. apply I. exact H.
    - rewrite map_map. cbn. exact E.
  Qed.

  Lemma yields_app {P} l1 l2 (Q1 Q2 : P -> V -> Prop) :
    yields l1 Q1 -> yields l2 Q2 -> (forall c v, Q1 c v -> Q2 c v -> False) ->
    yields (l1 ++ l2) (fun c v => Q1 c v \/ Q2 c v).
  Proof.
    intros (p1 & N1 & I1 & E1) (p2 & N2 & I2 & E2) D. exists (p1 ++ p2). split; [|split].
    - apply NoDup_app_intro; auto. intros [c v] H1 H2. apply I1 in H1. apply I2 in H2. eauto.
    - intros c v. rewrite in_app_iff, I1, I2. reflexivity.
    - rewrite map_app. congruence.
  Qed.

  Lemma yields_if {P} x y l (Q : P -> V -> Prop) :
    yields l Q -> yields (if teqb x y then l else []) (fun c v => x = y /\ Q c v).
  Proof.
    intros H. destruct (teqb_cases x y) as [[-> E]|[-> E]].
    - eapply yields_ext; [exact H|]. tauto.
    - apply yields_nil. tauto.
  Qed.

  (** ** The laws of a map from patterns [P] to sets of values *)
  Record laws {P M} (mt : P -> triple T -> Prop) (d : M) (ins : P -> V -> M -> bool * M)
      (get : M -> triple T -> list V) (D : M -> P -> V -> Prop) (inv : M -> Prop) : Prop := {
    l_dinv : inv d;
    l_dempty : forall c v, ~ D d c v;
    l_inv : forall m c v, inv m -> inv (snd (ins c v m));
    l_new : forall m c v, inv m -> (fst (ins c v m) = true <-> ~ D m c v);
    l_D : forall m c v c' v', inv m ->
      (D (snd (ins c v m)) c' v' <-> D m c' v' \/ (c' = c /\ v' = v));
    l_get : forall m t, inv m -> yields (get m t) (fun c v => D m c v /\ mt c t)
  }.

  Definition insU (c : unit) (v : V) (s : list V) := hs_insert veqb v s.
  Definition getU (s : list V) (t : triple T) := s.
  Definition DU (s : list V) (c : unit) (v : V) := In v s.

  Lemma existsb_in v s : existsb (veqb v) s = true <-> In v s.
  Proof.
    rewrite existsb_exists. split.
    - intros (x & H & E). apply veqb_spec in E. subst. exact H.
    - intros H. exists v. split; [exact H|]. apply veqb_spec. reflexivity.
  Qed.

  Lemma lawsU : laws (fun _ _ => True) [] insU getU DU (@NoDup V).
  Proof.
    assert (X : forall v s, (existsb (veqb v) s = true /\ In v s) \/
                            (existsb (veqb v) s = false /\ ~ In v s)).
    { intros v s. destruct (existsb (veqb v) s) eqn:E.
      - left. split; [reflexivity|]. apply existsb_in. exact E.
      - right. split; [reflexivity|]. intros H. apply existsb_in in H. congruence. }
    split; unfold insU, hs_insert, DU, getU.
    - constructor.
    - intros _ v [].
    - intros s _ v N. destruct (X v s) as [[-> I]|[-> I]]; cbn; [exact N|].
      apply NoDup_app_intro; auto.
      + constructor; [intros []|constructor].
      + intros x H [->|[]]. contradiction.
    - intros s _ v N. destruct (X v s) as [[-> I]|[-> I]]; cbn; split; congruence || tauto.
    - intros s [] v [] v' N. destruct (X v s) as [[-> I]|[-> I]]; cbn.
      + split; [tauto|]. intros [H|[_ ->]]; assumption.
      + rewrite in_app_iff. cbn. split; intros [H|H]; auto.
        * destruct H as [->|[]]. auto.
        * destruct H as [_ ->]. auto.
    - intros s t N. eapply yields_ext; [apply yields_set; exact N|]. cbn. tauto.
  Qed.

  (** ** Hash tables *)
  Lemma hm_get_set {A} k k' (a : A) h :
    hm_get teqb k (hm_set teqb k' a h) = if teqb k k' then Some a else hm_get teqb k h.
  Proof.
    induction h as [|[x b] r IH]; cbn; [reflexivity|].
    destruct (teqb_cases k' x) as [[-> ->]|[-> N]]; cbn.
    - destruct (teqb k x); reflexivity.
    - rewrite IH. destruct (teqb_cases k x) as [[-> ->]|[-> N2]].
      + destruct (teqb_cases x k') as [[-> E]|[-> E]]; [congruence|reflexivity].
      + reflexivity.
  Qed.

  Definition DH {P M} (D : M -> P -> V -> Prop) (h : list (T * M)) (kc : T * P) (v : V) : Prop :=
    exists a, hm_get teqb (fst kc) h = Some a /\ D a (snd kc) v.
  Definition invH {M} (inv : M -> Prop) (h : list (T * M)) : Prop :=
    NoDup (map fst h) /\ forall k a, hm_get teqb k h = Some a -> inv a.

  Lemma hm_set_keys {A} k (a : A) h x : In x (map fst (hm_set teqb k a h)) -> x = k \/ In x (map fst h).
  Proof.
    induction h as [|[y b] r IH]; cbn; [intuition|].
    destruct (teqb_cases k y) as [[-> ->]|[-> N]]; cbn; intuition.
  Qed.

  Lemma hm_set_nodup {A} k (a : A) h : NoDup (map fst h) -> NoDup (map fst (hm_set teqb k a h)).
  Proof.
    induction h as [|[y b] r IH]; cbn; intros N.
    - constructor; [intros []|constructor].
    - inv N. destruct (teqb_cases k y) as [[-> ->]|[-> E]]; cbn; constructor; auto.
      intros H. apply hm_set_keys in H. intuition.
  Qed.

  Section HMap.
    Context {P M : Type} (mt : P -> triple T -> Prop) (d : M) (ins : P -> V -> M -> bool * M)
      (get : M -> triple T -> list V) (D : M -> P -> V -> Prop) (inv : M -> Prop)
      (L : laws mt d ins get D inv) (sel : triple T -> T).

    Lemma lawsH :
      laws (fun kc t => sel t = fst kc /\ mt (snd kc) t) []
        (fun kc v h => hm_entry teqb d (fst kc) (ins (snd kc) v) h)
        (fun h t => hm_values teqb (sel t) (fun a => get a t) h) (DH D) (invH inv).
    Proof.
      destruct L as [Ld Le Li Ln LD Lg].
      assert (A : forall k h, invH inv h ->
        exists a, match hm_get teqb k h with Some a => a | None => d end = a /\ inv a /\
          forall c v, DH D h (k, c) v <-> D a c v).
      { intros k h [_ H]. unfold DH. cbn. destruct (hm_get teqb k h) as [a|] eqn:E; eexists;
          (split; [reflexivity|]).
        - split; [exact (H _ _ E)|]. intros c v. split; [intros (b & F & G); congruence|eauto].
        - split; [exact Ld|]. intros c v. split; [intros (b & F & G); discriminate|].
          intros F. destruct (Le _ _ F). }
      split.
      - split; [constructor|]. intros k a E. discriminate.
      - intros c v (a & E & _). discriminate.
      - intros h [k c] v I. cbn [fst snd]. unfold hm_entry.
        destruct (A k h I) as (a & -> & J & _).
        specialize (Li a c v J). destruct (ins c v a) as [b a']. cbn in *.
        destruct I as [N I]. split; [apply hm_set_nodup; exact N|].
        intros k' a''. rewrite hm_get_set. destruct (teqb k' k); intros E; [inv E; exact Li|eauto].
      - intros h [k c] v I. cbn [fst snd]. unfold hm_entry.
        destruct (A k h I) as (a & -> & J & K). rewrite K.
        specialize (Ln a c v J). destruct (ins c v a). exact Ln.
      - intros h [k c] v [k' c'] v' I. unfold hm_entry. cbn [fst snd].
        destruct (A k h I) as (a & -> & J & K).
        specialize (LD a c v c' v' J). destruct (ins c v a) as [b a']. cbn [snd] in *.
        unfold DH at 1. cbn [fst snd]. rewrite hm_get_set.
        destruct (teqb_cases k' k) as [[-> E]|[-> E]].
        + subst k'. split.
          * intros (x & F & G). inv F. apply LD in G. rewrite <- K in G.
            destruct G as [G|[-> ->]]; auto.
          * intros G. exists a'. split; [reflexivity|]. apply LD. rewrite <- K.
            destruct G as [G|[G1 ->]]; auto. inv G1. auto.
        + split; [auto|]. intros [G|[G _]]; [exact G|]. inv G. congruence.
      - intros h t I. unfold hm_values. destruct (hm_get teqb (sel t) h) as [a|] eqn:E.
        + destruct I as [_ I]. specialize (Lg a t (I _ _ E)).
          apply (yields_inj (fun c => (sel t, c))) in Lg; [|intros x y F; inv F; reflexivity].
          eapply yields_ext; [exact Lg|]. intros [k c] v. unfold DH. cbn [fst snd]. split.
          * intros (c' & F & G & H). inv F. eauto.
          * intros ((a' & F & G) & H & J). subst k. exists c. split; [reflexivity|].
            split; [congruence|exact J].
        + apply yields_nil. intros [k c] v ((a & F & G) & H & J). cbn in *. congruence.
    Qed.
  End HMap.

  (** ** Combinators *)

  (** Two maps side by side. *)
  Definition insS {P1 P2 M1 M2} (i1 : P1 -> V -> M1 -> bool * M1) (i2 : P2 -> V -> M2 -> bool * M2)
      (c : P1 + P2) (v : V) (m : M1 * M2) : bool * (M1 * M2) :=
    match c with
    | inl c => let (b, x) := i1 c v (fst m) in (b, (x, snd m))
    | inr c => let (b, x) := i2 c v (snd m) in (b, (fst m, x))
    end.
  Definition sumP {P1 P2 X} (f : P1 -> X) (g : P2 -> X) (c : P1 + P2) : X :=
    match c with inl c => f c | inr c => g c end.

  Lemma lawsPlus {P1 P2 M1 M2} mt1 mt2 d1 d2 i1 i2 g1 g2 D1 D2 inv1 inv2 :
    @laws P1 M1 mt1 d1 i1 g1 D1 inv1 -> @laws P2 M2 mt2 d2 i2 g2 D2 inv2 ->
    laws (sumP mt1 mt2) (d1, d2) (insS i1 i2) (fun m t => g1 (fst m) t ++ g2 (snd m) t)
      (fun m => sumP (D1 (fst m)) (D2 (snd m))) (fun m => inv1 (fst m) /\ inv2 (snd m)).
  Proof.
    intros [Ld Le Li Ln LD Lg] [Kd Ke Ki Kn KD Kg]. split.
    - auto.
    - intros [c|c] v; cbn; auto.
    - intros [m n] [c|c] v (A & B); cbn in *.
      + specialize (Li m c v A). destruct (i1 c v m); cbn in *; auto.
      + specialize (Ki n c v B). destruct (i2 c v n); cbn in *; auto.
    - intros [m n] [c|c] v (A & B); cbn in *.
      + specialize (Ln m c v A). destruct (i1 c v m); cbn in *; auto.
      + specialize (Kn n c v B). destruct (i2 c v n); cbn in *; auto.
    - intros [m n] [c|c] v [c'|c'] v' (A & B); cbn in *.
      + specialize (LD m c v c' v' A). destruct (i1 c v m); cbn in *. rewrite LD.
        intuition congruence.
      + destruct (i1 c v m); cbn in *. intuition congruence.
      + destruct (i2 c v n); cbn in *. intuition congruence.
      + specialize (KD n c v c' v' B). destruct (i2 c v n); cbn in *. rewrite KD.
        intuition congruence.
    - intros [m n] t (A & B). cbn in *. specialize (Lg m t A). specialize (Kg n t B).
      apply (yields_inj (@inl P1 P2)) in Lg; [|intros x y E; congruence].
      apply (yields_inj (@inr P1 P2)) in Kg; [|intros x y E; congruence].
      eapply yields_ext.
      { apply yields_app; [exact Lg|exact Kg|]. intros c v (x & -> & _) (y & E & _). discriminate. }
      intros [c|c] v; cbn.
      + split.
        * intros [(x & E & H)|(x & E & H)]; inv E. exact H.
        * intros H. left. eauto.
      + split.
        * intros [(x & E & H)|(x & E & H)]; inv E. exact H.
        * intros H. right. eauto.
  Qed.

  (** A map consulted only if two components are equal. *)
  Lemma lawsIf {P M} mt d i g D inv (x y : triple T -> T) :
    @laws P M mt d i g D inv ->
    laws (fun c t => x t = y t /\ mt c t) d i
      (fun m t => if teqb (x t) (y t) then g m t else []) D inv.
  Proof.
    intros [Ld Le Li Ln LD Lg]. split; auto.
    intros m t I. eapply yields_ext; [apply yields_if; apply Lg; exact I|]. cbn. tauto.
  Qed.

  (** The same map under another representation of maps and patterns. *)
  Lemma lawsIso {P M P' M'} mt d i g D inv (eP : P' -> P) (eP' : P -> P') (eM : M' -> M) mt' d' i' g' :
    @laws P M mt d i g D inv ->
    (forall c, eP' (eP c) = c) -> (forall c, eP (eP' c) = c) ->
    eM d' = d ->
    (forall m c v, (fst (i' c v m), eM (snd (i' c v m))) = i (eP c) v (eM m)) ->
    (forall m t, g' m t = g (eM m) t) ->
    (forall c t, mt' c t <-> mt (eP c) t) ->
    @laws P' M' mt' d' i' g' (fun m c v => D (eM m) (eP c) v) (fun m => inv (eM m)).
  Proof.
    intros [Ld Le Li Ln LD Lg] E1 E2 Ed Ei Eg Em.
    assert (Ei1 : forall m c v, fst (i' c v m) = fst (i (eP c) v (eM m))) by
      (intros m c v; rewrite <- Ei; reflexivity).
    assert (Ei2 : forall m c v, eM (snd (i' c v m)) = snd (i (eP c) v (eM m))) by
      (intros m c v; rewrite <- Ei; reflexivity).
    split.
    - rewrite Ed. exact Ld.
    - intros c v. rewrite Ed. apply Le.
    - intros m c v I. rewrite Ei2. auto.
    - intros m c v I. rewrite Ei1. auto.
    - intros m c v c' v' I. rewrite Ei2, LD by exact I. split; intros [H|[H1 H2]]; auto.
      + right. split; [|exact H2]. rewrite <- (E1 c'), H1. apply E1.
      + right. split; congruence.
    - intros m t I. rewrite Eg. specialize (Lg _ t I).
      apply (yields_inj eP') in Lg; [|intros x y E; rewrite <- (E2 x), E; apply E2].
      eapply yields_ext; [exact Lg|]. intros c v. cbn. rewrite Em. split.
      + intros (c' & -> & H). rewrite E2. exact H.
      + intros H. exists (eP c). rewrite E1. auto.
  Qed.

  (** ** Union *)
  (** [S m c]: the map has an entry for the hash key of [c]; [sk c c']: the
      patterns have the same hash key. *)
  Record ulaws {P M} (d : M) (ins : P -> V -> M -> bool * M) (un : M -> M -> M)
      (D : M -> P -> V -> Prop) (inv : M -> Prop)
      (S : M -> P -> Prop) (sk : P -> P -> Prop) : Prop := {
    u_inv : forall m n, inv m -> inv n -> inv (un m n);
    u_D : forall m n c v, inv m -> inv n -> (D (un m n) c v <-> D n c v \/ (D m c v /\ ~ S n c));
    u_d : forall c, ~ S d c;
    u_ins : forall m c v c', S (snd (ins c v m)) c' <-> S m c' \/ sk c c';
    u_S : forall m n c, inv m -> inv n -> (S (un m n) c <-> S m c \/ S n c);
    u_dec : forall m c, S m c \/ ~ S m c
  }.

  Lemma ulawsU : ulaws [] insU (hs_extend veqb) DU (@NoDup V) (fun _ _ => False) (fun _ _ => False).
  Proof.
    assert (H : forall n m, NoDup m -> NoDup (hs_extend veqb m n) /\
      forall v, In v (hs_extend veqb m n) <-> In v n \/ In v m).
    { induction n as [|x n IH]; intros m N; cbn.
      - split; [exact N|]. tauto.
      - destruct (IH (snd (hs_insert veqb x m))) as [A B].
        { apply (l_inv _ _ _ _ _ _ lawsU m tt x N). }
        split; [exact A|]. intros v. unfold hs_extend in B. rewrite B.
        pose proof (l_D _ _ _ _ _ _ lawsU m tt x tt v N) as C. unfold DU, insU in C. rewrite C.
        intuition. }
    split; try tauto.
    - intros m n A B. apply H. exact A.
    - intros m n c v A B. unfold DU. rewrite (proj2 (H n m A)). tauto.
  Qed.

  Lemma hm_get_in {A} k (a : A) h : NoDup (map fst h) -> (hm_get teqb k h = Some a <-> In (k, a) h).
  Proof.
    induction h as [|[x b] r IH]; cbn; intros N; [split; [discriminate|intros []]|]. inv N.
    destruct (teqb_cases k x) as [[-> ->]|[-> E]].
    - split; [intros H; inv H; auto|]. intros [H|H]; [congruence|].
      apply (in_map fst) in H. contradiction.
    - rewrite IH by assumption. split; [auto|]. intros [H|H]; [congruence|exact H].
  Qed.

  Lemma hm_extend_spec {A} (l : list (T * A)) : forall h,
    NoDup (map fst h) -> NoDup (map fst l) ->
    NoDup (map fst (hm_extend teqb h l)) /\
    forall k, hm_get teqb k (hm_extend teqb h l) =
      match hm_get teqb k l with Some a => Some a | None => hm_get teqb k h end.
  Proof.
    induction l as [|[x a] r IH]; intros h N1 N2; cbn.
    - auto.
    - inv N2. destruct (IH (hm_set teqb x a h)) as [A1 A2]; [apply hm_set_nodup; exact N1|assumption|].
      split; [exact A1|]. intros k. unfold hm_extend in A2. rewrite A2, hm_get_set.
      destruct (teqb_cases k x) as [[-> ->]|[-> E]]; [|reflexivity].
      destruct (hm_get teqb x r) as [b|] eqn:F; [|reflexivity].
      apply hm_get_in in F; [|assumption]. apply (in_map fst) in F. contradiction.
  Qed.

  Lemma ulawsH {P M} mt d ins get D inv (L : @laws P M mt d ins get D inv) :
    ulaws [] (fun kc v h => hm_entry teqb d (fst kc) (ins (snd kc) v) h) (hm_extend teqb)
      (DH D) (invH inv) (fun h kc => hm_get teqb (fst kc) h <> None)
      (fun kc kc' => fst kc = fst kc').
  Proof.
    split.
    - intros m n [N1 I1] [N2 I2]. destruct (hm_extend_spec n m N1 N2) as [A B]. split; [exact A|].
      intros k a. rewrite B. destruct (hm_get teqb k n) eqn:E; [|eauto].
      intros F. inv F. eauto.
    - intros m n [k c] v [N1 I1] [N2 I2]. destruct (hm_extend_spec n m N1 N2) as [A B].
      unfold DH. cbn. rewrite B. destruct (hm_get teqb k n) as [a|] eqn:E.
      + split; [intros (b & F & G); inv F; left; eauto|].
        intros [G|(_ & G)]; [exact G|exfalso; apply G; discriminate].
      + split; [intros G; right; split; [exact G|congruence]|].
        intros [(b & F & _)|(G & _)]; [discriminate|exact G].
    - intros c H. apply H. reflexivity.
    - intros m [k c] v [k' c']. unfold hm_entry. cbn [fst snd].
      destruct (ins c v match hm_get teqb k m with Some a => a | None => d end) as [b a].
      cbn [snd]. rewrite hm_get_set. destruct (teqb_cases k' k) as [[-> E]|[-> E]].
      + split; [auto|discriminate].
      + split; [auto|]. intros [H|H]; [exact H|congruence].
    - intros m n [k c] [N1 I1] [N2 I2]. cbn. rewrite (proj2 (hm_extend_spec n m N1 N2)).
      destruct (hm_get teqb k n); [split; [right|]; discriminate|]. tauto.
    - intros m [k c]. cbn. destruct (hm_get teqb k m); [left; discriminate|]. right. intros H. auto.
  Qed.

  Lemma ulawsPlus {P1 P2 M1 M2} d1 d2 i1 i2 u1 u2 D1 D2 inv1 inv2 S1 S2 k1 k2 :
    @ulaws P1 M1 d1 i1 u1 D1 inv1 S1 k1 -> @ulaws P2 M2 d2 i2 u2 D2 inv2 S2 k2 ->
    ulaws (d1, d2) (insS i1 i2) (fun m n => (u1 (fst m) (fst n), u2 (snd m) (snd n)))
      (fun m => sumP (D1 (fst m)) (D2 (snd m))) (fun m => inv1 (fst m) /\ inv2 (snd m))
      (fun m => sumP (S1 (fst m)) (S2 (snd m)))
      (fun c c' => match c, c' with inl c, inl c' => k1 c c' | inr c, inr c' => k2 c c' | _, _ => False end).
  Proof.
    intros [Li LD Ld Ln LS Lc] [Ki KD Kd Kn KS Kc]. split.
    - intros m n (A & B) (C & D). cbn. auto.
    - intros m n [c|c] v (A & B) (C & D); cbn; auto.
    - intros [c|c]; cbn; auto.
    - intros [m n] [c|c] v [c'|c']; cbn.
      + specialize (Ln m c v c'). destruct (i1 c v m); cbn in *. exact Ln.
      + destruct (i1 c v m); cbn in *. tauto.
      + destruct (i2 c v n); cbn in *. tauto.
      + specialize (Kn n c v c'). destruct (i2 c v n); cbn in *. exact Kn.
    - intros m n [c|c] (A & B) (C & D); cbn; auto.
    - intros m [c|c]; cbn; auto.
  Qed.

  Lemma ulawsIso {P M P' M'} d i u D inv S sk (eP : P' -> P) (eM : M' -> M) d' i' u' sk' :
    @ulaws P M d i u D inv S sk ->
    eM d' = d ->
    (forall m c v, (fst (i' c v m), eM (snd (i' c v m))) = i (eP c) v (eM m)) ->
    (forall m n, eM (u' m n) = u (eM m) (eM n)) ->
    (forall c c', sk' c c' <-> sk (eP c) (eP c')) ->
    @ulaws P' M' d' i' u' (fun m c v => D (eM m) (eP c) v) (fun m => inv (eM m))
      (fun m c => S (eM m) (eP c)) sk'.
  Proof.
    intros [Li LD Ld Ln LS Lc] Ed Ei Eu Ek. split.
    - intros m n A B. rewrite Eu. auto.
    - intros m n c v A B. rewrite Eu. auto.
    - intros c. rewrite Ed. apply Ld.
    - intros m c v c'. rewrite Ek, <- (Ln (eM m) (eP c) v (eP c')), <- Ei. reflexivity.
    - intros m n c A B. rewrite Eu. auto.
    - intros m c. apply Lc.
  Qed.

  (** ** Histories *)
  Lemma history {P M} mt d i g D inv (L : @laws P M mt d i g D inv) (l : list (P * V)) : forall m,
    inv m ->
    inv (snd (insert_all i l m)) /\
    (forall c v, D (snd (insert_all i l m)) c v <-> D m c v \/ In (c, v) l) /\
    length (fst (insert_all i l m)) = length l /\
    (forall n c v, nth_error l n = Some (c, v) ->
       exists b, nth_error (fst (insert_all i l m)) n = Some b /\
         (b = true <-> ~ D m c v /\ ~ In (c, v) (firstn n l))).
  Proof.
    induction l as [|[c v] r IH]; intros m I; cbn.
    - repeat split; auto; try tauto. intros [|n] c v H; discriminate.
    - pose proof (l_inv _ _ _ _ _ _ L m c v I) as A.
      pose proof (l_new _ _ _ _ _ _ L m c v I) as B.
      pose proof (fun c' v' => l_D _ _ _ _ _ _ L m c v c' v' I) as C.
      destruct (i c v m) as [b m1]. cbn in A, B, C.
      destruct (IH m1 A) as (E1 & E2 & E3 & E4).
      destruct (insert_all i r m1) as [bs m2]. cbn in *.
      repeat split; auto.
      + intros H. apply E2 in H. rewrite C in H. destruct H as [[H|[-> ->]]|H]; auto.
      + intros [H|[H|H]]; apply E2; rewrite C; auto. inv H. auto.
      + intros [|n] c' v' H; cbn in *.
        * inv H. exists b. split; [reflexivity|]. rewrite B. tauto.
        * destruct (E4 n c' v' H) as (b' & F & G). exists b'. split; [exact F|].
          rewrite G, C. split.
          -- intros (X & Y). split; [tauto|]. intros [Z|Z]; [|tauto]. inv Z. tauto.
          -- intros (X & Y). split; [|tauto]. intros [Z|[-> ->]]; tauto.
  Qed.

  Lemma history_keys {P M} d i u D inv S sk (L : @ulaws P M d i u D inv S sk) (l : list (P * V)) :
    forall m c, S (snd (insert_all i l m)) c <-> S m c \/ exists c' v, In (c', v) l /\ sk c' c.
  Proof.
    induction l as [|[c v] r IH]; intros m c'; cbn.
    - split; [auto|]. intros [H|(x & y & [] & _)]. exact H.
    - pose proof (u_ins _ _ _ _ _ _ _ L m c v) as A.
      destruct (i c v m) as [b m1]. specialize (IH m1 c').
      destruct (insert_all i r m1) as [bs m2]. cbn in *. rewrite IH, A. split.
      + intros [[H|H]|(x & w & H & K)]; eauto 6.
      + intros [H|(x & w & [H|H] & K)]; eauto. inv H. auto.
  Qed.

  Lemma history_union {P M} mt d i g D inv u S sk
      (L : @laws P M mt d i g D inv) (U : @ulaws P M d i u D inv S sk) l1 l2 t :
    yields (g (u (snd (insert_all i l1 d)) (snd (insert_all i l2 d))) t)
      (fun c v => (In (c, v) l2 \/
                   (In (c, v) l1 /\ ~ exists c' v', In (c', v') l2 /\ sk c' c)) /\ mt c t).
  Proof.
    pose proof (l_dinv _ _ _ _ _ _ L) as I. pose proof (l_dempty _ _ _ _ _ _ L) as E.
    destruct (history _ _ _ _ _ _ L l1 d I) as (A1 & A2 & _).
    destruct (history _ _ _ _ _ _ L l2 d I) as (B1 & B2 & _).
    eapply yields_ext; [apply (l_get _ _ _ _ _ _ L); apply (u_inv _ _ _ _ _ _ _ U); assumption|].
    intros c v. cbn. rewrite (u_D _ _ _ _ _ _ _ U) by assumption. rewrite A2, B2.
    rewrite (history_keys _ _ _ _ _ _ _ U).
    pose proof (E c v). pose proof (u_d _ _ _ _ _ _ _ U c). tauto.
  Qed.

  (** ** The maps of map.rs *)
  (** Sets and tables of sets keyed by the object, with patterns [unit] and [T]. *)
  Definition insO (k : T) (v : V) (h : list (T * list V)) := hm_entry teqb [] k (hs_insert veqb v) h.

  Lemma lawsO : laws (fun k t => t_o t = k) [] insO
    (fun h t => hm_values teqb (t_o t) (fun s => s) h)
    (fun h k v => DH DU h (k, tt) v) (invH (@NoDup V)).
  Proof.
    refine (lawsIso _ _ _ _ _ _ (fun k => (k, tt)) fst (fun h => h) _ _ _ _
      (lawsH _ _ _ _ _ _ lawsU t_o) _ _ _ _ _ _).
    - reflexivity.
    - intros [c []]. reflexivity.
    - reflexivity.
    - intros m c v. unfold insO, insU, hm_entry. cbn.
      destruct (hs_insert veqb v match hm_get teqb c m with Some a => a | None => [] end); reflexivity.
    - reflexivity.
    - cbn. tauto.
  Qed.

  Lemma ulawsO : ulaws [] insO (hm_extend teqb) (fun h k v => DH DU h (k, tt) v) (invH (@NoDup V))
    (fun h k => hm_get teqb k h <> None) (fun k k' => k = k').
  Proof.
    refine (ulawsIso _ _ _ _ _ _ _ (fun k => (k, tt)) (fun h => h) _ _ _ _
      (ulawsH _ _ _ _ _ _ lawsU) _ _ _ _).
    - reflexivity.
    - intros m c v. unfold insO, insU, hm_entry. cbn.
      destruct (hs_insert veqb v match hm_get teqb c m with Some a => a | None => [] end); reflexivity.
    - reflexivity.
    - cbn. tauto.
  Qed.

  Ltac iso :=
    repeat match goal with
    | |- forall _, _ => intro
    | c : (_ + _)%type |- _ => destruct c
    | c : unit |- _ => destruct c
    | c : (_ * _)%type |- _ => destruct c
    end.

  Ltac ins_eq :=
    let m := fresh in let c := fresh in let v := fresh in
    intros m c v; destruct m, c; unfold insS, insU, insO; cbn;
    repeat match goal with
    | |- context [let (_, _) := ?e in _] => destruct e; cbn
    end; reflexivity.
  Ltac isos :=
    lazymatch goal with
    | |- forall c, _ = _ => solve [intros []; reflexivity | iso; reflexivity | intros [] []; reflexivity | ins_eq]
    | |- forall c, _ <-> _ => solve [intros [] t; cbn; intuition congruence]
    | |- _ => first [reflexivity | ins_eq | intros [] ?; reflexivity | intros [] []; reflexivity
                    | intros [] ?; cbn; intuition congruence
                    | intros [] []; cbn; intuition congruence]
    end.

  (** [GivenSubjectAnyPredicateMap] (map.rs). *)
  Definition eP_ga (c : t_ga T) : unit + (unit + (T)) :=
    match c with TGA_Any => inl tt | TGA_SameP => inr (inl tt) | TGA_Given k => inr (inr k) end.
  Definition dP_ga (c : unit + (unit + (T))) : t_ga T :=
    match c with inl _ => TGA_Any | inr (inl _) => TGA_SameP | inr (inr k) => TGA_Given k end.
  Definition eM_ga (m : m_ga V T) := (mga_any m, (mga_samep m, mga_given m)).
  Lemma laws_ga : exists D inv S,
    laws (fun c t => tga_m c (t_p t) (t_o t)) mga_default (mga_insert veqb teqb) (mga_get teqb) D inv /\
    ulaws mga_default (mga_insert veqb teqb) (mga_union veqb teqb) D inv S same_key_ga.
  Proof.
    eexists. eexists. eexists. split.
    - refine (lawsIso _ _ _ _ _ _ eP_ga dP_ga eM_ga _ _ _ _
        (lawsPlus _ _ _ _ _ _ _ _ _ _ _ _ lawsU
        (lawsPlus _ _ _ _ _ _ _ _ _ _ _ _ (lawsIf _ _ _ _ _ _ t_p t_o lawsU)
        lawsO)) _ _ _ _ _ _); isos.
    - refine (ulawsIso _ _ _ _ _ _ _ eP_ga eM_ga _ _ _ _
        (ulawsPlus _ _ _ _ _ _ _ _ _ _ _ _ _ _ ulawsU
        (ulawsPlus _ _ _ _ _ _ _ _ _ _ _ _ _ _ ulawsU
        ulawsO)) _ _ _ _); isos.
  Qed.

  (** [GivenSubjectGivenPredicateMap] (map.rs). *)
  Definition eP_gg (c : t_gg T) : unit + (T) :=
    match c with TGG_Any => inl tt | TGG_Given k => inr k end.
  Definition dP_gg (c : unit + (T)) : t_gg T :=
    match c with inl _ => TGG_Any | inr k => TGG_Given k end.
  Definition eM_gg (m : m_gg V T) := (mgg_any m, mgg_given m).
  Lemma laws_gg : exists D inv S,
    laws (fun c t => tgg_m c (t_o t)) mgg_default (mgg_insert veqb teqb) (mgg_get teqb) D inv /\
    ulaws mgg_default (mgg_insert veqb teqb) (mgg_union veqb teqb) D inv S same_key_gg.
  Proof.
    eexists. eexists. eexists. split.
    - refine (lawsIso _ _ _ _ _ _ eP_gg dP_gg eM_gg _ _ _ _
        (lawsPlus _ _ _ _ _ _ _ _ _ _ _ _ lawsU
        lawsO) _ _ _ _ _ _); isos.
    - refine (ulawsIso _ _ _ _ _ _ _ eP_gg eM_gg _ _ _ _
        (ulawsPlus _ _ _ _ _ _ _ _ _ _ _ _ _ _ ulawsU
        ulawsO) _ _ _ _); isos.
  Qed.

  (** [AnySubjectAnyPredicateMap] (map.rs). *)
  Definition eP_aa (c : t_aa T) : unit + (unit + (unit + (T))) :=
    match c with TAA_Any => inl tt | TAA_SameS => inr (inl tt) | TAA_SameP => inr (inr (inl tt)) | TAA_Given k => inr (inr (inr k)) end.
  Definition dP_aa (c : unit + (unit + (unit + (T)))) : t_aa T :=
    match c with inl _ => TAA_Any | inr (inl _) => TAA_SameS | inr (inr (inl _)) => TAA_SameP | inr (inr (inr k)) => TAA_Given k end.
  Definition eM_aa (m : m_aa V T) := (maa_any m, (maa_sames m, (maa_samep m, maa_given m))).
  Lemma laws_aa : exists D inv S,
    laws (fun c t => taa_m c (t_s t) (t_p t) (t_o t)) maa_default (maa_insert veqb teqb) (maa_get teqb) D inv /\
    ulaws maa_default (maa_insert veqb teqb) (maa_union veqb teqb) D inv S same_key_aa.
  Proof.
    eexists. eexists. eexists. split.
    - refine (lawsIso _ _ _ _ _ _ eP_aa dP_aa eM_aa _ _ _ _
        (lawsPlus _ _ _ _ _ _ _ _ _ _ _ _ lawsU
        (lawsPlus _ _ _ _ _ _ _ _ _ _ _ _ (lawsIf _ _ _ _ _ _ t_s t_o lawsU)
        (lawsPlus _ _ _ _ _ _ _ _ _ _ _ _ (lawsIf _ _ _ _ _ _ t_p t_o lawsU)
        lawsO))) _ _ _ _ _ _); isos.
    - refine (ulawsIso _ _ _ _ _ _ _ eP_aa eM_aa _ _ _ _
        (ulawsPlus _ _ _ _ _ _ _ _ _ _ _ _ _ _ ulawsU
        (ulawsPlus _ _ _ _ _ _ _ _ _ _ _ _ _ _ ulawsU
        (ulawsPlus _ _ _ _ _ _ _ _ _ _ _ _ _ _ ulawsU
        ulawsO))) _ _ _ _); isos.
  Qed.

  (** [AnySubjectGivenPredicateMap] (map.rs). *)
  Definition eP_ag (c : t_ag T) : unit + (unit + (T)) :=
    match c with TAG_Any => inl tt | TAG_SameS => inr (inl tt) | TAG_Given k => inr (inr k) end.
  Definition dP_ag (c : unit + (unit + (T))) : t_ag T :=
    match c with inl _ => TAG_Any | inr (inl _) => TAG_SameS | inr (inr k) => TAG_Given k end.
  Definition eM_ag (m : m_ag V T) := (mag_any m, (mag_sames m, mag_given m)).
  Lemma laws_ag : exists D inv S,
    laws (fun c t => tag_m c (t_s t) (t_o t)) mag_default (mag_insert veqb teqb) (mag_get teqb) D inv /\
    ulaws mag_default (mag_insert veqb teqb) (mag_union veqb teqb) D inv S same_key_ag.
  Proof.
    eexists. eexists. eexists. split.
    - refine (lawsIso _ _ _ _ _ _ eP_ag dP_ag eM_ag _ _ _ _
        (lawsPlus _ _ _ _ _ _ _ _ _ _ _ _ lawsU
        (lawsPlus _ _ _ _ _ _ _ _ _ _ _ _ (lawsIf _ _ _ _ _ _ t_s t_o lawsU)
        lawsO)) _ _ _ _ _ _); isos.
    - refine (ulawsIso _ _ _ _ _ _ _ eP_ag eM_ag _ _ _ _
        (ulawsPlus _ _ _ _ _ _ _ _ _ _ _ _ _ _ ulawsU
        (ulawsPlus _ _ _ _ _ _ _ _ _ _ _ _ _ _ ulawsU
        ulawsO)) _ _ _ _); isos.
  Qed.

  (** [GivenSubjectMap] (map.rs). *)
  Definition eP_gs (c : t_gs T) : t_ga T + (T * t_gg T) :=
    match c with TG_AnyP r => inl r | TG_GivenP k r => inr ((k, r)) end.
  Definition dP_gs (c : t_ga T + (T * t_gg T)) : t_gs T :=
    match c with inl r => TG_AnyP r | inr ((k, r)) => TG_GivenP k r end.
  Definition eM_gs (m : m_gs V T) := (mgs_any m, mgs_given m).
  Lemma laws_gs : exists D inv S,
    laws (fun c t => tgs_m c (t_p t) (t_o t)) mgs_default (mgs_insert veqb teqb) (mgs_get teqb) D inv /\
    ulaws mgs_default (mgs_insert veqb teqb) (mgs_union veqb teqb) D inv S same_key_gs.
  Proof.
    destruct laws_ga as (Dga & Iga & Sga & Lga & Uga).
    destruct laws_gg as (Dgg & Igg & Sgg & Lgg & Ugg).
    eexists. eexists. eexists. split.
    - refine (lawsIso _ _ _ _ _ _ eP_gs dP_gs eM_gs _ _ _ _
        (lawsPlus _ _ _ _ _ _ _ _ _ _ _ _ Lga
        (lawsH _ _ _ _ _ _ Lgg t_p)) _ _ _ _ _ _); isos.
    - refine (ulawsIso _ _ _ _ _ _ _ eP_gs eM_gs _ _ _ _
        (ulawsPlus _ _ _ _ _ _ _ _ _ _ _ _ _ _ Uga
        (ulawsH _ _ _ _ _ _ Lgg)) _ _ _ _); isos.
  Qed.

  (** [AnySubjectMap] (map.rs). *)
  Definition eP_as (c : t_as T) : t_aa T + (t_ag T + (T * t_ag T)) :=
    match c with TA_AnyP r => inl r | TA_SameS r => inr (inl r) | TA_GivenP k r => inr (inr ((k, r))) end.
  Definition dP_as (c : t_aa T + (t_ag T + (T * t_ag T))) : t_as T :=
    match c with inl r => TA_AnyP r | inr (inl r) => TA_SameS r | inr (inr ((k, r))) => TA_GivenP k r end.
  Definition eM_as (m : m_as V T) := (mas_any m, (mas_sames m, mas_given m)).
  Lemma laws_as : exists D inv S,
    laws (fun c t => tas_m c (t_s t) (t_p t) (t_o t)) mas_default (mas_insert veqb teqb) (mas_get teqb) D inv /\
    ulaws mas_default (mas_insert veqb teqb) (mas_union veqb teqb) D inv S same_key_as.
  Proof.
    destruct laws_aa as (Daa & Iaa & Saa & Laa & Uaa).
    destruct laws_ag as (Dag & Iag & Sag & Lag & Uag).
    eexists. eexists. eexists. split.
    - refine (lawsIso _ _ _ _ _ _ eP_as dP_as eM_as _ _ _ _
        (lawsPlus _ _ _ _ _ _ _ _ _ _ _ _ Laa
        (lawsPlus _ _ _ _ _ _ _ _ _ _ _ _ (lawsIf _ _ _ _ _ _ t_s t_p Lag)
        (lawsH _ _ _ _ _ _ Lag t_p))) _ _ _ _ _ _); isos.
    - refine (ulawsIso _ _ _ _ _ _ _ eP_as eM_as _ _ _ _
        (ulawsPlus _ _ _ _ _ _ _ _ _ _ _ _ _ _ Uaa
        (ulawsPlus _ _ _ _ _ _ _ _ _ _ _ _ _ _ Uag
        (ulawsH _ _ _ _ _ _ Lag))) _ _ _ _); isos.
  Qed.

  (** [TriplePatternMap] (map.rs). *)
  Definition eP_tp (c : ctp T) : t_as T + (T * t_gs T) :=
    match c with CT_AnyS r => inl r | CT_GivenS k r => inr ((k, r)) end.
  Definition dP_tp (c : t_as T + (T * t_gs T)) : ctp T :=
    match c with inl r => CT_AnyS r | inr ((k, r)) => CT_GivenS k r end.
  Definition eM_tp (m : tpm V T) := (tpm_any m, tpm_given m).
  Lemma laws_tp : exists D inv,
    laws (fun c t => ct_matches c t) tpm_default (tpm_insert veqb teqb) (tpm_get teqb) D inv.
  Proof.
    destruct laws_as as (Das & Ias & Sas & Las & Uas).
    destruct laws_gs as (Dgs & Igs & Sgs & Lgs & Ugs).
    eexists. eexists.
    refine (lawsIso _ _ _ _ _ _ eP_tp dP_tp eM_tp _ _ _ _
        (lawsPlus _ _ _ _ _ _ _ _ _ _ _ _ Las
        (lawsH _ _ _ _ _ _ Lgs t_s)) _ _ _ _ _ _); isos.
  Qed.

  (** ** The statements *)
  Lemma yields_answers {P} l (R : P -> V -> Prop) : yields l R -> answers l R.
  Proof. intros (ps & N & I & E). exists ps. split; [exact N|]. split; [exact I|]. rewrite E. reflexivity. Qed.

  Lemma get_history {P M} mt d i g D inv (L : @laws P M mt d i g D inv) l t :
    answers (g (snd (insert_all i l d)) t) (fun c v => In (c, v) l /\ mt c t).
  Proof.
    destruct (history _ _ _ _ _ _ L l d (l_dinv _ _ _ _ _ _ L)) as (A & B & _).
    apply yields_answers. eapply yields_ext; [apply (l_get _ _ _ _ _ _ L); exact A|].
    intros c v. cbn. rewrite B. pose proof (l_dempty _ _ _ _ _ _ L c v). tauto.
  Qed.

  Lemma insert_history {P M} mt d i g D inv (L : @laws P M mt d i g D inv) l :
    length (fst (insert_all i l d)) = length l /\
    forall n c v, nth_error l n = Some (c, v) ->
      exists b, nth_error (fst (insert_all i l d)) n = Some b /\
        (b = true <-> ~ In (c, v) (firstn n l)).
  Proof.
    destruct (history _ _ _ _ _ _ L l d (l_dinv _ _ _ _ _ _ L)) as (_ & _ & B & C).
    split; [exact B|]. intros n c v H. destruct (C n c v H) as (b & E & F). exists b.
    split; [exact E|]. rewrite F. pose proof (l_dempty _ _ _ _ _ _ L c v). tauto.
  Qed.

  Lemma tpm_get_history l t :
    answers (tpm_get teqb (snd (insert_all (tpm_insert veqb teqb) l tpm_default)) t)
      (fun c v => In (c, v) l /\ ct_matches c t).
  Proof. destruct laws_tp as (D & I & L). exact (get_history _ _ _ _ _ _ L l t). Qed.

  Lemma tpm_insert_history l :
    length (fst (insert_all (tpm_insert veqb teqb) l tpm_default)) = length l /\
    forall n c v, nth_error l n = Some (c, v) ->
      exists b, nth_error (fst (insert_all (tpm_insert veqb teqb) l tpm_default)) n = Some b /\
        (b = true <-> ~ In (c, v) (firstn n l)).
  Proof. destruct laws_tp as (D & I & L). exact (insert_history _ _ _ _ _ _ L l). Qed.

  Lemma union_history {P M} mt d i g D inv u S sk
      (L : @laws P M mt d i g D inv) (U : @ulaws P M d i u D inv S sk) l1 l2 t :
    answers (g (u (snd (insert_all i l1 d)) (snd (insert_all i l2 d))) t)
      (fun c v => (In (c, v) l2 \/
                   (In (c, v) l1 /\ ~ exists c' v', In (c', v') l2 /\ sk c' c)) /\ mt c t).
  Proof. apply yields_answers. exact (history_union _ _ _ _ _ _ _ _ _ L U l1 l2 t). Qed.

  Lemma union_disjoint {P M} mt d i g D inv u S sk
      (L : @laws P M mt d i g D inv) (U : @ulaws P M d i u D inv S sk) l1 l2 t :
    (forall c v c' v', In (c, v) l1 -> In (c', v') l2 -> ~ sk c' c) ->
    answers (g (u (snd (insert_all i l1 d)) (snd (insert_all i l2 d))) t)
      (fun c v => (In (c, v) l1 \/ In (c, v) l2) /\ mt c t).
  Proof.
    intros H. apply yields_answers.
    eapply yields_ext; [exact (history_union _ _ _ _ _ _ _ _ _ L U l1 l2 t)|].
    intros c v. cbn. split; [tauto|]. intros ([A|A] & B); (split; [|exact B]).
    - right. split; [exact A|]. intros (c' & v' & X & Y). exact (H _ _ _ _ A X Y).
    - left. exact A.
  Qed.

  Lemma mga_get_history l t :
    answers (mga_get teqb (snd (insert_all (mga_insert veqb teqb) l mga_default)) t)
      (fun c v => In (c, v) l /\ tga_m c (t_p t) (t_o t)).
  Proof. destruct laws_ga as (D & I & S & L & _). exact (get_history _ _ _ _ _ _ L l t). Qed.
  Lemma mga_union_history l1 l2 t :
    answers (mga_get teqb (mga_union veqb teqb
        (snd (insert_all (mga_insert veqb teqb) l1 mga_default))
        (snd (insert_all (mga_insert veqb teqb) l2 mga_default))) t)
      (fun c v => (In (c, v) l2 \/
                   (In (c, v) l1 /\ ~ exists c' v', In (c', v') l2 /\ same_key_ga c' c)) /\
                  tga_m c (t_p t) (t_o t)).
  Proof. destruct laws_ga as (D & I & S & L & U). exact (union_history _ _ _ _ _ _ _ _ _ L U l1 l2 t). Qed.
  Lemma mga_union_disjoint l1 l2 t :
    (forall c v c' v', In (c, v) l1 -> In (c', v') l2 -> ~ same_key_ga c' c) ->
    answers (mga_get teqb (mga_union veqb teqb
        (snd (insert_all (mga_insert veqb teqb) l1 mga_default))
        (snd (insert_all (mga_insert veqb teqb) l2 mga_default))) t)
      (fun c v => (In (c, v) l1 \/ In (c, v) l2) /\ tga_m c (t_p t) (t_o t)).
  Proof. destruct laws_ga as (D & I & S & L & U). exact (union_disjoint _ _ _ _ _ _ _ _ _ L U l1 l2 t). Qed.

  Lemma mgg_get_history l t :
    answers (mgg_get teqb (snd (insert_all (mgg_insert veqb teqb) l mgg_default)) t)
      (fun c v => In (c, v) l /\ tgg_m c (t_o t)).
  Proof. destruct laws_gg as (D & I & S & L & _). exact (get_history _ _ _ _ _ _ L l t). Qed.
  Lemma mgg_union_history l1 l2 t :
    answers (mgg_get teqb (mgg_union veqb teqb
        (snd (insert_all (mgg_insert veqb teqb) l1 mgg_default))
        (snd (insert_all (mgg_insert veqb teqb) l2 mgg_default))) t)
      (fun c v => (In (c, v) l2 \/
                   (In (c, v) l1 /\ ~ exists c' v', In (c', v') l2 /\ same_key_gg c' c)) /\
                  tgg_m c (t_o t)).
  Proof. destruct laws_gg as (D & I & S & L & U). exact (union_history _ _ _ _ _ _ _ _ _ L U l1 l2 t). Qed.
  Lemma mgg_union_disjoint l1 l2 t :
    (forall c v c' v', In (c, v) l1 -> In (c', v') l2 -> ~ same_key_gg c' c) ->
    answers (mgg_get teqb (mgg_union veqb teqb
        (snd (insert_all (mgg_insert veqb teqb) l1 mgg_default))
        (snd (insert_all (mgg_insert veqb teqb) l2 mgg_default))) t)
      (fun c v => (In (c, v) l1 \/ In (c, v) l2) /\ tgg_m c (t_o t)).
  Proof. destruct laws_gg as (D & I & S & L & U). exact (union_disjoint _ _ _ _ _ _ _ _ _ L U l1 l2 t). Qed.

  Lemma maa_get_history l t :
    answers (maa_get teqb (snd (insert_all (maa_insert veqb teqb) l maa_default)) t)
      (fun c v => In (c, v) l /\ taa_m c (t_s t) (t_p t) (t_o t)).
  Proof. destruct laws_aa as (D & I & S & L & _). exact (get_history _ _ _ _ _ _ L l t). Qed.
  Lemma maa_union_history l1 l2 t :
    answers (maa_get teqb (maa_union veqb teqb
        (snd (insert_all (maa_insert veqb teqb) l1 maa_default))
        (snd (insert_all (maa_insert veqb teqb) l2 maa_default))) t)
      (fun c v => (In (c, v) l2 \/
                   (In (c, v) l1 /\ ~ exists c' v', In (c', v') l2 /\ same_key_aa c' c)) /\
                  taa_m c (t_s t) (t_p t) (t_o t)).
  Proof. destruct laws_aa as (D & I & S & L & U). exact (union_history _ _ _ _ _ _ _ _ _ L U l1 l2 t). Qed.
  Lemma maa_union_disjoint l1 l2 t :
    (forall c v c' v', In (c, v) l1 -> In (c', v') l2 -> ~ same_key_aa c' c) ->
    answers (maa_get teqb (maa_union veqb teqb
        (snd (insert_all (maa_insert veqb teqb) l1 maa_default))
        (snd (insert_all (maa_insert veqb teqb) l2 maa_default))) t)
      (fun c v => (In (c, v) l1 \/ In (c, v) l2) /\ taa_m c (t_s t) (t_p t) (t_o t)).
  Proof. destruct laws_aa as (D & I & S & L & U). exact (union_disjoint _ _ _ _ _ _ _ _ _ L U l1 l2 t). Qed.

  Lemma mag_get_history l t :
    answers (mag_get teqb (snd (insert_all (mag_insert veqb teqb) l mag_default)) t)
      (fun c v => In (c, v) l /\ tag_m c (t_s t) (t_o t)).
  Proof. destruct laws_ag as (D & I & S & L & _). exact (get_history _ _ _ _ _ _ L l t). Qed.
  Lemma mag_union_history l1 l2 t :
    answers (mag_get teqb (mag_union veqb teqb
        (snd (insert_all (mag_insert veqb teqb) l1 mag_default))
        (snd (insert_all (mag_insert veqb teqb) l2 mag_default))) t)
      (fun c v => (In (c, v) l2 \/
                   (In (c, v) l1 /\ ~ exists c' v', In (c', v') l2 /\ same_key_ag c' c)) /\
                  tag_m c (t_s t) (t_o t)).
  Proof. destruct laws_ag as (D & I & S & L & U). exact (union_history _ _ _ _ _ _ _ _ _ L U l1 l2 t). Qed.
  Lemma mag_union_disjoint l1 l2 t :
    (forall c v c' v', In (c, v) l1 -> In (c', v') l2 -> ~ same_key_ag c' c) ->
    answers (mag_get teqb (mag_union veqb teqb
        (snd (insert_all (mag_insert veqb teqb) l1 mag_default))
        (snd (insert_all (mag_insert veqb teqb) l2 mag_default))) t)
      (fun c v => (In (c, v) l1 \/ In (c, v) l2) /\ tag_m c (t_s t) (t_o t)).
  Proof. destruct laws_ag as (D & I & S & L & U). exact (union_disjoint _ _ _ _ _ _ _ _ _ L U l1 l2 t). Qed.

  Lemma mgs_get_history l t :
    answers (mgs_get teqb (snd (insert_all (mgs_insert veqb teqb) l mgs_default)) t)
      (fun c v => In (c, v) l /\ tgs_m c (t_p t) (t_o t)).
  Proof. destruct laws_gs as (D & I & S & L & _). exact (get_history _ _ _ _ _ _ L l t). Qed.
  Lemma mgs_union_history l1 l2 t :
    answers (mgs_get teqb (mgs_union veqb teqb
        (snd (insert_all (mgs_insert veqb teqb) l1 mgs_default))
        (snd (insert_all (mgs_insert veqb teqb) l2 mgs_default))) t)
      (fun c v => (In (c, v) l2 \/
                   (In (c, v) l1 /\ ~ exists c' v', In (c', v') l2 /\ same_key_gs c' c)) /\
                  tgs_m c (t_p t) (t_o t)).
  Proof. destruct laws_gs as (D & I & S & L & U). exact (union_history _ _ _ _ _ _ _ _ _ L U l1 l2 t). Qed.
  Lemma mgs_union_disjoint l1 l2 t :
    (forall c v c' v', In (c, v) l1 -> In (c', v') l2 -> ~ same_key_gs c' c) ->
    answers (mgs_get teqb (mgs_union veqb teqb
        (snd (insert_all (mgs_insert veqb teqb) l1 mgs_default))
        (snd (insert_all (mgs_insert veqb teqb) l2 mgs_default))) t)
      (fun c v => (In (c, v) l1 \/ In (c, v) l2) /\ tgs_m c (t_p t) (t_o t)).
  Proof. destruct laws_gs as (D & I & S & L & U). exact (union_disjoint _ _ _ _ _ _ _ _ _ L U l1 l2 t). Qed.

  Lemma mas_get_history l t :
    answers (mas_get teqb (snd (insert_all (mas_insert veqb teqb) l mas_default)) t)
      (fun c v => In (c, v) l /\ tas_m c (t_s t) (t_p t) (t_o t)).
  Proof. destruct laws_as as (D & I & S & L & _). exact (get_history _ _ _ _ _ _ L l t). Qed.
  Lemma mas_union_history l1 l2 t :
    answers (mas_get teqb (mas_union veqb teqb
        (snd (insert_all (mas_insert veqb teqb) l1 mas_default))
        (snd (insert_all (mas_insert veqb teqb) l2 mas_default))) t)
      (fun c v => (In (c, v) l2 \/
                   (In (c, v) l1 /\ ~ exists c' v', In (c', v') l2 /\ same_key_as c' c)) /\
                  tas_m c (t_s t) (t_p t) (t_o t)).
  Proof. destruct laws_as as (D & I & S & L & U). exact (union_history _ _ _ _ _ _ _ _ _ L U l1 l2 t). Qed.
  Lemma mas_union_disjoint l1 l2 t :
    (forall c v c' v', In (c, v) l1 -> In (c', v') l2 -> ~ same_key_as c' c) ->
    answers (mas_get teqb (mas_union veqb teqb
        (snd (insert_all (mas_insert veqb teqb) l1 mas_default))
        (snd (insert_all (mas_insert veqb teqb) l2 mas_default))) t)
      (fun c v => (In (c, v) l1 \/ In (c, v) l2) /\ tas_m c (t_s t) (t_p t) (t_o t)).
  Proof. destruct laws_as as (D & I & S & L & U). exact (union_disjoint _ _ _ _ _ _ _ _ _ L U l1 l2 t). Qed.

End Maps.
