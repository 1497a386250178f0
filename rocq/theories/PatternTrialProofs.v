(** Proofs about maps built by insertions and unions of which some were interrupted. *)
From Coq Require Import List Bool Arith Lia Permutation.
Import ListNotations.
From Verif Require Import Base TripleModel TriplePatternModel PatternSpec PatternMapModel BaseProofs
  PatternMapSpec PatternMapProofs PatternDebugModel PatternCrashModel PatternCrashSpec PatternCrashProofs
  PatternTrialModel PatternTrialSpec.

Section Trial.
  Context {V T P M : Type} {mt : P -> triple T -> Prop} {d : M} {i : P -> V -> M -> bool * M}
    {g : M -> triple T -> list V} {D : M -> P -> V -> Prop} {inv : M -> Prop} {u : M -> M -> M}
    {S : M -> P -> Prop} {sk : P -> P -> Prop} {a : nat -> P -> V -> M -> option bool * M}
    {ua : nat -> M -> M -> option nat * M} {cost : P -> nat} {size : M -> nat} {rank : P -> nat} {order : M -> M -> Prop}.
  Context (L : @laws V T P M mt d i g D inv) (U : ulaws d i u D inv S sk)
    (C : claws i a D inv S sk cost) (W : tlaws d u ua D inv S sk size rank) (O : olaws order D inv S)
    (Z : slaws D inv S sk size)
    (sym : forall x y, sk x y -> sk y x) (cost1 : forall c, 1 <= cost c)
    (refl : forall x y, sk x y -> sk x x).

  Lemma leaves_keys (e : trial P V) held used : leaves sk cost rank e held used ->
    forall c, used c -> sk c c.
  Proof.
    induction 1 as [|n e c v held used H IH N|n e c v held used H IH N|a0 b held1 used1 held2 used2 HA IA HB IB
      |n a0 b held1 used1 held2 used2 x y HA IA HB IB Q]; intros c'.
    - tauto.
    - intros [F|F]; [auto|]. eapply refl. apply sym. exact F.
    - intros [F|[_ F]]; [auto|]. eapply refl. apply sym. exact F.
    - intros [F|F]; auto.
    - intros [F|F]; [auto|]. apply IB. now apply Q.
  Qed.

  Lemma amount_ext (h h' : P -> V -> Prop) (k k' : P -> Prop) n :
    (forall c v, h c v <-> h' c v) -> (forall c, k c <-> k' c) -> amount sk h k n -> amount sk h' k' n.
  Proof.
    intros A B (vs & ks & H1 & H2 & H3 & H4 & H5 & H6). exists vs, ks.
    split; [exact H1|]. split; [|split; [exact H3|split; [|split; [|exact H6]]]].
    - intros c v. now rewrite <- A.
    - intros c F. apply B. auto.
    - intros c. now rewrite <- B.
  Qed.

  Lemma tried_left e m : tried d a u ua order e m ->
    exists held used, leaves sk cost rank e held used /\ inv m /\
      (forall c v, D m c v <-> held c v) /\ (forall c, S m c <-> used c).
  Proof.
    induction 1 as [|n e c v m H (held & used & A & I & B & E)
      |a0 b m o HA (h1 & k1 & A1 & I1 & B1 & E1) HB (h2 & k2 & A2 & I2 & B2 & E2)
      |n a0 b m o HA (h1 & k1 & A1 & I1 & B1 & E1) HB (h2 & k2 & A2 & I2 & B2 & E2)
      |e m m' H (held & used & A & I & B & E) R].
    - exists (fun _ _ => False), (fun _ => False). split; [constructor|]. split; [exact (l_dinv _ _ _ _ _ _ L)|]. split.
      + intros c v. pose proof (l_dempty _ _ _ _ _ _ L c v). tauto.
      + intros c. pose proof (u_d _ _ _ _ _ _ _ U c). tauto.
    - destruct (fst (a n c v m)) as [b|] eqn:F.
      + assert (N : cost c <= n).
        { destruct (Nat.le_gt_cases (cost c) n) as [N|N]; [exact N|].
          apply (c_cost _ _ _ _ _ _ _ C n c v m) in N. congruence. }
        do 2 eexists. split; [exact (leaves_inserted _ _ _ _ _ _ v _ _ A N)|].
        pose proof (c_done _ _ _ _ _ _ _ C n c v m b F) as G.
        assert (G2 : snd (i c v m) = snd (a n c v m)) by (rewrite G; reflexivity).
        rewrite <- G2. split; [exact (l_inv _ _ _ _ _ _ L _ _ _ I)|]. split.
        * intros c' v'. rewrite (l_D _ _ _ _ _ _ L) by exact I. rewrite B. tauto.
        * intros c'. rewrite (u_ins _ _ _ _ _ _ _ U), E. tauto.
      + pose proof (proj1 (c_cost _ _ _ _ _ _ _ C n c v m) F) as N.
        do 2 eexists. split; [exact (leaves_interrupted _ _ _ _ _ _ v _ _ A N)|].
        split; [exact (c_inv _ _ _ _ _ _ _ C n c v m I F)|]. split.
        * intros c' v'. rewrite (c_D _ _ _ _ _ _ _ C n c v m I F). apply B.
        * intros c'. rewrite (c_S _ _ _ _ _ _ _ C), E. tauto.
    - do 2 eexists. split; [exact (leaves_united _ _ _ _ _ _ _ _ _ A1 A2)|].
      split; [exact (u_inv _ _ _ _ _ _ _ U _ _ I1 I2)|]. split.
      + intros c v. rewrite (u_D _ _ _ _ _ _ _ U) by assumption. rewrite B1, B2, E2. tauto.
      + intros c. rewrite (u_S _ _ _ _ _ _ _ U) by assumption. rewrite E1, E2. tauto.
    - destruct (t_part _ _ _ _ _ _ _ _ _ W n m o I2) as (p & O1 & O2 & O3 & O4 & O5 & O6 & O7 & O8 & O9 & O10).
      assert (Q : some_of sk rank n h2 k2 (D p) (S p)).
      { split; [|split; [|split; [|split; [|split; [|split]]]]].
        - intros c v X. apply B2, O3, X.
        - intros c X. apply E2, O4, X.
        - intros c v X Y. apply O5; [exact X|]. apply B2, Y.
        - intros c v X Y. apply (O7 c c v X). exact (leaves_keys _ _ _ A2 c Y).
        - intros c c' X. split; intros Y; [exact (O6 c c' (sym _ _ X) Y)|exact (O6 c' c X Y)].
        - intros c c' X Y. destruct (O10 c c' X Y) as [Q1 Q2]. split.
          + intros v F. apply Q1, B2, F.
          + intros F. apply Q2, E2, F.
        - exists (size o). split; [|split].
          + exact (amount_ext _ _ _ _ _ B2 E2 (Z _ I2)).
          + rewrite <- O8. exact (Z _ O1).
          + intros X. destruct (O9 X) as [Q1 Q2]. split.
            * intros c v F. apply Q1, B2, F.
            * intros c F. apply Q2, E2, F. }
      do 2 eexists. split; [exact (leaves_united_at _ _ _ n _ _ _ _ _ _ _ _ A1 A2 Q)|].
      rewrite O2. split; [exact (u_inv _ _ _ _ _ _ _ U _ _ I1 O1)|]. split.
      + intros c v. rewrite (u_D _ _ _ _ _ _ _ U) by assumption. rewrite B1. tauto.
      + intros c. rewrite (u_S _ _ _ _ _ _ _ U) by assumption. rewrite E1. tauto.
    - destruct (O _ _ I R) as (I' & B' & E'). exists held, used. split; [exact A|]. split; [exact I'|]. split.
      + intros c v. now rewrite B'.
      + intros c. now rewrite E'.
  Qed.

  Lemma trial_left e m : tried d a u ua order e m ->
    exists held used, leaves sk cost rank e held used /\
    (forall t, answers (g m t) (fun c v => held c v /\ mt c t)) /\
    (forall n c v, fst (a n c v m) = if cost c <=? n then Some (fst (i c v m)) else None) /\
    (forall c v, fst (i c v m) = true <-> ~ held c v) /\
    (forall l t, answers (g (u (snd (insert_all i l d)) m) t)
      (fun c v => (held c v \/ (In (c, v) l /\ ~ used c)) /\ mt c t)) /\
    (exists total, amount sk held used total /\
      forall n m1, fst (ua n m1 m) = if total <=? n then Some (n - total) else None).
  Proof.
    intros H. destruct (tried_left _ _ H) as (held & used & A & I & B & E). exists held, used.
    split; [exact A|]. split; [|split; [|split; [|split]]].
    - intros t. apply yields_answers. eapply yields_ext; [apply (l_get _ _ _ _ _ _ L); exact I|].
      intros c v. cbn. now rewrite B.
    - intros n c v. destruct (fst (a n c v m)) as [b|] eqn:F.
      + pose proof (c_done _ _ _ _ _ _ _ C n c v m b F) as G. rewrite G. cbn.
        destruct (Nat.leb_spec (cost c) n) as [N|N]; [reflexivity|].
        apply (c_cost _ _ _ _ _ _ _ C n c v m) in N. congruence.
      + apply (c_cost _ _ _ _ _ _ _ C n c v m) in F. destruct (Nat.leb_spec (cost c) n); [lia|reflexivity].
    - intros c v. rewrite <- B. exact (l_new _ _ _ _ _ _ L _ _ _ I).
    - intros l t. destruct (history _ _ _ _ _ _ L l d (l_dinv _ _ _ _ _ _ L)) as (A1 & A2 & _).
      apply yields_answers.
      eapply yields_ext; [apply (l_get _ _ _ _ _ _ L); apply (u_inv _ _ _ _ _ _ _ U); assumption|].
      intros c v. cbn. rewrite (u_D _ _ _ _ _ _ _ U) by assumption. rewrite A2, B, E.
      pose proof (l_dempty _ _ _ _ _ _ L c v). tauto.
    - exists (size m). split; [exact (amount_ext _ _ _ _ _ B E (Z _ I))|].
      intros n m1. apply (t_size _ _ _ _ _ _ _ _ _ W).
  Qed.

  Lemma held_finished (e : trial P V) held used : leaves sk cost rank e held used ->
    (forall c v, held c v -> finished cost e c v) /\ (forall c, used c -> touched sk e c).
  Proof.
    induction 1 as [|n e c v held used H [IH IK] N|n e c v held used H [IH IK] N
      |a0 b held1 used1 held2 used2 HA [IA KA] HB [IB KB]
      |n a0 b held1 used1 held2 used2 x y HA [IA KA] HB [IB KB] (Q1 & Q2 & _)]; cbn.
    - tauto.
    - split.
      + intros c' v' [X|[-> ->]]; auto.
      + intros c' [X|X]; [auto|]. left. split; [|exact X]. pose proof (cost1 c). lia.
    - split; [auto|]. intros c' [X|X]; auto.
    - split.
      + intros c v [X|[X _]]; auto.
      + intros c [X|X]; auto.
    - split.
      + intros c v [X|[X _]]; auto.
      + intros c [X|X]; auto.
  Qed.
  Lemma safe_held (e : trial P V) held used : leaves sk cost rank e held used -> disjoint sk cost e ->
    forall c v, safe cost e c v -> held c v.
  Proof.
    induction 1 as [|n e c v held used H IH N|n e c v held used H IH N
      |a0 b held1 used1 held2 used2 HA IA HB IB
      |n a0 b held1 used1 held2 used2 x y HA IA HB IB Q]; cbn.
    - tauto.
    - intros X c' v' [(_ & -> & ->)|Y]; auto.
    - intros X c' v' [(Y & -> & ->)|Y]; [lia|auto].
    - intros (X & Y & R) c v [F|F]; [|auto]. right. specialize (IA X _ _ F). split; [exact IA|]. intros G.
      apply (R c v); [apply (held_finished _ _ _ HA); exact IA|]. apply (held_finished _ _ _ HB). exact G.
    - intros (X & Y & R) c v F. right. specialize (IA X _ _ F). split; [exact IA|]. intros G.
      apply (R c v); [apply (held_finished _ _ _ HA); exact IA|]. apply (held_finished _ _ _ HB).
      apply Q. exact G.
  Qed.
  Lemma whole_safe (e : trial P V) : whole e -> forall c v, finished cost e c v -> safe cost e c v.
  Proof.
    induction e as [|n e IH c v|n a0 IA b IB]; cbn.
    - tauto.
    - intros X c' v' [Y|Y]; auto.
    - intros (-> & X & Y) c v [F|F]; auto.
  Qed.

  Lemma trial_sound e m : tried d a u ua order e m ->
    forall t v, In v (g m t) -> exists c, finished cost e c v /\ mt c t.
  Proof.
    intros H t v X. destruct (trial_left _ _ H) as (held & used & A & B & _).
    destruct (B t) as (ps & N & I & E). rewrite E in X. apply in_map_iff in X.
    destruct X as ([c w] & <- & X). apply I in X. destruct X as [X Y]. exists c. split; [|exact Y].
    apply (held_finished _ _ _ A). exact X.
  Qed.
  Lemma trial_kept e m : tried d a u ua order e m ->
    disjoint sk cost e -> forall t c v, safe cost e c v -> mt c t -> In v (g m t).
  Proof.
    intros H X t c v F G. destruct (trial_left _ _ H) as (held & used & A & B & _).
    destruct (B t) as (ps & N & I & E). rewrite E. apply in_map_iff. exists (c, v). split; [reflexivity|].
    apply I. split; [|exact G]. exact (safe_held _ _ _ A X _ _ F).
  Qed.
  Lemma trial_whole e m : tried d a u ua order e m ->
    disjoint sk cost e -> whole e -> forall t, answers (g m t) (fun c v => finished cost e c v /\ mt c t).
  Proof.
    intros H X Y t. destruct (trial_left _ _ H) as (held & used & A & B & _).
    destruct (B t) as (ps & N & I & E). exists ps. split; [exact N|]. split; [|exact E].
    intros c v. rewrite I. split; intros [F G]; (split; [|exact G]).
    - apply (held_finished _ _ _ A). exact F.
    - apply (safe_held _ _ _ A X). apply whole_safe; assumption.
  Qed.
End Trial.

Section Maps.
  Context {V T : Type} (veqb : V -> V -> bool) (teqb : T -> T -> bool)
    (VS : forall x y, veqb x y = true <-> x = y) (TS : forall x y, teqb x y = true <-> x = y).

  Lemma sym_ga : forall x y : t_ga T, same_key_ga x y -> same_key_ga y x.
  Proof. intros [] []; cbn; auto; try (symmetry; assumption). Qed.
  Lemma refl_ga : forall x y : t_ga T, same_key_ga x y -> same_key_ga x x.
  Proof. intros [] []; cbn; auto; try tauto. Qed.
  Lemma ga_trial_left :   forall (e : trial (t_ga T) V) m,
  tried mga_default (mga_insert_at veqb teqb) (mga_union veqb teqb) (mga_union_at veqb teqb) mga_order e m ->
  exists held used, leaves same_key_ga (fun c => 1 + gives_ga c) rank_ga e held used /\
    (forall t, answers (mga_get teqb m t) (fun c v => held c v /\ tga_m c (t_p t) (t_o t))) /\
    (forall n c v, fst (mga_insert_at veqb teqb n c v m) =
      if 1 + gives_ga c <=? n then Some (fst (mga_insert veqb teqb c v m)) else None) /\
    (forall c v, fst (mga_insert veqb teqb c v m) = true <-> ~ held c v) /\
    (forall l t, answers (mga_get teqb (mga_union veqb teqb (snd (insert_all (mga_insert veqb teqb) l mga_default)) m) t)
      (fun c v => (held c v \/ (In (c, v) l /\ ~ used c)) /\ tga_m c (t_p t) (t_o t))) /\
    (exists total, amount same_key_ga held used total /\
      forall n m1, fst (mga_union_at veqb teqb n m1 m) = if total <=? n then Some (n - total) else None).
  Proof. destruct (at_ga veqb teqb VS TS) as (D & I & S & L & U & C & W & O & Z). exact (trial_left L U C W O Z sym_ga refl_ga). Qed.
  Lemma ga_trial_sound :   forall (e : trial (t_ga T) V) m,
  tried mga_default (mga_insert_at veqb teqb) (mga_union veqb teqb) (mga_union_at veqb teqb) mga_order e m ->
  forall t v, In v (mga_get teqb m t) ->
    exists c, finished (fun c => 1 + gives_ga c) e c v /\ tga_m c (t_p t) (t_o t).
  Proof. destruct (at_ga veqb teqb VS TS) as (D & I & S & L & U & C & W & O & Z). exact (trial_sound L U C W O Z sym_ga (fun c => le_n_S _ _ (Nat.le_0_l _)) refl_ga). Qed.
  Lemma ga_trial_kept :   forall (e : trial (t_ga T) V) m,
  tried mga_default (mga_insert_at veqb teqb) (mga_union veqb teqb) (mga_union_at veqb teqb) mga_order e m ->
  disjoint same_key_ga (fun c => 1 + gives_ga c) e ->
  forall t c v, safe (fun c => 1 + gives_ga c) e c v -> tga_m c (t_p t) (t_o t) -> In v (mga_get teqb m t).
  Proof. destruct (at_ga veqb teqb VS TS) as (D & I & S & L & U & C & W & O & Z). exact (trial_kept L U C W O Z sym_ga (fun c => le_n_S _ _ (Nat.le_0_l _)) refl_ga). Qed.
  Lemma ga_trial_whole :   forall (e : trial (t_ga T) V) m,
  tried mga_default (mga_insert_at veqb teqb) (mga_union veqb teqb) (mga_union_at veqb teqb) mga_order e m ->
  disjoint same_key_ga (fun c => 1 + gives_ga c) e -> whole e -> forall t,
    answers (mga_get teqb m t) (fun c v => finished (fun c => 1 + gives_ga c) e c v /\ tga_m c (t_p t) (t_o t)).
  Proof. destruct (at_ga veqb teqb VS TS) as (D & I & S & L & U & C & W & O & Z). exact (trial_whole L U C W O Z sym_ga (fun c => le_n_S _ _ (Nat.le_0_l _)) refl_ga). Qed.

  Lemma sym_gg : forall x y : t_gg T, same_key_gg x y -> same_key_gg y x.
  Proof. intros [] []; cbn; auto; try (symmetry; assumption). Qed.
  Lemma refl_gg : forall x y : t_gg T, same_key_gg x y -> same_key_gg x x.
  Proof. intros [] []; cbn; auto; try tauto. Qed.
  Lemma gg_trial_left :   forall (e : trial (t_gg T) V) m,
  tried mgg_default (mgg_insert_at veqb teqb) (mgg_union veqb teqb) (mgg_union_at veqb teqb) mgg_order e m ->
  exists held used, leaves same_key_gg (fun c => 1 + gives_gg c) rank_gg e held used /\
    (forall t, answers (mgg_get teqb m t) (fun c v => held c v /\ tgg_m c (t_o t))) /\
    (forall n c v, fst (mgg_insert_at veqb teqb n c v m) =
      if 1 + gives_gg c <=? n then Some (fst (mgg_insert veqb teqb c v m)) else None) /\
    (forall c v, fst (mgg_insert veqb teqb c v m) = true <-> ~ held c v) /\
    (forall l t, answers (mgg_get teqb (mgg_union veqb teqb (snd (insert_all (mgg_insert veqb teqb) l mgg_default)) m) t)
      (fun c v => (held c v \/ (In (c, v) l /\ ~ used c)) /\ tgg_m c (t_o t))) /\
    (exists total, amount same_key_gg held used total /\
      forall n m1, fst (mgg_union_at veqb teqb n m1 m) = if total <=? n then Some (n - total) else None).
  Proof. destruct (at_gg veqb teqb VS TS) as (D & I & S & L & U & C & W & O & Z). exact (trial_left L U C W O Z sym_gg refl_gg). Qed.
  Lemma gg_trial_sound :   forall (e : trial (t_gg T) V) m,
  tried mgg_default (mgg_insert_at veqb teqb) (mgg_union veqb teqb) (mgg_union_at veqb teqb) mgg_order e m ->
  forall t v, In v (mgg_get teqb m t) ->
    exists c, finished (fun c => 1 + gives_gg c) e c v /\ tgg_m c (t_o t).
  Proof. destruct (at_gg veqb teqb VS TS) as (D & I & S & L & U & C & W & O & Z). exact (trial_sound L U C W O Z sym_gg (fun c => le_n_S _ _ (Nat.le_0_l _)) refl_gg). Qed.
  Lemma gg_trial_kept :   forall (e : trial (t_gg T) V) m,
  tried mgg_default (mgg_insert_at veqb teqb) (mgg_union veqb teqb) (mgg_union_at veqb teqb) mgg_order e m ->
  disjoint same_key_gg (fun c => 1 + gives_gg c) e ->
  forall t c v, safe (fun c => 1 + gives_gg c) e c v -> tgg_m c (t_o t) -> In v (mgg_get teqb m t).
  Proof. destruct (at_gg veqb teqb VS TS) as (D & I & S & L & U & C & W & O & Z). exact (trial_kept L U C W O Z sym_gg (fun c => le_n_S _ _ (Nat.le_0_l _)) refl_gg). Qed.
  Lemma gg_trial_whole :   forall (e : trial (t_gg T) V) m,
  tried mgg_default (mgg_insert_at veqb teqb) (mgg_union veqb teqb) (mgg_union_at veqb teqb) mgg_order e m ->
  disjoint same_key_gg (fun c => 1 + gives_gg c) e -> whole e -> forall t,
    answers (mgg_get teqb m t) (fun c v => finished (fun c => 1 + gives_gg c) e c v /\ tgg_m c (t_o t)).
  Proof. destruct (at_gg veqb teqb VS TS) as (D & I & S & L & U & C & W & O & Z). exact (trial_whole L U C W O Z sym_gg (fun c => le_n_S _ _ (Nat.le_0_l _)) refl_gg). Qed.

  Lemma sym_aa : forall x y : t_aa T, same_key_aa x y -> same_key_aa y x.
  Proof. intros [] []; cbn; auto; try (symmetry; assumption). Qed.
  Lemma refl_aa : forall x y : t_aa T, same_key_aa x y -> same_key_aa x x.
  Proof. intros [] []; cbn; auto; try tauto. Qed.
  Lemma aa_trial_left :   forall (e : trial (t_aa T) V) m,
  tried maa_default (maa_insert_at veqb teqb) (maa_union veqb teqb) (maa_union_at veqb teqb) maa_order e m ->
  exists held used, leaves same_key_aa (fun c => 1 + gives_aa c) rank_aa e held used /\
    (forall t, answers (maa_get teqb m t) (fun c v => held c v /\ taa_m c (t_s t) (t_p t) (t_o t))) /\
    (forall n c v, fst (maa_insert_at veqb teqb n c v m) =
      if 1 + gives_aa c <=? n then Some (fst (maa_insert veqb teqb c v m)) else None) /\
    (forall c v, fst (maa_insert veqb teqb c v m) = true <-> ~ held c v) /\
    (forall l t, answers (maa_get teqb (maa_union veqb teqb (snd (insert_all (maa_insert veqb teqb) l maa_default)) m) t)
      (fun c v => (held c v \/ (In (c, v) l /\ ~ used c)) /\ taa_m c (t_s t) (t_p t) (t_o t))) /\
    (exists total, amount same_key_aa held used total /\
      forall n m1, fst (maa_union_at veqb teqb n m1 m) = if total <=? n then Some (n - total) else None).
  Proof. destruct (at_aa veqb teqb VS TS) as (D & I & S & L & U & C & W & O & Z). exact (trial_left L U C W O Z sym_aa refl_aa). Qed.
  Lemma aa_trial_sound :   forall (e : trial (t_aa T) V) m,
  tried maa_default (maa_insert_at veqb teqb) (maa_union veqb teqb) (maa_union_at veqb teqb) maa_order e m ->
  forall t v, In v (maa_get teqb m t) ->
    exists c, finished (fun c => 1 + gives_aa c) e c v /\ taa_m c (t_s t) (t_p t) (t_o t).
  Proof. destruct (at_aa veqb teqb VS TS) as (D & I & S & L & U & C & W & O & Z). exact (trial_sound L U C W O Z sym_aa (fun c => le_n_S _ _ (Nat.le_0_l _)) refl_aa). Qed.
  Lemma aa_trial_kept :   forall (e : trial (t_aa T) V) m,
  tried maa_default (maa_insert_at veqb teqb) (maa_union veqb teqb) (maa_union_at veqb teqb) maa_order e m ->
  disjoint same_key_aa (fun c => 1 + gives_aa c) e ->
  forall t c v, safe (fun c => 1 + gives_aa c) e c v -> taa_m c (t_s t) (t_p t) (t_o t) -> In v (maa_get teqb m t).
  Proof. destruct (at_aa veqb teqb VS TS) as (D & I & S & L & U & C & W & O & Z). exact (trial_kept L U C W O Z sym_aa (fun c => le_n_S _ _ (Nat.le_0_l _)) refl_aa). Qed.
  Lemma aa_trial_whole :   forall (e : trial (t_aa T) V) m,
  tried maa_default (maa_insert_at veqb teqb) (maa_union veqb teqb) (maa_union_at veqb teqb) maa_order e m ->
  disjoint same_key_aa (fun c => 1 + gives_aa c) e -> whole e -> forall t,
    answers (maa_get teqb m t) (fun c v => finished (fun c => 1 + gives_aa c) e c v /\ taa_m c (t_s t) (t_p t) (t_o t)).
  Proof. destruct (at_aa veqb teqb VS TS) as (D & I & S & L & U & C & W & O & Z). exact (trial_whole L U C W O Z sym_aa (fun c => le_n_S _ _ (Nat.le_0_l _)) refl_aa). Qed.

  Lemma sym_ag : forall x y : t_ag T, same_key_ag x y -> same_key_ag y x.
  Proof. intros [] []; cbn; auto; try (symmetry; assumption). Qed.
  Lemma refl_ag : forall x y : t_ag T, same_key_ag x y -> same_key_ag x x.
  Proof. intros [] []; cbn; auto; try tauto. Qed.
  Lemma ag_trial_left :   forall (e : trial (t_ag T) V) m,
  tried mag_default (mag_insert_at veqb teqb) (mag_union veqb teqb) (mag_union_at veqb teqb) mag_order e m ->
  exists held used, leaves same_key_ag (fun c => 1 + gives_ag c) rank_ag e held used /\
    (forall t, answers (mag_get teqb m t) (fun c v => held c v /\ tag_m c (t_s t) (t_o t))) /\
    (forall n c v, fst (mag_insert_at veqb teqb n c v m) =
      if 1 + gives_ag c <=? n then Some (fst (mag_insert veqb teqb c v m)) else None) /\
    (forall c v, fst (mag_insert veqb teqb c v m) = true <-> ~ held c v) /\
    (forall l t, answers (mag_get teqb (mag_union veqb teqb (snd (insert_all (mag_insert veqb teqb) l mag_default)) m) t)
      (fun c v => (held c v \/ (In (c, v) l /\ ~ used c)) /\ tag_m c (t_s t) (t_o t))) /\
    (exists total, amount same_key_ag held used total /\
      forall n m1, fst (mag_union_at veqb teqb n m1 m) = if total <=? n then Some (n - total) else None).
  Proof. destruct (at_ag veqb teqb VS TS) as (D & I & S & L & U & C & W & O & Z). exact (trial_left L U C W O Z sym_ag refl_ag). Qed.
  Lemma ag_trial_sound :   forall (e : trial (t_ag T) V) m,
  tried mag_default (mag_insert_at veqb teqb) (mag_union veqb teqb) (mag_union_at veqb teqb) mag_order e m ->
  forall t v, In v (mag_get teqb m t) ->
    exists c, finished (fun c => 1 + gives_ag c) e c v /\ tag_m c (t_s t) (t_o t).
  Proof. destruct (at_ag veqb teqb VS TS) as (D & I & S & L & U & C & W & O & Z). exact (trial_sound L U C W O Z sym_ag (fun c => le_n_S _ _ (Nat.le_0_l _)) refl_ag). Qed.
  Lemma ag_trial_kept :   forall (e : trial (t_ag T) V) m,
  tried mag_default (mag_insert_at veqb teqb) (mag_union veqb teqb) (mag_union_at veqb teqb) mag_order e m ->
  disjoint same_key_ag (fun c => 1 + gives_ag c) e ->
  forall t c v, safe (fun c => 1 + gives_ag c) e c v -> tag_m c (t_s t) (t_o t) -> In v (mag_get teqb m t).
  Proof. destruct (at_ag veqb teqb VS TS) as (D & I & S & L & U & C & W & O & Z). exact (trial_kept L U C W O Z sym_ag (fun c => le_n_S _ _ (Nat.le_0_l _)) refl_ag). Qed.
  Lemma ag_trial_whole :   forall (e : trial (t_ag T) V) m,
  tried mag_default (mag_insert_at veqb teqb) (mag_union veqb teqb) (mag_union_at veqb teqb) mag_order e m ->
  disjoint same_key_ag (fun c => 1 + gives_ag c) e -> whole e -> forall t,
    answers (mag_get teqb m t) (fun c v => finished (fun c => 1 + gives_ag c) e c v /\ tag_m c (t_s t) (t_o t)).
  Proof. destruct (at_ag veqb teqb VS TS) as (D & I & S & L & U & C & W & O & Z). exact (trial_whole L U C W O Z sym_ag (fun c => le_n_S _ _ (Nat.le_0_l _)) refl_ag). Qed.

  Lemma sym_gs : forall x y : t_gs T, same_key_gs x y -> same_key_gs y x.
  Proof. intros [] []; cbn; auto; try (symmetry; assumption); apply sym_ga. Qed.
  Lemma refl_gs : forall x y : t_gs T, same_key_gs x y -> same_key_gs x x.
  Proof. intros [] []; cbn; auto; try tauto; apply refl_ga. Qed.
  Lemma gs_trial_left :   forall (e : trial (t_gs T) V) m,
  tried mgs_default (mgs_insert_at veqb teqb) (mgs_union veqb teqb) (mgs_union_at veqb teqb) mgs_order e m ->
  exists held used, leaves same_key_gs (fun c => 1 + gives_gs c) rank_gs e held used /\
    (forall t, answers (mgs_get teqb m t) (fun c v => held c v /\ tgs_m c (t_p t) (t_o t))) /\
    (forall n c v, fst (mgs_insert_at veqb teqb n c v m) =
      if 1 + gives_gs c <=? n then Some (fst (mgs_insert veqb teqb c v m)) else None) /\
    (forall c v, fst (mgs_insert veqb teqb c v m) = true <-> ~ held c v) /\
    (forall l t, answers (mgs_get teqb (mgs_union veqb teqb (snd (insert_all (mgs_insert veqb teqb) l mgs_default)) m) t)
      (fun c v => (held c v \/ (In (c, v) l /\ ~ used c)) /\ tgs_m c (t_p t) (t_o t))) /\
    (exists total, amount same_key_gs held used total /\
      forall n m1, fst (mgs_union_at veqb teqb n m1 m) = if total <=? n then Some (n - total) else None).
  Proof. destruct (at_gs veqb teqb VS TS) as (D & I & S & L & U & C & W & O & Z). exact (trial_left L U C W O Z sym_gs refl_gs). Qed.
  Lemma gs_trial_sound :   forall (e : trial (t_gs T) V) m,
  tried mgs_default (mgs_insert_at veqb teqb) (mgs_union veqb teqb) (mgs_union_at veqb teqb) mgs_order e m ->
  forall t v, In v (mgs_get teqb m t) ->
    exists c, finished (fun c => 1 + gives_gs c) e c v /\ tgs_m c (t_p t) (t_o t).
  Proof. destruct (at_gs veqb teqb VS TS) as (D & I & S & L & U & C & W & O & Z). exact (trial_sound L U C W O Z sym_gs (fun c => le_n_S _ _ (Nat.le_0_l _)) refl_gs). Qed.
  Lemma gs_trial_kept :   forall (e : trial (t_gs T) V) m,
  tried mgs_default (mgs_insert_at veqb teqb) (mgs_union veqb teqb) (mgs_union_at veqb teqb) mgs_order e m ->
  disjoint same_key_gs (fun c => 1 + gives_gs c) e ->
  forall t c v, safe (fun c => 1 + gives_gs c) e c v -> tgs_m c (t_p t) (t_o t) -> In v (mgs_get teqb m t).
  Proof. destruct (at_gs veqb teqb VS TS) as (D & I & S & L & U & C & W & O & Z). exact (trial_kept L U C W O Z sym_gs (fun c => le_n_S _ _ (Nat.le_0_l _)) refl_gs). Qed.
  Lemma gs_trial_whole :   forall (e : trial (t_gs T) V) m,
  tried mgs_default (mgs_insert_at veqb teqb) (mgs_union veqb teqb) (mgs_union_at veqb teqb) mgs_order e m ->
  disjoint same_key_gs (fun c => 1 + gives_gs c) e -> whole e -> forall t,
    answers (mgs_get teqb m t) (fun c v => finished (fun c => 1 + gives_gs c) e c v /\ tgs_m c (t_p t) (t_o t)).
  Proof. destruct (at_gs veqb teqb VS TS) as (D & I & S & L & U & C & W & O & Z). exact (trial_whole L U C W O Z sym_gs (fun c => le_n_S _ _ (Nat.le_0_l _)) refl_gs). Qed.

  Lemma sym_as : forall x y : t_as T, same_key_as x y -> same_key_as y x.
  Proof. intros [] []; cbn; auto; try (symmetry; assumption); first [apply sym_aa|apply sym_ag]. Qed.
  Lemma refl_as : forall x y : t_as T, same_key_as x y -> same_key_as x x.
  Proof. intros [] []; cbn; auto; try tauto; first [apply refl_aa|apply refl_ag]. Qed.
  Lemma as_trial_left :   forall (e : trial (t_as T) V) m,
  tried mas_default (mas_insert_at veqb teqb) (mas_union veqb teqb) (mas_union_at veqb teqb) mas_order e m ->
  exists held used, leaves same_key_as (fun c => 1 + gives_as c) rank_as e held used /\
    (forall t, answers (mas_get teqb m t) (fun c v => held c v /\ tas_m c (t_s t) (t_p t) (t_o t))) /\
    (forall n c v, fst (mas_insert_at veqb teqb n c v m) =
      if 1 + gives_as c <=? n then Some (fst (mas_insert veqb teqb c v m)) else None) /\
    (forall c v, fst (mas_insert veqb teqb c v m) = true <-> ~ held c v) /\
    (forall l t, answers (mas_get teqb (mas_union veqb teqb (snd (insert_all (mas_insert veqb teqb) l mas_default)) m) t)
      (fun c v => (held c v \/ (In (c, v) l /\ ~ used c)) /\ tas_m c (t_s t) (t_p t) (t_o t))) /\
    (exists total, amount same_key_as held used total /\
      forall n m1, fst (mas_union_at veqb teqb n m1 m) = if total <=? n then Some (n - total) else None).
  Proof. destruct (at_as veqb teqb VS TS) as (D & I & S & L & U & C & W & O & Z). exact (trial_left L U C W O Z sym_as refl_as). Qed.
  Lemma as_trial_sound :   forall (e : trial (t_as T) V) m,
  tried mas_default (mas_insert_at veqb teqb) (mas_union veqb teqb) (mas_union_at veqb teqb) mas_order e m ->
  forall t v, In v (mas_get teqb m t) ->
    exists c, finished (fun c => 1 + gives_as c) e c v /\ tas_m c (t_s t) (t_p t) (t_o t).
  Proof. destruct (at_as veqb teqb VS TS) as (D & I & S & L & U & C & W & O & Z). exact (trial_sound L U C W O Z sym_as (fun c => le_n_S _ _ (Nat.le_0_l _)) refl_as). Qed.
  Lemma as_trial_kept :   forall (e : trial (t_as T) V) m,
  tried mas_default (mas_insert_at veqb teqb) (mas_union veqb teqb) (mas_union_at veqb teqb) mas_order e m ->
  disjoint same_key_as (fun c => 1 + gives_as c) e ->
  forall t c v, safe (fun c => 1 + gives_as c) e c v -> tas_m c (t_s t) (t_p t) (t_o t) -> In v (mas_get teqb m t).
  Proof. destruct (at_as veqb teqb VS TS) as (D & I & S & L & U & C & W & O & Z). exact (trial_kept L U C W O Z sym_as (fun c => le_n_S _ _ (Nat.le_0_l _)) refl_as). Qed.
  Lemma as_trial_whole :   forall (e : trial (t_as T) V) m,
  tried mas_default (mas_insert_at veqb teqb) (mas_union veqb teqb) (mas_union_at veqb teqb) mas_order e m ->
  disjoint same_key_as (fun c => 1 + gives_as c) e -> whole e -> forall t,
    answers (mas_get teqb m t) (fun c v => finished (fun c => 1 + gives_as c) e c v /\ tas_m c (t_s t) (t_p t) (t_o t)).
  Proof. destruct (at_as veqb teqb VS TS) as (D & I & S & L & U & C & W & O & Z). exact (trial_whole L U C W O Z sym_as (fun c => le_n_S _ _ (Nat.le_0_l _)) refl_as). Qed.

End Maps.
