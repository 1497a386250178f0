(** Maps built by insertions and unions: what they hold, from the laws of
    PatternMapProofs.v and PatternDebugProofs.v. *)
From Coq Require Import List Bool NArith Permutation.
Import ListNotations.
From Verif Require Import Base TextModel WriteModel WriteSpec TripleModel TriplePatternModel PatternSpec PatternMapModel
  PatternMapSpec PatternMapProofs DebugModel DebugSpec PatternDebugModel PatternDebugSpec PatternDebugProofs
  PatternGrowthModel PatternGrowthSpec.

Section Growth.
  Context {V T P M : Type} {mt : P -> triple T -> Prop} {d : M} {i : P -> V -> M -> bool * M}
    {g : M -> triple T -> list V} {D : M -> P -> V -> Prop} {inv : M -> Prop} {u : M -> M -> M}
    {S : M -> P -> Prop} {sk : P -> P -> Prop}.
  Context (L : @laws V T P M mt d i g D inv) (U : ulaws d i u D inv S sk)
    (trans : forall x y z, sk x y -> sk y z -> sk x z).

  Lemma growth_holds e : inv (grow d i u e) /\ (forall c v, D (grow d i u e) c v <-> kept sk e c v) /\
    (forall c, S (grow d i u e) c <-> exists c' v, kept sk e c' v /\ sk c' c).
  Proof.
    induction e as [|e IH c v|a [IA [DA SA]] b [IB [DB SB]]]; cbn.
    - split; [exact (l_dinv _ _ _ _ _ _ L)|]. split.
      + intros c v. pose proof (l_dempty _ _ _ _ _ _ L c v). tauto.
      + intros c. pose proof (u_d _ _ _ _ _ _ _ U c). split; [tauto|]. intros (c' & v & [] & _).
    - destruct IH as (I & E & F). split; [exact (l_inv _ _ _ _ _ _ L _ _ _ I)|]. split.
      + intros c' v'. rewrite (l_D _ _ _ _ _ _ L) by exact I. rewrite E. tauto.
      + intros c'. rewrite (u_ins _ _ _ _ _ _ _ U), F. split.
        * intros [(x & w & A & B)|H]; [exists x, w; tauto|]. exists c, v. tauto.
        * intros (x & w & [[-> ->]|A] & B); [now right|]. left. now exists x, w.
    - split; [exact (u_inv _ _ _ _ _ _ _ U _ _ IA IB)|]. split.
      + intros c v. rewrite (u_D _ _ _ _ _ _ _ U) by assumption. rewrite DA, DB, SB. tauto.
      + intros c. rewrite (u_S _ _ _ _ _ _ _ U) by assumption. rewrite SA, SB. split.
        * intros [(x & w & A & B)|(x & w & A & B)]; [|exists x, w; tauto].
          destruct (u_dec _ _ _ _ _ _ _ U (grow d i u b) x) as [Q|Q]; rewrite SB in Q.
          -- destruct Q as (y & z & C & E). exists y, z. split; [now left|]. exact (trans _ _ _ E B).
          -- exists x, w. tauto.
        * intros (x & w & [A|[A _]] & B); [right|left]; now exists x, w.
  Qed.

  Lemma growth_yields e t : yields (g (grow d i u e) t) (fun c v => kept sk e c v /\ mt c t).
  Proof.
    destruct (growth_holds e) as (I & E & _).
    eapply yields_ext; [apply (l_get _ _ _ _ _ _ L); exact I|]. intros c v. cbn. now rewrite E.
  Qed.
  Lemma growth_get e t : answers (g (grow d i u e) t) (fun c v => kept sk e c v /\ mt c t).
  Proof. apply yields_answers, growth_yields. Qed.
  Lemma growth_insert e c v : fst (i c v (grow d i u e)) = true <-> ~ kept sk e c v.
  Proof. destruct (growth_holds e) as (I & E & _). rewrite <- E. exact (l_new _ _ _ _ _ _ L _ _ _ I). Qed.

  Lemma kept_inserted (e : growth P V) : forall c v, kept sk e c v -> inserted e c v.
  Proof.
    induction e as [|e IH c' v'|a IA b IB]; cbn; intros c v.
    - tauto.
    - intros [H|H]; [left; exact H|right; apply IH; exact H].
    - intros [H|[H _]]; [right; apply IB; exact H|left; apply IA; exact H].
  Qed.
  Lemma kept_apart (e : growth P V) : apart sk e -> forall c v, kept sk e c v <-> inserted e c v.
  Proof.
    induction e as [|e IH c v|a IA b IB]; cbn; [tauto|intros A c' v'; now rewrite IH|].
    intros (A & B & H) c v. specialize (IA A). specialize (IB B). rewrite IA, IB. split; [tauto|].
    intros [X|X]; [right|now left]. split; [exact X|]. intros (c' & v' & Y & Z). apply IB in Y.
    exact (H _ _ _ _ X Y Z).
  Qed.
  Lemma growth_apart e t : apart sk e -> answers (g (grow d i u e) t) (fun c v => inserted e c v /\ mt c t).
  Proof.
    intros A. apply yields_answers. eapply yields_ext; [apply growth_yields|]. intros c v. cbn.
    now rewrite (kept_apart _ A).
  Qed.

  Lemma answers_same (l l' : list V) (R R' : P -> V -> Prop) : answers l R -> answers l' R' ->
    (forall c v, R c v <-> R' c v) -> Permutation l l'.
  Proof.
    intros (ps & N & I & E) (ps' & N' & I' & E') H. rewrite E, E'. apply Permutation_map.
    apply NoDup_Permutation; [exact N|exact N'|]. intros [c v]. now rewrite I, I'.
  Qed.
  Lemma growth_same e e' t : (forall c v, kept sk e c v <-> kept sk e' c v) ->
    Permutation (g (grow d i u e) t) (g (grow d i u e') t).
  Proof.
    intros H. eapply answers_same; [apply growth_get|apply growth_get|]. intros c v. cbn. now rewrite H.
  Qed.

  Lemma used_dec (e : growth P V) c : (exists c' v, kept sk e c' v /\ sk c' c) \/ ~ (exists c' v, kept sk e c' v /\ sk c' c).
  Proof.
    destruct (growth_holds e) as (_ & _ & E). rewrite <- E. apply (u_dec _ _ _ _ _ _ _ U).
  Qed.
  Lemma used_united (a b : growth P V) c : (exists c' v, kept sk (United a b) c' v /\ sk c' c) <->
    (exists c' v, kept sk a c' v /\ sk c' c) \/ (exists c' v, kept sk b c' v /\ sk c' c).
  Proof.
    destruct (growth_holds (United a b)) as (_ & _ & E). rewrite <- E. cbn.
    destruct (growth_holds a) as (IA & _ & EA). destruct (growth_holds b) as (IB & _ & EB).
    rewrite (u_S _ _ _ _ _ _ _ U) by assumption. now rewrite EA, EB.
  Qed.

  Lemma growth_algebra a b c t :
    let get e := g (grow d i u e) t in
    Permutation (get (United (United a b) c)) (get (United a (United b c))) /\
    Permutation (get (United a Fresh)) (get a) /\ Permutation (get (United Fresh a)) (get a) /\
    Permutation (get (United a a)) (get a) /\
    Permutation (get (United (United a b) a)) (get (United b a)).
  Proof.
    intros get. repeat apply conj; apply growth_same; intros x v.
    - change (kept sk (United a (United b c)) x v) with
        (kept sk (United b c) x v \/ kept sk a x v /\ ~ exists c' v', kept sk (United b c) c' v' /\ sk c' x).
      rewrite used_united. cbn. tauto.
    - cbn. split; [tauto|]. intros H. right. split; [exact H|]. intros (c' & v' & [] & _).
    - cbn. tauto.
    - cbn. tauto.
    - cbn. tauto.
  Qed.
End Growth.

Section Texts.
  Context {V P M : Type} {d : M} {i : P -> V -> M -> bool * M} {u : M -> M -> M} {sk : P -> P -> Prop}
    (rep : (P -> V -> Prop) -> M -> Prop).
  Context (rd : rep (fun _ _ => False) d)
    (ri : forall R R' c v m, rep R m -> (forall c' v', R' c' v' <-> c' = c /\ v' = v \/ R c' v') ->
      rep R' (snd (i c v m)))
    (ru : forall R Q R' m n, rep R m -> rep Q n ->
      (forall c v, R' c v <-> Q c v \/ R c v /\ ~ exists c' v', Q c' v' /\ sk c' c) -> rep R' (u m n)).
  Lemma growth_rep e : rep (kept sk e) (grow d i u e).
  Proof.
    induction e as [|e IH c v|a IA b IB]; cbn [grow].
    - exact rd.
    - apply (ri _ _ _ _ _ IH). reflexivity.
    - apply (ru _ _ _ _ _ IA IB). reflexivity.
  Qed.
End Texts.

Lemma ga_sk_trans {T} (x y z : t_ga T) : same_key_ga x y -> same_key_ga y z -> same_key_ga x z.
Proof. destruct x, y, z; cbn; try tauto; congruence. Qed.
Lemma ga_growth_get : forall V T (veqb : V -> V -> bool) (teqb : T -> T -> bool),
  (forall x y, veqb x y = true <-> x = y) -> (forall x y, teqb x y = true <-> x = y) ->
  forall (e : growth (t_ga T) V) (t : triple T),
  answers (mga_get teqb (grow mga_default (mga_insert veqb teqb) (mga_union veqb teqb) e) t)
    (fun c v => kept same_key_ga e c v /\ tga_m c (t_p t) (t_o t)).
Proof. intros V T veqb teqb VS TS. destruct (laws_ga veqb teqb VS TS) as (D & I & S & L & U). exact (growth_get L U ga_sk_trans). Qed.
Lemma ga_growth_insert : forall V T (veqb : V -> V -> bool) (teqb : T -> T -> bool),
  (forall x y, veqb x y = true <-> x = y) -> (forall x y, teqb x y = true <-> x = y) ->
  forall (e : growth (t_ga T) V) c v,
  fst (mga_insert veqb teqb c v (grow mga_default (mga_insert veqb teqb) (mga_union veqb teqb) e)) = true <-> ~ kept same_key_ga e c v.
Proof. intros V T veqb teqb VS TS. destruct (laws_ga veqb teqb VS TS) as (D & I & S & L & U). exact (growth_insert L U ga_sk_trans). Qed.
Lemma ga_growth_apart : forall V T (veqb : V -> V -> bool) (teqb : T -> T -> bool),
  (forall x y, veqb x y = true <-> x = y) -> (forall x y, teqb x y = true <-> x = y) ->
  forall (e : growth (t_ga T) V) (t : triple T), apart same_key_ga e ->
  answers (mga_get teqb (grow mga_default (mga_insert veqb teqb) (mga_union veqb teqb) e) t)
    (fun c v => inserted e c v /\ tga_m c (t_p t) (t_o t)).
Proof. intros V T veqb teqb VS TS. destruct (laws_ga veqb teqb VS TS) as (D & I & S & L & U). exact (growth_apart L U ga_sk_trans). Qed.
Lemma ga_growth_algebra : forall V T (veqb : V -> V -> bool) (teqb : T -> T -> bool),
  (forall x y, veqb x y = true <-> x = y) -> (forall x y, teqb x y = true <-> x = y) ->
  forall (a b c : growth (t_ga T) V) (t : triple T),
  let grown := grow mga_default (mga_insert veqb teqb) (mga_union veqb teqb) in
  let get e := mga_get teqb (grown e) t in
  Permutation (get (United (United a b) c)) (get (United a (United b c))) /\
  Permutation (get (United a Fresh)) (get a) /\ Permutation (get (United Fresh a)) (get a) /\
  Permutation (get (United a a)) (get a) /\
  Permutation (get (United (United a b) a)) (get (United b a)).
Proof. intros V T veqb teqb VS TS. destruct (laws_ga veqb teqb VS TS) as (D & I & S & L & U). exact (growth_algebra L U ga_sk_trans). Qed.
Lemma ga_growth_text : forall V T (veqb : V -> V -> bool) (teqb : T -> T -> bool),
  (forall x y, veqb x y = true <-> x = y) -> (forall x y, teqb x y = true <-> x = y) ->
  forall (dv : V -> dval) (dk : T -> dval) (sv : bool -> V -> text) (sk : bool -> T -> text),
  (forall v, shows (dv v) (fun p => sv p v)) -> (forall k, shows (dk k) (fun p => sk p k)) ->
  forall e : growth (t_ga T) V,
  let m := grow mga_default (mga_insert veqb teqb) (mga_union veqb teqb) e in
  (forall m', mga_order m m' ->
    exists t, ga_shown (leaf sv) (leaf sk) (kept same_key_ga e) t /\ shows (d_mga dv dk m') (fun p => shown p t)) /\
  (forall t, ga_shown (leaf sv) (leaf sk) (kept same_key_ga e) t ->
    exists m', mga_order m m' /\ shows (d_mga dv dk m') (fun p => shown p t)).
Proof.
  intros V T veqb teqb VS TS dv dk sv sk SV SK e m.
  pose (K := kind_ga teqb TS dv dk sv sk (fun _ => True)).
  assert (B : rep_ga (kept same_key_ga e) m) by
    exact (growth_rep _ (rep_nothing dv dk sv sk _ K) (ins_ga veqb teqb VS TS dv dk sv sk (fun _ => True))
      (uni_ga veqb teqb VS TS dv dk sv sk (fun _ => True)) e).
  split; [intros m' O; exact (kind_text dv dk sv sk _ K _ _ _ (conj SV SK) B O)|
          intros t X; exact (kind_any dv dk sv sk _ K _ _ _ (conj SV SK) B X)].
Qed.

Lemma gg_sk_trans {T} (x y z : t_gg T) : same_key_gg x y -> same_key_gg y z -> same_key_gg x z.
Proof. destruct x, y, z; cbn; try tauto; congruence. Qed.
Lemma gg_growth_get : forall V T (veqb : V -> V -> bool) (teqb : T -> T -> bool),
  (forall x y, veqb x y = true <-> x = y) -> (forall x y, teqb x y = true <-> x = y) ->
  forall (e : growth (t_gg T) V) (t : triple T),
  answers (mgg_get teqb (grow mgg_default (mgg_insert veqb teqb) (mgg_union veqb teqb) e) t)
    (fun c v => kept same_key_gg e c v /\ tgg_m c (t_o t)).
Proof. intros V T veqb teqb VS TS. destruct (laws_gg veqb teqb VS TS) as (D & I & S & L & U). exact (growth_get L U gg_sk_trans). Qed.
Lemma gg_growth_insert : forall V T (veqb : V -> V -> bool) (teqb : T -> T -> bool),
  (forall x y, veqb x y = true <-> x = y) -> (forall x y, teqb x y = true <-> x = y) ->
  forall (e : growth (t_gg T) V) c v,
  fst (mgg_insert veqb teqb c v (grow mgg_default (mgg_insert veqb teqb) (mgg_union veqb teqb) e)) = true <-> ~ kept same_key_gg e c v.
Proof. intros V T veqb teqb VS TS. destruct (laws_gg veqb teqb VS TS) as (D & I & S & L & U). exact (growth_insert L U gg_sk_trans). Qed.
Lemma gg_growth_apart : forall V T (veqb : V -> V -> bool) (teqb : T -> T -> bool),
  (forall x y, veqb x y = true <-> x = y) -> (forall x y, teqb x y = true <-> x = y) ->
  forall (e : growth (t_gg T) V) (t : triple T), apart same_key_gg e ->
  answers (mgg_get teqb (grow mgg_default (mgg_insert veqb teqb) (mgg_union veqb teqb) e) t)
    (fun c v => inserted e c v /\ tgg_m c (t_o t)).
Proof. intros V T veqb teqb VS TS. destruct (laws_gg veqb teqb VS TS) as (D & I & S & L & U). exact (growth_apart L U gg_sk_trans). Qed.
Lemma gg_growth_algebra : forall V T (veqb : V -> V -> bool) (teqb : T -> T -> bool),
  (forall x y, veqb x y = true <-> x = y) -> (forall x y, teqb x y = true <-> x = y) ->
  forall (a b c : growth (t_gg T) V) (t : triple T),
  let grown := grow mgg_default (mgg_insert veqb teqb) (mgg_union veqb teqb) in
  let get e := mgg_get teqb (grown e) t in
  Permutation (get (United (United a b) c)) (get (United a (United b c))) /\
  Permutation (get (United a Fresh)) (get a) /\ Permutation (get (United Fresh a)) (get a) /\
  Permutation (get (United a a)) (get a) /\
  Permutation (get (United (United a b) a)) (get (United b a)).
Proof. intros V T veqb teqb VS TS. destruct (laws_gg veqb teqb VS TS) as (D & I & S & L & U). exact (growth_algebra L U gg_sk_trans). Qed.
Lemma gg_growth_text : forall V T (veqb : V -> V -> bool) (teqb : T -> T -> bool),
  (forall x y, veqb x y = true <-> x = y) -> (forall x y, teqb x y = true <-> x = y) ->
  forall (dv : V -> dval) (dk : T -> dval) (sv : bool -> V -> text) (sk : bool -> T -> text),
  (forall v, shows (dv v) (fun p => sv p v)) -> (forall k, shows (dk k) (fun p => sk p k)) ->
  forall e : growth (t_gg T) V,
  let m := grow mgg_default (mgg_insert veqb teqb) (mgg_union veqb teqb) e in
  (forall m', mgg_order m m' ->
    exists t, gg_shown (leaf sv) (leaf sk) (kept same_key_gg e) t /\ shows (d_mgg dv dk m') (fun p => shown p t)) /\
  (forall t, gg_shown (leaf sv) (leaf sk) (kept same_key_gg e) t ->
    exists m', mgg_order m m' /\ shows (d_mgg dv dk m') (fun p => shown p t)).
Proof.
  intros V T veqb teqb VS TS dv dk sv sk SV SK e m.
  pose (K := kind_gg teqb TS dv dk sv sk (fun _ => True)).
  assert (B : rep_gg (kept same_key_gg e) m) by
    exact (growth_rep _ (rep_nothing dv dk sv sk _ K) (ins_gg veqb teqb VS TS dv dk sv sk (fun _ => True))
      (uni_gg veqb teqb VS TS dv dk sv sk (fun _ => True)) e).
  split; [intros m' O; exact (kind_text dv dk sv sk _ K _ _ _ (conj SV SK) B O)|
          intros t X; exact (kind_any dv dk sv sk _ K _ _ _ (conj SV SK) B X)].
Qed.

Lemma aa_sk_trans {T} (x y z : t_aa T) : same_key_aa x y -> same_key_aa y z -> same_key_aa x z.
Proof. destruct x, y, z; cbn; try tauto; congruence. Qed.
Lemma aa_growth_get : forall V T (veqb : V -> V -> bool) (teqb : T -> T -> bool),
  (forall x y, veqb x y = true <-> x = y) -> (forall x y, teqb x y = true <-> x = y) ->
  forall (e : growth (t_aa T) V) (t : triple T),
  answers (maa_get teqb (grow maa_default (maa_insert veqb teqb) (maa_union veqb teqb) e) t)
    (fun c v => kept same_key_aa e c v /\ taa_m c (t_s t) (t_p t) (t_o t)).
Proof. intros V T veqb teqb VS TS. destruct (laws_aa veqb teqb VS TS) as (D & I & S & L & U). exact (growth_get L U aa_sk_trans). Qed.
Lemma aa_growth_insert : forall V T (veqb : V -> V -> bool) (teqb : T -> T -> bool),
  (forall x y, veqb x y = true <-> x = y) -> (forall x y, teqb x y = true <-> x = y) ->
  forall (e : growth (t_aa T) V) c v,
  fst (maa_insert veqb teqb c v (grow maa_default (maa_insert veqb teqb) (maa_union veqb teqb) e)) = true <-> ~ kept same_key_aa e c v.
Proof. intros V T veqb teqb VS TS. destruct (laws_aa veqb teqb VS TS) as (D & I & S & L & U). exact (growth_insert L U aa_sk_trans). Qed.
Lemma aa_growth_apart : forall V T (veqb : V -> V -> bool) (teqb : T -> T -> bool),
  (forall x y, veqb x y = true <-> x = y) -> (forall x y, teqb x y = true <-> x = y) ->
  forall (e : growth (t_aa T) V) (t : triple T), apart same_key_aa e ->
  answers (maa_get teqb (grow maa_default (maa_insert veqb teqb) (maa_union veqb teqb) e) t)
    (fun c v => inserted e c v /\ taa_m c (t_s t) (t_p t) (t_o t)).
Proof. intros V T veqb teqb VS TS. destruct (laws_aa veqb teqb VS TS) as (D & I & S & L & U). exact (growth_apart L U aa_sk_trans). Qed.
Lemma aa_growth_algebra : forall V T (veqb : V -> V -> bool) (teqb : T -> T -> bool),
  (forall x y, veqb x y = true <-> x = y) -> (forall x y, teqb x y = true <-> x = y) ->
  forall (a b c : growth (t_aa T) V) (t : triple T),
  let grown := grow maa_default (maa_insert veqb teqb) (maa_union veqb teqb) in
  let get e := maa_get teqb (grown e) t in
  Permutation (get (United (United a b) c)) (get (United a (United b c))) /\
  Permutation (get (United a Fresh)) (get a) /\ Permutation (get (United Fresh a)) (get a) /\
  Permutation (get (United a a)) (get a) /\
  Permutation (get (United (United a b) a)) (get (United b a)).
Proof. intros V T veqb teqb VS TS. destruct (laws_aa veqb teqb VS TS) as (D & I & S & L & U). exact (growth_algebra L U aa_sk_trans). Qed.
Lemma aa_growth_text : forall V T (veqb : V -> V -> bool) (teqb : T -> T -> bool),
  (forall x y, veqb x y = true <-> x = y) -> (forall x y, teqb x y = true <-> x = y) ->
  forall (dv : V -> dval) (dk : T -> dval) (sv : bool -> V -> text) (sk : bool -> T -> text),
  (forall v, shows (dv v) (fun p => sv p v)) -> (forall k, shows (dk k) (fun p => sk p k)) ->
  forall e : growth (t_aa T) V,
  let m := grow maa_default (maa_insert veqb teqb) (maa_union veqb teqb) e in
  (forall m', maa_order m m' ->
    exists t, aa_shown (leaf sv) (leaf sk) (kept same_key_aa e) t /\ shows (d_maa dv dk m') (fun p => shown p t)) /\
  (forall t, aa_shown (leaf sv) (leaf sk) (kept same_key_aa e) t ->
    exists m', maa_order m m' /\ shows (d_maa dv dk m') (fun p => shown p t)).
Proof.
  intros V T veqb teqb VS TS dv dk sv sk SV SK e m.
  pose (K := kind_aa teqb TS dv dk sv sk (fun _ => True)).
  assert (B : rep_aa (kept same_key_aa e) m) by
    exact (growth_rep _ (rep_nothing dv dk sv sk _ K) (ins_aa veqb teqb VS TS dv dk sv sk (fun _ => True))
      (uni_aa veqb teqb VS TS dv dk sv sk (fun _ => True)) e).
  split; [intros m' O; exact (kind_text dv dk sv sk _ K _ _ _ (conj SV SK) B O)|
          intros t X; exact (kind_any dv dk sv sk _ K _ _ _ (conj SV SK) B X)].
Qed.

Lemma ag_sk_trans {T} (x y z : t_ag T) : same_key_ag x y -> same_key_ag y z -> same_key_ag x z.
Proof. destruct x, y, z; cbn; try tauto; congruence. Qed.
Lemma ag_growth_get : forall V T (veqb : V -> V -> bool) (teqb : T -> T -> bool),
  (forall x y, veqb x y = true <-> x = y) -> (forall x y, teqb x y = true <-> x = y) ->
  forall (e : growth (t_ag T) V) (t : triple T),
  answers (mag_get teqb (grow mag_default (mag_insert veqb teqb) (mag_union veqb teqb) e) t)
    (fun c v => kept same_key_ag e c v /\ tag_m c (t_s t) (t_o t)).
Proof. intros V T veqb teqb VS TS. destruct (laws_ag veqb teqb VS TS) as (D & I & S & L & U). exact (growth_get L U ag_sk_trans). Qed.
Lemma ag_growth_insert : forall V T (veqb : V -> V -> bool) (teqb : T -> T -> bool),
  (forall x y, veqb x y = true <-> x = y) -> (forall x y, teqb x y = true <-> x = y) ->
  forall (e : growth (t_ag T) V) c v,
  fst (mag_insert veqb teqb c v (grow mag_default (mag_insert veqb teqb) (mag_union veqb teqb) e)) = true <-> ~ kept same_key_ag e c v.
Proof. intros V T veqb teqb VS TS. destruct (laws_ag veqb teqb VS TS) as (D & I & S & L & U). exact (growth_insert L U ag_sk_trans). Qed.
Lemma ag_growth_apart : forall V T (veqb : V -> V -> bool) (teqb : T -> T -> bool),
  (forall x y, veqb x y = true <-> x = y) -> (forall x y, teqb x y = true <-> x = y) ->
  forall (e : growth (t_ag T) V) (t : triple T), apart same_key_ag e ->
  answers (mag_get teqb (grow mag_default (mag_insert veqb teqb) (mag_union veqb teqb) e) t)
    (fun c v => inserted e c v /\ tag_m c (t_s t) (t_o t)).
Proof. intros V T veqb teqb VS TS. destruct (laws_ag veqb teqb VS TS) as (D & I & S & L & U). exact (growth_apart L U ag_sk_trans). Qed.
Lemma ag_growth_algebra : forall V T (veqb : V -> V -> bool) (teqb : T -> T -> bool),
  (forall x y, veqb x y = true <-> x = y) -> (forall x y, teqb x y = true <-> x = y) ->
  forall (a b c : growth (t_ag T) V) (t : triple T),
  let grown := grow mag_default (mag_insert veqb teqb) (mag_union veqb teqb) in
  let get e := mag_get teqb (grown e) t in
  Permutation (get (United (United a b) c)) (get (United a (United b c))) /\
  Permutation (get (United a Fresh)) (get a) /\ Permutation (get (United Fresh a)) (get a) /\
  Permutation (get (United a a)) (get a) /\
  Permutation (get (United (United a b) a)) (get (United b a)).
Proof. intros V T veqb teqb VS TS. destruct (laws_ag veqb teqb VS TS) as (D & I & S & L & U). exact (growth_algebra L U ag_sk_trans). Qed.
Lemma ag_growth_text : forall V T (veqb : V -> V -> bool) (teqb : T -> T -> bool),
  (forall x y, veqb x y = true <-> x = y) -> (forall x y, teqb x y = true <-> x = y) ->
  forall (dv : V -> dval) (dk : T -> dval) (sv : bool -> V -> text) (sk : bool -> T -> text),
  (forall v, shows (dv v) (fun p => sv p v)) -> (forall k, shows (dk k) (fun p => sk p k)) ->
  forall e : growth (t_ag T) V,
  let m := grow mag_default (mag_insert veqb teqb) (mag_union veqb teqb) e in
  (forall m', mag_order m m' ->
    exists t, ag_shown (leaf sv) (leaf sk) (kept same_key_ag e) t /\ shows (d_mag dv dk m') (fun p => shown p t)) /\
  (forall t, ag_shown (leaf sv) (leaf sk) (kept same_key_ag e) t ->
    exists m', mag_order m m' /\ shows (d_mag dv dk m') (fun p => shown p t)).
Proof.
  intros V T veqb teqb VS TS dv dk sv sk SV SK e m.
  pose (K := kind_ag teqb TS dv dk sv sk (fun _ => True)).
  assert (B : rep_ag (kept same_key_ag e) m) by
    exact (growth_rep _ (rep_nothing dv dk sv sk _ K) (ins_ag veqb teqb VS TS dv dk sv sk (fun _ => True))
      (uni_ag veqb teqb VS TS dv dk sv sk (fun _ => True)) e).
  split; [intros m' O; exact (kind_text dv dk sv sk _ K _ _ _ (conj SV SK) B O)|
          intros t X; exact (kind_any dv dk sv sk _ K _ _ _ (conj SV SK) B X)].
Qed.

Lemma gs_sk_trans {T} (x y z : t_gs T) : same_key_gs x y -> same_key_gs y z -> same_key_gs x z.
Proof.
  destruct x as [r|k r], y as [r0|k0 r0], z as [r1|k1 r1]; cbn; try tauto; try congruence; apply ga_sk_trans.
Qed.
Lemma gs_growth_get : forall V T (veqb : V -> V -> bool) (teqb : T -> T -> bool),
  (forall x y, veqb x y = true <-> x = y) -> (forall x y, teqb x y = true <-> x = y) ->
  forall (e : growth (t_gs T) V) (t : triple T),
  answers (mgs_get teqb (grow mgs_default (mgs_insert veqb teqb) (mgs_union veqb teqb) e) t)
    (fun c v => kept same_key_gs e c v /\ tgs_m c (t_p t) (t_o t)).
Proof. intros V T veqb teqb VS TS. destruct (laws_gs veqb teqb VS TS) as (D & I & S & L & U). exact (growth_get L U gs_sk_trans). Qed.
Lemma gs_growth_insert : forall V T (veqb : V -> V -> bool) (teqb : T -> T -> bool),
  (forall x y, veqb x y = true <-> x = y) -> (forall x y, teqb x y = true <-> x = y) ->
  forall (e : growth (t_gs T) V) c v,
  fst (mgs_insert veqb teqb c v (grow mgs_default (mgs_insert veqb teqb) (mgs_union veqb teqb) e)) = true <-> ~ kept same_key_gs e c v.
Proof. intros V T veqb teqb VS TS. destruct (laws_gs veqb teqb VS TS) as (D & I & S & L & U). exact (growth_insert L U gs_sk_trans). Qed.
Lemma gs_growth_apart : forall V T (veqb : V -> V -> bool) (teqb : T -> T -> bool),
  (forall x y, veqb x y = true <-> x = y) -> (forall x y, teqb x y = true <-> x = y) ->
  forall (e : growth (t_gs T) V) (t : triple T), apart same_key_gs e ->
  answers (mgs_get teqb (grow mgs_default (mgs_insert veqb teqb) (mgs_union veqb teqb) e) t)
    (fun c v => inserted e c v /\ tgs_m c (t_p t) (t_o t)).
Proof. intros V T veqb teqb VS TS. destruct (laws_gs veqb teqb VS TS) as (D & I & S & L & U). exact (growth_apart L U gs_sk_trans). Qed.
Lemma gs_growth_algebra : forall V T (veqb : V -> V -> bool) (teqb : T -> T -> bool),
  (forall x y, veqb x y = true <-> x = y) -> (forall x y, teqb x y = true <-> x = y) ->
  forall (a b c : growth (t_gs T) V) (t : triple T),
  let grown := grow mgs_default (mgs_insert veqb teqb) (mgs_union veqb teqb) in
  let get e := mgs_get teqb (grown e) t in
  Permutation (get (United (United a b) c)) (get (United a (United b c))) /\
  Permutation (get (United a Fresh)) (get a) /\ Permutation (get (United Fresh a)) (get a) /\
  Permutation (get (United a a)) (get a) /\
  Permutation (get (United (United a b) a)) (get (United b a)).
Proof. intros V T veqb teqb VS TS. destruct (laws_gs veqb teqb VS TS) as (D & I & S & L & U). exact (growth_algebra L U gs_sk_trans). Qed.
Lemma gs_growth_text : forall V T (veqb : V -> V -> bool) (teqb : T -> T -> bool),
  (forall x y, veqb x y = true <-> x = y) -> (forall x y, teqb x y = true <-> x = y) ->
  forall (dv : V -> dval) (dk : T -> dval) (sv : bool -> V -> text) (sk : bool -> T -> text),
  (forall v, shows (dv v) (fun p => sv p v)) -> (forall k, shows (dk k) (fun p => sk p k)) ->
  forall e : growth (t_gs T) V,
  let m := grow mgs_default (mgs_insert veqb teqb) (mgs_union veqb teqb) e in
  (forall m', mgs_order m m' ->
    exists t, gs_shown (leaf sv) (leaf sk) (kept same_key_gs e) t /\ shows (d_mgs dv dk m') (fun p => shown p t)) /\
  (forall t, gs_shown (leaf sv) (leaf sk) (kept same_key_gs e) t ->
    exists m', mgs_order m m' /\ shows (d_mgs dv dk m') (fun p => shown p t)).
Proof.
  intros V T veqb teqb VS TS dv dk sv sk SV SK e m.
  pose (K := kind_gs teqb TS dv dk sv sk (fun _ => True)).
  assert (B : rep_gs (kept same_key_gs e) m) by
    exact (growth_rep _ (rep_nothing dv dk sv sk _ K) (ins_gs veqb teqb VS TS dv dk sv sk (fun _ => True))
      (uni_gs veqb teqb VS TS dv dk sv sk (fun _ => True)) e).
  split; [intros m' O; exact (kind_text dv dk sv sk _ K _ _ _ (conj SV SK) B O)|
          intros t X; exact (kind_any dv dk sv sk _ K _ _ _ (conj SV SK) B X)].
Qed.

Lemma as_sk_trans {T} (x y z : t_as T) : same_key_as x y -> same_key_as y z -> same_key_as x z.
Proof.
  destruct x as [r|r|k r], y as [r0|r0|k0 r0], z as [r1|r1|k1 r1]; cbn; try tauto; try congruence; first [apply aa_sk_trans | apply ag_sk_trans].
Qed.
Lemma as_growth_get : forall V T (veqb : V -> V -> bool) (teqb : T -> T -> bool),
  (forall x y, veqb x y = true <-> x = y) -> (forall x y, teqb x y = true <-> x = y) ->
  forall (e : growth (t_as T) V) (t : triple T),
  answers (mas_get teqb (grow mas_default (mas_insert veqb teqb) (mas_union veqb teqb) e) t)
    (fun c v => kept same_key_as e c v /\ tas_m c (t_s t) (t_p t) (t_o t)).
Proof. intros V T veqb teqb VS TS. destruct (laws_as veqb teqb VS TS) as (D & I & S & L & U). exact (growth_get L U as_sk_trans). Qed.
Lemma as_growth_insert : forall V T (veqb : V -> V -> bool) (teqb : T -> T -> bool),
  (forall x y, veqb x y = true <-> x = y) -> (forall x y, teqb x y = true <-> x = y) ->
  forall (e : growth (t_as T) V) c v,
  fst (mas_insert veqb teqb c v (grow mas_default (mas_insert veqb teqb) (mas_union veqb teqb) e)) = true <-> ~ kept same_key_as e c v.
Proof. intros V T veqb teqb VS TS. destruct (laws_as veqb teqb VS TS) as (D & I & S & L & U). exact (growth_insert L U as_sk_trans). Qed.
Lemma as_growth_apart : forall V T (veqb : V -> V -> bool) (teqb : T -> T -> bool),
  (forall x y, veqb x y = true <-> x = y) -> (forall x y, teqb x y = true <-> x = y) ->
  forall (e : growth (t_as T) V) (t : triple T), apart same_key_as e ->
  answers (mas_get teqb (grow mas_default (mas_insert veqb teqb) (mas_union veqb teqb) e) t)
    (fun c v => inserted e c v /\ tas_m c (t_s t) (t_p t) (t_o t)).
Proof. intros V T veqb teqb VS TS. destruct (laws_as veqb teqb VS TS) as (D & I & S & L & U). exact (growth_apart L U as_sk_trans). Qed.
Lemma as_growth_algebra : forall V T (veqb : V -> V -> bool) (teqb : T -> T -> bool),
  (forall x y, veqb x y = true <-> x = y) -> (forall x y, teqb x y = true <-> x = y) ->
  forall (a b c : growth (t_as T) V) (t : triple T),
  let grown := grow mas_default (mas_insert veqb teqb) (mas_union veqb teqb) in
  let get e := mas_get teqb (grown e) t in
  Permutation (get (United (United a b) c)) (get (United a (United b c))) /\
  Permutation (get (United a Fresh)) (get a) /\ Permutation (get (United Fresh a)) (get a) /\
  Permutation (get (United a a)) (get a) /\
  Permutation (get (United (United a b) a)) (get (United b a)).
Proof. intros V T veqb teqb VS TS. destruct (laws_as veqb teqb VS TS) as (D & I & S & L & U). exact (growth_algebra L U as_sk_trans). Qed.
Lemma as_growth_text : forall V T (veqb : V -> V -> bool) (teqb : T -> T -> bool),
  (forall x y, veqb x y = true <-> x = y) -> (forall x y, teqb x y = true <-> x = y) ->
  forall (dv : V -> dval) (dk : T -> dval) (sv : bool -> V -> text) (sk : bool -> T -> text),
  (forall v, shows (dv v) (fun p => sv p v)) -> (forall k, shows (dk k) (fun p => sk p k)) ->
  forall e : growth (t_as T) V,
  let m := grow mas_default (mas_insert veqb teqb) (mas_union veqb teqb) e in
  (forall m', mas_order m m' ->
    exists t, as_shown (leaf sv) (leaf sk) (kept same_key_as e) t /\ shows (d_mas dv dk m') (fun p => shown p t)) /\
  (forall t, as_shown (leaf sv) (leaf sk) (kept same_key_as e) t ->
    exists m', mas_order m m' /\ shows (d_mas dv dk m') (fun p => shown p t)).
Proof.
  intros V T veqb teqb VS TS dv dk sv sk SV SK e m.
  pose (K := kind_as teqb TS dv dk sv sk (fun _ => True)).
  assert (B : rep_as (kept same_key_as e) m) by
    exact (growth_rep _ (rep_nothing dv dk sv sk _ K) (ins_as veqb teqb VS TS dv dk sv sk (fun _ => True))
      (uni_as veqb teqb VS TS dv dk sv sk (fun _ => True)) e).
  split; [intros m' O; exact (kind_text dv dk sv sk _ K _ _ _ (conj SV SK) B O)|
          intros t X; exact (kind_any dv dk sv sk _ K _ _ _ (conj SV SK) B X)].
Qed.

