(** An operation is not interrupted if the user's code does not panic early enough, whatever happened
    to the dataset before. *)
From Coq Require Import List Bool Arith Lia.
Import ListNotations.
From Verif Require Import Base TripleModel TriplePatternModel QuadPatternModel SetSpec ContainerSpec
  IndexedSpec Machine BaseProofs BTreeGraphModel IndexedDatasetModel IterModel CrashModel CrashSpec CrashAgree
  ICrashModel ICrashAgree ExtractCrashModel ExtractCrashSpec ExtractCrashProofs
  SurviveSpec SurviveModel SurviveProofs DropModel DropIProofs DropAllModel DropAllProofs.

Definition hit {X} (y : option X) : bool := match y with None => true | Some _ => false end.

Section Calm.
  Context {R : Type} (cmp : R -> R -> comparison) (keep : bool).

  Lemma x_calls_calm cap j : forall st, exists k, forall n, k <= n ->
    existsb hit (fst (fst (x_calls cmp cap (repeat n j) st))) = false.
  Proof.
    induction j as [|j IH]; intros [d m]; [exists 0; reflexivity|].
    destruct (agrees_extract_call (cmp:=cmp) cap d m) as (k1 & H1).
    destruct (extract_call cmp cap (d, m)) as [[y st]|].
    - destruct (IH st) as (k2 & H2); exists (k1 + k2); intros n Hn; cbn [repeat x_calls].
      destruct (H1 n) as [_ A]; rewrite A by lia; specialize (H2 n ltac:(lia)).
      destruct (x_calls cmp cap (repeat n j) st) as [[ys f] s]; cbn in *; exact H2.
    - exists k1; intros n Hn; cbn [repeat x_calls]; destruct (H1 n) as [_ A].
      destruct (A Hn) as (s & ->); reflexivity.
  Qed.

  Lemma x_step_calm d o : exists k, forall n, k <= n ->
    interrupted (fst (x_step cmp keep d (within n o))) = false.
  Proof.
    destruct o as [o|g|c j spare]; cbn [within x_step].
    - destruct (agrees_id_step cmp keep d o) as (k & Hk); exists k; intros n Hn; destruct (Hk n) as [_ A].
      specialize (A Hn); destruct (id_set_step cmp keep d o) as [[x d']|]; [rewrite A|destruct A as (s & ->)]; reflexivity.
    - destruct (agrees_id_remove_graph cmp keep d g) as (k & Hk); exists k; intros n Hn; destruct (Hk n) as [_ A].
      specialize (A Hn); destruct (id_remove_graph cmp keep d g) as [[x d']|]; [rewrite A|destruct A as (s & ->)];
        [|reflexivity]; destruct x as [b|]; [|reflexivity]; destruct (bg_iter b); reflexivity.
    - destruct (steady_pm_new (cmp:=cmp) d c) as (k1 & H1); destruct (pm_new cmp d c) as [m|].
      + destruct (x_calls_calm (capacity d spare) j (d, m)) as (k2 & H2); exists (k1 + k2); intros n Hn.
        rewrite H1; replace (n <? k1) with false by (symmetry; apply Nat.ltb_ge; lia).
        specialize (H2 n ltac:(lia)); destruct (x_calls cmp (capacity d spare) (repeat n j) (d, m)) as [[ys f] [d' m']].
        cbn [fst] in *; destruct f; [reflexivity|exact H2].
      + exists k1; intros n Hn; rewrite H1; replace (n <? k1) with false by (symmetry; apply Nat.ltb_ge; lia); reflexivity.
  Qed.

  Lemma d_x_calls_calm cap j : forall st, exists k, forall n, k <= n ->
    existsb hit (fst (fst (dx_calls cmp cap (repeat n j) st))) = false.
  Proof.
    induction j as [|j IH]; intros [d m]; [exists 0; reflexivity|].
    destruct (agrees_d_extract_call cmp cap d m) as (k1 & H1).
    destruct (extract_call cmp cap (d, m)) as [[y st]|].
    - destruct (IH st) as (k2 & H2); exists (k1 + k2); intros n Hn; cbn [repeat dx_calls].
      destruct (H1 n) as [_ A]; rewrite A by lia; specialize (H2 n ltac:(lia)).
      destruct (dx_calls cmp cap (repeat n j) st) as [[ys f] s]; cbn in *; exact H2.
    - exists k1; intros n Hn; cbn [repeat dx_calls]; destruct (H1 n) as [_ A].
      destruct (A Hn) as (s & ->); reflexivity.
  Qed.

  Lemma d_x_step_calm d o : exists k, forall n, k <= n ->
    interrupted (fst (dx_step cmp keep d (within n o))) = false.
  Proof.
    destruct o as [o|g|c j spare]; cbn [within dx_step].
    - destruct (agrees_d_id_step cmp keep d o) as (k & Hk); exists k; intros n Hn; destruct (Hk n) as [_ A].
      specialize (A Hn); destruct (id_set_step cmp keep d o) as [[x d']|]; [rewrite A|destruct A as (s & ->)]; reflexivity.
    - destruct (agrees_d_id_remove_graph cmp keep d g) as (k & Hk); exists k; intros n Hn; destruct (Hk n) as [_ A].
      specialize (A Hn); destruct (id_remove_graph cmp keep d g) as [[x d']|]; [rewrite A|destruct A as (s & ->)];
        [|reflexivity]; destruct x as [b|]; [|reflexivity]; destruct (bg_iter b); reflexivity.
    - destruct (steady_pm_new (cmp:=cmp) d c) as (k1 & H1); destruct (pm_new cmp d c) as [m|].
      + destruct (d_x_calls_calm (capacity d spare) j (d, m)) as (k2 & H2); exists (k1 + k2); intros n Hn.
        rewrite H1; replace (n <? k1) with false by (symmetry; apply Nat.ltb_ge; lia).
        specialize (H2 n ltac:(lia)); destruct (dx_calls cmp (capacity d spare) (repeat n j) (d, m)) as [[ys f] [d' m']].
        cbn [fst] in *; destruct f; [reflexivity|exact H2].
      + exists k1; intros n Hn; rewrite H1; replace (n <? k1) with false by (symmetry; apply Nat.ltb_ge; lia); reflexivity.
  Qed.
End Calm.

Section Recover.
  Context {R : Type} (cmp : R -> R -> comparison) (L : ord_laws cmp) (keep : bool).

  Definition fails_as (o : xop R) (y : xout R) : Prop := y = XFailed -> exists g n, o = XRemoveGraph g n.

  Lemma survives_fails st clean s lost l ys s' lost' :
    survives cmp st clean s lost l ys s' lost' -> Forall2 fails_as l ys.
  Proof.
    induction 1; constructor; try assumption; intros E; try discriminate E; eauto.
  Qed.

  Lemma run_last {D} (step : D -> xop R -> xout R * D) run0
    (H : forall d l, run0 d l = match l with
       | [] => ([], d)
       | o :: l => let '(y, d) := step d o in let '(ys, d) := run0 d l in (y :: ys, d)
       end) l : forall d ys d1 o y d2,
    run0 d l = (ys, d1) -> step d1 o = (y, d2) -> run0 d (l ++ [o]) = (ys ++ [y], d2).
  Proof.
    induction l as [|a l IH]; intros d ys d1 o y d2 E Es; rewrite H in E |- *; cbn [app] in *.
    - inversion E; subst; rewrite Es, H; reflexivity.
    - destruct (step d a) as [z e]; destruct (run0 e l) as [zs e1] eqn:El; inversion E; subst.
      rewrite (IH _ _ _ _ _ _ El Es); reflexivity.
  Qed.

  Lemma forall2_last {A B} (P : A -> B -> Prop) l : forall m a b, Forall2 P (l ++ [a]) (m ++ [b]) -> P a b.
  Proof.
    induction l as [|x l IH]; intros [|y m] a b H; inversion H as [|? ? ? ? H1 H2]; subst; cbn in *.
    - assumption.
    - inversion H2 as [E1 E2|]; destruct m; discriminate.
    - inversion H2 as [E1 E2|]; destruct l; discriminate.
    - eauto.
  Qed.

  Lemma x_recovers ops0 ops xs d0 l ys d :
    id_reached cmp keep ops0 ops xs d0 -> x_run cmp keep d0 l = (ys, d) ->
    forall o, exists k, forall n, k <= n -> exists y d', x_step cmp keep d (within n o) = (y, d') /\
      interrupted y = false /\ (y = XFailed -> exists g, o = IRemoveGraph g).
  Proof.
    intros Hd E o; destruct (x_step_calm cmp keep d o) as (k & Hk); exists k; intros n Hn; specialize (Hk n Hn).
    destruct (x_step cmp keep d (within n o)) as [y d'] eqn:Es; exists y, d'; split; [reflexivity|]; split; [exact Hk|].
    destruct (x_reads L keep _ _ _ d0 (l ++ [within n o]) Hd) as (zs & e & s & lost & Er & Sv & _).
    rewrite (run_last (x_step cmp keep) (x_run cmp keep) ltac:(intros e0 [|? ?]; reflexivity) _ _ _ _ _ _ _ E Es) in Er.
    inversion Er; subst; apply survives_fails, forall2_last in Sv.
    intros F; destruct (Sv F) as (g & n' & Eo); destruct o; try discriminate Eo; eauto.
  Qed.

  Lemma d_x_recovers ops0 ops xs d0 l ys d :
    id_reached cmp keep ops0 ops xs d0 -> dx_run cmp keep d0 l = (ys, d) ->
    forall o, exists k, forall n, k <= n -> exists y d', dx_step cmp keep d (within n o) = (y, d') /\
      interrupted y = false /\ (y = XFailed -> exists g, o = IRemoveGraph g).
  Proof.
    intros Hd E o; destruct (d_x_step_calm cmp keep d o) as (k & Hk); exists k; intros n Hn; specialize (Hk n Hn).
    destruct (dx_step cmp keep d (within n o)) as [y d'] eqn:Es; exists y, d'; split; [reflexivity|]; split; [exact Hk|].
    destruct (d_x_reads L keep _ _ _ d0 (l ++ [within n o]) Hd) as (zs & e & s & lost & Er & Sv & _).
    rewrite (run_last (dx_step cmp keep) (dx_run cmp keep) ltac:(intros e0 [|? ?]; reflexivity) _ _ _ _ _ _ _ E Es) in Er.
    inversion Er; subst; apply survives_fails, forall2_last in Sv.
    intros F; destruct (Sv F) as (g & n' & Eo); destruct o; try discriminate Eo; eauto.
  Qed.
End Recover.
