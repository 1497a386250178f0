(** Solving several triple patterns together. *)
From Coq Require Import List Bool.
Import ListNotations.
From Verif Require Import Base TripleModel TriplePatternModel QuadPatternModel SetSpec ContainerSpec PatternSpec
  BaseProofs PatternProofs IndexedSpec IndexedGraphModel IndexedRunProofs IndexedGraphRunProofs JoinModel JoinSpec.

Lemma mapM_map {A B} (f : A -> option B) l ys : mapM f l = Some ys -> map f l = map Some ys.
Proof.
  revert ys; induction l as [|x l IH]; intros ys H; cbn in H; [now inv H|].
  destruct (f x) eqn:E; [|discriminate]. destruct (mapM f l) eqn:E'; [|discriminate]. inv H.
  cbn. now rewrite E, (IH _ eq_refl).
Qed.

Section Join.
  Context {R X : Type} {xeqb : X -> X -> bool} (EX : forall x y, xeqb x y = true <-> x = y).
  Notation bound := (bound xeqb).
  Notation fill := (fill xeqb).
  Notation bind_one := (bind_one xeqb).
  Notation bind_all := (bind_all xeqb).
  Implicit Types (b : list (X * R)) (r : res_or_var R X) (p : triple_pattern R X) (a : X -> R).

  Lemma bound_none x b : bound x b = None <-> ~ In x (map fst b).
  Proof.
    induction b as [|[y v] b IH]; cbn; [tauto|]. destruct (xeqb y x) eqn:E.
    - apply EX in E as ->. split; [discriminate|tauto].
    - rewrite IH. split; [|tauto]. intros H [->|I]; [|tauto].
      now rewrite (proj2 (EX x x) eq_refl) in E.
  Qed.
  Lemma bound_in x v b : bound x b = Some v -> In (x, v) b.
  Proof.
    induction b as [|[y w] b IH]; cbn; [discriminate|]. destruct (xeqb y x) eqn:E; [|intros H; right; auto].
    apply EX in E as ->. intros H; inv H. now left.
  Qed.
  Lemma in_bound x v b : NoDup (map fst b) -> In (x, v) b -> bound x b = Some v.
  Proof.
    induction b as [|[y w] b IH]; cbn; [tauto|]. intros N H. inversion N as [|? ? I N']; subst.
    destruct H as [H|H].
    - inv H. now rewrite (proj2 (EX x x) eq_refl).
    - destruct (xeqb y x) eqn:E; [|auto]. apply EX in E as ->. exfalso; apply I. now apply (in_map fst) in H.
  Qed.
  Lemma bound_app x b e : bound x (b ++ e) = match bound x b with Some v => Some v | None => bound x e end.
  Proof. induction b as [|[y w] b IH]; cbn; [reflexivity|]. now destruct (xeqb y x). Qed.

  (** The value of a component. *)
  Definition value b r : option R := match r with Res v => Some v | Var x => bound x b end.
  Definition instance b p t : Prop :=
    value b (t_s p) = Some (t_s t) /\ value b (t_p p) = Some (t_p t) /\ value b (t_o p) = Some (t_o t).
  Lemma value_app b e r v : value b r = Some v -> value (b ++ e) r = Some v.
  Proof. destruct r; cbn; [auto|]. rewrite bound_app. now intros ->. Qed.
  Lemma instance_app b e p t : instance b p t -> instance (b ++ e) p t.
  Proof. intros (A & B & C). repeat split; now apply value_app. Qed.
  Lemma instance_fun b p t u : instance b p t -> instance b p u -> t = u.
  Proof.
    intros (A & B & C) (A' & B' & C'). destruct t, u; cbn in *. congruence.
  Qed.

  Lemma bind_one_ext r v b : exists e, bind_one r v b = b ++ e.
  Proof.
    destruct r as [w|x]; cbn; [exists []; now rewrite app_nil_r|].
    destruct (bound x b); [exists []; now rewrite app_nil_r|eauto].
  Qed.
  Lemma bind_all_ext p t b : exists e, bind_all p t b = b ++ e.
  Proof.
    unfold JoinModel.bind_all. destruct (bind_one_ext (t_s p) (t_s t) b) as [e1 ->].
    destruct (bind_one_ext (t_p p) (t_p t) (b ++ e1)) as [e2 ->].
    destruct (bind_one_ext (t_o p) (t_o t) ((b ++ e1) ++ e2)) as [e3 ->].
    exists (e1 ++ e2 ++ e3). now rewrite <- !app_assoc.
  Qed.

  Lemma bind_one_nodup r v b : NoDup (map fst b) -> NoDup (map fst (bind_one r v b)).
  Proof.
    destruct r as [w|x]; cbn; [auto|]. destruct (bound x b) eqn:E; [auto|]. intros N.
    rewrite map_app; cbn. apply bound_none in E.
    rewrite <- (rev_involutive (map fst b ++ [x])). apply NoDup_rev. rewrite rev_app_distr; cbn.
    constructor; [now rewrite <- in_rev|]. now apply NoDup_rev.
  Qed.
  (** The variables that have a value do not depend on the values. *)
  Lemma bind_one_vars r v w b b' : map fst b = map fst b' ->
    map fst (bind_one r v b) = map fst (bind_one r w b').
  Proof.
    intros E. destruct r as [u|x]; cbn; [exact E|].
    destruct (bound x b) eqn:B, (bound x b') eqn:B'; rewrite ?map_app; cbn; try congruence.
    - apply bound_none in B'. rewrite <- E in B'. apply bound_none in B'. congruence.
    - apply bound_none in B. rewrite E in B. apply bound_none in B. congruence.
  Qed.
  Lemma bind_one_in r v b x : In x (map fst (bind_one r v b)) <-> In x (map fst b) \/ r = Var x.
  Proof.
    destruct r as [w|y]; cbn; [intuition discriminate|]. destruct (bound y b) eqn:E.
    - split; [auto|]. intros [H|H]; [exact H|]. inv H.
      apply bound_in in E. now apply (in_map fst) in E.
    - rewrite map_app, in_app_iff; cbn. intuition; subst; auto. inv H0. auto.
  Qed.

  (** A triple that matches the filled pattern is the instance of the pattern
      afterwards. *)
  Definition from b b1 a : Prop := forall x v, bound x b1 = Some v -> bound x b = Some v \/ (bound x b = None /\ v = a x).
  Lemma bind_one_from b b1 a r v : from b b1 a -> (forall x w, bound x b = Some w -> bound x b1 = Some w) ->
    assigned a (fill b r) = v ->
    from b (bind_one r v b1) a /\ (forall x w, bound x b = Some w -> bound x (bind_one r v b1) = Some w) /\
    value (bind_one r v b1) r = Some v.
  Proof.
    intros F K E. destruct r as [w|x]; cbn in *; [subst; auto|].
    destruct (bound x b1) as [w|] eqn:B1.
    - split; [exact F|]. split; [exact K|]. rewrite B1. f_equal.
      destruct (F _ _ B1) as [B|[B ->]]; rewrite B in E; cbn in E; congruence.
    - assert (B : bound x b = None).
      { destruct (bound x b) eqn:B; [|reflexivity]. apply K in B. congruence. }
      rewrite B in E; cbn in E. subst v. split; [|split].
      + intros y w. rewrite bound_app. destruct (bound y b1) eqn:B2; [intros H; inv H; now apply F|].
        cbn. destruct (xeqb x y) eqn:Exy; [|discriminate]. intros H; inv H. apply EX in Exy as ->. now right.
      + intros y w H. rewrite bound_app. now rewrite (K _ _ H).
      + rewrite bound_app, B1. cbn. now rewrite (proj2 (EX x x) eq_refl).
  Qed.
  Lemma bind_one_value r v b r' w : value b r' = Some w -> value (bind_one r v b) r' = Some w.
  Proof. intros H. destruct (bind_one_ext r v b) as [e ->]. now apply value_app. Qed.
  Lemma bind_all_instance b p t : triple_instance (triple_map (fill b) p) t -> instance (bind_all p t b) p t.
  Proof.
    intros (a & A & B & C). cbn in A, B, C. unfold JoinModel.bind_all.
    destruct (bind_one_from b b a (t_s p) (t_s t)) as (F1 & K1 & V1); [intros x v; now left|auto|exact A|].
    destruct (bind_one_from b _ a (t_p p) (t_p t) F1 K1 B) as (F2 & K2 & V2).
    destruct (bind_one_from b _ a (t_o p) (t_o t) F2 K2 C) as (F3 & K3 & V3).
    repeat split; [now do 2 apply bind_one_value|now apply bind_one_value|exact V3].
  Qed.

  (** An assignment that gives the values so far. *)
  Lemma fill_assigned b a r : gives b a -> assigned a (fill b r) = assigned a r.
  Proof.
    intros G. destruct r as [v|x]; cbn; [reflexivity|]. destruct (bound x b) as [v|] eqn:E; [|reflexivity].
    cbn. symmetry. apply G. now apply bound_in.
  Qed.
  Lemma bind_one_gives b a r : gives b a -> gives (bind_one r (assigned a r) b) a.
  Proof.
    intros G. destruct r as [v|x]; cbn; [exact G|]. destruct (bound x b); [exact G|].
    intros y v H. apply in_app_iff in H as [H|[H|[]]]; [now apply G|]. now inv H.
  Qed.
  Lemma value_assigned b a r v : gives b a -> value b r = Some v -> assigned a r = v.
  Proof. intros G. destruct r as [w|x]; cbn; [congruence|]. intros H. apply G. now apply bound_in. Qed.

  Context {cmp : R -> R -> comparison}.
  Context (g : @igraph R) (spare : nat) (s : list (triple R)).
  Notation solve := (solve cmp xeqb g spare).
  (** What the queries answer. *)
  Context (Q : forall c, exists l, ig_pattern_matching cmp g spare c = Some l /\ NoDup l /\
                 forall t, In t l -> In t s /\ ct_matches c t).

  Lemma solve_sound ps : forall b, NoDup (map fst b) ->
    exists out, solve ps b = Some out /\ NoDup out /\
      forall b', In b' out -> NoDup (map fst b') /\ (exists e, b' = b ++ e) /\
        (forall x, In x (map fst b') <-> In x (map fst b) \/ variable_of ps x) /\
        forall p, In p ps -> exists t, In t s /\ instance b' p t.
  Proof.
    induction ps as [|p ps IH]; intros b N; cbn [JoinModel.solve].
    - exists [b]. split; [reflexivity|]. split; [repeat constructor; easy|]. intros b' [<-|[]].
      split; [exact N|]. split; [exists []; now rewrite app_nil_r|]. split; [|easy].
      intros x. split; [auto|]. intros [H|(p & [] & _)]; exact H.
    - destruct (Q (ct_from_pattern xeqb (triple_map (fill b) p))) as (l & -> & Nl & Ml).
      assert (NB : forall t, NoDup (map fst (bind_all p t b))).
      { intros t. unfold JoinModel.bind_all. now do 3 apply bind_one_nodup. }
      assert (Z : exists outs, mapM (fun t => solve ps (bind_all p t b)) l = Some outs).
      { clear - IH NB. induction l as [|t l IHl]; cbn; [eauto|].
        destruct (IH (bind_all p t b) (NB t)) as (o & -> & _). destruct IHl as (os & ->). eauto. }
      destruct Z as [outs Z]. rewrite Z. exists (concat outs). split; [reflexivity|].
      assert (Y : forall t, In t l -> exists o, solve ps (bind_all p t b) = Some o /\ NoDup o /\
        forall b', In b' o -> NoDup (map fst b') /\ (exists e, b' = bind_all p t b ++ e) /\
          (forall x, In x (map fst b') <-> In x (map fst (bind_all p t b)) \/ variable_of ps x) /\
          instance b' p t /\ forall q, In q ps -> exists u, In u s /\ instance b' q u).
      { intros t Ht. destruct (IH (bind_all p t b) (NB t)) as (o & Eo & No & Ho). exists o.
        split; [exact Eo|]. split; [exact No|]. intros b' Hb. destruct (Ho b' Hb) as (A & [e ->] & V & B).
        split; [exact A|]. split; [eauto|]. split; [exact V|]. split; [|exact B].
        apply instance_app, bind_all_instance. destruct (Ml t Ht) as [_ Mt].
        now apply (from_pattern_matches xeqb EX) in Mt. }
      apply mapM_map in Z.
      split.
      + clear IH Q. revert outs Z. induction l as [|t l IHl]; intros outs Z; destruct outs as [|o outs]; try discriminate Z.
        * constructor.
        * cbn in Z. inversion Z as [[Z1 Z2]]. cbn. inversion Nl as [|? ? It Nl']; subst.
          destruct (Y t (or_introl eq_refl)) as (o' & Eo & No & Ho). rewrite Eo in Z1. inv Z1.
          assert (R1 : NoDup (concat outs)).
          { apply IHl; auto; intros u Hu; [apply Ml; now right|apply Y; now right]. }
          assert (R2 : forall b', In b' o -> In b' (concat outs) -> False).
          { intros b' H1 H2. apply in_concat in H2 as (o2 & H2 & H3).
            apply (in_map Some) in H2. rewrite <- Z2 in H2. apply in_map_iff in H2 as (u & Eu & Hu).
            destruct (Y u (or_intror Hu)) as (o3 & Eo3 & _ & Ho3). rewrite Eo3 in Eu. inv Eu.
            destruct (Ho b' H1) as (_ & _ & _ & I1 & _), (Ho3 b' H3) as (_ & _ & _ & I2 & _).
            apply It. now rewrite (instance_fun _ _ _ _ I1 I2). }
          clear - No R1 R2. induction o as [|x o IHo]; cbn; [exact R1|]. inversion No; subst.
          constructor; [|apply IHo; [assumption|intros; eapply R2; [right|]; eassumption]].
          rewrite in_app_iff. intros [C|C]; [tauto|]. eapply R2; [now left|exact C].
      + intros b' Hb. apply in_concat in Hb as (o & Ho & Hb).
        apply (in_map Some) in Ho. rewrite <- Z in Ho. apply in_map_iff in Ho as (t & Et & Ht).
        destruct (Y t Ht) as (o' & Eo & _ & Ho'). rewrite Eo in Et. inv Et.
        destruct (Ho' b' Hb) as (A & [e He] & V & B & C). split; [exact A|].
        split; [destruct (bind_all_ext p t b) as [e' E']; exists (e' ++ e); rewrite He, E'; now rewrite app_assoc|].
        split.
        * intros x. rewrite V. unfold JoinModel.bind_all. rewrite !bind_one_in. unfold variable_of. cbn. split.
          -- intros [[[[H|H]|H]|H]|(q & Hq & H)]; try tauto.
             ++ right. exists p. split; [now left|]. unfold triple_comps. cbn. auto.
             ++ right. exists p. split; [now left|]. unfold triple_comps. cbn. auto.
             ++ right. exists p. split; [now left|]. unfold triple_comps. cbn. auto.
             ++ right. exists q. split; [now right|exact H].
          -- intros [H|(q & [<-|Hq] & H)]; [tauto| |right; eauto].
             unfold triple_comps in H. cbn in H. intuition.
        * intros q [<-|Hq]; [|auto]. exists t. split; [now apply Ml|exact B].
  Qed.

  (** The variables of all solutions are in the same order. *)
  Lemma solve_vars ps : forall b1 b2 o1 o2 b1' b2', map fst b1 = map fst b2 ->
    solve ps b1 = Some o1 -> solve ps b2 = Some o2 -> In b1' o1 -> In b2' o2 -> map fst b1' = map fst b2'.
  Proof.
    induction ps as [|p ps IH]; intros b1 b2 o1 o2 b1' b2' E H1 H2 I1 I2; cbn [JoinModel.solve] in *.
    - inv H1. inv H2. destruct I1 as [<-|[]], I2 as [<-|[]]. exact E.
    - destruct (Q (ct_from_pattern xeqb (triple_map (fill b1) p))) as (l1 & E1 & _). rewrite E1 in H1.
      destruct (Q (ct_from_pattern xeqb (triple_map (fill b2) p))) as (l2 & E2 & _). rewrite E2 in H2.
      destruct (mapM _ l1) as [os1|] eqn:M1; [|discriminate]. destruct (mapM _ l2) as [os2|] eqn:M2; [|discriminate].
      inv H1. inv H2. apply in_concat in I1 as (x1 & X1 & I1). apply in_concat in I2 as (x2 & X2 & I2).
      apply mapM_map in M1, M2. apply (in_map Some) in X1, X2. rewrite <- M1 in X1. rewrite <- M2 in X2.
      apply in_map_iff in X1 as (t1 & T1 & _), X2 as (t2 & T2 & _).
      apply (IH (bind_all p t1 b1) (bind_all p t2 b2) x1 x2 b1' b2'); try assumption.
      unfold JoinModel.bind_all. now repeat apply bind_one_vars.
  Qed.

  Context (ok : ctp R -> Prop).
  Context (C : forall c t, ok c -> In t s -> ct_matches c t ->
                 forall l, ig_pattern_matching cmp g spare c = Some l -> In t l).

  Lemma anchored_weak (k k' : X -> Prop) ps : (forall x, k x -> k' x) -> anchored k ps -> anchored (R:=R) k' ps.
  Proof.
    revert k k'. induction ps as [|p ps IH]; intros k k' H; cbn; [auto|]. intros [A B]. split.
    - destruct (t_s p); auto.
    - revert B. apply IH. intros x [Hx|Hx]; [left; auto|now right].
  Qed.

  Lemma solve_complete ps a : forall b out,
    (forall c, ok c) \/ ((forall c, t_subject_given c -> ok c) /\ anchored (fun x => In x (map fst b)) ps) ->
    gives b a -> solves s ps a -> solve ps b = Some out ->
    exists b', In b' out /\ gives b' a.
  Proof.
    induction ps as [|p ps IH]; intros b out K G S H; cbn [JoinModel.solve] in H.
    - inv H. exists b. split; [now left|exact G].
    - set (t := Triple (assigned a (t_s p)) (assigned a (t_p p)) (assigned a (t_o p))).
      assert (Hs : In t s) by (apply S; now left).
      assert (Hm : ct_matches (ct_from_pattern xeqb (triple_map (fill b) p)) t).
      { apply (from_pattern_matches xeqb EX). exists a. cbn. rewrite !(fill_assigned b a) by exact G. auto. }
      assert (Hk : ok (ct_from_pattern xeqb (triple_map (fill b) p))).
      { destruct K as [K|[K A]]; [apply K|]. apply K. cbn in A. destruct A as [A _].
        unfold ct_from_pattern. cbn. destruct (t_s p) as [v|x]; cbn; [exact Logic.I|].
        destruct (bound x b) eqn:B; [exact Logic.I|]. apply bound_none in B. tauto. }
      destruct (ig_pattern_matching _ _ _ _) as [l|] eqn:E; [|discriminate].
      pose proof (C _ _ Hk Hs Hm _ E) as Hl.
      destruct (mapM _ l) as [outs|] eqn:M; [|discriminate]. inv H. apply mapM_map in M.
      assert (Z : In (solve ps (bind_all p t b)) (map Some outs)).
      { rewrite <- M. apply in_map_iff. eauto. }
      apply in_map_iff in Z as (o & Eo & Ho).
      destruct (IH (bind_all p t b) o) as (b' & Hb & Gb); [| |intros q Hq; apply S; now right|now symmetry|].
      + destruct K as [K|[K A]]; [now left|right]. split; [exact K|]. cbn in A. destruct A as [_ A].
        revert A. apply anchored_weak. intros x Hx. unfold JoinModel.bind_all. rewrite !bind_one_in.
        destruct Hx as [Hx|Hx]; [tauto|]. unfold triple_comps in Hx. cbn in Hx. intuition.
      + unfold JoinModel.bind_all. now repeat apply bind_one_gives.
      + exists b'. split; [|exact Gb]. apply in_concat. eauto.
  Qed.
End Join.

Section Programs.
  Context {R X : Type} {cmp : R -> R -> comparison} (L : ord_laws cmp).
  Context {xeqb : X -> X -> bool} (EX : forall x y, xeqb x y = true <-> x = y).
  Notation contents ops := (spec_set (triple_cmp cmp) ops).

  (** Every solution found is one, on the variables of the patterns, and is found once. *)
  Lemma join_sound keep ops0 ops g spare (ps : list (triple_pattern R X)) :
    ig_reached cmp keep ops0 ops g ->
    exists out vs, solve cmp xeqb g spare ps [] = Some out /\ NoDup out /\ NoDup vs /\
      (out <> [] -> forall x, In x vs <-> variable_of ps x) /\
      forall b, In b out -> map fst b = vs /\
        forall a, gives b a -> solves (contents (ops0 ++ ops)) ps a.
  Proof.
    intros H.
    assert (Q : forall c, exists l, ig_pattern_matching cmp g spare c = Some l /\ NoDup l /\
                 forall t, In t l -> In t (contents (ops0 ++ ops)) /\ ct_matches c t).
    { intros c. exact (ig_pattern_sound L keep ops0 ops g spare c H). }
    destruct (solve_sound EX g spare _ Q ps [] ltac:(constructor)) as (out & E & N & S).
    exists out. destruct out as [|b0 out].
    - exists []. split; [exact E|]. split; [exact N|]. split; [constructor|]. split; [congruence|easy].
    - exists (map fst b0). split; [exact E|]. split; [exact N|].
      destruct (S b0 (or_introl eq_refl)) as (N0 & _ & V & _). split; [exact N0|].
      split; [intros _ x; rewrite V; cbn; tauto|]. intros b Hb. split.
      + exact (solve_vars EX g spare _ Q ps [] [] _ _ b b0 eq_refl E E Hb (or_introl eq_refl)).
      + intros a G p Hp. destruct (S b Hb) as (_ & _ & _ & I). destruct (I p Hp) as (t & Ht & A & B & C).
        rewrite (value_assigned EX _ _ _ _ G A), (value_assigned EX _ _ _ _ G B), (value_assigned EX _ _ _ _ G C).
        now destruct t.
  Qed.

  Lemma join_complete keep ops0 ops g spare (ps : list (triple_pattern R X)) :
    ig_reached cmp keep ops0 ops g ->
    known_log (triple_cmp cmp) triple_comps any_resource [] (set_log (triple_cmp cmp) [] (ops0 ++ ops)) ->
    anchored (fun _ => False) ps \/ vacancies 0 (set_log (triple_cmp cmp) [] (ops0 ++ ops)) = 0 ->
    exists out, solve cmp xeqb g spare ps [] = Some out /\
      forall a, solves (contents (ops0 ++ ops)) ps a <-> exists b, In b out /\ gives b a.
  Proof.
    intros H K V. destruct (join_sound keep ops0 ops g spare ps H) as (out & vs & E & _ & _ & _ & S).
    exists out. split; [exact E|]. intros a. split.
    - intros A.
      set (ok := fun c : ctp R => t_subject_given c \/ vacancies 0 (set_log (triple_cmp cmp) [] (ops0 ++ ops)) = 0).
      assert (C : forall c t, ok c -> In t (contents (ops0 ++ ops)) -> ct_matches c t ->
                 forall l, ig_pattern_matching cmp g spare c = Some l -> In t l).
      { intros c t Hk Hs Hm l El.
        destruct (ig_pattern_exact L keep ops0 ops g spare c H K Hk) as (l' & E' & _ & M').
        rewrite El in E'. inv E'. apply M'. now split. }
      apply (solve_complete EX g spare (contents (ops0 ++ ops)) ok C ps a [] out); [|easy|exact A|exact E].
      destruct V as [V|V]; [right|left; intros c; now right]. split; [intros c Hc; now left|exact V].
    - intros (b & Hb & G). now apply (S b Hb).
  Qed.
End Programs.

(** ... and not otherwise: the order of the patterns then matters. *)
Lemma join_missed :
  exists ops g (ps : list (triple_pattern nat nat)) a, forall keep spare,
    ig_reached Nat.compare keep [] ops (g keep) /\
    known_log (triple_cmp Nat.compare) triple_comps any_resource [] (set_log (triple_cmp Nat.compare) [] ops) /\
    solves (spec_set (triple_cmp Nat.compare) ops) ps a /\
    solve Nat.compare Nat.eqb (g keep) spare ps [] = Some [] /\
    exists b, solve Nat.compare Nat.eqb (g keep) spare (rev ps) [] = Some [b] /\ gives b a.
Proof.
  set (ops := [Insert (Triple 1 2 3); Insert (Triple 4 5 6); Insert (Triple 6 5 4); Remove (Triple 1 2 3)]).
  exists ops, (gafter ops), [Triple (Var 0) (Var 1) (Var 2); Triple (Res 4) (Var 1) (Var 0)],
    (fun x => match x with 0 => 6 | 1 => 5 | _ => 4 end).
  intros keep spare; split; [greach|]; split; [known|].
  split; [intros p [<-|[<-|[]]]; vm_compute; auto|].
  split; [destruct keep, spare; vm_compute; reflexivity|].
  exists [(1, 5); (0, 6); (2, 4)]. split; [destruct keep, spare; vm_compute; reflexivity|].
  intros x v [H|[H|[H|[]]]]; now inv H.
Qed.
