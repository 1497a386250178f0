(** Proofs about the calls made by the mapping functions. *)
From Coq Require Import List.
Import ListNotations.
From Verif Require Import Base TripleModel TriplePatternModel QuadPatternModel MapCallModel MapCallSpec.

Section MapCalls.
  Context {T U V St : Type}.

  Ltac calls :=
    repeat match goal with
           | |- context [let (_, _) := ?f ?x ?st in _] =>
               let u := fresh "u" in let s := fresh "st" in destruct (f x st) as [u s]
           end.

  Lemma triple_mapm_feed (f : T -> St -> U * St) t st t' st' :
    triple_mapm f t st = (t', st') -> feed f (triple_comps t) st = (triple_comps t', st').
  Proof.
    unfold triple_mapm; cbn; calls. intros H; inversion H; reflexivity.
  Qed.

  Lemma quad_mapm_feed (f : T -> St -> U * St) q st q' st' :
    quad_mapm f q st = (q', st') ->
    feed f (quad_comps q) st = (quad_comps q', st') /\ (q_g q' = None <-> q_g q = None).
  Proof.
    unfold quad_mapm, option_mapm, quad_comps; destruct (q_g q); cbn; calls;
      intros H; inversion H; split; try reflexivity; split; discriminate || reflexivity.
  Qed.

  Ltac shapes c :=
    destruct c as [[[[| | | |g]|[| | |g]|[| | |g]|o [| | |g]]|[[| | |g]|[| |g]|o [| |g]]|p [[| | |g]|[| |g]|o [| |g]]]
                  |s [[[| | |g]|[| |g]|o [| |g]]|p [[| |g]|o [|g]]]];
    try destruct g.

  Lemma cq_mapm_feed (f : T -> St -> U * St) c st c' st' :
    cq_mapm f c st = (c', st') ->
    feed f (givens c) st = (givens c', st') /\ kinds c' = kinds c.
  Proof.
    shapes c; cbn; calls; intros H; injection H; intros <- <-; split; reflexivity.
  Qed.

  Lemma cq_map2m_feed (f : T -> St -> U * V * St) c st cu cv st' :
    cq_map2m f c st = (cu, cv, st') ->
    exists l, feed f (givens c) st = (l, st') /\
              givens cu = map fst l /\ givens cv = map snd l /\ kinds cu = kinds c /\ kinds cv = kinds c.
  Proof.
    shapes c; cbn;
    repeat match goal with
           | |- context [f ?x ?st] => destruct (f x st) as [[? ?] ?]; cbn
           end;
    intros H; injection H; intros <- <- <-;
    (eexists; split; [reflexivity|]; repeat split).
  Qed.
End MapCalls.

Lemma pattern_determined {T} (c c' : cqp T) :
  givens c = givens c' -> kinds c = kinds c' -> c = c'.
Proof.
  destruct c as [[[[| | | |g]|[| | |g]|[| | |g]|o [| | |g]]|[[| | |g]|[| |g]|o [| |g]]|p [[| | |g]|[| |g]|o [| |g]]]
                  |s [[[| | |g]|[| |g]|o [| |g]]|p [[| |g]|o [|g]]]]; try destruct g;
  (destruct c' as [[[[| | | |g']|[| | |g']|[| | |g']|o' [| | |g']]|[[| | |g']|[| |g']|o' [| |g']]|p' [[| | |g']|[| |g']|o' [| |g']]]
                  |s' [[[| | |g']|[| |g']|o' [| |g']]|p' [[| |g']|o' [|g']]]]; try destruct g';
   cbn; intros G K; try discriminate K; congruence).
Qed.

Section Corollaries.
  Context {T U V : Type}.

  (** A function without state. *)
  Lemma feed_pure {A B St} (h : A -> B) l (st : St) :
    feed (fun x s => (h x, s)) l st = (map h l, st).
  Proof. induction l as [|x l IH]; [reflexivity|]. cbn [feed]; rewrite IH; reflexivity. Qed.

  (** A function recording its arguments. *)
  Lemma feed_log {A B} (h : A -> B) l (st : list A) :
    feed (fun x s => (h x, s ++ [x])) l st = (map h l, st ++ l).
  Proof.
    revert st; induction l as [|x l IH]; intros st; [cbn; rewrite app_nil_r; reflexivity|].
    cbn [feed]; rewrite IH, <- app_assoc; reflexivity.
  Qed.

  Lemma cq_mapm_log {A B} (h : A -> B) c st :
    cq_mapm (fun x s => (h x, s ++ [x])) c st = (cq_map h c, st ++ givens c).
  Proof.
    destruct (cq_mapm (fun x s => (h x, s ++ [x])) c st) as [c' st'] eqn:E.
    assert (E1 : cq_mapm (fun x (s : unit) => (h x, s)) c tt = (cq_map h c, tt)).
    { clear. destruct c as [[[[| | | |g]|[| | |g]|[| | |g]|o [| | |g]]|[[| | |g]|[| |g]|o [| |g]]|p [[| | |g]|[| |g]|o [| |g]]]
                  |s [[[| | |g]|[| |g]|o [| |g]]|p [[| |g]|o [|g]]]]; try destruct g; reflexivity. }
    apply cq_mapm_feed in E; destruct E as [F K].
    apply cq_mapm_feed in E1; destruct E1 as [F1 K1].
    rewrite feed_log in F; rewrite feed_pure in F1.
    injection F; injection F1; intros G1 <- G.
    f_equal. apply pattern_determined; congruence.
  Qed.

  Lemma cq_map2m_log (h : T -> U * V) c st :
    cq_map2m (fun x s => (h x, s ++ [x])) c st =
    (cq_map (fun x => fst (h x)) c, cq_map (fun x => snd (h x)) c, st ++ givens c).
  Proof.
    destruct (cq_map2m (fun x s => (h x, s ++ [x])) c st) as [[cu cv] st'] eqn:E.
    apply cq_map2m_feed in E; destruct E as (l & F & Gu & Gv & Ku & Kv).
    rewrite feed_log in F; injection F; intros <- <-.
    pose proof (cq_mapm_log (fun x => fst (h x)) c []) as Lu.
    pose proof (cq_mapm_log (fun x => snd (h x)) c []) as Lv.
    apply cq_mapm_feed in Lu; apply cq_mapm_feed in Lv.
    destruct Lu as [Fu Ju], Lv as [Fv Jv].
    rewrite feed_log in Fu; rewrite feed_log in Fv; injection Fu; injection Fv; intros Hv Hu.
    rewrite map_map in Gu, Gv.
    f_equal; f_equal; apply pattern_determined; congruence.
  Qed.

  Lemma quad_mapm_log (h : T -> U) q st :
    quad_mapm (fun x s => (h x, s ++ [x])) q st = (quad_map h q, st ++ quad_comps q).
  Proof.
    destruct q as [s p o [g|]]; cbn; rewrite <- ?app_assoc; reflexivity.
  Qed.
  Lemma triple_mapm_log (h : T -> U) t st :
    triple_mapm (fun x s => (h x, s ++ [x])) t st = (triple_map h t, st ++ triple_comps t).
  Proof. destruct t as [s p o]; cbn; rewrite <- ?app_assoc; reflexivity. Qed.
End Corollaries.
