(** Proofs about canonical patterns. *)
From Coq Require Import List Bool.
Import ListNotations.
From Verif Require Import Base TripleModel TriplePatternModel QuadPatternModel PatternSpec BaseProofs.

Ltac des_pat :=
  repeat match goal with
  | c : ctp _ |- _ => destruct c | c : t_as _ |- _ => destruct c | c : t_gs _ |- _ => destruct c
  | c : t_aa _ |- _ => destruct c | c : t_ag _ |- _ => destruct c
  | c : t_ga _ |- _ => destruct c | c : t_gg _ |- _ => destruct c
  | c : cqp _ |- _ => destruct c | c : q_as _ |- _ => destruct c | c : q_gs _ |- _ => destruct c
  | c : q_aa _ |- _ => destruct c | c : q_ag _ |- _ => destruct c
  | c : q_ga _ |- _ => destruct c | c : q_gg _ |- _ => destruct c
  | c : q_aaa _ |- _ => destruct c | c : q_gaa _ |- _ => destruct c
  | c : q_aga _ |- _ => destruct c | c : q_aag _ |- _ => destruct c
  | c : q_agg _ |- _ => destruct c | c : q_gag _ |- _ => destruct c
  | c : q_gga _ |- _ => destruct c | c : q_ggg _ |- _ => destruct c
  end.

Section Patterns.
  Context {T X : Type} (xeqb : X -> X -> bool)
    (xeqb_spec : forall x y, xeqb x y = true <-> x = y).

  Lemma xeqb_cases x y : (xeqb x y = true /\ x = y) \/ (xeqb x y = false /\ x <> y).
  Proof.
    destruct (xeqb x y) eqn:E.
    - left. split; [reflexivity|]. apply xeqb_spec. exact E.
    - right. split; [reflexivity|]. intros H. apply xeqb_spec in H. congruence.
  Qed.

  Lemma xeqb_refl x : xeqb x x = true.
  Proof. apply xeqb_spec. reflexivity. Qed.

  Lemma xeqb_neq x y : x <> y -> xeqb x y = false.
  Proof. destruct (xeqb_cases x y) as [[? ?]|[? ?]]; congruence. Qed.

  (** An assignment given by a list of bindings. *)
  Fixpoint asg {B} (l : list (X * B)) (d : B) (x : X) : B :=
    match l with
    | [] => d
    | (y, b) :: r => if xeqb x y then b else asg r d x
    end.

  Definition bnd {B} (r : res_or_var T X) (b : B) : list (X * B) :=
    match r with Var x => [(x, b)] | Res _ => [] end.

  Ltac xcases :=
    repeat match goal with
    | |- context [if xeqb ?x ?y then _ else _] =>
        let E := fresh in let N := fresh in
        destruct (xeqb_cases x y) as [[E N]|[E N]]; rewrite E in *; try subst x;
          try (exfalso; apply N; reflexivity)
    | H : context [if xeqb ?x ?y then _ else _] |- _ =>
        let E := fresh in let N := fresh in
        destruct (xeqb_cases x y) as [[E N]|[E N]]; rewrite E in *; try subst x;
          try (exfalso; apply N; reflexivity)
    end.

  Ltac fin :=
    repeat match goal with H : _ /\ _ |- _ => destruct H end; subst; cbn; xcases;
    repeat match goal with |- _ /\ _ => split end; try congruence; auto.

  Lemma from_pattern_matches (p : triple_pattern T X) t :
    ct_matches (ct_from_pattern xeqb p) t <-> triple_instance p t.
  Proof.
    destruct p as [ps pp po], t as [s q o].
    unfold triple_instance. cbn [t_s t_p t_o].
    split.
    - intros H. exists (asg (bnd ps s ++ bnd pp q ++ bnd po o) s).
      destruct ps as [rs|xs], pp as [rp|xp], po as [ro|xo]; cbn in H; xcases; cbn in H; xcases;
        cbn in H; fin.
    - intros (a & <- & <- & <-).
      destruct ps as [rs|xs], pp as [rp|xp], po as [ro|xo];
        cbn; xcases; cbn; xcases; cbn; fin.
  Qed.

  Lemma quad_from_pattern_matches (p : quad_pattern T X) q :
    cq_matches (cq_from_pattern xeqb p) q <-> quad_instance p q.
  Proof.
    destruct p as [ps pp po pg], q as [s q o g].
    unfold quad_instance. cbn [q_s q_p q_o q_g].
    split.
    - intros H.
      exists (asg (bnd ps (Some s) ++ bnd pp (Some q) ++ bnd po (Some o) ++
                   match pg with None => [] | Some r => bnd r g end) None).
      destruct ps as [rs|xs], pp as [rp|xp], po as [ro|xo], pg as [[rg|xg]|];
        cbn in H; xcases; cbn in H; xcases; cbn in H; xcases; cbn in H; fin.
    - intros (a & Hs & Hp & Ho & <-).
      destruct ps as [rs|xs], pp as [rp|xp], po as [ro|xo], pg as [[rg|xg]|];
        cbn in Hs, Hp, Ho |- *;
        cbn; xcases; cbn; xcases; cbn; xcases; cbn; repeat split; congruence.
  Qed.

  (** The strict reading agrees on quads of named graphs, and on all quads
      when the pattern's graph is not a variable. *)
  Lemma strict_instance (p : quad_pattern T X) q :
    (q_g q <> None \/ (forall x, q_g p <> Some (Var x))) ->
    (quad_instance p q <-> strict_quad_instance p q).
  Proof.
    destruct p as [ps pp po pg], q as [s q o g].
    unfold quad_instance, strict_quad_instance. cbn [q_s q_p q_o q_g]. intros N.
    split.
    - intros (a & Hs & Hp & Ho & Hg).
      exists (fun x => match a x with Some t => t | None => s end).
      destruct ps as [rs|xs], pp as [rp|xp], po as [ro|xo], pg as [[rg|xg]|];
        cbn in Hs, Hp, Ho, Hg |- *; rewrite ?Hs, ?Hp, ?Ho, ?Hg; repeat split; try congruence.
      all: destruct N as [N|N]; [|exfalso; exact (N xg eq_refl)];
        destruct g; [rewrite ?Hg; reflexivity|congruence].
    - intros (a & <- & <- & <- & <-). exists (fun x => Some (a x)).
      destruct ps as [rs|xs], pp as [rp|xp], po as [ro|xo], pg as [[rg|xg]|];
        cbn; repeat split.
  Qed.

  Lemma strict_matches (p : quad_pattern T X) q :
    (q_g q <> None \/ (forall x, q_g p <> Some (Var x))) ->
    (cq_matches (cq_from_pattern xeqb p) q <-> strict_quad_instance p q).
  Proof.
    intros N. rewrite quad_from_pattern_matches. apply strict_instance. exact N.
  Qed.

  Lemma from_triple_pattern_matches (p : triple_pattern T X) q :
    cq_matches (cq_from_triple_pattern xeqb p) q <->
    q_g q = None /\ triple_instance p (Triple (q_s q) (q_p q) (q_o q)).
  Proof.
    assert (E : cq_from_triple_pattern xeqb p = cq_from_pattern xeqb (into_quad p None)) by
      (destruct p; reflexivity).
    rewrite E, strict_matches by (right; cbn; discriminate).
    unfold strict_quad_instance, triple_instance. cbn. split.
    - intros (a & ? & ? & ? & H). split; [symmetry; exact H|]. exists a. auto.
    - intros (H & a & ? & ? & ?). exists a. auto.
  Qed.

  (** The triple part of a canonical quad pattern of a pattern is the
      canonical triple pattern of the triple part. *)
  Lemma from_pattern_into_triple (p : triple_pattern T X) g :
    fst (cq_into_triple (cq_from_pattern xeqb (into_quad p g))) = ct_from_pattern xeqb p.
  Proof.
    destruct p as [[rs|xs] [rp|xp] [ro|xo]]; cbn; unfold tas_from_pattern, qas_from_pattern,
      qaa_from_pattern, qag_from_pattern, qga_from_pattern; cbn;
      repeat match goal with
      | |- context [if xeqb ?x ?y then _ else _] => destruct (xeqb x y); cbn
      end; reflexivity.
  Qed.

End Patterns.

Section Ground.
  Context {T : Type}.

  Lemma from_triple_matches (t u : triple T) : ct_matches (ct_from_triple t) u <-> u = t.
  Proof.
    destruct t as [s p o], u as [s' p' o']. cbn. split.
    - intros (-> & -> & ->). reflexivity.
    - intros H. inv H. auto.
  Qed.

  Lemma from_option_triple_matches (t : triple (option T)) u :
    ct_matches (ct_from_option_triple t) u <->
    agrees (t_s t) (t_s u) /\ agrees (t_p t) (t_p u) /\ agrees (t_o t) (t_o u).
  Proof. destruct t as [[s|] [p|] [o|]], u as [s' p' o']; cbn; tauto. Qed.

  Lemma from_quad_matches (q r : quad T) : cq_matches (cq_from_quad q) r <-> r = q.
  Proof.
    destruct q as [s p o g], r as [s' p' o' g']. cbn. split.
    - intros (-> & -> & -> & ->). reflexivity.
    - intros H. inv H. auto.
  Qed.

  Lemma quad_from_triple_matches (t : triple T) q :
    cq_matches (cq_from_triple t) q <-> fst (into_triple q) = t.
  Proof.
    destruct t as [s p o], q as [s' p' o' g']. cbn. split.
    - intros (-> & -> & -> & _). reflexivity.
    - intros H. inv H. auto.
  Qed.

  Lemma from_option_quad_matches (p : quad (option T)) q :
    cq_matches (cq_from_option_quad p) q <->
    agrees (q_s p) (q_s q) /\ agrees (q_p p) (q_p q) /\ agrees (q_o p) (q_o q) /\
    agrees (q_g p) (q_g q).
  Proof. destruct p as [[s|] [p|] [o|] [g|]], q as [s' p' o' g']; cbn; tauto. Qed.

  Lemma quad_from_option_triple_matches (p : triple (option T)) q :
    cq_matches (cq_from_option_triple p) q <->
    agrees (t_s p) (q_s q) /\ agrees (t_p p) (q_p q) /\ agrees (t_o p) (q_o q).
  Proof. destruct p as [[s|] [p|] [o|]], q as [s' p' o' g']; cbn; tauto. Qed.

  Lemma with_any_graph_matches (c : ctp T) q :
    cq_matches (ct_with_any_graph c) q <-> ct_matches c (fst (into_triple q)).
  Proof. destruct q; des_pat; cbn; tauto. Qed.

  Lemma with_any_graph_into_triple (c : ctp T) :
    cq_into_triple (ct_with_any_graph c) = (c, PG_Any).
  Proof. des_pat; reflexivity. Qed.

  Lemma into_triple_matches (c : cqp T) q :
    let (t, g) := cq_into_triple c in
    cq_matches c q <->
    ct_matches t (fst (into_triple q)) /\ g_ok g (q_s q) (q_p q) (q_o q) (q_g q).
  Proof. destruct q; des_pat; cbn; tauto. Qed.

  Lemma into_parts_accessors (c : cqp T) :
    cq_into_parts c = (cq_subject c, cq_predicate c, cq_object c, cq_graph c).
  Proof. des_pat; reflexivity. Qed.

  Lemma into_triple_accessors (c : cqp T) :
    let (t, g) := cq_into_triple c in
    ct_subject t = cq_subject c /\ ct_predicate t = cq_predicate c /\
    ct_object t = cq_object c /\ g = cq_graph c.
  Proof. des_pat; cbn; auto. Qed.

  Lemma triple_accessors_match (c : ctp T) t :
    ct_matches c t <->
    s_ok (ct_subject c) (t_s t) /\ p_ok (ct_predicate c) (t_s t) (t_p t) /\
    o_ok (ct_object c) (t_s t) (t_p t) (t_o t).
  Proof. destruct t; des_pat; cbn; tauto. Qed.

  Lemma quad_accessors_match (c : cqp T) q :
    cq_matches c q <->
    s_ok (cq_subject c) (q_s q) /\ p_ok (cq_predicate c) (q_s q) (q_p q) /\
    o_ok (cq_object c) (q_s q) (q_p q) (q_o q) /\
    g_ok (cq_graph c) (q_s q) (q_p q) (q_o q) (q_g q).
  Proof. destruct q; des_pat; cbn; tauto. Qed.

  Lemma triple_accessors_inj (c d : ctp T) :
    ct_subject c = ct_subject d -> ct_predicate c = ct_predicate d ->
    ct_object c = ct_object d -> c = d.
  Proof.
    destruct c as [[[]|[]|p []]|s [[]|p []]]; destruct d as [[[]|[]|p' []]|s' [[]|p' []]];
      cbn; intros; congruence.
  Qed.

  Lemma into_triple_inj (c d : cqp T) : cq_into_triple c = cq_into_triple d -> c = d.
  Proof.
    destruct c as [[[[]|[]|[]|o []]|[[]|[]|o []]|p [[]|[]|o []]]|s [[[]|[]|o []]|p [[]|o []]]];
      destruct d as [[[x|x|x|? x]|[x|x|? x]|? [x|x|? x]]|? [[x|x|? x]|? [x|? x]]];
      try (cbn; discriminate); destruct x; cbn; congruence.
  Qed.

  Lemma quad_accessors_inj (c d : cqp T) :
    cq_subject c = cq_subject d -> cq_predicate c = cq_predicate d ->
    cq_object c = cq_object d -> cq_graph c = cq_graph d -> c = d.
  Proof.
    intros. apply into_triple_inj.
    pose proof (into_triple_accessors c) as A. pose proof (into_triple_accessors d) as B.
    destruct (cq_into_triple c) as [t g], (cq_into_triple d) as [t' g'].
    destruct A as (? & ? & ? & ?), B as (? & ? & ? & ?).
    f_equal; [|congruence]. apply triple_accessors_inj; congruence.
  Qed.

  Lemma filter_matches (eqb : T -> T -> bool) (c : pat_o T) t :
    (forall x y, eqb x y = true <-> x = y) ->
    (po_filter eqb c t = true <-> o_ok c (t_s t) (t_p t) (t_o t)).
  Proof. intros E. destruct c; cbn; rewrite ?E; tauto. Qed.

  (** ** Instances *)
  Definition inst_s (c : pat_s T) (s : T) : T := match c with PS_Given x => x | _ => s end.
  Definition inst_p (c : pat_p T) (s p : T) : T :=
    match c with PP_Given x => x | PP_SameS => s | _ => p end.
  Definition inst_o (c : pat_o T) (s p o : T) : T :=
    match c with PO_Given x => x | PO_SameS => s | PO_SameP => p | _ => o end.
  Definition inst_g (c : pat_g T) (s p o : T) (g : option T) : option T :=
    match c with
    | PG_Given x => x | PG_SameS => Some s | PG_SameP => Some p | PG_SameO => Some o | _ => g
    end.

  Lemma cq_inst (c : cqp T) s p o g :
    let s' := inst_s (cq_subject c) s in
    let p' := inst_p (cq_predicate c) s' p in
    let o' := inst_o (cq_object c) s' p' o in
    cq_matches c (Quad s' p' o' (inst_g (cq_graph c) s' p' o' g)).
  Proof.
    cbv zeta. apply quad_accessors_match. cbn [q_s q_p q_o q_g].
    destruct (cq_subject c), (cq_predicate c), (cq_object c), (cq_graph c); cbn; tauto.
  Qed.

  Lemma ct_inst (c : ctp T) s p o :
    let s' := inst_s (ct_subject c) s in
    let p' := inst_p (ct_predicate c) s' p in
    ct_matches c (Triple s' p' (inst_o (ct_object c) s' p' o)).
  Proof.
    cbv zeta. apply triple_accessors_match. cbn [t_s t_p t_o].
    destruct (ct_subject c), (ct_predicate c), (ct_object c); cbn; tauto.
  Qed.

  (** Which combinations of accessors exist. *)
  Lemma ct_shape (c : ctp T) :
    (ct_predicate c = PP_SameS -> ct_subject c = PS_Any) /\
    (ct_object c = PO_SameS -> ct_subject c = PS_Any) /\
    (ct_object c = PO_SameP -> ct_predicate c = PP_Any).
  Proof. des_pat; cbn; repeat split; congruence. Qed.

  Lemma cq_shape (c : cqp T) :
    (cq_graph c = PG_SameS -> cq_subject c = PS_Any) /\
    (cq_graph c = PG_SameP -> cq_predicate c = PP_Any) /\
    (cq_graph c = PG_SameO -> cq_object c = PO_Any).
  Proof. des_pat; cbn; repeat split; congruence. Qed.

End Ground.

Section Canonical.
  Context {T : Type} (a b : T) (Hab : a <> b).

  Ltac kill := exfalso; apply Hab; congruence.

  Lemma ct_incl_subject (c d : ctp T) :
    (forall t, ct_matches c t -> ct_matches d t) ->
    forall x, ct_subject d = PS_Given x -> ct_subject c = PS_Given x.
  Proof.
    intros H x E.
    pose proof (H _ (ct_inst c a a a)) as A. pose proof (H _ (ct_inst c b a a)) as B.
    apply triple_accessors_match in A, B. destruct A as (A & _), B as (B & _).
    rewrite E in A, B. cbn in A, B. destruct (ct_subject c); cbn in A, B; [kill|congruence].
  Qed.

  Lemma ct_same_subject (c d : ctp T) :
    (forall t, ct_matches c t <-> ct_matches d t) -> ct_subject c = ct_subject d.
  Proof.
    intros H. destruct (ct_subject d) eqn:E.
    - destruct (ct_subject c) eqn:F; [reflexivity|].
      eapply ct_incl_subject in F; [|intros u; exact (proj2 (H u))]. congruence.
    - eapply ct_incl_subject in E; [|intros u; exact (proj1 (H u))]. exact E.
  Qed.

  Lemma ct_incl_predicate (c d : ctp T) :
    ct_subject c = ct_subject d ->
    (forall t, ct_matches c t -> ct_matches d t) ->
    ct_predicate d <> PP_Any -> ct_predicate c = ct_predicate d.
  Proof.
    intros S H N.
    pose proof (H _ (ct_inst c a a a)) as A. pose proof (H _ (ct_inst c b b a)) as B.
    pose proof (H _ (ct_inst c a b a)) as C.
    apply triple_accessors_match in A, B, C.
    destruct A as (_ & A & _), B as (_ & B & _), C as (_ & C & _).
    pose proof (ct_shape c) as (P1 & _). pose proof (ct_shape d) as (P2 & _).
    cbn [t_s t_p] in A, B, C.
    destruct (ct_predicate d) eqn:E; [congruence| |].
    - rewrite (P2 eq_refl) in S. rewrite S in *. cbn in A, B, C.
      destruct (ct_predicate c) eqn:F; cbn in A, B, C; try reflexivity; kill.
    - cbn in A, B, C. destruct (ct_predicate c) eqn:F; cbn in A, B, C.
      + kill.
      + rewrite (P1 eq_refl) in *. cbn in *. kill.
      + congruence.
  Qed.

  Lemma ct_incl_object (c d : ctp T) :
    ct_subject c = ct_subject d -> ct_predicate c = ct_predicate d ->
    (forall t, ct_matches c t -> ct_matches d t) ->
    ct_object d <> PO_Any -> ct_object c = ct_object d.
  Proof.
    intros S P H N.
    pose proof (H _ (ct_inst c a a a)) as A. pose proof (H _ (ct_inst c b b b)) as B.
    pose proof (H _ (ct_inst c a b a)) as C. pose proof (H _ (ct_inst c a b b)) as D.
    pose proof (H _ (ct_inst c a a b)) as E. pose proof (H _ (ct_inst c b b a)) as E2.
    apply triple_accessors_match in A, B, C, D, E, E2.
    destruct A as (_ & _ & A), B as (_ & _ & B), C as (_ & _ & C), D as (_ & _ & D),
      E as (_ & _ & E), E2 as (_ & _ & E2).
    pose proof (ct_shape c) as (P0 & P1 & P2). pose proof (ct_shape d) as (Q0 & Q1 & Q2).
    cbn [t_s t_p t_o] in A, B, C, D, E, E2.
    destruct (ct_object d) eqn:F; [congruence| | |].
    - rewrite (Q1 eq_refl) in S. rewrite S in *. cbn in A, B, C, D, E, E2.
      destruct (ct_object c) eqn:G; cbn in A, B, C, D, E, E2; try reflexivity; try kill;
        rewrite (P2 eq_refl) in *; cbn in *; kill.
    - rewrite (Q2 eq_refl) in P. rewrite P in *. cbn in A, B, C, D, E, E2.
      destruct (ct_object c) eqn:G; cbn in A, B, C, D, E, E2; try reflexivity; try kill;
        rewrite (P1 eq_refl) in *; cbn in *; kill.
    - cbn in A, B, C, D, E, E2.
      destruct (ct_object c) eqn:G; cbn in A, B, C, D, E, E2; try congruence; try kill;
        first [rewrite (P1 eq_refl) in *; cbn in *; kill | rewrite (P2 eq_refl) in *; cbn in *; kill].
  Qed.

  Lemma ct_canonical (c d : ctp T) :
    (forall t, ct_matches c t <-> ct_matches d t) -> c = d.
  Proof.
    intros H.
    assert (H1 : forall t, ct_matches c t -> ct_matches d t) by (intros t; apply H).
    assert (H2 : forall t, ct_matches d t -> ct_matches c t) by (intros t; apply H).
    assert (S := ct_same_subject c d H).
    assert (P : ct_predicate c = ct_predicate d).
    { destruct (ct_predicate d) eqn:E.
      - destruct (ct_predicate c) eqn:F; [reflexivity| |];
          symmetry in S; (rewrite <- F, <- E; symmetry;
          apply ct_incl_predicate; [exact S|exact H2|rewrite F; discriminate]).
      - rewrite <- E. apply ct_incl_predicate; [exact S|exact H1|rewrite E; discriminate].
      - rewrite <- E. apply ct_incl_predicate; [exact S|exact H1|rewrite E; discriminate]. }
    apply triple_accessors_inj; [exact S|exact P|].
    destruct (ct_object d) eqn:E.
    - destruct (ct_object c) eqn:F; [reflexivity| | |];
        symmetry in S, P; (rewrite <- F, <- E; symmetry;
        apply ct_incl_object; [exact S|exact P|exact H2|rewrite F; discriminate]).
    - rewrite <- E. apply ct_incl_object; [exact S|exact P|exact H1|rewrite E; discriminate].
    - rewrite <- E. apply ct_incl_object; [exact S|exact P|exact H1|rewrite E; discriminate].
    - rewrite <- E. apply ct_incl_object; [exact S|exact P|exact H1|rewrite E; discriminate].
  Qed.

  Lemma cq_projection (c : cqp T) t :
    ct_matches (fst (cq_into_triple c)) t <-> exists g, cq_matches c (into_quad t g).
  Proof.
    pose proof (fun g => into_triple_matches c (into_quad t g)) as M.
    destruct (cq_into_triple c) as [u pg]. destruct t as [s p o]. cbn in M |- *.
    split.
    - intros H. exists (inst_g pg s p o None). apply M. split; [exact H|]. destruct pg; cbn; auto.
    - intros (g & H). apply M in H. tauto.
  Qed.

  Lemma cq_incl_graph (c d : cqp T) :
    cq_subject c = cq_subject d -> cq_predicate c = cq_predicate d ->
    cq_object c = cq_object d ->
    (forall q, cq_matches c q -> cq_matches d q) ->
    cq_graph d <> PG_Any -> cq_graph c = cq_graph d.
  Proof.
    intros S P O H N.
    pose proof (H _ (cq_inst c a a a None)) as A. pose proof (H _ (cq_inst c b b b (Some a))) as B.
    pose proof (H _ (cq_inst c a b a None)) as C. pose proof (H _ (cq_inst c a a b None)) as D.
    pose proof (H _ (cq_inst c b a a None)) as E.
    apply quad_accessors_match in A, B, C, D, E.
    destruct A as (_ & _ & _ & A), B as (_ & _ & _ & B), C as (_ & _ & _ & C),
      D as (_ & _ & _ & D), E as (_ & _ & _ & E).
    pose proof (cq_shape c) as (P0 & P1 & P2). pose proof (cq_shape d) as (Q0 & Q1 & Q2).
    cbn [q_s q_p q_o q_g] in A, B, C, D, E.
    destruct (cq_graph d) eqn:F; [congruence| | | |].
    - rewrite (Q0 eq_refl) in S. rewrite S in *. cbn in A, B, C, D, E.
      destruct (cq_graph c) eqn:G; cbn in A, B, C, D, E; try reflexivity; try kill; try discriminate;
        first [rewrite (P1 eq_refl) in *; cbn in *; kill | rewrite (P2 eq_refl) in *; cbn in *; kill].
    - rewrite (Q1 eq_refl) in P. rewrite P in *. cbn in A, B, C, D, E.
      destruct (cq_graph c) eqn:G; cbn in A, B, C, D, E; try reflexivity; try kill; try discriminate;
        first [rewrite (P0 eq_refl) in *; cbn in *; kill | rewrite (P2 eq_refl) in *; cbn in *; kill].
    - rewrite (Q2 eq_refl) in O. rewrite O in *. cbn in A, B, C, D, E.
      destruct (cq_graph c) eqn:G; cbn in A, B, C, D, E; try reflexivity; try kill; try discriminate;
        first [rewrite (P0 eq_refl) in *; cbn in *; kill | rewrite (P1 eq_refl) in *; cbn in *; kill].
    - cbn in A, B, C, D, E.
      destruct (cq_graph c) eqn:G; cbn in A, B, C, D, E; try congruence; try kill;
        first [rewrite (P0 eq_refl) in *; cbn in *; kill | rewrite (P1 eq_refl) in *; cbn in *; kill | rewrite (P2 eq_refl) in *; cbn in *; kill].
  Qed.

  Lemma cq_canonical (c d : cqp T) :
    (forall q, cq_matches c q <-> cq_matches d q) -> c = d.
  Proof.
    intros H.
    assert (U : fst (cq_into_triple c) = fst (cq_into_triple d)).
    { apply ct_canonical. intros t. rewrite !cq_projection.
      split; intros (g & G); exists g; apply H; exact G. }
    pose proof (into_triple_accessors c) as A. pose proof (into_triple_accessors d) as B.
    destruct (cq_into_triple c) as [t g], (cq_into_triple d) as [t' g']. cbn in U. subst t'.
    destruct A as (A1 & A2 & A3 & _), B as (B1 & B2 & B3 & _).
    assert (S : cq_subject c = cq_subject d) by congruence.
    assert (P : cq_predicate c = cq_predicate d) by congruence.
    assert (O : cq_object c = cq_object d) by congruence.
    apply quad_accessors_inj; try assumption.
    assert (H1 : forall q, cq_matches c q -> cq_matches d q) by (intros q; apply H).
    assert (H2 : forall q, cq_matches d q -> cq_matches c q) by (intros q; apply H).
    destruct (cq_graph d) eqn:E.
    - destruct (cq_graph c) eqn:F; [reflexivity| | | |];
        symmetry in S, P, O; (rewrite <- F, <- E; symmetry;
        apply cq_incl_graph; [exact S|exact P|exact O|exact H2|rewrite F; discriminate]).
    - rewrite <- E. apply cq_incl_graph; try assumption; rewrite E; discriminate.
    - rewrite <- E. apply cq_incl_graph; try assumption; rewrite E; discriminate.
    - rewrite <- E. apply cq_incl_graph; try assumption; rewrite E; discriminate.
    - rewrite <- E. apply cq_incl_graph; try assumption; rewrite E; discriminate.
  Qed.

End Canonical.

Section Setters.
  Context {T : Type}.

  Ltac finish :=
    repeat match goal with
    | |- _ <-> _ => split
    | H : exists _, _ |- _ => destruct H
    | H : _ /\ _ |- _ => destruct H
    | |- _ -> _ => intro
    | |- _ /\ _ => split
    end; subst; auto; try (eexists; repeat split; eauto; fail); try congruence.

  Lemma set_subject_matches (c : ctp T) x t :
    ct_matches (snd (ct_set_subject x c)) t <->
    set_s_spec (match ct_subject c with PS_Given _ => true | _ => false end) (ct_matches c) x t.
  Proof. destruct t; des_pat; unfold set_s_spec; cbn; finish. Qed.

  Lemma set_subject_returns (c : ctp T) x : fst (ct_set_subject x c) = ct_subject c.
  Proof. des_pat; reflexivity. Qed.

  Lemma set_predicate_matches (c : ctp T) x t :
    ~ (ct_subject c = PS_Any /\ ct_predicate c = PP_Any /\ ct_object c = PO_SameS) ->
    ct_matches (snd (ct_set_predicate x c)) t <->
    set_p_spec (match ct_predicate c with PP_Given _ => true | _ => false end) (ct_matches c) x t.
  Proof.
    intros N. destruct t; des_pat; unfold set_p_spec; cbn in *; try (exfalso; tauto); clear N; finish.
  Qed.

  Lemma set_predicate_returns (c : ctp T) x : fst (ct_set_predicate x c) = ct_predicate c.
  Proof. des_pat; reflexivity. Qed.

  Lemma set_object_matches (c : ctp T) x t :
    ~ (ct_subject c = PS_Any /\ (exists p, ct_predicate c = PP_Given p) /\ ct_object c = PO_SameS) ->
    ct_matches (snd (ct_set_object x c)) t <->
    set_o_spec (match ct_object c with PO_Given _ => true | _ => false end) (ct_matches c) x t.
  Proof.
    intros N. destruct t; des_pat; unfold set_o_spec; cbn in *;
      try (exfalso; apply N; eauto; fail); clear N; finish.
  Qed.

  Lemma set_object_returns (c : ctp T) x :
    ct_object c <> PO_SameP -> fst (ct_set_object x c) = ct_object c.
  Proof. des_pat; cbn; congruence. Qed.

  (** The setters of the part of a pattern that comes after an unconstrained
      subject, called by themselves. *)
  Lemma any_subject_set_predicate (c : t_as T) x t :
    let m := ct_matches (CT_AnyS c) in
    let given := match tas_predicate c with PP_Given _ => true | _ => false end in
    let frees := tas_predicate c = PP_SameS \/ tas_predicate c = PP_Any /\ tas_object c = PO_SameS in
    fst (tas_set_predicate x c) = tas_predicate c /\
    (frees -> (ct_matches (CT_AnyS (snd (tas_set_predicate x c))) t <->
               t_p t = x /\ exists s, m (Triple s (t_p t) (t_o t)))) /\
    (~ frees -> (ct_matches (CT_AnyS (snd (tas_set_predicate x c))) t <-> set_p_spec given m x t)).
  Proof.
    destruct t; des_pat; unfold set_p_spec; cbn; (split; [reflexivity|]);
      (split; intros N; [try (exfalso; intuition discriminate)|try (exfalso; intuition fail)]); clear N; finish.
  Qed.

  Lemma any_subject_set_object (c : t_as T) x t :
    let m := ct_matches (CT_AnyS c) in
    let given := match tas_object c with PO_Given _ => true | _ => false end in
    (tas_object c <> PO_SameP -> fst (tas_set_object x c) = tas_object c) /\
    (tas_object c = PO_SameS -> (ct_matches (CT_AnyS (snd (tas_set_object x c))) t <->
               t_o t = x /\ exists s, m (Triple s (t_p t) (t_o t)))) /\
    (tas_object c <> PO_SameS -> (ct_matches (CT_AnyS (snd (tas_set_object x c))) t <-> set_o_spec given m x t)).
  Proof.
    destruct t; des_pat; unfold set_o_spec; cbn; (split; [intros N; congruence|]);
      (split; intros N; try congruence); clear N; finish.
  Qed.

  Lemma set_object_returns_any (c : ctp T) x :
    ct_object c = PO_SameP -> fst (ct_set_object x c) = PO_Any.
  Proof. des_pat; cbn; intros N; congruence. Qed.

End Setters.

Section Maps.
  Context {T U V : Type}.

  Lemma map_accessors (f : T -> U) (c : cqp T) :
    cq_subject (cq_map f c) = pat_s_map f (cq_subject c) /\
    cq_predicate (cq_map f c) = pat_p_map f (cq_predicate c) /\
    cq_object (cq_map f c) = pat_o_map f (cq_object c) /\
    cq_graph (cq_map f c) = pat_g_map f (cq_graph c).
  Proof. des_pat; cbn; auto. Qed.

  Lemma map2_map (f : T -> U * V) (c : cqp T) :
    cq_map2 f c = (cq_map (fun x => fst (f x)) c, cq_map (fun x => snd (f x)) c).
  Proof.
    des_pat; cbn;
      repeat match goal with
      | g : option T |- _ => destruct g; cbn
      | |- context [f ?x] => destruct (f x); cbn
      end; reflexivity.
  Qed.

  Lemma map_matches (f : T -> U) (c : cqp T) q :
    cq_matches c q -> cq_matches (cq_map f c) (quad_map f q).
  Proof.
    rewrite !quad_accessors_match.
    destruct (map_accessors f c) as (-> & -> & -> & ->). destruct q as [s p o g].
    intros (A & B & C & D). cbn in *.
    destruct (cq_subject c), (cq_predicate c), (cq_object c), (cq_graph c);
      cbn in *; subst; cbn; auto.
  Qed.

  Lemma map_matches_inj (f : T -> U) (c : cqp T) q :
    (forall x y, f x = f y -> x = y) ->
    (cq_matches (cq_map f c) (quad_map f q) <-> cq_matches c q).
  Proof.
    intros I. split; [|apply map_matches].
    rewrite !quad_accessors_match.
    destruct (map_accessors f c) as (-> & -> & -> & ->). destruct q as [s p o g].
    assert (J : forall x y : option T, option_map f x = option_map f y -> x = y).
    { intros [x|] [y|] H; cbn in H; try congruence. inv H. f_equal. apply I. assumption. }
    assert (K : forall (x : option T) y, option_map f x = Some (f y) -> x = Some y).
    { intros x y H. apply J. exact H. }
    intros (A & B & C & D). cbn in *.
    repeat split;
      [destruct (cq_subject c)|destruct (cq_predicate c)|destruct (cq_object c)|destruct (cq_graph c)];
      cbn in *; auto.
  Qed.

  Lemma map_id_comp (f : T -> U) (h : U -> V) (c : cqp T) :
    cq_map (fun x => x) c = c /\ cq_map h (cq_map f c) = cq_map (fun x => h (f x)) c.
  Proof.
    split; des_pat; cbn; try (destruct g; cbn); reflexivity.
  Qed.
End Maps.

Lemma set_predicate_loses :
  exists (c : ctp nat) x t,
    ct_matches (snd (ct_set_predicate x c)) t /\ ~ ct_matches c t /\
    ~ exists y, ct_matches c (Triple (t_s t) y (t_o t)).
Proof.
  exists (CT_AnyS (TA_AnyP TAA_SameS)), 5, (Triple 1 5 2). cbn.
  repeat split; try discriminate. intros (y & H). discriminate.
Qed.

Lemma set_object_inconsistent :
  (exists (c : ctp nat) x t,
     ct_object c = PO_SameS /\ t_o t = x /\
     ct_matches (snd (ct_set_object x c)) t /\ ~ ct_matches c t) /\
  (exists (c : ctp nat) x t,
     ct_object c = PO_SameS /\ t_o t = x /\
     ~ ct_matches (snd (ct_set_object x c)) t /\
     exists y, ct_matches c (Triple (t_s t) (t_p t) y)).
Proof.
  split.
  - exists (CT_AnyS (TA_GivenP 7 TAG_SameS)), 5, (Triple 1 7 5). cbn.
    repeat split; try discriminate. intros (_ & H). discriminate.
  - exists (CT_AnyS (TA_AnyP TAA_SameS)), 5, (Triple 1 7 5). cbn.
    repeat split; [intros (H & _); discriminate|]. exists 1. reflexivity.
Qed.

Lemma set_object_wrong_result :
  exists (c : ctp nat) x, fst (ct_set_object x c) <> ct_object c.
Proof. exists (CT_AnyS (TA_AnyP TAA_SameP)), 5. discriminate. Qed.

Lemma graph_variable_matches_default :
  exists (p : quad_pattern nat nat) q,
    cq_matches (cq_from_pattern Nat.eqb p) q /\ ~ strict_quad_instance p q.
Proof.
  exists (Quad (Res 1) (Res 2) (Res 3) (Some (Var 0))), (Quad 1 2 3 None). cbn.
  split; [tauto|]. intros (a & _ & _ & _ & H). discriminate.
Qed.

(** A ground triple as a pattern without variables. *)
Lemma lifting_consistent {T X} (xeqb : X -> X -> bool) (t : triple T) q :
  q_g q = None ->
  (cq_matches (cq_from_triple t) q <-> cq_matches (cq_from_triple_pattern xeqb (triple_map Res t)) q) /\
  (cq_matches (cq_from_triple t) q <-> cq_matches (cq_from_option_triple (triple_map Some t)) q).
Proof. destruct q as [s p o g], t. cbn. intros ->. tauto. Qed.

Lemma lifting_options {T} (t : triple T) : cq_from_triple t = cq_from_option_triple (triple_map Some t).
Proof. destruct t. reflexivity. Qed.

Lemma lifting_inconsistent :
  exists (t : triple nat) q,
    cq_matches (cq_from_triple t) q /\
    ~ cq_matches (cq_from_triple_pattern Nat.eqb (triple_map Res t)) q.
Proof.
  exists (Triple 1 2 3), (Quad 1 2 3 (Some 4)). cbn. split; [auto|].
  intros (_ & _ & _ & H). discriminate.
Qed.

(** ** Given components *)
Section Given.
  Context {T : Type}.

  Lemma quad_ids : (exists a b : T, a <> b) -> forall (c : cqp T) r,
    (ps_id (cq_subject c) = Some r <-> forall q, cq_matches c q -> q_s q = r) /\
    (pp_id (cq_predicate c) = Some r <-> forall q, cq_matches c q -> q_p q = r) /\
    (po_id (cq_object c) = Some r <-> forall q, cq_matches c q -> q_o q = r).
  Proof.
    intros (a & b & Hab) c r; split; [|split]; split.
    1,3,5: intros H q Hq; destruct q; des_pat; cbn in *; try discriminate; inversion H; subst; intuition congruence.
    all: intros H; pose proof (H _ (cq_inst c a a a None)) as Ha; pose proof (H _ (cq_inst c b b b None)) as Hb;
      clear H; des_pat; cbn in *; congruence.
  Qed.

  Lemma triple_ids : (exists a b : T, a <> b) -> forall (c : ctp T) r,
    (ps_id (ct_subject c) = Some r <-> forall t, ct_matches c t -> t_s t = r) /\
    (pp_id (ct_predicate c) = Some r <-> forall t, ct_matches c t -> t_p t = r) /\
    (po_id (ct_object c) = Some r <-> forall t, ct_matches c t -> t_o t = r).
  Proof.
    intros (a & b & Hab) c r; split; [|split]; split.
    1,3,5: intros H q Hq; destruct q; des_pat; cbn in *; try discriminate; inversion H; subst; intuition congruence.
    all: intros H; pose proof (H _ (ct_inst c a a a)) as Ha; pose proof (H _ (ct_inst c b b b)) as Hb;
      clear H; des_pat; cbn in *; congruence.
  Qed.

  Lemma as_given_ids :
    (forall s (c : t_ga T), tga_as_given c = po_id (ct_object (CT_GivenS s (TG_AnyP c)))) /\
    (forall s p (c : t_gg T), tgg_as_given c = po_id (ct_object (CT_GivenS s (TG_GivenP p c)))).
  Proof. split; intros; des_pat; reflexivity. Qed.
End Given.

Section MapPattern.
  Context {T U X : Type} (xeqb : X -> X -> bool) (f : T -> U).

  Lemma map_from_pattern (p : quad_pattern T X) :
    cq_from_pattern xeqb (quad_map (rv_map f) p) = cq_map f (cq_from_pattern xeqb p).
  Proof.
    destruct p as [[s|s] [p|p] [o|o] [[g|g]|]]; cbn;
      unfold cq_from_pattern, cq_map; cbn;
      repeat match goal with |- context [if ?b then _ else _] => destruct b; cbn end; reflexivity.
  Qed.
End MapPattern.

Lemma is_id_or_facts {T X} (f : X -> bool) (r : res_or_var T X) :
  rv_is_id_or f r = false <-> exists x, r = Var x /\ f x = false.
Proof.
  destruct r as [t|x]; cbn; split; intros H.
  - discriminate.
  - destruct H as (x & H & _); discriminate.
  - eauto.
  - destruct H as (y & H & E); injection H as ->; exact E.
Qed.
