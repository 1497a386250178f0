(** Proofs for P_Key.v. *)
From Coq Require Import List Bool Arith Lia.
Import ListNotations.
From Verif Require Import Base BaseProofs TripleModel TriplePatternModel QuadPatternModel PatternSpec
  PatternProofs KeyModel KeySpec.

Section Keys.
  Context {T K : Type} (eq : T -> T -> bool) (pcmp : T -> T -> option comparison)
    (cmp : T -> T -> comparison) (hash : T -> list (fed K)).

  Ltac ends :=
    repeat match goal with
    | |- context[match ?c with Some _ => _ | None => _ end] => destruct c as [[]|]
    | |- context[match ?c with Eq => _ | _ => _ end] => destruct c
    end; reflexivity.

  Definition pat_s_keys (x : pat_s T) : list (key T) := [s_key x].
  Lemma pat_s_eq_keys x y : pat_s_eq eq x y = keys_eq eq (pat_s_keys x) (pat_s_keys y).
  Proof.
    destruct x as [ | a0], y as [ | b0]; cbn; rewrite ?andb_true_r; reflexivity.
  Qed.
  Lemma pat_s_pcmp_keys x y : pat_s_pcmp pcmp x y = keys_pcmp pcmp (pat_s_keys x) (pat_s_keys y).
  Proof.
    destruct x as [ | a0], y as [ | b0]; cbn; ends.
  Qed.
  Lemma pat_s_cmp_keys x y : pat_s_cmp cmp x y = keys_cmp cmp (pat_s_keys x) (pat_s_keys y).
  Proof.
    destruct x as [ | a0], y as [ | b0]; cbn; ends.
  Qed.
  Lemma pat_s_keys_inj x y : pat_s_keys x = pat_s_keys y -> x = y.
  Proof.
    destruct x, y; cbn; intros H; inversion H; reflexivity.
  Qed.

  Definition pat_p_keys (x : pat_p T) : list (key T) := [p_key x].
  Lemma pat_p_eq_keys x y : pat_p_eq eq x y = keys_eq eq (pat_p_keys x) (pat_p_keys y).
  Proof.
    destruct x as [ |  | a0], y as [ |  | b0]; cbn; rewrite ?andb_true_r; reflexivity.
  Qed.
  Lemma pat_p_pcmp_keys x y : pat_p_pcmp pcmp x y = keys_pcmp pcmp (pat_p_keys x) (pat_p_keys y).
  Proof.
    destruct x as [ |  | a0], y as [ |  | b0]; cbn; ends.
  Qed.
  Lemma pat_p_cmp_keys x y : pat_p_cmp cmp x y = keys_cmp cmp (pat_p_keys x) (pat_p_keys y).
  Proof.
    destruct x as [ |  | a0], y as [ |  | b0]; cbn; ends.
  Qed.
  Lemma pat_p_keys_inj x y : pat_p_keys x = pat_p_keys y -> x = y.
  Proof.
    destruct x, y; cbn; intros H; inversion H; reflexivity.
  Qed.

  Definition pat_o_keys (x : pat_o T) : list (key T) := [o_key x].
  Lemma pat_o_eq_keys x y : pat_o_eq eq x y = keys_eq eq (pat_o_keys x) (pat_o_keys y).
  Proof.
    destruct x as [ |  |  | a0], y as [ |  |  | b0]; cbn; rewrite ?andb_true_r; reflexivity.
  Qed.
  Lemma pat_o_pcmp_keys x y : pat_o_pcmp pcmp x y = keys_pcmp pcmp (pat_o_keys x) (pat_o_keys y).
  Proof.
    destruct x as [ |  |  | a0], y as [ |  |  | b0]; cbn; ends.
  Qed.
  Lemma pat_o_cmp_keys x y : pat_o_cmp cmp x y = keys_cmp cmp (pat_o_keys x) (pat_o_keys y).
  Proof.
    destruct x as [ |  |  | a0], y as [ |  |  | b0]; cbn; ends.
  Qed.
  Lemma pat_o_keys_inj x y : pat_o_keys x = pat_o_keys y -> x = y.
  Proof.
    destruct x, y; cbn; intros H; inversion H; reflexivity.
  Qed.

  Definition pat_g_keys (x : pat_g T) : list (key T) := [g_key x].
  Lemma pat_g_eq_keys x y : pat_g_eq eq x y = keys_eq eq (pat_g_keys x) (pat_g_keys y).
  Proof.
    destruct x as [ |  |  |  | [a|]], y as [ |  |  |  | [b|]]; cbn; rewrite ?andb_true_r; reflexivity.
  Qed.
  Lemma pat_g_pcmp_keys x y : pat_g_pcmp pcmp x y = keys_pcmp pcmp (pat_g_keys x) (pat_g_keys y).
  Proof.
    destruct x as [ |  |  |  | [a|]], y as [ |  |  |  | [b|]]; cbn; ends.
  Qed.
  Lemma pat_g_cmp_keys x y : pat_g_cmp cmp x y = keys_cmp cmp (pat_g_keys x) (pat_g_keys y).
  Proof.
    destruct x as [ |  |  |  | [a|]], y as [ |  |  |  | [b|]]; cbn; ends.
  Qed.
  Lemma pat_g_keys_inj x y : pat_g_keys x = pat_g_keys y -> x = y.
  Proof.
    destruct x, y; cbn; intros H; inversion H; reflexivity.
  Qed.

  Definition t_aa_keys (x : t_aa T) : list (key T) := [o_key (taa_object x)].
  Lemma t_aa_eq_keys x y : t_aa_eq eq x y = keys_eq eq (t_aa_keys x) (t_aa_keys y).
  Proof.
    destruct x as [ |  |  | a0], y as [ |  |  | b0]; cbn; rewrite ?andb_true_r; reflexivity.
  Qed.
  Lemma t_aa_pcmp_keys x y : t_aa_pcmp pcmp x y = keys_pcmp pcmp (t_aa_keys x) (t_aa_keys y).
  Proof.
    destruct x as [ |  |  | a0], y as [ |  |  | b0]; cbn; ends.
  Qed.
  Lemma t_aa_cmp_keys x y : t_aa_cmp cmp x y = keys_cmp cmp (t_aa_keys x) (t_aa_keys y).
  Proof.
    destruct x as [ |  |  | a0], y as [ |  |  | b0]; cbn; ends.
  Qed.
  Lemma t_aa_keys_inj x y : t_aa_keys x = t_aa_keys y -> x = y.
  Proof.
    destruct x, y; cbn; intros H; inversion H; reflexivity.
  Qed.

  Definition t_ag_keys (x : t_ag T) : list (key T) := [o_key (tag_object x)].
  Lemma t_ag_eq_keys x y : t_ag_eq eq x y = keys_eq eq (t_ag_keys x) (t_ag_keys y).
  Proof.
    destruct x as [ |  | a0], y as [ |  | b0]; cbn; rewrite ?andb_true_r; reflexivity.
  Qed.
  Lemma t_ag_pcmp_keys x y : t_ag_pcmp pcmp x y = keys_pcmp pcmp (t_ag_keys x) (t_ag_keys y).
  Proof.
    destruct x as [ |  | a0], y as [ |  | b0]; cbn; ends.
  Qed.
  Lemma t_ag_cmp_keys x y : t_ag_cmp cmp x y = keys_cmp cmp (t_ag_keys x) (t_ag_keys y).
  Proof.
    destruct x as [ |  | a0], y as [ |  | b0]; cbn; ends.
  Qed.
  Lemma t_ag_keys_inj x y : t_ag_keys x = t_ag_keys y -> x = y.
  Proof.
    destruct x, y; cbn; intros H; inversion H; reflexivity.
  Qed.

  Definition t_ga_keys (x : t_ga T) : list (key T) := [o_key (tga_object x)].
  Lemma t_ga_eq_keys x y : t_ga_eq eq x y = keys_eq eq (t_ga_keys x) (t_ga_keys y).
  Proof.
    destruct x as [ |  | a0], y as [ |  | b0]; cbn; rewrite ?andb_true_r; reflexivity.
  Qed.
  Lemma t_ga_pcmp_keys x y : t_ga_pcmp pcmp x y = keys_pcmp pcmp (t_ga_keys x) (t_ga_keys y).
  Proof.
    destruct x as [ |  | a0], y as [ |  | b0]; cbn; ends.
  Qed.
  Lemma t_ga_cmp_keys x y : t_ga_cmp cmp x y = keys_cmp cmp (t_ga_keys x) (t_ga_keys y).
  Proof.
    destruct x as [ |  | a0], y as [ |  | b0]; cbn; ends.
  Qed.
  Lemma t_ga_keys_inj x y : t_ga_keys x = t_ga_keys y -> x = y.
  Proof.
    destruct x, y; cbn; intros H; inversion H; reflexivity.
  Qed.

  Definition t_gg_keys (x : t_gg T) : list (key T) := [o_key (tgg_object x)].
  Lemma t_gg_eq_keys x y : t_gg_eq eq x y = keys_eq eq (t_gg_keys x) (t_gg_keys y).
  Proof.
    destruct x as [ | a0], y as [ | b0]; cbn; rewrite ?andb_true_r; reflexivity.
  Qed.
  Lemma t_gg_pcmp_keys x y : t_gg_pcmp pcmp x y = keys_pcmp pcmp (t_gg_keys x) (t_gg_keys y).
  Proof.
    destruct x as [ | a0], y as [ | b0]; cbn; ends.
  Qed.
  Lemma t_gg_cmp_keys x y : t_gg_cmp cmp x y = keys_cmp cmp (t_gg_keys x) (t_gg_keys y).
  Proof.
    destruct x as [ | a0], y as [ | b0]; cbn; ends.
  Qed.
  Lemma t_gg_keys_inj x y : t_gg_keys x = t_gg_keys y -> x = y.
  Proof.
    destruct x, y; cbn; intros H; inversion H; reflexivity.
  Qed.

  Definition t_as_keys (x : t_as T) : list (key T) := [p_key (tas_predicate x); o_key (tas_object x)].
  Lemma t_as_eq_keys x y : t_as_eq eq x y = keys_eq eq (t_as_keys x) (t_as_keys y).
  Proof.
    unfold t_as_eq, then_cmp, then_pcmp; destruct x as [a0 | a0 | a0 a1], y as [b0 | b0 | b0 b1];
      cbn -[t_aa_eq t_aa_keys t_ag_eq t_ag_keys]; rewrite ?t_aa_eq_keys, ?t_ag_eq_keys; cbn; rewrite ?andb_true_r; reflexivity.
  Qed.
  Lemma t_as_pcmp_keys x y : t_as_pcmp pcmp x y = keys_pcmp pcmp (t_as_keys x) (t_as_keys y).
  Proof.
    unfold t_as_pcmp, then_cmp, then_pcmp; destruct x as [a0 | a0 | a0 a1], y as [b0 | b0 | b0 b1];
      cbn -[t_aa_pcmp t_aa_keys t_ag_pcmp t_ag_keys]; rewrite ?t_aa_pcmp_keys, ?t_ag_pcmp_keys; cbn; ends.
  Qed.
  Lemma t_as_cmp_keys x y : t_as_cmp cmp x y = keys_cmp cmp (t_as_keys x) (t_as_keys y).
  Proof.
    unfold t_as_cmp, then_cmp, then_pcmp; destruct x as [a0 | a0 | a0 a1], y as [b0 | b0 | b0 b1];
      cbn -[t_aa_cmp t_aa_keys t_ag_cmp t_ag_keys]; rewrite ?t_aa_cmp_keys, ?t_ag_cmp_keys; cbn; ends.
  Qed.
  Lemma t_as_keys_inj x y : t_as_keys x = t_as_keys y -> x = y.
  Proof.
    destruct x, y; intros H; inversion H; subst;
      f_equal; (apply t_aa_keys_inj; unfold t_aa_keys; congruence) || (apply t_ag_keys_inj; unfold t_ag_keys; congruence).
  Qed.

  Definition t_gs_keys (x : t_gs T) : list (key T) := [p_key (tgs_predicate x); o_key (tgs_object x)].
  Lemma t_gs_eq_keys x y : t_gs_eq eq x y = keys_eq eq (t_gs_keys x) (t_gs_keys y).
  Proof.
    unfold t_gs_eq, then_cmp, then_pcmp; destruct x as [a0 | a0 a1], y as [b0 | b0 b1];
      cbn -[t_ga_eq t_ga_keys t_gg_eq t_gg_keys]; rewrite ?t_ga_eq_keys, ?t_gg_eq_keys; cbn; rewrite ?andb_true_r; reflexivity.
  Qed.
  Lemma t_gs_pcmp_keys x y : t_gs_pcmp pcmp x y = keys_pcmp pcmp (t_gs_keys x) (t_gs_keys y).
  Proof.
    unfold t_gs_pcmp, then_cmp, then_pcmp; destruct x as [a0 | a0 a1], y as [b0 | b0 b1];
      cbn -[t_ga_pcmp t_ga_keys t_gg_pcmp t_gg_keys]; rewrite ?t_ga_pcmp_keys, ?t_gg_pcmp_keys; cbn; ends.
  Qed.
  Lemma t_gs_cmp_keys x y : t_gs_cmp cmp x y = keys_cmp cmp (t_gs_keys x) (t_gs_keys y).
  Proof.
    unfold t_gs_cmp, then_cmp, then_pcmp; destruct x as [a0 | a0 a1], y as [b0 | b0 b1];
      cbn -[t_ga_cmp t_ga_keys t_gg_cmp t_gg_keys]; rewrite ?t_ga_cmp_keys, ?t_gg_cmp_keys; cbn; ends.
  Qed.
  Lemma t_gs_keys_inj x y : t_gs_keys x = t_gs_keys y -> x = y.
  Proof.
    destruct x, y; intros H; inversion H; subst;
      f_equal; (apply t_ga_keys_inj; unfold t_ga_keys; congruence) || (apply t_gg_keys_inj; unfold t_gg_keys; congruence).
  Qed.

  Definition ctp_keys (x : ctp T) : list (key T) := triple_keys x.
  Lemma ctp_eq_keys x y : ctp_eq eq x y = keys_eq eq (ctp_keys x) (ctp_keys y).
  Proof.
    unfold ctp_eq, then_cmp, then_pcmp; destruct x as [a0 | a0 a1], y as [b0 | b0 b1];
      cbn -[t_as_eq t_as_keys t_gs_eq t_gs_keys]; rewrite ?t_as_eq_keys, ?t_gs_eq_keys; cbn; rewrite ?andb_true_r; reflexivity.
  Qed.
  Lemma ctp_pcmp_keys x y : ctp_pcmp pcmp x y = keys_pcmp pcmp (ctp_keys x) (ctp_keys y).
  Proof.
    unfold ctp_pcmp, then_cmp, then_pcmp; destruct x as [a0 | a0 a1], y as [b0 | b0 b1];
      cbn -[t_as_pcmp t_as_keys t_gs_pcmp t_gs_keys]; rewrite ?t_as_pcmp_keys, ?t_gs_pcmp_keys; cbn; ends.
  Qed.
  Lemma ctp_cmp_keys x y : ctp_cmp cmp x y = keys_cmp cmp (ctp_keys x) (ctp_keys y).
  Proof.
    unfold ctp_cmp, then_cmp, then_pcmp; destruct x as [a0 | a0 a1], y as [b0 | b0 b1];
      cbn -[t_as_cmp t_as_keys t_gs_cmp t_gs_keys]; rewrite ?t_as_cmp_keys, ?t_gs_cmp_keys; cbn; ends.
  Qed.
  Lemma ctp_keys_inj x y : ctp_keys x = ctp_keys y -> x = y.
  Proof.
    destruct x, y; intros H; inversion H; subst;
      f_equal; (apply t_as_keys_inj; unfold t_as_keys; congruence) || (apply t_gs_keys_inj; unfold t_gs_keys; congruence).
  Qed.

  Definition q_aaa_keys (x : q_aaa T) : list (key T) := [g_key (qaaa_graph x)].
  Lemma q_aaa_eq_keys x y : q_aaa_eq eq x y = keys_eq eq (q_aaa_keys x) (q_aaa_keys y).
  Proof.
    destruct x as [ |  |  |  | [a|]], y as [ |  |  |  | [b|]]; cbn; rewrite ?andb_true_r; reflexivity.
  Qed.
  Lemma q_aaa_pcmp_keys x y : q_aaa_pcmp pcmp x y = keys_pcmp pcmp (q_aaa_keys x) (q_aaa_keys y).
  Proof.
    destruct x as [ |  |  |  | [a|]], y as [ |  |  |  | [b|]]; cbn; ends.
  Qed.
  Lemma q_aaa_cmp_keys x y : q_aaa_cmp cmp x y = keys_cmp cmp (q_aaa_keys x) (q_aaa_keys y).
  Proof.
    destruct x as [ |  |  |  | [a|]], y as [ |  |  |  | [b|]]; cbn; ends.
  Qed.
  Lemma q_aaa_keys_inj x y : q_aaa_keys x = q_aaa_keys y -> x = y.
  Proof.
    destruct x, y; cbn; intros H; inversion H; reflexivity.
  Qed.

  Definition q_gaa_keys (x : q_gaa T) : list (key T) := [g_key (qgaa_graph x)].
  Lemma q_gaa_eq_keys x y : q_gaa_eq eq x y = keys_eq eq (q_gaa_keys x) (q_gaa_keys y).
  Proof.
    destruct x as [ |  |  | [a|]], y as [ |  |  | [b|]]; cbn; rewrite ?andb_true_r; reflexivity.
  Qed.
  Lemma q_gaa_pcmp_keys x y : q_gaa_pcmp pcmp x y = keys_pcmp pcmp (q_gaa_keys x) (q_gaa_keys y).
  Proof.
    destruct x as [ |  |  | [a|]], y as [ |  |  | [b|]]; cbn; ends.
  Qed.
  Lemma q_gaa_cmp_keys x y : q_gaa_cmp cmp x y = keys_cmp cmp (q_gaa_keys x) (q_gaa_keys y).
  Proof.
    destruct x as [ |  |  | [a|]], y as [ |  |  | [b|]]; cbn; ends.
  Qed.
  Lemma q_gaa_keys_inj x y : q_gaa_keys x = q_gaa_keys y -> x = y.
  Proof.
    destruct x, y; cbn; intros H; inversion H; reflexivity.
  Qed.

  Definition q_aga_keys (x : q_aga T) : list (key T) := [g_key (qaga_graph x)].
  Lemma q_aga_eq_keys x y : q_aga_eq eq x y = keys_eq eq (q_aga_keys x) (q_aga_keys y).
  Proof.
    destruct x as [ |  |  | [a|]], y as [ |  |  | [b|]]; cbn; rewrite ?andb_true_r; reflexivity.
  Qed.
  Lemma q_aga_pcmp_keys x y : q_aga_pcmp pcmp x y = keys_pcmp pcmp (q_aga_keys x) (q_aga_keys y).
  Proof.
    destruct x as [ |  |  | [a|]], y as [ |  |  | [b|]]; cbn; ends.
  Qed.
  Lemma q_aga_cmp_keys x y : q_aga_cmp cmp x y = keys_cmp cmp (q_aga_keys x) (q_aga_keys y).
  Proof.
    destruct x as [ |  |  | [a|]], y as [ |  |  | [b|]]; cbn; ends.
  Qed.
  Lemma q_aga_keys_inj x y : q_aga_keys x = q_aga_keys y -> x = y.
  Proof.
    destruct x, y; cbn; intros H; inversion H; reflexivity.
  Qed.

  Definition q_aag_keys (x : q_aag T) : list (key T) := [g_key (qaag_graph x)].
  Lemma q_aag_eq_keys x y : q_aag_eq eq x y = keys_eq eq (q_aag_keys x) (q_aag_keys y).
  Proof.
    destruct x as [ |  |  | [a|]], y as [ |  |  | [b|]]; cbn; rewrite ?andb_true_r; reflexivity.
  Qed.
  Lemma q_aag_pcmp_keys x y : q_aag_pcmp pcmp x y = keys_pcmp pcmp (q_aag_keys x) (q_aag_keys y).
  Proof.
    destruct x as [ |  |  | [a|]], y as [ |  |  | [b|]]; cbn; ends.
  Qed.
  Lemma q_aag_cmp_keys x y : q_aag_cmp cmp x y = keys_cmp cmp (q_aag_keys x) (q_aag_keys y).
  Proof.
    destruct x as [ |  |  | [a|]], y as [ |  |  | [b|]]; cbn; ends.
  Qed.
  Lemma q_aag_keys_inj x y : q_aag_keys x = q_aag_keys y -> x = y.
  Proof.
    destruct x, y; cbn; intros H; inversion H; reflexivity.
  Qed.

  Definition q_agg_keys (x : q_agg T) : list (key T) := [g_key (qagg_graph x)].
  Lemma q_agg_eq_keys x y : q_agg_eq eq x y = keys_eq eq (q_agg_keys x) (q_agg_keys y).
  Proof.
    destruct x as [ |  | [a|]], y as [ |  | [b|]]; cbn; rewrite ?andb_true_r; reflexivity.
  Qed.
  Lemma q_agg_pcmp_keys x y : q_agg_pcmp pcmp x y = keys_pcmp pcmp (q_agg_keys x) (q_agg_keys y).
  Proof.
    destruct x as [ |  | [a|]], y as [ |  | [b|]]; cbn; ends.
  Qed.
  Lemma q_agg_cmp_keys x y : q_agg_cmp cmp x y = keys_cmp cmp (q_agg_keys x) (q_agg_keys y).
  Proof.
    destruct x as [ |  | [a|]], y as [ |  | [b|]]; cbn; ends.
  Qed.
  Lemma q_agg_keys_inj x y : q_agg_keys x = q_agg_keys y -> x = y.
  Proof.
    destruct x, y; cbn; intros H; inversion H; reflexivity.
  Qed.

  Definition q_gag_keys (x : q_gag T) : list (key T) := [g_key (qgag_graph x)].
  Lemma q_gag_eq_keys x y : q_gag_eq eq x y = keys_eq eq (q_gag_keys x) (q_gag_keys y).
  Proof.
    destruct x as [ |  | [a|]], y as [ |  | [b|]]; cbn; rewrite ?andb_true_r; reflexivity.
  Qed.
  Lemma q_gag_pcmp_keys x y : q_gag_pcmp pcmp x y = keys_pcmp pcmp (q_gag_keys x) (q_gag_keys y).
  Proof.
    destruct x as [ |  | [a|]], y as [ |  | [b|]]; cbn; ends.
  Qed.
  Lemma q_gag_cmp_keys x y : q_gag_cmp cmp x y = keys_cmp cmp (q_gag_keys x) (q_gag_keys y).
  Proof.
    destruct x as [ |  | [a|]], y as [ |  | [b|]]; cbn; ends.
  Qed.
  Lemma q_gag_keys_inj x y : q_gag_keys x = q_gag_keys y -> x = y.
  Proof.
    destruct x, y; cbn; intros H; inversion H; reflexivity.
  Qed.

  Definition q_gga_keys (x : q_gga T) : list (key T) := [g_key (qgga_graph x)].
  Lemma q_gga_eq_keys x y : q_gga_eq eq x y = keys_eq eq (q_gga_keys x) (q_gga_keys y).
  Proof.
    destruct x as [ |  | [a|]], y as [ |  | [b|]]; cbn; rewrite ?andb_true_r; reflexivity.
  Qed.
  Lemma q_gga_pcmp_keys x y : q_gga_pcmp pcmp x y = keys_pcmp pcmp (q_gga_keys x) (q_gga_keys y).
  Proof.
    destruct x as [ |  | [a|]], y as [ |  | [b|]]; cbn; ends.
  Qed.
  Lemma q_gga_cmp_keys x y : q_gga_cmp cmp x y = keys_cmp cmp (q_gga_keys x) (q_gga_keys y).
  Proof.
    destruct x as [ |  | [a|]], y as [ |  | [b|]]; cbn; ends.
  Qed.
  Lemma q_gga_keys_inj x y : q_gga_keys x = q_gga_keys y -> x = y.
  Proof.
    destruct x, y; cbn; intros H; inversion H; reflexivity.
  Qed.

  Definition q_ggg_keys (x : q_ggg T) : list (key T) := [g_key (qggg_graph x)].
  Lemma q_ggg_eq_keys x y : q_ggg_eq eq x y = keys_eq eq (q_ggg_keys x) (q_ggg_keys y).
  Proof.
    destruct x as [ | [a|]], y as [ | [b|]]; cbn; rewrite ?andb_true_r; reflexivity.
  Qed.
  Lemma q_ggg_pcmp_keys x y : q_ggg_pcmp pcmp x y = keys_pcmp pcmp (q_ggg_keys x) (q_ggg_keys y).
  Proof.
    destruct x as [ | [a|]], y as [ | [b|]]; cbn; ends.
  Qed.
  Lemma q_ggg_cmp_keys x y : q_ggg_cmp cmp x y = keys_cmp cmp (q_ggg_keys x) (q_ggg_keys y).
  Proof.
    destruct x as [ | [a|]], y as [ | [b|]]; cbn; ends.
  Qed.
  Lemma q_ggg_keys_inj x y : q_ggg_keys x = q_ggg_keys y -> x = y.
  Proof.
    destruct x, y; cbn; intros H; inversion H; reflexivity.
  Qed.

  Definition q_aa_keys (x : q_aa T) : list (key T) := [o_key (qaa_object x); g_key (qaa_graph x)].
  Lemma q_aa_eq_keys x y : q_aa_eq eq x y = keys_eq eq (q_aa_keys x) (q_aa_keys y).
  Proof.
    unfold q_aa_eq, then_cmp, then_pcmp; destruct x as [a0 | a0 | a0 | a0 a1], y as [b0 | b0 | b0 | b0 b1];
      cbn -[q_aaa_eq q_aaa_keys q_aag_eq q_aag_keys]; rewrite ?q_aaa_eq_keys, ?q_aag_eq_keys; cbn; rewrite ?andb_true_r; reflexivity.
  Qed.
  Lemma q_aa_pcmp_keys x y : q_aa_pcmp pcmp x y = keys_pcmp pcmp (q_aa_keys x) (q_aa_keys y).
  Proof.
    unfold q_aa_pcmp, then_cmp, then_pcmp; destruct x as [a0 | a0 | a0 | a0 a1], y as [b0 | b0 | b0 | b0 b1];
      cbn -[q_aaa_pcmp q_aaa_keys q_aag_pcmp q_aag_keys]; rewrite ?q_aaa_pcmp_keys, ?q_aag_pcmp_keys; cbn; ends.
  Qed.
  Lemma q_aa_cmp_keys x y : q_aa_cmp cmp x y = keys_cmp cmp (q_aa_keys x) (q_aa_keys y).
  Proof.
    unfold q_aa_cmp, then_cmp, then_pcmp; destruct x as [a0 | a0 | a0 | a0 a1], y as [b0 | b0 | b0 | b0 b1];
      cbn -[q_aaa_cmp q_aaa_keys q_aag_cmp q_aag_keys]; rewrite ?q_aaa_cmp_keys, ?q_aag_cmp_keys; cbn; ends.
  Qed.
  Lemma q_aa_keys_inj x y : q_aa_keys x = q_aa_keys y -> x = y.
  Proof.
    destruct x, y; intros H; inversion H; subst;
      f_equal; (apply q_aaa_keys_inj; unfold q_aaa_keys; congruence) || (apply q_aag_keys_inj; unfold q_aag_keys; congruence).
  Qed.

  Definition q_ag_keys (x : q_ag T) : list (key T) := [o_key (qag_object x); g_key (qag_graph x)].
  Lemma q_ag_eq_keys x y : q_ag_eq eq x y = keys_eq eq (q_ag_keys x) (q_ag_keys y).
  Proof.
    unfold q_ag_eq, then_cmp, then_pcmp; destruct x as [a0 | a0 | a0 a1], y as [b0 | b0 | b0 b1];
      cbn -[q_aga_eq q_aga_keys q_agg_eq q_agg_keys]; rewrite ?q_aga_eq_keys, ?q_agg_eq_keys; cbn; rewrite ?andb_true_r; reflexivity.
  Qed.
  Lemma q_ag_pcmp_keys x y : q_ag_pcmp pcmp x y = keys_pcmp pcmp (q_ag_keys x) (q_ag_keys y).
  Proof.
    unfold q_ag_pcmp, then_cmp, then_pcmp; destruct x as [a0 | a0 | a0 a1], y as [b0 | b0 | b0 b1];
      cbn -[q_aga_pcmp q_aga_keys q_agg_pcmp q_agg_keys]; rewrite ?q_aga_pcmp_keys, ?q_agg_pcmp_keys; cbn; ends.
  Qed.
  Lemma q_ag_cmp_keys x y : q_ag_cmp cmp x y = keys_cmp cmp (q_ag_keys x) (q_ag_keys y).
  Proof.
    unfold q_ag_cmp, then_cmp, then_pcmp; destruct x as [a0 | a0 | a0 a1], y as [b0 | b0 | b0 b1];
      cbn -[q_aga_cmp q_aga_keys q_agg_cmp q_agg_keys]; rewrite ?q_aga_cmp_keys, ?q_agg_cmp_keys; cbn; ends.
  Qed.
  Lemma q_ag_keys_inj x y : q_ag_keys x = q_ag_keys y -> x = y.
  Proof.
    destruct x, y; intros H; inversion H; subst;
      f_equal; (apply q_aga_keys_inj; unfold q_aga_keys; congruence) || (apply q_agg_keys_inj; unfold q_agg_keys; congruence).
  Qed.

  Definition q_ga_keys (x : q_ga T) : list (key T) := [o_key (qga_object x); g_key (qga_graph x)].
  Lemma q_ga_eq_keys x y : q_ga_eq eq x y = keys_eq eq (q_ga_keys x) (q_ga_keys y).
  Proof.
    unfold q_ga_eq, then_cmp, then_pcmp; destruct x as [a0 | a0 | a0 a1], y as [b0 | b0 | b0 b1];
      cbn -[q_gaa_eq q_gaa_keys q_gag_eq q_gag_keys]; rewrite ?q_gaa_eq_keys, ?q_gag_eq_keys; cbn; rewrite ?andb_true_r; reflexivity.
  Qed.
  Lemma q_ga_pcmp_keys x y : q_ga_pcmp pcmp x y = keys_pcmp pcmp (q_ga_keys x) (q_ga_keys y).
  Proof.
    unfold q_ga_pcmp, then_cmp, then_pcmp; destruct x as [a0 | a0 | a0 a1], y as [b0 | b0 | b0 b1];
      cbn -[q_gaa_pcmp q_gaa_keys q_gag_pcmp q_gag_keys]; rewrite ?q_gaa_pcmp_keys, ?q_gag_pcmp_keys; cbn; ends.
  Qed.
  Lemma q_ga_cmp_keys x y : q_ga_cmp cmp x y = keys_cmp cmp (q_ga_keys x) (q_ga_keys y).
  Proof.
    unfold q_ga_cmp, then_cmp, then_pcmp; destruct x as [a0 | a0 | a0 a1], y as [b0 | b0 | b0 b1];
      cbn -[q_gaa_cmp q_gaa_keys q_gag_cmp q_gag_keys]; rewrite ?q_gaa_cmp_keys, ?q_gag_cmp_keys; cbn; ends.
  Qed.
  Lemma q_ga_keys_inj x y : q_ga_keys x = q_ga_keys y -> x = y.
  Proof.
    destruct x, y; intros H; inversion H; subst;
      f_equal; (apply q_gaa_keys_inj; unfold q_gaa_keys; congruence) || (apply q_gag_keys_inj; unfold q_gag_keys; congruence).
  Qed.

  Definition q_gg_keys (x : q_gg T) : list (key T) := [o_key (qgg_object x); g_key (qgg_graph x)].
  Lemma q_gg_eq_keys x y : q_gg_eq eq x y = keys_eq eq (q_gg_keys x) (q_gg_keys y).
  Proof.
    unfold q_gg_eq, then_cmp, then_pcmp; destruct x as [a0 | a0 a1], y as [b0 | b0 b1];
      cbn -[q_gga_eq q_gga_keys q_ggg_eq q_ggg_keys]; rewrite ?q_gga_eq_keys, ?q_ggg_eq_keys; cbn; rewrite ?andb_true_r; reflexivity.
  Qed.
  Lemma q_gg_pcmp_keys x y : q_gg_pcmp pcmp x y = keys_pcmp pcmp (q_gg_keys x) (q_gg_keys y).
  Proof.
    unfold q_gg_pcmp, then_cmp, then_pcmp; destruct x as [a0 | a0 a1], y as [b0 | b0 b1];
      cbn -[q_gga_pcmp q_gga_keys q_ggg_pcmp q_ggg_keys]; rewrite ?q_gga_pcmp_keys, ?q_ggg_pcmp_keys; cbn; ends.
  Qed.
  Lemma q_gg_cmp_keys x y : q_gg_cmp cmp x y = keys_cmp cmp (q_gg_keys x) (q_gg_keys y).
  Proof.
    unfold q_gg_cmp, then_cmp, then_pcmp; destruct x as [a0 | a0 a1], y as [b0 | b0 b1];
      cbn -[q_gga_cmp q_gga_keys q_ggg_cmp q_ggg_keys]; rewrite ?q_gga_cmp_keys, ?q_ggg_cmp_keys; cbn; ends.
  Qed.
  Lemma q_gg_keys_inj x y : q_gg_keys x = q_gg_keys y -> x = y.
  Proof.
    destruct x, y; intros H; inversion H; subst;
      f_equal; (apply q_gga_keys_inj; unfold q_gga_keys; congruence) || (apply q_ggg_keys_inj; unfold q_ggg_keys; congruence).
  Qed.

  Definition q_as_keys (x : q_as T) : list (key T) := [p_key (qas_predicate x); o_key (qas_object x); g_key (qas_graph x)].
  Lemma q_as_eq_keys x y : q_as_eq eq x y = keys_eq eq (q_as_keys x) (q_as_keys y).
  Proof.
    unfold q_as_eq, then_cmp, then_pcmp; destruct x as [a0 | a0 | a0 a1], y as [b0 | b0 | b0 b1];
      cbn -[q_aa_eq q_aa_keys q_ag_eq q_ag_keys]; rewrite ?q_aa_eq_keys, ?q_ag_eq_keys; cbn; rewrite ?andb_true_r; reflexivity.
  Qed.
  Lemma q_as_pcmp_keys x y : q_as_pcmp pcmp x y = keys_pcmp pcmp (q_as_keys x) (q_as_keys y).
  Proof.
    unfold q_as_pcmp, then_cmp, then_pcmp; destruct x as [a0 | a0 | a0 a1], y as [b0 | b0 | b0 b1];
      cbn -[q_aa_pcmp q_aa_keys q_ag_pcmp q_ag_keys]; rewrite ?q_aa_pcmp_keys, ?q_ag_pcmp_keys; cbn; ends.
  Qed.
  Lemma q_as_cmp_keys x y : q_as_cmp cmp x y = keys_cmp cmp (q_as_keys x) (q_as_keys y).
  Proof.
    unfold q_as_cmp, then_cmp, then_pcmp; destruct x as [a0 | a0 | a0 a1], y as [b0 | b0 | b0 b1];
      cbn -[q_aa_cmp q_aa_keys q_ag_cmp q_ag_keys]; rewrite ?q_aa_cmp_keys, ?q_ag_cmp_keys; cbn; ends.
  Qed.
  Lemma q_as_keys_inj x y : q_as_keys x = q_as_keys y -> x = y.
  Proof.
    destruct x, y; intros H; inversion H; subst;
      f_equal; (apply q_aa_keys_inj; unfold q_aa_keys; congruence) || (apply q_ag_keys_inj; unfold q_ag_keys; congruence).
  Qed.

  Definition q_gs_keys (x : q_gs T) : list (key T) := [p_key (qgs_predicate x); o_key (qgs_object x); g_key (qgs_graph x)].
  Lemma q_gs_eq_keys x y : q_gs_eq eq x y = keys_eq eq (q_gs_keys x) (q_gs_keys y).
  Proof.
    unfold q_gs_eq, then_cmp, then_pcmp; destruct x as [a0 | a0 a1], y as [b0 | b0 b1];
      cbn -[q_ga_eq q_ga_keys q_gg_eq q_gg_keys]; rewrite ?q_ga_eq_keys, ?q_gg_eq_keys; cbn; rewrite ?andb_true_r; reflexivity.
  Qed.
  Lemma q_gs_pcmp_keys x y : q_gs_pcmp pcmp x y = keys_pcmp pcmp (q_gs_keys x) (q_gs_keys y).
  Proof.
    unfold q_gs_pcmp, then_cmp, then_pcmp; destruct x as [a0 | a0 a1], y as [b0 | b0 b1];
      cbn -[q_ga_pcmp q_ga_keys q_gg_pcmp q_gg_keys]; rewrite ?q_ga_pcmp_keys, ?q_gg_pcmp_keys; cbn; ends.
  Qed.
  Lemma q_gs_cmp_keys x y : q_gs_cmp cmp x y = keys_cmp cmp (q_gs_keys x) (q_gs_keys y).
  Proof.
    unfold q_gs_cmp, then_cmp, then_pcmp; destruct x as [a0 | a0 a1], y as [b0 | b0 b1];
      cbn -[q_ga_cmp q_ga_keys q_gg_cmp q_gg_keys]; rewrite ?q_ga_cmp_keys, ?q_gg_cmp_keys; cbn; ends.
  Qed.
  Lemma q_gs_keys_inj x y : q_gs_keys x = q_gs_keys y -> x = y.
  Proof.
    destruct x, y; intros H; inversion H; subst;
      f_equal; (apply q_ga_keys_inj; unfold q_ga_keys; congruence) || (apply q_gg_keys_inj; unfold q_gg_keys; congruence).
  Qed.

  Definition cqp_keys (x : cqp T) : list (key T) := quad_keys x.
  Lemma cqp_eq_keys x y : cqp_eq eq x y = keys_eq eq (cqp_keys x) (cqp_keys y).
  Proof.
    unfold cqp_eq, then_cmp, then_pcmp; destruct x as [a0 | a0 a1], y as [b0 | b0 b1];
      cbn -[q_as_eq q_as_keys q_gs_eq q_gs_keys]; rewrite ?q_as_eq_keys, ?q_gs_eq_keys; cbn; rewrite ?andb_true_r; reflexivity.
  Qed.
  Lemma cqp_pcmp_keys x y : cqp_pcmp pcmp x y = keys_pcmp pcmp (cqp_keys x) (cqp_keys y).
  Proof.
    unfold cqp_pcmp, then_cmp, then_pcmp; destruct x as [a0 | a0 a1], y as [b0 | b0 b1];
      cbn -[q_as_pcmp q_as_keys q_gs_pcmp q_gs_keys]; rewrite ?q_as_pcmp_keys, ?q_gs_pcmp_keys; cbn; ends.
  Qed.
  Lemma cqp_cmp_keys x y : cqp_cmp cmp x y = keys_cmp cmp (cqp_keys x) (cqp_keys y).
  Proof.
    unfold cqp_cmp, then_cmp, then_pcmp; destruct x as [a0 | a0 a1], y as [b0 | b0 b1];
      cbn -[q_as_cmp q_as_keys q_gs_cmp q_gs_keys]; rewrite ?q_as_cmp_keys, ?q_gs_cmp_keys; cbn; ends.
  Qed.
  Lemma cqp_keys_inj x y : cqp_keys x = cqp_keys y -> x = y.
  Proof.
    destruct x, y; intros H; inversion H; subst;
      f_equal; (apply q_as_keys_inj; unfold q_as_keys; congruence) || (apply q_gs_keys_inj; unfold q_gs_keys; congruence).
  Qed.

  (** ** Laws *)

  Lemma key_cmp_laws : ord_laws cmp -> ord_laws (key_cmp cmp).
  Proof.
    intros L; split.
    - intros [n a] [m b]; unfold key_cmp; cbn.
      destruct (Nat.compare_spec n m) as [->|H|H]; destruct a as [a|], b as [b|];
        try (rewrite (ord_eq _ L)); split; intros E; try discriminate; try congruence;
        try (inversion E; subst; lia); reflexivity || (inversion E; reflexivity).
    - intros [n a] [m b]; unfold key_cmp; cbn; rewrite (Nat.compare_antisym n m).
      destruct (Nat.compare n m), a as [a|], b as [b|]; try reflexivity; apply (ord_sym _ L).
    - intros [n a] [m b] [k c]; unfold key_cmp; cbn.
      destruct (Nat.compare_spec n m) as [->|H|H], (Nat.compare_spec m k) as [->|H'|H'];
        destruct a as [a|], b as [b|], c as [c|]; try discriminate;
        try (destruct (Nat.compare_spec n k); try lia; subst; intros; try lia; try reflexivity; discriminate);
        try (destruct (Nat.compare_spec k k); try lia; intros; try reflexivity; try discriminate;
             eapply (ord_trans _ L); eassumption);
        try (destruct (Nat.compare_spec m k); try lia; subst; intros; try lia; try reflexivity; discriminate).
  Qed.

  Lemma keys_cmp_laws : ord_laws cmp -> ord_laws (keys_cmp cmp).
  Proof.
    intros L; pose proof (key_cmp_laws L) as LK; split.
    - induction x as [|a l IH]; intros [|b m]; cbn; try (split; [discriminate|intros E; inversion E]); [tauto|].
      destruct (key_cmp cmp a b) eqn:E.
      + apply (ord_eq _ LK) in E as ->; rewrite IH; split; [now intros ->|now intros [= ->]].
      + split; [discriminate|]; intros [= -> ->]; pose proof (proj2 (ord_eq _ LK b b) eq_refl); congruence.
      + split; [discriminate|]; intros [= -> ->]; pose proof (proj2 (ord_eq _ LK b b) eq_refl); congruence.
    - induction x as [|a l IH]; intros [|b m]; cbn; try reflexivity.
      rewrite (ord_sym _ LK a b); destruct (key_cmp cmp a b); cbn; [apply IH|reflexivity|reflexivity].
    - induction x as [|a l IH]; intros [|b m] [|c k]; cbn; try discriminate; try reflexivity.
      destruct (key_cmp cmp a b) eqn:E; [|intros _|discriminate].
      + apply (ord_eq _ LK) in E as ->. destruct (key_cmp cmp b c); intros; try assumption; try discriminate; eauto.
      + destruct (key_cmp cmp b c) eqn:E'; intros H; try discriminate.
        * apply (ord_eq _ LK) in E' as ->; now rewrite E.
        * now rewrite (ord_trans _ LK _ _ _ E E').
  Qed.

  Lemma laws_of_keys {A} (f : A -> list (key T)) (c : A -> A -> comparison) :
    ord_laws cmp -> (forall x y, c x y = keys_cmp cmp (f x) (f y)) ->
    (forall x y, f x = f y -> x = y) -> ord_laws c.
  Proof.
    intros L E I; pose proof (keys_cmp_laws L) as LK; split.
    - intros x y; rewrite E, (ord_eq _ LK); split; [apply I|now intros ->].
    - intros x y; rewrite !E; apply (ord_sym _ LK).
    - intros x y z; rewrite !E; apply (ord_trans _ LK).
  Qed.

  Lemma keys_eq_same : (forall x y, eq x y = true <-> x = y) ->
    forall l m, keys_eq eq l m = true <-> l = m.
  Proof.
    intros E; induction l as [|[n a] l IH]; intros [|[k b] m]; cbn; try (split; [discriminate|intros H; inversion H]);
      [tauto|].
    rewrite andb_true_iff, IH; unfold key_eq; cbn; rewrite andb_true_iff, Nat.eqb_eq.
    destruct a as [a|], b as [b|]; rewrite ?E; split; intros H; intuition (try congruence); now inversion H.
  Qed.

  Lemma keys_pcmp_total : (forall x y, pcmp x y = Some (cmp x y)) ->
    forall l m, keys_pcmp pcmp l m = Some (keys_cmp cmp l m).
  Proof.
    intros E; induction l as [|[n a] l IH]; intros [|[k b] m]; cbn; try reflexivity.
    assert (H : key_pcmp pcmp (n, a) (k, b) = Some (key_cmp cmp (n, a) (k, b)))
      by (unfold key_pcmp, key_cmp; cbn; destruct (Nat.compare n k), a, b; try reflexivity; apply E).
    rewrite H, IH; destruct (key_cmp cmp (n, a) (k, b)); reflexivity.
  Qed.

  Lemma option_hash_free : (forall x y l m, hash x ++ l = hash y ++ m -> x = y /\ l = m) ->
    forall x y l m, option_hash hash x ++ l = option_hash hash y ++ m -> x = y /\ l = m.
  Proof.
    intros H [x|] [y|] l m; cbn; intros E; inversion E; [|auto].
    destruct (H _ _ _ _ H1) as [-> ->]; auto.
  Qed.

  Lemma pat_s_hash_free : (forall x y l m, hash x ++ l = hash y ++ m -> x = y /\ l = m) ->
    forall x y l m, pat_s_hash hash x ++ l = pat_s_hash hash y ++ m -> x = y /\ l = m.
  Proof.
    intros H x y l m; unfold pat_s_hash; destruct x, y; cbn -[ option_hash app];
      intros E; rewrite <- ?app_comm_cons, <- ?app_assoc in E; try discriminate; apply (f_equal (@tl _)) in E; cbn [tl] in E;
      rewrite <- ?app_assoc in E;
      repeat (apply (H) in E as [-> E]); subst; auto.
  Qed.
  Lemma pat_s_key_laws : key_laws eq pcmp cmp hash ->
    key_laws (pat_s_eq eq) (pat_s_pcmp pcmp) (pat_s_cmp cmp) (pat_s_hash hash).
  Proof.
    intros [L E P H]; split.
    - exact (laws_of_keys _ _ L pat_s_cmp_keys pat_s_keys_inj).
    - intros x y; rewrite pat_s_eq_keys, (keys_eq_same E); split; [apply pat_s_keys_inj|now intros ->].
    - intros x y; rewrite pat_s_pcmp_keys, pat_s_cmp_keys; apply keys_pcmp_total, P.
    - exact (pat_s_hash_free H).
  Qed.

  Lemma pat_p_hash_free : (forall x y l m, hash x ++ l = hash y ++ m -> x = y /\ l = m) ->
    forall x y l m, pat_p_hash hash x ++ l = pat_p_hash hash y ++ m -> x = y /\ l = m.
  Proof.
    intros H x y l m; unfold pat_p_hash; destruct x, y; cbn -[ option_hash app];
      intros E; rewrite <- ?app_comm_cons, <- ?app_assoc in E; try discriminate; apply (f_equal (@tl _)) in E; cbn [tl] in E;
      rewrite <- ?app_assoc in E;
      repeat (apply (H) in E as [-> E]); subst; auto.
  Qed.
  Lemma pat_p_key_laws : key_laws eq pcmp cmp hash ->
    key_laws (pat_p_eq eq) (pat_p_pcmp pcmp) (pat_p_cmp cmp) (pat_p_hash hash).
  Proof.
    intros [L E P H]; split.
    - exact (laws_of_keys _ _ L pat_p_cmp_keys pat_p_keys_inj).
    - intros x y; rewrite pat_p_eq_keys, (keys_eq_same E); split; [apply pat_p_keys_inj|now intros ->].
    - intros x y; rewrite pat_p_pcmp_keys, pat_p_cmp_keys; apply keys_pcmp_total, P.
    - exact (pat_p_hash_free H).
  Qed.

  Lemma pat_o_hash_free : (forall x y l m, hash x ++ l = hash y ++ m -> x = y /\ l = m) ->
    forall x y l m, pat_o_hash hash x ++ l = pat_o_hash hash y ++ m -> x = y /\ l = m.
  Proof.
    intros H x y l m; unfold pat_o_hash; destruct x, y; cbn -[ option_hash app];
      intros E; rewrite <- ?app_comm_cons, <- ?app_assoc in E; try discriminate; apply (f_equal (@tl _)) in E; cbn [tl] in E;
      rewrite <- ?app_assoc in E;
      repeat (apply (H) in E as [-> E]); subst; auto.
  Qed.
  Lemma pat_o_key_laws : key_laws eq pcmp cmp hash ->
    key_laws (pat_o_eq eq) (pat_o_pcmp pcmp) (pat_o_cmp cmp) (pat_o_hash hash).
  Proof.
    intros [L E P H]; split.
    - exact (laws_of_keys _ _ L pat_o_cmp_keys pat_o_keys_inj).
    - intros x y; rewrite pat_o_eq_keys, (keys_eq_same E); split; [apply pat_o_keys_inj|now intros ->].
    - intros x y; rewrite pat_o_pcmp_keys, pat_o_cmp_keys; apply keys_pcmp_total, P.
    - exact (pat_o_hash_free H).
  Qed.

  Lemma pat_g_hash_free : (forall x y l m, hash x ++ l = hash y ++ m -> x = y /\ l = m) ->
    forall x y l m, pat_g_hash hash x ++ l = pat_g_hash hash y ++ m -> x = y /\ l = m.
  Proof.
    intros H x y l m; unfold pat_g_hash; destruct x, y; cbn -[ option_hash app];
      intros E; rewrite <- ?app_comm_cons, <- ?app_assoc in E; try discriminate; apply (f_equal (@tl _)) in E; cbn [tl] in E;
      rewrite <- ?app_assoc in E;
      repeat (apply (option_hash_free H) in E as [-> E] || apply (H) in E as [-> E]); subst; auto.
  Qed.
  Lemma pat_g_key_laws : key_laws eq pcmp cmp hash ->
    key_laws (pat_g_eq eq) (pat_g_pcmp pcmp) (pat_g_cmp cmp) (pat_g_hash hash).
  Proof.
    intros [L E P H]; split.
    - exact (laws_of_keys _ _ L pat_g_cmp_keys pat_g_keys_inj).
    - intros x y; rewrite pat_g_eq_keys, (keys_eq_same E); split; [apply pat_g_keys_inj|now intros ->].
    - intros x y; rewrite pat_g_pcmp_keys, pat_g_cmp_keys; apply keys_pcmp_total, P.
    - exact (pat_g_hash_free H).
  Qed.

  Lemma t_aa_hash_free : (forall x y l m, hash x ++ l = hash y ++ m -> x = y /\ l = m) ->
    forall x y l m, t_aa_hash hash x ++ l = t_aa_hash hash y ++ m -> x = y /\ l = m.
  Proof.
    intros H x y l m; unfold t_aa_hash; destruct x, y; cbn -[ option_hash app];
      intros E; rewrite <- ?app_comm_cons, <- ?app_assoc in E; try discriminate; apply (f_equal (@tl _)) in E; cbn [tl] in E;
      rewrite <- ?app_assoc in E;
      repeat (apply (H) in E as [-> E]); subst; auto.
  Qed.
  Lemma t_aa_key_laws : key_laws eq pcmp cmp hash ->
    key_laws (t_aa_eq eq) (t_aa_pcmp pcmp) (t_aa_cmp cmp) (t_aa_hash hash).
  Proof.
    intros [L E P H]; split.
    - exact (laws_of_keys _ _ L t_aa_cmp_keys t_aa_keys_inj).
    - intros x y; rewrite t_aa_eq_keys, (keys_eq_same E); split; [apply t_aa_keys_inj|now intros ->].
    - intros x y; rewrite t_aa_pcmp_keys, t_aa_cmp_keys; apply keys_pcmp_total, P.
    - exact (t_aa_hash_free H).
  Qed.

  Lemma t_ag_hash_free : (forall x y l m, hash x ++ l = hash y ++ m -> x = y /\ l = m) ->
    forall x y l m, t_ag_hash hash x ++ l = t_ag_hash hash y ++ m -> x = y /\ l = m.
  Proof.
    intros H x y l m; unfold t_ag_hash; destruct x, y; cbn -[ option_hash app];
      intros E; rewrite <- ?app_comm_cons, <- ?app_assoc in E; try discriminate; apply (f_equal (@tl _)) in E; cbn [tl] in E;
      rewrite <- ?app_assoc in E;
      repeat (apply (H) in E as [-> E]); subst; auto.
  Qed.
  Lemma t_ag_key_laws : key_laws eq pcmp cmp hash ->
    key_laws (t_ag_eq eq) (t_ag_pcmp pcmp) (t_ag_cmp cmp) (t_ag_hash hash).
  Proof.
    intros [L E P H]; split.
    - exact (laws_of_keys _ _ L t_ag_cmp_keys t_ag_keys_inj).
    - intros x y; rewrite t_ag_eq_keys, (keys_eq_same E); split; [apply t_ag_keys_inj|now intros ->].
    - intros x y; rewrite t_ag_pcmp_keys, t_ag_cmp_keys; apply keys_pcmp_total, P.
    - exact (t_ag_hash_free H).
  Qed.

  Lemma t_ga_hash_free : (forall x y l m, hash x ++ l = hash y ++ m -> x = y /\ l = m) ->
    forall x y l m, t_ga_hash hash x ++ l = t_ga_hash hash y ++ m -> x = y /\ l = m.
  Proof.
    intros H x y l m; unfold t_ga_hash; destruct x, y; cbn -[ option_hash app];
      intros E; rewrite <- ?app_comm_cons, <- ?app_assoc in E; try discriminate; apply (f_equal (@tl _)) in E; cbn [tl] in E;
      rewrite <- ?app_assoc in E;
      repeat (apply (H) in E as [-> E]); subst; auto.
  Qed.
  Lemma t_ga_key_laws : key_laws eq pcmp cmp hash ->
    key_laws (t_ga_eq eq) (t_ga_pcmp pcmp) (t_ga_cmp cmp) (t_ga_hash hash).
  Proof.
    intros [L E P H]; split.
    - exact (laws_of_keys _ _ L t_ga_cmp_keys t_ga_keys_inj).
    - intros x y; rewrite t_ga_eq_keys, (keys_eq_same E); split; [apply t_ga_keys_inj|now intros ->].
    - intros x y; rewrite t_ga_pcmp_keys, t_ga_cmp_keys; apply keys_pcmp_total, P.
    - exact (t_ga_hash_free H).
  Qed.

  Lemma t_gg_hash_free : (forall x y l m, hash x ++ l = hash y ++ m -> x = y /\ l = m) ->
    forall x y l m, t_gg_hash hash x ++ l = t_gg_hash hash y ++ m -> x = y /\ l = m.
  Proof.
    intros H x y l m; unfold t_gg_hash; destruct x, y; cbn -[ option_hash app];
      intros E; rewrite <- ?app_comm_cons, <- ?app_assoc in E; try discriminate; apply (f_equal (@tl _)) in E; cbn [tl] in E;
      rewrite <- ?app_assoc in E;
      repeat (apply (H) in E as [-> E]); subst; auto.
  Qed.
  Lemma t_gg_key_laws : key_laws eq pcmp cmp hash ->
    key_laws (t_gg_eq eq) (t_gg_pcmp pcmp) (t_gg_cmp cmp) (t_gg_hash hash).
  Proof.
    intros [L E P H]; split.
    - exact (laws_of_keys _ _ L t_gg_cmp_keys t_gg_keys_inj).
    - intros x y; rewrite t_gg_eq_keys, (keys_eq_same E); split; [apply t_gg_keys_inj|now intros ->].
    - intros x y; rewrite t_gg_pcmp_keys, t_gg_cmp_keys; apply keys_pcmp_total, P.
    - exact (t_gg_hash_free H).
  Qed.

  Lemma t_as_hash_free : (forall x y l m, hash x ++ l = hash y ++ m -> x = y /\ l = m) ->
    forall x y l m, t_as_hash hash x ++ l = t_as_hash hash y ++ m -> x = y /\ l = m.
  Proof.
    intros H x y l m; unfold t_as_hash; destruct x, y; cbn -[t_aa_hash t_ag_hash option_hash app];
      intros E; rewrite <- ?app_comm_cons, <- ?app_assoc in E; try discriminate; apply (f_equal (@tl _)) in E; cbn [tl] in E;
      rewrite <- ?app_assoc in E;
      repeat (apply (t_aa_hash_free H) in E as [-> E] || apply (t_ag_hash_free H) in E as [-> E] || apply (H) in E as [-> E]); subst; auto.
  Qed.
  Lemma t_as_key_laws : key_laws eq pcmp cmp hash ->
    key_laws (t_as_eq eq) (t_as_pcmp pcmp) (t_as_cmp cmp) (t_as_hash hash).
  Proof.
    intros [L E P H]; split.
    - exact (laws_of_keys _ _ L t_as_cmp_keys t_as_keys_inj).
    - intros x y; rewrite t_as_eq_keys, (keys_eq_same E); split; [apply t_as_keys_inj|now intros ->].
    - intros x y; rewrite t_as_pcmp_keys, t_as_cmp_keys; apply keys_pcmp_total, P.
    - exact (t_as_hash_free H).
  Qed.

  Lemma t_gs_hash_free : (forall x y l m, hash x ++ l = hash y ++ m -> x = y /\ l = m) ->
    forall x y l m, t_gs_hash hash x ++ l = t_gs_hash hash y ++ m -> x = y /\ l = m.
  Proof.
    intros H x y l m; unfold t_gs_hash; destruct x, y; cbn -[t_ga_hash t_gg_hash option_hash app];
      intros E; rewrite <- ?app_comm_cons, <- ?app_assoc in E; try discriminate; apply (f_equal (@tl _)) in E; cbn [tl] in E;
      rewrite <- ?app_assoc in E;
      repeat (apply (t_ga_hash_free H) in E as [-> E] || apply (t_gg_hash_free H) in E as [-> E] || apply (H) in E as [-> E]); subst; auto.
  Qed.
  Lemma t_gs_key_laws : key_laws eq pcmp cmp hash ->
    key_laws (t_gs_eq eq) (t_gs_pcmp pcmp) (t_gs_cmp cmp) (t_gs_hash hash).
  Proof.
    intros [L E P H]; split.
    - exact (laws_of_keys _ _ L t_gs_cmp_keys t_gs_keys_inj).
    - intros x y; rewrite t_gs_eq_keys, (keys_eq_same E); split; [apply t_gs_keys_inj|now intros ->].
    - intros x y; rewrite t_gs_pcmp_keys, t_gs_cmp_keys; apply keys_pcmp_total, P.
    - exact (t_gs_hash_free H).
  Qed.

  Lemma ctp_hash_free : (forall x y l m, hash x ++ l = hash y ++ m -> x = y /\ l = m) ->
    forall x y l m, ctp_hash hash x ++ l = ctp_hash hash y ++ m -> x = y /\ l = m.
  Proof.
    intros H x y l m; unfold ctp_hash; destruct x, y; cbn -[t_as_hash t_gs_hash option_hash app];
      intros E; rewrite <- ?app_comm_cons, <- ?app_assoc in E; try discriminate; apply (f_equal (@tl _)) in E; cbn [tl] in E;
      rewrite <- ?app_assoc in E;
      repeat (apply (t_as_hash_free H) in E as [-> E] || apply (t_gs_hash_free H) in E as [-> E] || apply (H) in E as [-> E]); subst; auto.
  Qed.
  Lemma ctp_key_laws : key_laws eq pcmp cmp hash ->
    key_laws (ctp_eq eq) (ctp_pcmp pcmp) (ctp_cmp cmp) (ctp_hash hash).
  Proof.
    intros [L E P H]; split.
    - exact (laws_of_keys _ _ L ctp_cmp_keys ctp_keys_inj).
    - intros x y; rewrite ctp_eq_keys, (keys_eq_same E); split; [apply ctp_keys_inj|now intros ->].
    - intros x y; rewrite ctp_pcmp_keys, ctp_cmp_keys; apply keys_pcmp_total, P.
    - exact (ctp_hash_free H).
  Qed.

  Lemma q_aaa_hash_free : (forall x y l m, hash x ++ l = hash y ++ m -> x = y /\ l = m) ->
    forall x y l m, q_aaa_hash hash x ++ l = q_aaa_hash hash y ++ m -> x = y /\ l = m.
  Proof.
    intros H x y l m; unfold q_aaa_hash; destruct x, y; cbn -[ option_hash app];
      intros E; rewrite <- ?app_comm_cons, <- ?app_assoc in E; try discriminate; apply (f_equal (@tl _)) in E; cbn [tl] in E;
      rewrite <- ?app_assoc in E;
      repeat (apply (option_hash_free H) in E as [-> E] || apply (H) in E as [-> E]); subst; auto.
  Qed.
  Lemma q_aaa_key_laws : key_laws eq pcmp cmp hash ->
    key_laws (q_aaa_eq eq) (q_aaa_pcmp pcmp) (q_aaa_cmp cmp) (q_aaa_hash hash).
  Proof.
    intros [L E P H]; split.
    - exact (laws_of_keys _ _ L q_aaa_cmp_keys q_aaa_keys_inj).
    - intros x y; rewrite q_aaa_eq_keys, (keys_eq_same E); split; [apply q_aaa_keys_inj|now intros ->].
    - intros x y; rewrite q_aaa_pcmp_keys, q_aaa_cmp_keys; apply keys_pcmp_total, P.
    - exact (q_aaa_hash_free H).
  Qed.

  Lemma q_gaa_hash_free : (forall x y l m, hash x ++ l = hash y ++ m -> x = y /\ l = m) ->
    forall x y l m, q_gaa_hash hash x ++ l = q_gaa_hash hash y ++ m -> x = y /\ l = m.
  Proof.
    intros H x y l m; unfold q_gaa_hash; destruct x, y; cbn -[ option_hash app];
      intros E; rewrite <- ?app_comm_cons, <- ?app_assoc in E; try discriminate; apply (f_equal (@tl _)) in E; cbn [tl] in E;
      rewrite <- ?app_assoc in E;
      repeat (apply (option_hash_free H) in E as [-> E] || apply (H) in E as [-> E]); subst; auto.
  Qed.
  Lemma q_gaa_key_laws : key_laws eq pcmp cmp hash ->
    key_laws (q_gaa_eq eq) (q_gaa_pcmp pcmp) (q_gaa_cmp cmp) (q_gaa_hash hash).
  Proof.
    intros [L E P H]; split.
    - exact (laws_of_keys _ _ L q_gaa_cmp_keys q_gaa_keys_inj).
    - intros x y; rewrite q_gaa_eq_keys, (keys_eq_same E); split; [apply q_gaa_keys_inj|now intros ->].
    - intros x y; rewrite q_gaa_pcmp_keys, q_gaa_cmp_keys; apply keys_pcmp_total, P.
    - exact (q_gaa_hash_free H).
  Qed.

  Lemma q_aga_hash_free : (forall x y l m, hash x ++ l = hash y ++ m -> x = y /\ l = m) ->
    forall x y l m, q_aga_hash hash x ++ l = q_aga_hash hash y ++ m -> x = y /\ l = m.
  Proof.
    intros H x y l m; unfold q_aga_hash; destruct x, y; cbn -[ option_hash app];
      intros E; rewrite <- ?app_comm_cons, <- ?app_assoc in E; try discriminate; apply (f_equal (@tl _)) in E; cbn [tl] in E;
      rewrite <- ?app_assoc in E;
      repeat (apply (option_hash_free H) in E as [-> E] || apply (H) in E as [-> E]); subst; auto.
  Qed.
  Lemma q_aga_key_laws : key_laws eq pcmp cmp hash ->
    key_laws (q_aga_eq eq) (q_aga_pcmp pcmp) (q_aga_cmp cmp) (q_aga_hash hash).
  Proof.
    intros [L E P H]; split.
    - exact (laws_of_keys _ _ L q_aga_cmp_keys q_aga_keys_inj).
    - intros x y; rewrite q_aga_eq_keys, (keys_eq_same E); split; [apply q_aga_keys_inj|now intros ->].
    - intros x y; rewrite q_aga_pcmp_keys, q_aga_cmp_keys; apply keys_pcmp_total, P.
    - exact (q_aga_hash_free H).
  Qed.

  Lemma q_aag_hash_free : (forall x y l m, hash x ++ l = hash y ++ m -> x = y /\ l = m) ->
    forall x y l m, q_aag_hash hash x ++ l = q_aag_hash hash y ++ m -> x = y /\ l = m.
  Proof.
    intros H x y l m; unfold q_aag_hash; destruct x, y; cbn -[ option_hash app];
      intros E; rewrite <- ?app_comm_cons, <- ?app_assoc in E; try discriminate; apply (f_equal (@tl _)) in E; cbn [tl] in E;
      rewrite <- ?app_assoc in E;
      repeat (apply (option_hash_free H) in E as [-> E] || apply (H) in E as [-> E]); subst; auto.
  Qed.
  Lemma q_aag_key_laws : key_laws eq pcmp cmp hash ->
    key_laws (q_aag_eq eq) (q_aag_pcmp pcmp) (q_aag_cmp cmp) (q_aag_hash hash).
  Proof.
    intros [L E P H]; split.
    - exact (laws_of_keys _ _ L q_aag_cmp_keys q_aag_keys_inj).
    - intros x y; rewrite q_aag_eq_keys, (keys_eq_same E); split; [apply q_aag_keys_inj|now intros ->].
    - intros x y; rewrite q_aag_pcmp_keys, q_aag_cmp_keys; apply keys_pcmp_total, P.
    - exact (q_aag_hash_free H).
  Qed.

  Lemma q_agg_hash_free : (forall x y l m, hash x ++ l = hash y ++ m -> x = y /\ l = m) ->
    forall x y l m, q_agg_hash hash x ++ l = q_agg_hash hash y ++ m -> x = y /\ l = m.
  Proof.
    intros H x y l m; unfold q_agg_hash; destruct x, y; cbn -[ option_hash app];
      intros E; rewrite <- ?app_comm_cons, <- ?app_assoc in E; try discriminate; apply (f_equal (@tl _)) in E; cbn [tl] in E;
      rewrite <- ?app_assoc in E;
      repeat (apply (option_hash_free H) in E as [-> E] || apply (H) in E as [-> E]); subst; auto.
  Qed.
  Lemma q_agg_key_laws : key_laws eq pcmp cmp hash ->
    key_laws (q_agg_eq eq) (q_agg_pcmp pcmp) (q_agg_cmp cmp) (q_agg_hash hash).
  Proof.
    intros [L E P H]; split.
    - exact (laws_of_keys _ _ L q_agg_cmp_keys q_agg_keys_inj).
    - intros x y; rewrite q_agg_eq_keys, (keys_eq_same E); split; [apply q_agg_keys_inj|now intros ->].
    - intros x y; rewrite q_agg_pcmp_keys, q_agg_cmp_keys; apply keys_pcmp_total, P.
    - exact (q_agg_hash_free H).
  Qed.

  Lemma q_gag_hash_free : (forall x y l m, hash x ++ l = hash y ++ m -> x = y /\ l = m) ->
    forall x y l m, q_gag_hash hash x ++ l = q_gag_hash hash y ++ m -> x = y /\ l = m.
  Proof.
    intros H x y l m; unfold q_gag_hash; destruct x, y; cbn -[ option_hash app];
      intros E; rewrite <- ?app_comm_cons, <- ?app_assoc in E; try discriminate; apply (f_equal (@tl _)) in E; cbn [tl] in E;
      rewrite <- ?app_assoc in E;
      repeat (apply (option_hash_free H) in E as [-> E] || apply (H) in E as [-> E]); subst; auto.
  Qed.
  Lemma q_gag_key_laws : key_laws eq pcmp cmp hash ->
    key_laws (q_gag_eq eq) (q_gag_pcmp pcmp) (q_gag_cmp cmp) (q_gag_hash hash).
  Proof.
    intros [L E P H]; split.
    - exact (laws_of_keys _ _ L q_gag_cmp_keys q_gag_keys_inj).
    - intros x y; rewrite q_gag_eq_keys, (keys_eq_same E); split; [apply q_gag_keys_inj|now intros ->].
    - intros x y; rewrite q_gag_pcmp_keys, q_gag_cmp_keys; apply keys_pcmp_total, P.
    - exact (q_gag_hash_free H).
  Qed.

  Lemma q_gga_hash_free : (forall x y l m, hash x ++ l = hash y ++ m -> x = y /\ l = m) ->
    forall x y l m, q_gga_hash hash x ++ l = q_gga_hash hash y ++ m -> x = y /\ l = m.
  Proof.
    intros H x y l m; unfold q_gga_hash; destruct x, y; cbn -[ option_hash app];
      intros E; rewrite <- ?app_comm_cons, <- ?app_assoc in E; try discriminate; apply (f_equal (@tl _)) in E; cbn [tl] in E;
      rewrite <- ?app_assoc in E;
      repeat (apply (option_hash_free H) in E as [-> E] || apply (H) in E as [-> E]); subst; auto.
  Qed.
  Lemma q_gga_key_laws : key_laws eq pcmp cmp hash ->
    key_laws (q_gga_eq eq) (q_gga_pcmp pcmp) (q_gga_cmp cmp) (q_gga_hash hash).
  Proof.
    intros [L E P H]; split.
    - exact (laws_of_keys _ _ L q_gga_cmp_keys q_gga_keys_inj).
    - intros x y; rewrite q_gga_eq_keys, (keys_eq_same E); split; [apply q_gga_keys_inj|now intros ->].
    - intros x y; rewrite q_gga_pcmp_keys, q_gga_cmp_keys; apply keys_pcmp_total, P.
    - exact (q_gga_hash_free H).
  Qed.

  Lemma q_ggg_hash_free : (forall x y l m, hash x ++ l = hash y ++ m -> x = y /\ l = m) ->
    forall x y l m, q_ggg_hash hash x ++ l = q_ggg_hash hash y ++ m -> x = y /\ l = m.
  Proof.
    intros H x y l m; unfold q_ggg_hash; destruct x, y; cbn -[ option_hash app];
      intros E; rewrite <- ?app_comm_cons, <- ?app_assoc in E; try discriminate; apply (f_equal (@tl _)) in E; cbn [tl] in E;
      rewrite <- ?app_assoc in E;
      repeat (apply (option_hash_free H) in E as [-> E] || apply (H) in E as [-> E]); subst; auto.
  Qed.
  Lemma q_ggg_key_laws : key_laws eq pcmp cmp hash ->
    key_laws (q_ggg_eq eq) (q_ggg_pcmp pcmp) (q_ggg_cmp cmp) (q_ggg_hash hash).
  Proof.
    intros [L E P H]; split.
    - exact (laws_of_keys _ _ L q_ggg_cmp_keys q_ggg_keys_inj).
    - intros x y; rewrite q_ggg_eq_keys, (keys_eq_same E); split; [apply q_ggg_keys_inj|now intros ->].
    - intros x y; rewrite q_ggg_pcmp_keys, q_ggg_cmp_keys; apply keys_pcmp_total, P.
    - exact (q_ggg_hash_free H).
  Qed.

  Lemma q_aa_hash_free : (forall x y l m, hash x ++ l = hash y ++ m -> x = y /\ l = m) ->
    forall x y l m, q_aa_hash hash x ++ l = q_aa_hash hash y ++ m -> x = y /\ l = m.
  Proof.
    intros H x y l m; unfold q_aa_hash; destruct x, y; cbn -[q_aaa_hash q_aag_hash option_hash app];
      intros E; rewrite <- ?app_comm_cons, <- ?app_assoc in E; try discriminate; apply (f_equal (@tl _)) in E; cbn [tl] in E;
      rewrite <- ?app_assoc in E;
      repeat (apply (q_aaa_hash_free H) in E as [-> E] || apply (q_aag_hash_free H) in E as [-> E] || apply (H) in E as [-> E]); subst; auto.
  Qed.
  Lemma q_aa_key_laws : key_laws eq pcmp cmp hash ->
    key_laws (q_aa_eq eq) (q_aa_pcmp pcmp) (q_aa_cmp cmp) (q_aa_hash hash).
  Proof.
    intros [L E P H]; split.
    - exact (laws_of_keys _ _ L q_aa_cmp_keys q_aa_keys_inj).
    - intros x y; rewrite q_aa_eq_keys, (keys_eq_same E); split; [apply q_aa_keys_inj|now intros ->].
    - intros x y; rewrite q_aa_pcmp_keys, q_aa_cmp_keys; apply keys_pcmp_total, P.
    - exact (q_aa_hash_free H).
  Qed.

  Lemma q_ag_hash_free : (forall x y l m, hash x ++ l = hash y ++ m -> x = y /\ l = m) ->
    forall x y l m, q_ag_hash hash x ++ l = q_ag_hash hash y ++ m -> x = y /\ l = m.
  Proof.
    intros H x y l m; unfold q_ag_hash; destruct x, y; cbn -[q_aga_hash q_agg_hash option_hash app];
      intros E; rewrite <- ?app_comm_cons, <- ?app_assoc in E; try discriminate; apply (f_equal (@tl _)) in E; cbn [tl] in E;
      rewrite <- ?app_assoc in E;
      repeat (apply (q_aga_hash_free H) in E as [-> E] || apply (q_agg_hash_free H) in E as [-> E] || apply (H) in E as [-> E]); subst; auto.
  Qed.
  Lemma q_ag_key_laws : key_laws eq pcmp cmp hash ->
    key_laws (q_ag_eq eq) (q_ag_pcmp pcmp) (q_ag_cmp cmp) (q_ag_hash hash).
  Proof.
    intros [L E P H]; split.
    - exact (laws_of_keys _ _ L q_ag_cmp_keys q_ag_keys_inj).
    - intros x y; rewrite q_ag_eq_keys, (keys_eq_same E); split; [apply q_ag_keys_inj|now intros ->].
    - intros x y; rewrite q_ag_pcmp_keys, q_ag_cmp_keys; apply keys_pcmp_total, P.
    - exact (q_ag_hash_free H).
  Qed.

  Lemma q_ga_hash_free : (forall x y l m, hash x ++ l = hash y ++ m -> x = y /\ l = m) ->
    forall x y l m, q_ga_hash hash x ++ l = q_ga_hash hash y ++ m -> x = y /\ l = m.
  Proof.
    intros H x y l m; unfold q_ga_hash; destruct x, y; cbn -[q_gaa_hash q_gag_hash option_hash app];
      intros E; rewrite <- ?app_comm_cons, <- ?app_assoc in E; try discriminate; apply (f_equal (@tl _)) in E; cbn [tl] in E;
      rewrite <- ?app_assoc in E;
      repeat (apply (q_gaa_hash_free H) in E as [-> E] || apply (q_gag_hash_free H) in E as [-> E] || apply (H) in E as [-> E]); subst; auto.
  Qed.
  Lemma q_ga_key_laws : key_laws eq pcmp cmp hash ->
    key_laws (q_ga_eq eq) (q_ga_pcmp pcmp) (q_ga_cmp cmp) (q_ga_hash hash).
  Proof.
    intros [L E P H]; split.
    - exact (laws_of_keys _ _ L q_ga_cmp_keys q_ga_keys_inj).
    - intros x y; rewrite q_ga_eq_keys, (keys_eq_same E); split; [apply q_ga_keys_inj|now intros ->].
    - intros x y; rewrite q_ga_pcmp_keys, q_ga_cmp_keys; apply keys_pcmp_total, P.
    - exact (q_ga_hash_free H).
  Qed.

  Lemma q_gg_hash_free : (forall x y l m, hash x ++ l = hash y ++ m -> x = y /\ l = m) ->
    forall x y l m, q_gg_hash hash x ++ l = q_gg_hash hash y ++ m -> x = y /\ l = m.
  Proof.
    intros H x y l m; unfold q_gg_hash; destruct x, y; cbn -[q_gga_hash q_ggg_hash option_hash app];
      intros E; rewrite <- ?app_comm_cons, <- ?app_assoc in E; try discriminate; apply (f_equal (@tl _)) in E; cbn [tl] in E;
      rewrite <- ?app_assoc in E;
      repeat (apply (q_gga_hash_free H) in E as [-> E] || apply (q_ggg_hash_free H) in E as [-> E] || apply (H) in E as [-> E]); subst; auto.
  Qed.
  Lemma q_gg_key_laws : key_laws eq pcmp cmp hash ->
    key_laws (q_gg_eq eq) (q_gg_pcmp pcmp) (q_gg_cmp cmp) (q_gg_hash hash).
  Proof.
    intros [L E P H]; split.
    - exact (laws_of_keys _ _ L q_gg_cmp_keys q_gg_keys_inj).
    - intros x y; rewrite q_gg_eq_keys, (keys_eq_same E); split; [apply q_gg_keys_inj|now intros ->].
    - intros x y; rewrite q_gg_pcmp_keys, q_gg_cmp_keys; apply keys_pcmp_total, P.
    - exact (q_gg_hash_free H).
  Qed.

  Lemma q_as_hash_free : (forall x y l m, hash x ++ l = hash y ++ m -> x = y /\ l = m) ->
    forall x y l m, q_as_hash hash x ++ l = q_as_hash hash y ++ m -> x = y /\ l = m.
  Proof.
    intros H x y l m; unfold q_as_hash; destruct x, y; cbn -[q_aa_hash q_ag_hash option_hash app];
      intros E; rewrite <- ?app_comm_cons, <- ?app_assoc in E; try discriminate; apply (f_equal (@tl _)) in E; cbn [tl] in E;
      rewrite <- ?app_assoc in E;
      repeat (apply (q_aa_hash_free H) in E as [-> E] || apply (q_ag_hash_free H) in E as [-> E] || apply (H) in E as [-> E]); subst; auto.
  Qed.
  Lemma q_as_key_laws : key_laws eq pcmp cmp hash ->
    key_laws (q_as_eq eq) (q_as_pcmp pcmp) (q_as_cmp cmp) (q_as_hash hash).
  Proof.
    intros [L E P H]; split.
    - exact (laws_of_keys _ _ L q_as_cmp_keys q_as_keys_inj).
    - intros x y; rewrite q_as_eq_keys, (keys_eq_same E); split; [apply q_as_keys_inj|now intros ->].
    - intros x y; rewrite q_as_pcmp_keys, q_as_cmp_keys; apply keys_pcmp_total, P.
    - exact (q_as_hash_free H).
  Qed.

  Lemma q_gs_hash_free : (forall x y l m, hash x ++ l = hash y ++ m -> x = y /\ l = m) ->
    forall x y l m, q_gs_hash hash x ++ l = q_gs_hash hash y ++ m -> x = y /\ l = m.
  Proof.
    intros H x y l m; unfold q_gs_hash; destruct x, y; cbn -[q_ga_hash q_gg_hash option_hash app];
      intros E; rewrite <- ?app_comm_cons, <- ?app_assoc in E; try discriminate; apply (f_equal (@tl _)) in E; cbn [tl] in E;
      rewrite <- ?app_assoc in E;
      repeat (apply (q_ga_hash_free H) in E as [-> E] || apply (q_gg_hash_free H) in E as [-> E] || apply (H) in E as [-> E]); subst; auto.
  Qed.
  Lemma q_gs_key_laws : key_laws eq pcmp cmp hash ->
    key_laws (q_gs_eq eq) (q_gs_pcmp pcmp) (q_gs_cmp cmp) (q_gs_hash hash).
  Proof.
    intros [L E P H]; split.
    - exact (laws_of_keys _ _ L q_gs_cmp_keys q_gs_keys_inj).
    - intros x y; rewrite q_gs_eq_keys, (keys_eq_same E); split; [apply q_gs_keys_inj|now intros ->].
    - intros x y; rewrite q_gs_pcmp_keys, q_gs_cmp_keys; apply keys_pcmp_total, P.
    - exact (q_gs_hash_free H).
  Qed.

  Lemma cqp_hash_free : (forall x y l m, hash x ++ l = hash y ++ m -> x = y /\ l = m) ->
    forall x y l m, cqp_hash hash x ++ l = cqp_hash hash y ++ m -> x = y /\ l = m.
  Proof.
    intros H x y l m; unfold cqp_hash; destruct x, y; cbn -[q_as_hash q_gs_hash option_hash app];
      intros E; rewrite <- ?app_comm_cons, <- ?app_assoc in E; try discriminate; apply (f_equal (@tl _)) in E; cbn [tl] in E;
      rewrite <- ?app_assoc in E;
      repeat (apply (q_as_hash_free H) in E as [-> E] || apply (q_gs_hash_free H) in E as [-> E] || apply (H) in E as [-> E]); subst; auto.
  Qed.
  Lemma cqp_key_laws : key_laws eq pcmp cmp hash ->
    key_laws (cqp_eq eq) (cqp_pcmp pcmp) (cqp_cmp cmp) (cqp_hash hash).
  Proof.
    intros [L E P H]; split.
    - exact (laws_of_keys _ _ L cqp_cmp_keys cqp_keys_inj).
    - intros x y; rewrite cqp_eq_keys, (keys_eq_same E); split; [apply cqp_keys_inj|now intros ->].
    - intros x y; rewrite cqp_pcmp_keys, cqp_cmp_keys; apply keys_pcmp_total, P.
    - exact (cqp_hash_free H).
  Qed.

  Context (fits : forall x y, eq x y = true -> hash x = hash y).
  Lemma option_hash_fits x y : option_eq eq x y = true -> option_hash hash x = option_hash hash y.
  Proof using fits. destruct x, y; cbn; intros H; try discriminate; [f_equal; auto|reflexivity]. Qed.
  Lemma pat_s_hash_fits x y : pat_s_eq eq x y = true -> pat_s_hash hash x = pat_s_hash hash y.
  Proof using fits.
    unfold pat_s_eq, pat_s_hash; destruct x, y; cbn -[ option_hash option_eq];
      intros H; try discriminate; try reflexivity; try match type of H with _ && _ = true => apply andb_true_iff in H as [? ?] end;
      apply (f_equal (cons _)); try apply (f_equal2 (@app _)); (now apply fits).
  Qed.
  Lemma pat_p_hash_fits x y : pat_p_eq eq x y = true -> pat_p_hash hash x = pat_p_hash hash y.
  Proof using fits.
    unfold pat_p_eq, pat_p_hash; destruct x, y; cbn -[ option_hash option_eq];
      intros H; try discriminate; try reflexivity; try match type of H with _ && _ = true => apply andb_true_iff in H as [? ?] end;
      apply (f_equal (cons _)); try apply (f_equal2 (@app _)); (now apply fits).
  Qed.
  Lemma pat_o_hash_fits x y : pat_o_eq eq x y = true -> pat_o_hash hash x = pat_o_hash hash y.
  Proof using fits.
    unfold pat_o_eq, pat_o_hash; destruct x, y; cbn -[ option_hash option_eq];
      intros H; try discriminate; try reflexivity; try match type of H with _ && _ = true => apply andb_true_iff in H as [? ?] end;
      apply (f_equal (cons _)); try apply (f_equal2 (@app _)); (now apply fits).
  Qed.
  Lemma pat_g_hash_fits x y : pat_g_eq eq x y = true -> pat_g_hash hash x = pat_g_hash hash y.
  Proof using fits.
    unfold pat_g_eq, pat_g_hash; destruct x, y; cbn -[ option_hash option_eq];
      intros H; try discriminate; try reflexivity; try match type of H with _ && _ = true => apply andb_true_iff in H as [? ?] end;
      apply (f_equal (cons _)); try apply (f_equal2 (@app _)); (now apply option_hash_fits) || (now apply fits).
  Qed.
  Lemma t_aa_hash_fits x y : t_aa_eq eq x y = true -> t_aa_hash hash x = t_aa_hash hash y.
  Proof using fits.
    unfold t_aa_eq, t_aa_hash; destruct x, y; cbn -[ option_hash option_eq];
      intros H; try discriminate; try reflexivity; try match type of H with _ && _ = true => apply andb_true_iff in H as [? ?] end;
      apply (f_equal (cons _)); try apply (f_equal2 (@app _)); (now apply fits).
  Qed.
  Lemma t_ag_hash_fits x y : t_ag_eq eq x y = true -> t_ag_hash hash x = t_ag_hash hash y.
  Proof using fits.
    unfold t_ag_eq, t_ag_hash; destruct x, y; cbn -[ option_hash option_eq];
      intros H; try discriminate; try reflexivity; try match type of H with _ && _ = true => apply andb_true_iff in H as [? ?] end;
      apply (f_equal (cons _)); try apply (f_equal2 (@app _)); (now apply fits).
  Qed.
  Lemma t_ga_hash_fits x y : t_ga_eq eq x y = true -> t_ga_hash hash x = t_ga_hash hash y.
  Proof using fits.
    unfold t_ga_eq, t_ga_hash; destruct x, y; cbn -[ option_hash option_eq];
      intros H; try discriminate; try reflexivity; try match type of H with _ && _ = true => apply andb_true_iff in H as [? ?] end;
      apply (f_equal (cons _)); try apply (f_equal2 (@app _)); (now apply fits).
  Qed.
  Lemma t_gg_hash_fits x y : t_gg_eq eq x y = true -> t_gg_hash hash x = t_gg_hash hash y.
  Proof using fits.
    unfold t_gg_eq, t_gg_hash; destruct x, y; cbn -[ option_hash option_eq];
      intros H; try discriminate; try reflexivity; try match type of H with _ && _ = true => apply andb_true_iff in H as [? ?] end;
      apply (f_equal (cons _)); try apply (f_equal2 (@app _)); (now apply fits).
  Qed.
  Lemma t_as_hash_fits x y : t_as_eq eq x y = true -> t_as_hash hash x = t_as_hash hash y.
  Proof using fits.
    unfold t_as_eq, t_as_hash; destruct x, y; cbn -[t_aa_hash t_aa_eq t_ag_hash t_ag_eq option_hash option_eq];
      intros H; try discriminate; try reflexivity; try match type of H with _ && _ = true => apply andb_true_iff in H as [? ?] end;
      apply (f_equal (cons _)); try apply (f_equal2 (@app _)); (now apply t_aa_hash_fits) || (now apply t_ag_hash_fits) || (now apply fits).
  Qed.
  Lemma t_gs_hash_fits x y : t_gs_eq eq x y = true -> t_gs_hash hash x = t_gs_hash hash y.
  Proof using fits.
    unfold t_gs_eq, t_gs_hash; destruct x, y; cbn -[t_ga_hash t_ga_eq t_gg_hash t_gg_eq option_hash option_eq];
      intros H; try discriminate; try reflexivity; try match type of H with _ && _ = true => apply andb_true_iff in H as [? ?] end;
      apply (f_equal (cons _)); try apply (f_equal2 (@app _)); (now apply t_ga_hash_fits) || (now apply t_gg_hash_fits) || (now apply fits).
  Qed.
  Lemma ctp_hash_fits x y : ctp_eq eq x y = true -> ctp_hash hash x = ctp_hash hash y.
  Proof using fits.
    unfold ctp_eq, ctp_hash; destruct x, y; cbn -[t_as_hash t_as_eq t_gs_hash t_gs_eq option_hash option_eq];
      intros H; try discriminate; try reflexivity; try match type of H with _ && _ = true => apply andb_true_iff in H as [? ?] end;
      apply (f_equal (cons _)); try apply (f_equal2 (@app _)); (now apply t_as_hash_fits) || (now apply t_gs_hash_fits) || (now apply fits).
  Qed.
  Lemma q_aaa_hash_fits x y : q_aaa_eq eq x y = true -> q_aaa_hash hash x = q_aaa_hash hash y.
  Proof using fits.
    unfold q_aaa_eq, q_aaa_hash; destruct x, y; cbn -[ option_hash option_eq];
      intros H; try discriminate; try reflexivity; try match type of H with _ && _ = true => apply andb_true_iff in H as [? ?] end;
      apply (f_equal (cons _)); try apply (f_equal2 (@app _)); (now apply option_hash_fits) || (now apply fits).
  Qed.
  Lemma q_gaa_hash_fits x y : q_gaa_eq eq x y = true -> q_gaa_hash hash x = q_gaa_hash hash y.
  Proof using fits.
    unfold q_gaa_eq, q_gaa_hash; destruct x, y; cbn -[ option_hash option_eq];
      intros H; try discriminate; try reflexivity; try match type of H with _ && _ = true => apply andb_true_iff in H as [? ?] end;
      apply (f_equal (cons _)); try apply (f_equal2 (@app _)); (now apply option_hash_fits) || (now apply fits).
  Qed.
  Lemma q_aga_hash_fits x y : q_aga_eq eq x y = true -> q_aga_hash hash x = q_aga_hash hash y.
  Proof using fits.
    unfold q_aga_eq, q_aga_hash; destruct x, y; cbn -[ option_hash option_eq];
      intros H; try discriminate; try reflexivity; try match type of H with _ && _ = true => apply andb_true_iff in H as [? ?] end;
      apply (f_equal (cons _)); try apply (f_equal2 (@app _)); (now apply option_hash_fits) || (now apply fits).
  Qed.
  Lemma q_aag_hash_fits x y : q_aag_eq eq x y = true -> q_aag_hash hash x = q_aag_hash hash y.
  Proof using fits.
    unfold q_aag_eq, q_aag_hash; destruct x, y; cbn -[ option_hash option_eq];
      intros H; try discriminate; try reflexivity; try match type of H with _ && _ = true => apply andb_true_iff in H as [? ?] end;
      apply (f_equal (cons _)); try apply (f_equal2 (@app _)); (now apply option_hash_fits) || (now apply fits).
  Qed.
  Lemma q_agg_hash_fits x y : q_agg_eq eq x y = true -> q_agg_hash hash x = q_agg_hash hash y.
  Proof using fits.
    unfold q_agg_eq, q_agg_hash; destruct x, y; cbn -[ option_hash option_eq];
      intros H; try discriminate; try reflexivity; try match type of H with _ && _ = true => apply andb_true_iff in H as [? ?] end;
      apply (f_equal (cons _)); try apply (f_equal2 (@app _)); (now apply option_hash_fits) || (now apply fits).
  Qed.
  Lemma q_gag_hash_fits x y : q_gag_eq eq x y = true -> q_gag_hash hash x = q_gag_hash hash y.
  Proof using fits.
    unfold q_gag_eq, q_gag_hash; destruct x, y; cbn -[ option_hash option_eq];
      intros H; try discriminate; try reflexivity; try match type of H with _ && _ = true => apply andb_true_iff in H as [? ?] end;
      apply (f_equal (cons _)); try apply (f_equal2 (@app _)); (now apply option_hash_fits) || (now apply fits).
  Qed.
  Lemma q_gga_hash_fits x y : q_gga_eq eq x y = true -> q_gga_hash hash x = q_gga_hash hash y.
  Proof using fits.
    unfold q_gga_eq, q_gga_hash; destruct x, y; cbn -[ option_hash option_eq];
      intros H; try discriminate; try reflexivity; try match type of H with _ && _ = true => apply andb_true_iff in H as [? ?] end;
      apply (f_equal (cons _)); try apply (f_equal2 (@app _)); (now apply option_hash_fits) || (now apply fits).
  Qed.
  Lemma q_ggg_hash_fits x y : q_ggg_eq eq x y = true -> q_ggg_hash hash x = q_ggg_hash hash y.
  Proof using fits.
    unfold q_ggg_eq, q_ggg_hash; destruct x, y; cbn -[ option_hash option_eq];
      intros H; try discriminate; try reflexivity; try match type of H with _ && _ = true => apply andb_true_iff in H as [? ?] end;
      apply (f_equal (cons _)); try apply (f_equal2 (@app _)); (now apply option_hash_fits) || (now apply fits).
  Qed.
  Lemma q_aa_hash_fits x y : q_aa_eq eq x y = true -> q_aa_hash hash x = q_aa_hash hash y.
  Proof using fits.
    unfold q_aa_eq, q_aa_hash; destruct x, y; cbn -[q_aaa_hash q_aaa_eq q_aag_hash q_aag_eq option_hash option_eq];
      intros H; try discriminate; try reflexivity; try match type of H with _ && _ = true => apply andb_true_iff in H as [? ?] end;
      apply (f_equal (cons _)); try apply (f_equal2 (@app _)); (now apply q_aaa_hash_fits) || (now apply q_aag_hash_fits) || (now apply fits).
  Qed.
  Lemma q_ag_hash_fits x y : q_ag_eq eq x y = true -> q_ag_hash hash x = q_ag_hash hash y.
  Proof using fits.
    unfold q_ag_eq, q_ag_hash; destruct x, y; cbn -[q_aga_hash q_aga_eq q_agg_hash q_agg_eq option_hash option_eq];
      intros H; try discriminate; try reflexivity; try match type of H with _ && _ = true => apply andb_true_iff in H as [? ?] end;
      apply (f_equal (cons _)); try apply (f_equal2 (@app _)); (now apply q_aga_hash_fits) || (now apply q_agg_hash_fits) || (now apply fits).
  Qed.
  Lemma q_ga_hash_fits x y : q_ga_eq eq x y = true -> q_ga_hash hash x = q_ga_hash hash y.
  Proof using fits.
    unfold q_ga_eq, q_ga_hash; destruct x, y; cbn -[q_gaa_hash q_gaa_eq q_gag_hash q_gag_eq option_hash option_eq];
      intros H; try discriminate; try reflexivity; try match type of H with _ && _ = true => apply andb_true_iff in H as [? ?] end;
      apply (f_equal (cons _)); try apply (f_equal2 (@app _)); (now apply q_gaa_hash_fits) || (now apply q_gag_hash_fits) || (now apply fits).
  Qed.
  Lemma q_gg_hash_fits x y : q_gg_eq eq x y = true -> q_gg_hash hash x = q_gg_hash hash y.
  Proof using fits.
    unfold q_gg_eq, q_gg_hash; destruct x, y; cbn -[q_gga_hash q_gga_eq q_ggg_hash q_ggg_eq option_hash option_eq];
      intros H; try discriminate; try reflexivity; try match type of H with _ && _ = true => apply andb_true_iff in H as [? ?] end;
      apply (f_equal (cons _)); try apply (f_equal2 (@app _)); (now apply q_gga_hash_fits) || (now apply q_ggg_hash_fits) || (now apply fits).
  Qed.
  Lemma q_as_hash_fits x y : q_as_eq eq x y = true -> q_as_hash hash x = q_as_hash hash y.
  Proof using fits.
    unfold q_as_eq, q_as_hash; destruct x, y; cbn -[q_aa_hash q_aa_eq q_ag_hash q_ag_eq option_hash option_eq];
      intros H; try discriminate; try reflexivity; try match type of H with _ && _ = true => apply andb_true_iff in H as [? ?] end;
      apply (f_equal (cons _)); try apply (f_equal2 (@app _)); (now apply q_aa_hash_fits) || (now apply q_ag_hash_fits) || (now apply fits).
  Qed.
  Lemma q_gs_hash_fits x y : q_gs_eq eq x y = true -> q_gs_hash hash x = q_gs_hash hash y.
  Proof using fits.
    unfold q_gs_eq, q_gs_hash; destruct x, y; cbn -[q_ga_hash q_ga_eq q_gg_hash q_gg_eq option_hash option_eq];
      intros H; try discriminate; try reflexivity; try match type of H with _ && _ = true => apply andb_true_iff in H as [? ?] end;
      apply (f_equal (cons _)); try apply (f_equal2 (@app _)); (now apply q_ga_hash_fits) || (now apply q_gg_hash_fits) || (now apply fits).
  Qed.
  Lemma cqp_hash_fits x y : cqp_eq eq x y = true -> cqp_hash hash x = cqp_hash hash y.
  Proof using fits.
    unfold cqp_eq, cqp_hash; destruct x, y; cbn -[q_as_hash q_as_eq q_gs_hash q_gs_eq option_hash option_eq];
      intros H; try discriminate; try reflexivity; try match type of H with _ && _ = true => apply andb_true_iff in H as [? ?] end;
      apply (f_equal (cons _)); try apply (f_equal2 (@app _)); (now apply q_as_hash_fits) || (now apply q_gs_hash_fits) || (now apply fits).
  Qed.
End Keys.

(** ** Together *)

Lemma triple_pattern_compared T (eq : T -> T -> bool) pcmp cmp (c d : ctp T) :
  ctp_eq eq c d = keys_eq eq (triple_keys c) (triple_keys d) /\
  ctp_pcmp pcmp c d = keys_pcmp pcmp (triple_keys c) (triple_keys d) /\
  ctp_cmp cmp c d = keys_cmp cmp (triple_keys c) (triple_keys d).
Proof. repeat split; [apply ctp_eq_keys|apply ctp_pcmp_keys|apply ctp_cmp_keys]. Qed.
Lemma quad_pattern_compared T (eq : T -> T -> bool) pcmp cmp (c d : cqp T) :
  cqp_eq eq c d = keys_eq eq (quad_keys c) (quad_keys d) /\
  cqp_pcmp pcmp c d = keys_pcmp pcmp (quad_keys c) (quad_keys d) /\
  cqp_cmp cmp c d = keys_cmp cmp (quad_keys c) (quad_keys d).
Proof. repeat split; [apply cqp_eq_keys|apply cqp_pcmp_keys|apply cqp_cmp_keys]. Qed.

Lemma triple_pattern_keys T K (eq : T -> T -> bool) pcmp cmp (hash : T -> list (fed K)) :
  key_laws eq pcmp cmp hash ->
    key_laws (ctp_eq eq) (ctp_pcmp pcmp) (ctp_cmp cmp) (ctp_hash hash) /\
    key_laws (t_as_eq eq) (t_as_pcmp pcmp) (t_as_cmp cmp) (t_as_hash hash) /\
    key_laws (t_gs_eq eq) (t_gs_pcmp pcmp) (t_gs_cmp cmp) (t_gs_hash hash) /\
    key_laws (t_aa_eq eq) (t_aa_pcmp pcmp) (t_aa_cmp cmp) (t_aa_hash hash) /\
    key_laws (t_ag_eq eq) (t_ag_pcmp pcmp) (t_ag_cmp cmp) (t_ag_hash hash) /\
    key_laws (t_ga_eq eq) (t_ga_pcmp pcmp) (t_ga_cmp cmp) (t_ga_hash hash) /\
    key_laws (t_gg_eq eq) (t_gg_pcmp pcmp) (t_gg_cmp cmp) (t_gg_hash hash).
Proof.
  intros H; (split; [now apply ctp_key_laws|]); (split; [now apply t_as_key_laws|]); (split; [now apply t_gs_key_laws|]); (split; [now apply t_aa_key_laws|]); (split; [now apply t_ag_key_laws|]); (split; [now apply t_ga_key_laws|]); now apply t_gg_key_laws.
Qed.

Lemma quad_pattern_keys T K (eq : T -> T -> bool) pcmp cmp (hash : T -> list (fed K)) :
  key_laws eq pcmp cmp hash ->
    key_laws (cqp_eq eq) (cqp_pcmp pcmp) (cqp_cmp cmp) (cqp_hash hash) /\
    key_laws (q_gs_eq eq) (q_gs_pcmp pcmp) (q_gs_cmp cmp) (q_gs_hash hash) /\
    key_laws (q_as_eq eq) (q_as_pcmp pcmp) (q_as_cmp cmp) (q_as_hash hash) /\
    key_laws (q_gg_eq eq) (q_gg_pcmp pcmp) (q_gg_cmp cmp) (q_gg_hash hash) /\
    key_laws (q_ga_eq eq) (q_ga_pcmp pcmp) (q_ga_cmp cmp) (q_ga_hash hash) /\
    key_laws (q_ag_eq eq) (q_ag_pcmp pcmp) (q_ag_cmp cmp) (q_ag_hash hash) /\
    key_laws (q_aa_eq eq) (q_aa_pcmp pcmp) (q_aa_cmp cmp) (q_aa_hash hash) /\
    key_laws (q_ggg_eq eq) (q_ggg_pcmp pcmp) (q_ggg_cmp cmp) (q_ggg_hash hash) /\
    key_laws (q_gga_eq eq) (q_gga_pcmp pcmp) (q_gga_cmp cmp) (q_gga_hash hash) /\
    key_laws (q_gag_eq eq) (q_gag_pcmp pcmp) (q_gag_cmp cmp) (q_gag_hash hash) /\
    key_laws (q_agg_eq eq) (q_agg_pcmp pcmp) (q_agg_cmp cmp) (q_agg_hash hash) /\
    key_laws (q_aag_eq eq) (q_aag_pcmp pcmp) (q_aag_cmp cmp) (q_aag_hash hash) /\
    key_laws (q_aga_eq eq) (q_aga_pcmp pcmp) (q_aga_cmp cmp) (q_aga_hash hash) /\
    key_laws (q_gaa_eq eq) (q_gaa_pcmp pcmp) (q_gaa_cmp cmp) (q_gaa_hash hash) /\
    key_laws (q_aaa_eq eq) (q_aaa_pcmp pcmp) (q_aaa_cmp cmp) (q_aaa_hash hash).
Proof.
  intros H; (split; [now apply cqp_key_laws|]); (split; [now apply q_gs_key_laws|]); (split; [now apply q_as_key_laws|]); (split; [now apply q_gg_key_laws|]); (split; [now apply q_ga_key_laws|]); (split; [now apply q_ag_key_laws|]); (split; [now apply q_aa_key_laws|]); (split; [now apply q_ggg_key_laws|]); (split; [now apply q_gga_key_laws|]); (split; [now apply q_gag_key_laws|]); (split; [now apply q_agg_key_laws|]); (split; [now apply q_aag_key_laws|]); (split; [now apply q_aga_key_laws|]); (split; [now apply q_gaa_key_laws|]); now apply q_aaa_key_laws.
Qed.

Lemma component_keys T K (eq : T -> T -> bool) pcmp cmp (hash : T -> list (fed K)) :
  key_laws eq pcmp cmp hash ->
    key_laws (pat_s_eq eq) (pat_s_pcmp pcmp) (pat_s_cmp cmp) (pat_s_hash hash) /\
    key_laws (pat_p_eq eq) (pat_p_pcmp pcmp) (pat_p_cmp cmp) (pat_p_hash hash) /\
    key_laws (pat_o_eq eq) (pat_o_pcmp pcmp) (pat_o_cmp cmp) (pat_o_hash hash) /\
    key_laws (pat_g_eq eq) (pat_g_pcmp pcmp) (pat_g_cmp cmp) (pat_g_hash hash).
Proof.
  intros H; (split; [now apply pat_s_key_laws|]); (split; [now apply pat_p_key_laws|]); (split; [now apply pat_o_key_laws|]); now apply pat_g_key_laws.
Qed.

Lemma triple_pattern_meaning T (a b : T) cmp : a <> b -> ord_laws cmp ->
  forall c d : ctp T, ctp_cmp cmp c d = Eq <-> forall t, ct_matches c t <-> ct_matches d t.
Proof.
  intros N L c d; rewrite (ord_eq _ (laws_of_keys cmp _ _ L (ctp_cmp_keys cmp) ctp_keys_inj)).
  split; [now intros ->|now apply (ct_canonical a b)].
Qed.
Lemma quad_pattern_meaning T (a b : T) cmp : a <> b -> ord_laws cmp ->
  forall c d : cqp T, cqp_cmp cmp c d = Eq <-> forall q, cq_matches c q <-> cq_matches d q.
Proof.
  intros N L c d; rewrite (ord_eq _ (laws_of_keys cmp _ _ L (cqp_cmp_keys cmp) cqp_keys_inj)).
  split; [now intros ->|now apply (cq_canonical a b)].
Qed.

Lemma pattern_hashes T K (eq : T -> T -> bool) (hash : T -> list (fed K)) :
  (forall x y, eq x y = true -> hash x = hash y) ->
  (forall c d : ctp T, ctp_eq eq c d = true -> ctp_hash hash c = ctp_hash hash d) /\
  (forall c d : cqp T, cqp_eq eq c d = true -> cqp_hash hash c = cqp_hash hash d).
Proof. intros F; split; intros c d; [now apply ctp_hash_fits|now apply cqp_hash_fits]. Qed.

Lemma variable_hashes T X K (et : T -> T -> bool) (ex : X -> X -> bool) (ht : T -> list (fed K)) hx :
  (forall x y, et x y = true -> ht x = ht y) -> (forall x y, ex x y = true -> hx x = hx y) ->
  forall a b : res_or_var T X, rv_eq et ex a b = true -> rv_hash ht hx a = rv_hash ht hx b.
Proof.
  intros Ft Fx [a|a] [b|b]; cbn; intros E; try discriminate; unfold rv_hash; cbn; f_equal; auto.
Qed.
Lemma variable_keys T X K et pt ct (ht : T -> list (fed K)) ex px cx (hx : X -> list (fed K)) :
  key_laws et pt ct ht -> key_laws ex px cx hx ->
  key_laws (rv_eq et ex) (rv_pcmp pt px) (rv_cmp ct cx) (rv_hash ht hx).
Proof.
  intros [Lt Et Pt Ht] [Lx Ex Px Hx]; split; [split|..].
  - intros [a|a] [b|b]; cbn; rewrite ?(ord_eq _ Lt), ?(ord_eq _ Lx); split; congruence.
  - intros [a|a] [b|b]; cbn; try reflexivity; [apply (ord_sym _ Lt)|apply (ord_sym _ Lx)].
  - intros [a|a] [b|b] [c|c]; cbn; try discriminate; try reflexivity;
      [apply (ord_trans _ Lt)|apply (ord_trans _ Lx)].
  - intros [a|a] [b|b]; cbn; rewrite ?Et, ?Ex; split; congruence.
  - intros [a|a] [b|b]; cbn; try reflexivity; auto.
  - intros [a|a] [b|b] l m; unfold rv_hash; cbn; intros E; inversion E as [E'].
    + destruct (Ht _ _ _ _ E') as [-> ->]; auto.
    + destruct (Hx _ _ _ _ E') as [-> ->]; auto.
Qed.

Lemma statement_hashes S P O G K es ep eo eg (hs : S -> list (fed K)) (hp : P -> list (fed K))
    (ho : O -> list (fed K)) (hg : G -> list (fed K)) :
  (forall x y, es x y = true -> hs x = hs y) -> (forall x y, ep x y = true -> hp x = hp y) ->
  (forall x y, eo x y = true -> ho x = ho y) -> (forall x y, eg x y = true -> hg x = hg y) ->
  (forall a b, triple_eqb es ep eo a b = true -> triple_hash hs hp ho a = triple_hash hs hp ho b) /\
  (forall a b, quad_eqb es ep eo eg a b = true -> quad_hash hs hp ho hg a = quad_hash hs hp ho hg b).
Proof.
  intros Fs Fp Fo Fg; split; intros a b; unfold triple_eqb, quad_eqb, triple_hash, quad_hash.
  - rewrite !andb_true_iff; intros [[H1 H2] H3].
    now rewrite (Fs _ _ H1), (Fp _ _ H2), (Fo _ _ H3).
  - rewrite !andb_true_iff; intros [[[H1 H2] H3] H4].
    rewrite (Fs _ _ H1), (Fp _ _ H2), (Fo _ _ H3); do 3 f_equal.
    destruct (q_g a), (q_g b); try discriminate; cbn; [now rewrite (Fg _ _ H4)|reflexivity].
Qed.
Lemma statement_hashes_free S P O G K (hs : S -> list (fed K)) (hp : P -> list (fed K))
    (ho : O -> list (fed K)) (hg : G -> list (fed K)) :
  (forall x y l m, hs x ++ l = hs y ++ m -> x = y /\ l = m) ->
  (forall x y l m, hp x ++ l = hp y ++ m -> x = y /\ l = m) ->
  (forall x y l m, ho x ++ l = ho y ++ m -> x = y /\ l = m) ->
  (forall x y l m, hg x ++ l = hg y ++ m -> x = y /\ l = m) ->
  (forall a b l m, triple_hash hs hp ho a ++ l = triple_hash hs hp ho b ++ m -> a = b /\ l = m) /\
  (forall a b l m, quad_hash hs hp ho hg a ++ l = quad_hash hs hp ho hg b ++ m -> a = b /\ l = m).
Proof.
  intros Fs Fp Fo Fg; split; intros [s p o] [s' p' o'] l m || intros [s p o g] [s' p' o' g'] l m;
    unfold triple_hash, quad_hash; cbn -[option_hash]; rewrite <- !app_assoc; intros E;
    apply Fs in E as [-> E]; apply Fp in E as [-> E]; apply Fo in E as [-> E]; [now subst|].
  apply (option_hash_free _ Fg) in E as [-> ->]; auto.
Qed.

Lemma variables_compared {T X} (ct : T -> T -> comparison) (cx : X -> X -> comparison) :
  (forall a b, rv_cmp ct cx (Res a) (Res b) = ct a b) /\
  (forall x y, rv_cmp ct cx (Var x) (Var y) = cx x y) /\
  (forall a x, rv_cmp ct cx (Res a) (Var x) = Lt /\ rv_cmp ct cx (Var x) (Res a) = Gt).
Proof. repeat split. Qed.
