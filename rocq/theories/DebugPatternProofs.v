(** [{:?}] and [{:#?}] of patterns. *)
From Coq Require Import List NArith Bool Ascii String.
Import ListNotations.
From Verif Require Import Base TextModel TripleModel DisplayModel TermModel TriplePatternModel
  QuadPatternModel WriteModel WriteSpec WriteProofs DebugModel DebugSpec DebugProofs DebugReadProofs.

Lemma good_rv {T X} class (C : has_ascii class) (dt : T -> dval) (dx : X -> dval) ft fx :
  good class dt ft -> good class dx fx ->
  good class (d_rv dt dx) (rv_tree ft fx).
Proof. intros GT GX. good_enum C. Qed.

Section Patterns.
  Context {T : Type} (class : char -> Prop) (C : has_ascii class) (dt : T -> dval) (f : T -> tree)
    (G : good class dt f).
  Let GO : good class (d_option dt) (option_tree f) := good_option class C dt f G.

  Ltac pattern_good := pose proof G; pose proof GO; good_enum C.

  Lemma good_pat_s : good class (d_pat_s dt) (s_tree f).
  Proof. pattern_good. Qed.
  Lemma good_pat_p : good class (d_pat_p dt) (p_tree f).
  Proof. pattern_good. Qed.
  Lemma good_pat_o : good class (d_pat_o dt) (o_tree f).
  Proof. pattern_good. Qed.
  Lemma good_pat_g : good class (d_pat_g dt) (g_tree f).
  Proof. pattern_good. Qed.
  Definition tree_t_aa (x : t_aa T) : tree :=
    match x with
    | TAA_Any => Tuple "AnyObject" []
    | TAA_SameS => Tuple "SameAsSubject" []
    | TAA_SameP => Tuple "SameAsPredicate" []
    | TAA_Given a0 => Tuple "GivenObject" [f a0]
    end.
  Lemma good_t_aa : good class (d_t_aa dt) tree_t_aa.
  Proof. pattern_good. Qed.
  Definition tree_t_ag (x : t_ag T) : tree :=
    match x with
    | TAG_Any => Tuple "AnyObject" []
    | TAG_SameS => Tuple "SameAsSubject" []
    | TAG_Given a0 => Tuple "GivenObject" [f a0]
    end.
  Lemma good_t_ag : good class (d_t_ag dt) tree_t_ag.
  Proof. pattern_good. Qed.
  Definition tree_t_ga (x : t_ga T) : tree :=
    match x with
    | TGA_Any => Tuple "AnyObject" []
    | TGA_SameP => Tuple "SameAsPredicate" []
    | TGA_Given a0 => Tuple "GivenObject" [f a0]
    end.
  Lemma good_t_ga : good class (d_t_ga dt) tree_t_ga.
  Proof. pattern_good. Qed.
  Definition tree_t_gg (x : t_gg T) : tree :=
    match x with
    | TGG_Any => Tuple "AnyObject" []
    | TGG_Given a0 => Tuple "GivenObject" [f a0]
    end.
  Lemma good_t_gg : good class (d_t_gg dt) tree_t_gg.
  Proof. pattern_good. Qed.
  Definition tree_t_as (x : t_as T) : tree :=
    match x with
    | TA_AnyP a0 => Tuple "AnyPredicate" [tree_t_aa a0]
    | TA_SameS a0 => Tuple "SameAsSubject" [tree_t_ag a0]
    | TA_GivenP a0 a1 => Tuple "GivenPredicate" [f a0; tree_t_ag a1]
    end.
  Lemma good_t_as : good class (d_t_as dt) tree_t_as.
  Proof. pose proof good_t_aa. pose proof good_t_ag. pattern_good. Qed.
  Definition tree_t_gs (x : t_gs T) : tree :=
    match x with
    | TG_AnyP a0 => Tuple "AnyPredicate" [tree_t_ga a0]
    | TG_GivenP a0 a1 => Tuple "GivenPredicate" [f a0; tree_t_gg a1]
    end.
  Lemma good_t_gs : good class (d_t_gs dt) tree_t_gs.
  Proof. pose proof good_t_ga. pose proof good_t_gg. pattern_good. Qed.
  Definition tree_ctp (x : ctp T) : tree :=
    match x with
    | CT_AnyS a0 => Tuple "AnySubject" [tree_t_as a0]
    | CT_GivenS a0 a1 => Tuple "GivenSubject" [f a0; tree_t_gs a1]
    end.
  Lemma good_ctp : good class (d_ctp dt) tree_ctp.
  Proof. pose proof good_t_as. pose proof good_t_gs. pattern_good. Qed.
  Definition tree_q_aaa (x : q_aaa T) : tree :=
    match x with
    | QAAA_Any => Tuple "AnyGraph" []
    | QAAA_SameS => Tuple "SameAsSubject" []
    | QAAA_SameP => Tuple "SameAsPredicate" []
    | QAAA_SameO => Tuple "SameAsObject" []
    | QAAA_Given a0 => Tuple "GivenGraph" [option_tree f a0]
    end.
  Lemma good_q_aaa : good class (d_q_aaa dt) tree_q_aaa.
  Proof. pattern_good. Qed.
  Definition tree_q_gaa (x : q_gaa T) : tree :=
    match x with
    | QGAA_Any => Tuple "AnyGraph" []
    | QGAA_SameP => Tuple "SameAsPredicate" []
    | QGAA_SameO => Tuple "SameAsObject" []
    | QGAA_Given a0 => Tuple "GivenGraph" [option_tree f a0]
    end.
  Lemma good_q_gaa : good class (d_q_gaa dt) tree_q_gaa.
  Proof. pattern_good. Qed.
  Definition tree_q_aga (x : q_aga T) : tree :=
    match x with
    | QAGA_Any => Tuple "AnyGraph" []
    | QAGA_SameS => Tuple "SameAsSubject" []
    | QAGA_SameO => Tuple "SameAsObject" []
    | QAGA_Given a0 => Tuple "GivenGraph" [option_tree f a0]
    end.
  Lemma good_q_aga : good class (d_q_aga dt) tree_q_aga.
  Proof. pattern_good. Qed.
  Definition tree_q_aag (x : q_aag T) : tree :=
    match x with
    | QAAG_Any => Tuple "AnyGraph" []
    | QAAG_SameS => Tuple "SameAsSubject" []
    | QAAG_SameP => Tuple "SameAsPredicate" []
    | QAAG_Given a0 => Tuple "GivenGraph" [option_tree f a0]
    end.
  Lemma good_q_aag : good class (d_q_aag dt) tree_q_aag.
  Proof. pattern_good. Qed.
  Definition tree_q_agg (x : q_agg T) : tree :=
    match x with
    | QAGG_Any => Tuple "AnyGraph" []
    | QAGG_SameS => Tuple "SameAsSubject" []
    | QAGG_Given a0 => Tuple "GivenGraph" [option_tree f a0]
    end.
  Lemma good_q_agg : good class (d_q_agg dt) tree_q_agg.
  Proof. pattern_good. Qed.
  Definition tree_q_gag (x : q_gag T) : tree :=
    match x with
    | QGAG_Any => Tuple "AnyGraph" []
    | QGAG_SameP => Tuple "SameAsPredicate" []
    | QGAG_Given a0 => Tuple "GivenGraph" [option_tree f a0]
    end.
  Lemma good_q_gag : good class (d_q_gag dt) tree_q_gag.
  Proof. pattern_good. Qed.
  Definition tree_q_gga (x : q_gga T) : tree :=
    match x with
    | QGGA_Any => Tuple "AnyGraph" []
    | QGGA_SameO => Tuple "SameAsObject" []
    | QGGA_Given a0 => Tuple "GivenGraph" [option_tree f a0]
    end.
  Lemma good_q_gga : good class (d_q_gga dt) tree_q_gga.
  Proof. pattern_good. Qed.
  Definition tree_q_ggg (x : q_ggg T) : tree :=
    match x with
    | QGGG_Any => Tuple "AnyGraph" []
    | QGGG_Given a0 => Tuple "GivenGraph" [option_tree f a0]
    end.
  Lemma good_q_ggg : good class (d_q_ggg dt) tree_q_ggg.
  Proof. pattern_good. Qed.
  Definition tree_q_aa (x : q_aa T) : tree :=
    match x with
    | QAA_Any a0 => Tuple "AnyObject" [tree_q_aaa a0]
    | QAA_SameS a0 => Tuple "SameAsSubject" [tree_q_aag a0]
    | QAA_SameP a0 => Tuple "SameAsPredicate" [tree_q_aag a0]
    | QAA_Given a0 a1 => Tuple "GivenObject" [f a0; tree_q_aag a1]
    end.
  Lemma good_q_aa : good class (d_q_aa dt) tree_q_aa.
  Proof. pose proof good_q_aaa. pose proof good_q_aag. pattern_good. Qed.
  Definition tree_q_ag (x : q_ag T) : tree :=
    match x with
    | QAG_Any a0 => Tuple "AnyObject" [tree_q_aga a0]
    | QAG_SameS a0 => Tuple "SameAsSubject" [tree_q_agg a0]
    | QAG_Given a0 a1 => Tuple "GivenObject" [f a0; tree_q_agg a1]
    end.
  Lemma good_q_ag : good class (d_q_ag dt) tree_q_ag.
  Proof. pose proof good_q_aga. pose proof good_q_agg. pattern_good. Qed.
  Definition tree_q_ga (x : q_ga T) : tree :=
    match x with
    | QGA_Any a0 => Tuple "AnyObject" [tree_q_gaa a0]
    | QGA_SameP a0 => Tuple "SameAsPredicate" [tree_q_gag a0]
    | QGA_Given a0 a1 => Tuple "GivenObject" [f a0; tree_q_gag a1]
    end.
  Lemma good_q_ga : good class (d_q_ga dt) tree_q_ga.
  Proof. pose proof good_q_gaa. pose proof good_q_gag. pattern_good. Qed.
  Definition tree_q_gg (x : q_gg T) : tree :=
    match x with
    | QGG_Any a0 => Tuple "AnyObject" [tree_q_gga a0]
    | QGG_Given a0 a1 => Tuple "GivenObject" [f a0; tree_q_ggg a1]
    end.
  Lemma good_q_gg : good class (d_q_gg dt) tree_q_gg.
  Proof. pose proof good_q_gga. pose proof good_q_ggg. pattern_good. Qed.
  Definition tree_q_as (x : q_as T) : tree :=
    match x with
    | QA_AnyP a0 => Tuple "AnyPredicate" [tree_q_aa a0]
    | QA_SameS a0 => Tuple "SameAsSubject" [tree_q_ag a0]
    | QA_GivenP a0 a1 => Tuple "GivenPredicate" [f a0; tree_q_ag a1]
    end.
  Lemma good_q_as : good class (d_q_as dt) tree_q_as.
  Proof. pose proof good_q_aa. pose proof good_q_ag. pattern_good. Qed.
  Definition tree_q_gs (x : q_gs T) : tree :=
    match x with
    | QG_AnyP a0 => Tuple "AnyPredicate" [tree_q_ga a0]
    | QG_GivenP a0 a1 => Tuple "GivenPredicate" [f a0; tree_q_gg a1]
    end.
  Lemma good_q_gs : good class (d_q_gs dt) tree_q_gs.
  Proof. pose proof good_q_ga. pose proof good_q_gg. pattern_good. Qed.
  Definition tree_cqp (x : cqp T) : tree :=
    match x with
    | CQ_AnyS a0 => Tuple "AnySubject" [tree_q_as a0]
    | CQ_GivenS a0 a1 => Tuple "GivenSubject" [f a0; tree_q_gs a1]
    end.
  Lemma good_cqp : good class (d_cqp dt) tree_cqp.
  Proof. pose proof good_q_as. pose proof good_q_gs. pattern_good. Qed.

  Lemma triple_pattern_trees c : tree_ctp c = triple_pattern_tree f c.
  Proof. destruct c as [[[]|[]|? []]|? [[]|? []]]; reflexivity. Qed.
  Lemma quad_pattern_trees c : tree_cqp c = quad_pattern_tree f c.
  Proof.
    destruct c as [[[[]|[]|[]|? []]|[[]|[]|? []]|? [[]|[]|? []]]|? [[[]|[]|? []]|? [[]|? []]]]; reflexivity.
  Qed.
End Patterns.
