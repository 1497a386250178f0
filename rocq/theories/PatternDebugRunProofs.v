(** The texts of pattern maps after any history, and of what can be in them. *)
From Coq Require Import List Arith NArith Bool Ascii String Permutation Lia.
Import ListNotations.
From Verif Require Import Base TextModel BlankIdSpec TextProofs DisplayModel TermModel WriteModel WriteSpec WriteProofs TripleModel
  TriplePatternModel PatternMapModel PatternMapSpec PatternMapProofs DebugModel DebugSpec DebugProofs
  DebugReadProofs DebugTermProofs DebugRunProofs PatternDebugModel PatternDebugSpec PatternDebugReadProofs
  PatternDebugProofs.
Local Open Scope N_scope.

Lemma tp_debug_text :
  forall V T (veqb : V -> V -> bool) (teqb : T -> T -> bool),
  (forall x y, veqb x y = true <-> x = y) -> (forall x y, teqb x y = true <-> x = y) ->
  forall (dv : V -> dval) (dk : T -> dval) (sv : bool -> V -> text) (sk : bool -> T -> text),
  (forall v, shows (dv v) (fun p => sv p v)) -> (forall k, shows (dk k) (fun p => sk p k)) ->
  forall l : list (ctp T * V),
  (forall m', tpm_order (snd (insert_all (tpm_insert veqb teqb) l tpm_default)) m' ->
    exists t, tp_shown (leaf sv) (leaf sk) (fun c v => In (c, v) l) t /\ shows (d_tpm dv dk m') (fun p => shown p t)) /\
  (forall t, tp_shown (leaf sv) (leaf sk) (fun c v => In (c, v) l) t ->
    exists m', tpm_order (snd (insert_all (tpm_insert veqb teqb) l tpm_default)) m' /\ shows (d_tpm dv dk m') (fun p => shown p t)).
Proof.
  intros V T veqb teqb VS TS dv dk sv sk SV SK l.
  assert (B := built_tp veqb teqb VS TS dv dk sv sk (fun _ => True) l). pose (K := kind_tp teqb TS dv dk sv sk (fun _ => True)).
  split; [intros m' O; exact (kind_text dv dk sv sk _ K _ _ _ (conj SV SK) B O)|
          intros t X; exact (kind_any dv dk sv sk _ K _ _ _ (conj SV SK) B X)].
Qed.

Lemma as_debug_text :
  forall V T (veqb : V -> V -> bool) (teqb : T -> T -> bool),
  (forall x y, veqb x y = true <-> x = y) -> (forall x y, teqb x y = true <-> x = y) ->
  forall (dv : V -> dval) (dk : T -> dval) (sv : bool -> V -> text) (sk : bool -> T -> text),
  (forall v, shows (dv v) (fun p => sv p v)) -> (forall k, shows (dk k) (fun p => sk p k)) ->
  forall l : list (t_as T * V),
  (forall m', mas_order (snd (insert_all (mas_insert veqb teqb) l mas_default)) m' ->
    exists t, as_shown (leaf sv) (leaf sk) (fun c v => In (c, v) l) t /\ shows (d_mas dv dk m') (fun p => shown p t)) /\
  (forall t, as_shown (leaf sv) (leaf sk) (fun c v => In (c, v) l) t ->
    exists m', mas_order (snd (insert_all (mas_insert veqb teqb) l mas_default)) m' /\ shows (d_mas dv dk m') (fun p => shown p t)).
Proof.
  intros V T veqb teqb VS TS dv dk sv sk SV SK l.
  assert (B := built_as veqb teqb VS TS dv dk sv sk (fun _ => True) l). pose (K := kind_as teqb TS dv dk sv sk (fun _ => True)).
  split; [intros m' O; exact (kind_text dv dk sv sk _ K _ _ _ (conj SV SK) B O)|
          intros t X; exact (kind_any dv dk sv sk _ K _ _ _ (conj SV SK) B X)].
Qed.

Lemma gs_debug_text :
  forall V T (veqb : V -> V -> bool) (teqb : T -> T -> bool),
  (forall x y, veqb x y = true <-> x = y) -> (forall x y, teqb x y = true <-> x = y) ->
  forall (dv : V -> dval) (dk : T -> dval) (sv : bool -> V -> text) (sk : bool -> T -> text),
  (forall v, shows (dv v) (fun p => sv p v)) -> (forall k, shows (dk k) (fun p => sk p k)) ->
  forall l : list (t_gs T * V),
  (forall m', mgs_order (snd (insert_all (mgs_insert veqb teqb) l mgs_default)) m' ->
    exists t, gs_shown (leaf sv) (leaf sk) (fun c v => In (c, v) l) t /\ shows (d_mgs dv dk m') (fun p => shown p t)) /\
  (forall t, gs_shown (leaf sv) (leaf sk) (fun c v => In (c, v) l) t ->
    exists m', mgs_order (snd (insert_all (mgs_insert veqb teqb) l mgs_default)) m' /\ shows (d_mgs dv dk m') (fun p => shown p t)).
Proof.
  intros V T veqb teqb VS TS dv dk sv sk SV SK l.
  assert (B := built_gs veqb teqb VS TS dv dk sv sk (fun _ => True) l). pose (K := kind_gs teqb TS dv dk sv sk (fun _ => True)).
  split; [intros m' O; exact (kind_text dv dk sv sk _ K _ _ _ (conj SV SK) B O)|
          intros t X; exact (kind_any dv dk sv sk _ K _ _ _ (conj SV SK) B X)].
Qed.

Lemma ag_debug_text :
  forall V T (veqb : V -> V -> bool) (teqb : T -> T -> bool),
  (forall x y, veqb x y = true <-> x = y) -> (forall x y, teqb x y = true <-> x = y) ->
  forall (dv : V -> dval) (dk : T -> dval) (sv : bool -> V -> text) (sk : bool -> T -> text),
  (forall v, shows (dv v) (fun p => sv p v)) -> (forall k, shows (dk k) (fun p => sk p k)) ->
  forall l : list (t_ag T * V),
  (forall m', mag_order (snd (insert_all (mag_insert veqb teqb) l mag_default)) m' ->
    exists t, ag_shown (leaf sv) (leaf sk) (fun c v => In (c, v) l) t /\ shows (d_mag dv dk m') (fun p => shown p t)) /\
  (forall t, ag_shown (leaf sv) (leaf sk) (fun c v => In (c, v) l) t ->
    exists m', mag_order (snd (insert_all (mag_insert veqb teqb) l mag_default)) m' /\ shows (d_mag dv dk m') (fun p => shown p t)).
Proof.
  intros V T veqb teqb VS TS dv dk sv sk SV SK l.
  assert (B := built_ag veqb teqb VS TS dv dk sv sk (fun _ => True) l). pose (K := kind_ag teqb TS dv dk sv sk (fun _ => True)).
  split; [intros m' O; exact (kind_text dv dk sv sk _ K _ _ _ (conj SV SK) B O)|
          intros t X; exact (kind_any dv dk sv sk _ K _ _ _ (conj SV SK) B X)].
Qed.

Lemma aa_debug_text :
  forall V T (veqb : V -> V -> bool) (teqb : T -> T -> bool),
  (forall x y, veqb x y = true <-> x = y) -> (forall x y, teqb x y = true <-> x = y) ->
  forall (dv : V -> dval) (dk : T -> dval) (sv : bool -> V -> text) (sk : bool -> T -> text),
  (forall v, shows (dv v) (fun p => sv p v)) -> (forall k, shows (dk k) (fun p => sk p k)) ->
  forall l : list (t_aa T * V),
  (forall m', maa_order (snd (insert_all (maa_insert veqb teqb) l maa_default)) m' ->
    exists t, aa_shown (leaf sv) (leaf sk) (fun c v => In (c, v) l) t /\ shows (d_maa dv dk m') (fun p => shown p t)) /\
  (forall t, aa_shown (leaf sv) (leaf sk) (fun c v => In (c, v) l) t ->
    exists m', maa_order (snd (insert_all (maa_insert veqb teqb) l maa_default)) m' /\ shows (d_maa dv dk m') (fun p => shown p t)).
Proof.
  intros V T veqb teqb VS TS dv dk sv sk SV SK l.
  assert (B := built_aa veqb teqb VS TS dv dk sv sk (fun _ => True) l). pose (K := kind_aa teqb TS dv dk sv sk (fun _ => True)).
  split; [intros m' O; exact (kind_text dv dk sv sk _ K _ _ _ (conj SV SK) B O)|
          intros t X; exact (kind_any dv dk sv sk _ K _ _ _ (conj SV SK) B X)].
Qed.

Lemma gg_debug_text :
  forall V T (veqb : V -> V -> bool) (teqb : T -> T -> bool),
  (forall x y, veqb x y = true <-> x = y) -> (forall x y, teqb x y = true <-> x = y) ->
  forall (dv : V -> dval) (dk : T -> dval) (sv : bool -> V -> text) (sk : bool -> T -> text),
  (forall v, shows (dv v) (fun p => sv p v)) -> (forall k, shows (dk k) (fun p => sk p k)) ->
  forall l : list (t_gg T * V),
  (forall m', mgg_order (snd (insert_all (mgg_insert veqb teqb) l mgg_default)) m' ->
    exists t, gg_shown (leaf sv) (leaf sk) (fun c v => In (c, v) l) t /\ shows (d_mgg dv dk m') (fun p => shown p t)) /\
  (forall t, gg_shown (leaf sv) (leaf sk) (fun c v => In (c, v) l) t ->
    exists m', mgg_order (snd (insert_all (mgg_insert veqb teqb) l mgg_default)) m' /\ shows (d_mgg dv dk m') (fun p => shown p t)).
Proof.
  intros V T veqb teqb VS TS dv dk sv sk SV SK l.
  assert (B := built_gg veqb teqb VS TS dv dk sv sk (fun _ => True) l). pose (K := kind_gg teqb TS dv dk sv sk (fun _ => True)).
  split; [intros m' O; exact (kind_text dv dk sv sk _ K _ _ _ (conj SV SK) B O)|
          intros t X; exact (kind_any dv dk sv sk _ K _ _ _ (conj SV SK) B X)].
Qed.

Lemma ga_debug_text :
  forall V T (veqb : V -> V -> bool) (teqb : T -> T -> bool),
  (forall x y, veqb x y = true <-> x = y) -> (forall x y, teqb x y = true <-> x = y) ->
  forall (dv : V -> dval) (dk : T -> dval) (sv : bool -> V -> text) (sk : bool -> T -> text),
  (forall v, shows (dv v) (fun p => sv p v)) -> (forall k, shows (dk k) (fun p => sk p k)) ->
  forall l : list (t_ga T * V),
  (forall m', mga_order (snd (insert_all (mga_insert veqb teqb) l mga_default)) m' ->
    exists t, ga_shown (leaf sv) (leaf sk) (fun c v => In (c, v) l) t /\ shows (d_mga dv dk m') (fun p => shown p t)) /\
  (forall t, ga_shown (leaf sv) (leaf sk) (fun c v => In (c, v) l) t ->
    exists m', mga_order (snd (insert_all (mga_insert veqb teqb) l mga_default)) m' /\ shows (d_mga dv dk m') (fun p => shown p t)).
Proof.
  intros V T veqb teqb VS TS dv dk sv sk SV SK l.
  assert (B := built_ga veqb teqb VS TS dv dk sv sk (fun _ => True) l). pose (K := kind_ga teqb TS dv dk sv sk (fun _ => True)).
  split; [intros m' O; exact (kind_text dv dk sv sk _ K _ _ _ (conj SV SK) B O)|
          intros t X; exact (kind_any dv dk sv sk _ K _ _ _ (conj SV SK) B X)].
Qed.

Lemma as_debug_union_text :
  forall V T (veqb : V -> V -> bool) (teqb : T -> T -> bool),
  (forall x y, veqb x y = true <-> x = y) -> (forall x y, teqb x y = true <-> x = y) ->
  forall (dv : V -> dval) (dk : T -> dval) (sv : bool -> V -> text) (sk : bool -> T -> text),
  (forall v, shows (dv v) (fun p => sv p v)) -> (forall k, shows (dk k) (fun p => sk p k)) ->
  forall l1 l2 : list (t_as T * V),
  let R c v := In (c, v) l2 \/
    In (c, v) l1 /\ ~ exists c' v', In (c', v') l2 /\ same_key_as c' c in
  let m := (mas_union veqb teqb
      (snd (insert_all (mas_insert veqb teqb) l1 mas_default))
      (snd (insert_all (mas_insert veqb teqb) l2 mas_default))) in
  (forall m', mas_order m m' ->
    exists t, as_shown (leaf sv) (leaf sk) R t /\ shows (d_mas dv dk m') (fun p => shown p t)) /\
  (forall t, as_shown (leaf sv) (leaf sk) R t ->
    exists m', mas_order m m' /\ shows (d_mas dv dk m') (fun p => shown p t)).
Proof.
  intros V T veqb teqb VS TS dv dk sv sk SV SK l1 l2 R m.
  assert (B1 := built_as veqb teqb VS TS dv dk sv sk (fun _ => True) l1).
  assert (B2 := built_as veqb teqb VS TS dv dk sv sk (fun _ => True) l2).
  assert (B : rep_as R m) by (apply (uni_as veqb teqb VS TS dv dk sv sk (fun _ => True) _ _ R _ _ B1 B2); reflexivity).
  pose (K := kind_as teqb TS dv dk sv sk (fun _ => True)).
  split; [intros m' O; exact (kind_text dv dk sv sk _ K _ _ _ (conj SV SK) B O)|
          intros t X; exact (kind_any dv dk sv sk _ K _ _ _ (conj SV SK) B X)].
Qed.

Lemma gs_debug_union_text :
  forall V T (veqb : V -> V -> bool) (teqb : T -> T -> bool),
  (forall x y, veqb x y = true <-> x = y) -> (forall x y, teqb x y = true <-> x = y) ->
  forall (dv : V -> dval) (dk : T -> dval) (sv : bool -> V -> text) (sk : bool -> T -> text),
  (forall v, shows (dv v) (fun p => sv p v)) -> (forall k, shows (dk k) (fun p => sk p k)) ->
  forall l1 l2 : list (t_gs T * V),
  let R c v := In (c, v) l2 \/
    In (c, v) l1 /\ ~ exists c' v', In (c', v') l2 /\ same_key_gs c' c in
  let m := (mgs_union veqb teqb
      (snd (insert_all (mgs_insert veqb teqb) l1 mgs_default))
      (snd (insert_all (mgs_insert veqb teqb) l2 mgs_default))) in
  (forall m', mgs_order m m' ->
    exists t, gs_shown (leaf sv) (leaf sk) R t /\ shows (d_mgs dv dk m') (fun p => shown p t)) /\
  (forall t, gs_shown (leaf sv) (leaf sk) R t ->
    exists m', mgs_order m m' /\ shows (d_mgs dv dk m') (fun p => shown p t)).
Proof.
  intros V T veqb teqb VS TS dv dk sv sk SV SK l1 l2 R m.
  assert (B1 := built_gs veqb teqb VS TS dv dk sv sk (fun _ => True) l1).
  assert (B2 := built_gs veqb teqb VS TS dv dk sv sk (fun _ => True) l2).
  assert (B : rep_gs R m) by (apply (uni_gs veqb teqb VS TS dv dk sv sk (fun _ => True) _ _ R _ _ B1 B2); reflexivity).
  pose (K := kind_gs teqb TS dv dk sv sk (fun _ => True)).
  split; [intros m' O; exact (kind_text dv dk sv sk _ K _ _ _ (conj SV SK) B O)|
          intros t X; exact (kind_any dv dk sv sk _ K _ _ _ (conj SV SK) B X)].
Qed.

Lemma ag_debug_union_text :
  forall V T (veqb : V -> V -> bool) (teqb : T -> T -> bool),
  (forall x y, veqb x y = true <-> x = y) -> (forall x y, teqb x y = true <-> x = y) ->
  forall (dv : V -> dval) (dk : T -> dval) (sv : bool -> V -> text) (sk : bool -> T -> text),
  (forall v, shows (dv v) (fun p => sv p v)) -> (forall k, shows (dk k) (fun p => sk p k)) ->
  forall l1 l2 : list (t_ag T * V),
  let R c v := In (c, v) l2 \/
    In (c, v) l1 /\ ~ exists c' v', In (c', v') l2 /\ same_key_ag c' c in
  let m := (mag_union veqb teqb
      (snd (insert_all (mag_insert veqb teqb) l1 mag_default))
      (snd (insert_all (mag_insert veqb teqb) l2 mag_default))) in
  (forall m', mag_order m m' ->
    exists t, ag_shown (leaf sv) (leaf sk) R t /\ shows (d_mag dv dk m') (fun p => shown p t)) /\
  (forall t, ag_shown (leaf sv) (leaf sk) R t ->
    exists m', mag_order m m' /\ shows (d_mag dv dk m') (fun p => shown p t)).
Proof.
  intros V T veqb teqb VS TS dv dk sv sk SV SK l1 l2 R m.
  assert (B1 := built_ag veqb teqb VS TS dv dk sv sk (fun _ => True) l1).
  assert (B2 := built_ag veqb teqb VS TS dv dk sv sk (fun _ => True) l2).
  assert (B : rep_ag R m) by (apply (uni_ag veqb teqb VS TS dv dk sv sk (fun _ => True) _ _ R _ _ B1 B2); reflexivity).
  pose (K := kind_ag teqb TS dv dk sv sk (fun _ => True)).
  split; [intros m' O; exact (kind_text dv dk sv sk _ K _ _ _ (conj SV SK) B O)|
          intros t X; exact (kind_any dv dk sv sk _ K _ _ _ (conj SV SK) B X)].
Qed.

Lemma aa_debug_union_text :
  forall V T (veqb : V -> V -> bool) (teqb : T -> T -> bool),
  (forall x y, veqb x y = true <-> x = y) -> (forall x y, teqb x y = true <-> x = y) ->
  forall (dv : V -> dval) (dk : T -> dval) (sv : bool -> V -> text) (sk : bool -> T -> text),
  (forall v, shows (dv v) (fun p => sv p v)) -> (forall k, shows (dk k) (fun p => sk p k)) ->
  forall l1 l2 : list (t_aa T * V),
  let R c v := In (c, v) l2 \/
    In (c, v) l1 /\ ~ exists c' v', In (c', v') l2 /\ same_key_aa c' c in
  let m := (maa_union veqb teqb
      (snd (insert_all (maa_insert veqb teqb) l1 maa_default))
      (snd (insert_all (maa_insert veqb teqb) l2 maa_default))) in
  (forall m', maa_order m m' ->
    exists t, aa_shown (leaf sv) (leaf sk) R t /\ shows (d_maa dv dk m') (fun p => shown p t)) /\
  (forall t, aa_shown (leaf sv) (leaf sk) R t ->
    exists m', maa_order m m' /\ shows (d_maa dv dk m') (fun p => shown p t)).
Proof.
  intros V T veqb teqb VS TS dv dk sv sk SV SK l1 l2 R m.
  assert (B1 := built_aa veqb teqb VS TS dv dk sv sk (fun _ => True) l1).
  assert (B2 := built_aa veqb teqb VS TS dv dk sv sk (fun _ => True) l2).
  assert (B : rep_aa R m) by (apply (uni_aa veqb teqb VS TS dv dk sv sk (fun _ => True) _ _ R _ _ B1 B2); reflexivity).
  pose (K := kind_aa teqb TS dv dk sv sk (fun _ => True)).
  split; [intros m' O; exact (kind_text dv dk sv sk _ K _ _ _ (conj SV SK) B O)|
          intros t X; exact (kind_any dv dk sv sk _ K _ _ _ (conj SV SK) B X)].
Qed.

Lemma gg_debug_union_text :
  forall V T (veqb : V -> V -> bool) (teqb : T -> T -> bool),
  (forall x y, veqb x y = true <-> x = y) -> (forall x y, teqb x y = true <-> x = y) ->
  forall (dv : V -> dval) (dk : T -> dval) (sv : bool -> V -> text) (sk : bool -> T -> text),
  (forall v, shows (dv v) (fun p => sv p v)) -> (forall k, shows (dk k) (fun p => sk p k)) ->
  forall l1 l2 : list (t_gg T * V),
  let R c v := In (c, v) l2 \/
    In (c, v) l1 /\ ~ exists c' v', In (c', v') l2 /\ same_key_gg c' c in
  let m := (mgg_union veqb teqb
      (snd (insert_all (mgg_insert veqb teqb) l1 mgg_default))
      (snd (insert_all (mgg_insert veqb teqb) l2 mgg_default))) in
  (forall m', mgg_order m m' ->
    exists t, gg_shown (leaf sv) (leaf sk) R t /\ shows (d_mgg dv dk m') (fun p => shown p t)) /\
  (forall t, gg_shown (leaf sv) (leaf sk) R t ->
    exists m', mgg_order m m' /\ shows (d_mgg dv dk m') (fun p => shown p t)).
Proof.
  intros V T veqb teqb VS TS dv dk sv sk SV SK l1 l2 R m.
  assert (B1 := built_gg veqb teqb VS TS dv dk sv sk (fun _ => True) l1).
  assert (B2 := built_gg veqb teqb VS TS dv dk sv sk (fun _ => True) l2).
  assert (B : rep_gg R m) by (apply (uni_gg veqb teqb VS TS dv dk sv sk (fun _ => True) _ _ R _ _ B1 B2); reflexivity).
  pose (K := kind_gg teqb TS dv dk sv sk (fun _ => True)).
  split; [intros m' O; exact (kind_text dv dk sv sk _ K _ _ _ (conj SV SK) B O)|
          intros t X; exact (kind_any dv dk sv sk _ K _ _ _ (conj SV SK) B X)].
Qed.

Lemma ga_debug_union_text :
  forall V T (veqb : V -> V -> bool) (teqb : T -> T -> bool),
  (forall x y, veqb x y = true <-> x = y) -> (forall x y, teqb x y = true <-> x = y) ->
  forall (dv : V -> dval) (dk : T -> dval) (sv : bool -> V -> text) (sk : bool -> T -> text),
  (forall v, shows (dv v) (fun p => sv p v)) -> (forall k, shows (dk k) (fun p => sk p k)) ->
  forall l1 l2 : list (t_ga T * V),
  let R c v := In (c, v) l2 \/
    In (c, v) l1 /\ ~ exists c' v', In (c', v') l2 /\ same_key_ga c' c in
  let m := (mga_union veqb teqb
      (snd (insert_all (mga_insert veqb teqb) l1 mga_default))
      (snd (insert_all (mga_insert veqb teqb) l2 mga_default))) in
  (forall m', mga_order m m' ->
    exists t, ga_shown (leaf sv) (leaf sk) R t /\ shows (d_mga dv dk m') (fun p => shown p t)) /\
  (forall t, ga_shown (leaf sv) (leaf sk) R t ->
    exists m', mga_order m m' /\ shows (d_mga dv dk m') (fun p => shown p t)).
Proof.
  intros V T veqb teqb VS TS dv dk sv sk SV SK l1 l2 R m.
  assert (B1 := built_ga veqb teqb VS TS dv dk sv sk (fun _ => True) l1).
  assert (B2 := built_ga veqb teqb VS TS dv dk sv sk (fun _ => True) l2).
  assert (B : rep_ga R m) by (apply (uni_ga veqb teqb VS TS dv dk sv sk (fun _ => True) _ _ R _ _ B1 B2); reflexivity).
  pose (K := kind_ga teqb TS dv dk sv sk (fun _ => True)).
  split; [intros m' O; exact (kind_text dv dk sv sk _ K _ _ _ (conj SV SK) B O)|
          intros t X; exact (kind_any dv dk sv sk _ K _ _ _ (conj SV SK) B X)].
Qed.

Lemma tp_debug_reads :
  forall V T (teqb : T -> T -> bool), (forall x y, teqb x y = true <-> x = y) ->
  forall (sv : bool -> V -> text) (sk : bool -> T -> text),
  (forall p, readable (sv p)) -> (forall p, opens (sv p)) ->
  (forall p, key_readable (sk p)) -> (forall p, opens (sk p)) ->
  forall (R R' : ctp T -> V -> Prop) t t' p,
  tp_shown (leaf sv) (leaf sk) R t -> tp_shown (leaf sv) (leaf sk) R' t' -> shown p t = shown p t' ->
  forall c v, R c v <-> R' c v.
Proof.
  intros V T teqb TS sv sk A B C D R R' t t' p.
  exact (kind_read (fun _ => d_str []) (fun _ => d_str []) sv sk (fun _ => True) (kind_tp teqb TS _ _ sv sk (fun _ => True)) R R' t t' p
    (fun p => conj (A p) (conj (B p) (conj (C p) (D p))))).
Qed.

Lemma as_debug_reads :
  forall V T (teqb : T -> T -> bool), (forall x y, teqb x y = true <-> x = y) ->
  forall (sv : bool -> V -> text) (sk : bool -> T -> text),
  (forall p, readable (sv p)) -> (forall p, opens (sv p)) ->
  (forall p, key_readable (sk p)) -> (forall p, opens (sk p)) ->
  forall (R R' : t_as T -> V -> Prop) t t' p,
  as_shown (leaf sv) (leaf sk) R t -> as_shown (leaf sv) (leaf sk) R' t' -> shown p t = shown p t' ->
  forall c v, R c v <-> R' c v.
Proof.
  intros V T teqb TS sv sk A B C D R R' t t' p.
  exact (kind_read (fun _ => d_str []) (fun _ => d_str []) sv sk (fun _ => True) (kind_as teqb TS _ _ sv sk (fun _ => True)) R R' t t' p
    (fun p => conj (A p) (conj (B p) (conj (C p) (D p))))).
Qed.

Lemma gs_debug_reads :
  forall V T (teqb : T -> T -> bool), (forall x y, teqb x y = true <-> x = y) ->
  forall (sv : bool -> V -> text) (sk : bool -> T -> text),
  (forall p, readable (sv p)) -> (forall p, opens (sv p)) ->
  (forall p, key_readable (sk p)) -> (forall p, opens (sk p)) ->
  forall (R R' : t_gs T -> V -> Prop) t t' p,
  gs_shown (leaf sv) (leaf sk) R t -> gs_shown (leaf sv) (leaf sk) R' t' -> shown p t = shown p t' ->
  forall c v, R c v <-> R' c v.
Proof.
  intros V T teqb TS sv sk A B C D R R' t t' p.
  exact (kind_read (fun _ => d_str []) (fun _ => d_str []) sv sk (fun _ => True) (kind_gs teqb TS _ _ sv sk (fun _ => True)) R R' t t' p
    (fun p => conj (A p) (conj (B p) (conj (C p) (D p))))).
Qed.

Lemma ag_debug_reads :
  forall V T (teqb : T -> T -> bool), (forall x y, teqb x y = true <-> x = y) ->
  forall (sv : bool -> V -> text) (sk : bool -> T -> text),
  (forall p, readable (sv p)) -> (forall p, opens (sv p)) ->
  (forall p, key_readable (sk p)) -> (forall p, opens (sk p)) ->
  forall (R R' : t_ag T -> V -> Prop) t t' p,
  ag_shown (leaf sv) (leaf sk) R t -> ag_shown (leaf sv) (leaf sk) R' t' -> shown p t = shown p t' ->
  forall c v, R c v <-> R' c v.
Proof.
  intros V T teqb TS sv sk A B C D R R' t t' p.
  exact (kind_read (fun _ => d_str []) (fun _ => d_str []) sv sk (fun _ => True) (kind_ag teqb TS _ _ sv sk (fun _ => True)) R R' t t' p
    (fun p => conj (A p) (conj (B p) (conj (C p) (D p))))).
Qed.

Lemma aa_debug_reads :
  forall V T (teqb : T -> T -> bool), (forall x y, teqb x y = true <-> x = y) ->
  forall (sv : bool -> V -> text) (sk : bool -> T -> text),
  (forall p, readable (sv p)) -> (forall p, opens (sv p)) ->
  (forall p, key_readable (sk p)) -> (forall p, opens (sk p)) ->
  forall (R R' : t_aa T -> V -> Prop) t t' p,
  aa_shown (leaf sv) (leaf sk) R t -> aa_shown (leaf sv) (leaf sk) R' t' -> shown p t = shown p t' ->
  forall c v, R c v <-> R' c v.
Proof.
  intros V T teqb TS sv sk A B C D R R' t t' p.
  exact (kind_read (fun _ => d_str []) (fun _ => d_str []) sv sk (fun _ => True) (kind_aa teqb TS _ _ sv sk (fun _ => True)) R R' t t' p
    (fun p => conj (A p) (conj (B p) (conj (C p) (D p))))).
Qed.

Lemma gg_debug_reads :
  forall V T (teqb : T -> T -> bool), (forall x y, teqb x y = true <-> x = y) ->
  forall (sv : bool -> V -> text) (sk : bool -> T -> text),
  (forall p, readable (sv p)) -> (forall p, opens (sv p)) ->
  (forall p, key_readable (sk p)) -> (forall p, opens (sk p)) ->
  forall (R R' : t_gg T -> V -> Prop) t t' p,
  gg_shown (leaf sv) (leaf sk) R t -> gg_shown (leaf sv) (leaf sk) R' t' -> shown p t = shown p t' ->
  forall c v, R c v <-> R' c v.
Proof.
  intros V T teqb TS sv sk A B C D R R' t t' p.
  exact (kind_read (fun _ => d_str []) (fun _ => d_str []) sv sk (fun _ => True) (kind_gg teqb TS _ _ sv sk (fun _ => True)) R R' t t' p
    (fun p => conj (A p) (conj (B p) (conj (C p) (D p))))).
Qed.

Lemma ga_debug_reads :
  forall V T (teqb : T -> T -> bool), (forall x y, teqb x y = true <-> x = y) ->
  forall (sv : bool -> V -> text) (sk : bool -> T -> text),
  (forall p, readable (sv p)) -> (forall p, opens (sv p)) ->
  (forall p, key_readable (sk p)) -> (forall p, opens (sk p)) ->
  forall (R R' : t_ga T -> V -> Prop) t t' p,
  ga_shown (leaf sv) (leaf sk) R t -> ga_shown (leaf sv) (leaf sk) R' t' -> shown p t = shown p t' ->
  forall c v, R c v <-> R' c v.
Proof.
  intros V T teqb TS sv sk A B C D R R' t t' p.
  exact (kind_read (fun _ => d_str []) (fun _ => d_str []) sv sk (fun _ => True) (kind_ga teqb TS _ _ sv sk (fun _ => True)) R R' t t' p
    (fun p => conj (A p) (conj (B p) (conj (C p) (D p))))).
Qed.

Lemma maps_debug_class :
  forall V T (teqb : T -> T -> bool), (forall x y, teqb x y = true <-> x = y) ->
  forall class (sv : bool -> V -> text) (sk : bool -> T -> text), has_ascii class ->
  (forall v c, In c (sv false v) -> class c) -> (forall k c, In c (sk false k) -> class c) ->
  (forall R t, tp_shown (leaf sv) (leaf sk) R t -> forall c, In c (shown false t) -> class c) /\
  (forall R t, as_shown (leaf sv) (leaf sk) R t -> forall c, In c (shown false t) -> class c) /\
  (forall R t, gs_shown (leaf sv) (leaf sk) R t -> forall c, In c (shown false t) -> class c) /\
  (forall R t, ag_shown (leaf sv) (leaf sk) R t -> forall c, In c (shown false t) -> class c) /\
  (forall R t, aa_shown (leaf sv) (leaf sk) R t -> forall c, In c (shown false t) -> class c) /\
  (forall R t, gg_shown (leaf sv) (leaf sk) R t -> forall c, In c (shown false t) -> class c) /\
  (forall R t, ga_shown (leaf sv) (leaf sk) R t -> forall c, In c (shown false t) -> class c).
Proof.
  intros V T teqb TS class sv sk C A B.
  pose (d := fun _ : V => d_str []). pose (e := fun _ : T => d_str []).
  refine (conj _ (conj _ (conj _ (conj _ (conj _ (conj _ _)))))).
  - intros R t. exact (kind_chars d e sv sk class (kind_tp teqb TS d e sv sk class) R t (conj C (conj A B))).
  - intros R t. exact (kind_chars d e sv sk class (kind_as teqb TS d e sv sk class) R t (conj C (conj A B))).
  - intros R t. exact (kind_chars d e sv sk class (kind_gs teqb TS d e sv sk class) R t (conj C (conj A B))).
  - intros R t. exact (kind_chars d e sv sk class (kind_ag teqb TS d e sv sk class) R t (conj C (conj A B))).
  - intros R t. exact (kind_chars d e sv sk class (kind_aa teqb TS d e sv sk class) R t (conj C (conj A B))).
  - intros R t. exact (kind_chars d e sv sk class (kind_gg teqb TS d e sv sk class) R t (conj C (conj A B))).
  - intros R t. exact (kind_chars d e sv sk class (kind_ga teqb TS d e sv sk class) R t (conj C (conj A B))).
Qed.

(** ** What can be a key *)
Definition sure_tree (p : bool) (s t : tree) (P : Prop) : Prop := forall x y,
  shown p s ++ x = shown p t ++ y -> P /\ x = y.
Lemma sure_tuple p n l m P : l <> [] -> trees_agree p l m P -> sure_tree p (Tuple n l) (Tuple n m) P.
Proof.
  intros NE A x y E. destruct A as [|s t l m P Q A A']; [easy|].
  change (shown p (Tuple n (s :: l))) with
    (chars n ++ chars "(" ++ listing p (map (shown p) (s :: l)) ++ chars ")") in E.
  change (shown p (Tuple n (t :: m))) with
    (chars n ++ chars "(" ++ listing p (map (shown p) (t :: m)) ++ chars ")") in E.
  rewrite <- !app_assoc in E. apply app_inv_head in E. apply app_inv_head in E.
  eapply listing_agree in E; [exact E|apply follows_paren|discriminate|].
  apply trees_texts. now constructor.
Qed.
Lemma sure_names p n k a b l m P : n <> k -> is_name (chars n) -> is_name (chars k) ->
  (chars n = chars k -> n = k) -> sure_tree p (Tuple n (a :: l)) (Tuple k (b :: m)) P.
Proof.
  intros NK N K I x y E. exfalso. apply NK, I.
  rewrite !shown_tuple, <- !app_assoc in E.
  refine (proj1 (name_split _ _ _ _ N K _ _ E)); reflexivity.
Qed.
Lemma sure_imp p s t (P Q : Prop) : sure_tree p s t P -> (P -> Q) -> sure_tree p s t Q.
Proof. intros A I x y E. destruct (A x y E). auto. Qed.

Lemma good_key {A} class (d : A -> dval) (f : A -> tree) : good class d f ->
  (forall p a b, sure_tree p (f a) (f b) (a = b)) -> (forall p, opens (fun a => shown p (f a))) ->
  tells_key class d.
Proof.
  intros G S O. exists (fun p a => shown p (f a)). split; [exact (g_shows G)|]. split; [|exact (g_class G)].
  intros p. split; [exact (g_reads G p)|]. split; [|apply O].
  intros a b x y E. apply S in E. destruct E as [-> E]. now apply app_inv_head in E.
Qed.
Ltac key_reads := first
  [ apply sure_names; [discriminate|reflexivity|reflexivity|intros ?; discriminate]
  | eapply sure_imp; [apply sure_tuple; [discriminate|good_fields]|]; cbn; intuition congruence ].
Lemma tuple_opens p n l c r : chars n = c :: r -> [c] <> chars "}" ->
  exists c r, shown p (Tuple n l) = c :: r /\ [c] <> chars "}".
Proof. intros E N. exists c, (r ++ tuple_rest p l). now rewrite shown_tuple, E. Qed.
Ltac key_opens := intros p a; destruct a; (eapply tuple_opens; [reflexivity|discriminate]).
Ltac key_enum G := apply (good_key _ _ _ G); [intros p a b; destruct a, b; key_reads|key_opens].

Lemma dec_digits n : Forall DIGIT (dec n).
Proof. apply (proj1 (dec_numeral n)). Qed.
Lemma dec_keys : key_readable dec.
Proof.
  intros m n x y E.
  assert (Z : forall s x, Forall DIGIT s -> forall t y, Forall DIGIT t ->
    s ++ chars ": " ++ x = t ++ chars ": " ++ y -> s = t /\ x = y).
  { clear. induction s as [|c s IH]; intros x Ds [|d t] y Dt E; cbn in E.
    - now injection E as ->.
    - apply Forall_inv in Dt. injection E as <- _. unfold DIGIT, between in Dt. lia.
    - apply Forall_inv in Ds. injection E as -> _. unfold DIGIT, between in Ds. lia.
    - injection E as -> E. apply Forall_inv_tail in Ds, Dt.
      destruct (IH x Ds t y Dt E) as [-> ->]. easy. }
  destruct (Z _ _ (dec_digits m) _ _ (dec_digits n) E) as [Q ->]. split; [now apply dec_inj|easy].
Qed.
Lemma dec_opens : opens dec.
Proof.
  intros n. pose proof (dec_digits n) as D. destruct (dec n) as [|c r] eqn:E.
  - exfalso. pose proof (dec_numeral n) as X. rewrite E in X. destruct X as (_ & X & _). now apply X.
  - exists c, r. split; [reflexivity|]. intros X. injection X as ->. apply Forall_inv in D.
    unfold DIGIT, between in D. lia.
Qed.

Section Keys.
  Context (class : char -> Prop) (C : has_ascii class).
  Lemma numbers_keys : tells_key class (fun n : N => d_str (dec n)).
  Proof.
    exists (fun _ n => dec n). split; [intros n p; apply wr_str|].
    split.
    - intros p. split; [intros m n x y; apply dec_reads|]. split; [apply dec_keys|apply dec_opens].
    - intros n c I. pose proof (dec_digits n) as D. rewrite Forall_forall in D. specialize (D c I). apply C.
      unfold DIGIT, between in D. lia.
  Qed.

  Context (special : char -> bool) (S : forall c, 127 < c -> special c = false -> class c).
  Lemma strings_keys : tells_key class (d_text special) /\ tells_key class (d_blank special).
  Proof.
    assert (K : tells_key class (d_text special)); [|split; exact K].
    apply (good_key _ _ _ (good_str special class C S)).
    - intros p s t x y E. cbn [shown] in E. now apply str_read in E.
    - intros p s. cbn [shown]. unfold str_text. do 2 eexists. split; [reflexivity|discriminate].
  Qed.
  Lemma terms_keys (di dg : text -> dval) : tells class di -> tells class dg ->
    tells_key class (d_term special di dg) /\ tells_key class (d_local special di dg).
  Proof.
    intros I G. apply tells_good in I, G. destruct I as (si & I), G as (sg & G).
    revert I G. generalize (fun a => Leaf (fun p => si p a)), (fun a => Leaf (fun p => sg p a)). intros iri tag I G.
    pose proof (good_str special class C S) as GS.
    pose proof (good_literal special class C S _ _ _ _ I G) as GL.
    pose proof (good_term special class C S _ _ _ _ I G) as GT.
    pose proof (good_local special class C S _ _ _ _ I G) as GO.
    revert GS GL GT GO. generalize (fun s => Leaf (fun _ => str_text special s)). intros str GS GL GT GO.
    split; [key_enum GT|key_enum GO].
  Qed.
  Lemma statements_keys {R} (dr : R -> dval) : tells class dr ->
    tells_key class (d_triple dr) /\ tells_key class (d_quad dr).
  Proof.
    intros H. apply tells_good in H. destruct H as (s & G).
    revert G. generalize (fun a => Leaf (fun p => s p a)). intros f G.
    pose proof (good_option class C _ _ G) as GO.
    pose proof (good_triple class C _ _ G) as GT. pose proof (good_quad class C _ _ G) as GQ.
    split; [key_enum GT|key_enum GQ].
  Qed.
End Keys.

Lemma reads_example : (forall p : bool, readable dec) /\ (forall p : bool, opens dec) /\
  (forall p : bool, key_readable dec) /\ exists t, gs_shown (leaf (fun _ => dec)) (leaf (fun _ => dec))
    (fun c v => In (c, v) [(TG_AnyP TGA_Any, 1); (TG_GivenP 7 (TGG_Given 5), 2);
      (TG_GivenP 7 (TGG_Given 5), 3); (TG_GivenP 8 TGG_Any, 4)]) t.
Proof.
  destruct (gs_debug_text N N N.eqb N.eqb N.eqb_eq N.eqb_eq (fun n => d_str (dec n)) (fun n => d_str (dec n))
    (fun _ => dec) (fun _ => dec) (fun n p => wr_str _) (fun n p => wr_str _)
    [(TG_AnyP TGA_Any, 1); (TG_GivenP 7 (TGG_Given 5), 2); (TG_GivenP 7 (TGG_Given 5), 3); (TG_GivenP 8 TGG_Any, 4)])
    as [X _].
  destruct (X _ (k_same _ _ _ _ _ _ _ _ _ _ _ _ _ (kind_gs N.eqb N.eqb_eq (fun n => d_str (dec n)) (fun n => d_str (dec n))
    (fun _ => dec) (fun _ => dec) (fun _ => True)) _ _ _ (built_gs N.eqb N.eqb N.eqb_eq N.eqb_eq (fun n => d_str (dec n))
    (fun n => d_str (dec n)) (fun _ => dec) (fun _ => dec) (fun _ => True) _) (built_gs N.eqb N.eqb N.eqb_eq N.eqb_eq
    (fun n => d_str (dec n)) (fun n => d_str (dec n)) (fun _ => dec) (fun _ => dec) (fun _ => True) _))) as (t & T & _).
  split; [intros _; exact (fun m n x y => dec_reads m n x y)|].
  split; [intros _; apply dec_opens|]. split; [intros _; apply dec_keys|]. now exists t.
Qed.
