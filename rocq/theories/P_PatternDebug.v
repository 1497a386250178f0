(** C78: [Debug] of pattern maps.

    [shows], [shown] and [tree] are those of C75.  [tp_shown value key R t] (PatternDebugSpec.v): the
    tree [t] lists, in some order, the values and the keys of a map that holds the pairs
    (pattern, value) given by [R], each once and in its place.  [tpm_order m m']: the same
    tables, iterated in another order. *)
From Coq Require Import List NArith Bool Ascii String.
Import ListNotations.
From Verif Require Import Base TextModel DisplayModel TermModel TripleModel TriplePatternModel
  PatternMapModel PatternMapSpec WriteSpec DebugModel DebugSpec PatternDebugModel PatternDebugSpec
  PatternDebugRunProofs.
Local Open Scope N_scope.

(** ** The texts

    After any insertions, whatever the order of iteration, the text is that of a tree
    which lists the pairs inserted; and any such tree is what is shown for some order. *)
(** The texts of [TriplePatternMap]. *)
Theorem c78_tp_text :
  forall V T (veqb : V -> V -> bool) (teqb : T -> T -> bool),
  (forall x y, veqb x y = true <-> x = y) -> (forall x y, teqb x y = true <-> x = y) ->
  forall (dv : V -> dval) (dk : T -> dval) (sv : bool -> V -> text) (sk : bool -> T -> text),
  (forall v, shows (dv v) (fun p => sv p v)) -> (forall k, shows (dk k) (fun p => sk p k)) ->
  forall l : list (ctp T * V),
  (forall m', tpm_order (snd (insert_all (tpm_insert veqb teqb) l tpm_default)) m' ->
    exists t, tp_shown (leaf sv) (leaf sk) (fun c v => In (c, v) l) t /\ shows (d_tpm dv dk m') (fun p => shown p t)) /\
  (forall t, tp_shown (leaf sv) (leaf sk) (fun c v => In (c, v) l) t ->
    exists m', tpm_order (snd (insert_all (tpm_insert veqb teqb) l tpm_default)) m' /\ shows (d_tpm dv dk m') (fun p => shown p t)).
Proof. exact @tp_debug_text. Qed.
Print Assumptions c78_tp_text.

(** The texts of [AnySubjectMap]. *)
Theorem c78_as_text :
  forall V T (veqb : V -> V -> bool) (teqb : T -> T -> bool),
  (forall x y, veqb x y = true <-> x = y) -> (forall x y, teqb x y = true <-> x = y) ->
  forall (dv : V -> dval) (dk : T -> dval) (sv : bool -> V -> text) (sk : bool -> T -> text),
  (forall v, shows (dv v) (fun p => sv p v)) -> (forall k, shows (dk k) (fun p => sk p k)) ->
  forall l : list (t_as T * V),
  (forall m', mas_order (snd (insert_all (mas_insert veqb teqb) l mas_default)) m' ->
    exists t, as_shown (leaf sv) (leaf sk) (fun c v => In (c, v) l) t /\ shows (d_mas dv dk m') (fun p => shown p t)) /\
  (forall t, as_shown (leaf sv) (leaf sk) (fun c v => In (c, v) l) t ->
    exists m', mas_order (snd (insert_all (mas_insert veqb teqb) l mas_default)) m' /\ shows (d_mas dv dk m') (fun p => shown p t)).
Proof. exact @as_debug_text. Qed.
Print Assumptions c78_as_text.

(** The texts of [GivenSubjectMap]. *)
Theorem c78_gs_text :
  forall V T (veqb : V -> V -> bool) (teqb : T -> T -> bool),
  (forall x y, veqb x y = true <-> x = y) -> (forall x y, teqb x y = true <-> x = y) ->
  forall (dv : V -> dval) (dk : T -> dval) (sv : bool -> V -> text) (sk : bool -> T -> text),
  (forall v, shows (dv v) (fun p => sv p v)) -> (forall k, shows (dk k) (fun p => sk p k)) ->
  forall l : list (t_gs T * V),
  (forall m', mgs_order (snd (insert_all (mgs_insert veqb teqb) l mgs_default)) m' ->
    exists t, gs_shown (leaf sv) (leaf sk) (fun c v => In (c, v) l) t /\ shows (d_mgs dv dk m') (fun p => shown p t)) /\
  (forall t, gs_shown (leaf sv) (leaf sk) (fun c v => In (c, v) l) t ->
    exists m', mgs_order (snd (insert_all (mgs_insert veqb teqb) l mgs_default)) m' /\ shows (d_mgs dv dk m') (fun p => shown p t)).
Proof. exact @gs_debug_text. Qed.
Print Assumptions c78_gs_text.

(** The texts of [AnySubjectGivenPredicateMap]. *)
Theorem c78_ag_text :
  forall V T (veqb : V -> V -> bool) (teqb : T -> T -> bool),
  (forall x y, veqb x y = true <-> x = y) -> (forall x y, teqb x y = true <-> x = y) ->
  forall (dv : V -> dval) (dk : T -> dval) (sv : bool -> V -> text) (sk : bool -> T -> text),
  (forall v, shows (dv v) (fun p => sv p v)) -> (forall k, shows (dk k) (fun p => sk p k)) ->
  forall l : list (t_ag T * V),
  (forall m', mag_order (snd (insert_all (mag_insert veqb teqb) l mag_default)) m' ->
    exists t, ag_shown (leaf sv) (leaf sk) (fun c v => In (c, v) l) t /\ shows (d_mag dv dk m') (fun p => shown p t)) /\
  (forall t, ag_shown (leaf sv) (leaf sk) (fun c v => In (c, v) l) t ->
    exists m', mag_order (snd (insert_all (mag_insert veqb teqb) l mag_default)) m' /\ shows (d_mag dv dk m') (fun p => shown p t)).
Proof. exact @ag_debug_text. Qed.
Print Assumptions c78_ag_text.

(** The texts of [AnySubjectAnyPredicateMap]. *)
Theorem c78_aa_text :
  forall V T (veqb : V -> V -> bool) (teqb : T -> T -> bool),
  (forall x y, veqb x y = true <-> x = y) -> (forall x y, teqb x y = true <-> x = y) ->
  forall (dv : V -> dval) (dk : T -> dval) (sv : bool -> V -> text) (sk : bool -> T -> text),
  (forall v, shows (dv v) (fun p => sv p v)) -> (forall k, shows (dk k) (fun p => sk p k)) ->
  forall l : list (t_aa T * V),
  (forall m', maa_order (snd (insert_all (maa_insert veqb teqb) l maa_default)) m' ->
    exists t, aa_shown (leaf sv) (leaf sk) (fun c v => In (c, v) l) t /\ shows (d_maa dv dk m') (fun p => shown p t)) /\
  (forall t, aa_shown (leaf sv) (leaf sk) (fun c v => In (c, v) l) t ->
    exists m', maa_order (snd (insert_all (maa_insert veqb teqb) l maa_default)) m' /\ shows (d_maa dv dk m') (fun p => shown p t)).
Proof. exact @aa_debug_text. Qed.
Print Assumptions c78_aa_text.

(** The texts of [GivenSubjectGivenPredicateMap]. *)
Theorem c78_gg_text :
  forall V T (veqb : V -> V -> bool) (teqb : T -> T -> bool),
  (forall x y, veqb x y = true <-> x = y) -> (forall x y, teqb x y = true <-> x = y) ->
  forall (dv : V -> dval) (dk : T -> dval) (sv : bool -> V -> text) (sk : bool -> T -> text),
  (forall v, shows (dv v) (fun p => sv p v)) -> (forall k, shows (dk k) (fun p => sk p k)) ->
  forall l : list (t_gg T * V),
  (forall m', mgg_order (snd (insert_all (mgg_insert veqb teqb) l mgg_default)) m' ->
    exists t, gg_shown (leaf sv) (leaf sk) (fun c v => In (c, v) l) t /\ shows (d_mgg dv dk m') (fun p => shown p t)) /\
  (forall t, gg_shown (leaf sv) (leaf sk) (fun c v => In (c, v) l) t ->
    exists m', mgg_order (snd (insert_all (mgg_insert veqb teqb) l mgg_default)) m' /\ shows (d_mgg dv dk m') (fun p => shown p t)).
Proof. exact @gg_debug_text. Qed.
Print Assumptions c78_gg_text.

(** The texts of [GivenSubjectAnyPredicateMap]. *)
Theorem c78_ga_text :
  forall V T (veqb : V -> V -> bool) (teqb : T -> T -> bool),
  (forall x y, veqb x y = true <-> x = y) -> (forall x y, teqb x y = true <-> x = y) ->
  forall (dv : V -> dval) (dk : T -> dval) (sv : bool -> V -> text) (sk : bool -> T -> text),
  (forall v, shows (dv v) (fun p => sv p v)) -> (forall k, shows (dk k) (fun p => sk p k)) ->
  forall l : list (t_ga T * V),
  (forall m', mga_order (snd (insert_all (mga_insert veqb teqb) l mga_default)) m' ->
    exists t, ga_shown (leaf sv) (leaf sk) (fun c v => In (c, v) l) t /\ shows (d_mga dv dk m') (fun p => shown p t)) /\
  (forall t, ga_shown (leaf sv) (leaf sk) (fun c v => In (c, v) l) t ->
    exists m', mga_order (snd (insert_all (mga_insert veqb teqb) l mga_default)) m' /\ shows (d_mga dv dk m') (fun p => shown p t)).
Proof. exact @ga_debug_text. Qed.
Print Assumptions c78_ga_text.

(** Those of [AnySubjectMap] after [union_with]. *)
Theorem c78_as_union_text :
  forall V T (veqb : V -> V -> bool) (teqb : T -> T -> bool),
  (forall x y, veqb x y = true <-> x = y) -> (forall x y, teqb x y = true <-> x = y) ->
  forall (dv : V -> dval) (dk : T -> dval) (sv : bool -> V -> text) (sk : bool -> T -> text),
  (forall v, shows (dv v) (fun p => sv p v)) -> (forall k, shows (dk k) (fun p => sk p k)) ->
  forall l1 l2 : list (t_as T * V),
  let R c v := In (c, v) l2 \/
    In (c, v) l1 /\ ~ exists c' v', In (c', v') l2 /\ same_key_as c' c in
  let m := (mas_union veqb teqb
      (snd (insert_all (mas_insert veqb teqb) l1 mas_default))
      (snd (insert_all (mas_insert veqb teqb) l2 mas_default))) in
  (forall m', mas_order m m' ->
    exists t, as_shown (leaf sv) (leaf sk) R t /\ shows (d_mas dv dk m') (fun p => shown p t)) /\
  (forall t, as_shown (leaf sv) (leaf sk) R t ->
    exists m', mas_order m m' /\ shows (d_mas dv dk m') (fun p => shown p t)).
Proof. exact @as_debug_union_text. Qed.
Print Assumptions c78_as_union_text.

(** Those of [GivenSubjectMap] after [union_with]. *)
Theorem c78_gs_union_text :
  forall V T (veqb : V -> V -> bool) (teqb : T -> T -> bool),
  (forall x y, veqb x y = true <-> x = y) -> (forall x y, teqb x y = true <-> x = y) ->
  forall (dv : V -> dval) (dk : T -> dval) (sv : bool -> V -> text) (sk : bool -> T -> text),
  (forall v, shows (dv v) (fun p => sv p v)) -> (forall k, shows (dk k) (fun p => sk p k)) ->
  forall l1 l2 : list (t_gs T * V),
  let R c v := In (c, v) l2 \/
    In (c, v) l1 /\ ~ exists c' v', In (c', v') l2 /\ same_key_gs c' c in
  let m := (mgs_union veqb teqb
      (snd (insert_all (mgs_insert veqb teqb) l1 mgs_default))
      (snd (insert_all (mgs_insert veqb teqb) l2 mgs_default))) in
  (forall m', mgs_order m m' ->
    exists t, gs_shown (leaf sv) (leaf sk) R t /\ shows (d_mgs dv dk m') (fun p => shown p t)) /\
  (forall t, gs_shown (leaf sv) (leaf sk) R t ->
    exists m', mgs_order m m' /\ shows (d_mgs dv dk m') (fun p => shown p t)).
Proof. exact @gs_debug_union_text. Qed.
Print Assumptions c78_gs_union_text.

(** Those of [AnySubjectGivenPredicateMap] after [union_with]. *)
Theorem c78_ag_union_text :
  forall V T (veqb : V -> V -> bool) (teqb : T -> T -> bool),
  (forall x y, veqb x y = true <-> x = y) -> (forall x y, teqb x y = true <-> x = y) ->
  forall (dv : V -> dval) (dk : T -> dval) (sv : bool -> V -> text) (sk : bool -> T -> text),
  (forall v, shows (dv v) (fun p => sv p v)) -> (forall k, shows (dk k) (fun p => sk p k)) ->
  forall l1 l2 : list (t_ag T * V),
  let R c v := In (c, v) l2 \/
    In (c, v) l1 /\ ~ exists c' v', In (c', v') l2 /\ same_key_ag c' c in
  let m := (mag_union veqb teqb
      (snd (insert_all (mag_insert veqb teqb) l1 mag_default))
      (snd (insert_all (mag_insert veqb teqb) l2 mag_default))) in
  (forall m', mag_order m m' ->
    exists t, ag_shown (leaf sv) (leaf sk) R t /\ shows (d_mag dv dk m') (fun p => shown p t)) /\
  (forall t, ag_shown (leaf sv) (leaf sk) R t ->
    exists m', mag_order m m' /\ shows (d_mag dv dk m') (fun p => shown p t)).
Proof. exact @ag_debug_union_text. Qed.
Print Assumptions c78_ag_union_text.

(** Those of [AnySubjectAnyPredicateMap] after [union_with]. *)
Theorem c78_aa_union_text :
  forall V T (veqb : V -> V -> bool) (teqb : T -> T -> bool),
  (forall x y, veqb x y = true <-> x = y) -> (forall x y, teqb x y = true <-> x = y) ->
  forall (dv : V -> dval) (dk : T -> dval) (sv : bool -> V -> text) (sk : bool -> T -> text),
  (forall v, shows (dv v) (fun p => sv p v)) -> (forall k, shows (dk k) (fun p => sk p k)) ->
  forall l1 l2 : list (t_aa T * V),
  let R c v := In (c, v) l2 \/
    In (c, v) l1 /\ ~ exists c' v', In (c', v') l2 /\ same_key_aa c' c in
  let m := (maa_union veqb teqb
      (snd (insert_all (maa_insert veqb teqb) l1 maa_default))
      (snd (insert_all (maa_insert veqb teqb) l2 maa_default))) in
  (forall m', maa_order m m' ->
    exists t, aa_shown (leaf sv) (leaf sk) R t /\ shows (d_maa dv dk m') (fun p => shown p t)) /\
  (forall t, aa_shown (leaf sv) (leaf sk) R t ->
    exists m', maa_order m m' /\ shows (d_maa dv dk m') (fun p => shown p t)).
Proof. exact @aa_debug_union_text. Qed.
Print Assumptions c78_aa_union_text.

(** Those of [GivenSubjectGivenPredicateMap] after [union_with]. *)
Theorem c78_gg_union_text :
  forall V T (veqb : V -> V -> bool) (teqb : T -> T -> bool),
  (forall x y, veqb x y = true <-> x = y) -> (forall x y, teqb x y = true <-> x = y) ->
  forall (dv : V -> dval) (dk : T -> dval) (sv : bool -> V -> text) (sk : bool -> T -> text),
  (forall v, shows (dv v) (fun p => sv p v)) -> (forall k, shows (dk k) (fun p => sk p k)) ->
  forall l1 l2 : list (t_gg T * V),
  let R c v := In (c, v) l2 \/
    In (c, v) l1 /\ ~ exists c' v', In (c', v') l2 /\ same_key_gg c' c in
  let m := (mgg_union veqb teqb
      (snd (insert_all (mgg_insert veqb teqb) l1 mgg_default))
      (snd (insert_all (mgg_insert veqb teqb) l2 mgg_default))) in
  (forall m', mgg_order m m' ->
    exists t, gg_shown (leaf sv) (leaf sk) R t /\ shows (d_mgg dv dk m') (fun p => shown p t)) /\
  (forall t, gg_shown (leaf sv) (leaf sk) R t ->
    exists m', mgg_order m m' /\ shows (d_mgg dv dk m') (fun p => shown p t)).
Proof. exact @gg_debug_union_text. Qed.
Print Assumptions c78_gg_union_text.

(** Those of [GivenSubjectAnyPredicateMap] after [union_with]. *)
Theorem c78_ga_union_text :
  forall V T (veqb : V -> V -> bool) (teqb : T -> T -> bool),
  (forall x y, veqb x y = true <-> x = y) -> (forall x y, teqb x y = true <-> x = y) ->
  forall (dv : V -> dval) (dk : T -> dval) (sv : bool -> V -> text) (sk : bool -> T -> text),
  (forall v, shows (dv v) (fun p => sv p v)) -> (forall k, shows (dk k) (fun p => sk p k)) ->
  forall l1 l2 : list (t_ga T * V),
  let R c v := In (c, v) l2 \/
    In (c, v) l1 /\ ~ exists c' v', In (c', v') l2 /\ same_key_ga c' c in
  let m := (mga_union veqb teqb
      (snd (insert_all (mga_insert veqb teqb) l1 mga_default))
      (snd (insert_all (mga_insert veqb teqb) l2 mga_default))) in
  (forall m', mga_order m m' ->
    exists t, ga_shown (leaf sv) (leaf sk) R t /\ shows (d_mga dv dk m') (fun p => shown p t)) /\
  (forall t, ga_shown (leaf sv) (leaf sk) R t ->
    exists m', mga_order m m' /\ shows (d_mga dv dk m') (fun p => shown p t)).
Proof. exact @ga_debug_union_text. Qed.
Print Assumptions c78_ga_union_text.

(** ** Reading

    Two maps that show the same text, plain or pretty, hold the same pairs: so they
    answer alike (C43). *)
Theorem c78_tp_reads :
  forall V T (teqb : T -> T -> bool), (forall x y, teqb x y = true <-> x = y) ->
  forall (sv : bool -> V -> text) (sk : bool -> T -> text),
  (forall p, readable (sv p)) -> (forall p, opens (sv p)) ->
  (forall p, key_readable (sk p)) -> (forall p, opens (sk p)) ->
  forall (R R' : ctp T -> V -> Prop) t t' p,
  tp_shown (leaf sv) (leaf sk) R t -> tp_shown (leaf sv) (leaf sk) R' t' -> shown p t = shown p t' ->
  forall c v, R c v <-> R' c v.
Proof. exact @tp_debug_reads. Qed.
Print Assumptions c78_tp_reads.

Theorem c78_as_reads :
  forall V T (teqb : T -> T -> bool), (forall x y, teqb x y = true <-> x = y) ->
  forall (sv : bool -> V -> text) (sk : bool -> T -> text),
  (forall p, readable (sv p)) -> (forall p, opens (sv p)) ->
  (forall p, key_readable (sk p)) -> (forall p, opens (sk p)) ->
  forall (R R' : t_as T -> V -> Prop) t t' p,
  as_shown (leaf sv) (leaf sk) R t -> as_shown (leaf sv) (leaf sk) R' t' -> shown p t = shown p t' ->
  forall c v, R c v <-> R' c v.
Proof. exact @as_debug_reads. Qed.
Print Assumptions c78_as_reads.

Theorem c78_gs_reads :
  forall V T (teqb : T -> T -> bool), (forall x y, teqb x y = true <-> x = y) ->
  forall (sv : bool -> V -> text) (sk : bool -> T -> text),
  (forall p, readable (sv p)) -> (forall p, opens (sv p)) ->
  (forall p, key_readable (sk p)) -> (forall p, opens (sk p)) ->
  forall (R R' : t_gs T -> V -> Prop) t t' p,
  gs_shown (leaf sv) (leaf sk) R t -> gs_shown (leaf sv) (leaf sk) R' t' -> shown p t = shown p t' ->
  forall c v, R c v <-> R' c v.
Proof. exact @gs_debug_reads. Qed.
Print Assumptions c78_gs_reads.

Theorem c78_ag_reads :
  forall V T (teqb : T -> T -> bool), (forall x y, teqb x y = true <-> x = y) ->
  forall (sv : bool -> V -> text) (sk : bool -> T -> text),
  (forall p, readable (sv p)) -> (forall p, opens (sv p)) ->
  (forall p, key_readable (sk p)) -> (forall p, opens (sk p)) ->
  forall (R R' : t_ag T -> V -> Prop) t t' p,
  ag_shown (leaf sv) (leaf sk) R t -> ag_shown (leaf sv) (leaf sk) R' t' -> shown p t = shown p t' ->
  forall c v, R c v <-> R' c v.
Proof. exact @ag_debug_reads. Qed.
Print Assumptions c78_ag_reads.

Theorem c78_aa_reads :
  forall V T (teqb : T -> T -> bool), (forall x y, teqb x y = true <-> x = y) ->
  forall (sv : bool -> V -> text) (sk : bool -> T -> text),
  (forall p, readable (sv p)) -> (forall p, opens (sv p)) ->
  (forall p, key_readable (sk p)) -> (forall p, opens (sk p)) ->
  forall (R R' : t_aa T -> V -> Prop) t t' p,
  aa_shown (leaf sv) (leaf sk) R t -> aa_shown (leaf sv) (leaf sk) R' t' -> shown p t = shown p t' ->
  forall c v, R c v <-> R' c v.
Proof. exact @aa_debug_reads. Qed.
Print Assumptions c78_aa_reads.

Theorem c78_gg_reads :
  forall V T (teqb : T -> T -> bool), (forall x y, teqb x y = true <-> x = y) ->
  forall (sv : bool -> V -> text) (sk : bool -> T -> text),
  (forall p, readable (sv p)) -> (forall p, opens (sv p)) ->
  (forall p, key_readable (sk p)) -> (forall p, opens (sk p)) ->
  forall (R R' : t_gg T -> V -> Prop) t t' p,
  gg_shown (leaf sv) (leaf sk) R t -> gg_shown (leaf sv) (leaf sk) R' t' -> shown p t = shown p t' ->
  forall c v, R c v <-> R' c v.
Proof. exact @gg_debug_reads. Qed.
Print Assumptions c78_gg_reads.

Theorem c78_ga_reads :
  forall V T (teqb : T -> T -> bool), (forall x y, teqb x y = true <-> x = y) ->
  forall (sv : bool -> V -> text) (sk : bool -> T -> text),
  (forall p, readable (sv p)) -> (forall p, opens (sv p)) ->
  (forall p, key_readable (sk p)) -> (forall p, opens (sk p)) ->
  forall (R R' : t_ga T -> V -> Prop) t t' p,
  ga_shown (leaf sv) (leaf sk) R t -> ga_shown (leaf sv) (leaf sk) R' t' -> shown p t = shown p t' ->
  forall c v, R c v <-> R' c v.
Proof. exact @ga_debug_reads. Qed.
Print Assumptions c78_ga_reads.

(** Without the sign #, all is on one line if this is so of the values and of the resources: for [class]
    take the characters other than the end of line. *)
Theorem c78_characters :
  forall V T (teqb : T -> T -> bool), (forall x y, teqb x y = true <-> x = y) ->
  forall class (sv : bool -> V -> text) (sk : bool -> T -> text), has_ascii class ->
  (forall v c, In c (sv false v) -> class c) -> (forall k c, In c (sk false k) -> class c) ->
  (forall R t, tp_shown (leaf sv) (leaf sk) R t -> forall c, In c (shown false t) -> class c) /\
  (forall R t, as_shown (leaf sv) (leaf sk) R t -> forall c, In c (shown false t) -> class c) /\
  (forall R t, gs_shown (leaf sv) (leaf sk) R t -> forall c, In c (shown false t) -> class c) /\
  (forall R t, ag_shown (leaf sv) (leaf sk) R t -> forall c, In c (shown false t) -> class c) /\
  (forall R t, aa_shown (leaf sv) (leaf sk) R t -> forall c, In c (shown false t) -> class c) /\
  (forall R t, gg_shown (leaf sv) (leaf sk) R t -> forall c, In c (shown false t) -> class c) /\
  (forall R t, ga_shown (leaf sv) (leaf sk) R t -> forall c, In c (shown false t) -> class c).
Proof. exact @maps_debug_class. Qed.
Print Assumptions c78_characters.

(** ** What can be in a map

    Values, and resources, whose text can be read. *)
Theorem c78_numbers : forall class, has_ascii class ->
  tells_key class (fun n : N => d_str (dec n)).
Proof. exact @numbers_keys. Qed.
Print Assumptions c78_numbers.

Theorem c78_strings : forall class, has_ascii class ->
  forall special, (forall c, 127 < c -> special c = false -> class c) ->
  tells_key class (d_text special) /\ tells_key class (d_blank special).
Proof. exact @strings_keys. Qed.
Print Assumptions c78_strings.

Theorem c78_terms : forall class, has_ascii class ->
  forall special, (forall c, 127 < c -> special c = false -> class c) ->
  forall di dg : text -> dval, tells class di -> tells class dg ->
  tells_key class (d_term special di dg) /\ tells_key class (d_local special di dg).
Proof. exact @terms_keys. Qed.
Print Assumptions c78_terms.

Theorem c78_statements : forall class, has_ascii class ->
  forall R (dr : R -> dval), tells class dr ->
  tells_key class (d_triple dr) /\ tells_key class (d_quad dr).
Proof. exact @statements_keys. Qed.
Print Assumptions c78_statements.

(** ** Examples *)
Definition ex_all (v : dval) (pretty : bool) : text :=
  fst (v text (fun w s => (w ++ s, true)) pretty []).
Definition ex_n (n : N) : dval := d_str (dec n).
Definition ex_l : list (t_gs N * N) :=
  [(TG_AnyP TGA_Any, 1); (TG_GivenP 7 (TGG_Given 5), 2); (TG_GivenP 7 (TGG_Given 5), 3);
   (TG_GivenP 8 TGG_Any, 4)].
Definition ex_m := snd (insert_all (mgs_insert N.eqb N.eqb) ex_l mgs_default).
Example c78_plain_ex : ex_all (d_mgs ex_n ex_n ex_m) false =
  chars "GivenSubjectMap { any: GivenSubjectAnyPredicateMap { any: {1}, same_as_predicate: {}, given: {} }, " ++
  chars "given: {7: GivenSubjectGivenPredicateMap { any: {}, given: {5: {2, 3}} }, " ++
  chars "8: GivenSubjectGivenPredicateMap { any: {4}, given: {} }} }".
Proof. vm_compute. reflexivity. Qed.
Definition ex_nl : text := [10].
Example c78_pretty_ex :
  ex_all (d_mgg ex_n ex_n (snd (insert_all (mgg_insert N.eqb N.eqb) [(TGG_Given 5, 2)] mgg_default))) true =
  chars "GivenSubjectGivenPredicateMap {" ++ ex_nl ++
  chars "    any: {}," ++ ex_nl ++
  chars "    given: {" ++ ex_nl ++
  chars "        5: {" ++ ex_nl ++
  chars "            2," ++ ex_nl ++
  chars "        }," ++ ex_nl ++
  chars "    }," ++ ex_nl ++
  chars "}".
Proof. vm_compute. reflexivity. Qed.

(** Another order of the same tables. *)
Example c78_order_ex : exists m', mgs_order ex_m m' /\ ex_all (d_mgs ex_n ex_n m') false =
  chars "GivenSubjectMap { any: GivenSubjectAnyPredicateMap { any: {1}, same_as_predicate: {}, given: {} }, " ++
  chars "given: {8: GivenSubjectGivenPredicateMap { any: {4}, given: {} }, " ++
  chars "7: GivenSubjectGivenPredicateMap { any: {}, given: {5: {3, 2}} }} }".
Proof.
  exists (MGS (MGA [1] [] []) [(8, MGG [4] []); (7, MGG [] [(5, [3; 2])])]).
  split; [|vm_compute; reflexivity].
  assert (Z : forall A (o : A -> A -> Prop), hm_order (T := N) o [] []) by (intros; exists []; repeat constructor).
  split; [repeat split; try apply Permutation.Permutation_refl; apply Z|].
  exists [(8, MGG [4] []); (7, MGG [] [(5, [2; 3])])]. split; [apply Permutation.perm_swap|].
  repeat constructor; try apply Permutation.Permutation_refl; cbn; try apply Z.
  exists [(5, [2; 3])]. repeat constructor.
Qed.
(** A text that is read: the hypotheses are met by numbers. *)
Example c78_reads_ex : (forall p : bool, readable dec) /\ (forall p : bool, opens dec) /\
  (forall p : bool, key_readable dec) /\ exists t, gs_shown (leaf (fun _ => dec)) (leaf (fun _ => dec))
    (fun c v => In (c, v) ex_l) t.
Proof. exact reads_example. Qed.
