(** Property theorems for pattern maps built by insertions and unions: C79. *)
From Coq Require Import List Bool NArith Permutation.
Import ListNotations.
From Verif Require Import Base TextModel WriteModel WriteSpec TripleModel TriplePatternModel PatternSpec PatternMapModel
  PatternMapSpec DebugModel DebugSpec PatternDebugModel PatternDebugSpec PatternGrowthModel PatternGrowthSpec
  PatternGrowthProofs.

(** [GivenSubjectAnyPredicateMap]: [get] after any insertions and unions. *)
Theorem c79_ga_get : forall V T (veqb : V -> V -> bool) (teqb : T -> T -> bool),
  (forall x y, veqb x y = true <-> x = y) -> (forall x y, teqb x y = true <-> x = y) ->
  forall (e : growth (t_ga T) V) (t : triple T),
  answers (mga_get teqb (grow mga_default (mga_insert veqb teqb) (mga_union veqb teqb) e) t)
    (fun c v => kept same_key_ga e c v /\ tga_m c (t_p t) (t_o t)).
Proof. exact @ga_growth_get. Qed.
Print Assumptions c79_ga_get.

(** The result of an insertion. *)
Theorem c79_ga_insert : forall V T (veqb : V -> V -> bool) (teqb : T -> T -> bool),
  (forall x y, veqb x y = true <-> x = y) -> (forall x y, teqb x y = true <-> x = y) ->
  forall (e : growth (t_ga T) V) c v,
  fst (mga_insert veqb teqb c v (grow mga_default (mga_insert veqb teqb) (mga_union veqb teqb) e)) = true <-> ~ kept same_key_ga e c v.
Proof. exact @ga_growth_insert. Qed.
Print Assumptions c79_ga_insert.

(** Nothing is lost if the maps united use no key in common. *)
Theorem c79_ga_apart : forall V T (veqb : V -> V -> bool) (teqb : T -> T -> bool),
  (forall x y, veqb x y = true <-> x = y) -> (forall x y, teqb x y = true <-> x = y) ->
  forall (e : growth (t_ga T) V) (t : triple T), apart same_key_ga e ->
  answers (mga_get teqb (grow mga_default (mga_insert veqb teqb) (mga_union veqb teqb) e) t)
    (fun c v => inserted e c v /\ tga_m c (t_p t) (t_o t)).
Proof. exact @ga_growth_apart. Qed.
Print Assumptions c79_ga_apart.

(** Unions are associative and idempotent, and a fresh map changes nothing. *)
Theorem c79_ga_algebra : forall V T (veqb : V -> V -> bool) (teqb : T -> T -> bool),
  (forall x y, veqb x y = true <-> x = y) -> (forall x y, teqb x y = true <-> x = y) ->
  forall (a b c : growth (t_ga T) V) (t : triple T),
  let grown := grow mga_default (mga_insert veqb teqb) (mga_union veqb teqb) in
  let get e := mga_get teqb (grown e) t in
  Permutation (get (United (United a b) c)) (get (United a (United b c))) /\
  Permutation (get (United a Fresh)) (get a) /\ Permutation (get (United Fresh a)) (get a) /\
  Permutation (get (United a a)) (get a) /\
  Permutation (get (United (United a b) a)) (get (United b a)).
Proof. exact @ga_growth_algebra. Qed.
Print Assumptions c79_ga_algebra.

(** The texts [Debug] may write. *)
Theorem c79_ga_text : forall V T (veqb : V -> V -> bool) (teqb : T -> T -> bool),
  (forall x y, veqb x y = true <-> x = y) -> (forall x y, teqb x y = true <-> x = y) ->
  forall (dv : V -> dval) (dk : T -> dval) (sv : bool -> V -> text) (sk : bool -> T -> text),
  (forall v, shows (dv v) (fun p => sv p v)) -> (forall k, shows (dk k) (fun p => sk p k)) ->
  forall e : growth (t_ga T) V,
  let m := grow mga_default (mga_insert veqb teqb) (mga_union veqb teqb) e in
  (forall m', mga_order m m' ->
    exists t, ga_shown (leaf sv) (leaf sk) (kept same_key_ga e) t /\ shows (d_mga dv dk m') (fun p => shown p t)) /\
  (forall t, ga_shown (leaf sv) (leaf sk) (kept same_key_ga e) t ->
    exists m', mga_order m m' /\ shows (d_mga dv dk m') (fun p => shown p t)).
Proof. exact @ga_growth_text. Qed.
Print Assumptions c79_ga_text.

(** [GivenSubjectGivenPredicateMap]: [get] after any insertions and unions. *)
Theorem c79_gg_get : forall V T (veqb : V -> V -> bool) (teqb : T -> T -> bool),
  (forall x y, veqb x y = true <-> x = y) -> (forall x y, teqb x y = true <-> x = y) ->
  forall (e : growth (t_gg T) V) (t : triple T),
  answers (mgg_get teqb (grow mgg_default (mgg_insert veqb teqb) (mgg_union veqb teqb) e) t)
    (fun c v => kept same_key_gg e c v /\ tgg_m c (t_o t)).
Proof. exact @gg_growth_get. Qed.
Print Assumptions c79_gg_get.

(** The result of an insertion. *)
Theorem c79_gg_insert : forall V T (veqb : V -> V -> bool) (teqb : T -> T -> bool),
  (forall x y, veqb x y = true <-> x = y) -> (forall x y, teqb x y = true <-> x = y) ->
  forall (e : growth (t_gg T) V) c v,
  fst (mgg_insert veqb teqb c v (grow mgg_default (mgg_insert veqb teqb) (mgg_union veqb teqb) e)) = true <-> ~ kept same_key_gg e c v.
Proof. exact @gg_growth_insert. Qed.
Print Assumptions c79_gg_insert.

(** Nothing is lost if the maps united use no key in common. *)
Theorem c79_gg_apart : forall V T (veqb : V -> V -> bool) (teqb : T -> T -> bool),
  (forall x y, veqb x y = true <-> x = y) -> (forall x y, teqb x y = true <-> x = y) ->
  forall (e : growth (t_gg T) V) (t : triple T), apart same_key_gg e ->
  answers (mgg_get teqb (grow mgg_default (mgg_insert veqb teqb) (mgg_union veqb teqb) e) t)
    (fun c v => inserted e c v /\ tgg_m c (t_o t)).
Proof. exact @gg_growth_apart. Qed.
Print Assumptions c79_gg_apart.

(** Unions are associative and idempotent, and a fresh map changes nothing. *)
Theorem c79_gg_algebra : forall V T (veqb : V -> V -> bool) (teqb : T -> T -> bool),
  (forall x y, veqb x y = true <-> x = y) -> (forall x y, teqb x y = true <-> x = y) ->
  forall (a b c : growth (t_gg T) V) (t : triple T),
  let grown := grow mgg_default (mgg_insert veqb teqb) (mgg_union veqb teqb) in
  let get e := mgg_get teqb (grown e) t in
  Permutation (get (United (United a b) c)) (get (United a (United b c))) /\
  Permutation (get (United a Fresh)) (get a) /\ Permutation (get (United Fresh a)) (get a) /\
  Permutation (get (United a a)) (get a) /\
  Permutation (get (United (United a b) a)) (get (United b a)).
Proof. exact @gg_growth_algebra. Qed.
Print Assumptions c79_gg_algebra.

(** The texts [Debug] may write. *)
Theorem c79_gg_text : forall V T (veqb : V -> V -> bool) (teqb : T -> T -> bool),
  (forall x y, veqb x y = true <-> x = y) -> (forall x y, teqb x y = true <-> x = y) ->
  forall (dv : V -> dval) (dk : T -> dval) (sv : bool -> V -> text) (sk : bool -> T -> text),
  (forall v, shows (dv v) (fun p => sv p v)) -> (forall k, shows (dk k) (fun p => sk p k)) ->
  forall e : growth (t_gg T) V,
  let m := grow mgg_default (mgg_insert veqb teqb) (mgg_union veqb teqb) e in
  (forall m', mgg_order m m' ->
    exists t, gg_shown (leaf sv) (leaf sk) (kept same_key_gg e) t /\ shows (d_mgg dv dk m') (fun p => shown p t)) /\
  (forall t, gg_shown (leaf sv) (leaf sk) (kept same_key_gg e) t ->
    exists m', mgg_order m m' /\ shows (d_mgg dv dk m') (fun p => shown p t)).
Proof. exact @gg_growth_text. Qed.
Print Assumptions c79_gg_text.

(** [AnySubjectAnyPredicateMap]: [get] after any insertions and unions. *)
Theorem c79_aa_get : forall V T (veqb : V -> V -> bool) (teqb : T -> T -> bool),
  (forall x y, veqb x y = true <-> x = y) -> (forall x y, teqb x y = true <-> x = y) ->
  forall (e : growth (t_aa T) V) (t : triple T),
  answers (maa_get teqb (grow maa_default (maa_insert veqb teqb) (maa_union veqb teqb) e) t)
    (fun c v => kept same_key_aa e c v /\ taa_m c (t_s t) (t_p t) (t_o t)).
Proof. exact @aa_growth_get. Qed.
Print Assumptions c79_aa_get.

(** The result of an insertion. *)
Theorem c79_aa_insert : forall V T (veqb : V -> V -> bool) (teqb : T -> T -> bool),
  (forall x y, veqb x y = true <-> x = y) -> (forall x y, teqb x y = true <-> x = y) ->
  forall (e : growth (t_aa T) V) c v,
  fst (maa_insert veqb teqb c v (grow maa_default (maa_insert veqb teqb) (maa_union veqb teqb) e)) = true <-> ~ kept same_key_aa e c v.
Proof. exact @aa_growth_insert. Qed.
Print Assumptions c79_aa_insert.

(** Nothing is lost if the maps united use no key in common. *)
Theorem c79_aa_apart : forall V T (veqb : V -> V -> bool) (teqb : T -> T -> bool),
  (forall x y, veqb x y = true <-> x = y) -> (forall x y, teqb x y = true <-> x = y) ->
  forall (e : growth (t_aa T) V) (t : triple T), apart same_key_aa e ->
  answers (maa_get teqb (grow maa_default (maa_insert veqb teqb) (maa_union veqb teqb) e) t)
    (fun c v => inserted e c v /\ taa_m c (t_s t) (t_p t) (t_o t)).
Proof. exact @aa_growth_apart. Qed.
Print Assumptions c79_aa_apart.

(** Unions are associative and idempotent, and a fresh map changes nothing. *)
Theorem c79_aa_algebra : forall V T (veqb : V -> V -> bool) (teqb : T -> T -> bool),
  (forall x y, veqb x y = true <-> x = y) -> (forall x y, teqb x y = true <-> x = y) ->
  forall (a b c : growth (t_aa T) V) (t : triple T),
  let grown := grow maa_default (maa_insert veqb teqb) (maa_union veqb teqb) in
  let get e := maa_get teqb (grown e) t in
  Permutation (get (United (United a b) c)) (get (United a (United b c))) /\
  Permutation (get (United a Fresh)) (get a) /\ Permutation (get (United Fresh a)) (get a) /\
  Permutation (get (United a a)) (get a) /\
  Permutation (get (United (United a b) a)) (get (United b a)).
Proof. exact @aa_growth_algebra. Qed.
Print Assumptions c79_aa_algebra.

(** The texts [Debug] may write. *)
Theorem c79_aa_text : forall V T (veqb : V -> V -> bool) (teqb : T -> T -> bool),
  (forall x y, veqb x y = true <-> x = y) -> (forall x y, teqb x y = true <-> x = y) ->
  forall (dv : V -> dval) (dk : T -> dval) (sv : bool -> V -> text) (sk : bool -> T -> text),
  (forall v, shows (dv v) (fun p => sv p v)) -> (forall k, shows (dk k) (fun p => sk p k)) ->
  forall e : growth (t_aa T) V,
  let m := grow maa_default (maa_insert veqb teqb) (maa_union veqb teqb) e in
  (forall m', maa_order m m' ->
    exists t, aa_shown (leaf sv) (leaf sk) (kept same_key_aa e) t /\ shows (d_maa dv dk m') (fun p => shown p t)) /\
  (forall t, aa_shown (leaf sv) (leaf sk) (kept same_key_aa e) t ->
    exists m', maa_order m m' /\ shows (d_maa dv dk m') (fun p => shown p t)).
Proof. exact @aa_growth_text. Qed.
Print Assumptions c79_aa_text.

(** [AnySubjectGivenPredicateMap]: [get] after any insertions and unions. *)
Theorem c79_ag_get : forall V T (veqb : V -> V -> bool) (teqb : T -> T -> bool),
  (forall x y, veqb x y = true <-> x = y) -> (forall x y, teqb x y = true <-> x = y) ->
  forall (e : growth (t_ag T) V) (t : triple T),
  answers (mag_get teqb (grow mag_default (mag_insert veqb teqb) (mag_union veqb teqb) e) t)
    (fun c v => kept same_key_ag e c v /\ tag_m c (t_s t) (t_o t)).
Proof. exact @ag_growth_get. Qed.
Print Assumptions c79_ag_get.

(** The result of an insertion. *)
Theorem c79_ag_insert : forall V T (veqb : V -> V -> bool) (teqb : T -> T -> bool),
  (forall x y, veqb x y = true <-> x = y) -> (forall x y, teqb x y = true <-> x = y) ->
  forall (e : growth (t_ag T) V) c v,
  fst (mag_insert veqb teqb c v (grow mag_default (mag_insert veqb teqb) (mag_union veqb teqb) e)) = true <-> ~ kept same_key_ag e c v.
Proof. exact @ag_growth_insert. Qed.
Print Assumptions c79_ag_insert.

(** Nothing is lost if the maps united use no key in common. *)
Theorem c79_ag_apart : forall V T (veqb : V -> V -> bool) (teqb : T -> T -> bool),
  (forall x y, veqb x y = true <-> x = y) -> (forall x y, teqb x y = true <-> x = y) ->
  forall (e : growth (t_ag T) V) (t : triple T), apart same_key_ag e ->
  answers (mag_get teqb (grow mag_default (mag_insert veqb teqb) (mag_union veqb teqb) e) t)
    (fun c v => inserted e c v /\ tag_m c (t_s t) (t_o t)).
Proof. exact @ag_growth_apart. Qed.
Print Assumptions c79_ag_apart.

(** Unions are associative and idempotent, and a fresh map changes nothing. *)
Theorem c79_ag_algebra : forall V T (veqb : V -> V -> bool) (teqb : T -> T -> bool),
  (forall x y, veqb x y = true <-> x = y) -> (forall x y, teqb x y = true <-> x = y) ->
  forall (a b c : growth (t_ag T) V) (t : triple T),
  let grown := grow mag_default (mag_insert veqb teqb) (mag_union veqb teqb) in
  let get e := mag_get teqb (grown e) t in
  Permutation (get (United (United a b) c)) (get (United a (United b c))) /\
  Permutation (get (United a Fresh)) (get a) /\ Permutation (get (United Fresh a)) (get a) /\
  Permutation (get (United a a)) (get a) /\
  Permutation (get (United (United a b) a)) (get (United b a)).
Proof. exact @ag_growth_algebra. Qed.
Print Assumptions c79_ag_algebra.

(** The texts [Debug] may write. *)
Theorem c79_ag_text : forall V T (veqb : V -> V -> bool) (teqb : T -> T -> bool),
  (forall x y, veqb x y = true <-> x = y) -> (forall x y, teqb x y = true <-> x = y) ->
  forall (dv : V -> dval) (dk : T -> dval) (sv : bool -> V -> text) (sk : bool -> T -> text),
  (forall v, shows (dv v) (fun p => sv p v)) -> (forall k, shows (dk k) (fun p => sk p k)) ->
  forall e : growth (t_ag T) V,
  let m := grow mag_default (mag_insert veqb teqb) (mag_union veqb teqb) e in
  (forall m', mag_order m m' ->
    exists t, ag_shown (leaf sv) (leaf sk) (kept same_key_ag e) t /\ shows (d_mag dv dk m') (fun p => shown p t)) /\
  (forall t, ag_shown (leaf sv) (leaf sk) (kept same_key_ag e) t ->
    exists m', mag_order m m' /\ shows (d_mag dv dk m') (fun p => shown p t)).
Proof. exact @ag_growth_text. Qed.
Print Assumptions c79_ag_text.

(** [GivenSubjectMap]: [get] after any insertions and unions. *)
Theorem c79_gs_get : forall V T (veqb : V -> V -> bool) (teqb : T -> T -> bool),
  (forall x y, veqb x y = true <-> x = y) -> (forall x y, teqb x y = true <-> x = y) ->
  forall (e : growth (t_gs T) V) (t : triple T),
  answers (mgs_get teqb (grow mgs_default (mgs_insert veqb teqb) (mgs_union veqb teqb) e) t)
    (fun c v => kept same_key_gs e c v /\ tgs_m c (t_p t) (t_o t)).
Proof. exact @gs_growth_get. Qed.
Print Assumptions c79_gs_get.

(** The result of an insertion. *)
Theorem c79_gs_insert : forall V T (veqb : V -> V -> bool) (teqb : T -> T -> bool),
  (forall x y, veqb x y = true <-> x = y) -> (forall x y, teqb x y = true <-> x = y) ->
  forall (e : growth (t_gs T) V) c v,
  fst (mgs_insert veqb teqb c v (grow mgs_default (mgs_insert veqb teqb) (mgs_union veqb teqb) e)) = true <-> ~ kept same_key_gs e c v.
Proof. exact @gs_growth_insert. Qed.
Print Assumptions c79_gs_insert.

(** Nothing is lost if the maps united use no key in common. *)
Theorem c79_gs_apart : forall V T (veqb : V -> V -> bool) (teqb : T -> T -> bool),
  (forall x y, veqb x y = true <-> x = y) -> (forall x y, teqb x y = true <-> x = y) ->
  forall (e : growth (t_gs T) V) (t : triple T), apart same_key_gs e ->
  answers (mgs_get teqb (grow mgs_default (mgs_insert veqb teqb) (mgs_union veqb teqb) e) t)
    (fun c v => inserted e c v /\ tgs_m c (t_p t) (t_o t)).
Proof. exact @gs_growth_apart. Qed.
Print Assumptions c79_gs_apart.

(** Unions are associative and idempotent, and a fresh map changes nothing. *)
Theorem c79_gs_algebra : forall V T (veqb : V -> V -> bool) (teqb : T -> T -> bool),
  (forall x y, veqb x y = true <-> x = y) -> (forall x y, teqb x y = true <-> x = y) ->
  forall (a b c : growth (t_gs T) V) (t : triple T),
  let grown := grow mgs_default (mgs_insert veqb teqb) (mgs_union veqb teqb) in
  let get e := mgs_get teqb (grown e) t in
  Permutation (get (United (United a b) c)) (get (United a (United b c))) /\
  Permutation (get (United a Fresh)) (get a) /\ Permutation (get (United Fresh a)) (get a) /\
  Permutation (get (United a a)) (get a) /\
  Permutation (get (United (United a b) a)) (get (United b a)).
Proof. exact @gs_growth_algebra. Qed.
Print Assumptions c79_gs_algebra.

(** The texts [Debug] may write. *)
Theorem c79_gs_text : forall V T (veqb : V -> V -> bool) (teqb : T -> T -> bool),
  (forall x y, veqb x y = true <-> x = y) -> (forall x y, teqb x y = true <-> x = y) ->
  forall (dv : V -> dval) (dk : T -> dval) (sv : bool -> V -> text) (sk : bool -> T -> text),
  (forall v, shows (dv v) (fun p => sv p v)) -> (forall k, shows (dk k) (fun p => sk p k)) ->
  forall e : growth (t_gs T) V,
  let m := grow mgs_default (mgs_insert veqb teqb) (mgs_union veqb teqb) e in
  (forall m', mgs_order m m' ->
    exists t, gs_shown (leaf sv) (leaf sk) (kept same_key_gs e) t /\ shows (d_mgs dv dk m') (fun p => shown p t)) /\
  (forall t, gs_shown (leaf sv) (leaf sk) (kept same_key_gs e) t ->
    exists m', mgs_order m m' /\ shows (d_mgs dv dk m') (fun p => shown p t)).
Proof. exact @gs_growth_text. Qed.
Print Assumptions c79_gs_text.

(** [AnySubjectMap]: [get] after any insertions and unions. *)
Theorem c79_as_get : forall V T (veqb : V -> V -> bool) (teqb : T -> T -> bool),
  (forall x y, veqb x y = true <-> x = y) -> (forall x y, teqb x y = true <-> x = y) ->
  forall (e : growth (t_as T) V) (t : triple T),
  answers (mas_get teqb (grow mas_default (mas_insert veqb teqb) (mas_union veqb teqb) e) t)
    (fun c v => kept same_key_as e c v /\ tas_m c (t_s t) (t_p t) (t_o t)).
Proof. exact @as_growth_get. Qed.
Print Assumptions c79_as_get.

(** The result of an insertion. *)
Theorem c79_as_insert : forall V T (veqb : V -> V -> bool) (teqb : T -> T -> bool),
  (forall x y, veqb x y = true <-> x = y) -> (forall x y, teqb x y = true <-> x = y) ->
  forall (e : growth (t_as T) V) c v,
  fst (mas_insert veqb teqb c v (grow mas_default (mas_insert veqb teqb) (mas_union veqb teqb) e)) = true <-> ~ kept same_key_as e c v.
Proof. exact @as_growth_insert. Qed.
Print Assumptions c79_as_insert.

(** Nothing is lost if the maps united use no key in common. *)
Theorem c79_as_apart : forall V T (veqb : V -> V -> bool) (teqb : T -> T -> bool),
  (forall x y, veqb x y = true <-> x = y) -> (forall x y, teqb x y = true <-> x = y) ->
  forall (e : growth (t_as T) V) (t : triple T), apart same_key_as e ->
  answers (mas_get teqb (grow mas_default (mas_insert veqb teqb) (mas_union veqb teqb) e) t)
    (fun c v => inserted e c v /\ tas_m c (t_s t) (t_p t) (t_o t)).
Proof. exact @as_growth_apart. Qed.
Print Assumptions c79_as_apart.

(** Unions are associative and idempotent, and a fresh map changes nothing. *)
Theorem c79_as_algebra : forall V T (veqb : V -> V -> bool) (teqb : T -> T -> bool),
  (forall x y, veqb x y = true <-> x = y) -> (forall x y, teqb x y = true <-> x = y) ->
  forall (a b c : growth (t_as T) V) (t : triple T),
  let grown := grow mas_default (mas_insert veqb teqb) (mas_union veqb teqb) in
  let get e := mas_get teqb (grown e) t in
  Permutation (get (United (United a b) c)) (get (United a (United b c))) /\
  Permutation (get (United a Fresh)) (get a) /\ Permutation (get (United Fresh a)) (get a) /\
  Permutation (get (United a a)) (get a) /\
  Permutation (get (United (United a b) a)) (get (United b a)).
Proof. exact @as_growth_algebra. Qed.
Print Assumptions c79_as_algebra.

(** The texts [Debug] may write. *)
Theorem c79_as_text : forall V T (veqb : V -> V -> bool) (teqb : T -> T -> bool),
  (forall x y, veqb x y = true <-> x = y) -> (forall x y, teqb x y = true <-> x = y) ->
  forall (dv : V -> dval) (dk : T -> dval) (sv : bool -> V -> text) (sk : bool -> T -> text),
  (forall v, shows (dv v) (fun p => sv p v)) -> (forall k, shows (dk k) (fun p => sk p k)) ->
  forall e : growth (t_as T) V,
  let m := grow mas_default (mas_insert veqb teqb) (mas_union veqb teqb) e in
  (forall m', mas_order m m' ->
    exists t, as_shown (leaf sv) (leaf sk) (kept same_key_as e) t /\ shows (d_mas dv dk m') (fun p => shown p t)) /\
  (forall t, as_shown (leaf sv) (leaf sk) (kept same_key_as e) t ->
    exists m', mas_order m m' /\ shows (d_mas dv dk m') (fun p => shown p t)).
Proof. exact @as_growth_text. Qed.
Print Assumptions c79_as_text.

(** The hypotheses are met: a history with a union in a union that loses values, and one that loses
    nothing. *)
Definition ex_grown : growth (t_gg nat) nat :=
  United (Inserted (United (Inserted (Inserted Fresh (TGG_Given 1) 10) TGG_Any 11)
                           (Inserted Fresh (TGG_Given 1) 12)) (TGG_Given 1) 13)
         (Inserted (Inserted Fresh (TGG_Given 2) 14) TGG_Any 11).
Example c79_ex_get : let m := grow mgg_default (mgg_insert Nat.eqb Nat.eqb) (mgg_union Nat.eqb Nat.eqb) ex_grown in
  mgg_get Nat.eqb m (Triple 0 0 1) = [11; 12; 13] /\ mgg_get Nat.eqb m (Triple 0 0 2) = [11; 14] /\
  fst (mgg_insert Nat.eqb Nat.eqb (TGG_Given 1) 10 m) = true /\
  fst (mgg_insert Nat.eqb Nat.eqb (TGG_Given 1) 12 m) = false.
Proof. vm_compute. auto. Qed.
Example c79_ex_kept : kept same_key_gg ex_grown (TGG_Given 1) 12 /\ ~ kept same_key_gg ex_grown (TGG_Given 1) 10 /\
  inserted ex_grown (TGG_Given 1) 10.
Proof.
  cbn. refine (conj _ (conj _ _)).
  - right. split; [right; left; now left|]. intros (c & v & [[-> ->]|[[-> ->]|[]]] & K); cbn in K; congruence.
  - intros [[[H _]|[[H _]|[]]]|[[[_ H]|[[[_ H]|[]]|[_ N]]] _]]; try discriminate.
    apply N. exists (TGG_Given 1), 12. split; [now left|reflexivity].
  - left. right. left. right. now left.
Qed.
Example c79_ex_apart : apart same_key_ga
  (United (Inserted Fresh (TGA_Given 1) 10) (Inserted (Inserted Fresh (TGA_Given 2) 10) TGA_SameP 11)).
Proof.
  cbn. refine (conj I (conj I _)). intros c v c' v' [[-> ->]|[]] [[-> ->]|[[-> ->]|[]]] H; [exact H|discriminate H].
Qed.
