(** C77: pattern maps when [Hash] or [Eq] panics. *)
From Coq Require Import List Bool Arith Permutation.
Import ListNotations.
From Verif Require Import Base TripleModel TriplePatternModel PatternSpec PatternMapModel PatternMapSpec
  PatternCrashModel PatternCrashSpec PatternCrashProofs.

(** *** [TriplePatternMap] *)

(** An insertion makes one look-up per given resource and one for the value; *)
Theorem c77_lookups : forall V T (veqb : V -> V -> bool) (teqb : T -> T -> bool),
  (forall x y, veqb x y = true <-> x = y) -> (forall x y, teqb x y = true <-> x = y) ->
  forall n c v m, fst (tpm_insert_at veqb teqb n c v m) = None <-> n < 1 + gives c.
Proof. exact @tpm_at_lookups. Qed.
Print Assumptions c77_lookups.

(** when none of them panics, it is the insertion of C43. *)
Theorem c77_plain : forall V T (veqb : V -> V -> bool) (teqb : T -> T -> bool),
  (forall x y, veqb x y = true <-> x = y) -> (forall x y, teqb x y = true <-> x = y) ->
  forall n c v m b, fst (tpm_insert_at veqb teqb n c v m) = Some b ->
    tpm_insert veqb teqb c v m = (b, snd (tpm_insert_at veqb teqb n c v m)).
Proof. exact @tpm_at_plain. Qed.
Print Assumptions c77_plain.

(** Whatever insertions were interrupted, [get] answers with the values of the others, *)
Theorem c77_get : forall V T (veqb : V -> V -> bool) (teqb : T -> T -> bool),
  (forall x y, veqb x y = true <-> x = y) -> (forall x y, teqb x y = true <-> x = y) ->
  forall (l : list (nat * (ctp T * V))) (t : triple T),
    answers (tpm_get teqb (snd (insert_runs (tpm_insert_at veqb teqb) l tpm_default)) t)
      (fun c v => In (c, v) (completed l (fst (insert_runs (tpm_insert_at veqb teqb) l tpm_default))) /\
                  ct_matches c t).
Proof. exact @tpm_at_get. Qed.
Print Assumptions c77_get.

(** these returned what they would have returned without the interrupted ones, *)
Theorem c77_returned : forall V T (veqb : V -> V -> bool) (teqb : T -> T -> bool),
  (forall x y, veqb x y = true <-> x = y) -> (forall x y, teqb x y = true <-> x = y) ->
  forall (l : list (nat * (ctp T * V))),
    let rs := fst (insert_runs (tpm_insert_at veqb teqb) l tpm_default) in
    returned rs = fst (insert_all (tpm_insert veqb teqb) (completed l rs) tpm_default).
Proof. exact @tpm_at_returned. Qed.
Print Assumptions c77_returned.

(** and an interrupted insertion changes no answer.  ([TriplePatternMap] has no other
    method.) *)
Theorem c77_interrupted : forall V T (veqb : V -> V -> bool) (teqb : T -> T -> bool),
  (forall x y, veqb x y = true <-> x = y) -> (forall x y, teqb x y = true <-> x = y) ->
  forall (l : list (nat * (ctp T * V))) n c v t,
    let m := snd (insert_runs (tpm_insert_at veqb teqb) l tpm_default) in
    fst (tpm_insert_at veqb teqb n c v m) = None ->
    Permutation (tpm_get teqb (snd (tpm_insert_at veqb teqb n c v m)) t) (tpm_get teqb m t).
Proof. exact @tpm_at_interrupted. Qed.
Print Assumptions c77_interrupted.

(** Of four insertions the second is interrupted when the value is looked up and the
    third at the first look-up; the second left an empty entry behind. *)
Example c77_ex :
  let l := [(9, (CT_GivenS 1 (TG_AnyP (TGA_Given 2)), 7)); (2, (CT_GivenS 3 (TG_AnyP (TGA_Given 2)), 8));
            (0, (CT_AnyS (TA_AnyP TAA_Any), 9)); (1, (CT_AnyS (TA_AnyP TAA_Any), 6))] in
  let r := insert_runs (tpm_insert_at Nat.eqb Nat.eqb) l tpm_default in
  fst r = [Some true; None; None; Some true] /\
  completed l (fst r) = [(CT_GivenS 1 (TG_AnyP (TGA_Given 2)), 7); (CT_AnyS (TA_AnyP TAA_Any), 6)] /\
  tpm_get Nat.eqb (snd r) (Triple 1 5 2) = [6; 7] /\ tpm_get Nat.eqb (snd r) (Triple 3 5 2) = [6] /\
  length (tpm_given (snd r)) = 2.
Proof. vm_compute. repeat split. Qed.

(** A union interrupted after its first look-up. *)
Example c77_union_ex :
  let m1 := snd (insert_all (mga_insert Nat.eqb Nat.eqb) [(TGA_Any, 1); (TGA_Given 4, 2)] mga_default) in
  let m2 := snd (insert_all (mga_insert Nat.eqb Nat.eqb) [(TGA_Any, 3); (TGA_Given 4, 5)] mga_default) in
  let r := mga_union_at Nat.eqb Nat.eqb 1 m1 m2 in
  fst r = None /\ mga_get Nat.eqb (snd r) (Triple 0 0 4) = [1; 3; 2] /\
  mga_get Nat.eqb (mga_union Nat.eqb Nat.eqb m1 m2) (Triple 0 0 4) = [1; 3; 5].
Proof. vm_compute. repeat split. Qed.

(** *** [GivenSubjectAnyPredicateMap] *)

(** An insertion makes one look-up per given resource and one for the value; *)
Theorem c77_ga_lookups : forall V T (veqb : V -> V -> bool) (teqb : T -> T -> bool),
  (forall x y, veqb x y = true <-> x = y) -> (forall x y, teqb x y = true <-> x = y) ->
  forall n c v m, fst (mga_insert_at veqb teqb n c v m) = None <-> n < 1 + gives_ga c.
Proof. exact @mga_at_lookups. Qed.
Print Assumptions c77_ga_lookups.

(** when none of them panics, it is the insertion of C43. *)
Theorem c77_ga_plain : forall V T (veqb : V -> V -> bool) (teqb : T -> T -> bool),
  (forall x y, veqb x y = true <-> x = y) -> (forall x y, teqb x y = true <-> x = y) ->
  forall n c v m b, fst (mga_insert_at veqb teqb n c v m) = Some b ->
    mga_insert veqb teqb c v m = (b, snd (mga_insert_at veqb teqb n c v m)).
Proof. exact @mga_at_plain. Qed.
Print Assumptions c77_ga_plain.

(** Whatever insertions were interrupted, [get] answers with the values of the others, *)
Theorem c77_ga_get : forall V T (veqb : V -> V -> bool) (teqb : T -> T -> bool),
  (forall x y, veqb x y = true <-> x = y) -> (forall x y, teqb x y = true <-> x = y) ->
  forall (l : list (nat * (t_ga T * V))) (t : triple T),
    answers (mga_get teqb (snd (insert_runs (mga_insert_at veqb teqb) l mga_default)) t)
      (fun c v => In (c, v) (completed l (fst (insert_runs (mga_insert_at veqb teqb) l mga_default))) /\
                  tga_m c (t_p t) (t_o t)).
Proof. exact @mga_at_get. Qed.
Print Assumptions c77_ga_get.

(** these returned what they would have returned without the interrupted ones, *)
Theorem c77_ga_returned : forall V T (veqb : V -> V -> bool) (teqb : T -> T -> bool),
  (forall x y, veqb x y = true <-> x = y) -> (forall x y, teqb x y = true <-> x = y) ->
  forall (l : list (nat * (t_ga T * V))),
    let rs := fst (insert_runs (mga_insert_at veqb teqb) l mga_default) in
    returned rs = fst (insert_all (mga_insert veqb teqb) (completed l rs) mga_default).
Proof. exact @mga_at_returned. Qed.
Print Assumptions c77_ga_returned.

(** and an interrupted insertion changes no answer.  What is missing: it may
    count when the map is the argument of [union_with], see below. *)
Theorem c77_ga_interrupted_partial : forall V T (veqb : V -> V -> bool) (teqb : T -> T -> bool),
  (forall x y, veqb x y = true <-> x = y) -> (forall x y, teqb x y = true <-> x = y) ->
  forall (l : list (nat * (t_ga T * V))) n c v t,
    let m := snd (insert_runs (mga_insert_at veqb teqb) l mga_default) in
    fst (mga_insert_at veqb teqb n c v m) = None ->
    Permutation (mga_get teqb (snd (mga_insert_at veqb teqb n c v m)) t) (mga_get teqb m t).
Proof. exact @mga_at_interrupted. Qed.
Print Assumptions c77_ga_interrupted_partial.

(** The union of two maps with interrupted insertions: those of the first map leave no
    trace, those of the second count for the keys they hide. *)
Theorem c77_ga_union : forall V T (veqb : V -> V -> bool) (teqb : T -> T -> bool),
  (forall x y, veqb x y = true <-> x = y) -> (forall x y, teqb x y = true <-> x = y) ->
  forall (l1 l2 : list (nat * (t_ga T * V))) (t : triple T),
    answers (mga_get teqb (mga_union veqb teqb
        (snd (insert_runs (mga_insert_at veqb teqb) l1 mga_default))
        (snd (insert_runs (mga_insert_at veqb teqb) l2 mga_default))) t)
      (fun c v => (In (c, v) (completed l2 (fst (insert_runs (mga_insert_at veqb teqb) l2 mga_default))) \/
                   (In (c, v) (completed l1 (fst (insert_runs (mga_insert_at veqb teqb) l1 mga_default))) /\
                    ~ exists n c' v', In (n, (c', v')) l2 /\ 1 <= n /\ same_key_ga c' c)) /\
                  tga_m c (t_p t) (t_o t)).
Proof. exact @mga_at_union. Qed.
Print Assumptions c77_ga_union.

(** A union makes one look-up per value and key it moves; *)
Theorem c77_ga_union_lookups : forall V T (veqb : V -> V -> bool) (teqb : T -> T -> bool),
  (forall x y, veqb x y = true <-> x = y) -> (forall x y, teqb x y = true <-> x = y) ->
  forall n m o, fst (mga_union_at veqb teqb n m o) = None <-> n < entries_ga o.
Proof. exact @mga_at_union_lookups. Qed.
Print Assumptions c77_ga_union_lookups.

(** when it is interrupted, some of the pairs of the argument were taken, key by key, and
    the pairs of the map are there, except under the keys that were taken. *)
Theorem c77_ga_union_interrupted : forall V T (veqb : V -> V -> bool) (teqb : T -> T -> bool),
  (forall x y, veqb x y = true <-> x = y) -> (forall x y, teqb x y = true <-> x = y) ->
  forall (l1 l2 : list (t_ga T * V)) n,
    let m1 := snd (insert_all (mga_insert veqb teqb) l1 mga_default) in
    let m2 := snd (insert_all (mga_insert veqb teqb) l2 mga_default) in
    (fst (mga_union_at veqb teqb n m1 m2) <> None ->
     snd (mga_union_at veqb teqb n m1 m2) = mga_union veqb teqb m1 m2) /\
    exists taken : t_ga T -> V -> Prop,
      (forall c v, taken c v -> In (c, v) l2) /\
      (forall c v c' v', taken c v -> same_key_ga c c' -> In (c', v') l2 -> taken c' v') /\
      forall t, answers (mga_get teqb (snd (mga_union_at veqb teqb n m1 m2)) t)
        (fun c v => (taken c v \/ (In (c, v) l1 /\ ~ exists c' v', taken c' v' /\ same_key_ga c' c)) /\
                    tga_m c (t_p t) (t_o t)).
Proof. exact @mga_at_union_interrupted. Qed.
Print Assumptions c77_ga_union_interrupted.

(** *** [GivenSubjectGivenPredicateMap] *)

(** An insertion makes one look-up per given resource and one for the value; *)
Theorem c77_gg_lookups : forall V T (veqb : V -> V -> bool) (teqb : T -> T -> bool),
  (forall x y, veqb x y = true <-> x = y) -> (forall x y, teqb x y = true <-> x = y) ->
  forall n c v m, fst (mgg_insert_at veqb teqb n c v m) = None <-> n < 1 + gives_gg c.
Proof. exact @mgg_at_lookups. Qed.
Print Assumptions c77_gg_lookups.

(** when none of them panics, it is the insertion of C43. *)
Theorem c77_gg_plain : forall V T (veqb : V -> V -> bool) (teqb : T -> T -> bool),
  (forall x y, veqb x y = true <-> x = y) -> (forall x y, teqb x y = true <-> x = y) ->
  forall n c v m b, fst (mgg_insert_at veqb teqb n c v m) = Some b ->
    mgg_insert veqb teqb c v m = (b, snd (mgg_insert_at veqb teqb n c v m)).
Proof. exact @mgg_at_plain. Qed.
Print Assumptions c77_gg_plain.

(** Whatever insertions were interrupted, [get] answers with the values of the others, *)
Theorem c77_gg_get : forall V T (veqb : V -> V -> bool) (teqb : T -> T -> bool),
  (forall x y, veqb x y = true <-> x = y) -> (forall x y, teqb x y = true <-> x = y) ->
  forall (l : list (nat * (t_gg T * V))) (t : triple T),
    answers (mgg_get teqb (snd (insert_runs (mgg_insert_at veqb teqb) l mgg_default)) t)
      (fun c v => In (c, v) (completed l (fst (insert_runs (mgg_insert_at veqb teqb) l mgg_default))) /\
                  tgg_m c (t_o t)).
Proof. exact @mgg_at_get. Qed.
Print Assumptions c77_gg_get.

(** these returned what they would have returned without the interrupted ones, *)
Theorem c77_gg_returned : forall V T (veqb : V -> V -> bool) (teqb : T -> T -> bool),
  (forall x y, veqb x y = true <-> x = y) -> (forall x y, teqb x y = true <-> x = y) ->
  forall (l : list (nat * (t_gg T * V))),
    let rs := fst (insert_runs (mgg_insert_at veqb teqb) l mgg_default) in
    returned rs = fst (insert_all (mgg_insert veqb teqb) (completed l rs) mgg_default).
Proof. exact @mgg_at_returned. Qed.
Print Assumptions c77_gg_returned.

(** and an interrupted insertion changes no answer.  What is missing: it may
    count when the map is the argument of [union_with], see below. *)
Theorem c77_gg_interrupted_partial : forall V T (veqb : V -> V -> bool) (teqb : T -> T -> bool),
  (forall x y, veqb x y = true <-> x = y) -> (forall x y, teqb x y = true <-> x = y) ->
  forall (l : list (nat * (t_gg T * V))) n c v t,
    let m := snd (insert_runs (mgg_insert_at veqb teqb) l mgg_default) in
    fst (mgg_insert_at veqb teqb n c v m) = None ->
    Permutation (mgg_get teqb (snd (mgg_insert_at veqb teqb n c v m)) t) (mgg_get teqb m t).
Proof. exact @mgg_at_interrupted. Qed.
Print Assumptions c77_gg_interrupted_partial.

(** The union of two maps with interrupted insertions: those of the first map leave no
    trace, those of the second count for the keys they hide. *)
Theorem c77_gg_union : forall V T (veqb : V -> V -> bool) (teqb : T -> T -> bool),
  (forall x y, veqb x y = true <-> x = y) -> (forall x y, teqb x y = true <-> x = y) ->
  forall (l1 l2 : list (nat * (t_gg T * V))) (t : triple T),
    answers (mgg_get teqb (mgg_union veqb teqb
        (snd (insert_runs (mgg_insert_at veqb teqb) l1 mgg_default))
        (snd (insert_runs (mgg_insert_at veqb teqb) l2 mgg_default))) t)
      (fun c v => (In (c, v) (completed l2 (fst (insert_runs (mgg_insert_at veqb teqb) l2 mgg_default))) \/
                   (In (c, v) (completed l1 (fst (insert_runs (mgg_insert_at veqb teqb) l1 mgg_default))) /\
                    ~ exists n c' v', In (n, (c', v')) l2 /\ 1 <= n /\ same_key_gg c' c)) /\
                  tgg_m c (t_o t)).
Proof. exact @mgg_at_union. Qed.
Print Assumptions c77_gg_union.

(** A union makes one look-up per value and key it moves; *)
Theorem c77_gg_union_lookups : forall V T (veqb : V -> V -> bool) (teqb : T -> T -> bool),
  (forall x y, veqb x y = true <-> x = y) -> (forall x y, teqb x y = true <-> x = y) ->
  forall n m o, fst (mgg_union_at veqb teqb n m o) = None <-> n < entries_gg o.
Proof. exact @mgg_at_union_lookups. Qed.
Print Assumptions c77_gg_union_lookups.

(** when it is interrupted, some of the pairs of the argument were taken, key by key, and
    the pairs of the map are there, except under the keys that were taken. *)
Theorem c77_gg_union_interrupted : forall V T (veqb : V -> V -> bool) (teqb : T -> T -> bool),
  (forall x y, veqb x y = true <-> x = y) -> (forall x y, teqb x y = true <-> x = y) ->
  forall (l1 l2 : list (t_gg T * V)) n,
    let m1 := snd (insert_all (mgg_insert veqb teqb) l1 mgg_default) in
    let m2 := snd (insert_all (mgg_insert veqb teqb) l2 mgg_default) in
    (fst (mgg_union_at veqb teqb n m1 m2) <> None ->
     snd (mgg_union_at veqb teqb n m1 m2) = mgg_union veqb teqb m1 m2) /\
    exists taken : t_gg T -> V -> Prop,
      (forall c v, taken c v -> In (c, v) l2) /\
      (forall c v c' v', taken c v -> same_key_gg c c' -> In (c', v') l2 -> taken c' v') /\
      forall t, answers (mgg_get teqb (snd (mgg_union_at veqb teqb n m1 m2)) t)
        (fun c v => (taken c v \/ (In (c, v) l1 /\ ~ exists c' v', taken c' v' /\ same_key_gg c' c)) /\
                    tgg_m c (t_o t)).
Proof. exact @mgg_at_union_interrupted. Qed.
Print Assumptions c77_gg_union_interrupted.

(** *** [AnySubjectAnyPredicateMap] *)

(** An insertion makes one look-up per given resource and one for the value; *)
Theorem c77_aa_lookups : forall V T (veqb : V -> V -> bool) (teqb : T -> T -> bool),
  (forall x y, veqb x y = true <-> x = y) -> (forall x y, teqb x y = true <-> x = y) ->
  forall n c v m, fst (maa_insert_at veqb teqb n c v m) = None <-> n < 1 + gives_aa c.
Proof. exact @maa_at_lookups. Qed.
Print Assumptions c77_aa_lookups.

(** when none of them panics, it is the insertion of C43. *)
Theorem c77_aa_plain : forall V T (veqb : V -> V -> bool) (teqb : T -> T -> bool),
  (forall x y, veqb x y = true <-> x = y) -> (forall x y, teqb x y = true <-> x = y) ->
  forall n c v m b, fst (maa_insert_at veqb teqb n c v m) = Some b ->
    maa_insert veqb teqb c v m = (b, snd (maa_insert_at veqb teqb n c v m)).
Proof. exact @maa_at_plain. Qed.
Print Assumptions c77_aa_plain.

(** Whatever insertions were interrupted, [get] answers with the values of the others, *)
Theorem c77_aa_get : forall V T (veqb : V -> V -> bool) (teqb : T -> T -> bool),
  (forall x y, veqb x y = true <-> x = y) -> (forall x y, teqb x y = true <-> x = y) ->
  forall (l : list (nat * (t_aa T * V))) (t : triple T),
    answers (maa_get teqb (snd (insert_runs (maa_insert_at veqb teqb) l maa_default)) t)
      (fun c v => In (c, v) (completed l (fst (insert_runs (maa_insert_at veqb teqb) l maa_default))) /\
                  taa_m c (t_s t) (t_p t) (t_o t)).
Proof. exact @maa_at_get. Qed.
Print Assumptions c77_aa_get.

(** these returned what they would have returned without the interrupted ones, *)
Theorem c77_aa_returned : forall V T (veqb : V -> V -> bool) (teqb : T -> T -> bool),
  (forall x y, veqb x y = true <-> x = y) -> (forall x y, teqb x y = true <-> x = y) ->
  forall (l : list (nat * (t_aa T * V))),
    let rs := fst (insert_runs (maa_insert_at veqb teqb) l maa_default) in
    returned rs = fst (insert_all (maa_insert veqb teqb) (completed l rs) maa_default).
Proof. exact @maa_at_returned. Qed.
Print Assumptions c77_aa_returned.

(** and an interrupted insertion changes no answer.  What is missing: it may
    count when the map is the argument of [union_with], see below. *)
Theorem c77_aa_interrupted_partial : forall V T (veqb : V -> V -> bool) (teqb : T -> T -> bool),
  (forall x y, veqb x y = true <-> x = y) -> (forall x y, teqb x y = true <-> x = y) ->
  forall (l : list (nat * (t_aa T * V))) n c v t,
    let m := snd (insert_runs (maa_insert_at veqb teqb) l maa_default) in
    fst (maa_insert_at veqb teqb n c v m) = None ->
    Permutation (maa_get teqb (snd (maa_insert_at veqb teqb n c v m)) t) (maa_get teqb m t).
Proof. exact @maa_at_interrupted. Qed.
Print Assumptions c77_aa_interrupted_partial.

(** The union of two maps with interrupted insertions: those of the first map leave no
    trace, those of the second count for the keys they hide. *)
Theorem c77_aa_union : forall V T (veqb : V -> V -> bool) (teqb : T -> T -> bool),
  (forall x y, veqb x y = true <-> x = y) -> (forall x y, teqb x y = true <-> x = y) ->
  forall (l1 l2 : list (nat * (t_aa T * V))) (t : triple T),
    answers (maa_get teqb (maa_union veqb teqb
        (snd (insert_runs (maa_insert_at veqb teqb) l1 maa_default))
        (snd (insert_runs (maa_insert_at veqb teqb) l2 maa_default))) t)
      (fun c v => (In (c, v) (completed l2 (fst (insert_runs (maa_insert_at veqb teqb) l2 maa_default))) \/
                   (In (c, v) (completed l1 (fst (insert_runs (maa_insert_at veqb teqb) l1 maa_default))) /\
                    ~ exists n c' v', In (n, (c', v')) l2 /\ 1 <= n /\ same_key_aa c' c)) /\
                  taa_m c (t_s t) (t_p t) (t_o t)).
Proof. exact @maa_at_union. Qed.
Print Assumptions c77_aa_union.

(** A union makes one look-up per value and key it moves; *)
Theorem c77_aa_union_lookups : forall V T (veqb : V -> V -> bool) (teqb : T -> T -> bool),
  (forall x y, veqb x y = true <-> x = y) -> (forall x y, teqb x y = true <-> x = y) ->
  forall n m o, fst (maa_union_at veqb teqb n m o) = None <-> n < entries_aa o.
Proof. exact @maa_at_union_lookups. Qed.
Print Assumptions c77_aa_union_lookups.

(** when it is interrupted, some of the pairs of the argument were taken, key by key, and
    the pairs of the map are there, except under the keys that were taken. *)
Theorem c77_aa_union_interrupted : forall V T (veqb : V -> V -> bool) (teqb : T -> T -> bool),
  (forall x y, veqb x y = true <-> x = y) -> (forall x y, teqb x y = true <-> x = y) ->
  forall (l1 l2 : list (t_aa T * V)) n,
    let m1 := snd (insert_all (maa_insert veqb teqb) l1 maa_default) in
    let m2 := snd (insert_all (maa_insert veqb teqb) l2 maa_default) in
    (fst (maa_union_at veqb teqb n m1 m2) <> None ->
     snd (maa_union_at veqb teqb n m1 m2) = maa_union veqb teqb m1 m2) /\
    exists taken : t_aa T -> V -> Prop,
      (forall c v, taken c v -> In (c, v) l2) /\
      (forall c v c' v', taken c v -> same_key_aa c c' -> In (c', v') l2 -> taken c' v') /\
      forall t, answers (maa_get teqb (snd (maa_union_at veqb teqb n m1 m2)) t)
        (fun c v => (taken c v \/ (In (c, v) l1 /\ ~ exists c' v', taken c' v' /\ same_key_aa c' c)) /\
                    taa_m c (t_s t) (t_p t) (t_o t)).
Proof. exact @maa_at_union_interrupted. Qed.
Print Assumptions c77_aa_union_interrupted.

(** *** [AnySubjectGivenPredicateMap] *)

(** An insertion makes one look-up per given resource and one for the value; *)
Theorem c77_ag_lookups : forall V T (veqb : V -> V -> bool) (teqb : T -> T -> bool),
  (forall x y, veqb x y = true <-> x = y) -> (forall x y, teqb x y = true <-> x = y) ->
  forall n c v m, fst (mag_insert_at veqb teqb n c v m) = None <-> n < 1 + gives_ag c.
Proof. exact @mag_at_lookups. Qed.
Print Assumptions c77_ag_lookups.

(** when none of them panics, it is the insertion of C43. *)
Theorem c77_ag_plain : forall V T (veqb : V -> V -> bool) (teqb : T -> T -> bool),
  (forall x y, veqb x y = true <-> x = y) -> (forall x y, teqb x y = true <-> x = y) ->
  forall n c v m b, fst (mag_insert_at veqb teqb n c v m) = Some b ->
    mag_insert veqb teqb c v m = (b, snd (mag_insert_at veqb teqb n c v m)).
Proof. exact @mag_at_plain. Qed.
Print Assumptions c77_ag_plain.

(** Whatever insertions were interrupted, [get] answers with the values of the others, *)
Theorem c77_ag_get : forall V T (veqb : V -> V -> bool) (teqb : T -> T -> bool),
  (forall x y, veqb x y = true <-> x = y) -> (forall x y, teqb x y = true <-> x = y) ->
  forall (l : list (nat * (t_ag T * V))) (t : triple T),
    answers (mag_get teqb (snd (insert_runs (mag_insert_at veqb teqb) l mag_default)) t)
      (fun c v => In (c, v) (completed l (fst (insert_runs (mag_insert_at veqb teqb) l mag_default))) /\
                  tag_m c (t_s t) (t_o t)).
Proof. exact @mag_at_get. Qed.
Print Assumptions c77_ag_get.

(** these returned what they would have returned without the interrupted ones, *)
Theorem c77_ag_returned : forall V T (veqb : V -> V -> bool) (teqb : T -> T -> bool),
  (forall x y, veqb x y = true <-> x = y) -> (forall x y, teqb x y = true <-> x = y) ->
  forall (l : list (nat * (t_ag T * V))),
    let rs := fst (insert_runs (mag_insert_at veqb teqb) l mag_default) in
    returned rs = fst (insert_all (mag_insert veqb teqb) (completed l rs) mag_default).
Proof. exact @mag_at_returned. Qed.
Print Assumptions c77_ag_returned.

(** and an interrupted insertion changes no answer.  What is missing: it may
    count when the map is the argument of [union_with], see below. *)
Theorem c77_ag_interrupted_partial : forall V T (veqb : V -> V -> bool) (teqb : T -> T -> bool),
  (forall x y, veqb x y = true <-> x = y) -> (forall x y, teqb x y = true <-> x = y) ->
  forall (l : list (nat * (t_ag T * V))) n c v t,
    let m := snd (insert_runs (mag_insert_at veqb teqb) l mag_default) in
    fst (mag_insert_at veqb teqb n c v m) = None ->
    Permutation (mag_get teqb (snd (mag_insert_at veqb teqb n c v m)) t) (mag_get teqb m t).
Proof. exact @mag_at_interrupted. Qed.
Print Assumptions c77_ag_interrupted_partial.

(** The union of two maps with interrupted insertions: those of the first map leave no
    trace, those of the second count for the keys they hide. *)
Theorem c77_ag_union : forall V T (veqb : V -> V -> bool) (teqb : T -> T -> bool),
  (forall x y, veqb x y = true <-> x = y) -> (forall x y, teqb x y = true <-> x = y) ->
  forall (l1 l2 : list (nat * (t_ag T * V))) (t : triple T),
    answers (mag_get teqb (mag_union veqb teqb
        (snd (insert_runs (mag_insert_at veqb teqb) l1 mag_default))
        (snd (insert_runs (mag_insert_at veqb teqb) l2 mag_default))) t)
      (fun c v => (In (c, v) (completed l2 (fst (insert_runs (mag_insert_at veqb teqb) l2 mag_default))) \/
                   (In (c, v) (completed l1 (fst (insert_runs (mag_insert_at veqb teqb) l1 mag_default))) /\
                    ~ exists n c' v', In (n, (c', v')) l2 /\ 1 <= n /\ same_key_ag c' c)) /\
                  tag_m c (t_s t) (t_o t)).
Proof. exact @mag_at_union. Qed.
Print Assumptions c77_ag_union.

(** A union makes one look-up per value and key it moves; *)
Theorem c77_ag_union_lookups : forall V T (veqb : V -> V -> bool) (teqb : T -> T -> bool),
  (forall x y, veqb x y = true <-> x = y) -> (forall x y, teqb x y = true <-> x = y) ->
  forall n m o, fst (mag_union_at veqb teqb n m o) = None <-> n < entries_ag o.
Proof. exact @mag_at_union_lookups. Qed.
Print Assumptions c77_ag_union_lookups.

(** when it is interrupted, some of the pairs of the argument were taken, key by key, and
    the pairs of the map are there, except under the keys that were taken. *)
Theorem c77_ag_union_interrupted : forall V T (veqb : V -> V -> bool) (teqb : T -> T -> bool),
  (forall x y, veqb x y = true <-> x = y) -> (forall x y, teqb x y = true <-> x = y) ->
  forall (l1 l2 : list (t_ag T * V)) n,
    let m1 := snd (insert_all (mag_insert veqb teqb) l1 mag_default) in
    let m2 := snd (insert_all (mag_insert veqb teqb) l2 mag_default) in
    (fst (mag_union_at veqb teqb n m1 m2) <> None ->
     snd (mag_union_at veqb teqb n m1 m2) = mag_union veqb teqb m1 m2) /\
    exists taken : t_ag T -> V -> Prop,
      (forall c v, taken c v -> In (c, v) l2) /\
      (forall c v c' v', taken c v -> same_key_ag c c' -> In (c', v') l2 -> taken c' v') /\
      forall t, answers (mag_get teqb (snd (mag_union_at veqb teqb n m1 m2)) t)
        (fun c v => (taken c v \/ (In (c, v) l1 /\ ~ exists c' v', taken c' v' /\ same_key_ag c' c)) /\
                    tag_m c (t_s t) (t_o t)).
Proof. exact @mag_at_union_interrupted. Qed.
Print Assumptions c77_ag_union_interrupted.

(** *** [GivenSubjectMap] *)

(** An insertion makes one look-up per given resource and one for the value; *)
Theorem c77_gs_lookups : forall V T (veqb : V -> V -> bool) (teqb : T -> T -> bool),
  (forall x y, veqb x y = true <-> x = y) -> (forall x y, teqb x y = true <-> x = y) ->
  forall n c v m, fst (mgs_insert_at veqb teqb n c v m) = None <-> n < 1 + gives_gs c.
Proof. exact @mgs_at_lookups. Qed.
Print Assumptions c77_gs_lookups.

(** when none of them panics, it is the insertion of C43. *)
Theorem c77_gs_plain : forall V T (veqb : V -> V -> bool) (teqb : T -> T -> bool),
  (forall x y, veqb x y = true <-> x = y) -> (forall x y, teqb x y = true <-> x = y) ->
  forall n c v m b, fst (mgs_insert_at veqb teqb n c v m) = Some b ->
    mgs_insert veqb teqb c v m = (b, snd (mgs_insert_at veqb teqb n c v m)).
Proof. exact @mgs_at_plain. Qed.
Print Assumptions c77_gs_plain.

(** Whatever insertions were interrupted, [get] answers with the values of the others, *)
Theorem c77_gs_get : forall V T (veqb : V -> V -> bool) (teqb : T -> T -> bool),
  (forall x y, veqb x y = true <-> x = y) -> (forall x y, teqb x y = true <-> x = y) ->
  forall (l : list (nat * (t_gs T * V))) (t : triple T),
    answers (mgs_get teqb (snd (insert_runs (mgs_insert_at veqb teqb) l mgs_default)) t)
      (fun c v => In (c, v) (completed l (fst (insert_runs (mgs_insert_at veqb teqb) l mgs_default))) /\
                  tgs_m c (t_p t) (t_o t)).
Proof. exact @mgs_at_get. Qed.
Print Assumptions c77_gs_get.

(** these returned what they would have returned without the interrupted ones, *)
Theorem c77_gs_returned : forall V T (veqb : V -> V -> bool) (teqb : T -> T -> bool),
  (forall x y, veqb x y = true <-> x = y) -> (forall x y, teqb x y = true <-> x = y) ->
  forall (l : list (nat * (t_gs T * V))),
    let rs := fst (insert_runs (mgs_insert_at veqb teqb) l mgs_default) in
    returned rs = fst (insert_all (mgs_insert veqb teqb) (completed l rs) mgs_default).
Proof. exact @mgs_at_returned. Qed.
Print Assumptions c77_gs_returned.

(** and an interrupted insertion changes no answer.  What is missing: it may
    count when the map is the argument of [union_with], see below. *)
Theorem c77_gs_interrupted_partial : forall V T (veqb : V -> V -> bool) (teqb : T -> T -> bool),
  (forall x y, veqb x y = true <-> x = y) -> (forall x y, teqb x y = true <-> x = y) ->
  forall (l : list (nat * (t_gs T * V))) n c v t,
    let m := snd (insert_runs (mgs_insert_at veqb teqb) l mgs_default) in
    fst (mgs_insert_at veqb teqb n c v m) = None ->
    Permutation (mgs_get teqb (snd (mgs_insert_at veqb teqb n c v m)) t) (mgs_get teqb m t).
Proof. exact @mgs_at_interrupted. Qed.
Print Assumptions c77_gs_interrupted_partial.

(** The union of two maps with interrupted insertions: those of the first map leave no
    trace, those of the second count for the keys they hide. *)
Theorem c77_gs_union : forall V T (veqb : V -> V -> bool) (teqb : T -> T -> bool),
  (forall x y, veqb x y = true <-> x = y) -> (forall x y, teqb x y = true <-> x = y) ->
  forall (l1 l2 : list (nat * (t_gs T * V))) (t : triple T),
    answers (mgs_get teqb (mgs_union veqb teqb
        (snd (insert_runs (mgs_insert_at veqb teqb) l1 mgs_default))
        (snd (insert_runs (mgs_insert_at veqb teqb) l2 mgs_default))) t)
      (fun c v => (In (c, v) (completed l2 (fst (insert_runs (mgs_insert_at veqb teqb) l2 mgs_default))) \/
                   (In (c, v) (completed l1 (fst (insert_runs (mgs_insert_at veqb teqb) l1 mgs_default))) /\
                    ~ exists n c' v', In (n, (c', v')) l2 /\ 1 <= n /\ same_key_gs c' c)) /\
                  tgs_m c (t_p t) (t_o t)).
Proof. exact @mgs_at_union. Qed.
Print Assumptions c77_gs_union.

(** A union makes one look-up per value and key it moves; *)
Theorem c77_gs_union_lookups : forall V T (veqb : V -> V -> bool) (teqb : T -> T -> bool),
  (forall x y, veqb x y = true <-> x = y) -> (forall x y, teqb x y = true <-> x = y) ->
  forall n m o, fst (mgs_union_at veqb teqb n m o) = None <-> n < entries_gs o.
Proof. exact @mgs_at_union_lookups. Qed.
Print Assumptions c77_gs_union_lookups.

(** when it is interrupted, some of the pairs of the argument were taken, key by key, and
    the pairs of the map are there, except under the keys that were taken. *)
Theorem c77_gs_union_interrupted : forall V T (veqb : V -> V -> bool) (teqb : T -> T -> bool),
  (forall x y, veqb x y = true <-> x = y) -> (forall x y, teqb x y = true <-> x = y) ->
  forall (l1 l2 : list (t_gs T * V)) n,
    let m1 := snd (insert_all (mgs_insert veqb teqb) l1 mgs_default) in
    let m2 := snd (insert_all (mgs_insert veqb teqb) l2 mgs_default) in
    (fst (mgs_union_at veqb teqb n m1 m2) <> None ->
     snd (mgs_union_at veqb teqb n m1 m2) = mgs_union veqb teqb m1 m2) /\
    exists taken : t_gs T -> V -> Prop,
      (forall c v, taken c v -> In (c, v) l2) /\
      (forall c v c' v', taken c v -> same_key_gs c c' -> In (c', v') l2 -> taken c' v') /\
      forall t, answers (mgs_get teqb (snd (mgs_union_at veqb teqb n m1 m2)) t)
        (fun c v => (taken c v \/ (In (c, v) l1 /\ ~ exists c' v', taken c' v' /\ same_key_gs c' c)) /\
                    tgs_m c (t_p t) (t_o t)).
Proof. exact @mgs_at_union_interrupted. Qed.
Print Assumptions c77_gs_union_interrupted.

(** *** [AnySubjectMap] *)

(** An insertion makes one look-up per given resource and one for the value; *)
Theorem c77_as_lookups : forall V T (veqb : V -> V -> bool) (teqb : T -> T -> bool),
  (forall x y, veqb x y = true <-> x = y) -> (forall x y, teqb x y = true <-> x = y) ->
  forall n c v m, fst (mas_insert_at veqb teqb n c v m) = None <-> n < 1 + gives_as c.
Proof. exact @mas_at_lookups. Qed.
Print Assumptions c77_as_lookups.

(** when none of them panics, it is the insertion of C43. *)
Theorem c77_as_plain : forall V T (veqb : V -> V -> bool) (teqb : T -> T -> bool),
  (forall x y, veqb x y = true <-> x = y) -> (forall x y, teqb x y = true <-> x = y) ->
  forall n c v m b, fst (mas_insert_at veqb teqb n c v m) = Some b ->
    mas_insert veqb teqb c v m = (b, snd (mas_insert_at veqb teqb n c v m)).
Proof. exact @mas_at_plain. Qed.
Print Assumptions c77_as_plain.

(** Whatever insertions were interrupted, [get] answers with the values of the others, *)
Theorem c77_as_get : forall V T (veqb : V -> V -> bool) (teqb : T -> T -> bool),
  (forall x y, veqb x y = true <-> x = y) -> (forall x y, teqb x y = true <-> x = y) ->
  forall (l : list (nat * (t_as T * V))) (t : triple T),
    answers (mas_get teqb (snd (insert_runs (mas_insert_at veqb teqb) l mas_default)) t)
      (fun c v => In (c, v) (completed l (fst (insert_runs (mas_insert_at veqb teqb) l mas_default))) /\
                  tas_m c (t_s t) (t_p t) (t_o t)).
Proof. exact @mas_at_get. Qed.
Print Assumptions c77_as_get.

(** these returned what they would have returned without the interrupted ones, *)
Theorem c77_as_returned : forall V T (veqb : V -> V -> bool) (teqb : T -> T -> bool),
  (forall x y, veqb x y = true <-> x = y) -> (forall x y, teqb x y = true <-> x = y) ->
  forall (l : list (nat * (t_as T * V))),
    let rs := fst (insert_runs (mas_insert_at veqb teqb) l mas_default) in
    returned rs = fst (insert_all (mas_insert veqb teqb) (completed l rs) mas_default).
Proof. exact @mas_at_returned. Qed.
Print Assumptions c77_as_returned.

(** and an interrupted insertion changes no answer.  What is missing: it may
    count when the map is the argument of [union_with], see below. *)
Theorem c77_as_interrupted_partial : forall V T (veqb : V -> V -> bool) (teqb : T -> T -> bool),
  (forall x y, veqb x y = true <-> x = y) -> (forall x y, teqb x y = true <-> x = y) ->
  forall (l : list (nat * (t_as T * V))) n c v t,
    let m := snd (insert_runs (mas_insert_at veqb teqb) l mas_default) in
    fst (mas_insert_at veqb teqb n c v m) = None ->
    Permutation (mas_get teqb (snd (mas_insert_at veqb teqb n c v m)) t) (mas_get teqb m t).
Proof. exact @mas_at_interrupted. Qed.
Print Assumptions c77_as_interrupted_partial.

(** The union of two maps with interrupted insertions: those of the first map leave no
    trace, those of the second count for the keys they hide. *)
Theorem c77_as_union : forall V T (veqb : V -> V -> bool) (teqb : T -> T -> bool),
  (forall x y, veqb x y = true <-> x = y) -> (forall x y, teqb x y = true <-> x = y) ->
  forall (l1 l2 : list (nat * (t_as T * V))) (t : triple T),
    answers (mas_get teqb (mas_union veqb teqb
        (snd (insert_runs (mas_insert_at veqb teqb) l1 mas_default))
        (snd (insert_runs (mas_insert_at veqb teqb) l2 mas_default))) t)
      (fun c v => (In (c, v) (completed l2 (fst (insert_runs (mas_insert_at veqb teqb) l2 mas_default))) \/
                   (In (c, v) (completed l1 (fst (insert_runs (mas_insert_at veqb teqb) l1 mas_default))) /\
                    ~ exists n c' v', In (n, (c', v')) l2 /\ 1 <= n /\ same_key_as c' c)) /\
                  tas_m c (t_s t) (t_p t) (t_o t)).
Proof. exact @mas_at_union. Qed.
Print Assumptions c77_as_union.

(** A union makes one look-up per value and key it moves; *)
Theorem c77_as_union_lookups : forall V T (veqb : V -> V -> bool) (teqb : T -> T -> bool),
  (forall x y, veqb x y = true <-> x = y) -> (forall x y, teqb x y = true <-> x = y) ->
  forall n m o, fst (mas_union_at veqb teqb n m o) = None <-> n < entries_as o.
Proof. exact @mas_at_union_lookups. Qed.
Print Assumptions c77_as_union_lookups.

(** when it is interrupted, some of the pairs of the argument were taken, key by key, and
    the pairs of the map are there, except under the keys that were taken. *)
Theorem c77_as_union_interrupted : forall V T (veqb : V -> V -> bool) (teqb : T -> T -> bool),
  (forall x y, veqb x y = true <-> x = y) -> (forall x y, teqb x y = true <-> x = y) ->
  forall (l1 l2 : list (t_as T * V)) n,
    let m1 := snd (insert_all (mas_insert veqb teqb) l1 mas_default) in
    let m2 := snd (insert_all (mas_insert veqb teqb) l2 mas_default) in
    (fst (mas_union_at veqb teqb n m1 m2) <> None ->
     snd (mas_union_at veqb teqb n m1 m2) = mas_union veqb teqb m1 m2) /\
    exists taken : t_as T -> V -> Prop,
      (forall c v, taken c v -> In (c, v) l2) /\
      (forall c v c' v', taken c v -> same_key_as c c' -> In (c', v') l2 -> taken c' v') /\
      forall t, answers (mas_get teqb (snd (mas_union_at veqb teqb n m1 m2)) t)
        (fun c v => (taken c v \/ (In (c, v) l1 /\ ~ exists c' v', taken c' v' /\ same_key_as c' c)) /\
                    tas_m c (t_s t) (t_p t) (t_o t)).
Proof. exact @mas_at_union_interrupted. Qed.
Print Assumptions c77_as_union_interrupted.

(** An insertion into an empty [GivenSubjectAnyPredicateMap] is interrupted; as the argument of [union_with]
    this map hides a value that an empty map does not hide. *)
Theorem c77_ga_trace_refuted : exists (l : list (t_ga nat * nat)) n c v t w,
  let m := snd (insert_all (mga_insert Nat.eqb Nat.eqb) l mga_default) in
  let o := snd (mga_insert_at Nat.eqb Nat.eqb n c v mga_default) in
  fst (mga_insert_at Nat.eqb Nat.eqb n c v mga_default) = None /\
  In w (mga_get Nat.eqb (mga_union Nat.eqb Nat.eqb m mga_default) t) /\
  ~ In w (mga_get Nat.eqb (mga_union Nat.eqb Nat.eqb m o) t).
Proof. exact mga_trace. Qed.
Print Assumptions c77_ga_trace_refuted.

(** An insertion into an empty [GivenSubjectGivenPredicateMap] is interrupted; as the argument of [union_with]
    this map hides a value that an empty map does not hide. *)
Theorem c77_gg_trace_refuted : exists (l : list (t_gg nat * nat)) n c v t w,
  let m := snd (insert_all (mgg_insert Nat.eqb Nat.eqb) l mgg_default) in
  let o := snd (mgg_insert_at Nat.eqb Nat.eqb n c v mgg_default) in
  fst (mgg_insert_at Nat.eqb Nat.eqb n c v mgg_default) = None /\
  In w (mgg_get Nat.eqb (mgg_union Nat.eqb Nat.eqb m mgg_default) t) /\
  ~ In w (mgg_get Nat.eqb (mgg_union Nat.eqb Nat.eqb m o) t).
Proof. exact mgg_trace. Qed.
Print Assumptions c77_gg_trace_refuted.

(** An insertion into an empty [AnySubjectAnyPredicateMap] is interrupted; as the argument of [union_with]
    this map hides a value that an empty map does not hide. *)
Theorem c77_aa_trace_refuted : exists (l : list (t_aa nat * nat)) n c v t w,
  let m := snd (insert_all (maa_insert Nat.eqb Nat.eqb) l maa_default) in
  let o := snd (maa_insert_at Nat.eqb Nat.eqb n c v maa_default) in
  fst (maa_insert_at Nat.eqb Nat.eqb n c v maa_default) = None /\
  In w (maa_get Nat.eqb (maa_union Nat.eqb Nat.eqb m maa_default) t) /\
  ~ In w (maa_get Nat.eqb (maa_union Nat.eqb Nat.eqb m o) t).
Proof. exact maa_trace. Qed.
Print Assumptions c77_aa_trace_refuted.

(** An insertion into an empty [AnySubjectGivenPredicateMap] is interrupted; as the argument of [union_with]
    this map hides a value that an empty map does not hide. *)
Theorem c77_ag_trace_refuted : exists (l : list (t_ag nat * nat)) n c v t w,
  let m := snd (insert_all (mag_insert Nat.eqb Nat.eqb) l mag_default) in
  let o := snd (mag_insert_at Nat.eqb Nat.eqb n c v mag_default) in
  fst (mag_insert_at Nat.eqb Nat.eqb n c v mag_default) = None /\
  In w (mag_get Nat.eqb (mag_union Nat.eqb Nat.eqb m mag_default) t) /\
  ~ In w (mag_get Nat.eqb (mag_union Nat.eqb Nat.eqb m o) t).
Proof. exact mag_trace. Qed.
Print Assumptions c77_ag_trace_refuted.

(** An insertion into an empty [GivenSubjectMap] is interrupted; as the argument of [union_with]
    this map hides a value that an empty map does not hide. *)
Theorem c77_gs_trace_refuted : exists (l : list (t_gs nat * nat)) n c v t w,
  let m := snd (insert_all (mgs_insert Nat.eqb Nat.eqb) l mgs_default) in
  let o := snd (mgs_insert_at Nat.eqb Nat.eqb n c v mgs_default) in
  fst (mgs_insert_at Nat.eqb Nat.eqb n c v mgs_default) = None /\
  In w (mgs_get Nat.eqb (mgs_union Nat.eqb Nat.eqb m mgs_default) t) /\
  ~ In w (mgs_get Nat.eqb (mgs_union Nat.eqb Nat.eqb m o) t).
Proof. exact mgs_trace. Qed.
Print Assumptions c77_gs_trace_refuted.

(** An insertion into an empty [AnySubjectMap] is interrupted; as the argument of [union_with]
    this map hides a value that an empty map does not hide. *)
Theorem c77_as_trace_refuted : exists (l : list (t_as nat * nat)) n c v t w,
  let m := snd (insert_all (mas_insert Nat.eqb Nat.eqb) l mas_default) in
  let o := snd (mas_insert_at Nat.eqb Nat.eqb n c v mas_default) in
  fst (mas_insert_at Nat.eqb Nat.eqb n c v mas_default) = None /\
  In w (mas_get Nat.eqb (mas_union Nat.eqb Nat.eqb m mas_default) t) /\
  ~ In w (mas_get Nat.eqb (mas_union Nat.eqb Nat.eqb m o) t).
Proof. exact mas_trace. Qed.
Print Assumptions c77_as_trace_refuted.
