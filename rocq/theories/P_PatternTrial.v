(** Property theorems for pattern maps built by insertions and unions of which some were interrupted: C80. *)
From Coq Require Import List Bool Arith Permutation.
Import ListNotations.
From Verif Require Import Base TripleModel TriplePatternModel PatternSpec PatternMapModel
  PatternMapSpec PatternDebugModel PatternCrashModel PatternCrashSpec PatternTrialModel PatternTrialSpec PatternTrialProofs.

(** *** [GivenSubjectAnyPredicateMap] *)

(** What a map holds after any insertions and unions, of which some were interrupted, in any order of
    iteration: [get] answers with the pairs held, [insert] says whether the pair is new, as the
    argument of a union the map hides the keys used, and the union makes one look-up per entry. *)
Theorem c80_ga_left : forall V T (veqb : V -> V -> bool) (teqb : T -> T -> bool),
  (forall x y, veqb x y = true <-> x = y) -> (forall x y, teqb x y = true <-> x = y) ->
  forall (e : trial (t_ga T) V) m,
  tried mga_default (mga_insert_at veqb teqb) (mga_union veqb teqb) (mga_union_at veqb teqb) mga_order e m ->
  exists held used, leaves same_key_ga (fun c => 1 + gives_ga c) rank_ga e held used /\
    (forall t, answers (mga_get teqb m t) (fun c v => held c v /\ tga_m c (t_p t) (t_o t))) /\
    (forall n c v, fst (mga_insert_at veqb teqb n c v m) =
      if 1 + gives_ga c <=? n then Some (fst (mga_insert veqb teqb c v m)) else None) /\
    (forall c v, fst (mga_insert veqb teqb c v m) = true <-> ~ held c v) /\
    (forall l t, answers (mga_get teqb (mga_union veqb teqb (snd (insert_all (mga_insert veqb teqb) l mga_default)) m) t)
      (fun c v => (held c v \/ (In (c, v) l /\ ~ used c)) /\ tga_m c (t_p t) (t_o t))) /\
    (exists total, amount same_key_ga held used total /\
      forall n m1, fst (mga_union_at veqb teqb n m1 m) = if total <=? n then Some (n - total) else None).
Proof. exact @ga_trial_left. Qed.
Print Assumptions c80_ga_left.

(** Every value was inserted, by an insertion that came to its end. *)
Theorem c80_ga_sound : forall V T (veqb : V -> V -> bool) (teqb : T -> T -> bool),
  (forall x y, veqb x y = true <-> x = y) -> (forall x y, teqb x y = true <-> x = y) ->
  forall (e : trial (t_ga T) V) m,
  tried mga_default (mga_insert_at veqb teqb) (mga_union veqb teqb) (mga_union_at veqb teqb) mga_order e m ->
  forall t v, In v (mga_get teqb m t) ->
    exists c, finished (fun c => 1 + gives_ga c) e c v /\ tga_m c (t_p t) (t_o t).
Proof. exact @ga_trial_sound. Qed.
Print Assumptions c80_ga_sound.

(** If no argument of a union has used a key of the map, nothing is lost that was not in the argument of
    an interrupted union; *)
Theorem c80_ga_kept : forall V T (veqb : V -> V -> bool) (teqb : T -> T -> bool),
  (forall x y, veqb x y = true <-> x = y) -> (forall x y, teqb x y = true <-> x = y) ->
  forall (e : trial (t_ga T) V) m,
  tried mga_default (mga_insert_at veqb teqb) (mga_union veqb teqb) (mga_union_at veqb teqb) mga_order e m ->
  disjoint same_key_ga (fun c => 1 + gives_ga c) e ->
  forall t c v, safe (fun c => 1 + gives_ga c) e c v -> tga_m c (t_p t) (t_o t) -> In v (mga_get teqb m t).
Proof. exact @ga_trial_kept. Qed.
Print Assumptions c80_ga_kept.

(** if moreover no union was interrupted, the answers are the values of the insertions that came to
    their end. *)
Theorem c80_ga_whole : forall V T (veqb : V -> V -> bool) (teqb : T -> T -> bool),
  (forall x y, veqb x y = true <-> x = y) -> (forall x y, teqb x y = true <-> x = y) ->
  forall (e : trial (t_ga T) V) m,
  tried mga_default (mga_insert_at veqb teqb) (mga_union veqb teqb) (mga_union_at veqb teqb) mga_order e m ->
  disjoint same_key_ga (fun c => 1 + gives_ga c) e -> whole e -> forall t,
    answers (mga_get teqb m t) (fun c v => finished (fun c => 1 + gives_ga c) e c v /\ tga_m c (t_p t) (t_o t)).
Proof. exact @ga_trial_whole. Qed.
Print Assumptions c80_ga_whole.

(** *** [GivenSubjectGivenPredicateMap] *)

(** What a map holds after any insertions and unions, of which some were interrupted, in any order of
    iteration: [get] answers with the pairs held, [insert] says whether the pair is new, as the
    argument of a union the map hides the keys used, and the union makes one look-up per entry. *)
Theorem c80_gg_left : forall V T (veqb : V -> V -> bool) (teqb : T -> T -> bool),
  (forall x y, veqb x y = true <-> x = y) -> (forall x y, teqb x y = true <-> x = y) ->
  forall (e : trial (t_gg T) V) m,
  tried mgg_default (mgg_insert_at veqb teqb) (mgg_union veqb teqb) (mgg_union_at veqb teqb) mgg_order e m ->
  exists held used, leaves same_key_gg (fun c => 1 + gives_gg c) rank_gg e held used /\
    (forall t, answers (mgg_get teqb m t) (fun c v => held c v /\ tgg_m c (t_o t))) /\
    (forall n c v, fst (mgg_insert_at veqb teqb n c v m) =
      if 1 + gives_gg c <=? n then Some (fst (mgg_insert veqb teqb c v m)) else None) /\
    (forall c v, fst (mgg_insert veqb teqb c v m) = true <-> ~ held c v) /\
    (forall l t, answers (mgg_get teqb (mgg_union veqb teqb (snd (insert_all (mgg_insert veqb teqb) l mgg_default)) m) t)
      (fun c v => (held c v \/ (In (c, v) l /\ ~ used c)) /\ tgg_m c (t_o t))) /\
    (exists total, amount same_key_gg held used total /\
      forall n m1, fst (mgg_union_at veqb teqb n m1 m) = if total <=? n then Some (n - total) else None).
Proof. exact @gg_trial_left. Qed.
Print Assumptions c80_gg_left.

(** Every value was inserted, by an insertion that came to its end. *)
Theorem c80_gg_sound : forall V T (veqb : V -> V -> bool) (teqb : T -> T -> bool),
  (forall x y, veqb x y = true <-> x = y) -> (forall x y, teqb x y = true <-> x = y) ->
  forall (e : trial (t_gg T) V) m,
  tried mgg_default (mgg_insert_at veqb teqb) (mgg_union veqb teqb) (mgg_union_at veqb teqb) mgg_order e m ->
  forall t v, In v (mgg_get teqb m t) ->
    exists c, finished (fun c => 1 + gives_gg c) e c v /\ tgg_m c (t_o t).
Proof. exact @gg_trial_sound. Qed.
Print Assumptions c80_gg_sound.

(** If no argument of a union has used a key of the map, nothing is lost that was not in the argument of
    an interrupted union; *)
Theorem c80_gg_kept : forall V T (veqb : V -> V -> bool) (teqb : T -> T -> bool),
  (forall x y, veqb x y = true <-> x = y) -> (forall x y, teqb x y = true <-> x = y) ->
  forall (e : trial (t_gg T) V) m,
  tried mgg_default (mgg_insert_at veqb teqb) (mgg_union veqb teqb) (mgg_union_at veqb teqb) mgg_order e m ->
  disjoint same_key_gg (fun c => 1 + gives_gg c) e ->
  forall t c v, safe (fun c => 1 + gives_gg c) e c v -> tgg_m c (t_o t) -> In v (mgg_get teqb m t).
Proof. exact @gg_trial_kept. Qed.
Print Assumptions c80_gg_kept.

(** if moreover no union was interrupted, the answers are the values of the insertions that came to
    their end. *)
Theorem c80_gg_whole : forall V T (veqb : V -> V -> bool) (teqb : T -> T -> bool),
  (forall x y, veqb x y = true <-> x = y) -> (forall x y, teqb x y = true <-> x = y) ->
  forall (e : trial (t_gg T) V) m,
  tried mgg_default (mgg_insert_at veqb teqb) (mgg_union veqb teqb) (mgg_union_at veqb teqb) mgg_order e m ->
  disjoint same_key_gg (fun c => 1 + gives_gg c) e -> whole e -> forall t,
    answers (mgg_get teqb m t) (fun c v => finished (fun c => 1 + gives_gg c) e c v /\ tgg_m c (t_o t)).
Proof. exact @gg_trial_whole. Qed.
Print Assumptions c80_gg_whole.

(** *** [AnySubjectAnyPredicateMap] *)

(** What a map holds after any insertions and unions, of which some were interrupted, in any order of
    iteration: [get] answers with the pairs held, [insert] says whether the pair is new, as the
    argument of a union the map hides the keys used, and the union makes one look-up per entry. *)
Theorem c80_aa_left : forall V T (veqb : V -> V -> bool) (teqb : T -> T -> bool),
  (forall x y, veqb x y = true <-> x = y) -> (forall x y, teqb x y = true <-> x = y) ->
  forall (e : trial (t_aa T) V) m,
  tried maa_default (maa_insert_at veqb teqb) (maa_union veqb teqb) (maa_union_at veqb teqb) maa_order e m ->
  exists held used, leaves same_key_aa (fun c => 1 + gives_aa c) rank_aa e held used /\
    (forall t, answers (maa_get teqb m t) (fun c v => held c v /\ taa_m c (t_s t) (t_p t) (t_o t))) /\
    (forall n c v, fst (maa_insert_at veqb teqb n c v m) =
      if 1 + gives_aa c <=? n then Some (fst (maa_insert veqb teqb c v m)) else None) /\
    (forall c v, fst (maa_insert veqb teqb c v m) = true <-> ~ held c v) /\
    (forall l t, answers (maa_get teqb (maa_union veqb teqb (snd (insert_all (maa_insert veqb teqb) l maa_default)) m) t)
      (fun c v => (held c v \/ (In (c, v) l /\ ~ used c)) /\ taa_m c (t_s t) (t_p t) (t_o t))) /\
    (exists total, amount same_key_aa held used total /\
      forall n m1, fst (maa_union_at veqb teqb n m1 m) = if total <=? n then Some (n - total) else None).
Proof. exact @aa_trial_left. Qed.
Print Assumptions c80_aa_left.

(** Every value was inserted, by an insertion that came to its end. *)
Theorem c80_aa_sound : forall V T (veqb : V -> V -> bool) (teqb : T -> T -> bool),
  (forall x y, veqb x y = true <-> x = y) -> (forall x y, teqb x y = true <-> x = y) ->
  forall (e : trial (t_aa T) V) m,
  tried maa_default (maa_insert_at veqb teqb) (maa_union veqb teqb) (maa_union_at veqb teqb) maa_order e m ->
  forall t v, In v (maa_get teqb m t) ->
    exists c, finished (fun c => 1 + gives_aa c) e c v /\ taa_m c (t_s t) (t_p t) (t_o t).
Proof. exact @aa_trial_sound. Qed.
Print Assumptions c80_aa_sound.

(** If no argument of a union has used a key of the map, nothing is lost that was not in the argument of
    an interrupted union; *)
Theorem c80_aa_kept : forall V T (veqb : V -> V -> bool) (teqb : T -> T -> bool),
  (forall x y, veqb x y = true <-> x = y) -> (forall x y, teqb x y = true <-> x = y) ->
  forall (e : trial (t_aa T) V) m,
  tried maa_default (maa_insert_at veqb teqb) (maa_union veqb teqb) (maa_union_at veqb teqb) maa_order e m ->
  disjoint same_key_aa (fun c => 1 + gives_aa c) e ->
  forall t c v, safe (fun c => 1 + gives_aa c) e c v -> taa_m c (t_s t) (t_p t) (t_o t) -> In v (maa_get teqb m t).
Proof. exact @aa_trial_kept. Qed.
Print Assumptions c80_aa_kept.

(** if moreover no union was interrupted, the answers are the values of the insertions that came to
    their end. *)
Theorem c80_aa_whole : forall V T (veqb : V -> V -> bool) (teqb : T -> T -> bool),
  (forall x y, veqb x y = true <-> x = y) -> (forall x y, teqb x y = true <-> x = y) ->
  forall (e : trial (t_aa T) V) m,
  tried maa_default (maa_insert_at veqb teqb) (maa_union veqb teqb) (maa_union_at veqb teqb) maa_order e m ->
  disjoint same_key_aa (fun c => 1 + gives_aa c) e -> whole e -> forall t,
    answers (maa_get teqb m t) (fun c v => finished (fun c => 1 + gives_aa c) e c v /\ taa_m c (t_s t) (t_p t) (t_o t)).
Proof. exact @aa_trial_whole. Qed.
Print Assumptions c80_aa_whole.

(** *** [AnySubjectGivenPredicateMap] *)

(** What a map holds after any insertions and unions, of which some were interrupted, in any order of
    iteration: [get] answers with the pairs held, [insert] says whether the pair is new, as the
    argument of a union the map hides the keys used, and the union makes one look-up per entry. *)
Theorem c80_ag_left : forall V T (veqb : V -> V -> bool) (teqb : T -> T -> bool),
  (forall x y, veqb x y = true <-> x = y) -> (forall x y, teqb x y = true <-> x = y) ->
  forall (e : trial (t_ag T) V) m,
  tried mag_default (mag_insert_at veqb teqb) (mag_union veqb teqb) (mag_union_at veqb teqb) mag_order e m ->
  exists held used, leaves same_key_ag (fun c => 1 + gives_ag c) rank_ag e held used /\
    (forall t, answers (mag_get teqb m t) (fun c v => held c v /\ tag_m c (t_s t) (t_o t))) /\
    (forall n c v, fst (mag_insert_at veqb teqb n c v m) =
      if 1 + gives_ag c <=? n then Some (fst (mag_insert veqb teqb c v m)) else None) /\
    (forall c v, fst (mag_insert veqb teqb c v m) = true <-> ~ held c v) /\
    (forall l t, answers (mag_get teqb (mag_union veqb teqb (snd (insert_all (mag_insert veqb teqb) l mag_default)) m) t)
      (fun c v => (held c v \/ (In (c, v) l /\ ~ used c)) /\ tag_m c (t_s t) (t_o t))) /\
    (exists total, amount same_key_ag held used total /\
      forall n m1, fst (mag_union_at veqb teqb n m1 m) = if total <=? n then Some (n - total) else None).
Proof. exact @ag_trial_left. Qed.
Print Assumptions c80_ag_left.

(** Every value was inserted, by an insertion that came to its end. *)
Theorem c80_ag_sound : forall V T (veqb : V -> V -> bool) (teqb : T -> T -> bool),
  (forall x y, veqb x y = true <-> x = y) -> (forall x y, teqb x y = true <-> x = y) ->
  forall (e : trial (t_ag T) V) m,
  tried mag_default (mag_insert_at veqb teqb) (mag_union veqb teqb) (mag_union_at veqb teqb) mag_order e m ->
  forall t v, In v (mag_get teqb m t) ->
    exists c, finished (fun c => 1 + gives_ag c) e c v /\ tag_m c (t_s t) (t_o t).
Proof. exact @ag_trial_sound. Qed.
Print Assumptions c80_ag_sound.

(** If no argument of a union has used a key of the map, nothing is lost that was not in the argument of
    an interrupted union; *)
Theorem c80_ag_kept : forall V T (veqb : V -> V -> bool) (teqb : T -> T -> bool),
  (forall x y, veqb x y = true <-> x = y) -> (forall x y, teqb x y = true <-> x = y) ->
  forall (e : trial (t_ag T) V) m,
  tried mag_default (mag_insert_at veqb teqb) (mag_union veqb teqb) (mag_union_at veqb teqb) mag_order e m ->
  disjoint same_key_ag (fun c => 1 + gives_ag c) e ->
  forall t c v, safe (fun c => 1 + gives_ag c) e c v -> tag_m c (t_s t) (t_o t) -> In v (mag_get teqb m t).
Proof. exact @ag_trial_kept. Qed.
Print Assumptions c80_ag_kept.

(** if moreover no union was interrupted, the answers are the values of the insertions that came to
    their end. *)
Theorem c80_ag_whole : forall V T (veqb : V -> V -> bool) (teqb : T -> T -> bool),
  (forall x y, veqb x y = true <-> x = y) -> (forall x y, teqb x y = true <-> x = y) ->
  forall (e : trial (t_ag T) V) m,
  tried mag_default (mag_insert_at veqb teqb) (mag_union veqb teqb) (mag_union_at veqb teqb) mag_order e m ->
  disjoint same_key_ag (fun c => 1 + gives_ag c) e -> whole e -> forall t,
    answers (mag_get teqb m t) (fun c v => finished (fun c => 1 + gives_ag c) e c v /\ tag_m c (t_s t) (t_o t)).
Proof. exact @ag_trial_whole. Qed.
Print Assumptions c80_ag_whole.

(** *** [GivenSubjectMap] *)

(** What a map holds after any insertions and unions, of which some were interrupted, in any order of
    iteration: [get] answers with the pairs held, [insert] says whether the pair is new, as the
    argument of a union the map hides the keys used, and the union makes one look-up per entry. *)
Theorem c80_gs_left : forall V T (veqb : V -> V -> bool) (teqb : T -> T -> bool),
  (forall x y, veqb x y = true <-> x = y) -> (forall x y, teqb x y = true <-> x = y) ->
  forall (e : trial (t_gs T) V) m,
  tried mgs_default (mgs_insert_at veqb teqb) (mgs_union veqb teqb) (mgs_union_at veqb teqb) mgs_order e m ->
  exists held used, leaves same_key_gs (fun c => 1 + gives_gs c) rank_gs e held used /\
    (forall t, answers (mgs_get teqb m t) (fun c v => held c v /\ tgs_m c (t_p t) (t_o t))) /\
    (forall n c v, fst (mgs_insert_at veqb teqb n c v m) =
      if 1 + gives_gs c <=? n then Some (fst (mgs_insert veqb teqb c v m)) else None) /\
    (forall c v, fst (mgs_insert veqb teqb c v m) = true <-> ~ held c v) /\
    (forall l t, answers (mgs_get teqb (mgs_union veqb teqb (snd (insert_all (mgs_insert veqb teqb) l mgs_default)) m) t)
      (fun c v => (held c v \/ (In (c, v) l /\ ~ used c)) /\ tgs_m c (t_p t) (t_o t))) /\
    (exists total, amount same_key_gs held used total /\
      forall n m1, fst (mgs_union_at veqb teqb n m1 m) = if total <=? n then Some (n - total) else None).
Proof. exact @gs_trial_left. Qed.
Print Assumptions c80_gs_left.

(** Every value was inserted, by an insertion that came to its end. *)
Theorem c80_gs_sound : forall V T (veqb : V -> V -> bool) (teqb : T -> T -> bool),
  (forall x y, veqb x y = true <-> x = y) -> (forall x y, teqb x y = true <-> x = y) ->
  forall (e : trial (t_gs T) V) m,
  tried mgs_default (mgs_insert_at veqb teqb) (mgs_union veqb teqb) (mgs_union_at veqb teqb) mgs_order e m ->
  forall t v, In v (mgs_get teqb m t) ->
    exists c, finished (fun c => 1 + gives_gs c) e c v /\ tgs_m c (t_p t) (t_o t).
Proof. exact @gs_trial_sound. Qed.
Print Assumptions c80_gs_sound.

(** If no argument of a union has used a key of the map, nothing is lost that was not in the argument of
    an interrupted union; *)
Theorem c80_gs_kept : forall V T (veqb : V -> V -> bool) (teqb : T -> T -> bool),
  (forall x y, veqb x y = true <-> x = y) -> (forall x y, teqb x y = true <-> x = y) ->
  forall (e : trial (t_gs T) V) m,
  tried mgs_default (mgs_insert_at veqb teqb) (mgs_union veqb teqb) (mgs_union_at veqb teqb) mgs_order e m ->
  disjoint same_key_gs (fun c => 1 + gives_gs c) e ->
  forall t c v, safe (fun c => 1 + gives_gs c) e c v -> tgs_m c (t_p t) (t_o t) -> In v (mgs_get teqb m t).
Proof. exact @gs_trial_kept. Qed.
Print Assumptions c80_gs_kept.

(** if moreover no union was interrupted, the answers are the values of the insertions that came to
    their end. *)
Theorem c80_gs_whole : forall V T (veqb : V -> V -> bool) (teqb : T -> T -> bool),
  (forall x y, veqb x y = true <-> x = y) -> (forall x y, teqb x y = true <-> x = y) ->
  forall (e : trial (t_gs T) V) m,
  tried mgs_default (mgs_insert_at veqb teqb) (mgs_union veqb teqb) (mgs_union_at veqb teqb) mgs_order e m ->
  disjoint same_key_gs (fun c => 1 + gives_gs c) e -> whole e -> forall t,
    answers (mgs_get teqb m t) (fun c v => finished (fun c => 1 + gives_gs c) e c v /\ tgs_m c (t_p t) (t_o t)).
Proof. exact @gs_trial_whole. Qed.
Print Assumptions c80_gs_whole.

(** *** [AnySubjectMap] *)

(** What a map holds after any insertions and unions, of which some were interrupted, in any order of
    iteration: [get] answers with the pairs held, [insert] says whether the pair is new, as the
    argument of a union the map hides the keys used, and the union makes one look-up per entry. *)
Theorem c80_as_left : forall V T (veqb : V -> V -> bool) (teqb : T -> T -> bool),
  (forall x y, veqb x y = true <-> x = y) -> (forall x y, teqb x y = true <-> x = y) ->
  forall (e : trial (t_as T) V) m,
  tried mas_default (mas_insert_at veqb teqb) (mas_union veqb teqb) (mas_union_at veqb teqb) mas_order e m ->
  exists held used, leaves same_key_as (fun c => 1 + gives_as c) rank_as e held used /\
    (forall t, answers (mas_get teqb m t) (fun c v => held c v /\ tas_m c (t_s t) (t_p t) (t_o t))) /\
    (forall n c v, fst (mas_insert_at veqb teqb n c v m) =
      if 1 + gives_as c <=? n then Some (fst (mas_insert veqb teqb c v m)) else None) /\
    (forall c v, fst (mas_insert veqb teqb c v m) = true <-> ~ held c v) /\
    (forall l t, answers (mas_get teqb (mas_union veqb teqb (snd (insert_all (mas_insert veqb teqb) l mas_default)) m) t)
      (fun c v => (held c v \/ (In (c, v) l /\ ~ used c)) /\ tas_m c (t_s t) (t_p t) (t_o t))) /\
    (exists total, amount same_key_as held used total /\
      forall n m1, fst (mas_union_at veqb teqb n m1 m) = if total <=? n then Some (n - total) else None).
Proof. exact @as_trial_left. Qed.
Print Assumptions c80_as_left.

(** Every value was inserted, by an insertion that came to its end. *)
Theorem c80_as_sound : forall V T (veqb : V -> V -> bool) (teqb : T -> T -> bool),
  (forall x y, veqb x y = true <-> x = y) -> (forall x y, teqb x y = true <-> x = y) ->
  forall (e : trial (t_as T) V) m,
  tried mas_default (mas_insert_at veqb teqb) (mas_union veqb teqb) (mas_union_at veqb teqb) mas_order e m ->
  forall t v, In v (mas_get teqb m t) ->
    exists c, finished (fun c => 1 + gives_as c) e c v /\ tas_m c (t_s t) (t_p t) (t_o t).
Proof. exact @as_trial_sound. Qed.
Print Assumptions c80_as_sound.

(** If no argument of a union has used a key of the map, nothing is lost that was not in the argument of
    an interrupted union; *)
Theorem c80_as_kept : forall V T (veqb : V -> V -> bool) (teqb : T -> T -> bool),
  (forall x y, veqb x y = true <-> x = y) -> (forall x y, teqb x y = true <-> x = y) ->
  forall (e : trial (t_as T) V) m,
  tried mas_default (mas_insert_at veqb teqb) (mas_union veqb teqb) (mas_union_at veqb teqb) mas_order e m ->
  disjoint same_key_as (fun c => 1 + gives_as c) e ->
  forall t c v, safe (fun c => 1 + gives_as c) e c v -> tas_m c (t_s t) (t_p t) (t_o t) -> In v (mas_get teqb m t).
Proof. exact @as_trial_kept. Qed.
Print Assumptions c80_as_kept.

(** if moreover no union was interrupted, the answers are the values of the insertions that came to
    their end. *)
Theorem c80_as_whole : forall V T (veqb : V -> V -> bool) (teqb : T -> T -> bool),
  (forall x y, veqb x y = true <-> x = y) -> (forall x y, teqb x y = true <-> x = y) ->
  forall (e : trial (t_as T) V) m,
  tried mas_default (mas_insert_at veqb teqb) (mas_union veqb teqb) (mas_union_at veqb teqb) mas_order e m ->
  disjoint same_key_as (fun c => 1 + gives_as c) e -> whole e -> forall t,
    answers (mas_get teqb m t) (fun c v => finished (fun c => 1 + gives_as c) e c v /\ tas_m c (t_s t) (t_p t) (t_o t)).
Proof. exact @as_trial_whole. Qed.
Print Assumptions c80_as_whole.

(** A map united with the argument of an interrupted union, in another order of iteration: the second
    look-up panics, and of the two keys of the argument the one that comes first is taken, here 5; the value
    8 of key 4 is lost with the argument, and 1 stays. *)
Example c80_ex :
  let ins n e k v := TInserted n e (TGA_Given k) v in
  let e := TUnited (Some 1) (ins 2 (ins 2 TFresh 4 1) 5 2) (ins 1 (ins 2 (ins 2 TFresh 4 8) 5 7) 6 9) in
  exists m, tried mga_default (mga_insert_at Nat.eqb Nat.eqb) (mga_union Nat.eqb Nat.eqb)
      (mga_union_at Nat.eqb Nat.eqb) mga_order e m /\
    mga_get Nat.eqb m (Triple 0 0 4) = [1] /\ mga_get Nat.eqb m (Triple 0 0 5) = [7].
Proof.
  cbv zeta. eexists. split.
  - eapply tried_united_at.
    + eapply tried_inserted, tried_inserted, tried_fresh.
    + eapply (tried_order _ _ _ _ _ _ _ (MGA [] [] [(5, [7]); (4, [8]); (6, [])])).
      * eapply tried_inserted, tried_inserted, tried_inserted, tried_fresh.
      * refine (conj _ (conj _ _)); [reflexivity|reflexivity|]. cbn.
        exists [(5, [7]); (4, [8]); (6, [])]. split.
        -- eapply perm_trans; [apply perm_swap|]; apply Permutation_refl.
        -- repeat constructor.
  - vm_compute. split; reflexivity.
Qed.

(** The hypotheses of the last two theorems. *)
Example c80_disjoint_ex :
  let ins n e k v := TInserted n e (TGA_Given k) v in
  let e := TUnited None (ins 2 (ins 2 TFresh 4 1) 5 2) (ins 1 (ins 2 TFresh 3 8) 6 9) in
  disjoint same_key_ga (fun c => 1 + gives_ga c) e /\ whole e /\
  safe (fun c => 1 + gives_ga c) e (TGA_Given 4) 1 /\ ~ finished (fun c => 1 + gives_ga c) e (TGA_Given 6) 9.
Proof.
  cbn. refine (conj (conj Logic.I (conj Logic.I _)) (conj (conj eq_refl (conj Logic.I Logic.I)) (conj _ _))).
  - intros [ | |k] v H; cbn; intros F; intuition (try discriminate; congruence).
  - left. right. left. auto.
  - intros F. intuition (try discriminate). apply (Nat.nle_succ_diag_l 1). assumption.
Qed.
