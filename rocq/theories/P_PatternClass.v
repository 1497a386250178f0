(** Property theorems for pattern maps whose resources or values have an equality that is not identity: C81. *)
From Coq Require Import List Bool Arith.
Import ListNotations.
From Verif Require Import Base TripleModel TriplePatternModel PatternSpec MapSpec PatternMapModel
  PatternMapSpec PatternDebugModel PatternCrashModel PatternCrashSpec PatternGrowthModel PatternGrowthSpec
  PatternTrialModel PatternTrialSpec PatternClassSpec PatternClassProofs.

(** *** [GivenSubjectAnyPredicateMap] *)

(** The values answered: of each class the one that is held. *)
Theorem c81_ga_exact : forall V T K KT (veqb : V -> V -> bool) (teqb : T -> T -> bool)
    (kv : V -> K) (kt : T -> KT) (cv : K -> K -> bool) (ck : KT -> KT -> bool),
  (forall x y, cv x y = true <-> x = y) -> (forall x y, ck x y = true <-> x = y) ->
  (forall x y, veqb x y = cv (kv x) (kv y)) -> (forall x y, teqb x y = ck (kt x) (kt y)) ->
  forall (e : growth (t_ga T) V) (t : triple T),
  answers (mga_get teqb (grow mga_default (mga_insert veqb teqb) (mga_union veqb teqb) e) t)
    (fun c v => reps kv same_key_ga (growth_map (tga_map kt) (fun v => v) e) c v /\ tga_m c (kt (t_p t)) (kt (t_o t))).
Proof. exact @ga_class_exact. Qed.
Print Assumptions c81_ga_exact.

(** The result of an insertion. *)
Theorem c81_ga_insert : forall V T K KT (veqb : V -> V -> bool) (teqb : T -> T -> bool)
    (kv : V -> K) (kt : T -> KT) (cv : K -> K -> bool) (ck : KT -> KT -> bool),
  (forall x y, cv x y = true <-> x = y) -> (forall x y, ck x y = true <-> x = y) ->
  (forall x y, veqb x y = cv (kv x) (kv y)) -> (forall x y, teqb x y = ck (kt x) (kt y)) ->
  forall (e : growth (t_ga T) V) c v,
  fst (mga_insert veqb teqb c v (grow mga_default (mga_insert veqb teqb) (mga_union veqb teqb) e)) = true <->
    ~ exists w, reps kv same_key_ga (growth_map (tga_map kt) (fun v => v) e) (tga_map kt c) w /\ kv w = kv v.
Proof. exact @ga_class_insert. Qed.
Print Assumptions c81_ga_insert.

(** Every value answered was inserted itself, for a pattern whose class matches. *)
Theorem c81_ga_origin : forall V T K KT (veqb : V -> V -> bool) (teqb : T -> T -> bool)
    (kv : V -> K) (kt : T -> KT) (cv : K -> K -> bool) (ck : KT -> KT -> bool),
  (forall x y, cv x y = true <-> x = y) -> (forall x y, ck x y = true <-> x = y) ->
  (forall x y, veqb x y = cv (kv x) (kv y)) -> (forall x y, teqb x y = ck (kt x) (kt y)) ->
  forall (e : growth (t_ga T) V) (t : triple T) v,
  In v (mga_get teqb (grow mga_default (mga_insert veqb teqb) (mga_union veqb teqb) e) t) ->
    exists c0, inserted e c0 v /\ let c := tga_map kt c0 in tga_m c (kt (t_p t)) (kt (t_o t)).
Proof. exact @ga_class_origin. Qed.
Print Assumptions c81_ga_origin.

(** The classes answered are those of C79. *)
Theorem c81_ga_classes : forall V T K KT (veqb : V -> V -> bool) (teqb : T -> T -> bool)
    (kv : V -> K) (kt : T -> KT) (cv : K -> K -> bool) (ck : KT -> KT -> bool),
  (forall x y, cv x y = true <-> x = y) -> (forall x y, ck x y = true <-> x = y) ->
  (forall x y, veqb x y = cv (kv x) (kv y)) -> (forall x y, teqb x y = ck (kt x) (kt y)) ->
  forall (e : growth (t_ga T) V) (t : triple T),
  answers (map kv (mga_get teqb (grow mga_default (mga_insert veqb teqb) (mga_union veqb teqb) e) t))
    (fun c v => kept same_key_ga (growth_map (tga_map kt) kv e) c v /\ tga_m c (kt (t_p t)) (kt (t_o t))).
Proof. exact @ga_class_classes. Qed.
Print Assumptions c81_ga_classes.

(** The map only uses resources and values by comparing them, even if the comparison is no
    equivalence: with others that compare alike, the same answers. *)
Theorem c81_ga_renamed : forall V W T U (veqb : V -> V -> bool) (weqb : W -> W -> bool) (teqb : T -> T -> bool) (ueqb : U -> U -> bool)
    (f : V -> W) (h : T -> U),
  (forall x y, weqb (f x) (f y) = veqb x y) -> (forall x y, ueqb (h x) (h y) = teqb x y) ->
  forall (e : trial (t_ga T) V) m,
  tried mga_default (mga_insert_at veqb teqb) (mga_union veqb teqb) (mga_union_at veqb teqb) mga_order e m ->
  exists m', tried mga_default (mga_insert_at weqb ueqb) (mga_union weqb ueqb) (mga_union_at weqb ueqb) mga_order
      (trial_map (tga_map h) f e) m' /\
    (forall t, mga_get ueqb m' (triple_map h t) = map f (mga_get teqb m t)) /\
    (forall c v, fst (mga_insert weqb ueqb (tga_map h c) (f v) m') = fst (mga_insert veqb teqb c v m)) /\
    (forall n c v, fst (mga_insert_at weqb ueqb n (tga_map h c) (f v) m') = fst (mga_insert_at veqb teqb n c v m)).
Proof. exact @ga_class_renamed. Qed.
Print Assumptions c81_ga_renamed.

(** The classes held after any insertions and unions of which some were interrupted are those of C80. *)
Theorem c81_ga_left : forall V T K KT (veqb : V -> V -> bool) (teqb : T -> T -> bool)
    (kv : V -> K) (kt : T -> KT) (cv : K -> K -> bool) (ck : KT -> KT -> bool),
  (forall x y, cv x y = true <-> x = y) -> (forall x y, ck x y = true <-> x = y) ->
  (forall x y, veqb x y = cv (kv x) (kv y)) -> (forall x y, teqb x y = ck (kt x) (kt y)) ->
  forall (e : trial (t_ga T) V) m,
  tried mga_default (mga_insert_at veqb teqb) (mga_union veqb teqb) (mga_union_at veqb teqb) mga_order e m ->
  exists held used, leaves same_key_ga (fun c => 1 + gives_ga c) rank_ga (trial_map (tga_map kt) kv e) held used /\
    (forall t, answers (map kv (mga_get teqb m t)) (fun c v => held c v /\ tga_m c (kt (t_p t)) (kt (t_o t)))) /\
    (forall c v, fst (mga_insert veqb teqb c v m) = true <-> ~ held (tga_map kt c) (kv v)).
Proof. exact @ga_class_left. Qed.
Print Assumptions c81_ga_left.

(** *** [GivenSubjectGivenPredicateMap] *)

(** The values answered: of each class the one that is held. *)
Theorem c81_gg_exact : forall V T K KT (veqb : V -> V -> bool) (teqb : T -> T -> bool)
    (kv : V -> K) (kt : T -> KT) (cv : K -> K -> bool) (ck : KT -> KT -> bool),
  (forall x y, cv x y = true <-> x = y) -> (forall x y, ck x y = true <-> x = y) ->
  (forall x y, veqb x y = cv (kv x) (kv y)) -> (forall x y, teqb x y = ck (kt x) (kt y)) ->
  forall (e : growth (t_gg T) V) (t : triple T),
  answers (mgg_get teqb (grow mgg_default (mgg_insert veqb teqb) (mgg_union veqb teqb) e) t)
    (fun c v => reps kv same_key_gg (growth_map (tgg_map kt) (fun v => v) e) c v /\ tgg_m c (kt (t_o t))).
Proof. exact @gg_class_exact. Qed.
Print Assumptions c81_gg_exact.

(** The result of an insertion. *)
Theorem c81_gg_insert : forall V T K KT (veqb : V -> V -> bool) (teqb : T -> T -> bool)
    (kv : V -> K) (kt : T -> KT) (cv : K -> K -> bool) (ck : KT -> KT -> bool),
  (forall x y, cv x y = true <-> x = y) -> (forall x y, ck x y = true <-> x = y) ->
  (forall x y, veqb x y = cv (kv x) (kv y)) -> (forall x y, teqb x y = ck (kt x) (kt y)) ->
  forall (e : growth (t_gg T) V) c v,
  fst (mgg_insert veqb teqb c v (grow mgg_default (mgg_insert veqb teqb) (mgg_union veqb teqb) e)) = true <->
    ~ exists w, reps kv same_key_gg (growth_map (tgg_map kt) (fun v => v) e) (tgg_map kt c) w /\ kv w = kv v.
Proof. exact @gg_class_insert. Qed.
Print Assumptions c81_gg_insert.

(** Every value answered was inserted itself, for a pattern whose class matches. *)
Theorem c81_gg_origin : forall V T K KT (veqb : V -> V -> bool) (teqb : T -> T -> bool)
    (kv : V -> K) (kt : T -> KT) (cv : K -> K -> bool) (ck : KT -> KT -> bool),
  (forall x y, cv x y = true <-> x = y) -> (forall x y, ck x y = true <-> x = y) ->
  (forall x y, veqb x y = cv (kv x) (kv y)) -> (forall x y, teqb x y = ck (kt x) (kt y)) ->
  forall (e : growth (t_gg T) V) (t : triple T) v,
  In v (mgg_get teqb (grow mgg_default (mgg_insert veqb teqb) (mgg_union veqb teqb) e) t) ->
    exists c0, inserted e c0 v /\ let c := tgg_map kt c0 in tgg_m c (kt (t_o t)).
Proof. exact @gg_class_origin. Qed.
Print Assumptions c81_gg_origin.

(** The classes answered are those of C79. *)
Theorem c81_gg_classes : forall V T K KT (veqb : V -> V -> bool) (teqb : T -> T -> bool)
    (kv : V -> K) (kt : T -> KT) (cv : K -> K -> bool) (ck : KT -> KT -> bool),
  (forall x y, cv x y = true <-> x = y) -> (forall x y, ck x y = true <-> x = y) ->
  (forall x y, veqb x y = cv (kv x) (kv y)) -> (forall x y, teqb x y = ck (kt x) (kt y)) ->
  forall (e : growth (t_gg T) V) (t : triple T),
  answers (map kv (mgg_get teqb (grow mgg_default (mgg_insert veqb teqb) (mgg_union veqb teqb) e) t))
    (fun c v => kept same_key_gg (growth_map (tgg_map kt) kv e) c v /\ tgg_m c (kt (t_o t))).
Proof. exact @gg_class_classes. Qed.
Print Assumptions c81_gg_classes.

(** The map only uses resources and values by comparing them, even if the comparison is no
    equivalence: with others that compare alike, the same answers. *)
Theorem c81_gg_renamed : forall V W T U (veqb : V -> V -> bool) (weqb : W -> W -> bool) (teqb : T -> T -> bool) (ueqb : U -> U -> bool)
    (f : V -> W) (h : T -> U),
  (forall x y, weqb (f x) (f y) = veqb x y) -> (forall x y, ueqb (h x) (h y) = teqb x y) ->
  forall (e : trial (t_gg T) V) m,
  tried mgg_default (mgg_insert_at veqb teqb) (mgg_union veqb teqb) (mgg_union_at veqb teqb) mgg_order e m ->
  exists m', tried mgg_default (mgg_insert_at weqb ueqb) (mgg_union weqb ueqb) (mgg_union_at weqb ueqb) mgg_order
      (trial_map (tgg_map h) f e) m' /\
    (forall t, mgg_get ueqb m' (triple_map h t) = map f (mgg_get teqb m t)) /\
    (forall c v, fst (mgg_insert weqb ueqb (tgg_map h c) (f v) m') = fst (mgg_insert veqb teqb c v m)) /\
    (forall n c v, fst (mgg_insert_at weqb ueqb n (tgg_map h c) (f v) m') = fst (mgg_insert_at veqb teqb n c v m)).
Proof. exact @gg_class_renamed. Qed.
Print Assumptions c81_gg_renamed.

(** The classes held after any insertions and unions of which some were interrupted are those of C80. *)
Theorem c81_gg_left : forall V T K KT (veqb : V -> V -> bool) (teqb : T -> T -> bool)
    (kv : V -> K) (kt : T -> KT) (cv : K -> K -> bool) (ck : KT -> KT -> bool),
  (forall x y, cv x y = true <-> x = y) -> (forall x y, ck x y = true <-> x = y) ->
  (forall x y, veqb x y = cv (kv x) (kv y)) -> (forall x y, teqb x y = ck (kt x) (kt y)) ->
  forall (e : trial (t_gg T) V) m,
  tried mgg_default (mgg_insert_at veqb teqb) (mgg_union veqb teqb) (mgg_union_at veqb teqb) mgg_order e m ->
  exists held used, leaves same_key_gg (fun c => 1 + gives_gg c) rank_gg (trial_map (tgg_map kt) kv e) held used /\
    (forall t, answers (map kv (mgg_get teqb m t)) (fun c v => held c v /\ tgg_m c (kt (t_o t)))) /\
    (forall c v, fst (mgg_insert veqb teqb c v m) = true <-> ~ held (tgg_map kt c) (kv v)).
Proof. exact @gg_class_left. Qed.
Print Assumptions c81_gg_left.

(** *** [AnySubjectAnyPredicateMap] *)

(** The values answered: of each class the one that is held. *)
Theorem c81_aa_exact : forall V T K KT (veqb : V -> V -> bool) (teqb : T -> T -> bool)
    (kv : V -> K) (kt : T -> KT) (cv : K -> K -> bool) (ck : KT -> KT -> bool),
  (forall x y, cv x y = true <-> x = y) -> (forall x y, ck x y = true <-> x = y) ->
  (forall x y, veqb x y = cv (kv x) (kv y)) -> (forall x y, teqb x y = ck (kt x) (kt y)) ->
  forall (e : growth (t_aa T) V) (t : triple T),
  answers (maa_get teqb (grow maa_default (maa_insert veqb teqb) (maa_union veqb teqb) e) t)
    (fun c v => reps kv same_key_aa (growth_map (taa_map kt) (fun v => v) e) c v /\ taa_m c (kt (t_s t)) (kt (t_p t)) (kt (t_o t))).
Proof. exact @aa_class_exact. Qed.
Print Assumptions c81_aa_exact.

(** The result of an insertion. *)
Theorem c81_aa_insert : forall V T K KT (veqb : V -> V -> bool) (teqb : T -> T -> bool)
    (kv : V -> K) (kt : T -> KT) (cv : K -> K -> bool) (ck : KT -> KT -> bool),
  (forall x y, cv x y = true <-> x = y) -> (forall x y, ck x y = true <-> x = y) ->
  (forall x y, veqb x y = cv (kv x) (kv y)) -> (forall x y, teqb x y = ck (kt x) (kt y)) ->
  forall (e : growth (t_aa T) V) c v,
  fst (maa_insert veqb teqb c v (grow maa_default (maa_insert veqb teqb) (maa_union veqb teqb) e)) = true <->
    ~ exists w, reps kv same_key_aa (growth_map (taa_map kt) (fun v => v) e) (taa_map kt c) w /\ kv w = kv v.
Proof. exact @aa_class_insert. Qed.
Print Assumptions c81_aa_insert.

(** Every value answered was inserted itself, for a pattern whose class matches. *)
Theorem c81_aa_origin : forall V T K KT (veqb : V -> V -> bool) (teqb : T -> T -> bool)
    (kv : V -> K) (kt : T -> KT) (cv : K -> K -> bool) (ck : KT -> KT -> bool),
  (forall x y, cv x y = true <-> x = y) -> (forall x y, ck x y = true <-> x = y) ->
  (forall x y, veqb x y = cv (kv x) (kv y)) -> (forall x y, teqb x y = ck (kt x) (kt y)) ->
  forall (e : growth (t_aa T) V) (t : triple T) v,
  In v (maa_get teqb (grow maa_default (maa_insert veqb teqb) (maa_union veqb teqb) e) t) ->
    exists c0, inserted e c0 v /\ let c := taa_map kt c0 in taa_m c (kt (t_s t)) (kt (t_p t)) (kt (t_o t)).
Proof. exact @aa_class_origin. Qed.
Print Assumptions c81_aa_origin.

(** The classes answered are those of C79. *)
Theorem c81_aa_classes : forall V T K KT (veqb : V -> V -> bool) (teqb : T -> T -> bool)
    (kv : V -> K) (kt : T -> KT) (cv : K -> K -> bool) (ck : KT -> KT -> bool),
  (forall x y, cv x y = true <-> x = y) -> (forall x y, ck x y = true <-> x = y) ->
  (forall x y, veqb x y = cv (kv x) (kv y)) -> (forall x y, teqb x y = ck (kt x) (kt y)) ->
  forall (e : growth (t_aa T) V) (t : triple T),
  answers (map kv (maa_get teqb (grow maa_default (maa_insert veqb teqb) (maa_union veqb teqb) e) t))
    (fun c v => kept same_key_aa (growth_map (taa_map kt) kv e) c v /\ taa_m c (kt (t_s t)) (kt (t_p t)) (kt (t_o t))).
Proof. exact @aa_class_classes. Qed.
Print Assumptions c81_aa_classes.

(** The map only uses resources and values by comparing them, even if the comparison is no
    equivalence: with others that compare alike, the same answers. *)
Theorem c81_aa_renamed : forall V W T U (veqb : V -> V -> bool) (weqb : W -> W -> bool) (teqb : T -> T -> bool) (ueqb : U -> U -> bool)
    (f : V -> W) (h : T -> U),
  (forall x y, weqb (f x) (f y) = veqb x y) -> (forall x y, ueqb (h x) (h y) = teqb x y) ->
  forall (e : trial (t_aa T) V) m,
  tried maa_default (maa_insert_at veqb teqb) (maa_union veqb teqb) (maa_union_at veqb teqb) maa_order e m ->
  exists m', tried maa_default (maa_insert_at weqb ueqb) (maa_union weqb ueqb) (maa_union_at weqb ueqb) maa_order
      (trial_map (taa_map h) f e) m' /\
    (forall t, maa_get ueqb m' (triple_map h t) = map f (maa_get teqb m t)) /\
    (forall c v, fst (maa_insert weqb ueqb (taa_map h c) (f v) m') = fst (maa_insert veqb teqb c v m)) /\
    (forall n c v, fst (maa_insert_at weqb ueqb n (taa_map h c) (f v) m') = fst (maa_insert_at veqb teqb n c v m)).
Proof. exact @aa_class_renamed. Qed.
Print Assumptions c81_aa_renamed.

(** The classes held after any insertions and unions of which some were interrupted are those of C80. *)
Theorem c81_aa_left : forall V T K KT (veqb : V -> V -> bool) (teqb : T -> T -> bool)
    (kv : V -> K) (kt : T -> KT) (cv : K -> K -> bool) (ck : KT -> KT -> bool),
  (forall x y, cv x y = true <-> x = y) -> (forall x y, ck x y = true <-> x = y) ->
  (forall x y, veqb x y = cv (kv x) (kv y)) -> (forall x y, teqb x y = ck (kt x) (kt y)) ->
  forall (e : trial (t_aa T) V) m,
  tried maa_default (maa_insert_at veqb teqb) (maa_union veqb teqb) (maa_union_at veqb teqb) maa_order e m ->
  exists held used, leaves same_key_aa (fun c => 1 + gives_aa c) rank_aa (trial_map (taa_map kt) kv e) held used /\
    (forall t, answers (map kv (maa_get teqb m t)) (fun c v => held c v /\ taa_m c (kt (t_s t)) (kt (t_p t)) (kt (t_o t)))) /\
    (forall c v, fst (maa_insert veqb teqb c v m) = true <-> ~ held (taa_map kt c) (kv v)).
Proof. exact @aa_class_left. Qed.
Print Assumptions c81_aa_left.

(** *** [AnySubjectGivenPredicateMap] *)

(** The values answered: of each class the one that is held. *)
Theorem c81_ag_exact : forall V T K KT (veqb : V -> V -> bool) (teqb : T -> T -> bool)
    (kv : V -> K) (kt : T -> KT) (cv : K -> K -> bool) (ck : KT -> KT -> bool),
  (forall x y, cv x y = true <-> x = y) -> (forall x y, ck x y = true <-> x = y) ->
  (forall x y, veqb x y = cv (kv x) (kv y)) -> (forall x y, teqb x y = ck (kt x) (kt y)) ->
  forall (e : growth (t_ag T) V) (t : triple T),
  answers (mag_get teqb (grow mag_default (mag_insert veqb teqb) (mag_union veqb teqb) e) t)
    (fun c v => reps kv same_key_ag (growth_map (tag_map kt) (fun v => v) e) c v /\ tag_m c (kt (t_s t)) (kt (t_o t))).
Proof. exact @ag_class_exact. Qed.
Print Assumptions c81_ag_exact.

(** The result of an insertion. *)
Theorem c81_ag_insert : forall V T K KT (veqb : V -> V -> bool) (teqb : T -> T -> bool)
    (kv : V -> K) (kt : T -> KT) (cv : K -> K -> bool) (ck : KT -> KT -> bool),
  (forall x y, cv x y = true <-> x = y) -> (forall x y, ck x y = true <-> x = y) ->
  (forall x y, veqb x y = cv (kv x) (kv y)) -> (forall x y, teqb x y = ck (kt x) (kt y)) ->
  forall (e : growth (t_ag T) V) c v,
  fst (mag_insert veqb teqb c v (grow mag_default (mag_insert veqb teqb) (mag_union veqb teqb) e)) = true <->
    ~ exists w, reps kv same_key_ag (growth_map (tag_map kt) (fun v => v) e) (tag_map kt c) w /\ kv w = kv v.
Proof. exact @ag_class_insert. Qed.
Print Assumptions c81_ag_insert.

(** Every value answered was inserted itself, for a pattern whose class matches. *)
Theorem c81_ag_origin : forall V T K KT (veqb : V -> V -> bool) (teqb : T -> T -> bool)
    (kv : V -> K) (kt : T -> KT) (cv : K -> K -> bool) (ck : KT -> KT -> bool),
  (forall x y, cv x y = true <-> x = y) -> (forall x y, ck x y = true <-> x = y) ->
  (forall x y, veqb x y = cv (kv x) (kv y)) -> (forall x y, teqb x y = ck (kt x) (kt y)) ->
  forall (e : growth (t_ag T) V) (t : triple T) v,
  In v (mag_get teqb (grow mag_default (mag_insert veqb teqb) (mag_union veqb teqb) e) t) ->
    exists c0, inserted e c0 v /\ let c := tag_map kt c0 in tag_m c (kt (t_s t)) (kt (t_o t)).
Proof. exact @ag_class_origin. Qed.
Print Assumptions c81_ag_origin.

(** The classes answered are those of C79. *)
Theorem c81_ag_classes : forall V T K KT (veqb : V -> V -> bool) (teqb : T -> T -> bool)
    (kv : V -> K) (kt : T -> KT) (cv : K -> K -> bool) (ck : KT -> KT -> bool),
  (forall x y, cv x y = true <-> x = y) -> (forall x y, ck x y = true <-> x = y) ->
  (forall x y, veqb x y = cv (kv x) (kv y)) -> (forall x y, teqb x y = ck (kt x) (kt y)) ->
  forall (e : growth (t_ag T) V) (t : triple T),
  answers (map kv (mag_get teqb (grow mag_default (mag_insert veqb teqb) (mag_union veqb teqb) e) t))
    (fun c v => kept same_key_ag (growth_map (tag_map kt) kv e) c v /\ tag_m c (kt (t_s t)) (kt (t_o t))).
Proof. exact @ag_class_classes. Qed.
Print Assumptions c81_ag_classes.

(** The map only uses resources and values by comparing them, even if the comparison is no
    equivalence: with others that compare alike, the same answers. *)
Theorem c81_ag_renamed : forall V W T U (veqb : V -> V -> bool) (weqb : W -> W -> bool) (teqb : T -> T -> bool) (ueqb : U -> U -> bool)
    (f : V -> W) (h : T -> U),
  (forall x y, weqb (f x) (f y) = veqb x y) -> (forall x y, ueqb (h x) (h y) = teqb x y) ->
  forall (e : trial (t_ag T) V) m,
  tried mag_default (mag_insert_at veqb teqb) (mag_union veqb teqb) (mag_union_at veqb teqb) mag_order e m ->
  exists m', tried mag_default (mag_insert_at weqb ueqb) (mag_union weqb ueqb) (mag_union_at weqb ueqb) mag_order
      (trial_map (tag_map h) f e) m' /\
    (forall t, mag_get ueqb m' (triple_map h t) = map f (mag_get teqb m t)) /\
    (forall c v, fst (mag_insert weqb ueqb (tag_map h c) (f v) m') = fst (mag_insert veqb teqb c v m)) /\
    (forall n c v, fst (mag_insert_at weqb ueqb n (tag_map h c) (f v) m') = fst (mag_insert_at veqb teqb n c v m)).
Proof. exact @ag_class_renamed. Qed.
Print Assumptions c81_ag_renamed.

(** The classes held after any insertions and unions of which some were interrupted are those of C80. *)
Theorem c81_ag_left : forall V T K KT (veqb : V -> V -> bool) (teqb : T -> T -> bool)
    (kv : V -> K) (kt : T -> KT) (cv : K -> K -> bool) (ck : KT -> KT -> bool),
  (forall x y, cv x y = true <-> x = y) -> (forall x y, ck x y = true <-> x = y) ->
  (forall x y, veqb x y = cv (kv x) (kv y)) -> (forall x y, teqb x y = ck (kt x) (kt y)) ->
  forall (e : trial (t_ag T) V) m,
  tried mag_default (mag_insert_at veqb teqb) (mag_union veqb teqb) (mag_union_at veqb teqb) mag_order e m ->
  exists held used, leaves same_key_ag (fun c => 1 + gives_ag c) rank_ag (trial_map (tag_map kt) kv e) held used /\
    (forall t, answers (map kv (mag_get teqb m t)) (fun c v => held c v /\ tag_m c (kt (t_s t)) (kt (t_o t)))) /\
    (forall c v, fst (mag_insert veqb teqb c v m) = true <-> ~ held (tag_map kt c) (kv v)).
Proof. exact @ag_class_left. Qed.
Print Assumptions c81_ag_left.

(** *** [GivenSubjectMap] *)

(** The values answered: of each class the one that is held. *)
Theorem c81_gs_exact : forall V T K KT (veqb : V -> V -> bool) (teqb : T -> T -> bool)
    (kv : V -> K) (kt : T -> KT) (cv : K -> K -> bool) (ck : KT -> KT -> bool),
  (forall x y, cv x y = true <-> x = y) -> (forall x y, ck x y = true <-> x = y) ->
  (forall x y, veqb x y = cv (kv x) (kv y)) -> (forall x y, teqb x y = ck (kt x) (kt y)) ->
  forall (e : growth (t_gs T) V) (t : triple T),
  answers (mgs_get teqb (grow mgs_default (mgs_insert veqb teqb) (mgs_union veqb teqb) e) t)
    (fun c v => reps kv same_key_gs (growth_map (tgs_map kt) (fun v => v) e) c v /\ tgs_m c (kt (t_p t)) (kt (t_o t))).
Proof. exact @gs_class_exact. Qed.
Print Assumptions c81_gs_exact.

(** The result of an insertion. *)
Theorem c81_gs_insert : forall V T K KT (veqb : V -> V -> bool) (teqb : T -> T -> bool)
    (kv : V -> K) (kt : T -> KT) (cv : K -> K -> bool) (ck : KT -> KT -> bool),
  (forall x y, cv x y = true <-> x = y) -> (forall x y, ck x y = true <-> x = y) ->
  (forall x y, veqb x y = cv (kv x) (kv y)) -> (forall x y, teqb x y = ck (kt x) (kt y)) ->
  forall (e : growth (t_gs T) V) c v,
  fst (mgs_insert veqb teqb c v (grow mgs_default (mgs_insert veqb teqb) (mgs_union veqb teqb) e)) = true <->
    ~ exists w, reps kv same_key_gs (growth_map (tgs_map kt) (fun v => v) e) (tgs_map kt c) w /\ kv w = kv v.
Proof. exact @gs_class_insert. Qed.
Print Assumptions c81_gs_insert.

(** Every value answered was inserted itself, for a pattern whose class matches. *)
Theorem c81_gs_origin : forall V T K KT (veqb : V -> V -> bool) (teqb : T -> T -> bool)
    (kv : V -> K) (kt : T -> KT) (cv : K -> K -> bool) (ck : KT -> KT -> bool),
  (forall x y, cv x y = true <-> x = y) -> (forall x y, ck x y = true <-> x = y) ->
  (forall x y, veqb x y = cv (kv x) (kv y)) -> (forall x y, teqb x y = ck (kt x) (kt y)) ->
  forall (e : growth (t_gs T) V) (t : triple T) v,
  In v (mgs_get teqb (grow mgs_default (mgs_insert veqb teqb) (mgs_union veqb teqb) e) t) ->
    exists c0, inserted e c0 v /\ let c := tgs_map kt c0 in tgs_m c (kt (t_p t)) (kt (t_o t)).
Proof. exact @gs_class_origin. Qed.
Print Assumptions c81_gs_origin.

(** The classes answered are those of C79. *)
Theorem c81_gs_classes : forall V T K KT (veqb : V -> V -> bool) (teqb : T -> T -> bool)
    (kv : V -> K) (kt : T -> KT) (cv : K -> K -> bool) (ck : KT -> KT -> bool),
  (forall x y, cv x y = true <-> x = y) -> (forall x y, ck x y = true <-> x = y) ->
  (forall x y, veqb x y = cv (kv x) (kv y)) -> (forall x y, teqb x y = ck (kt x) (kt y)) ->
  forall (e : growth (t_gs T) V) (t : triple T),
  answers (map kv (mgs_get teqb (grow mgs_default (mgs_insert veqb teqb) (mgs_union veqb teqb) e) t))
    (fun c v => kept same_key_gs (growth_map (tgs_map kt) kv e) c v /\ tgs_m c (kt (t_p t)) (kt (t_o t))).
Proof. exact @gs_class_classes. Qed.
Print Assumptions c81_gs_classes.

(** The map only uses resources and values by comparing them, even if the comparison is no
    equivalence: with others that compare alike, the same answers. *)
Theorem c81_gs_renamed : forall V W T U (veqb : V -> V -> bool) (weqb : W -> W -> bool) (teqb : T -> T -> bool) (ueqb : U -> U -> bool)
    (f : V -> W) (h : T -> U),
  (forall x y, weqb (f x) (f y) = veqb x y) -> (forall x y, ueqb (h x) (h y) = teqb x y) ->
  forall (e : trial (t_gs T) V) m,
  tried mgs_default (mgs_insert_at veqb teqb) (mgs_union veqb teqb) (mgs_union_at veqb teqb) mgs_order e m ->
  exists m', tried mgs_default (mgs_insert_at weqb ueqb) (mgs_union weqb ueqb) (mgs_union_at weqb ueqb) mgs_order
      (trial_map (tgs_map h) f e) m' /\
    (forall t, mgs_get ueqb m' (triple_map h t) = map f (mgs_get teqb m t)) /\
    (forall c v, fst (mgs_insert weqb ueqb (tgs_map h c) (f v) m') = fst (mgs_insert veqb teqb c v m)) /\
    (forall n c v, fst (mgs_insert_at weqb ueqb n (tgs_map h c) (f v) m') = fst (mgs_insert_at veqb teqb n c v m)).
Proof. exact @gs_class_renamed. Qed.
Print Assumptions c81_gs_renamed.

(** The classes held after any insertions and unions of which some were interrupted are those of C80. *)
Theorem c81_gs_left : forall V T K KT (veqb : V -> V -> bool) (teqb : T -> T -> bool)
    (kv : V -> K) (kt : T -> KT) (cv : K -> K -> bool) (ck : KT -> KT -> bool),
  (forall x y, cv x y = true <-> x = y) -> (forall x y, ck x y = true <-> x = y) ->
  (forall x y, veqb x y = cv (kv x) (kv y)) -> (forall x y, teqb x y = ck (kt x) (kt y)) ->
  forall (e : trial (t_gs T) V) m,
  tried mgs_default (mgs_insert_at veqb teqb) (mgs_union veqb teqb) (mgs_union_at veqb teqb) mgs_order e m ->
  exists held used, leaves same_key_gs (fun c => 1 + gives_gs c) rank_gs (trial_map (tgs_map kt) kv e) held used /\
    (forall t, answers (map kv (mgs_get teqb m t)) (fun c v => held c v /\ tgs_m c (kt (t_p t)) (kt (t_o t)))) /\
    (forall c v, fst (mgs_insert veqb teqb c v m) = true <-> ~ held (tgs_map kt c) (kv v)).
Proof. exact @gs_class_left. Qed.
Print Assumptions c81_gs_left.

(** *** [AnySubjectMap] *)

(** The values answered: of each class the one that is held. *)
Theorem c81_as_exact : forall V T K KT (veqb : V -> V -> bool) (teqb : T -> T -> bool)
    (kv : V -> K) (kt : T -> KT) (cv : K -> K -> bool) (ck : KT -> KT -> bool),
  (forall x y, cv x y = true <-> x = y) -> (forall x y, ck x y = true <-> x = y) ->
  (forall x y, veqb x y = cv (kv x) (kv y)) -> (forall x y, teqb x y = ck (kt x) (kt y)) ->
  forall (e : growth (t_as T) V) (t : triple T),
  answers (mas_get teqb (grow mas_default (mas_insert veqb teqb) (mas_union veqb teqb) e) t)
    (fun c v => reps kv same_key_as (growth_map (tas_map kt) (fun v => v) e) c v /\ tas_m c (kt (t_s t)) (kt (t_p t)) (kt (t_o t))).
Proof. exact @as_class_exact. Qed.
Print Assumptions c81_as_exact.

(** The result of an insertion. *)
Theorem c81_as_insert : forall V T K KT (veqb : V -> V -> bool) (teqb : T -> T -> bool)
    (kv : V -> K) (kt : T -> KT) (cv : K -> K -> bool) (ck : KT -> KT -> bool),
  (forall x y, cv x y = true <-> x = y) -> (forall x y, ck x y = true <-> x = y) ->
  (forall x y, veqb x y = cv (kv x) (kv y)) -> (forall x y, teqb x y = ck (kt x) (kt y)) ->
  forall (e : growth (t_as T) V) c v,
  fst (mas_insert veqb teqb c v (grow mas_default (mas_insert veqb teqb) (mas_union veqb teqb) e)) = true <->
    ~ exists w, reps kv same_key_as (growth_map (tas_map kt) (fun v => v) e) (tas_map kt c) w /\ kv w = kv v.
Proof. exact @as_class_insert. Qed.
Print Assumptions c81_as_insert.

(** Every value answered was inserted itself, for a pattern whose class matches. *)
Theorem c81_as_origin : forall V T K KT (veqb : V -> V -> bool) (teqb : T -> T -> bool)
    (kv : V -> K) (kt : T -> KT) (cv : K -> K -> bool) (ck : KT -> KT -> bool),
  (forall x y, cv x y = true <-> x = y) -> (forall x y, ck x y = true <-> x = y) ->
  (forall x y, veqb x y = cv (kv x) (kv y)) -> (forall x y, teqb x y = ck (kt x) (kt y)) ->
  forall (e : growth (t_as T) V) (t : triple T) v,
  In v (mas_get teqb (grow mas_default (mas_insert veqb teqb) (mas_union veqb teqb) e) t) ->
    exists c0, inserted e c0 v /\ let c := tas_map kt c0 in tas_m c (kt (t_s t)) (kt (t_p t)) (kt (t_o t)).
Proof. exact @as_class_origin. Qed.
Print Assumptions c81_as_origin.

(** The classes answered are those of C79. *)
Theorem c81_as_classes : forall V T K KT (veqb : V -> V -> bool) (teqb : T -> T -> bool)
    (kv : V -> K) (kt : T -> KT) (cv : K -> K -> bool) (ck : KT -> KT -> bool),
  (forall x y, cv x y = true <-> x = y) -> (forall x y, ck x y = true <-> x = y) ->
  (forall x y, veqb x y = cv (kv x) (kv y)) -> (forall x y, teqb x y = ck (kt x) (kt y)) ->
  forall (e : growth (t_as T) V) (t : triple T),
  answers (map kv (mas_get teqb (grow mas_default (mas_insert veqb teqb) (mas_union veqb teqb) e) t))
    (fun c v => kept same_key_as (growth_map (tas_map kt) kv e) c v /\ tas_m c (kt (t_s t)) (kt (t_p t)) (kt (t_o t))).
Proof. exact @as_class_classes. Qed.
Print Assumptions c81_as_classes.

(** The map only uses resources and values by comparing them, even if the comparison is no
    equivalence: with others that compare alike, the same answers. *)
Theorem c81_as_renamed : forall V W T U (veqb : V -> V -> bool) (weqb : W -> W -> bool) (teqb : T -> T -> bool) (ueqb : U -> U -> bool)
    (f : V -> W) (h : T -> U),
  (forall x y, weqb (f x) (f y) = veqb x y) -> (forall x y, ueqb (h x) (h y) = teqb x y) ->
  forall (e : trial (t_as T) V) m,
  tried mas_default (mas_insert_at veqb teqb) (mas_union veqb teqb) (mas_union_at veqb teqb) mas_order e m ->
  exists m', tried mas_default (mas_insert_at weqb ueqb) (mas_union weqb ueqb) (mas_union_at weqb ueqb) mas_order
      (trial_map (tas_map h) f e) m' /\
    (forall t, mas_get ueqb m' (triple_map h t) = map f (mas_get teqb m t)) /\
    (forall c v, fst (mas_insert weqb ueqb (tas_map h c) (f v) m') = fst (mas_insert veqb teqb c v m)) /\
    (forall n c v, fst (mas_insert_at weqb ueqb n (tas_map h c) (f v) m') = fst (mas_insert_at veqb teqb n c v m)).
Proof. exact @as_class_renamed. Qed.
Print Assumptions c81_as_renamed.

(** The classes held after any insertions and unions of which some were interrupted are those of C80. *)
Theorem c81_as_left : forall V T K KT (veqb : V -> V -> bool) (teqb : T -> T -> bool)
    (kv : V -> K) (kt : T -> KT) (cv : K -> K -> bool) (ck : KT -> KT -> bool),
  (forall x y, cv x y = true <-> x = y) -> (forall x y, ck x y = true <-> x = y) ->
  (forall x y, veqb x y = cv (kv x) (kv y)) -> (forall x y, teqb x y = ck (kt x) (kt y)) ->
  forall (e : trial (t_as T) V) m,
  tried mas_default (mas_insert_at veqb teqb) (mas_union veqb teqb) (mas_union_at veqb teqb) mas_order e m ->
  exists held used, leaves same_key_as (fun c => 1 + gives_as c) rank_as (trial_map (tas_map kt) kv e) held used /\
    (forall t, answers (map kv (mas_get teqb m t)) (fun c v => held c v /\ tas_m c (kt (t_s t)) (kt (t_p t)) (kt (t_o t)))) /\
    (forall c v, fst (mas_insert veqb teqb c v m) = true <-> ~ held (tas_map kt c) (kv v)).
Proof. exact @as_class_left. Qed.
Print Assumptions c81_as_left.

(** *** [TriplePatternMap] *)

(** The values answered: of each class the first that was inserted. *)
Theorem c81_tpm_exact : forall V T K KT (veqb : V -> V -> bool) (teqb : T -> T -> bool)
    (kv : V -> K) (kt : T -> KT) (cv : K -> K -> bool) (ck : KT -> KT -> bool),
  (forall x y, cv x y = true <-> x = y) -> (forall x y, ck x y = true <-> x = y) ->
  (forall x y, veqb x y = cv (kv x) (kv y)) -> (forall x y, teqb x y = ck (kt x) (kt y)) ->
  forall (l : list (ctp T * V)) (t : triple T),
  answers (tpm_get teqb (snd (insert_all (tpm_insert veqb teqb) l tpm_default)) t)
    (fun c v => first_of kv (map (fun cv => (ct_map kt (fst cv), snd cv)) l) c v /\ ct_matches c (triple_map kt t)).
Proof. exact @tpm_class_exact. Qed.
Print Assumptions c81_tpm_exact.

(** The result of an insertion. *)
Theorem c81_tpm_insert : forall V T K KT (veqb : V -> V -> bool) (teqb : T -> T -> bool)
    (kv : V -> K) (kt : T -> KT) (cv : K -> K -> bool) (ck : KT -> KT -> bool),
  (forall x y, cv x y = true <-> x = y) -> (forall x y, ck x y = true <-> x = y) ->
  (forall x y, veqb x y = cv (kv x) (kv y)) -> (forall x y, teqb x y = ck (kt x) (kt y)) ->
  forall (l : list (ctp T * V)) c v,
  fst (tpm_insert veqb teqb c v (snd (insert_all (tpm_insert veqb teqb) l tpm_default))) = true <->
    ~ exists c' w, In (c', w) l /\ ct_map kt c' = ct_map kt c /\ kv w = kv v.
Proof. exact @tpm_class_insert. Qed.
Print Assumptions c81_tpm_insert.

(** The classes answered are those of C43. *)
Theorem c81_tpm_classes : forall V T K KT (veqb : V -> V -> bool) (teqb : T -> T -> bool)
    (kv : V -> K) (kt : T -> KT) (cv : K -> K -> bool) (ck : KT -> KT -> bool),
  (forall x y, cv x y = true <-> x = y) -> (forall x y, ck x y = true <-> x = y) ->
  (forall x y, veqb x y = cv (kv x) (kv y)) -> (forall x y, teqb x y = ck (kt x) (kt y)) ->
  forall (l : list (ctp T * V)) (t : triple T),
  answers (map kv (tpm_get teqb (snd (insert_all (tpm_insert veqb teqb) l tpm_default)) t))
    (fun c v => In (c, v) (map (fun cv => (ct_map kt (fst cv), kv (snd cv))) l) /\ ct_matches c (triple_map kt t)).
Proof. exact @tpm_class_classes. Qed.
Print Assumptions c81_tpm_classes.

(** The map only uses resources and values by comparing them, also when insertions are interrupted. *)
Theorem c81_tpm_renamed : forall V W T U (veqb : V -> V -> bool) (weqb : W -> W -> bool) (teqb : T -> T -> bool) (ueqb : U -> U -> bool)
    (f : V -> W) (h : T -> U),
  (forall x y, weqb (f x) (f y) = veqb x y) -> (forall x y, ueqb (h x) (h y) = teqb x y) ->
  forall l : list (nat * (ctp T * V)),
  let m := insert_runs (tpm_insert_at veqb teqb) l tpm_default in
  let m' := insert_runs (tpm_insert_at weqb ueqb)
    (map (fun x => (fst x, (ct_map h (fst (snd x)), f (snd (snd x))))) l) tpm_default in
  fst m' = fst m /\ forall t, tpm_get ueqb (snd m') (triple_map h t) = map f (tpm_get teqb (snd m) t).
Proof. exact @tpm_class_renamed. Qed.
Print Assumptions c81_tpm_renamed.

(** A concrete equality that is not identity meets the hypotheses: numbers that differ in their last bit only
    are called equal. *)
Definition c81_eqb (x y : nat) : bool := Nat.eqb (Nat.div2 x) (Nat.div2 y).
Example c81_hyp : (forall x y, Nat.eqb x y = true <-> x = y) /\
  (forall x y, c81_eqb x y = Nat.eqb (Nat.div2 x) (Nat.div2 y)).
Proof. exact (conj Nat.eqb_eq (fun x y => eq_refl)). Qed.
(** 4 and 5 are called equal, so are the resources 10 and 11: the first value inserted stays, and a union
    takes the whole entry of the other map under a key, and this map's value under none. *)
Definition c81_a : growth (t_ga nat) nat :=
  Inserted (Inserted (Inserted (Inserted Fresh TGA_Any 4) TGA_Any 5) (TGA_Given 10) 6) (TGA_Given 11) 8.
Definition c81_b : growth (t_ga nat) nat :=
  Inserted (Inserted (Inserted Fresh TGA_Any 5) TGA_SameP 5) (TGA_Given 11) 7.
Example c81_ex :
  let grown := grow mga_default (mga_insert c81_eqb c81_eqb) (mga_union c81_eqb c81_eqb) in
  mga_get c81_eqb (grown c81_a) (Triple 0 1 10) = [4; 6; 8] /\
  mga_get c81_eqb (grown (United c81_a c81_b)) (Triple 0 10 11) = [4; 5; 7] /\
  mga_get c81_eqb (grown (United c81_b c81_a)) (Triple 0 10 11) = [5; 5; 6; 8].
Proof. vm_compute. auto. Qed.
Example c81_ex_tpm :
  let m := insert_all (tpm_insert c81_eqb c81_eqb)
    [(CT_GivenS 10 (TG_AnyP TGA_Any), 4); (CT_GivenS 11 (TG_AnyP TGA_Any), 5); (CT_AnyS (TA_AnyP TAA_SameS), 5)] tpm_default in
  fst m = [true; false; true] /\ tpm_get c81_eqb (snd m) (Triple 11 0 10) = [5; 4].
Proof. vm_compute. auto. Qed.
(** An equality that is not even transitive meets the hypotheses of the theorems about other names. *)
Example c81_renamed_hyp : let near x y := (x <=? y + 1) && (y <=? x + 1) in
  (forall x y, near (Datatypes.S x) (Datatypes.S y) = near x y) /\ near 1 2 = true /\ near 2 3 = true /\ near 1 3 = false.
Proof. cbn. auto. Qed.
